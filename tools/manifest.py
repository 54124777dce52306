#!/usr/bin/env python3
"""Writes MANIFEST.json: collects the theorems named Cxx_... in rocq/theories/P_*.v."""
import json, re, glob, os
here = os.path.dirname(os.path.abspath(__file__))
root = os.path.dirname(here)
ids = [json.loads(l)["id"] for l in open(root + "/properties.jsonl")]
thms = {}
for f in sorted(glob.glob(root + "/rocq/theories/P_*.v")):
    for m in re.finditer(r"^(?:Theorem|Corollary)\s+((?:C\d\d_)+[A-Za-z0-9_]*)", open(f).read(), re.M):
        n = m.group(1)
        for i in re.findall(r"C\d\d(?=_)", n):
            thms.setdefault(i, []).append(n)
exec(open(here + "/status.py").read())  # STATUS: id -> (status, note)
claims = []
for i in ids:
    t = thms.get(i, [])
    st, note = STATUS.get(i, ("proved" if t else "partial", ""))
    if not t:
        if st != "not_applicable":
            continue
    claims.append(dict(property=i, status=st, theorems=t, note=note))
json.dump(dict(claims=claims), open(root + "/MANIFEST.json", "w"), indent=1)
print(len(claims), "claims", [i for i in ids if i not in thms])
