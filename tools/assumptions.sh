#!/bin/sh
# Print Assumptions for every theorem of MANIFEST.json (run after make, in /verif/rocq)
cd "$(dirname "$0")/../rocq" || exit 1
D=$(mktemp -d)
python3 - > $D/All.v <<'P'
import json,re,glob,os
M=json.load(open('../MANIFEST.json')); where={}
for f in glob.glob('theories/P_*.v'):
    for m in re.finditer(r'^(?:Theorem|Corollary)\s+(C\d\d_\w+)',open(f).read(),re.M): where[m[1]]=os.path.basename(f)[:-2]
ts=sorted({t for c in M['claims'] for t in c['theorems']})
for f in sorted(set(where[t] for t in ts)): print(f'From Verif Require {f}.')
for t in ts: print(f'Print Assumptions {where[t]}.{t}.')
P
coqc -Q theories Verif $D/All.v > $D/out 2>&1; grep -c "Closed under the global context" $D/out; grep -v "Closed under" $D/out | head; grep -c "^Print" $D/All.v
