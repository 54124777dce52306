#!/usr/bin/env python3
"""Extract the messages of /repo/tests/test_capnproto.py (as text, never executed) to theories/T_capnp.v.

The project's test passes each of them through the generated schema and back; P_fits.v proves that each fits it."""
import ast
t = ast.parse(open("/repo/tests/test_capnproto.py").read())

def ev(n):
    if isinstance(n, ast.Constant): return n.value
    if isinstance(n, ast.BinOp) and isinstance(n.op, ast.Add): return ev(n.left) + ev(n.right)
    if isinstance(n, ast.BinOp) and isinstance(n.op, ast.Mult): return ev(n.left) * ev(n.right)
    if isinstance(n, ast.Call) and isinstance(n.func, ast.Attribute) and n.func.attr == "fromhex": return bytes.fromhex(ev(n.args[0]))
    raise ValueError(ast.dump(n))

for n in t.body:
    if isinstance(n, ast.Assign) and n.targets[0].id == "valid":
        vs = [ev(x) for x in n.value.elts]
out = ["(** GENERATED by tools/testcapnp.py from /repo/tests/test_capnproto.py; do not edit.",
       "    The messages the project's test passes through the schema and back (test_capnproto.py:32-479). *)",
       "From Verif Require Import PyVal.", "Definition capnp_vectors : list (list Z) :=", "  ["]
out.append(";\n   ".join("[" + "; ".join(str(b) for b in v) + "]" for v in vs) + "].")
open("/verif/rocq/theories/T_capnp.v", "w").write("\n".join(out) + "\n")
print(len(vs))
