"""Writes rocq/theories/T_names.v: results of CPython for the functions modelled in Names.v.

camelcase and snakecase are the text of /repo/bluetooth_mesh/messages/util.py:483-493, which needs only `re`."""
import random, re
from datetime import date

def camelcase(field_name):
    if field_name is None:
        return None
    head, *tail = str(field_name).lower().replace(" ", "_").split("_")
    return "".join([head, *(i.title() for i in tail)])

def snakecase(camel_input):
    words = re.findall(r"[A-Z]?[a-z\d]+|[A-Z]{1,}(?=[A-Z][a-z]|\d|\W|$)|\d+", camel_input)
    return "_".join(map(str.lower, words))

random.seed(51)
names = ["GATT_proxy", "app key indices", "resolution_100_ms", "a_b", "a_b_c", "value_a_b", "size_2d", "_rfu", "", "_", "__", "HTTPServer", "ABCd1E"]
names += ["".join(random.choice("abzABZ019_ -.") for _ in range(random.randint(1, 12))) for _ in range(150)]
days = [-719162, 2932896, 0, -1, 59, 60, 365, 789, 11016, 11017] + [random.randint(-719162, 2932896) for _ in range(150)]
out = ["(* generated by tools/testnames.py: what CPython answers *)",
       "From Verif Require Import PyVal Adapters Names.", "",
       "Definition name_vectors : list (string * string * string) := ["]
out.append(";\n".join('  ("%s", "%s", "%s")%%string' % (n, camelcase(n), snakecase(n)) for n in names) + "].")
out.append("Definition day_vectors : list (Z * (Z * Z * Z)) := [")
def v(d):
    x = date.fromordinal(d + 719163)
    return "  (%s, (%d, %d, %d))" % ("(%d)" % d if d < 0 else d, x.year, x.month, x.day)
out.append(";\n".join(map(v, days)) + "].")
out.append('''
Example names_agree : forallb (fun p => let '(n, c, s) := p in String.eqb (camelcase n) c && String.eqb (snakecase n) s)%bool name_vectors = true.
Proof. vm_compute. reflexivity. Qed.
Example days_agree : forallb (fun p => let '(z, (y, m, d)) := p in let '(y', m', d') := civil_of z in (y =? y') && (m =? m') && (d =? d'))%bool day_vectors = true.
Proof. vm_compute. reflexivity. Qed.''')
open("/verif/rocq/theories/T_names.v", "w").write("\n".join(out) + "\n")
