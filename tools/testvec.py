#!/usr/bin/env python3
"""Extract the test vectors of /repo/tests (as text, never executed) to theories/T_vectors.v.

The vectors are literals: they are evaluated by a tiny evaluator over ast nodes
(constants, dict/list/set displays, dict(...), bytes.fromhex, enum members read
from the source text, datetime/timedelta/date/IPv4Address).  T_vectors.v checks
by computation that the Coq model builds and parses them as the project's own
test-suite demands: a fidelity test of the model, not a proof of a property.
"""
import ast, os, sys, struct, datetime as dt
from fractions import Fraction
sys.path.insert(0, os.path.dirname(os.path.abspath(__file__)))
import gen

TESTS = "/repo/tests"
for path, name in gen.MODULES:
    m = gen.Mod(path, name)
    m.run()


class En(int):
    pass


def mkenum(e, n):
    x = En(e.members[n])
    # canonical member name
    x.name = next(k for k, v in e.members.items() if v == e.members[n])
    return x


class Ip:
    def __init__(s, t): s.l = [int(x) for x in t.split(".")]


class Con:
    def __init__(s, coq): s.coq = coq


class Ieee:
    def __init__(s, w, b): s.w, s.b = w, b


class Ev:
    def __init__(s, mods): s.mods = mods

    def name(s, n):
        for m in s.mods:
            if n in gen.Mod.all[m].env:
                return gen.Mod.all[m].env[n]
        if n == "MESH_UNIX_EPOCH_DIFF": return 946684800
        raise KeyError(n)

    def ev(s, n):
        if isinstance(n, ast.Constant): return n.value
        if isinstance(n, ast.Name):
            e = s.name(n.id)
            if isinstance(e, int): return e
            if e.kind == "con": return Con(e.coq)
            if e.kind == "enum": return e
            if e.kind == "py": return e.v
            raise KeyError(n.id)
        if isinstance(n, ast.Attribute):
            u = ast.unparse(n)
            if u == "sys.float_info.max": return sys.float_info.max
            if u == "timezone.utc": return dt.timezone.utc
            return mkenum(s.ev(n.value), n.attr)
        if isinstance(n, (ast.List, ast.Tuple)): return [s.ev(x) for x in n.elts]
        if isinstance(n, ast.Set): return ("set", [s.ev(x) for x in n.elts])
        if isinstance(n, ast.Dict): return {s.ev(k): s.ev(v) for k, v in zip(n.keys, n.values)}
        if isinstance(n, ast.UnaryOp): return -s.ev(n.operand)
        if isinstance(n, ast.BinOp):
            a, b = s.ev(n.left), s.ev(n.right)
            return {ast.Add: lambda: a + b, ast.Mult: lambda: a * b, ast.Sub: lambda: a - b,
                    ast.RShift: lambda: a >> b, ast.Pow: lambda: a ** b, ast.Div: lambda: a / b}[type(n.op)]()
        if isinstance(n, ast.Call):
            f = ast.unparse(n.func)
            if f.endswith(".total_seconds"): return s.ev(n.func.value).total_seconds()
            if f == "Struct":
                u = ast.unparse(n)
                if "SingleKeyIndex" in u:
                    return Con('(CStruct (FBits 2 (FPad None 4 (FCons "key_index" (CBits 12 false) FNil)) FNil))')
                return Con("config_ConfigAppKeyDelete")
            a = [s.ev(x) for x in n.args]
            k = {x.arg: s.ev(x.value) for x in n.keywords}
            if f == "dict": return dict(*a, **k)
            if f == "bytes.fromhex": return bytes.fromhex(a[0])
            if f == "bytes": return bytes(*a)
            if f == "float": return float(a[0])
            if f == "timedelta": return dt.timedelta(*a, **k)
            if f == "timezone": return dt.timezone(*a)
            if f == "datetime": return dt.datetime(*a, **k)
            if f == "date": return dt.date(*a, **k)
            if f == "datetime.fromtimestamp": return dt.datetime.fromtimestamp(*a)
            if f == "IPv4Address": return Ip(a[0])
            if f == "list": return list(a[0])
            if f == "subsecond_to_seconds": return a[0] / 256
            if f == "mesh_time_zone_offset_to_timedelta": return dt.timedelta(seconds=(a[0] - 0x40) * 900)
            if f == "mesh_tai_utc_delta_to_timedelta": return dt.timedelta(seconds=a[0] - 0xFF)
        raise KeyError(ast.unparse(n))


EPOCH = dt.datetime(1970, 1, 1, tzinfo=dt.timezone.utc)
US = dt.timedelta(microseconds=1)


def zz(n): return f"({n})" if n < 0 else str(n)
def zl(l): return "[" + "; ".join(zz(x) for x in l) + "]"


def coq(v):
    if v is None: return "VNone"
    if isinstance(v, bool): return f"(VBool {'true' if v else 'false'})"
    if isinstance(v, En): return f'(VEnum "{v.name}" {zz(int(v))})'
    if isinstance(v, int): return f"(VInt {zz(v)})"
    if isinstance(v, float):
        if v == float("inf"): return "VInf"
        if v == sys.float_info.max: return "(VFloat fmax)"
        f = Fraction(v)
        return f"(VFloat ({zz(f.numerator)} # {f.denominator}))"
    if isinstance(v, str): return f"(VStr {zl([ord(c) for c in v])})"
    if isinstance(v, bytes): return f"(VBytes {zl(v)})"
    if isinstance(v, list): return "(VList [" + "; ".join(coq(x) for x in v) + "])"
    if isinstance(v, tuple): return "(VSet [" + "; ".join(coq(x) for x in v[1]) + "])"
    if isinstance(v, dict):
        return "(VDict [" + "; ".join(f'("{k}"%string, {coq(x)})' for k, x in v.items()) + "])"
    if isinstance(v, dt.datetime):
        return f"(VDateTime {zz((v - EPOCH) // US)} {zz(int(v.utcoffset().total_seconds()))})"
    if isinstance(v, dt.timedelta): return f"(VTimedelta {zz(v // US)})"
    if isinstance(v, dt.date): return f"(VDate {zz((v - dt.date(1970, 1, 1)).days)})"
    if isinstance(v, Ip): return f"(VIPv4 {zl(v.l)})"
    if isinstance(v, Ieee): return f"(VIeee {v.w} {v.b})"
    raise KeyError(v)


def ieee(v):
    """debugV2: FLOAT/DOUBLE parameters are opaque bit patterns in the model"""
    if isinstance(v, list): return [ieee(x) for x in v]
    if isinstance(v, dict):
        d = {k: ieee(x) for k, x in v.items()}
        t = d.get("data_type")
        if isinstance(t, En) and t.name == "FLOAT":
            d["parameter"] = Ieee(4, struct.unpack("<I", struct.pack("<f", d["parameter"]))[0])
        return d
    return v


SKIPPED = []
NAMES = {"B": [], "P": [], "EB": [], "EP": []}   # build ok, parse ok, build error, parse error


def load(f):
    t = ast.parse(open(os.path.join(TESTS, f)).read())
    out = {}
    for n in t.body:
        if isinstance(n, ast.Assign) and isinstance(n.value, ast.List):
            out[n.targets[0].id] = [(c, c.lineno) for c in n.value.elts if isinstance(c, ast.Call)]
    return out


def each(f, name, mods):
    ev = Ev(mods)
    for c, line in load(f)[name]:
        try:
            yield f"{f}:{line}", [ev.ev(a) for a in c.args]
        except KeyError as e:
            SKIPPED.append((f, line, str(e)))


def add(kind, loc, con, data, val):
    NAMES[kind].append(f'("{loc}"%string, {con}, {zl(data)}, {coq(val)})')


def both(loc, con, enc, bval, pval, parse=True, build=True):
    if build: add("B", loc, con, enc, bval)
    if parse: add("P", loc, con, enc, pval)


for f, lst, con_, mods in [
        ("test_battery.py", "valid", "battery_GenericBatteryMessage", ["battery"]),
        ("test_generics.py", "valid", "onoff_GenericOnOffMessage", ["onoff"]),
        ("test_level.py", "valid", "level_GenericLevelMessage", ["level"]),
        ("test_light.py", "valid_lightness", "lightness_LightLightnessMessage", ["lightness", "ctl", "config"]),
        ("test_light.py", "valid_lightness_setup", "lightness_LightLightnessSetupMessage", ["lightness", "ctl", "config"]),
        ("test_light.py", "valid_ctl", "ctl_LightCTLMessage", ["lightness", "ctl", "config"]),
        ("test_light.py", "valid_ctl_setup", "ctl_LightCTLSetupMessage", ["lightness", "ctl", "config"]),
        ("test_light_extended_controller.py", "valid", "lec_LightExtendedControllerMessage", ["lec", "properties"]),
        ("test_scene.py", "valid", "scene_SceneMessage", ["scene"]),
        ("test_sensor.py", "valid", "sensor_SensorMessage", ["sensor", "properties"]),
        ("test_sensor.py", "valid_setup", "sensor_SensorSetupMessage", ["sensor", "properties"]),
        ("test_time.py", "valid", "time_TimeMessage", ["time"]),
        ("test_generic_properties.py", "valid", "property_GenericPropertyMessage", ["property", "properties"])]:
    for loc, (enc, op, data) in each(f, lst, mods):
        pop = op
        if f == "test_generic_properties.py":  # the tests compare .params only; one names another opcode than it encodes
            e = gen.Mod.all["property"].env["GenericPropertyOpcode"]
            num = enc[0] if enc[0] < 128 else enc[0] * 256 + enc[1]
            pop = mkenum(e, next(k for k, v in e.members.items() if v == num))
        both(loc, con_, enc, {"opcode": op, "params": data}, {"opcode": pop, pop.name.lower(): data},
             parse=f not in ("test_light_extended_controller.py",),
             build=f not in ("test_generic_properties.py",))

for loc, (enc, data) in each("test_sensor.py", "valid_properties", ["sensor", "properties"]):
    op = mkenum(gen.Mod.all["sensor"].env["SensorSetupOpcode"], "SENSOR_SETTING_SET")
    both(loc, "sensor_SensorSetupMessage", enc, {"opcode": op, "params": data}, {"opcode": op, "sensor_setting_set": data})

for f, lst, p in [("test_config.py", "valid", True), ("test_config.py", "build_valid", False), ("test_health.py", "valid", True)]:
    for loc, (c, enc, data) in each(f, lst, ["config" if "config" in f else "health"]):
        both(loc, c.coq, enc, data, data, parse=p)
for f, mod in [("test_config.py", "config"), ("test_health.py", "health")]:
    for c, line in load(f)["parse_invalid"]:
        ev = Ev([mod])
        add("EP", f"{f}:{line}", ev.ev(c.args[0]).coq, ev.ev(c.args[1]), None)
    for c, line in load(f)["build_invalid"]:
        ev = Ev([mod])
        add("EB", f"{f}:{line}", ev.ev(c.args[0]).coq, b"", ev.ev(c.args[1]))
for c, line in load("test_config.py")["invalid_retr"]:
    ev = Ev(["config"])
    add("EB", f"test_config.py:{line}", ev.ev(c.args[0]).coq, b"", ev.ev(c.args[2]))
for c, line in load("test_scene.py")["invalid"]:
    ev = Ev(["scene"])
    add("EB", f"test_scene.py:{line}", "scene_SceneMessage", b"", {"opcode": ev.ev(c.args[1]), "params": ev.ev(c.args[2])})

for f, lst, con_, mods, p, b in [
        ("test_debug.py", "valid", "debug_DebugParams", ["debug"], True, True),
        ("test_debug.py", "valid_parse", "debug_DebugParams", ["debug"], True, False),
        ("test_emergency_lighting.py", "valid", "el_EmergencyLightingParams", ["el", "properties"], True, True),
        ("test_emergency_lighting_test.py", "valid", "elt_EmergencyLightingTestParams", ["elt", "properties"], True, True)]:
    for loc, (enc, sub, data) in each(f, lst, mods):
        both(loc, con_, enc, {"subopcode": sub, "payload": data}, {"subopcode": sub, sub.name.lower(): data}, p, b)
for loc, (enc, sub, data) in each("test_rrule_scheduler.py", "valid", ["rrule"]):
    pay = {"entry_id": data["entry_id"],
           "scheduler_register_entry": {"array_of_slots": data["slots"], "rules": data["rules"]}}
    add("P", loc, "rrule_RRuleSchedulerSubMessage", enc, {"subopcode": sub, "payload": pay})

for f, mods, b in [("test_gateway_config_server.py", ["gateway"], False), ("test_network_diagnostic_server.py", ["nds"], True)]:
    for loc, (c, enc, sub, data) in each(f, "valid", mods):
        both(loc, c.coq, enc, {"subopcode": sub, "payload": data}, {"subopcode": sub, sub.name.lower(): data}, build=b)
for loc, (enc, sub, pt, page, data) in each("test_debugV2.py", "valid", ["debugV2"]):
    d = {"subopcode": sub, "parameter_type": pt, "page_number": page, "payload": ieee(data)}
    p = dict(d, payload=[{"data_type": x["data_type"], x["data_type"].name.lower(): x["parameter"]} for x in d["payload"]])
    both(loc, "debugV2_DebugV2SubMessage", enc, d, p)

ACC = []
for f in ("test_access.py", "test_strings.py"):
    for loc, (enc, data) in each(f, "valid", []):
        ACC.append((f'("{loc}"%string, {zl(enc)}, {coq(data)})', f == "test_access.py"))

HEAD = '''(** GENERATED by tools/testvec.py from the literals in /repo/tests; do not edit.
    A fidelity test: the model agrees with the expectations of the project's own
    test-suite ({n} vectors).  No property rests on this file. *)
From Verif Require Import PyVal Float64 Adapters Construct Access
  G_config G_debug G_gateway G_onoff G_battery G_level G_lightness G_ctl G_health G_nds
  G_scene G_sensor G_lec G_time G_debugV2 G_rrule G_property G_el G_elt.

(** Python's == between a parse result and the expected literal: numbers compare
    by value, entries whose key starts with "_" are ignored, sets are unordered;
    construct's Container.__eq__ looks at the entries of the parse result only
    (the test-suite relies on it: ONOFF_SET_invalid expects extra keys). *)
Fixpoint veq (fuel : nat) (a b : val) : bool :=
  match fuel with
  | O => false
  | S n =>
    match num_of a, num_of b with
    | Some x, Some y => Qeq_bool x y
    | _, _ =>
      match a, b with
      | VNone, VNone => true
      | VInf, VInf => true
      | VIeee w x, VIeee w' y => Nat.eqb w w' && Z.eqb x y
      | VStr x, VStr y => zlist_eqb x y
      | VBytes x, VBytes y => zlist_eqb x y
      | VList x, VList y => Nat.eqb (length x) (length y) && forallb (fun p => veq n (fst p) (snd p)) (combine x y)
      | VSet x, VSet y => forallb (fun u => existsb (veq n u) y) x && forallb (fun u => existsb (fun w => veq n w u) x) y
      | VDict x, VDict y =>
          forallb (fun kv => hidden (fst kv) || veq n (snd kv) (dgetn (fst kv) y)) x
      | VDateTime u o, VDateTime u' o' => Z.eqb u u' && Z.eqb o o'
      | VTimedelta u, VTimedelta u' => Z.eqb u u'
      | VDate u, VDate u' => Z.eqb u u'
      | VIPv4 x, VIPv4 y => zlist_eqb x y
      | _, _ => false
      end
    end
  end.

Definition vec := (string * con * list Z * val)%type.
Definition check_build (v : vec) : bool :=
  let '(_, c, s, x) := v in match build_msg c x with Ok l => zlist_eqb l s | _ => false end.
Definition check_parse (v : vec) : bool :=
  let '(_, c, s, x) := v in match parse_msg c s with Ok y => veq 30 y x | _ => false end.
Definition check_build_err (v : vec) : bool :=
  let '(_, c, _, x) := v in match build_msg c x with Err _ => true | _ => false end.
Definition check_parse_err (v : vec) : bool :=
  let '(_, c, s, _) := v in match parse_msg c s with Err _ => true | _ => false end.
Definition failing (p : vec -> bool) (l : list vec) : list string :=
  map (fun v => fst (fst (fst v))) (filter (fun v => negb (p v)) l).
'''
out = [HEAD.replace("{n}", str(sum(map(len, NAMES.values())) + len(ACC)))]
for k, nm, chk in [("B", "build_vectors", "check_build"), ("P", "parse_vectors", "check_parse"),
                   ("EB", "build_error_vectors", "check_build_err"), ("EP", "parse_error_vectors", "check_parse_err")]:
    out.append(f"Definition {nm} : list vec :=\n  [" + ";\n   ".join(NAMES[k]) + "].\n")
    out.append(f"Example {nm}_ok : failing {chk} {nm} = [].\nProof. vm_compute. reflexivity. Qed.\n")
out.append("Definition access_vectors : list (string * list Z * val) :=\n  [" + ";\n   ".join(a for a, _ in ACC) + "].\n")
out.append("""Example access_build_vectors_ok :
  filter (fun v : string * list Z * val => let '(_, s, x) := v in
            negb match access_build x with Ok l => zlist_eqb l s | _ => false end) access_vectors = [].
Proof. vm_compute. reflexivity. Qed.
""")
open(os.path.join(gen.OUT, "T_vectors.v"), "w").write("\n".join(out))
print({k: len(v) for k, v in NAMES.items()}, len(ACC), "skipped", SKIPPED)
