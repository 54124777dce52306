#!/usr/bin/env python3
"""Translate the declarative part of /repo/bluetooth_mesh/messages to Coq.

Reads the Python sources as text (ast) and evaluates only the declarations:
IntEnum classes, module-level constructs, dictionaries of cases.  Anything it
does not recognise is a hard error, so no declaration is silently skipped
(SKIP below is the complete list of names left out).  Output: one
theories/G_<module>.v per Python module; every definition cites its source.
"""
import ast, sys, os

REPO = "/repo/bluetooth_mesh/messages"
OUT = os.path.join(os.path.dirname(os.path.abspath(__file__)), "..", "rocq", "theories")

MODULES = [  # (python module path, coq module)
    ("generics.py", "generics"), ("config.py", "config"), ("time.py", "time"),
    ("properties.py", "properties"), ("sensor.py", "sensor"), ("health.py", "health"),
    ("scene.py", "scene"), ("generic/onoff.py", "onoff"), ("generic/level.py", "level"),
    ("generic/battery.py", "battery"), ("generic/property.py", "property"),
    ("light/lightness.py", "lightness"), ("light/ctl.py", "ctl"),
    ("silvair/debug.py", "debug"), ("silvair/debugV2.py", "debugV2"),
    ("silvair/emergency_lighting.py", "el"), ("silvair/emergency_lighting_test.py", "elt"),
    ("silvair/gateway_config_server.py", "gateway"),
    ("silvair/light_extended_controller.py", "lec"),
    ("silvair/network_diagnostic_server.py", "nds"),
    ("silvair/rrule_scheduler.py", "rrule"),
]
BYPATH = {
    "bluetooth_mesh.messages.generics": "generics", "bluetooth_mesh.messages.config": "config",
    "bluetooth_mesh.messages.time": "time", "bluetooth_mesh.messages.properties": "properties",
    "bluetooth_mesh.messages.sensor": "sensor", "bluetooth_mesh.messages.generic.onoff": "onoff",
}
SKIP = {  # names without a wire meaning or dead code
    "config": {"AddressType", "KeyIndicesDoc"},
    "time": {"MESH_UNIX_EPOCH_DIFF", "SECONDS_IN_15_MINUTES", "DateTime"},
    # documentation-only or unused declarations
    "sensor": {"SENSOR_SETTING_RAW_NAME", "SensorSettingPropertyValue",
               "FastCadencePeriodDivisorAndTriggerType", "TriggerDelta", "UnitlessTriggerDelta"},
}
COQ_INTS = {"Int8ul", "Int16ul", "Int32ul", "Int64ul", "Int8sl", "Int16sl", "Int32sl", "Int64sl",
            "Int24ul", "Int24ub"}
SIZES = {"Int8ul": 1, "Int16ul": 2, "Int24ul": 3, "Int32ul": 4, "Int64ul": 8, "Int8sl": 1,
         "Int16sl": 2, "Int32sl": 4, "Int64sl": 8, "Int24ub": 3}


class E:  # evaluated thing
    def __init__(s, kind, **k):
        s.kind = kind
        s.__dict__.update(k)
    def __repr__(s):
        return f"E({s.__dict__})"


def con(coq, **k):
    return E("con", coq=coq, **k)


def q(s):
    return '"%s"' % s


def z(n):
    return f"({n})" if n < 0 else str(n) if n < 256 else f"0x{n:X}"


class Bad(Exception):
    pass


class Mod:
    all = {}

    def __init__(s, path, name):
        s.path, s.name = path, name
        s.env, s.out, s.deps = {}, [], []
        s.src = open(os.path.join(REPO, path)).read()
        s.tree = ast.parse(s.src)
        s.funcs = {}
        s.classes = {}
        Mod.all[name] = s

    def err(s, n, m=""):
        raise Bad(f"{s.path}:{getattr(n, 'lineno', '?')}: {m}: {ast.unparse(n) if isinstance(n, ast.AST) else n}")

    def run(s):
        for n in s.tree.body:
            if isinstance(n, ast.ImportFrom):
                if n.module in BYPATH:
                    m = Mod.all[BYPATH[n.module]]
                    for a in n.names:
                        if a.name in m.env:
                            s.env[a.asname or a.name] = m.env[a.name]
                            if m.name not in s.deps:
                                s.deps.append(m.name)
                        elif a.name in m.funcs:
                            s.funcs[a.asname or a.name] = m.funcs[a.name]
            elif isinstance(n, ast.ClassDef):
                s.classdef(n)
            elif isinstance(n, ast.FunctionDef):
                s.funcs[n.name] = n
            elif isinstance(n, ast.Assign):
                t = n.targets[0]
                if isinstance(t, ast.Attribute):
                    continue  # __construct_doc__
                if not isinstance(t, ast.Name):
                    s.err(n, "target")
                if t.id in SKIP.get(s.name, ()):
                    continue
                s.assign(t.id, n)

    def cite(s, n):
        return f"(* {s.path}:{n.lineno}-{n.end_lineno} *)" if n.end_lineno != n.lineno else f"(* {s.path}:{n.lineno} *)"

    def classdef(s, n):
        bases = [ast.unparse(b) for b in n.bases]
        if bases and bases[0] in ("enum.IntEnum", "IntEnum"):
            mem = []
            for b in n.body:
                if isinstance(b, ast.Assign) and isinstance(b.targets[0], ast.Name):
                    mem.append((b.targets[0].id, ast.literal_eval(b.value), b.lineno))
            cn = f"{s.name}_{n.name}"
            s.env[n.name] = E("enum", coq=cn, members={m: v for m, v, _ in mem})
            s.out.append(s.cite(n))
            s.out.append(f"Definition {cn} : enum :=\n  [" +
                         ";\n   ".join(f"({q(m)}%string, {z(v)})" for m, v, _ in mem) + "].\n")
        else:
            s.classes[n.name] = n

    def assign(s, name, n):
        if isinstance(n.value, ast.Constant) and isinstance(n.value.value, (int, str)):
            s.env[name] = E("py", v=n.value.value)
            return
        v = s.ev(n.value)
        cn = f"{s.name}_{name}"
        if v.kind == "con":
            s.out.append(s.cite(n))
            s.out.append(f"Definition {cn} : con :=\n  {v.coq}.\n")
            d = dict(v.__dict__)
            d["coq"] = cn
            s.env[name] = E(**d)
        elif v.kind == "cases":
            s.out.append(s.cite(n))
            s.out.append(f"Definition {cn} : cases :=\n  {v.coq}.\n")
            s.env[name] = E("cases", coq=cn)
        elif v.kind in ("fields", "py"):
            s.env[name] = v
        else:
            s.err(n, "assign " + v.kind)

    # --- expressions -------------------------------------------------------
    def ev(s, n):
        if isinstance(n, ast.Constant):
            return E("py", v=n.value)
        if isinstance(n, ast.Name):
            if n.id in s.env:
                return s.env[n.id]
            if n.id in COQ_INTS:
                return con(n.id, size=SIZES[n.id])
            if n.id == "Flag":
                return con("CFlag", bits=1)
            if n.id == "GreedyBytes":
                return con("CGreedyBytes")
            if n.id == "Float32l":
                return con("(CIeee 4)")
            if n.id == "Float64l":
                return con("(CIeee 8)")
            s.err(n, "unknown name")
        if isinstance(n, ast.BinOp) and isinstance(n.op, ast.Div):
            l = s.ev(n.left)
            if l.kind == "py" and isinstance(l.v, str):
                r = s.ev(n.right)
                if r.kind == "pad":
                    return E("field", pre=f"FPad (Some {q(l.v)}%string) {r.n}", bits=8 * r.n)
                if r.kind == "rebuild":
                    return E("field", name=l.v, pre=f"FRebuild {q(l.v)} {r.e} {r.c.coq}", con=r.c)
                if r.kind == "default":
                    return E("field", name=l.v, pre=f"FDefault {q(l.v)} {r.c.coq} {r.d}", con=r.c)
                if r.kind == "switch":
                    return E("field", name=l.v, pre=f"FCons {q(l.v)} {r.coq}", con=con(r.coq), switch=r)
                if r.kind == "con":
                    return E("field", name=l.v, pre=f"FCons {q(l.v)} {r.coq}", con=r)
                s.err(n, "field " + r.kind)
            r = s.ev(n.right)
            return E("py", v=("ratio", l.v, r.v))
        if isinstance(n, ast.Subscript):
            c = s.ev(n.value)
            if c.kind == "con":
                return con(f"(CArray {s.expr(n.slice)} {c.coq})")
            s.err(n, "subscript")
        if isinstance(n, ast.Dict):
            out = "KNil"
            seen = set()
            for k, v in reversed(list(zip(n.keys, n.values))):
                if not isinstance(k, ast.Attribute):
                    s.err(k, "case key")
                en = s.ev(k.value)
                c = s.ev(v)
                if en.kind != "enum" or c.kind != "con":
                    s.err(k, "case")
                if en.members[k.attr] in seen:
                    s.err(k, "duplicate case")
                seen.add(en.members[k.attr])
                out = f"(KCons {q(k.attr)} {z(en.members[k.attr])} {c.coq}\n    {out})"
            return E("cases", coq=out)
        if isinstance(n, ast.Call):
            return s.call(n)
        s.err(n, "expression")

    def expr(s, n):
        """this.k, this["k"], int, len_(this[...])"""
        if isinstance(n, ast.Constant):
            return f"(EConst {n.value})"
        if isinstance(n, ast.Attribute) and ast.unparse(n.value) == "this":
            return f"(EGet {q(n.attr)})"
        if isinstance(n, ast.Subscript) and ast.unparse(n.value) == "this":
            return f"(EGet {q(n.slice.value)})"
        if isinstance(n, ast.Call) and ast.unparse(n.func) == "len_":
            return f"(ELen {q(n.args[0].slice.value)})"
        if isinstance(n, ast.Call) and ast.unparse(n.func) == "enum_switch_struct_len_":
            return f"(ELenVals {q(n.args[0].slice.value)})"
        s.err(n, "this-expression")

    def key(s, n):
        if isinstance(n, ast.Attribute) and ast.unparse(n.value) == "this":
            return n.attr
        s.err(n, "key")

    def fields(s, args):
        """list of python args -> list of coq prefixes; returns function text"""
        items = []
        for a in args:
            if isinstance(a, ast.Starred):
                v = s.ev(a.value)
                if v.kind != "fields":
                    s.err(a, "star")
                items.append(v.pre)
            else:
                v = s.ev(a)
                if v.kind == "pad":
                    items.append(f"FPad None {v.n}")
                elif v.kind == "embedded":
                    items.append(f"fapp (struct_fields {v.c.coq})")
                elif v.kind in ("field", "stopif"):
                    items.append(v.pre)
                else:
                    s.err(a, "struct item " + v.kind)
        out = "FNil"
        for i in reversed(items):
            out = f"({i}\n    {out})"
        return out

    def nbits(s, args):
        tot = 0
        for a in args:
            v = s.ev(a)
            if v.kind == "pad":
                tot += v.n
            elif v.kind == "field":
                tot += v.bits if hasattr(v, "bits") else v.con.bits
            else:
                s.err(a, "bits")
        return tot

    def bitfields_args(s, name, args):
        if s.ev(name).v != "_":
            s.err(name, "EmbeddedBitStruct name")
        n = s.nbits(args)
        assert n % 8 == 0
        return E("fields", pre=f"FBits {n // 8} {s.fields(args)}")

    def call(s, n):
        f = ast.unparse(n.func)
        a = n.args
        kw = {k.arg: k.value for k in n.keywords}
        if f == "Struct":
            return con(f"(CStruct {s.fields(a)})")
        if f == "BitStruct":
            try:
                b = s.nbits(a)
            except (AttributeError, Bad):
                b = None
            return con(f"(CBitwise (CStruct {s.fields(a)}))", **({"size": b // 8} if b else {}))
        if f == "BitsInteger":
            w = s.ev(a[0]).v
            sg = "true" if "signed" in kw and s.ev(kw["signed"]).v else "false"
            return con(f"(CBits {w} {sg})", bits=w)
        if f == "BytesInteger":
            w = s.ev(a[0]).v
            sw = "true" if "swapped" in kw and s.ev(kw["swapped"]).v else "false"
            return con(f"(CBytesInt {w} {sw})", size=w)
        if f == "Bytes":
            return con(f"(CBytes {s.ev(a[0]).v})", size=s.ev(a[0]).v)
        if f == "Padding":
            return E("pad", n=s.ev(a[0]).v)
        if f == "Embedded":
            return E("embedded", c=s.ev(a[0]))
        if f == "EmbeddedBitStruct":
            if s.ev(kw["reversed"]).v is not True:
                s.err(n, "not reversed")
            return s.bitfields_args(a[0], a[1:])
        if f == "DoubleKeyIndex":   # config.py:665-666
            x, y = s.ev(a[0]).v, s.ev(a[1]).v
            return E("fields", pre=f"FBits 3 (FCons {q(y)} (CBits 12 false) (FCons {q(x)} (CBits 12 false) FNil))")
        if f == "SingleKeyIndex":   # config.py:669-670
            return E("fields", pre=f"FBits 2 (FPad None 4 (FCons {q(s.ev(a[0]).v)} (CBits 12 false) FNil))")
        if f == "TAI_UTC_DeltaPaddedField":  # time.py:75-80
            return E("fields", pre=f"FBits 2 (FPad None 1 (FCons {q(s.ev(a[0]).v)} (CBits 15 false) FNil))")
        if f == "StopIf":
            t = a[0]
            if not (isinstance(t, ast.Compare) and isinstance(t.ops[0], ast.Eq) and t.comparators[0].value == 0):
                s.err(n)
            return E("stopif", pre=f"FStopIf {q(s.key(t.left))}")
        if f == "Rebuild":
            return E("rebuild", c=s.ev(a[0]), e=s.expr(a[1]))
        if f == "Default":
            if ast.unparse(a[1]) != "[]":
                s.err(n)
            return E("default", c=s.ev(a[0]), d="(VList [])")
        if f in ("GreedyRange",):
            return con(f"(CGreedyRange {s.ev(a[0]).coq})")
        if f == "PrefixedArray":
            if ast.unparse(a[0]) != "Int8ul":
                s.err(n)
            return con(f"(CPrefixedArray {s.ev(a[1]).coq})")
        if f == "Prefixed":
            if ast.unparse(n) != "Prefixed(Int8ul, GreedyBytes)":
                s.err(n)
            return con("CPrefixedBytes")
        if f == "PascalString":
            if ast.unparse(n) != "PascalString(Int8ul, 'utf-8')":
                s.err(n)
            return con("CPascalString")
        if f == "GreedyString":
            return con("CGreedyString")
        if f == "PaddedString":
            return con(f"(CPaddedString {s.expr(a[0])})")
        if f == "FixedString":      # properties.py:279-287
            return con(f"(CAdapt AFixedString (CPaddedString (EConst {s.ev(a[0]).v})))")
        if f in ("Bytewise",):
            c = s.ev(a[0])
            return con(f"(CBytewise {c.coq})", **({"bits": 8 * c.size} if hasattr(c, "size") else {}))
        if f in ("ByteSwapped", "Reversed"):
            c = s.ev(a[0])
            return con(f"(CReversed {c.size} {c.coq})", size=c.size)
        if f == "EnumAdapter":
            c, e = s.ev(a[0]), s.ev(a[1])
            return con(f"(CAdapt (AEnum {e.coq}) {c.coq})", enum=e,
                       **{k: getattr(c, k) for k in ("bits", "size") if hasattr(c, k)})
        if f == "FieldAdapter":
            return s.ev(a[0])
        if f == "RangeValidator":
            c = s.ev(a[0])
            lo = f"(Some {z(s.ev(kw['min_value']).v)})" if "min_value" in kw else "None"
            hi = f"(Some {z(s.ev(kw['max_value']).v)})" if "max_value" in kw else "None"
            return con(f"(CAdapt (ARange {lo} {hi}) {c.coq})", size=c.size)
        if f == "AddressTypeValidator":
            c = s.ev(a[0])
            return con(f"(CAdapt (AAddrIn [{'; '.join(x.attr for x in a[1:])}]) {c.coq})", size=c.size)
        if f == "ExprValidator":
            c = s.ev(a[0])
            p = a[1]
            if isinstance(p, ast.Lambda):
                p = p.body
            t = ast.unparse(p)
            if isinstance(p, ast.Compare) and ast.unparse(p.left) == "get_address_type(obj)":
                r = p.comparators[0]
                if isinstance(p.ops[0], ast.NotEq):
                    l = [r.attr]
                elif isinstance(p.ops[0], ast.NotIn):
                    l = [x.attr for x in r.elts]
                else:
                    s.err(n)
                return con(f"(CAdapt (AAddrOut [{'; '.join(l)}]) {c.coq})", size=c.size)
            if t == "obj_ & 61440 == 0":
                return con(f"(CAdapt (AMask 61440) {c.coq})", size=c.size)
            if isinstance(p, ast.Compare) and ast.unparse(p.left) in ("obj_", "obj"):
                v = ast.literal_eval(p.comparators[0])
                if isinstance(p.ops[0], ast.LtE):
                    return con(f"(CAdapt (ARange None (Some {z(v)})) {c.coq})", size=c.size)
                if isinstance(p.ops[0], ast.Gt):
                    return con(f"(CAdapt (ARange (Some {z(v + 1)}) None) {c.coq})", size=c.size)
            s.err(n, "validator " + t)
        if f == "LogAdapter":
            c = s.ev(a[0])
            m = f"(Some {s.ev(kw['max_value']).v})" if "max_value" in kw else "None"
            i = "true" if "infinity" in kw and s.ev(kw["infinity"]).v else "false"
            return con(f"(CAdapt (ALog {c.size} {m} {i}) {c.coq})", size=c.size)
        if f == "DefaultCountValidator":
            c = s.ev(a[0])
            rest = [None, None, None]
            for i, x in enumerate(a[1:]):
                rest[i] = x
            for i, k in enumerate(("rounding", "resolution", "unknown_value")):
                if k in kw:
                    rest[i] = kw[k]
            rd = s.ev(rest[0]).v if rest[0] is not None else None
            rs = s.res(rest[1])
            u = s.ev(rest[2]).v if rest[2] is not None else True
            return con(f"(CAdapt (ACount {c.size} {rd or 0} {rs} {'true' if u else 'false'}) {c.coq})", size=c.size)
        if f == "TransitionTimeAdapter":
            u = "true" if s.ev(kw["allow_unknown"]).v else "false"
            return con(f"(CAdapt (ATransition {u}) {s.ev(a[0]).coq})", size=1)
        if f == "Delay":
            return con(f"(CAdapt ADelay {s.ev(a[0]).coq})")
        if f == "RetransmitAdapter":
            return con(f"(CAdapt (ARetransmit {s.ev(a[1]).v}) {s.ev(a[0]).coq})")
        simple = {"KeyIndicesAdapter": "AKeyIndices", "SetAdapter": "ASet", "MacAddressAdapter": "AMac",
                  "IpAddressAdapter": "AIp", "DateAdapter": "ADate", "TimeExponential8Validator": "ATimeExp8",
                  "TimeAdapter": "ATime", "TimestampAdapter": "ATimestamp"}
        if f in simple:
            return con(f"(CAdapt {simple[f]} {s.ev(a[0]).coq})")
        if f == "BitList":
            if kw:
                s.err(n)
            k = s.ev(a[0]).v
            return con(f"(CAdapt (ABitList {k} false) (CBitwise (CArray (EConst {8 * k}) (CBits 1 false))))")
        if f == "NamedSelect":
            out = "ANil"
            for k, v in reversed(list(kw.items())):
                out = f"(ACons (CNamed {q(k)} {s.ev(v).coq})\n    {out})"
            return con(f"(CSelect {out})")
        if f == "Select":
            out = "ANil"
            for v in reversed(list(a) + list(kw.values())):
                out = f"(ACons {s.ev(v).coq}\n    {out})"
            return con(f"(CSelect {out})", size=s.ev(a[0]).size if a and hasattr(s.ev(a[0]), "size") else None)
        if f == "IfThenElseDefault":
            return con(f"(CIfDefault {q(s.key(a[0]))} {s.ev(a[1]).coq} (VInt {s.ev(kw['default']).v}))")
        if f in ("Switch", "EnumSwitch"):
            k = s.key(a[0])
            cs = s.ev(a[1])
            c = con(f"(CSwitch {q(k)} {cs.coq})", swkey=k, swcases=cs.coq)
            return c
        if f == "EnumSwitchStruct":
            c = s.ev(a[0])
            return con(f"(CEnumSwitchStruct {q(c.swkey)} {c.swcases})")
        if f == "Opcode":
            e = s.ev(a[0])
            return con(f"(COpcode {e.coq})", enum=e)
        if f == "SwitchStruct":
            k, sw = s.ev(a[0]), s.ev(a[1])
            if sw.con.swkey != k.name:
                s.err(n)
            return con(f"(CSwitchStruct {q(k.name)} {k.con.coq} {k.con.enum.coq} {q(sw.name)}\n    {sw.con.swcases})")
        # custom classes (their subcon attribute is documentation only)
        if f == "_SensorSettingSet":        # sensor.py:180-200, 140-177
            return con("(CSensorSetting sensor_SensorSettingGet properties_PropertyID properties_PropertyDict)")
        if f == "_SensorSettingStatus":     # sensor.py:203-224
            return con("(CSensorSetting (CStruct (fapp (struct_fields sensor_SensorSettingGet)\n    (FCons \"sensor_setting_access\" Int8ul FNil))) properties_PropertyID properties_PropertyDict)")
        if f == "_SensorData":              # sensor.py:251-291
            return con("(CSensorData properties_PropertyID properties_PropertyDict)")
        if f == "_GenericUserPropertySet":  # generic/property.py:83-98
            return con("(CProp property_GenericPropertyGet properties_PropertyID properties_PropertyDict)")
        if f == "_GenericPropertyStatus":   # generic/property.py:101-117
            return con("(CProp (CStruct (fapp (struct_fields property_GenericPropertyGet)\n    (FCons \"access\" Int8ul FNil))) properties_PropertyID properties_PropertyDict)")
        if f == "_EmergencyLightingProperty":
            return con("(CProp el_EmergencyLightingPropertyGet el_EmergencyLightingProperty el_EmergencyLightingPropertyDict)")
        if f == "_EmergencyLightingTestProperty":
            return con("(CProp elt_EmergencyLightingTestPropertyGet elt_EmergencyLightingTestProperty elt_EmergencyLightingTestPropertyDict)")
        if f == "_LightExtendedControllerProperty":
            return con("(CProp lec_LightExtendedControllerPropertyGet lec_LightExtendedControllerProperty lec_LightExtendedControllerPropertyDict)")
        s.err(n, "unknown call")

    def res(s, n):
        """resolution argument: default 1.0, int, float literal, or ratio 1 / k"""
        if n is None:
            return "(RFloat 1)"
        if isinstance(n, ast.Constant):
            if isinstance(n.value, int):
                return f"(RInt {n.value})"
            t = ast.get_source_segment(s.src, n)
            if "." not in t or "e" in t:
                s.err(n, "float literal")
            i, fr = t.split(".")
            num, den = int(i + fr), 10 ** len(fr)
            return f"(RFloat (flit {num} {den}))"
        if isinstance(n, ast.BinOp) and isinstance(n.op, ast.Div):
            l, r = ast.literal_eval(n.left), ast.literal_eval(n.right)
            assert isinstance(l, int) and isinstance(r, int)
            return f"(RFloat (flit {l} {r}))"
        if isinstance(n, ast.Name) and n.id in s.env and s.env[n.id].kind == "py":
            return f"(RInt {s.env[n.id].v})"
        s.err(n, "resolution")

    def write(s):
        import re
        txt = "\n".join(s.out)
        deps = [m for _, m in MODULES if m != s.name and re.search(r"\b%s_[A-Z]" % m, txt)]
        req = " ".join(["PyVal", "Float64", "Adapters", "Construct"] + [f"G_{d}" for d in deps])
        head = (f"(** GENERATED by tools/gen.py from /repo/bluetooth_mesh/messages/{s.path}; do not edit.\n"
                f"    The declarations of the module, in source order; every definition cites its lines. *)\n"
                f"From Verif Require Import {req}.\n\n")
        with open(os.path.join(OUT, f"G_{s.name}.v"), "w") as f:
            f.write(head + "\n".join(s.out))


def main():
    for p, m in MODULES:
        mod = Mod(p, m)
        mod.run()
    for m in Mod.all.values():
        m.write()


main()
