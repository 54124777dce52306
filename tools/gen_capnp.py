#!/usr/bin/env python3
"""The declarations that capnproto/generator.py walks, as terms of Capnp.gcon (theories/G_capnp.v).

Reads /repo as text (ast).  It evaluates the module-level assignments, class attributes and the few functions that
return constructs, keeping the identity of objects, because the generator names a struct after the module-level
variable that holds the object (generator.py:34-52).  Lambdas, paths (this, len_) and methods are left opaque: the
generator does not look at them.  Anything else that is not recognised is an error.
"""
import ast, os, sys

ROOT = "/repo"
PKG = "bluetooth_mesh.messages"
OUT = os.path.join(os.path.dirname(os.path.abspath(__file__)), "..", "rocq", "theories", "G_capnp.v")


class Opaque:
    """a value the generator never looks at"""
    def __init__(s, what): s.what = what
    def __repr__(s): return f"<{s.what}>"


class Con:
    """a construct: kind is a constructor of gcon; d are the Python attributes some declaration reads"""
    def __init__(s, kind, **d):
        s.kind = kind
        s.d = d
    def __repr__(s): return f"Con({s.kind}, {s.d})"


class EnumCls:
    def __init__(s, name, members): s.name, s.members = name, members
class EnumMem:
    def __init__(s, cls, name, value): s.cls, s.name, s.value = cls, name, value
class Cls:
    """a class of the repository; attrs are its assignments, bases the evaluated bases"""
    def __init__(s, name, bases, attrs): s.name, s.bases, s.attrs = name, bases, attrs
    def find(s, a):
        if a in s.attrs: return s.attrs[a]
        for b in s.bases:
            if isinstance(b, Cls):
                r = b.find(a)
                if r is not None: return r
        return None
    def root(s, what):
        return any((isinstance(b, Cls) and b.root(what)) or b == what for b in s.bases)
class Fun:
    def __init__(s, node, mod): s.node, s.mod = node, mod
class Module:
    def __init__(s, name): s.name, s.env = name, {}


def leaf(t, **d): return Con("leaf", type=t, **d)
def wrap(sub, **d): return Con("wrap", subcon=sub, **d)
def bits(n, signed=False):
    w = 1
    while w < n: w *= 2                # 2 ** math.ceil(math.log2(n)), generator.py:231-237
    w = max(w, 8)
    return f"Int{w}" if signed else f"UInt{w}"


PASS = Con("skip")
CONSTRUCT = {  # the names of construct 2.9.45 that are objects; generator.py:206-242 for the types
    "Pass": PASS, "Flag": leaf("Bool"), "Bit": leaf(bits(1)), "GreedyBytes": leaf("Data"),
    "Int8ul": leaf("UInt8", length=1), "Int16ul": leaf("UInt16", length=2), "Int32ul": leaf("UInt32", length=4), "Int64ul": leaf("UInt64", length=8),
    "Int8sl": leaf("Int8", length=1), "Int16sl": leaf("Int16", length=2), "Int32sl": leaf("Int32", length=4), "Int64sl": leaf("Int64", length=8),
    "Int24ul": leaf(bits(24), length=3), "Int24ub": leaf(bits(24), length=3), "Int32ub": leaf("UInt32", length=4),
    "Float32b": leaf("Float32"), "Float32l": leaf("Float32"), "Float64b": leaf("Float64"), "Float64l": leaf("Float64"),
}
CONSTRUCT["Byte"] = Con("leaf", type="UInt8", length=1)       # Byte = Int8ub, an object of its own
OPAQUE = {"this", "obj_", "len_", "list_", "Container", "ValidationError", "SizeofError", "FuncPath", "stream_read", "stream_write", "stream_read_entire",
          "Adapter", "Construct", "Enum", "Rebuild_", "StreamError", "StringError", "Restreamed", "FormatField", "Subconstruct", "Validator"}
FACTORIES = {"Struct", "BitStruct", "Switch", "Select", "GreedyRange", "Array", "PrefixedArray", "Bitwise", "ByteSwapped", "Embedded", "ExprValidator", "ExprAdapter",
             "Rebuild", "Default", "Computed", "StopIf", "Padding", "Padded", "Bytes", "BitsInteger", "BytesInteger", "GreedyString", "PascalString", "PaddedString",
             "IfThenElse", "Prefixed", "FocusedSeq", "Bytewise", "StringEncoded", "If", "Const", "Optional"}
LINES = {}


class Bad(Exception): pass


def struct(args):
    out = []
    for a in args:
        if a.kind == "embedded":
            out += a.d["subcon"].d["subcons"]
        else:
            out.append(a)
    return Con("struct", subcons=out)
def rename(n, c):
    if not isinstance(c, Con): raise Bad(f"rename {n} {c}")
    return Con("renamed", name=n, subcon=c)


def factory(f, a, k):
    if f == "Struct": return struct(a + [rename(n, c) for n, c in k.items()])
    if f == "BitStruct": return wrap(struct(a + [rename(n, c) for n, c in k.items()]))
    if f == "Switch": return Con("switch", keyfunc=a[0], cases=a[1], default=a[2] if len(a) > 2 else k.get("default") or PASS)
    if f == "Select": return Con("select", subcons=a + [rename(n, c) for n, c in k.items()])
    if f == "GreedyRange": return Con("many", subcon=a[0])
    if f == "Array": return Con("many", subcon=a[1])
    if f == "PrefixedArray": return Con("focused", items=Con("many", subcon=a[1]))
    if f in ("Bitwise", "Bytewise", "ByteSwapped", "ExprValidator", "ExprAdapter", "Rebuild", "Default"): return wrap(a[0])
    if f == "Prefixed": return wrap(a[1])
    if f == "Embedded": return Con("embedded", subcon=a[0])
    if f in ("Computed", "StopIf"): return Con("skip")
    if f == "Padding": return wrap(PASS)
    if f == "Bytes": return leaf("Data", length=a[0])
    if f == "BitsInteger": return leaf(bits(a[0], k.get("signed", False)), length=a[0])
    if f == "BytesInteger": return leaf(bits(8 * a[0], k.get("signed", False)), length=a[0])
    if f in ("GreedyString", "PascalString", "PaddedString"): return Con("text")
    raise Bad(f"construct.{f}")


# util.py: functions and classes whose bodies are not plain expressions (the lines they are taken from)
def enum_adapter(a, k): return wrap(a[0], type=a[1])                                     # util.py:101-127
def log_adapter(a, k): return wrap(a[0])                                                 # util.py:130-167
def range_validator(a, k): return wrap(a[0])                                             # util.py:170-180
def reversed_(a, k): return wrap(a[0])                                                   # util.py:66-67
def bit_list(a, k): return wrap(wrap(Con("many", subcon=CONSTRUCT["Bit"])))              # util.py:97-98, 70-73
def embedded_bit_struct(a, k):                                                           # util.py:195-219
    if isinstance(a[0], Con): return Opaque("EmbeddedBitStruct without a name")          # sensor.py:310 only, unused
    name, fields = a[0], a[1:]
    bs = wrap(struct(fields))
    if k.get("reversed"): bs = wrap(bs)
    return [rename(name, wrap(bs))] + [rename(f.d["name"], wrap(f)) for f in fields if "name" in f.d]
def field_adapter(a, k): return wrap(a[1])                                               # util.py:183-192: _subcon is the field
def named_select(a, k): return wrap(Con("select", subcons=[rename(n, c) for n, c in k.items()]))   # util.py:461-465
def switch_struct(a, k): return wrap(struct([a[0], a[1].d["subcon"]]))                   # util.py:391-396
def enum_switch_struct(a, k): return wrap(a[0])                                          # util.py:359-363
def if_default(a, k): return Con("if", subcon=a[1])                                      # util.py:475-480
def switch_named(a, k):                                                                  # util.py:489-492
    return Con("switch", keyfunc=a[0], cases=a[1], default=k["default"], name_for_default=k["name_for_default"])
def bit_list_adapter(a, k): return wrap(a[0])
SPECIAL = {"EnumAdapter": enum_adapter, "LogAdapter": log_adapter, "RangeValidator": range_validator, "Reversed": reversed_, "BitList": bit_list,
           "EmbeddedBitStruct": embedded_bit_struct, "FieldAdapter": field_adapter, "NamedSelect": named_select, "SwitchStruct": switch_struct,
           "EnumSwitchStruct": enum_switch_struct, "IfThenElseDefault": if_default, "SwitchWithNamedDefault": switch_named,
           "EnumSwitch": lambda a, k: factory("Switch", a, k)}


class Interp:
    def __init__(s): s.mods = {}

    def path(s, name):
        p = os.path.join(ROOT, *name.split("."))
        return (os.path.join(p, "__init__.py"), True) if os.path.isdir(p) else (p + ".py", False)

    def load(s, name):
        if name in s.mods: return s.mods[name]
        m = s.mods[name] = Module(name)
        f, pkg = s.path(name)
        if not os.path.exists(f): return m
        for n in ast.parse(open(f).read()).body:
            s.stmt(n, m, pkg)
        # importing a submodule binds it in its package
        if "." in name and name.rsplit(".", 1)[0] in s.mods:
            s.mods[name.rsplit(".", 1)[0]].env.setdefault(name.rsplit(".", 1)[1], m)
        return m

    def stmt(s, n, m, pkg):
        if isinstance(n, ast.Import):
            for a in n.names:
                m.env[a.asname or a.name.split(".")[0]] = Opaque(a.name)
        elif isinstance(n, ast.ImportFrom):
            mod = n.module or ""
            if n.level:
                base = m.name.split(".") if pkg else m.name.split(".")[:-1]
                base = base[:len(base) - (n.level - 1)]
                mod = ".".join(base + ([mod] if mod else []))
            if mod.startswith(PKG):
                src = s.load(mod)
                for a in n.names:
                    if a.name not in src.env: raise Bad(f"{m.name}: import {a.name} from {mod}")
                    m.env[a.asname or a.name] = src.env[a.name]
            elif mod == "construct":
                for a in n.names:
                    if a.name in CONSTRUCT: v = CONSTRUCT[a.name]
                    elif a.name in FACTORIES: v = ("construct", a.name)
                    elif a.name in OPAQUE or a.name[0].islower() or a.name.endswith("Error"): v = ("construct", a.name)
                    else: raise Bad(f"{m.name}: construct.{a.name}")
                    m.env[a.asname or a.name] = v
            else:
                for a in n.names: m.env[a.asname or a.name] = Opaque(f"{mod}.{a.name}")
        elif isinstance(n, ast.ClassDef):
            m.env[n.name] = s.classdef(n, m)
        elif isinstance(n, ast.FunctionDef):
            m.env[n.name] = Fun(n, m)
        elif isinstance(n, (ast.Assign, ast.AnnAssign)):
            t = n.targets[0] if isinstance(n, ast.Assign) else n.target
            if isinstance(t, ast.Attribute): return          # __construct_doc__
            if isinstance(t, ast.Tuple): 
                for x in t.elts: m.env[x.id] = Opaque("tuple")
                return
            v = s.ev(n.value, m, {})
            m.env[t.id] = v
            if isinstance(v, Con) and id(v) not in LINES: LINES[id(v)] = f"{m.name[len(PKG) + 1:].replace('.', '/')}.py:{n.lineno}" + (f"-{n.end_lineno}" if n.end_lineno != n.lineno else "")
        elif isinstance(n, ast.Expr) or isinstance(n, ast.If): pass
        else: raise Bad(f"{m.name}:{n.lineno}: {type(n)}")

    def classdef(s, n, m):
        bases = [s.ev(b, m, {}) for b in n.bases]
        src = [ast.unparse(b) for b in n.bases]
        if src and src[0] in ("enum.IntEnum", "IntEnum"):
            c = EnumCls(n.name, {})
            byval = {}
            for b in n.body:
                if isinstance(b, ast.Assign):
                    v = ast.literal_eval(b.value)
                    if v in byval: c.members[b.targets[0].id] = byval[v]      # an alias is the first member
                    else: c.members[b.targets[0].id] = byval[v] = EnumMem(c, b.targets[0].id, v)
            return c
        attrs = {}
        for b in n.body:
            if isinstance(b, ast.Assign) and isinstance(b.targets[0], ast.Name):
                try: attrs[b.targets[0].id] = s.ev(b.value, m, attrs)
                except Bad: raise
        return Cls(n.name, bases, attrs)

    def ev(s, n, m, loc):
        e = lambda x: s.ev(x, m, loc)
        if isinstance(n, ast.Constant): return n.value
        if isinstance(n, ast.Name):
            if n.id in loc: return loc[n.id]
            if n.id in m.env: return m.env[n.id]
            if n.id in ("dict", "int", "float", "bytes", "set", "list", "len", "object", "date", "property", "staticmethod"): return Opaque(n.id)
            raise Bad(f"{m.name}:{n.lineno}: {n.id}")
        if isinstance(n, (ast.Lambda, ast.Compare, ast.BoolOp, ast.UnaryOp, ast.Set)): return Opaque("expr")
        if isinstance(n, ast.Tuple) or isinstance(n, ast.List): return [e(x) for x in n.elts]
        if isinstance(n, ast.Dict):
            out = {}
            for k, v in zip(n.keys, n.values):
                if k is None: out.update(e(v))
                else: out[e(k)] = e(v)
            return out
        if isinstance(n, ast.Attribute):
            v = e(n.value)
            if isinstance(v, EnumCls): return v.members[n.attr]
            if isinstance(v, Opaque) or isinstance(v, tuple): return Opaque(f"{v}.{n.attr}")
            if isinstance(v, Cls): return Opaque(f"{v.name}.{n.attr}")
            if isinstance(v, Con) and n.attr in v.d: return v.d[n.attr]
            raise Bad(f"{m.name}:{n.lineno}: {ast.unparse(n)} on {v}")
        if isinstance(n, ast.BinOp):
            l, r = e(n.left), e(n.right)
            if isinstance(n.op, ast.Div) and isinstance(l, str): return rename(l, r)
            if isinstance(l, (int, float)) and isinstance(r, (int, float)): return eval(compile(ast.Expression(ast.BinOp(ast.Constant(l), n.op, ast.Constant(r), lineno=1, col_offset=0)) and ast.fix_missing_locations(ast.Expression(ast.BinOp(ast.Constant(l), n.op, ast.Constant(r)))), "", "eval"))
            if isinstance(l, (Opaque, tuple)) or isinstance(r, (Opaque, tuple)): return Opaque("expr")
            raise Bad(f"{m.name}:{n.lineno}: {ast.unparse(n)}")
        if isinstance(n, ast.Subscript):
            v = e(n.value)
            if isinstance(v, Con): return Con("many", subcon=v)
            if isinstance(v, (Opaque, tuple)): return Opaque("item")
            raise Bad(f"{m.name}:{n.lineno}: {ast.unparse(n)}")
        if isinstance(n, ast.Call):
            f = e(n.func)
            a = []
            for x in n.args:
                if isinstance(x, ast.Starred): a += e(x.value)
                else: a.append(e(x))
            k = {x.arg: e(x.value) for x in n.keywords}
            if any(isinstance(x, Opaque) and x.what == "EmbeddedBitStruct without a name" for x in a): return Opaque("unused")
            return s.call(f, a, k, n, m)
        raise Bad(f"{m.name}:{n.lineno}: {ast.unparse(n)}")

    def call(s, f, a, k, n, m):
        if isinstance(f, tuple):
            if f[1] in FACTORIES: return factory(f[1], a, k)
            return Opaque("call")
        if isinstance(f, Opaque): return Opaque("call")
        name = f.node.name if isinstance(f, Fun) else f.name if isinstance(f, Cls) else None
        if name in SPECIAL: return SPECIAL[name](a, k)
        if isinstance(f, Fun):
            loc = {}
            for i, p in enumerate(f.node.args.args):
                loc[p.arg] = a[i] if i < len(a) else k.get(p.arg, Opaque("default"))
            if f.node.args.vararg: loc[f.node.args.vararg.arg] = a[len(f.node.args.args):]
            for b in f.node.body:
                if isinstance(b, ast.FunctionDef): loc[b.name] = Opaque("closure")
                elif isinstance(b, ast.Return): return s.ev(b.value, f.mod, loc)
                elif isinstance(b, ast.Expr): pass
                else: return Opaque("call")
        if isinstance(f, Cls):
            sub = f.find("_subcon") or f.find("subcon")                    # generator.py:168: class attributes, _subcon first
            if sub is None and f.root(("construct", "Adapter")): sub = a[0]
            if sub is not None: return wrap(sub, type=a[0] if name == "Opcode" and a else None)
            if f.root(("construct", "Construct")): return leaf(None)
            return Opaque("instance")
        raise Bad(f"{m.name}:{n.lineno}: call {ast.unparse(n)}")


I = Interp()
# the order of imports: the generator imports the package, which imports every module it needs
I.load(PKG)


def walk(name, names):                                        # generator.py:39-49; iter_modules sorts the file names
    d = os.path.join(ROOT, *name.split("."))
    for f in sorted(os.listdir(d)):
        if f.startswith("__"): continue
        full = os.path.join(d, f)
        if os.path.isdir(full): mod, pkg = f, True
        elif f.endswith(".py"): mod, pkg = f[:-3], False
        else: continue
        mname = f"{name}.{mod}"
        if mod in ("capnproto", "generator"):                 # their own names: construct's, and AccessMessage
            g = ast.parse(open(os.path.join(ROOT, "bluetooth_mesh/messages/capnproto/generator.py")).read())
            if mod == "generator":
                for n in g.body:
                    if isinstance(n, ast.ImportFrom) and n.module == "construct":
                        for a in n.names:
                            if a.name in CONSTRUCT: names[id(CONSTRUCT[a.name])] = a.name
        else:
            names.update({id(v): k for k, v in I.load(mname).env.items()})
        if pkg: walk(mname, names)


NAMES = {}
walk(PKG, NAMES)


def q(x): return f'"{x}"%string'
def on(c):
    return f"(Some {q(NAMES[id(c)])})" if id(c) in NAMES else "None"


defs, done = [], {}
USED = {}
def name_of(c):
    """a Coq definition for every construct that a module-level variable holds"""
    n = "k_" + NAMES[id(c)]
    while USED.get(n, id(c)) != id(c): n += "_"        # two objects in variables of the same name
    USED[n] = id(c)
    return n


def term(c, top=False):
    if c.kind != "skip" and id(c) in NAMES and not top:
        if id(c) not in done:
            done[id(c)] = None
            t = term(c, True)
            defs.append((name_of(c), t, LINES.get(id(c), "construct")))
            done[id(c)] = True
        if done[id(c)] is None: raise Bad("cycle")
        return name_of(c)
    d = c.d
    if c.kind == "struct": return f"(GStruct {on(c)} [{'; '.join(term(x) for x in d['subcons'])}])"
    if c.kind == "switch":
        cases = "; ".join(f"({q(k.name if isinstance(k, EnumMem) else k)}, {term(x)})" for k, x in d["cases"].items())
        de = d["default"]
        dt = "None"
        if de is not PASS and d.get("name_for_default"): dt = f"(Some ({q(d['name_for_default'])}, {term(de)}))"
        return f"(GSwitch {on(c)} [{cases}] {dt})"
    if c.kind == "select": return f"(GSelect {on(c)} [{'; '.join(term(x) for x in d['subcons'])}])"
    if c.kind == "renamed": return f"(GRenamed {q(d['name'])} {term(d['subcon'])})"
    if c.kind == "if": return f"(GIf {term(d['subcon'])})"
    if c.kind == "text": return f"(GText {on(c)})"
    if c.kind == "many": return f"(GMany {term(d['subcon'])})"
    if c.kind == "focused": return f"(GFocused {on(c)} {term(d['items'])})"
    if c.kind == "skip": return "GSkip"
    if c.kind == "wrap": return f"(GWrap {on(c)} {term(d['subcon'])})"
    if c.kind == "leaf": return f"(GLeaf {on(c)} {'None' if d['type'] is None else '(Some ' + q(d['type']) + ')'})"
    raise Bad(c.kind)


acc = I.load(PKG).env["_AccessMessage"].attrs["OPCODES"]
rows = []
for oc, msg in acc.items():
    t = term(msg)
    rows.append(f"  (({q(NAMES[id(oc)])}, {q(NAMES[id(msg)])}), {t})")
with open(OUT, "w") as f:
    f.write('(** * G_capnp: the declarations the schema generator walks.  Generated by tools/gen_capnp.py from /repo; do not edit.\n'
            '    Each definition is the construct that the module-level variable of that name holds (generator.py:34-52). *)\n'
            'From Verif Require Import PyVal Names Capnp.\nOpen Scope list_scope.\n\n')
    for n, t, line in defs:
        f.write(f"(* {line} *)\nDefinition {n} : gcon :=\n  {t}.\n\n")
    f.write("(** AccessMessage.OPCODES (__init__.py:36-60): the names of the opcode class and of the message, and the message *)\n")
    f.write("Definition access_messages : list (string * string * gcon) :=\n [" + ";\n ".join(rows) + "].\n")
print(len(defs), "definitions,", len(rows), "messages")
