#!/usr/bin/env python3
"""Translate the classes of open-dis-python into Coq data (theories/Prog*.v).

The source is only read as text and parsed with the stdlib `ast` module; nothing of it
is imported or executed.  Every statement and expression form that is not understood
aborts the translation, so nothing is dropped silently.  What is dropped on purpose:
docstrings, annotations, the text of exception messages.
"""
import ast, struct, sys, os

REPO = sys.argv[1] if len(sys.argv) > 1 else "/repo"
OUT = sys.argv[2] if len(sys.argv) > 2 else "/verif/rocq/theories"

FILES = [
    ("stream", "opendis/stream.py"),
    ("base", "opendis/record/base.py"),
    ("common", "opendis/record/common.py"),
    ("radio", "opendis/record/radio/__init__.py"),
    ("enums", "opendis/record/warfare/enums.py"),
    ("warfare", "opendis/record/warfare/__init__.py"),
    ("registry", "opendis/record/__init__.py"),
    ("dis7", "opendis/dis7.py"),
]
BUILTINS = {"len": "BLen", "range": "BRange", "int": "BInt", "float": "BFloat", "str": "BStr",
            "bool": "BBool", "ord": "BOrd", "chr": "BChr", "list": "BList", "bytes": "BBytes"}
EXNS = {"ValueError": "ValueError", "TypeError": "TypeError"}


class Unsupported(Exception):
    pass


def q(s):
    return '"' + s.replace('"', '""') + '"'


def zlit(n):
    return str(n) if n >= 0 else "(%d)" % n


def lst(xs):
    return "[" + "; ".join(xs) + "]"


def aliases():
    """opendis/types.py: name -> int/float/str"""
    t = ast.parse(open(os.path.join(REPO, "opendis/types.py")).read())
    d = {}
    for s in t.body:
        if isinstance(s, ast.Assign) and isinstance(s.value, ast.Name):
            for x in s.targets:
                d[x.id] = d.get(s.value.id, s.value.id)
    return d


ALIASES = aliases()
CLASSES = {}      # simple name -> (module, ast node)
FUNCS = {}


def literal(e):
    if isinstance(e, ast.Constant):
        v = e.value
        if v is None:
            return "LNone"
        if isinstance(v, bool):
            return "LBool " + ("true" if v else "false")
        if isinstance(v, int):
            return "LInt " + zlit(v)
        if isinstance(v, float):
            return "LFloat " + str(int.from_bytes(struct.pack(">d", v), "big"))
        if isinstance(v, str):
            return "LStr " + q(v)
        if isinstance(v, bytes):
            if v != b"":
                raise Unsupported("bytes literal")
            return "LBytes []"
    if isinstance(e, ast.UnaryOp) and isinstance(e.op, ast.USub) and isinstance(e.operand, ast.Constant):
        return literal(ast.Constant(-e.operand.value))
    return None


class Fn:
    def __init__(self, mod, cls, node):
        self.mod, self.cls, self.node = mod, cls, node
        self.locals = {a.arg for a in node.args.args}
        for n in ast.walk(node):
            if isinstance(n, ast.Name) and isinstance(n.ctx, ast.Store):
                self.locals.add(n.id)

    def E(self, e):
        l = literal(e)
        if l is not None:
            return "(Lit (%s))" % l
        if isinstance(e, ast.Name):
            if e.id in self.locals:
                return "(Loc %s)" % q(e.id)
            return "(Glob %s)" % q(e.id)
        if isinstance(e, ast.Attribute):
            if isinstance(e.value, ast.Name) and e.value.id == "base" and e.value.id not in self.locals:
                return "(Glob %s)" % q(e.attr)
            return "(Attr %s %s)" % (self.E(e.value), q(e.attr))
        if isinstance(e, ast.Subscript):
            return "(Sub %s %s)" % (self.E(e.value), self.E(e.slice))
        if isinstance(e, ast.List):
            return "(ListE %s)" % lst([self.E(x) for x in e.elts])
        if isinstance(e, ast.Tuple):
            return "(TupleE %s)" % lst([self.E(x) for x in e.elts])
        if isinstance(e, ast.BoolOp):
            op = {ast.Or: "OrE", ast.And: "AndE"}[type(e.op)]
            r = self.E(e.values[-1])
            for v in reversed(e.values[:-1]):
                r = "(%s %s %s)" % (op, self.E(v), r)
            return r
        if isinstance(e, ast.UnaryOp) and isinstance(e.op, ast.Not):
            return "(NotE %s)" % self.E(e.operand)
        if isinstance(e, ast.BinOp):
            op = {ast.Add: "OAdd", ast.Sub: "OSub", ast.Mult: "OMul", ast.FloorDiv: "OFloorDiv",
                  ast.Mod: "OMod", ast.BitAnd: "OBitAnd"}[type(e.op)]
            return "(Bin %s %s %s)" % (op, self.E(e.left), self.E(e.right))
        if isinstance(e, ast.Compare) and len(e.ops) == 1:
            op = {ast.Lt: "CLt", ast.Gt: "CGt", ast.LtE: "CLe", ast.GtE: "CGe", ast.Eq: "CEq", ast.NotEq: "CNe",
                  ast.Is: "CIs", ast.IsNot: "CIsNot", ast.In: "CIn"}[type(e.ops[0])]
            return "(Cmp %s %s %s)" % (op, self.E(e.left), self.E(e.comparators[0]))
        if isinstance(e, ast.IfExp):
            return "(IfE %s %s %s)" % (self.E(e.test), self.E(e.body), self.E(e.orelse))
        if isinstance(e, ast.Call):
            return self.call(e)
        raise Unsupported(ast.dump(e))

    def call(self, e):
        kwn = lst([q(k.arg) for k in e.keywords])
        f = e.func
        # bytes(filter(None, x))
        if isinstance(f, ast.Name) and f.id == "filter" and len(e.args) == 2 and literal(e.args[0]) == "LNone":
            return "(Builtin BFilterNone %s)" % lst([self.E(e.args[1])])
        if isinstance(f, ast.Name) and f.id == "hasattr":
            return "(HasAttr %s %s)" % (self.E(e.args[0]), q(e.args[1].value))
        if isinstance(f, ast.Name) and f.id == "isinstance":
            if isinstance(e.args[1], ast.Name) and e.args[1].id == "int":
                return "(Builtin BIsInt %s)" % lst([self.E(e.args[0])])
            raise Unsupported("isinstance")
        args = lst([self.E(a) for a in e.args] + [self.E(k.value) for k in e.keywords])
        if isinstance(f, ast.Name):
            if f.id in self.locals:
                return "(CallV (Loc %s) %s %s)" % (q(f.id), args, kwn)
            n = f.id
            if n not in CLASSES and n not in FUNCS:
                n2 = ALIASES.get(n, n)
                if n2 in BUILTINS:
                    if e.keywords:
                        raise Unsupported("kw builtin")
                    return "(Builtin %s %s)" % (BUILTINS[n2], args)
            return "(CallV (Glob %s) %s %s)" % (q(n), args, kwn)
        if isinstance(f, ast.Attribute):
            v = f.value
            if isinstance(v, ast.Name) and v.id == "struct" and v.id not in self.locals:
                return "(Builtin %s %s)" % ({"pack": "BPack", "unpack": "BUnpack"}[f.attr], args)
            if isinstance(v, ast.Call) and isinstance(v.func, ast.Name) and v.func.id == "super":
                c = v.args[0].id if v.args else self.cls
                if v.args and not (isinstance(v.args[1], ast.Name) and v.args[1].id == "self"):
                    raise Unsupported("super")
                return "(Super %s %s %s %s)" % (q(c), q(f.attr), args, kwn)
            return "(Meth %s %s %s %s)" % (self.E(v), q(f.attr), args, kwn)
        raise Unsupported(ast.dump(e))

    def S(self, s):
        if isinstance(s, ast.Expr):
            if isinstance(s.value, ast.Constant):
                return []          # docstring
            return ["Expr %s" % self.E(s.value)]
        if isinstance(s, ast.Pass):
            return ["Pass"]
        if isinstance(s, ast.AnnAssign):
            if s.value is None:
                raise Unsupported("bare annotation")
            return [self.assign(s.target, s.value)]
        if isinstance(s, ast.Assign):
            if len(s.targets) != 1:
                raise Unsupported("multi-assign")
            return [self.assign(s.targets[0], s.value)]
        if isinstance(s, ast.AugAssign):
            if not isinstance(s.target, ast.Name) or not isinstance(s.op, ast.Add):
                raise Unsupported("augassign")
            return ["Assign %s (Bin OAdd (Loc %s) %s)" % (q(s.target.id), q(s.target.id), self.E(s.value))]
        if isinstance(s, ast.Return):
            return ["Return %s" % (self.E(s.value) if s.value else "(Lit LNone)")]
        if isinstance(s, ast.If):
            return ["If %s %s %s" % (self.E(s.test), self.block(s.body), self.block(s.orelse))]
        if isinstance(s, ast.For):
            if s.orelse or not isinstance(s.target, ast.Name):
                raise Unsupported("for")
            return ["For %s %s %s" % (q(s.target.id), self.E(s.iter), self.block(s.body))]
        if isinstance(s, ast.Raise):
            return ["Raise %s" % EXNS[s.exc.func.id]]
        if isinstance(s, ast.Assert):
            return ["Assert %s" % self.E(s.test)]
        raise Unsupported(ast.dump(s))

    def assign(self, t, v):
        if isinstance(t, ast.Name):
            return "Assign %s %s" % (q(t.id), self.E(v))
        if isinstance(t, ast.Attribute):
            return "SetAttr %s %s %s" % (self.E(t.value), q(t.attr), self.E(v))
        if isinstance(t, ast.Subscript):
            return "SetSub %s %s %s" % (self.E(t.value), self.E(t.slice), self.E(v))
        raise Unsupported(ast.dump(t))

    def block(self, b):
        out = []
        for s in b:
            out += self.S(s)
        return lst(out)

    def body(self, ind):
        out = []
        for s in self.node.body:
            out += self.S(s)
        return "[" + (";\n" + ind).join(out) + "]"

    def params(self):
        a = self.node.args
        if a.vararg or a.kwarg or a.kwonlyargs or a.posonlyargs:
            raise Unsupported("params")
        n = len(a.args) - len(a.defaults)
        ps = []
        for i, p in enumerate(a.args):
            if i < n:
                ps.append("(%s, None)" % q(p.arg))
            else:
                d = a.defaults[i - n]
                l = literal(d)
                if l is None:
                    # a mutable default is one shared cell; none occurs in the code
                    raise Unsupported("mutable default")
                ps.append("(%s, Some (DLit (%s)))" % (q(p.arg), l))
        return lst(ps)


def method(mod, cls, m, ind):
    kind, abstract = "KNormal", "false"
    for d in m.decorator_list:
        n = d.id
        if n == "property":
            kind = "KProperty"
        elif n == "staticmethod":
            kind = "KStatic"
        elif n == "abstractmethod":
            abstract = "true"
        else:
            raise Unsupported(n)
    f = Fn(mod, cls, m)
    return "mkmeth %s %s %s\n%s%s" % (kind, abstract, f.params(), ind, f.body(ind))


def bitfields(v):
    """_struct = bitfield.bitfield(name=..., fields=[(n, bitfield.INTEGER, bits), ...])"""
    kw = {k.arg: k.value for k in v.keywords}
    out = []
    for t in kw["fields"].elts:
        n, ty, b = t.elts
        assert ty.attr == "INTEGER"
        out.append("(%s, %d)" % (q(n.value), b.value))
    return lst(out)


def bases(c):
    out = []
    for b in c.bases:
        n = b.id if isinstance(b, ast.Name) else b.attr
        if n not in ("Protocol", "object"):
            out.append(n)
    if len(out) > 1:
        raise Unsupported("multiple inheritance")
    return out


def mro(n):
    r = [n]
    b = bases(CLASSES[n][2])
    while b:
        r.append(b[0])
        b = bases(CLASSES[b[0]][2])
    return r


def cid(n):
    return "c_" + n


def gen():
    mods = {}
    for mod, path in FILES:
        t = ast.parse(open(os.path.join(REPO, path)).read())
        mods[mod] = (path, t)
        for s in t.body:
            if isinstance(s, ast.ClassDef):
                if s.name in CLASSES:
                    raise Unsupported("duplicate class " + s.name)
                CLASSES[s.name] = (mod, path, s)
            elif isinstance(s, ast.FunctionDef):
                FUNCS[s.name] = (mod, path, s)
                for x in s.body:      # the local class of getStandardVariableClass
                    if isinstance(x, ast.ClassDef):
                        if x.name in CLASSES:
                            raise Unsupported("duplicate class " + x.name)
                        CLASSES[x.name] = (mod, path, x)
    used = {}
    groups = [("ProgBase", ["stream", "base", "common", "radio", "enums", "warfare", "registry"]), ("ProgDis", ["dis7"])]
    for fname, ms in groups:
        o = []
        o.append("(* GENERATED by tools/gen.py from the text of /repo; do not edit. *)")
        o.append("From Coq Require Import ZArith String List.")
        o.append("From Verif Require Import Lang.")
        o.append("Import ListNotations.\nOpen Scope string_scope. Open Scope Z_scope. Open Scope list_scope.\n")
        names = []
        for mod in ms:
            path = mods[mod][0]
            for n, (m0, p0, c) in CLASSES.items():
                if m0 != mod:
                    continue
                names.append(n)
                o.append("(* %s:%d-%d  class %s(%s) *)" % (path, c.lineno, c.end_lineno, n, ", ".join(bases(c))))
                mem = []
                for x in c.body:
                    if isinstance(x, ast.Expr) and isinstance(x.value, ast.Constant):
                        continue
                    if isinstance(x, ast.FunctionDef):
                        mem.append("    (* %s:%d-%d *)\n    (%s, MMeth (%s))" %
                                   (path, x.lineno, x.end_lineno, q(x.name), method(mod, n, x, "       ")))
                    elif isinstance(x, ast.AnnAssign):
                        if x.value is None:
                            continue     # annotation only
                        mem.append("    (* %s:%d *)\n    (%s, MAttr (%s))" % (path, x.lineno, q(x.target.id), literal(x.value)))
                    elif isinstance(x, ast.Assign):
                        assert x.targets[0].id == "_struct"
                        mem.append("    (* %s:%d-%d *)\n    (%s, MAttr (LBits %s))" %
                                   (path, x.lineno, x.end_lineno, q("_struct"), bitfields(x.value)))
                    elif isinstance(x, ast.Pass):
                        continue
                    else:
                        raise Unsupported(ast.dump(x))
                if n == "UnknownStandardVariableRecord":
                    pass
                o.append("Definition %s : cls := mkcls %s %s\n  [\n%s\n  ].\n" %
                         (cid(n), q(n), lst([q(x) for x in mro(n)]), ";\n".join(mem)))
        o.append("Definition %s_classes : list (string * cls) :=\n  [%s]." %
                 (fname, ";\n   ".join("(%s, %s)" % (q(n), cid(n)) for n in names)))
        if fname == "ProgDis":
            # module-level functions
            for n in ("parseStandardVariableRecord",):
                mod, path, f = FUNCS[n]
                o.append("\n(* %s:%d-%d *)" % (path, f.lineno, f.end_lineno))
                o.append("Definition f_%s : meth := %s." % (n, method(mod, "", f, "  ")))
            # decoder table
            path = "opendis/PduFactory.py"
            t = ast.parse(open(os.path.join(REPO, path)).read())
            for s in t.body:
                if isinstance(s, (ast.Assign, ast.AnnAssign)):
                    tg = s.targets[0] if isinstance(s, ast.Assign) else s.target
                    if tg.id == "PduTypeDecoders":
                        o.append("\n(* %s:%d-%d *)" % (path, s.lineno, s.end_lineno))
                        o.append("Definition PduTypeDecoders : list (Z * string) :=\n  [%s]." % ";\n   ".join(
                            "(%d, %s)" % (k.value, q(v.id if isinstance(v, ast.Name) else v.attr)) for k, v in zip(s.value.keys, s.value.values)))
        open(os.path.join(OUT, fname + ".v"), "w").write("\n".join(o) + "\n")
        print(fname, len(names), "classes")


gen()
