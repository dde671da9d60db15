#!/usr/bin/env python3
"""First draft of theories/Layouts.v: reads the serialize and parse methods of every class as text
(Python's ast) and writes down the wire layout each of them follows.  The draft was then read
against the code and frozen; the Coq development checks the result against the translated program
(SerSound, ParSound), so nothing here is trusted."""
import ast, sys
R = "/repo/"
FILES = ["opendis/record/common.py", "opendis/record/radio/__init__.py", "opendis/record/warfare/enums.py",
         "opendis/record/warfare/__init__.py", "opendis/dis7.py"]
W = {"byte": "i8", "unsigned_byte": "u8", "short": "i16", "unsigned_short": "u16", "int": "i32", "unsigned_int": "u32",
     "long": "i64", "uint64": "u64", "float": "f32", "double": "f64", "float32": "f32", "float64": "f64",
     "int8": "i8", "int16": "i16", "int32": "i32", "int64": "i64", "uint8": "u8", "uint16": "u16", "uint32": "u32"}
RD = dict(W); RD["uint64"] = "i64"
classes, order, src = {}, [], {}
for f in FILES:
    for c in ast.parse(open(R + f).read()).body:
        if isinstance(c, ast.ClassDef):
            classes[c.name] = c; order.append(c.name); src[c.name] = (f, c.lineno)
U = ast.unparse

def base(c):
    return classes[c].bases[0].id if classes[c].bases and isinstance(classes[c].bases[0], ast.Name) else None

def meth(c, m):
    while c in classes:
        for x in classes[c].body:
            if isinstance(x, ast.FunctionDef) and x.name == m: return c, x
        c = base(c)
    return None, None

def attr_cls(c, a):
    """class of self.a, from the constructor (self.a = a or C()) or a class attribute"""
    while c in classes:
        for x in classes[c].body:
            if isinstance(x, ast.FunctionDef) and x.name == "__init__":
                for s in ast.walk(x):
                    t = s.targets[0] if isinstance(s, ast.Assign) else s.target if isinstance(s, ast.AnnAssign) else None
                    if t is not None and U(t) == "self." + a and s.value is not None:
                        for v in ast.walk(s.value):
                            if isinstance(v, ast.Call) and isinstance(v.func, ast.Name) and v.func.id in classes: return v.func.id
                        # annotated parameter
                        for p in x.args.args:
                            if p.arg == a and p.annotation is not None:
                                for v in ast.walk(p.annotation):
                                    if isinstance(v, ast.Name) and v.id in classes: return v.id
                                    if isinstance(v, ast.Constant) and isinstance(v.value, str):
                                        for w in v.value.replace('"', ' ').split():
                                            if w in classes: return w
        c = base(c)
    return None

class No(Exception): pass

def bits(c):
    for x in classes[c].body:
        if isinstance(x, ast.Assign) and U(x.targets[0]) == "_struct":
            call = x.value
            return [(e.elts[0].value, e.elts[-1]) for e in call.args[1].elts] if len(call.args) > 1 else \
                   [(e.elts[0].value, e.elts[-1]) for e in [k for k in call.keywords if k.arg == "fields"][0].value.elts]
    raise No("no _struct")

def width(e):
    return int(U(e)) if isinstance(e, ast.Constant) else e

def is_prop(c, n):
    k, m = meth(c, n)
    if m is not None and any(U(d) == "property" for d in m.decorator_list):
        s = U(m.body[-1])
        assert s.startswith("return len(self."), s
        s = s[len("return "):]
        return (s[len("len(self."):-5], 8) if s.endswith(") * 8") else (s[len("len(self."):-1], 1)
    return None

def elem_cls(c, a):
    k, m = meth(c, "parse")
    for s in ast.walk(m):
        if isinstance(s, ast.For) and ("self.%s.append(element)" % a) in U(s):
            return U(s.body[0].value.func)
    return None

def wlay(c):
    k, m = meth(c, "serialize")
    out = []
    for s in m.body:
        t = U(s)
        if isinstance(s, ast.Expr) and isinstance(s.value, ast.Constant): continue
        if isinstance(s, ast.Pass): continue
        if t.startswith("super("): out.append(("super", base(k))); continue
        if isinstance(s, ast.Expr) and isinstance(s.value, ast.Call):
            f = U(s.value.func); a = s.value.args
            if f.startswith("outputStream.write_"):
                p = W[f[len("outputStream.write_"):]]; e = U(a[0])
                if e == "0": out.append(("Zero", p)); continue
                if e.startswith("len(self."):
                    if e.endswith(") * 8"): e = e[:-4]; out.append(("Cnt", e[len("len(self."):-1], p, 8)); continue
                    out.append(("Cnt", e[len("len(self."):-1], p, 1)); continue
                if e.endswith(" & 1"): out.append(("Mask", e[5:-4], {"u8": 1, "u16": 2}[p])); continue
                if e.startswith("self."):
                    n = e[5:]; l = is_prop(k, n)
                    out.append(("Cnt", l[0], p, l[1]) if l else ("Prim", n, p)); continue
            if f.startswith("self._struct("):
                args = [U(x) for x in s.value.func.value.args]; bs = []
                for i, (n, w) in enumerate(bits(k)):
                    if i < len(args):
                        x = args[i]; fl = x.startswith("int("); x = x[4:-1] if fl else x
                        bs.append((x[5:], width(w), fl))
                    else: bs.append((None, width(w), False))
                out.append(("Bits", bs)); continue
            if f.startswith("self.") and f.endswith(".serialize"):
                n = f[5:-10]; cl = attr_cls(k, n)
                if cl is None: raise No("class of %s" % n)
                out.append(("Obj", n, cl)); continue
        if isinstance(s, ast.For):
            it = U(s.iter); b = U(s.body[0])
            if it.startswith("self."):
                n = it[5:]; x = U(s.target)
                if b == x + ".serialize(outputStream)":
                    cl = elem_cls(k, n)
                    out.append(("NullL", n) if cl in ("null", None) else ("OList", n, cl)); continue
                if b.startswith("outputStream.write_"): out.append(("PList", n, W[b[len("outputStream.write_"):].split("(")[0]])); continue
            if it.startswith("range(0, ") and b.startswith("outputStream.write_"):
                out.append(("Arr", b.split("self.")[1].split("[")[0], W[b[len("outputStream.write_"):].split("(")[0]], int(it[9:-1]))); continue
            if it.startswith("range(self.") and it.endswith(" // 8)"):
                if "datumPaddingSizeInBits" in it: out.append(("Pad", "variableDatumLength")); continue
                out.append(("VList", b.split("self.")[1].split("[")[0], W[b[len("outputStream.write_"):].split("(")[0]], it[len("range(self."):-6], 8)); continue
        raise No("%s: %s" % (s.lineno, t.split("\n")[0]))
    return out

def rlay(c):
    k, m = meth(c, "parse")
    out = []; ss = list(m.body); i = 0; cnts = {}
    while i < len(ss):
        s = ss[i]; t = U(s); i += 1
        if isinstance(s, ast.Expr) and isinstance(s.value, ast.Constant): continue
        if isinstance(s, ast.Pass): continue
        if t.startswith("super("): out.append(("super", base(k))); continue
        if isinstance(s, ast.Assign):
            l = U(s.targets[0]); e = U(s.value)
            if e.endswith(" & 1") and e.startswith("inputStream.read_"):
                p = RD[e[len("inputStream.read_"):].split("(")[0]]
                out.append(("Mask", U(ss[i].targets[0])[5:], {"u8": 1, "u16": 2}[p])); i += 1; continue
            if e.startswith("inputStream.read_"):
                p = RD[e[len("inputStream.read_"):].split("(")[0]]
                # used as a loop bound?
                use = None
                for s2 in ss[i:]:
                    if isinstance(s2, ast.For) and l in U(s2.iter) and U(s2.iter).startswith("range(0, "):
                        b = U(s2.iter)[9:-1]; a = [x for x in U(s2).split("self.") if ".append(" in x][-1].split(".append")[0]
                        if b == l: use = (a, 1)
                        elif b == l + " // 8": use = (a, 8)
                        break
                if use: out.append(("Cnt", use[0], p, use[1]))
                elif l.startswith("self."): out.append(("Prim", l[5:], p))
                else: raise No("count %s unused" % l)
                continue
            if e.startswith("self._struct.parse"):
                got = {}
                while i < len(ss) and isinstance(ss[i], ast.Assign) and "record_bitfield" in U(ss[i].value):
                    v = U(ss[i].value); fl = v.startswith("bool("); v = v[5:-1] if fl else v
                    got[v.split(".")[1]] = (U(ss[i].targets[0])[5:], fl); i += 1
                out.append(("Bits", [(got[n][0], width(w), got[n][1]) if n in got else (None, width(w), False) for n, w in bits(k)])); continue
            if e.startswith("[0] * ") or e.startswith("[0 for"):
                s2 = ss[i]; i += 1
                p = RD[[x for x in U(s2).split("inputStream.read_")][1].split("(")[0]]
                n = int(U(s2.iter)[9:-1]); out.append(("Arr", l[5:], p, n)); continue
        if isinstance(s, ast.Expr) and isinstance(s.value, ast.Call):
            f = U(s.value.func)
            if f.startswith("self.") and f.endswith(".parse"):
                n = f[5:-6]; cl = attr_cls(k, n)
                if cl is None: raise No("class of %s" % n)
                out.append(("Obj", n, cl)); continue
            if f.startswith("inputStream.read_"): out.append(("Zero", RD[f[len("inputStream.read_"):]])); continue
        if isinstance(s, ast.For):
            it = U(s.iter)
            if it.startswith("range(0, "):
                b = it[9:-1]; a = [x for x in U(s).split("self.") if ".append(" in x]
                if not a: raise No("%s: %s" % (s.lineno, t.split("\n")[0]))
                a = a[-1].split(".append")[0]; e = U(s.body[0].value)
                if b == "self.recordLength - 6": out.append(("Derive", a, "recordLength", 6))
                if e == "null()": out.append(("NullL", a))
                elif e.startswith("inputStream.read_"): out.append(("PList", a, RD[e[len("inputStream.read_"):].split("(")[0]]))
                else: out.append(("OList", a, U(s.body[0].value.func)))
                continue
            if it.startswith("range(self.") and it.endswith(" // 8)"):
                if "datumPaddingSizeInBits" in it: out.append(("Pad", "variableDatumLength")); continue
                b = U(s.body[0]); out.append(("VList", b.split("self.")[1].split(".append")[0], RD[b.split("inputStream.read_")[1].split("(")[0]], it[len("range(self."):-6], 8)); continue
        raise No("%s: %s" % (s.lineno, t.split("\n")[0]))
    return out

ABSTRACT = ("Record", "VariableRecord", "StandardVariableRecord", "DamageDescriptionRecord", "ModulationParametersRecord", "AntennaPatternRecord", "VariableTransmitterParametersRecord", "object", None)
wl, rl, fails = {}, {}, []
for c in order:
    for d, fn, nm in ((wl, wlay, "serialize"), (rl, rlay, "parse")):
        if meth(c, nm)[1] is None: fails.append((c, nm, "no method")); continue
        try: d[c] = fn(c)
        except (No, KeyError, AssertionError) as e: fails.append((c, nm, str(e)))

def flat(d, c):
    out = []
    for it in d[c]:
        if it[0] == "super": out += flat(d, it[1]) if it[1] in d else []
        else: out.append(it)
    return out


SKIP = {"DirectedEnergyDamage", "DirectedEnergyAreaAimpoint", "DirectedEnergyPrecisionAimpoint", "HighFidelityHAVEQUICKRadio",
        "DirectedEnergyFirePdu", "EntityDamageStatusPdu"}
def q(s): return '"%s"' % s
def subs(l): return [x[2] for x in l if x[0] in ("Obj", "OList")] + [x[1] for x in l if x[0] == "super"]

def good(d, c, seen=()):
    """can the layout of c be written down at all?"""
    if c in ABSTRACT or c is None: return True
    if c in SKIP or c not in d or c in seen: return False
    return all(good(d, x, seen + (c,)) for x in subs(d[c]))

def same(c):
    return good(wl, c) and good(rl, c) and flat(wl, c) == flat(rl, c) and all(same(x[2]) for x in flat(wl, c) if x[0] in ("Obj", "OList"))

def item(x, nm):
    k = x[0]
    if k == "super": return "fapp %s" % nm(x[1])
    if k == "Prim": return "Prim %s %s" % (q(x[1]), x[2])
    if k in ("Obj", "OList"): return "%s %s %s %s" % (k, q(x[1]), q(x[2]), nm(x[2]))
    if k == "Cnt": return "Cnt %s %s %d" % (q(x[1]), x[2], x[3])
    if k == "PList": return "PList %s %s" % (q(x[1]), x[2])
    if k == "Arr": return "Arr %s %s %d" % (q(x[1]), x[2], x[3])
    if k == "Zero": return "Zero %s" % x[1]
    if k == "Mask": return "Mask %s %d" % (q(x[1]), x[2])
    if k == "VList": return "VList %s %s %s %d" % (q(x[1]), x[2], q(x[3]), x[4])
    if k == "Pad": return "Pad %s" % q(x[1])
    if k == "Derive": return "Derive %s %s %d" % (q(x[1]), q(x[2]), x[3])
    if k == "NullL": return "NullL %s" % q(x[1])
    if k == "Bits": return "Bits [%s]" % "; ".join("mkbf %s %d %s" % ("(Some %s)" % q(a) if a else "None", w, "true" if f else "false") for a, w, f in x[1])
    assert 0, x

def emit():
    out = []; done = set()
    def go(c, d, pre):
        if (pre, c) in done or c in ABSTRACT or c is None: return
        done.add((pre, c))
        for x in subs(d[c]):
            if pre == "w" or not same(x): go(x, d, pre)
        f, ln = src[c]
        nm = lambda x: ("%s_%s" % ("r" if pre == "r" and not same(x) else "w", x))
        its = [item(x, nm) for x in d[c] if not (x[0] == "super" and x[1] in ABSTRACT)]
        cite = ", ".join("%s %d-%d" % (m, meth(c, m)[1].lineno, meth(c, m)[1].end_lineno) for m in (("serialize", "parse") if pre == "w" else ("parse",)))
        out.append("(** %s:%d %s (%s) *)\nDefinition %s_%s : fmt := lay [\n  %s]." % (f, ln, c, cite, pre, c, ";\n  ".join(its)))
    ws = [c for c in order if c not in ABSTRACT and good(wl, c)]
    rs = [c for c in order if c not in ABSTRACT and good(rl, c)]
    for c in ws: go(c, wl, "w")
    for c in rs:
        if not good(wl, c) or not same(c): go(c, rl, "r")
    print("\n\n".join(out))
    print("\n(** the layout each class's serialize follows *)\nDefinition TW : list (string * fmt) := [\n  " + ";\n  ".join('(%s, w_%s)' % (q(c), c) for c in ws) + "].")
    print("\n(** the layout each class's parse follows *)\nDefinition TR : list (string * fmt) := [\n  " + ";\n  ".join('(%s, %s_%s)' % (q(c), "w" if good(wl, c) and same(c) else "r", c) for c in rs) + "].")

HEAD = """(** * The wire layout of every record and PDU

    A layout lists a record's fields in wire order, each with its primitive type, embedded
    record or list.  [lay] chains the items; [fapp] puts a superclass's fields first.  [TW] says what the
    serialize methods write, [TR] what the parse methods read; they differ only for the classes that
    have an [r_] layout.  [Refine.v] checks both against the code.  (Drafted by tools/layouts.py.) *)
From Coq Require Import ZArith String List.
From Verif Require Import Spec.
Import ListNotations.
Open Scope string_scope. Open Scope Z_scope. Open Scope list_scope.

Definition lay (l : list (fmt -> fmt)) : fmt := fold_right (fun f k => f k) Done l.
"""
if __name__ == "__main__":
    if "-r" in sys.argv:
        for x in fails: print("FAIL", x)
        for c in order:
            if c in wl and c in rl and flat(wl, c) != flat(rl, c): print("DIFF", c)
        print("no write layout:", [c for c in order if not good(wl, c)])
        print("no read layout:", [c for c in order if not good(rl, c)])
    else:
        print(HEAD); emit()
