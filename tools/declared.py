"""Write rocq/theories/Declared.v: the wire types the library declares for its attributes.

The declarations are the annotations of opendis/types.py (uint8, enum16, float32, ...) on class
attributes, on `self.x: T = ...` and on constructor parameters assigned to an attribute.  The
source is only parsed (ast), not run.
"""
import ast
import glob
import os

REPO = "/repo"
OUT = os.path.join(os.path.dirname(__file__), "..", "rocq", "theories", "Declared.v")

TYPES = {}
for n in (8, 16, 32, 64):
    for t in ("uint", "enum", "struct"):
        TYPES["%s%d" % (t, n)] = "PInt %d false" % (n // 8)
    TYPES["int%d" % n] = "PInt %d true" % (n // 8)
TYPES["float32"] = "PF32"
TYPES["float64"] = "PF64"


def declarations(path):
    with open(path) as f:
        tree = ast.parse(f.read())
    for c in tree.body:
        if not isinstance(c, ast.ClassDef):
            continue
        for m in c.body:
            if isinstance(m, ast.AnnAssign) and isinstance(m.target, ast.Name):
                yield c.name, m.target.id, ast.unparse(m.annotation), m.lineno
            if not (isinstance(m, ast.FunctionDef) and m.name == "__init__"):
                continue
            params = {a.arg: a for a in m.args.args if a.annotation}
            for s in m.body:
                if isinstance(s, ast.AnnAssign) and isinstance(s.target, ast.Attribute):
                    yield c.name, s.target.attr, ast.unparse(s.annotation), s.lineno
                elif (isinstance(s, ast.Assign) and isinstance(s.targets[0], ast.Attribute)
                      and isinstance(s.value, ast.Name) and s.value.id in params):
                    a = params[s.value.id]
                    yield c.name, s.targets[0].attr, ast.unparse(a.annotation), a.lineno


def main():
    first = [REPO + "/opendis/record/common.py", REPO + "/opendis/dis7.py"]
    files = first + [f for f in sorted(glob.glob(REPO + "/opendis/record/**/*.py", recursive=True)) if f not in first]
    rows = []
    for f in files:
        for c, a, t, line in declarations(f):
            if t in TYPES:
                rows.append((c, a, TYPES[t], t, os.path.relpath(f, REPO), line))
    with open(OUT, "w") as out:
        out.write("(** * The wire types declared in the source\n\n"
                  "    Generated by tools/declared.py from the annotations of /repo/opendis: class, attribute, declared type.\n"
                  "    opendis/types.py:1-33 documents what the annotations mean: uintN, enumN and structN are N-bit unsigned, intN is\n"
                  "    N-bit signed, float32 and float64 are IEEE 754.  Each row cites the line of the annotation. *)\n"
                  "From Coq Require Import String List.\nFrom Verif Require Import Spec.\nImport ListNotations.\nOpen Scope string_scope.\n\n"
                  "Definition declared : list (string * string * prim) := [\n")
        for i, (c, a, p, t, f, line) in enumerate(rows):
            out.write('  ("%s", "%s", %s)%s (* %s, %s:%d *)\n' % (c, a, p, ";" if i + 1 < len(rows) else "", t, f, line))
        out.write("].\n")
    print(len(rows), "declarations")


main()
