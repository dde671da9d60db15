#!/usr/bin/env python3
"""Writes rocq/theories/Validate.v: the assertions of the codec tests in /repo/tests, evaluated in the model.
Reads /repo as text and bytes only; nothing of /repo is executed."""
import ast, os, re, struct

T = "/repo/tests/"

def q(s): return '"' + s.replace('"', '""') + '"'
def bits(x): return struct.unpack(">Q", struct.pack(">d", x))[0]

def expr(e):
    if isinstance(e, ast.Name): return "(Loc %s)" % q(e.id)
    if isinstance(e, ast.Attribute): return "(Attr %s %s)" % (expr(e.value), q(e.attr))
    if isinstance(e, ast.Subscript): return "(Sub %s %s)" % (expr(e.value), expr(e.slice))
    if isinstance(e, ast.Constant): return "(Lit (LInt %d))" % e.value
    if isinstance(e, ast.Call) and isinstance(e.func, ast.Name): return "(Builtin %s [%s])" % ({"len": "BLen", "bytes": "BBytes"}[e.func.id], expr(e.args[0]))
    if isinstance(e, ast.Call) and isinstance(e.func, ast.Attribute): return "(Meth %s %s [] [])" % (expr(e.func.value), q(e.func.attr))
    raise ValueError(ast.dump(e))

def number(e):
    v = eval(compile(ast.Expression(e), "", "eval"), {"__builtins__": {}})   # a literal expression such as 8192/8
    return v

def expected(e):
    v = number(e)
    if isinstance(v, (int, float)): return "Num %d %d" % (int(v), bits(float(v)))
    if isinstance(v, str): return "Is (VStr [%s])" % "; ".join(str(ord(c)) for c in v)
    if isinstance(v, bytes): return "Is (VBytes [%s])" % "; ".join("x%02x" % b for b in v)
    raise ValueError(v)

def bytelist(b):
    rows = ["; ".join("x%02x" % c for c in b[i:i + 32]) for i in range(0, len(b), 32)]
    return "[" + ";\n   ".join(rows) + "]"

out = ["""(** * The captured datagrams of /repo/tests, decoded by the model

    Generated by tools/validate.py from the .raw files and the assertions of the test methods.  These are tests of the
    model (examples on literals), not theorems about the code: they show that the interpreter reads the library the way
    Python does on the inputs that its authors checked. *)
From Coq Require Import ZArith String List Bool.
From Coq Require Import Strings.Byte.
From Verif Require Import Lang Interp Prog Api.
Import ListNotations.
Open Scope string_scope. Open Scope Z_scope. Open Scope list_scope.

(** what an assertion expects: a number (Python's 0 == 0.0), a value, or a float between two others (assertAlmostEqual; from 0: of either sign) *)
Inductive want := Num (z bits : Z) | Is (v : val) | Between (lo hi : Z).
Definition meets (w : want) (v : val) : bool :=
  match w, v with
  | Num z _, VInt z' => z =? z'
  | Num _ b, VFloat b' => (b =? b') || ((b =? 0) && (b' =? 2 ^ 63))
  | Is (VStr a), VStr b => if list_eq_dec Z.eq_dec a b then true else false
  | Is (VBytes a), VBytes b => if list_eq_dec Byte.byte_eq_dec a b then true else false
  | Between lo hi, VFloat b => (lo <=? b) && (b <=? hi) || (lo =? 0) && (2 ^ 63 <=? b) && (b <=? 2 ^ 63 + hi)
  | _, _ => false
  end.
(** e evaluated in the test method, where pdu is bound; n bounds the call depth *)
Definition value (n : nat) (e : expr) (rho : env) : M val := eval the_prog (run the_prog n) e rho.
Definition holds_in (rho : env) (s : st) (c : expr * want) : bool :=
  match fst (value 40 (fst c) rho s) with Ok v => meets (snd c) v | Exc _ => false end.
(** createPdu(data) returns an object of which all the assertions hold *)
Definition passes (data : list byte) (lets : list (string * expr)) (cs : list (expr * want)) : bool :=
  match factory 50 [] data with
  | (Ok pdu, s) =>
      let rho := fold_left (fun r d => match fst (value 40 (snd d) r s) with Ok v => (fst d, v) :: r | Exc _ => r end) lets [("pdu", pdu)] in
      forallb (holds_in rho s) cs
  | _ => false
  end.
(** createPdu(data).serialize writes data again *)
Definition rewrites (data : list byte) : bool :=
  match factory 50 [] data with
  | (Ok pdu, s) => match serialize 50 pdu s with (Ok _, s') => if list_eq_dec Byte.byte_eq_dec (out s') data then true else false | _ => false end
  | _ => false
  end.
"""]
total = 0
for f in sorted(os.listdir(T)):
    if not f.startswith("test_") or f in ("test_RangeCoordinates.py", "test_dead_reckoning.py", "test_examples.py"): continue
    src = open(T + f).read()
    for c in ast.parse(src).body:
        if not isinstance(c, ast.ClassDef): continue
        for m in c.body:
            if not m.name.startswith("test"): continue
            raw = [x.value for x in ast.walk(m) if isinstance(x, ast.Constant) and isinstance(x.value, str) and x.value.endswith(".raw")][0]
            body = [x for x in ast.walk(m) if isinstance(x, (ast.Expr, ast.Assign))]
            body.sort(key=lambda x: x.lineno)
            cs, lets, again = [], [], False
            for x in body:
                if isinstance(x, ast.Assign):
                    if x.targets[0].id == "datum": lets.append("(%s, %s)" % (q("datum"), expr(x.value)))
                    continue
                k = x.value
                if not (isinstance(k, ast.Call) and isinstance(k.func, ast.Attribute) and k.func.attr.startswith("assert")): continue
                if isinstance(k.args[0], ast.Name): again = True; continue      # assertEqual(data, memoryStream.getvalue())
                if k.func.attr == "assertEqual":
                    cs.append("(%s, %s)" % (expr(k.args[1]), expected(k.args[0])))
                else:
                    v = number(k.args[0]); places = number(k.args[2]) if len(k.args) > 2 else 7
                    d = 0.5 * 10 ** -places
                    a, b = (0.0, d) if v == 0 else (abs(v) - d, abs(v) + d)
                    s = 2 ** 63 if v < 0 else 0
                    cs.append("(%s, Between %d %d)" % (expr(k.args[1]), bits(a) + s, bits(b) + s))
            n = re.sub(r"\W", "_", raw[:-4])
            total += len(cs)
            out.append("(** tests/%s:%d-%d %s with tests/%s *)" % (f, m.lineno, m.end_lineno, m.name, raw))
            out.append("Definition raw_%s : list byte :=\n  %s." % (n, bytelist(open(T + raw, "rb").read())))
            out.append("Example test_%s : passes raw_%s [%s]\n  [%s] = true.\nProof. vm_compute. reflexivity. Qed." % (n, n, "; ".join(lets), ";\n   ".join(cs)))
            if again:
                out.append("Example test_again_%s : rewrites raw_%s = true.\nProof. vm_compute. reflexivity. Qed." % (n, n))
            out.append("")
open("/verif/rocq/theories/Validate.v", "w").write("\n".join(out))
print(total, "assertions")
