(** * Abstract syntax of the Python fragment used by open-dis-python

    This is the target of tools/gen.py, which translates every class of
    opendis/stream.py, opendis/dis7.py and opendis/record/ (all files) into terms of the types below.
    Only the constructs that occur in those files exist here. *)
From Coq Require Import ZArith String List.
Import ListNotations.

(** Literals.  Floats are given by the 64 bits of the IEEE-754 double.
    [LBits] is the result of the class-level call bitfield.bitfield(name, fields)
    (opendis/record/bitfield.py:53-119): field names and widths, first field first. *)
Inductive lit :=
| LNone
| LBool (b : bool)
| LInt (z : Z)
| LFloat (bits : Z)
| LStr (s : string)
| LBytes (l : list Byte.byte)
| LBits (fs : list (string * Z)).

Inductive binop := OAdd | OSub | OMul | OFloorDiv | OMod | OBitAnd.
Inductive cmpop := CLt | CGt | CLe | CGe | CEq | CNe | CIs | CIsNot | CIn.

(** Python builtins called by the code ([BFilterNone] is filter(None, _), [BIsInt] is
    isinstance(_, int), [BPack]/[BUnpack] are struct.pack/struct.unpack).  The aliases of
    opendis/types.py (uint8 = int, float32 = float, char8 = str, ...) are resolved by the translator. *)
Inductive builtin :=
| BLen | BRange | BInt | BFloat | BStr | BBool | BOrd | BChr | BList | BBytes
| BFilterNone | BIsInt | BPack | BUnpack.

(** Exceptions, as values.  [RecursionError] is also what running out of the
    interpreter's call-depth bound gives (Python has such a bound too). *)
Inductive exn :=
| StructError | AttributeError | NameError | TypeError | ValueError | IndexError
| OverflowError | AssertionError | UnicodeDecodeError | ZeroDivisionError | RecursionError | Unsupported.

(** Expressions.  [Loc] is a local variable, [Glob] a module-level name.
    In calls, the last |kws| arguments are the keyword arguments. *)
Inductive expr :=
| Lit (l : lit)
| Loc (x : string)
| Glob (x : string)
| Attr (e : expr) (a : string)
| Sub (e i : expr)
| CallV (f : expr) (args : list expr) (kws : list string)
| Meth (e : expr) (m : string) (args : list expr) (kws : list string)
| Super (c m : string) (args : list expr) (kws : list string)
| Builtin (b : builtin) (args : list expr)
| HasAttr (e : expr) (a : string)
| ListE (es : list expr)
| TupleE (es : list expr)
| OrE (a b : expr)
| AndE (a b : expr)
| NotE (a : expr)
| Bin (o : binop) (a b : expr)
| Cmp (o : cmpop) (a b : expr)
| IfE (c a b : expr).

Inductive stmt :=
| Expr (e : expr)
| Assign (x : string) (e : expr)
| SetAttr (o : expr) (a : string) (e : expr)
| SetSub (o i : expr) (e : expr)
| If (c : expr) (a b : list stmt)
| For (x : string) (e : expr) (body : list stmt)
| Return (e : expr)
| Raise (x : exn)
| Assert (e : expr)
| Pass.

(** Parameter defaults are evaluated once, when the function is defined.  A default
    that is a mutable object would be one cell shared by all calls: [DCell n] is the
    n-th object of the initial heap.  (The code has none: the translator rejects them and
    [Prog.no_shared_defaults] re-checks.) *)
Inductive dflt := DLit (l : lit) | DCell (n : nat).

Inductive mkind := KNormal | KProperty | KStatic.

Record meth := mkmeth {
  m_kind : mkind;
  m_abstract : bool;
  m_params : list (string * option dflt);
  m_body : list stmt
}.

Inductive member := MMeth (m : meth) | MAttr (l : lit).

(** A class: its name, its method resolution order (itself first; the code only uses
    single inheritance) and the members defined in its body. *)
Record cls := mkcls {
  c_name : string;
  c_mro : list string;
  c_members : list (string * member)
}.

Record prog := mkprog {
  p_classes : list (string * cls);
  p_funs : list (string * meth)
}.
