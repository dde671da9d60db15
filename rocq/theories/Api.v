(** * Vocabulary for the property statements

    What a client of the library can do and see.  [n] is always the interpreter's fuel; the theorems
    hold for every [n] from a small bound on, so a result never depends on it. *)
From Coq Require Import ZArith String List.
From Coq Require Import Strings.Byte.
From Verif Require Import Lang Bytes Interp Prog.
Import ListNotations.
Open Scope string_scope. Open Scope Z_scope. Open Scope list_scope.

(** outputStream.w(v) *)
Definition wr (n : nat) (w : string) (v : val) : M val := call_method the_prog n VOut w [v].
(** inputStream.r() *)
Definition rd (n : nat) (r : string) : M val := call_method the_prog n VIn r [].
(** o.serialize(outputStream), o.parse(inputStream) *)
Definition serialize (n : nat) (o : val) : M val := call_method the_prog n o "serialize" [VOut].
Definition parse (n : nat) (o : val) : M val := call_method the_prog n o "parse" [VIn].
(** PduFactory.createPdu(data), called when the objects of h exist *)
Definition factory (n : nat) (h : list hobj) (data : list byte) : res val * st := createPdu the_prog ProgDis.PduTypeDecoders n h data.

(** the state s after appending bs to the output; the state s with bs left to read *)
Definition appended (s : st) (bs : list byte) : st := mkst (heap s) (irest s) (ifull s) (out s ++ bs).
Definition unread (s : st) (bs : list byte) : st := mkst (heap s) bs (ifull s) (out s).

(** the integers of k bytes *)
Definition in_range (k : nat) (signed : bool) (z : Z) : Prop :=
  if signed then - 2 ^ (8 * Z.of_nat k - 1) <= z < 2 ^ (8 * Z.of_nat k - 1) else 0 <= z < 2 ^ (8 * Z.of_nat k).

(** DataOutputStream's integer writers: method, bytes, signedness *)
Definition int_writers : list (string * (nat * bool)) :=
  [("write_byte", (1%nat, true)); ("write_unsigned_byte", (1%nat, false)); ("write_short", (2%nat, true)); ("write_unsigned_short", (2%nat, false));
   ("write_int", (4%nat, true)); ("write_unsigned_int", (4%nat, false)); ("write_long", (8%nat, true));
   ("write_int8", (1%nat, true)); ("write_int16", (2%nat, true)); ("write_int32", (4%nat, true)); ("write_int64", (8%nat, true));
   ("write_uint8", (1%nat, false)); ("write_uint16", (2%nat, false)); ("write_uint32", (4%nat, false)); ("write_uint64", (8%nat, false))].

(** each writer with the reader of the same name (write_uint64 / read_uint64: see C04) *)
Definition int_pairs : list (string * string) :=
  [("write_byte", "read_byte"); ("write_unsigned_byte", "read_unsigned_byte"); ("write_short", "read_short"); ("write_unsigned_short", "read_unsigned_short");
   ("write_int", "read_int"); ("write_unsigned_int", "read_unsigned_int"); ("write_long", "read_long");
   ("write_int8", "read_int8"); ("write_int16", "read_int16"); ("write_int32", "read_int32"); ("write_int64", "read_int64");
   ("write_uint8", "read_uint8"); ("write_uint16", "read_uint16"); ("write_uint32", "read_uint32")].

(** fixed-width readers: method, bytes *)
Definition readers : list (string * nat) :=
  [("read_boolean", 1%nat); ("read_byte", 1%nat); ("read_unsigned_byte", 1%nat); ("read_char", 2%nat); ("read_double", 8%nat); ("read_float", 4%nat);
   ("read_short", 2%nat); ("read_unsigned_short", 2%nat); ("read_long", 8%nat); ("read_int", 4%nat); ("read_unsigned_int", 4%nat);
   ("read_char8", 2%nat); ("read_float32", 4%nat); ("read_float64", 8%nat); ("read_int8", 1%nat); ("read_int16", 2%nat); ("read_int32", 4%nat);
   ("read_int64", 8%nat); ("read_uint8", 1%nat); ("read_uint16", 2%nat); ("read_uint32", 4%nat); ("read_uint64", 8%nat)].
