(** * The bitfield class factory, opendis/record/bitfield.py

    The classes it returns are the values [VBitCls] of [Interp.v]; calling them, serialize and parse are
    [apply (KNewBits _)] and [native] there. *)
From Coq Require Import ZArith String List Bool.
From Verif Require Import Lang Bytes Interp.
Import ListNotations.
Open Scope string_scope. Open Scope Z_scope. Open Scope list_scope.

(** a field description (name, type, bits): bitfield.py:24 DisFieldDescription; name restricted to strings (SIMPL) *)
Definition field_desc : Type := string * val * val.

(** bitfield.py:31 INTEGER *)
Definition INTEGER : val := VStr (codes "INTEGER").
Definition is_INTEGER (v : val) : bool := match v with VStr cs => zlist_eqb cs (codes "INTEGER") | _ => false end.

(** bitfield.py:66-75, the first loop: the sum of the widths *)
Fixpoint first_pass (fields : list field_desc) (bitsize : Z) : Z + exn :=
  match fields with
  | [] => inl bitsize
  | (_, ftype, bits) :: r =>
      if negb (is_INTEGER ftype) then inr ValueError
      else match as_int bits with
           | None => inr ValueError
           | Some b => if (b <=? 0) || (32 <? b) then inr ValueError else first_pass r (bitsize + b)
           end
  end.

(** bitfield.py:34-50 _field; the base type is given by its number of bytes *)
Definition field_ (d : field_desc) (base : nat) : (string * nat * Z) + exn :=
  let '(name, ftype, bits) := d in
  if negb (is_INTEGER ftype) then inr ValueError
  else match as_int bits with
       | None => inr TypeError
       | Some b => if (b <=? 0) || (32 <? b) then inr ValueError else inl (name, base, b)
       end.

(** bitfield.py:94-96, the second loop *)
Fixpoint second_pass (fields : list field_desc) (base : nat) : list (string * nat * Z) + exn :=
  match fields with
  | [] => inl []
  | d :: r =>
      match field_ d base with
      | inr e => inr e
      | inl f => match second_pass r base with inl l => inl (f :: l) | inr e => inr e end
      end
  end.

(** ctypes.sizeof of a BigEndianStructure whose fields are bit fields of one base type of [base] bytes: a field that does not fit
    into the current storage unit starts a new one *)
Fixpoint units (base : nat) (free : Z) (l : list (string * nat * Z)) : nat :=
  match l with
  | [] => 0%nat
  | (_, _, b) :: r => if b <=? free then units base (free - b) r else S (units base (8 * Z.of_nat base - b) r)
  end.
Definition sizeof (base : nat) (l : list (string * nat * Z)) : nat := (base * units base 0 l)%nat.

(** bitfield.py:53-119 bitfield; the class name is not modelled (SIMPL) *)
Definition bitfield (fields : list field_desc) : val + exn :=
  match first_pass fields 0 with
  | inr e => inr e
  | inl bitsize =>
      if bitsize =? 0 then inr ValueError
      else if negb (bitsize mod 8 =? 0) then inr ValueError
      else
        let bytesize := bitsize / 8 in
        match (if bitsize <=? 8 then Some 1%nat else if bitsize <=? 16 then Some 2%nat else if bitsize <=? 32 then Some 4%nat else None) with
        | None => inr ValueError
        | Some base =>
            match second_pass fields base with
            | inr e => inr e
            | inl sf =>
                if Z.of_nat (sizeof base sf) =? bytesize then inl (VBitCls (map (fun f => (fst (fst f), snd f)) sf))
                else inr AssertionError
            end
        end
  end.
