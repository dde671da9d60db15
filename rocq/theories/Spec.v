(** * Specification: what a record looks like on the wire

    This file is independent of the interpreter and of the translated program: it gives
    a small language of wire layouts, the values they describe, and what encoding
    and decoding along a layout mean.  [Layouts.v] gives the layout of each record. *)
From Coq Require Import ZArith String List Bool.
From Coq Require Import Strings.Byte.
From Verif Require Import Lang Bytes.
Import ListNotations.
Open Scope string_scope. Open Scope Z_scope. Open Scope list_scope.

(** ** Field values *)
Inductive wv :=
| WNone
| WBool (b : bool)
| WInt (z : Z)
| WFloat (bits : Z)                  (* an IEEE 754 binary64, by its bits *)
| WStr (cs : list Z)
| WBytes (l : list byte)
| WList (l : list wv)
| WObj (fs : list (string * wv)).    (* a record: its fields *)

Definition flds := list (string * wv).

Fixpoint field (a : string) (W : flds) : option wv :=
  match W with
  | [] => None
  | (b, x) :: r => if String.eqb a b then Some x else field a r
  end.

(** Python's int view of a value (bool is an int) *)
Definition wint (x : wv) : option Z :=
  match x with WInt z => Some z | WBool b => Some (if b then 1 else 0) | _ => None end.

(** ** Primitive wire types: big-endian integers and IEEE floats *)
Inductive prim := PInt (n : nat) (sg : bool) | PF32 | PF64.

Definition width (p : prim) : nat := match p with PInt n _ => n | PF32 => 4 | PF64 => 8 end.

(** range of an n-byte integer type *)
Definition lo (n : nat) (sg : bool) : Z := if sg then - 2 ^ (8 * Z.of_nat n - 1) else 0.
Definition hi (n : nat) (sg : bool) : Z := if sg then 2 ^ (8 * Z.of_nat n - 1) else 2 ^ (8 * Z.of_nat n).

Definition enc_prim (p : prim) (x : wv) : list byte + exn :=
  match p with
  | PInt n sg =>
      match wint x with
      | Some z => if (lo n sg <=? z) && (z <? hi n sg) then inl (be n z) else inr StructError
      | None => inr StructError
      end
  | PF64 =>
      match x with
      | WFloat b => inl (be 8 b)
      | _ => match wint x with
             | Some z => match of_int z with Some b => inl (be 8 b) | None => inr StructError end
             | None => inr StructError
             end
      end
  | PF32 =>
      match x with
      | WFloat b => match narrow b with Some c => inl (be 4 c) | None => inr OverflowError end
      | _ => match wint x with
             | Some z =>
                 match of_int z with
                 | Some b => match narrow b with Some c => inl (be 4 c) | None => inr StructError end
                 | None => inr StructError
                 end
             | None => inr StructError
             end
      end
  end.

(** the value of exactly [width p] bytes *)
Definition dec_prim (p : prim) (l : list byte) : wv :=
  match p with
  | PInt n sg => WInt (if sg then signed n (be_val l) else be_val l)
  | PF64 => WFloat (be_val l)
  | PF32 => WFloat (widen (be_val l))
  end.

Definition read_prim (p : prim) (bs : list byte) : option (wv * list byte) :=
  if (width p <=? length bs)%nat
  then Some (dec_prim p (firstn (width p) bs), skipn (width p) bs)
  else None.

(** ** Layouts *)

(** a field of a bit-packed word: its attribute (None: not kept), its width, and whether it is a flag *)
Record bfield := mkbf { bf_attr : option string; bf_width : Z; bf_flag : bool }.

Inductive fmt :=
| Done
| Prim (a : string) (p : prim) (k : fmt)                  (* a scalar attribute *)
| Obj (a : string) (c : string) (sub : fmt) (k : fmt)     (* an embedded record of class c *)
| Cnt (a : string) (p : prim) (m : Z) (k : fmt)           (* m times the number of elements of list a *)
| PList (a : string) (p : prim) (k : fmt)                 (* the elements of list a, scalars *)
| OList (a : string) (c : string) (sub : fmt) (k : fmt)   (* the elements of list a, records of class c *)
| Arr (a : string) (p : prim) (n : nat) (k : fmt)         (* the n elements of list a *)
| Zero (p : prim) (k : fmt)                               (* a zero, ignored on reading *)
| Mask (a : string) (n : nat) (k : fmt)                   (* n-byte unsigned: the low bit of attribute a *)
| VList (a : string) (p : prim) (b : string) (dv : Z) (k : fmt) (* the first (b // dv) elements of list a *)
| Pad (b : string) (k : fmt)                              (* zero bytes up to a multiple of 64 bits after b bits *)
| Derive (a : string) (b : string) (d : Z) (k : fmt)      (* list a has (b - d) elements; no bytes *)
| Bits (bf : list bfield) (k : fmt)                       (* a bit-packed big-endian word *)
| NullL (a : string) (k : fmt).                           (* list a, which must be empty *)

Fixpoint fapp (f g : fmt) : fmt :=
  match f with
  | Done => g
  | Prim a p k => Prim a p (fapp k g)
  | Obj a c sub k => Obj a c sub (fapp k g)
  | Cnt a p m k => Cnt a p m (fapp k g)
  | PList a p k => PList a p (fapp k g)
  | OList a c sub k => OList a c sub (fapp k g)
  | Arr a p n k => Arr a p n (fapp k g)
  | Zero p k => Zero p (fapp k g)
  | Mask a n k => Mask a n (fapp k g)
  | VList a p b dv k => VList a p b dv (fapp k g)
  | Pad b k => Pad b (fapp k g)
  | Derive a b d k => Derive a b d (fapp k g)
  | Bits bf k => Bits bf (fapp k g)
  | NullL a k => NullL a (fapp k g)
  end.

(** ** Encoding: the bytes written, and the exception that stopped it, if any *)
Definition outcome := (list byte * option exn)%type.
Definition done : outcome := ([], None).
Definition fail (e : exn) : outcome := ([], Some e).
Definition oseq (x y : outcome) : outcome :=
  match snd x with
  | None => (fst x ++ fst y, snd y)
  | Some _ => x
  end.

Definition enc_val (p : prim) (x : wv) : outcome :=
  match enc_prim p x with inl l => (l, None) | inr e => fail e end.

Fixpoint enc_list {A} (e : A -> outcome) (l : list A) : outcome :=
  match l with
  | [] => done
  | x :: r => oseq (e x) (enc_list e r)
  end.

(** element i of a list, for i = 0 .. n-1 *)
Fixpoint enc_idx (e : wv -> outcome) (l : list wv) (n : nat) {struct n} : outcome :=
  match n with
  | O => done
  | S n' => match l with
            | [] => fail IndexError
            | x :: r => oseq (e x) (enc_idx e r n')
            end
  end.

Definition pad_bits (z : Z) : Z := if z mod 64 =? 0 then 0 else 64 - z mod 64.
Definition pad_bytes (z : Z) : nat := Z.to_nat (pad_bits z / 8).

Definition bits_tot (bf : list bfield) : Z := fold_right (fun b s => bf_width b + s) 0 bf.
Definition bits_bytes (bf : list bfield) : nat := Z.to_nat (bits_tot bf / 8).

(** the attributes' integer values, most significant field first; None: not an int *)
Fixpoint enc_bits (bf : list bfield) (W : flds) : option Z :=
  match bf with
  | [] => Some 0
  | b :: r =>
      match (match bf_attr b with
             | None => Some 0
             | Some a => match field a W with Some x => wint x | None => None end
             end), enc_bits r W with
      | Some z, Some u => Some ((z mod 2 ^ bf_width b) * 2 ^ bits_tot r + u)
      | _, _ => None
      end
  end.

Fixpoint dec_bits (bf : list bfield) (u : Z) : flds :=
  match bf with
  | [] => []
  | b :: r =>
      let z := (u / 2 ^ bits_tot r) mod 2 ^ bf_width b in
      match bf_attr b with
      | None => dec_bits r u
      | Some a => (a, if bf_flag b then WBool (negb (z =? 0)) else WInt z) :: dec_bits r u
      end
  end.

Definition as_obj (x : wv) : flds := match x with WObj w => w | _ => [] end.

(** a value that is not an int used as one (float arithmetic is outside the model) *)
Definition not_int (x : wv) : outcome := fail (match x with WFloat _ => Unsupported | _ => TypeError end).

Fixpoint encode (f : fmt) (W : flds) : outcome :=
  match f with
  | Done => done
  | Prim a p k =>
      match field a W with
      | Some x => oseq (enc_val p x) (encode k W)
      | None => fail AttributeError
      end
  | Obj a _ sub k =>
      match field a W with
      | Some (WObj w) => oseq (encode sub w) (encode k W)
      | _ => fail AttributeError
      end
  | Cnt a p m k =>
      match field a W with
      | Some (WList l) => oseq (enc_val p (WInt (Z.of_nat (length l) * m))) (encode k W)
      | _ => fail AttributeError
      end
  | PList a p k =>
      match field a W with
      | Some (WList l) => oseq (enc_list (enc_val p) l) (encode k W)
      | _ => fail AttributeError
      end
  | OList a _ sub k =>
      match field a W with
      | Some (WList l) => oseq (enc_list (fun x => encode sub (as_obj x)) l) (encode k W)
      | _ => fail AttributeError
      end
  | Arr a p n k =>
      match field a W with
      | Some (WList l) => oseq (enc_idx (enc_val p) l n) (encode k W)
      | _ => fail AttributeError
      end
  | Zero p k => oseq (enc_val p (WInt 0)) (encode k W)
  | Mask a n k =>
      match field a W with
      | Some x =>
          match wint x with
          | Some z => oseq (enc_val (PInt n false) (WInt (Z.land z 1))) (encode k W)
          | None => not_int x
          end
      | None => fail AttributeError
      end
  | VList a p b dv k =>
      match field a W, field b W with
      | Some (WList l), Some y =>
          match wint y with
          | Some z => oseq (enc_idx (enc_val p) l (Z.to_nat (z / dv))) (encode k W)
          | None => not_int y
          end
      | _, _ => fail AttributeError
      end
  | Pad b k =>
      match field b W with
      | Some y =>
          match wint y with
          | Some z => oseq (repeat x00 (pad_bytes z), None) (encode k W)
          | None => not_int y
          end
      | None => fail AttributeError
      end
  | Derive _ _ _ k => encode k W
  | Bits bf k =>
      match enc_bits bf W with
      | Some u => oseq (be (bits_bytes bf) u, None) (encode k W)
      | None => fail TypeError
      end
  | NullL a k =>
      match field a W with
      | Some (WList []) => encode k W
      | _ => fail Unsupported
      end
  end.

(** ** Decoding *)
Inductive dres (A : Type) := DOk (w : A) (rest : list byte) | DErr (e : exn).
Arguments DOk {A}. Arguments DErr {A}.

Definition dbind {A B} (d : dres A) (k : A -> list byte -> dres B) : dres B :=
  match d with DOk w r => k w r | DErr e => DErr e end.

Definition dmap {A B} (g : A -> B) (d : dres A) : dres B :=
  match d with DOk w r => DOk (g w) r | DErr e => DErr e end.

Definition dec_val (p : prim) (bs : list byte) : dres wv :=
  match read_prim p bs with Some (x, r) => DOk x r | None => DErr StructError end.

Fixpoint dec_list {A} (d : list byte -> dres A) (n : nat) (bs : list byte) : dres (list A) :=
  match n with
  | O => DOk [] bs
  | S n' => dbind (d bs) (fun x r => dmap (cons x) (dec_list d n' r))
  end.

(** read so far in the current record: the number of elements of a list (CLen), an integer field (CInt) *)
Inductive key := CLen (a : string) | CInt (a : string).
Definition key_eqb (x y : key) : bool :=
  match x, y with
  | CLen a, CLen b | CInt a, CInt b => String.eqb a b
  | _, _ => false
  end.
Definition counts := list (key * Z).
Fixpoint count (a : key) (C : counts) : option Z :=
  match C with [] => None | (b, z) :: r => if key_eqb a b then Some z else count a r end.
Definition cadd (a : string) (x : wv) (C : counts) : counts :=
  match wint x with Some z => (CInt a, z) :: C | None => C end.

(** the lists and records an object held before decoding into it *)
Definition old_list (a : string) (W0 : flds) : list wv := match field a W0 with Some (WList l) => l | _ => [] end.
Definition old_obj (a : string) (W0 : flds) : flds := match field a W0 with Some (WObj w) => w | _ => [] end.

(** [decode f W0 C bs]: decode bs along f into an object whose previous contents is W0;
    [] for a new object.  (Lists are extended, not replaced: that is what the code does.) *)
Fixpoint decode (f : fmt) (W0 : flds) (C : counts) (bs : list byte) : dres flds :=
  match f with
  | Done => DOk [] bs
  | Prim a p k =>
      dbind (dec_val p bs) (fun x r => dmap (cons (a, x)) (decode k W0 (cadd a x C) r))
  | Obj a _ sub k =>
      dbind (decode sub (old_obj a W0) [] bs) (fun w r => dmap (cons (a, WObj w)) (decode k W0 C r))
  | Cnt a p m k =>
      dbind (dec_val p bs) (fun x r =>
        match wint x with
        | Some z => decode k W0 ((CLen a, z / m) :: C) r
        | None => DErr TypeError
        end)
  | PList a p k =>
      match count (CLen a) C with
      | Some n =>
          dbind (dec_list (dec_val p) (Z.to_nat n) bs) (fun l r =>
            dmap (cons (a, WList (old_list a W0 ++ l))) (decode k W0 C r))
      | None => DErr Unsupported
      end
  | OList a _ sub k =>
      match count (CLen a) C with
      | Some n =>
          dbind (dec_list (decode sub [] []) (Z.to_nat n) bs) (fun l r =>
            dmap (cons (a, WList (old_list a W0 ++ map WObj l))) (decode k W0 C r))
      | None => DErr Unsupported
      end
  | Arr a p n k =>
      dbind (dec_list (dec_val p) n bs) (fun l r => dmap (cons (a, WList l)) (decode k W0 C r))
  | Zero p k => dbind (dec_val p bs) (fun _ r => decode k W0 C r)
  | Mask a n k =>
      dbind (dec_val (PInt n false) bs) (fun x r =>
        match wint x with
        | Some z => dmap (cons (a, WInt (Z.land z 1))) (decode k W0 C r)
        | None => DErr TypeError
        end)
  | VList a p b dv k =>
      match count (CInt b) C with
      | Some z =>
          dbind (dec_list (dec_val p) (Z.to_nat (z / dv)) bs) (fun l r =>
            dmap (cons (a, WList (old_list a W0 ++ l))) (decode k W0 C r))
      | None => DErr Unsupported
      end
  | Pad b k =>
      match count (CInt b) C with
      | Some z => dbind (dec_list (dec_val (PInt 1 false)) (pad_bytes z) bs) (fun _ r => decode k W0 C r)
      | None => DErr Unsupported
      end
  | Derive a b d k =>
      match count (CInt b) C with
      | Some z => decode k W0 ((CLen a, z - d) :: C) bs
      | None => DErr Unsupported
      end
  | Bits bf k =>
      if (bits_bytes bf <=? length bs)%nat
      then dmap (app (dec_bits bf (be_val (firstn (bits_bytes bf) bs)))) (decode k W0 C (skipn (bits_bytes bf) bs))
      else DErr ValueError
  | NullL a k =>
      match count (CLen a) C with
      | Some n => if n <=? 0 then dmap (cons (a, WList [])) (decode k W0 C bs) else DErr NameError
      | None => DErr Unsupported
      end
  end.

(** ** Well-formed layouts: every list is preceded by its count, integers used as
    lengths are fields of the same record, widths are sensible *)
Definition wf_prim (p : prim) : bool := match p with PInt n _ => (0 <? n)%nat | _ => true end.
Definition mem (a : string) (l : list string) : bool := existsb (String.eqb a) l.

(** names of fields, in order *)
Fixpoint names (f : fmt) : list string :=
  match f with
  | Done => []
  | Prim a _ k | Obj a _ _ k | PList a _ k | OList a _ _ k | Arr a _ _ k | Mask a _ k | VList a _ _ _ k
  | NullL a k => a :: names k
  | Cnt _ _ _ k | Zero _ k | Pad _ k | Derive _ _ _ k => names k
  | Bits bf k => flat_map (fun b => match bf_attr b with Some a => [a] | None => [] end) bf ++ names k
  end.

Fixpoint nodupb (l : list string) : bool :=
  match l with [] => true | a :: r => negb (mem a r) && nodupb r end.

(** cs: lists whose count has been read; is: unsigned integer fields read *)
Fixpoint wf_in (cs is : list string) (f : fmt) : bool :=
  match f with
  | Done => true
  | Prim a p k => wf_prim p && wf_in cs (match p with PInt _ false => a :: is | _ => is end) k
  | Obj _ _ sub k => nodupb (names sub) && wf_in [] [] sub && wf_in cs is k
  | Cnt a p m k => match p with PInt n _ => (0 <? n)%nat | _ => false end && (0 <? m) && wf_in (a :: cs) is k
  | PList a p k => wf_prim p && mem a cs && wf_in cs is k
  | OList a _ sub k => nodupb (names sub) && wf_in [] [] sub && mem a cs && wf_in cs is k
  | Arr _ p _ k => wf_prim p && wf_in cs is k
  | Zero p k => match p with PInt n _ => (0 <? n)%nat | _ => false end && wf_in cs is k
  | Mask _ n k => (0 <? n)%nat && wf_in cs is k
  | VList _ p b dv k => wf_prim p && mem b is && (0 <? dv) && wf_in cs is k
  | Pad b k => mem b is && wf_in cs is k
  | Derive _ _ _ _ => false
  | Bits bf k => forallb (fun b => if bf_flag b then bf_width b =? 1 else 0 <? bf_width b) bf && (bits_tot bf mod 8 =? 0) && wf_in cs is k
  | NullL a k => mem a cs && wf_in cs is k
  end.

Definition wf (f : fmt) : bool := nodupb (names f) && wf_in [] [] f.

(** the lists of a layout that are preceded by a count *)
Fixpoint lists (f : fmt) : list string :=
  match f with
  | Done => []
  | PList a _ k | OList a _ _ k | NullL a k => a :: lists k
  | Prim _ _ k | Obj _ _ _ k | Arr _ _ _ k | Mask _ _ k | VList _ _ _ _ k | Cnt _ _ _ k | Zero _ k | Pad _ k
  | Derive _ _ _ k | Bits _ k => lists k
  end.

(** every count is the only count of a list that follows *)
Fixpoint lists_ok (cs : list string) (f : fmt) : bool :=
  match f with
  | Done => true
  | Cnt a _ _ k => negb (mem a cs) && mem a (lists k) && lists_ok (a :: cs) k
  | Obj _ _ sub k | OList _ _ sub k => lists_ok [] sub && lists_ok cs k
  | Derive a _ _ k => false
  | Prim _ _ k | PList _ _ k | Arr _ _ _ k | Mask _ _ k | VList _ _ _ _ k | Zero _ k | Pad _ k
  | Bits _ k | NullL _ k => lists_ok cs k
  end.

(** layouts in which every wire bit ends up in a field *)
Fixpoint exact (f : fmt) : bool :=
  match f with
  | Done => true
  | Cnt _ p m k => match p with PInt _ false => m =? 1 | _ => false end && exact k
  | Obj _ _ sub k | OList _ _ sub k => exact sub && exact k
  | Zero _ _ | Mask _ _ _ | Pad _ _ | Derive _ _ _ _ => false
  | Bits bf k => forallb (fun b => match bf_attr b with Some _ => true | None => false end) bf && exact k
  | Prim _ _ k | PList _ _ k | Arr _ _ _ k | VList _ _ _ _ k | NullL _ k => exact k
  end.

Fixpoint has_bits (f : fmt) : bool :=
  match f with
  | Done => false
  | Bits _ _ => true
  | Obj _ _ sub k | OList _ _ sub k => has_bits sub || has_bits k
  | Prim _ _ k | PList _ _ k | Arr _ _ _ k | Mask _ _ k | VList _ _ _ _ k | Cnt _ _ _ k | Zero _ k | Pad _ k
  | Derive _ _ _ k | NullL _ k => has_bits k
  end.

Fixpoint has_null (f : fmt) : bool :=
  match f with
  | Done => false
  | NullL _ _ => true
  | Obj _ _ sub k | OList _ _ sub k => has_null sub || has_null k
  | Prim _ _ k | PList _ _ k | Arr _ _ _ k | Mask _ _ k | VList _ _ _ _ k | Cnt _ _ _ k | Zero _ k | Pad _ k
  | Derive _ _ _ k | Bits _ k => has_null k
  end.

(** no 32-bit float of W is a NaN *)
Definition is_nan (x : wv) : bool :=
  match x with WFloat d => ((d / 2 ^ 52) mod 2 ^ 11 =? 2047) && negb (d mod 2 ^ 52 =? 0) | _ => false end.
Definition plain (p : prim) (x : wv) : bool := match p with PF32 => negb (is_nan x) | _ => true end.
Fixpoint nonan (f : fmt) (W : flds) : bool :=
  match f with
  | Done => true
  | Prim a p k => match field a W with Some x => plain p x | None => true end && nonan k W
  | Obj a _ sub k => nonan sub (old_obj a W) && nonan k W
  | PList a p k | Arr a p _ k | VList a p _ _ k => forallb (plain p) (old_list a W) && nonan k W
  | OList a _ sub k => forallb (fun x => nonan sub (as_obj x)) (old_list a W) && nonan k W
  | Cnt _ _ _ k | Zero _ k | Mask _ _ k | Pad _ k | Derive _ _ _ k | Bits _ k | NullL _ k => nonan k W
  end.

(** ** Values of the right shape and range for a layout *)

(** a value that [p] carries without loss *)
Definition fits (p : prim) (x : wv) : Prop :=
  match p, x with
  | PInt n sg, WInt z => lo n sg <= z < hi n sg
  | PF64, WFloat b => 0 <= b < 2 ^ 64
  | PF32, WFloat b => 0 <= b < 2 ^ 64 /\ exists c, narrow b = Some c /\ widen c = b
  | _, _ => False
  end.

Fixpoint bits_fit (bf : list bfield) (W : flds) : Prop :=
  match bf with
  | [] => True
  | b :: r =>
      match bf_attr b with
      | None => True
      | Some a =>
          match field a W with
          | Some (WInt z) => bf_flag b = false /\ 0 <= z < 2 ^ bf_width b
          | Some (WBool _) => bf_flag b = true
          | _ => False
          end
      end /\ bits_fit r W
  end.

(** every field of the layout is present in W with a value the wire type can carry,
    list lengths fit their count fields *)
Fixpoint typed (f : fmt) (W : flds) : Prop :=
  match f with
  | Done => True
  | Prim a p k => (exists x, field a W = Some x /\ fits p x) /\ typed k W
  | Obj a _ sub k => (exists w, field a W = Some (WObj w) /\ typed sub w /\ map fst w = names sub) /\ typed k W
  | Cnt a p m k => (exists l, field a W = Some (WList l) /\ fits p (WInt (Z.of_nat (length l) * m))) /\ typed k W
  | PList a p k => (exists l, field a W = Some (WList l) /\ Forall (fits p) l) /\ typed k W
  | OList a _ sub k =>
      (exists l, field a W = Some (WList (map WObj l)) /\
                 Forall (fun w => typed sub w /\ map fst w = names sub) l) /\ typed k W
  | Arr a p n k => (exists l, field a W = Some (WList l) /\ length l = n /\ Forall (fits p) l) /\ typed k W
  | Zero _ k => typed k W
  | Mask a _ k => (field a W = Some (WInt 0) \/ field a W = Some (WInt 1)) /\ typed k W
  | VList a p b dv k =>
      (exists l z, field a W = Some (WList l) /\ field b W = Some (WInt z) /\
                   Z.of_nat (length l) = z / dv /\ Forall (fits p) l) /\ typed k W
  | Pad b k => (exists z, field b W = Some (WInt z)) /\ typed k W
  | Derive _ _ _ k => typed k W
  | Bits bf k => bits_fit bf W /\ typed k W
  | NullL a k => field a W = Some (WList []) /\ typed k W
  end.

(** a record value of layout f: exactly f's fields, in order, each fitting *)
Definition value_of (f : fmt) (W : flds) : Prop := map fst W = names f /\ typed f W.

(** ** Size in bytes of a value *)
Definition sum (l : list nat) : nat := fold_right Nat.add 0%nat l.
Definition old_int (a : string) (W : flds) : option Z := match field a W with Some x => wint x | None => None end.
Fixpoint size (f : fmt) (W : flds) : nat :=
  match f with
  | Done => 0
  | Prim _ p k => width p + size k W
  | Obj a _ sub k => size sub (old_obj a W) + size k W
  | Cnt _ p _ k => width p + size k W
  | PList a p k => length (old_list a W) * width p + size k W
  | OList a _ sub k => sum (map (fun x => size sub (as_obj x)) (old_list a W)) + size k W
  | Arr _ p n k => n * width p + size k W
  | Zero p k => width p + size k W
  | Mask _ n k => n + size k W
  | VList a p b dv k =>
      match old_int b W with Some z => Z.to_nat (z / dv) * width p | None => 0 end + size k W
  | Pad b k => match old_int b W with Some z => pad_bytes z | None => 0 end + size k W
  | Derive _ _ _ k => size k W
  | Bits bf k => bits_bytes bf + size k W
  | NullL _ k => size k W
  end%nat.

(** ** Notation for layouts *)
Definition u8 := PInt 1 false. Definition i8 := PInt 1 true.
Definition u16 := PInt 2 false. Definition i16 := PInt 2 true.
Definition u32 := PInt 4 false. Definition i32 := PInt 4 true.
Definition u64 := PInt 8 false. Definition i64 := PInt 8 true.
Definition f32 := PF32. Definition f64 := PF64.
