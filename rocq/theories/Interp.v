(** * Meaning of the Python fragment: a total interpreter

    Values, heap, streams, exceptions and the evaluation of expressions,
    statements and calls.  Simplifications with respect to CPython are marked SIMPL. *)
From Coq Require Import ZArith String List Bool Ascii.
From Coq Require Import Strings.Byte.
From Verif Require Import Lang Bytes.
Import ListNotations.
Open Scope string_scope. Open Scope Z_scope. Open Scope list_scope.

(** ** Values *)

(** Instances and lists live in the heap and are referred to by [VRef]; everything else is
    immutable.  [VIn]/[VOut] are the DataInputStream/DataOutputStream wrapper objects
    (opendis/stream.py:26-28,107-109) and [VRawIn]/[VRawOut] the io object in their [stream]
    attribute.  SIMPL: there is one input and one output stream.
    [VUnkSV z] is the local class built by getStandardVariableClass for an unregistered
    record type z (opendis/record/__init__.py:46-69,75). *)
Inductive val :=
| VNone
| VBool (b : bool)
| VInt (z : Z)
| VFloat (bits : Z)
| VStr (cs : list Z)
| VBytes (l : list byte)
| VRef (l : nat)
| VIn | VOut | VRawIn | VRawOut
| VClass (c : string)
| VUnkSV (z : Z)
| VFun (f : string)
| VTuple (vs : list val)
| VRange (lo hi : Z)
| VBitCls (fs : list (string * Z))
| VBitInst (fs : list (string * Z)) (vs : list Z).

Inductive hobj :=
| HInst (c : string) (attrs : list (string * val))
| HList (vs : list val).

Record st := mkst {
  heap : list hobj;
  irest : list byte;      (* bytes not yet read *)
  ifull : list byte;      (* the whole input, for seek *)
  out : list byte         (* bytes written so far *)
}.

(** ** State and exceptions *)
Inductive res (A : Type) := Ok (a : A) | Exc (e : exn).
Arguments Ok {A}. Arguments Exc {A}.

Definition M (A : Type) := st -> res A * st.
Definition ret {A} (a : A) : M A := fun s => (Ok a, s).
Definition raise {A} (e : exn) : M A := fun s => (Exc e, s).
Definition bind {A B} (m : M A) (k : A -> M B) : M B :=
  fun s => match m s with (Ok a, s') => k a s' | (Exc e, s') => (Exc e, s') end.
Notation "x <- m ;; k" := (bind m (fun x => k)) (at level 61, m at next level, right associativity).

(** ** Association lists *)
Fixpoint assoc {A} (x : string) (l : list (string * A)) : option A :=
  match l with
  | [] => None
  | (y, v) :: r => if String.eqb x y then Some v else assoc x r
  end.

(** replace the binding of x, or add it at the end (Python dict order) *)
Fixpoint upd {A} (x : string) (v : A) (l : list (string * A)) : list (string * A) :=
  match l with
  | [] => [(x, v)]
  | (y, w) :: r => if String.eqb x y then (y, v) :: r else (y, w) :: upd x v r
  end.

Definition env := list (string * val).

(** ** Heap operations *)
Fixpoint set_nth {A} (n : nat) (x : A) (l : list A) : list A :=
  match l, n with
  | [], _ => []
  | _ :: r, O => x :: r
  | y :: r, S k => y :: set_nth k x r
  end.

Definition hget (l : nat) : M (option hobj) := fun s => (Ok (nth_error (heap s) l), s).
Definition hset (l : nat) (o : hobj) : M unit :=
  fun s => (Ok tt, mkst (set_nth l o (heap s)) (irest s) (ifull s) (out s)).
Definition halloc (o : hobj) : M val :=
  fun s => (Ok (VRef (length (heap s))), mkst (heap s ++ [o]) (irest s) (ifull s) (out s)).

(** ** Streams *)

(** io.BytesIO.read(n): at most n bytes, silently fewer at the end; a negative n reads all *)
Definition raw_read (n : Z) : M val := fun s =>
  let r := irest s in
  let k := if n <? 0 then length r else Z.to_nat (Z.min n (Z.of_nat (length r))) in
  (Ok (VBytes (firstn k r)), mkst (heap s) (skipn k r) (ifull s) (out s)).

(** io.BytesIO.write(b) *)
Definition raw_write (b : list byte) : M val := fun s =>
  (Ok (VInt (Z.of_nat (length b))), mkst (heap s) (irest s) (ifull s) (out s ++ b)).

(** io.BytesIO.seek(n, 0) *)
Definition raw_seek (n : nat) : M unit := fun s =>
  (Ok tt, mkst (heap s) (skipn n (ifull s)) (ifull s) (out s)).

(** ** Literals *)
Definition codes (s : string) : list Z :=
  map (fun a => Z.of_N (N_of_ascii a)) (list_ascii_of_string s).

Definition lit_val (l : lit) : val :=
  match l with
  | LNone => VNone
  | LBool b => VBool b
  | LInt z => VInt z
  | LFloat x => VFloat x
  | LStr s => VStr (codes s)
  | LBytes b => VBytes b
  | LBits fs => VBitCls fs
  end.

Definition dflt_val (d : dflt) : val :=
  match d with DLit l => lit_val l | DCell n => VRef n end.

(** ** struct.pack / struct.unpack, for the formats used in stream.py *)
Inductive fcode := F_bool | F_b | F_B | F_h | F_H | F_i | F_I | F_q | F_Q | F_f | F_d.

Definition fcodes : list (list Z * fcode) :=
  [(codes "?", F_bool); (codes "b", F_b); (codes "B", F_B); (codes ">h", F_h); (codes ">H", F_H);
   (codes ">i", F_i); (codes ">I", F_I); (codes ">q", F_q); (codes ">Q", F_Q); (codes ">f", F_f); (codes ">d", F_d)].

Fixpoint zlist_eqb (a b : list Z) : bool :=
  match a, b with
  | [], [] => true
  | x :: r, y :: t => (x =? y) && zlist_eqb r t
  | _, _ => false
  end.

Fixpoint find_fcode (s : list Z) (l : list (list Z * fcode)) : option fcode :=
  match l with
  | [] => None
  | (k, c) :: r => if zlist_eqb s k then Some c else find_fcode s r
  end.

(** width in bytes, signedness and float-ness of a format *)
Definition fwidth (c : fcode) : nat :=
  match c with
  | F_bool | F_b | F_B => 1 | F_h | F_H => 2 | F_i | F_I | F_f => 4 | F_q | F_Q | F_d => 8
  end%nat.
Definition fsigned (c : fcode) : bool :=
  match c with F_b | F_h | F_i | F_q => true | _ => false end.

(** the integer formats: range check, then big-endian two's complement *)
Definition pack_int (c : fcode) (z : Z) : list byte + exn :=
  let n := fwidth c in
  let lo := if fsigned c then - 2 ^ (8 * Z.of_nat n - 1) else 0 in
  let hi := if fsigned c then 2 ^ (8 * Z.of_nat n - 1) else 2 ^ (8 * Z.of_nat n) in
  if (lo <=? z) && (z <? hi) then inl (be n z) else inr StructError.

Definition truth (h : list hobj) (v : val) : bool :=
  match v with
  | VNone => false
  | VBool b => b
  | VInt z => negb (z =? 0)
  | VFloat x => negb (x mod 2 ^ 63 =? 0)
  | VStr [] => false
  | VBytes [] => false
  | VTuple [] => false
  | VRange lo hi => lo <? hi
  | VRef l => match nth_error h l with Some (HList []) => false | _ => true end
  | _ => true
  end.

(** struct.pack(c, v).  An int too large for a float format is a struct.error, a float
    too large for '>f' an OverflowError. *)
Definition pack (h : list hobj) (c : fcode) (v : val) : list byte + exn :=
  match c with
  | F_bool => inl [if truth h v then x01 else x00]
  | F_d =>
      match v with
      | VFloat x => inl (be 8 x)
      | VInt z => match of_int z with Some x => inl (be 8 x) | None => inr StructError end
      | VBool b => match of_int (if b then 1 else 0) with Some x => inl (be 8 x) | None => inr StructError end
      | _ => inr StructError
      end
  | F_f =>
      match v with
      | VFloat x => match narrow x with Some y => inl (be 4 y) | None => inr OverflowError end
      | VInt z =>
          match of_int z with
          | Some x => match narrow x with Some y => inl (be 4 y) | None => inr StructError end
          | None => inr StructError
          end
      | VBool b =>
          match of_int (if b then 1 else 0) with
          | Some x => match narrow x with Some y => inl (be 4 y) | None => inr StructError end
          | None => inr StructError
          end
      | _ => inr StructError
      end
  | _ =>
      match v with
      | VInt z => pack_int c z
      | VBool b => pack_int c (if b then 1 else 0)
      | _ => inr StructError
      end
  end.

(** struct.unpack(c, bs): exactly the right number of bytes, else struct.error.
    SIMPL: '?' on a byte other than 0 and 1 (undefined behaviour in C) takes the low bit. *)
Definition unpack (c : fcode) (bs : list byte) : val + exn :=
  if Nat.eqb (length bs) (fwidth c) then
    inl match c with
        | F_bool => VBool (Z.odd (be_val bs))
        | F_d => VFloat (be_val bs)
        | F_f => VFloat (widen (be_val bs))
        | _ => VInt (if fsigned c then signed (fwidth c) (be_val bs) else be_val bs)
        end
  else inr StructError.

(** ** Bitfields (opendis/record/bitfield.py:96-119 and ctypes.BigEndianStructure)

    Fields are allocated from the most significant bit of a big-endian word; assigned
    integers are reduced modulo 2^width. *)
Definition bits_total (fs : list (string * Z)) : Z := fold_right (fun f a => snd f + a) 0 fs.

Fixpoint bits_pack (fs : list (string * Z)) (vs : list Z) : Z :=
  match fs with
  | [] => 0
  | (_, w) :: r => (hd 0 vs mod 2 ^ w) * 2 ^ (bits_total r) + bits_pack r (tl vs)
  end.

Fixpoint bits_unpack (fs : list (string * Z)) (u : Z) : list Z :=
  match fs with
  | [] => []
  | (_, w) :: r => (u / 2 ^ (bits_total r)) mod 2 ^ w :: bits_unpack r u
  end.

Definition bits_size (fs : list (string * Z)) : nat := Z.to_nat (bits_total fs / 8).

Fixpoint bits_field (a : string) (fs : list (string * Z)) (vs : list Z) : option Z :=
  match fs with
  | [] => None
  | (b, _) :: r => if String.eqb a b then Some (hd 0 vs) else bits_field a r (tl vs)
  end.

(** __index__ on constructor arguments *)
Fixpoint as_ints (vs : list val) : option (list Z) :=
  match vs with
  | [] => Some []
  | VInt z :: r => match as_ints r with Some l => Some (z :: l) | None => None end
  | VBool b :: r => match as_ints r with Some l => Some ((if b then 1 else 0) :: l) | None => None end
  | _ :: _ => None
  end.

(** ** UTF-8 decoding (bytes.decode('utf-8')) *)
Definition cont (b : byte) : option Z :=
  let z := b2z b in if (128 <=? z) && (z <? 192) then Some (z - 128) else None.

Fixpoint utf8_decode (l : list byte) : option (list Z) :=
  match l with
  | [] => Some []
  | a :: r =>
      let z := b2z a in
      if z <? 128 then option_map (cons z) (utf8_decode r)
      else if (194 <=? z) && (z <? 224) then
        match r with
        | b :: r' =>
            match cont b with
            | Some y => option_map (cons ((z - 192) * 64 + y)) (utf8_decode r')
            | None => None
            end
        | _ => None
        end
      else if (224 <=? z) && (z <? 240) then
        match r with
        | b :: c :: r' =>
            match cont b, cont c with
            | Some y, Some x =>
                let p := (z - 224) * 4096 + y * 64 + x in
                if (p <? 2048) || ((55296 <=? p) && (p <? 57344)) then None
                else option_map (cons p) (utf8_decode r')
            | _, _ => None
            end
        | _ => None
        end
      else if (240 <=? z) && (z <? 245) then
        match r with
        | b :: c :: d :: r' =>
            match cont b, cont c, cont d with
            | Some y, Some x, Some w =>
                let p := (z - 240) * 262144 + y * 4096 + x * 64 + w in
                if (p <? 65536) || (1114112 <=? p) then None
                else option_map (cons p) (utf8_decode r')
            | _, _, _ => None
            end
        | _ => None
        end
      else None
  end.

(** ** Operators *)
Definition as_int (v : val) : option Z :=
  match v with VInt z => Some z | VBool b => Some (if b then 1 else 0) | _ => None end.

Definition is_float (v : val) : bool := match v with VFloat _ => true | _ => false end.

Fixpoint repeat_list {A} (n : nat) (l : list A) : list A :=
  match n with O => [] | S k => l ++ repeat_list k l end.

(** SIMPL: float arithmetic and comparison (not used by the code on its own values) is [Unsupported] *)
Definition binop_val (o : binop) (a b : val) : M val :=
  match as_int a, as_int b with
  | Some x, Some y =>
      match o with
      | OAdd => ret (VInt (x + y))
      | OSub => ret (VInt (x - y))
      | OMul => ret (VInt (x * y))
      | OFloorDiv => if y =? 0 then raise ZeroDivisionError else ret (VInt (x / y))
      | OMod => if y =? 0 then raise ZeroDivisionError else ret (VInt (x mod y))
      | OBitAnd => ret (VInt (Z.land x y))
      end
  | _, _ =>
      match o, a, as_int b with
      | OMul, VRef l, Some n =>
          ob <- hget l ;;
          match ob with
          | Some (HList vs) => halloc (HList (repeat_list (Z.to_nat n) vs))
          | _ => raise TypeError
          end
      | _, _, _ => if is_float a || is_float b then raise Unsupported else raise TypeError
      end
  end.

(** equality; objects compare by identity.  SIMPL: list equality is not modelled (unused) *)
Definition val_eqb (a b : val) : option bool :=
  match as_int a, as_int b with
  | Some x, Some y => Some (x =? y)
  | _, _ =>
      match a, b with
      | VFloat _, _ | _, VFloat _ => None
      | VNone, VNone => Some true
      | VStr x, VStr y => Some (zlist_eqb x y)
      | VRef x, VRef y => Some (Nat.eqb x y)
      | _, _ => Some false
      end
  end.

Fixpoint val_in (a : val) (l : list val) : option bool :=
  match l with
  | [] => Some false
  | b :: r =>
      match val_eqb a b with
      | Some true => Some true
      | Some false => val_in a r
      | None => None
      end
  end.

Definition cmp_val (o : cmpop) (a b : val) : M val :=
  match o with
  | CIs => match b with VNone => ret (VBool match a with VNone => true | _ => false end) | _ => raise Unsupported end
  | CIsNot => match b with VNone => ret (VBool match a with VNone => false | _ => true end) | _ => raise Unsupported end
  | CEq => match val_eqb a b with Some r => ret (VBool r) | None => raise Unsupported end
  | CNe => match val_eqb a b with Some r => ret (VBool (negb r)) | None => raise Unsupported end
  | CIn =>
      match b with
      | VTuple vs => match val_in a vs with Some r => ret (VBool r) | None => raise Unsupported end
      | _ => raise Unsupported
      end
  | _ =>
      match as_int a, as_int b with
      | Some x, Some y =>
          ret (VBool match o with CLt => x <? y | CGt => y <? x | CLe => x <=? y | _ => y <=? x end)
      | _, _ => if is_float a || is_float b then raise Unsupported else raise TypeError
      end
  end.

(** [lo, lo+1, ..., lo+n-1] *)
Fixpoint zseq (lo : Z) (n : nat) : list Z :=
  match n with O => [] | S k => lo :: zseq (lo + 1) k end.

(** the values an iteration visits.  SIMPL: a list is iterated over as it is when the loop starts *)
Definition iter_vals (v : val) : M (list val) :=
  match v with
  | VRange lo hi => ret (map VInt (zseq lo (Z.to_nat (hi - lo))))
  | VBytes l => ret (map (fun b => VInt (b2z b)) l)
  | VTuple l => ret l
  | VStr cs => ret (map (fun c => VStr [c]) cs)
  | VRef l =>
      ob <- hget l ;;
      match ob with Some (HList vs) => ret vs | _ => raise TypeError end
  | _ => raise TypeError
  end.

(** index with Python's negative-index rule *)
Definition py_index (i : Z) (n : nat) : option nat :=
  if (0 <=? i) && (i <? Z.of_nat n) then Some (Z.to_nat i)
  else if (i <? 0) && (0 <=? i + Z.of_nat n) then Some (Z.to_nat (i + Z.of_nat n))
  else None.

Definition nth_val (l : list val) (i : Z) : M val :=
  match py_index i (length l) with
  | Some k => match nth_error l k with Some v => ret v | None => raise IndexError end
  | None => raise IndexError
  end.

Definition sub_val (v i : val) : M val :=
  match v with
  | VTuple l => match as_int i with Some k => nth_val l k | None => raise TypeError end
  | VBytes l => match as_int i with Some k => nth_val (map (fun b => VInt (b2z b)) l) k | None => raise TypeError end
  | VStr cs => match as_int i with Some k => nth_val (map (fun c => VStr [c]) cs) k | None => raise TypeError end
  | VRef l =>
      ob <- hget l ;;
      match ob with
      | Some (HList vs) => match as_int i with Some k => nth_val vs k | None => raise TypeError end
      | _ => raise TypeError
      end
  | _ => raise TypeError
  end.

Definition set_sub (v i x : val) : M unit :=
  match v with
  | VRef l =>
      ob <- hget l ;;
      match ob with
      | Some (HList vs) =>
          match as_int i with
          | Some k =>
              match py_index k (length vs) with
              | Some n => hset l (HList (set_nth n x vs))
              | None => raise IndexError
              end
          | None => raise TypeError
          end
      | _ => raise TypeError
      end
  | _ => raise TypeError
  end.

(** ** Builtin functions *)
Definition bytes_of (vs : list val) : list byte + exn :=
  fold_right (fun v acc =>
    match as_int v with
    | Some z =>
        if (0 <=? z) && (z <? 256)
        then match acc with inl l => inl (z2b z :: l) | inr e => inr e end
        else inr ValueError
    | None => inr TypeError
    end) (inl []) vs.

Definition builtin_val (b : builtin) (args : list val) : M val :=
  match b, args with
  | BLen, [VBytes l] => ret (VInt (Z.of_nat (length l)))
  | BLen, [VStr l] => ret (VInt (Z.of_nat (length l)))
  | BLen, [VTuple l] => ret (VInt (Z.of_nat (length l)))
  | BLen, [VRange lo hi] => ret (VInt (Z.max 0 (hi - lo)))
  | BLen, [VRef l] =>
      ob <- hget l ;;
      match ob with Some (HList vs) => ret (VInt (Z.of_nat (length vs))) | _ => raise TypeError end
  | BRange, [a] => match as_int a with Some n => ret (VRange 0 n) | None => raise TypeError end
  | BRange, [a; c] => match as_int a, as_int c with Some x, Some y => ret (VRange x y) | _, _ => raise TypeError end
  | BInt, [VFloat _] => raise Unsupported
  | BInt, [VStr _] => raise Unsupported
  | BInt, [a] => match as_int a with Some n => ret (VInt n) | None => raise TypeError end
  | BFloat, [VFloat x] => ret (VFloat x)
  | BFloat, [VStr _] => raise Unsupported
  | BFloat, [a] =>
      match as_int a with
      | Some n => match of_int n with Some x => ret (VFloat x) | None => raise OverflowError end
      | None => raise TypeError
      end
  | BStr, [VStr s] => ret (VStr s)
  | BStr, [_] => raise Unsupported
  | BBool, [a] => fun s => (Ok (VBool (truth (heap s) a)), s)
  | BOrd, [VStr [c]] => ret (VInt c)
  | BChr, [a] =>
      match as_int a with
      | Some n => if (0 <=? n) && (n <? 1114112) then ret (VStr [n]) else raise ValueError
      | None => raise TypeError
      end
  | BList, [a] => vs <- iter_vals a ;; halloc (HList vs)
  | BBytes, [VInt _] => raise Unsupported
  | BBytes, [VBytes l] => ret (VBytes l)
  | BBytes, [a] => vs <- iter_vals a ;; match bytes_of vs with inl l => ret (VBytes l) | inr e => raise e end
  | BFilterNone, [a] => vs <- iter_vals a ;; fun s => (Ok (VTuple (filter (truth (heap s)) vs)), s)
  | BIsInt, [a] => ret (VBool match as_int a with Some _ => true | None => false end)
  | BPack, [VStr f; v] =>
      match find_fcode f fcodes with
      | Some c => fun s => match pack (heap s) c v with inl l => (Ok (VBytes l), s) | inr e => (Exc e, s) end
      | None => raise StructError
      end
  | BUnpack, [VStr f; VBytes l] =>
      match find_fcode f fcodes with
      | Some c => match unpack c l with inl v => ret (VTuple [v]) | inr e => raise e end
      | None => raise StructError
      end
  | _, _ => raise TypeError
  end.

(** ** Class table *)
Section WithProg.
Variable P : prog.

Definition get_cls (c : string) : option cls := assoc c (p_classes P).

Fixpoint lookup_in (cs : list string) (m : string) : option member :=
  match cs with
  | [] => None
  | c :: r =>
      match get_cls c with
      | Some k => match assoc m (c_members k) with Some x => Some x | None => lookup_in r m end
      | None => lookup_in r m
      end
  end.

Definition mro (c : string) : list string :=
  match get_cls c with Some k => c_mro k | None => [] end.

(** attribute of a class, along its method resolution order *)
Definition lookup (c m : string) : option member := lookup_in (mro c) m.

Fixpoint after (c : string) (l : list string) : option (list string) :=
  match l with
  | [] => None
  | d :: r => if String.eqb c d then Some r else after c r
  end.

(** does the class have an abstract method that is not overridden? (abc.ABCMeta) *)
Definition is_abstract (c : string) : bool :=
  existsb (fun d =>
    match get_cls d with
    | Some k =>
        existsb (fun nm =>
          match lookup c (fst nm) with Some (MMeth m) => m_abstract m | _ => false end) (c_members k)
    | None => false
    end) (mro c).

(** getStandardVariableClass's registry (opendis/record/__init__.py:33-38) *)
Definition variableRecordClasses : list (Z * string) :=
  [(3000, "HighFidelityHAVEQUICKRadio"); (4000, "DirectedEnergyPrecisionAimpoint");
   (4001, "DirectedEnergyAreaAimpoint"); (4500, "DirectedEnergyDamage")].

Fixpoint zassoc {A} (z : Z) (l : list (Z * A)) : option A :=
  match l with [] => None | (y, v) :: r => if z =? y then Some v else zassoc z r end.

(** getStandardVariableClass(recordType, expectedType)  (opendis/record/__init__.py:40-85) *)
Definition getStandardVariableClass (rt expected : val) : val + exn :=
  match as_int rt with
  | Some z =>
      if z <? 0 then inr ValueError
      else
        match expected with
        | VClass e =>
            match zassoc z variableRecordClasses with
            | Some c => if existsb (String.eqb e) (mro c) then inl (VClass c) else inr TypeError
            | None =>
                if existsb (String.eqb e) (mro "UnknownStandardVariableRecord") then inl (VUnkSV z) else inr TypeError
            end
        | _ => inr TypeError
        end
  | None => inr ValueError
  end.

(** ** Calls *)

(** binding of arguments to parameters; None is Python's TypeError *)
Fixpoint bind_pos (ps : list (string * option dflt)) (args : list val)
  : option (env * list (string * option dflt)) :=
  match args with
  | [] => Some ([], ps)
  | a :: r =>
      match ps with
      | [] => None
      | (x, _) :: qs =>
          match bind_pos qs r with
          | Some (e, rest) => Some ((x, a) :: e, rest)
          | None => None
          end
      end
  end.

Fixpoint bind_rest (ps : list (string * option dflt)) (kw : list (string * val)) : option env :=
  match ps with
  | [] => match kw with [] => Some [] | _ => None end
  | (x, d) :: qs =>
      match assoc x kw with
      | Some v =>
          match bind_rest qs (filter (fun p => negb (String.eqb x (fst p))) kw) with
          | Some e => Some ((x, v) :: e)
          | None => None
          end
      | None =>
          match d with
          | Some dv =>
              match bind_rest qs kw with Some e => Some ((x, dflt_val dv) :: e) | None => None end
          | None => None
          end
      end
  end.

Definition bind_args (ps : list (string * option dflt)) (args : list val) (kws : list string) : option env :=
  let n := (length args - length kws)%nat in
  match bind_pos ps (firstn n args) with
  | Some (e, rest) =>
      match bind_rest rest (combine kws (skipn n args)) with
      | Some e' => Some (e ++ e')
      | None => None
      end
  | None => None
  end.

(** what a call expression calls, once its function part is evaluated *)
Inductive callee :=
| KMeth (m : meth) (pre : list val)     (* a Python function, with the receiver if bound *)
| KNew (c : string) (attrs : env)       (* a class *)
| KNewBits (fs : list (string * Z))     (* a bitfield class *)
| KNative (v : val) (m : string)        (* a method of a builtin object *)
| KGetSV.

Section WithCall.
(** running a Python function: supplied by [run] below *)
Variable call : meth -> list val -> list string -> M val.

Definition get_attr (v : val) (a : string) : M val :=
  match v with
  | VRef l =>
      ob <- hget l ;;
      match ob with
      | Some (HInst c attrs) =>
          match lookup c a with
          | Some (MMeth m) =>
              match m_kind m with
              | KProperty => call m [v] []
              | _ => match assoc a attrs with Some x => ret x | None => raise Unsupported end
              end
          | Some (MAttr l) => match assoc a attrs with Some x => ret x | None => ret (lit_val l) end
          | None => match assoc a attrs with Some x => ret x | None => raise AttributeError end
          end
      | _ => raise AttributeError
      end
  | VIn => if String.eqb a "stream" then ret VRawIn else raise AttributeError
  | VOut => if String.eqb a "stream" then ret VRawOut else raise AttributeError
  | VBitInst fs vs => match bits_field a fs vs with Some z => ret (VInt z) | None => raise AttributeError end
  | VClass c => match lookup c a with Some (MAttr l) => ret (lit_val l) | Some _ => raise Unsupported | None => raise AttributeError end
  | _ => raise AttributeError
  end.

Definition set_attr (v : val) (a : string) (x : val) : M unit :=
  match v with
  | VRef l =>
      ob <- hget l ;;
      match ob with
      | Some (HInst c attrs) =>
          match lookup c a with
          | Some (MMeth m) =>
              match m_kind m with
              | KProperty => raise AttributeError      (* property without a setter *)
              | _ => hset l (HInst c (upd a x attrs))
              end
          | _ => hset l (HInst c (upd a x attrs))
          end
      | _ => raise AttributeError
      end
  | _ => raise AttributeError
  end.

Definition has_attr (v : val) (a : string) : M val :=
  match v with
  | VRef l =>
      ob <- hget l ;;
      match ob with
      | Some (HInst c attrs) =>
          ret (VBool match lookup c a, assoc a attrs with None, None => false | _, _ => true end)
      | _ => ret (VBool false)
      end
  | _ => raise Unsupported
  end.

(** v.m  in call position.  SIMPL: instance attributes do not shadow methods (no attribute
    is assigned a method's name in the code) and are not callable. *)
Definition resolve (v : val) (m : string) : M callee :=
  match v with
  | VRef l =>
      ob <- hget l ;;
      match ob with
      | Some (HInst c attrs) =>
          match lookup c m with
          | Some (MMeth k) =>
              match m_kind k with
              | KNormal => ret (KMeth k [v])
              | KStatic => ret (KMeth k [])
              | KProperty => raise Unsupported
              end
          | Some (MAttr (LBits fs)) => ret (KNewBits fs)
          | Some (MAttr _) => raise TypeError
          | None => match assoc m attrs with Some _ => raise TypeError | None => raise AttributeError end
          end
      | Some (HList _) => if String.eqb m "append" then ret (KNative v m) else raise AttributeError
      | None => raise AttributeError
      end
  | VIn =>
      match lookup "DataInputStream" m with
      | Some (MMeth k) => ret (KMeth k [v])
      | _ => raise AttributeError
      end
  | VOut =>
      match lookup "DataOutputStream" m with
      | Some (MMeth k) => ret (KMeth k [v])
      | _ => raise AttributeError
      end
  | VClass c =>
      match lookup c m with
      | Some (MMeth k) => ret (KMeth k [])
      | Some _ => raise TypeError
      | None => raise AttributeError
      end
  | VRawIn => if String.eqb m "read" then ret (KNative v m) else raise AttributeError
  | VRawOut => if String.eqb m "write" then ret (KNative v m) else raise AttributeError
  | VBitCls _ => if String.eqb m "parse" || String.eqb m "marshalledSize" then ret (KNative v m) else raise AttributeError
  | VBitInst _ _ => if String.eqb m "serialize" || String.eqb m "marshalledSize" then ret (KNative v m) else raise AttributeError
  | VBytes _ => if String.eqb m "decode" then ret (KNative v m) else raise AttributeError
  | _ => raise AttributeError
  end.

Definition resolve_super (self : val) (c m : string) : M (option callee) :=
  match self with
  | VRef l =>
      ob <- hget l ;;
      match ob with
      | Some (HInst d _) =>
          match after c (mro d) with
          | Some rest =>
              match lookup_in rest m with
              | Some (MMeth k) =>
                  match m_kind k with
                  | KNormal => ret (Some (KMeth k [self]))
                  | KStatic => ret (Some (KMeth k []))
                  | KProperty => raise Unsupported
                  end
              | Some _ => raise TypeError
              | None => if String.eqb m "__init__" then ret None (* object.__init__ *) else raise AttributeError
              end
          | None => raise TypeError
          end
      | _ => raise TypeError
      end
  | _ => raise TypeError
  end.

(** methods of builtin objects *)
Definition native (v : val) (m : string) (args : list val) : M val :=
  match v, args with
  | VRef l, [x] =>                                        (* list.append *)
      ob <- hget l ;;
      match ob with
      | Some (HList vs) => _ <- hset l (HList (vs ++ [x])) ;; ret VNone
      | _ => raise AttributeError
      end
  | VRawIn, [x] =>                                        (* BytesIO.read(n) *)
      match x with
      | VNone => raw_read (-1)
      | _ => match as_int x with Some n => raw_read n | None => raise TypeError end
      end
  | VRawOut, [VBytes b] => raw_write b                    (* BytesIO.write(b) *)
  | VBitCls fs, [] =>                                     (* Bitfield.marshalledSize, bitfield.py:102-103 *)
      if String.eqb m "marshalledSize" then ret (VInt (Z.of_nat (bits_size fs))) else raise TypeError
  | VBitCls fs, [i] =>                                    (* Bitfield.parse, bitfield.py:108-110 *)
      if String.eqb m "parse" then
        c <- resolve i "read_bytes" ;;
        match c with
        | KMeth k pre =>
            r <- call k (pre ++ [VInt (Z.of_nat (bits_size fs))]) [] ;;
            match r with
            | VBytes l =>
                if (length l <? bits_size fs)%nat then raise ValueError   (* from_buffer_copy: buffer too small *)
                else ret (VBitInst fs (bits_unpack fs (be_val (firstn (bits_size fs) l))))
            | _ => raise TypeError
            end
        | _ => raise Unsupported
        end
      else raise TypeError
  | VBitInst fs vs, [] =>
      if String.eqb m "marshalledSize" then ret (VInt (Z.of_nat (bits_size fs))) else raise TypeError
  | VBitInst fs vs, [o] =>                                (* Bitfield.serialize, bitfield.py:105-106 *)
      if String.eqb m "serialize" then
        c <- resolve o "write_bytes" ;;
        match c with
        | KMeth k pre => _ <- call k (pre ++ [VBytes (be (bits_size fs) (bits_pack fs vs))]) [] ;; ret VNone
        | _ => raise Unsupported
        end
      else raise TypeError
  | VBytes l, [VStr _] =>                                 (* bytes.decode('utf-8') *)
      match utf8_decode l with Some cs => ret (VStr cs) | None => raise UnicodeDecodeError end
  | _, _ => raise TypeError
  end.

Definition apply (c : callee) (args : list val) (kws : list string) : M val :=
  match c with
  | KMeth m pre => call m (pre ++ args) kws
  | KNew cn attrs =>
      if is_abstract cn then raise TypeError
      else
        o <- halloc (HInst cn attrs) ;;
        match lookup cn "__init__" with
        | Some (MMeth m) => _ <- call m (o :: args) kws ;; ret o
        | Some _ => raise TypeError
        | None => match args with [] => ret o | _ => raise TypeError end
        end
  | KNewBits fs =>
      match kws with
      | [] =>
          match as_ints args with
          | Some vs =>
              if (length fs <? length vs)%nat then raise TypeError
              else ret (VBitInst fs (bits_unpack fs (bits_pack fs vs)))
          | None => raise TypeError
          end
      | _ => raise Unsupported
      end
  | KNative v m => match kws with [] => native v m args | _ => raise TypeError end
  | KGetSV =>
      match args, kws with
      | [rt], [] =>
          match getStandardVariableClass rt (VClass "StandardVariableRecord") with inl v => ret v | inr e => raise e end
      | [rt; ex], [] => match getStandardVariableClass rt ex with inl v => ret v | inr e => raise e end
      | _, _ => raise TypeError
      end
  end.

(** calling a value *)
Definition callee_of (v : val) : M callee :=
  match v with
  | VClass c => ret (KNew c [])
  | VUnkSV z => ret (KNew "UnknownStandardVariableRecord" [("recordType", VInt z)])
  | VBitCls fs => ret (KNewBits fs)
  | VFun f =>
      if String.eqb f "getStandardVariableClass" then ret KGetSV
      else match assoc f (p_funs P) with Some m => ret (KMeth m []) | None => raise NameError end
  | _ => raise TypeError
  end.

(** module-level names *)
Definition glob (x : string) : M val :=
  match get_cls x with
  | Some _ => ret (VClass x)
  | None =>
      if String.eqb x "getStandardVariableClass" then ret (VFun x)
      else match assoc x (p_funs P) with Some _ => ret (VFun x) | None => raise NameError end
  end.

(** ** Expressions and statements *)
Definition eval_list (ev : expr -> env -> M val) : list expr -> env -> M (list val) :=
  fix go l rho :=
    match l with
    | [] => ret []
    | e :: r => v <- ev e rho ;; vs <- go r rho ;; ret (v :: vs)
    end.

Fixpoint eval (e : expr) (rho : env) {struct e} : M val :=
  match e with
  | Lit l => ret (lit_val l)
  | Loc x => match assoc x rho with Some v => ret v | None => raise NameError end
  | Glob x => glob x
  | Attr e a => v <- eval e rho ;; get_attr v a
  | Sub e i => v <- eval e rho ;; j <- eval i rho ;; sub_val v j
  | CallV f args kws =>
      v <- eval f rho ;; c <- callee_of v ;; vs <- eval_list eval args rho ;; apply c vs kws
  | Meth e m args kws =>
      v <- eval e rho ;; c <- resolve v m ;; vs <- eval_list eval args rho ;; apply c vs kws
  | Super cn m args kws =>
      match assoc "self" rho with
      | Some self =>
          c <- resolve_super self cn m ;;
          vs <- eval_list eval args rho ;;
          match c with
          | Some k => apply k vs kws
          | None => match vs with [] => ret VNone | _ => raise TypeError end
          end
      | None => raise NameError
      end
  | Builtin b args => vs <- eval_list eval args rho ;; builtin_val b vs
  | HasAttr e a => v <- eval e rho ;; has_attr v a
  | ListE es => vs <- eval_list eval es rho ;; halloc (HList vs)
  | TupleE es => vs <- eval_list eval es rho ;; ret (VTuple vs)
  | OrE a b => v <- eval a rho ;; (fun s => if truth (heap s) v then (Ok v, s) else eval b rho s)
  | AndE a b => v <- eval a rho ;; (fun s => if truth (heap s) v then eval b rho s else (Ok v, s))
  | NotE a => v <- eval a rho ;; (fun s => (Ok (VBool (negb (truth (heap s) v))), s))
  | Bin o a b => x <- eval a rho ;; y <- eval b rho ;; binop_val o x y
  | Cmp o a b => x <- eval a rho ;; y <- eval b rho ;; cmp_val o x y
  | IfE c a b => v <- eval c rho ;; (fun s => if truth (heap s) v then eval a rho s else eval b rho s)
  end.

(** the outcome of a statement: the local variables, and the value if it returned *)
Definition R := (env * option val)%type.

Definition run_block (ex : stmt -> env -> M R) : list stmt -> env -> M R :=
  fix go l rho :=
    match l with
    | [] => ret (rho, None)
    | s :: r =>
        p <- ex s rho ;;
        match snd p with Some _ => ret p | None => go r (fst p) end
    end.

Definition for_loop (bd : env -> M R) (x : string) : list val -> env -> M R :=
  fix go vs rho :=
    match vs with
    | [] => ret (rho, None)
    | v :: r =>
        p <- bd (upd x v rho) ;;
        match snd p with Some _ => ret p | None => go r (fst p) end
    end.

Fixpoint exec (c : stmt) (rho : env) {struct c} : M R :=
  match c with
  | Expr e => _ <- eval e rho ;; ret (rho, None)
  | Assign x e => v <- eval e rho ;; ret (upd x v rho, None)
  | SetAttr o a e => v <- eval e rho ;; ov <- eval o rho ;; _ <- set_attr ov a v ;; ret (rho, None)
  | SetSub o i e => v <- eval e rho ;; ov <- eval o rho ;; iv <- eval i rho ;; _ <- set_sub ov iv v ;; ret (rho, None)
  | If c a b =>
      v <- eval c rho ;;
      (fun s => if truth (heap s) v then run_block exec a rho s else run_block exec b rho s)
  | For x e body =>
      v <- eval e rho ;; vs <- iter_vals v ;;
      for_loop (run_block exec body) x vs rho
  | Return e => v <- eval e rho ;; ret (rho, Some v)
  | Raise x => raise x
  | Assert e => v <- eval e rho ;; (fun s => if truth (heap s) v then (Ok (rho, None), s) else (Exc AssertionError, s))
  | Pass => ret (rho, None)
  end.

End WithCall.

(** running a Python function, with at most [fuel] nested calls *)
Fixpoint run (fuel : nat) (m : meth) (args : list val) (kws : list string) {struct fuel} : M val :=
  match fuel with
  | O => raise RecursionError
  | S n =>
      match bind_args (m_params m) args kws with
      | None => raise TypeError
      | Some rho =>
          p <- run_block (exec (run n)) (m_body m) rho ;;
          ret match snd p with Some v => v | None => VNone end
      end
  end.

(** v.m(args) and C(args), as done by client code *)
Definition call_method (fuel : nat) (v : val) (m : string) (args : list val) : M val :=
  c <- resolve v m ;; apply (run fuel) c args [].

Definition new (fuel : nat) (c : string) (args : list val) : M val := apply (run fuel) (KNew c []) args [].

(** opendis/PduFactory.py:65-80 getPdu.  [table] is PduTypeDecoders. *)
Definition getPdu (table : list (Z * string)) (fuel : nat) : M val :=
  _ <- raw_seek 2 ;;
  t <- call_method fuel VIn "read_byte" [] ;;
  _ <- raw_seek 0 ;;
  match t with
  | VInt z =>
      match zassoc z table with
      | Some c =>
          p <- new fuel c [] ;;
          _ <- call_method fuel p "parse" [VIn] ;;
          ret p
      | None => ret VNone
      end
  | _ => raise Unsupported
  end.

(** opendis/PduFactory.py:83-91 createPdu: a fresh BytesIO on the data.  The current
    heap [h] is the client's: whatever was decoded or built before. *)
Definition createPdu (table : list (Z * string)) (fuel : nat) (h : list hobj) (data : list byte) : res val * st :=
  getPdu table fuel (mkst h data data []).

End WithProg.
