(** * Bytes, big-endian integers, and the float32/float64 conversions of struct *)
From Coq Require Import ZArith List Lia Bool.
From Coq Require Import Strings.Byte.
Import ListNotations.
Open Scope Z_scope.

(** ** Bytes as integers *)
Definition b2z (b : byte) : Z := Z.of_N (to_N b).
Definition z2b (z : Z) : byte :=
  match of_N (Z.to_N (z mod 256)) with Some b => b | None => x00 end.

Lemma b2z_range b : 0 <= b2z b < 256.
Proof. unfold b2z. pose proof (to_N_bounded b). lia. Qed.

Lemma b2z_z2b z : b2z (z2b z) = z mod 256.
Proof.
  unfold b2z, z2b.
  pose proof (Z.mod_pos_bound z 256 ltac:(lia)) as H.
  destruct (of_N (Z.to_N (z mod 256))) eqn:E.
  - apply to_of_N in E. rewrite E. rewrite Z2N.id; lia.
  - apply of_N_None_iff in E. lia.
Qed.

Lemma z2b_b2z b : z2b (b2z b) = b.
Proof.
  unfold z2b. pose proof (b2z_range b). rewrite Z.mod_small by lia.
  unfold b2z. rewrite N2Z.id. now rewrite of_to_N.
Qed.

Lemma b2z_inj a b : b2z a = b2z b -> a = b.
Proof. intros H. rewrite <- (z2b_b2z a), <- (z2b_b2z b). now rewrite H. Qed.

(** ** Big-endian: [be n z] is the n base-256 digits of z mod 256^n, most significant first *)
Fixpoint be (n : nat) (z : Z) : list byte :=
  match n with
  | O => []
  | S k => z2b (z / 256 ^ Z.of_nat k) :: be k z
  end.

Fixpoint be_val (l : list byte) : Z :=
  match l with
  | [] => 0
  | b :: r => b2z b * 256 ^ Z.of_nat (length r) + be_val r
  end.

Lemma be_length n z : length (be n z) = n.
Proof. induction n; simpl; auto. Qed.

Lemma be_val_range l : 0 <= be_val l < 256 ^ Z.of_nat (length l).
Proof.
  induction l as [|b r IH]; simpl be_val; [simpl; lia|].
  pose proof (b2z_range b).
  change (length (b :: r)) with (S (length r)).
  rewrite Nat2Z.inj_succ, Z.pow_succ_r by lia.
  nia.
Qed.

Lemma be_val_be n z : be_val (be n z) = z mod 256 ^ Z.of_nat n.
Proof.
  induction n as [|k IH]; [simpl; now rewrite Z.mod_1_r|].
  simpl be. simpl be_val. rewrite be_length, IH, b2z_z2b.
  rewrite Nat2Z.inj_succ, Z.pow_succ_r by lia.
  set (p := 256 ^ Z.of_nat k). assert (0 < p) by (unfold p; apply Z.pow_pos_nonneg; lia).
  rewrite (Z.mul_comm 256 p), Z.rem_mul_r by lia. lia.
Qed.

Lemma be_be_val l : be (length l) (be_val l) = l.
Proof.
  induction l as [|b r IH]; [reflexivity|].
  cbn [length be].
  pose proof (be_val_range r) as R. pose proof (b2z_range b) as B.
  set (p := 256 ^ Z.of_nat (length r)) in *.
  assert (Hb : be_val (b :: r) = b2z b * p + be_val r) by reflexivity.
  f_equal.
  - rewrite Hb. rewrite Z.div_add_l by lia. rewrite Z.div_small by lia.
    rewrite Z.add_0_r. apply z2b_b2z.
  - etransitivity; [|exact IH].
    assert (G : forall n z z', z mod 256 ^ Z.of_nat n = z' mod 256 ^ Z.of_nat n -> be n z = be n z').
    { clear. induction n as [|k IHk]; intros z z' E; [reflexivity|].
      simpl. rewrite Nat2Z.inj_succ, Z.pow_succ_r in E by lia.
      set (q := 256 ^ Z.of_nat k) in *. assert (0 < q) by (unfold q; apply Z.pow_pos_nonneg; lia).
      rewrite (Z.mul_comm 256 q) in E. rewrite !Z.rem_mul_r in E by lia.
      pose proof (Z.mod_pos_bound z q ltac:(lia)). pose proof (Z.mod_pos_bound z' q ltac:(lia)).
      pose proof (Z.mod_pos_bound (z / q) 256 ltac:(lia)). pose proof (Z.mod_pos_bound (z' / q) 256 ltac:(lia)).
      assert (E2 : (z / q) mod 256 = (z' / q) mod 256).
      { destruct (Z.lt_trichotomy ((z / q) mod 256) ((z' / q) mod 256)) as [L|[L|L]]; [nia|exact L|nia]. }
      assert (E1 : z mod q = z' mod q) by (rewrite E2 in E; lia).
      f_equal; [|now apply IHk].
      rewrite <- (z2b_b2z (z2b (z / q))), <- (z2b_b2z (z2b (z' / q))). now rewrite !b2z_z2b, E2. }
    apply G. rewrite Hb. rewrite Z.add_comm, Z_mod_plus_full. reflexivity.
Qed.

(** ** Two's complement *)
(** the value of an n-byte word read as a signed integer *)
Definition signed (n : nat) (u : Z) : Z :=
  if u <? 2 ^ (8 * Z.of_nat n - 1) then u else u - 2 ^ (8 * Z.of_nat n).

(** ** IEEE-754 conversions on bit patterns

    [f64] patterns are integers in [0, 2^64), [f32] patterns in [0, 2^32). *)

(** shift a non-negative integer right by k bits, rounding to nearest, ties to even *)
Definition round_shift (m k : Z) : Z :=
  if k <=? 0 then m * 2 ^ (- k)
  else
    let q := m / 2 ^ k in
    let r := m mod 2 ^ k in
    let h := 2 ^ (k - 1) in
    if r <? h then q else if h <? r then q + 1 else if Z.even q then q else q + 1.

(** the double->float conversion of struct.pack('>f', x)
    (CPython PyFloat_Pack4: C cast, OverflowError when a finite double becomes infinite;
    NaNs keep the sign and the top 22 payload bits and are quieted) *)
Definition narrow (d : Z) : option Z :=
  let s := d / 2 ^ 63 in
  let e := (d / 2 ^ 52) mod 2 ^ 11 in
  let m := d mod 2 ^ 52 in
  let sb := s * 2 ^ 31 in
  if e =? 2047 then
    if m =? 0 then Some (sb + 255 * 2 ^ 23)
    else Some (sb + 255 * 2 ^ 23 + 2 ^ 22 + (m / 2 ^ 29) mod 2 ^ 22)
  else if e =? 0 then Some sb            (* zero, or a double subnormal: far below 2^-150 *)
  else
    let f := m + 2 ^ 52 in               (* value = f * 2^(e - 1075) *)
    if 897 <=? e then                    (* normal float range *)
      let r := round_shift f 29 in       (* 2^23 <= r <= 2^24; a carry moves to the next binade *)
      let t := (e - 897) * 2 ^ 23 + r in
      if t <? 255 * 2 ^ 23 then Some (sb + t) else None
    else Some (sb + round_shift f (926 - e)).

(** the float->double conversion of struct.unpack('>f', _) (exact; NaNs are quieted) *)
Definition widen (f : Z) : Z :=
  let s := f / 2 ^ 31 in
  let e := (f / 2 ^ 23) mod 2 ^ 8 in
  let m := f mod 2 ^ 23 in
  let sb := s * 2 ^ 63 in
  if e =? 255 then
    if m =? 0 then sb + 2047 * 2 ^ 52
    else sb + 2047 * 2 ^ 52 + 2 ^ 51 + (m mod 2 ^ 22) * 2 ^ 29
  else if e =? 0 then
    if m =? 0 then sb
    else let k := Z.log2 m in            (* value = m * 2^-149 = 1.xxx * 2^(k-149) *)
         sb + (k + 874) * 2 ^ 52 + (m - 2 ^ k) * 2 ^ (52 - k)
  else sb + (e + 896) * 2 ^ 52 + m * 2 ^ 29.

(** float(n) for an integer n: round to nearest even; None when it overflows
    (struct then raises struct.error) *)
Definition of_int (z : Z) : option Z :=
  let sb := if z <? 0 then 2 ^ 63 else 0 in
  let a := Z.abs z in
  if a =? 0 then Some 0
  else
    let k := Z.log2 a in
    let r := round_shift a (k - 52) in   (* 2^52 <= r <= 2^53 *)
    let t := (k + 1022) * 2 ^ 52 + r in
    if t <? 2047 * 2 ^ 52 then Some (sb + t) else None.
