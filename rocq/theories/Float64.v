(** IEEE 754 binary64 numbers with round to nearest, ties to even: what a Python float and an element of a numpy float64 array are.
    The arithmetic is Flocq's (IEEE754.Binary); this file gives the operations names and proves how far each result is from the exact one.
    SIMPLIFICATION: the payload and sign of a NaN result are those of Flocq's binop_nan_pl64; numpy's warnings about overflow and invalid operations are not modelled. *)
From Coq Require Import Reals ZArith Lra Lia.
From Flocq Require Import Core Binary Bits Relative Plus_error.
Local Open Scope R_scope.

Definition f64 := binary64.
(** the sum, difference, product and quotient of two Python floats or numpy elements (a quotient by zero: see the models that use it) *)
Definition fadd : f64 -> f64 -> f64 := b64_plus BinarySingleNaN.mode_NE.
Definition fsub : f64 -> f64 -> f64 := b64_minus BinarySingleNaN.mode_NE.
Definition fmul : f64 -> f64 -> f64 := b64_mult BinarySingleNaN.mode_NE.
Definition fdiv : f64 -> f64 -> f64 := b64_div BinarySingleNaN.mode_NE.
Definition fneg : f64 -> f64 := b64_opp.
(** the fused multiply-add some numpy builds use in matrix products *)
Definition ffma : f64 -> f64 -> f64 -> f64 := b64_fma BinarySingleNaN.mode_NE.
(** the real value of a number (0 for an infinity or a NaN) and whether it is a number *)
Definition val (x : f64) : R := B2R 53 1024 x.
Definition fin (x : f64) : Prop := is_finite 53 1024 x = true.

(** ** Rounding *)
(** half a unit in the last place of 1, and half the smallest positive number *)
Definition u := bpow radix2 (-53).
Definition eta := bpow radix2 (-1075).
(** a bound under which nothing overflows *)
Definition huge := bpow radix2 1020.
Definition rnd (x : R) : R := round radix2 (FLT_exp (-1074) 53) ZnearestE x.

Lemma u_pos : 0 < u. Proof. apply bpow_gt_0. Qed.
Lemma eta_pos : 0 < eta. Proof. apply bpow_gt_0. Qed.
Lemma huge_pos : 0 < huge. Proof. apply bpow_gt_0. Qed.
Lemma u_small : u <= / 1000000000000000.
Proof. unfold u. cbn. apply Rinv_le; [lra|]. apply IZR_le. lia. Qed.
Lemma eta_u : eta <= u. Proof. apply bpow_le. lia. Qed.
Lemma huge_big : / u <= huge. Proof. unfold u, huge. rewrite <- bpow_opp. apply bpow_le. lia. Qed.

Lemma rnd_huge x : Rabs x <= huge -> Rabs (rnd x) <= huge.
Proof. intros H. apply abs_round_le_generic; [apply FLT_exp_valid; reflexivity|apply valid_rnd_N| |exact H]. apply generic_format_bpow. unfold FLT_exp. lia. Qed.
Lemma huge_lt : huge < bpow radix2 1024. Proof. apply bpow_lt. lia. Qed.
Lemma rnd_err x : Rabs (rnd x - x) <= u * Rabs x + eta.
Proof.
  destruct (error_N_FLT radix2 (-1074) 53 ltac:(lia) (fun n => negb (Z.even n)) x) as (e & t & He & Ht & _ & E). unfold rnd. rewrite E. clear E.
  replace (x * (1 + e) + t - x) with (x * e + t) by ring.
  assert (Hu : / 2 * bpow radix2 (- (53) + 1) = u) by (rewrite bpow_plus; change (bpow radix2 (- (53))) with u; change (bpow radix2 1) with 2; lra). rewrite Hu in He.
  replace (/ 2 * bpow radix2 (-1074)) with eta in Ht by (unfold eta; change (-1075)%Z with (-1074 + - (1))%Z; rewrite bpow_plus; change (bpow radix2 (- (1))) with (/ 2); lra).
  eapply Rle_trans; [apply Rabs_triang|]. rewrite Rabs_mult. pose proof (Rmult_le_compat_l _ _ _ (Rabs_pos x) He). lra.
Qed.
Lemma rnd_sum_err (x y : f64) : Rabs (rnd (val x + val y) - (val x + val y)) <= u * Rabs (val x + val y).
Proof.
  destruct (@FLT_plus_error_N_ex radix2 (-1074) 53 (eq_refl : (0 < 53)%Z) (fun n => negb (Z.even n)) (val x) (val y)) as (e & He & E);
    [exact (generic_format_B2R 53 1024 x)|exact (generic_format_B2R 53 1024 y)|].
  unfold rnd. rewrite E. clear E. replace ((val x + val y) * (1 + e) - (val x + val y)) with ((val x + val y) * e) by ring.
  assert (Hu : u_ro radix2 53 = u) by (unfold u_ro; rewrite bpow_plus; change (bpow radix2 (- (53))) with u; change (bpow radix2 1) with 2; lra). rewrite Hu in He.
  assert (u / (1 + u) <= u).
  { pose proof u_pos. apply (Rmult_le_reg_r (1 + u)); [lra|]. unfold Rdiv. rewrite Rmult_assoc, Rinv_l by lra. nra. }
  rewrite Rabs_mult. pose proof (Rmult_le_compat_l _ _ _ (Rabs_pos (val x + val y)) (Rle_trans _ _ _ He H)). lra.
Qed.
Lemma rnd_val (x : f64) : rnd (val x) = val x.
Proof. apply round_generic; [apply valid_rnd_N|]. exact (generic_format_B2R 53 1024 x). Qed.

(** ** The operations *)
Lemma rnd_is x : round radix2 (SpecFloat.fexp 53 1024) (BinarySingleNaN.round_mode BinarySingleNaN.mode_NE) x = rnd x.
Proof. reflexivity. Qed.
Lemma under x : Rabs x <= huge -> Rlt_bool (Rabs (rnd x)) (bpow radix2 1024) = true.
Proof. intros H. apply Rlt_bool_true. pose proof (rnd_huge x H). pose proof huge_lt. lra. Qed.

Lemma fadd_rnd x y : fin x -> fin y -> Rabs (val x + val y) <= huge -> fin (fadd x y) /\ val (fadd x y) = rnd (val x + val y).
Proof.
  intros Hx Hy H. unfold fadd, b64_plus. cbv zeta.
  match goal with |- context [Bplus _ _ ?a ?b ?c ?m x y] => pose proof (Bplus_correct 53 1024 a b c m x y Hx Hy) as C end.
  fold (val x) (val y) in C. rewrite rnd_is, under in C by exact H. destruct C as (C & F & _). split; [exact F|exact C].
Qed.
Lemma fsub_rnd x y : fin x -> fin y -> Rabs (val x - val y) <= huge -> fin (fsub x y) /\ val (fsub x y) = rnd (val x - val y).
Proof.
  intros Hx Hy H. unfold fsub, b64_minus. cbv zeta.
  match goal with |- context [Bminus _ _ ?a ?b ?c ?m x y] => pose proof (Bminus_correct 53 1024 a b c m x y Hx Hy) as C end.
  fold (val x) (val y) in C. rewrite rnd_is, under in C by exact H. destruct C as (C & F & _). split; [exact F|exact C].
Qed.
Lemma fmul_rnd x y : fin x -> fin y -> Rabs (val x * val y) <= huge -> fin (fmul x y) /\ val (fmul x y) = rnd (val x * val y).
Proof.
  intros Hx Hy H. unfold fmul, b64_mult. cbv zeta.
  match goal with |- context [Bmult _ _ ?a ?b ?c ?m x y] => pose proof (Bmult_correct 53 1024 a b c m x y) as C end.
  fold (val x) (val y) in C. rewrite rnd_is, under in C by exact H. destruct C as (C & F & _). split; [|exact C]. unfold fin in *. now rewrite F, Hx, Hy.
Qed.
Lemma fdiv_rnd x y : fin x -> fin y -> val y <> 0 -> Rabs (val x / val y) <= huge -> fin (fdiv x y) /\ val (fdiv x y) = rnd (val x / val y).
Proof.
  intros Hx Hy N H. unfold fdiv, b64_div. cbv zeta.
  match goal with |- context [Bdiv _ _ ?a ?b ?c ?m x y] => pose proof (Bdiv_correct 53 1024 a b c m x y N) as C end.
  fold (val x) (val y) in C. rewrite rnd_is, under in C by exact H. destruct C as (C & F & _). split; [|exact C]. unfold fin in *. now rewrite F.
Qed.
Lemma ffma_rnd x y z : fin x -> fin y -> fin z -> Rabs (val x * val y + val z) <= huge -> fin (ffma x y z) /\ val (ffma x y z) = rnd (val x * val y + val z).
Proof.
  intros Hx Hy Hz H. unfold ffma, b64_fma. cbv zeta.
  match goal with |- context [Bfma _ _ ?a ?b ?c ?m x y z] => pose proof (Bfma_correct 53 1024 a b c m x y z Hx Hy Hz) as C end.
  cbv zeta in C. fold (val x) (val y) (val z) in C. rewrite rnd_is, under in C by exact H. destruct C as (C & F & _). split; [exact F|exact C].
Qed.
Lemma fneg_val x : val (fneg x) = - val x. Proof. apply B2R_Bopp. Qed.
Lemma fneg_fin x : fin (fneg x) <-> fin x. Proof. unfold fin, fneg, b64_opp. now rewrite is_finite_Bopp. Qed.

(** how far each operation is from the exact one *)
Lemma fadd_err x y : fin x -> fin y -> Rabs (val x + val y) <= huge -> fin (fadd x y) /\ Rabs (val (fadd x y) - (val x + val y)) <= u * Rabs (val x + val y).
Proof. intros Hx Hy H. destruct (fadd_rnd x y Hx Hy H) as [F E]. split; [exact F|]. rewrite E. apply rnd_sum_err. Qed.
Lemma fsub_err x y : fin x -> fin y -> Rabs (val x - val y) <= huge -> fin (fsub x y) /\ Rabs (val (fsub x y) - (val x - val y)) <= u * Rabs (val x - val y).
Proof. intros Hx Hy H. destruct (fsub_rnd x y Hx Hy H) as [F E]. split; [exact F|]. rewrite E. unfold Rminus. rewrite <- (fneg_val y). apply rnd_sum_err. Qed.
Lemma fmul_err x y : fin x -> fin y -> Rabs (val x * val y) <= huge -> fin (fmul x y) /\ Rabs (val (fmul x y) - val x * val y) <= u * Rabs (val x * val y) + eta.
Proof. intros Hx Hy H. destruct (fmul_rnd x y Hx Hy H) as [F E]. split; [exact F|]. rewrite E. apply rnd_err. Qed.
Lemma fdiv_err x y : fin x -> fin y -> val y <> 0 -> Rabs (val x / val y) <= huge -> fin (fdiv x y) /\ Rabs (val (fdiv x y) - val x / val y) <= u * Rabs (val x / val y) + eta.
Proof. intros Hx Hy N H. destruct (fdiv_rnd x y Hx Hy N H) as [F E]. split; [exact F|]. rewrite E. apply rnd_err. Qed.
Lemma ffma_err x y z : fin x -> fin y -> fin z -> Rabs (val x * val y + val z) <= huge ->
  fin (ffma x y z) /\ Rabs (val (ffma x y z) - (val x * val y + val z)) <= u * Rabs (val x * val y + val z) + eta.
Proof. intros Hx Hy Hz H. destruct (ffma_rnd x y z Hx Hy Hz H) as [F E]. split; [exact F|]. rewrite E. apply rnd_err. Qed.

(** every real of moderate size has a nearest number: correctly rounded functions exist *)
Definition nearest (x : R) : f64 :=
  binary_normalize 53 1024 (eq_refl : (0 < 53)%Z) (eq_refl : (53 < 1024)%Z) BinarySingleNaN.mode_NE
    (Ztrunc (scaled_mantissa radix2 (FLT_exp (-1074) 53) (rnd x))) (cexp radix2 (FLT_exp (-1074) 53) (rnd x)) false.
Lemma nearest_ok x : Rabs x <= huge -> fin (nearest x) /\ val (nearest x) = rnd x.
Proof.
  intros H. unfold nearest.
  match goal with |- context [binary_normalize _ _ ?a ?b ?m ?mx ?ex ?s] => pose proof (binary_normalize_correct 53 1024 a b m mx ex s) as C end.
  assert (G : generic_format radix2 (FLT_exp (-1074) 53) (rnd x)) by (apply generic_format_round; [apply FLT_exp_valid; reflexivity|apply valid_rnd_N]).
  assert (E : F2R {| Fnum := Ztrunc (scaled_mantissa radix2 (FLT_exp (-1074) 53) (rnd x)); Fexp := cexp radix2 (FLT_exp (-1074) 53) (rnd x) |} = rnd x) by (symmetry; exact G).
  rewrite E, rnd_is in C. assert (D : rnd (rnd x) = rnd x) by (apply round_generic; [apply valid_rnd_N|exact G]). rewrite D in C.
  assert (B : Rlt_bool (Rabs (rnd x)) (bpow radix2 1024) = true) by (apply Rlt_bool_true; pose proof (rnd_huge x H); pose proof huge_lt; lra).
  rewrite B in C. destruct C as (C & F & _). split; [exact F|exact C].
Qed.
(** the value of a bit pattern *)
Lemma val_bits n : val (b64_of_bits n) = FF2R radix2 (binary_float_of_bits_aux 52 11 n).
Proof. unfold val, b64_of_bits, binary_float_of_bits. apply B2R_FF2B. Qed.
Ltac value_of_bits := rewrite val_bits; match goal with |- context [binary_float_of_bits_aux 52 11 ?n] => let v := eval vm_compute in (binary_float_of_bits_aux 52 11 n) in change (binary_float_of_bits_aux 52 11 n) with v end;
  unfold FF2R, F2R; cbn [Fnum Fexp cond_Zopp bpow]; cbn.
Global Opaque u eta huge.
