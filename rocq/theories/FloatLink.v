(** The bit patterns of the codec model (Bytes.v) and the numbers of Flocq: the value of a pattern, and the error of writing a double as a single *)
From Coq Require Import Reals ZArith Lra Lia Bool.
From Flocq Require Import Core Binary Bits.
From Verif Require Import Bytes PropFloat Float64.
Local Open Scope Z_scope.

(** ** The value of a double *)
Lemma F2R_pos (s : bool) (p : positive) k : -1074 <= k -> (F2R (Float radix2 (cond_Zopp s (Zpos p)) k) = IZR ((if s then -1 else 1) * (Zpos p * 2 ^ (k + 1074))) * bpow radix2 (-1074))%R.
Proof.
  intros H. unfold F2R. cbn [Fnum Fexp]. replace (bpow radix2 k) with (bpow radix2 (k + 1074) * bpow radix2 (-1074))%R by (rewrite <- bpow_plus; f_equal; lia).
  rewrite <- (IZR_Zpower radix2 (k + 1074)) by lia. rewrite <- Rmult_assoc, <- mult_IZR. f_equal. f_equal. change (radix_val radix2) with 2. destruct s; cbn [cond_Zopp]; lia.
Qed.
Lemma finite64_bits d : finite64 d -> fin (b64_of_bits d) /\ (val (b64_of_bits d) = IZR (value64 d) * bpow radix2 (-1074))%R.
Proof.
  intros F. destruct (finite64_parts d F) as (s & T & Hs & HT & ->). rewrite value64_parts by lia. unfold mag64. cbv zeta.
  set (e := T / 2 ^ 52). set (m := T mod 2 ^ 52). pose proof (Z.div_mod T (2 ^ 52) ltac:(lia)) as D. pose proof (Z.mod_pos_bound T (2 ^ 52) ltac:(lia)) as B. fold e m in D, B.
  assert (He : 0 <= e < 2047) by lia.
  unfold fin, val, b64_of_bits, binary_float_of_bits. rewrite is_finite_FF2B, B2R_FF2B.
  unfold binary_float_of_bits_aux, split_bits. change (Z.pow_pos 2 11) with (2 ^ 11). change (Z.pow_pos 2 52) with (2 ^ 52).
  assert (X2 : ((s * 2 ^ 63 + T) / 2 ^ 52) mod 2 ^ 11 = e).
  { replace (s * 2 ^ 63 + T) with ((s * 2 ^ 11 + e) * 2 ^ 52 + m) by lia. rewrite Z.div_add_l by lia. rewrite Z.div_small by lia. rewrite Z.add_0_r, (Z.add_comm (s * 2 ^ 11)), Z.mod_add by lia. apply Z.mod_small. lia. }
  assert (X3 : (s * 2 ^ 63 + T) mod 2 ^ 52 = m).
  { replace (s * 2 ^ 63 + T) with (m + (s * 2 ^ 11 + e) * 2 ^ 52) by lia. rewrite Z.mod_add by lia. apply Z.mod_small. lia. }
  assert (X1 : (2 ^ 52 * 2 ^ 11 <=? s * 2 ^ 63 + T) = (s =? 1)).
  { change (2 ^ 52 * 2 ^ 11) with (2 ^ 63). destruct Hs; subst s; [apply Z.leb_gt; lia|apply Z.leb_le; lia]. }
  cbv zeta. rewrite X1, X2, X3. assert (Es : (if s =? 1 then -1 else 1) = 1 - 2 * s) by (destruct Hs; subst s; reflexivity).
  case Zeq_bool_spec; intros E0.
  - rewrite E0. cbn [Z.eqb]. destruct m as [|p|p] eqn:Em; [|change (SpecFloat.emin (52 + 1) (2 ^ (11 - 1))) with (-1074)|lia]; cbn [is_finite_FF FF2R].
    + split; [reflexivity|]. rewrite Z.mul_0_r. lra.
    + split; [reflexivity|]. rewrite F2R_pos by lia. rewrite Es. do 3 f_equal. change (2 ^ (-1074 + 1074)) with 1. lia.
  - case Zeq_bool_spec; intros E1; [change (2 ^ 11 - 1) with 2047 in E1; lia|]. destruct (Z.eqb_spec e 0) as [|_]; [lia|].
    destruct (m + 2 ^ 52) as [|p|p] eqn:Em; [lia| |lia]. cbn [is_finite_FF FF2R]. split; [reflexivity|]. change (SpecFloat.emin (52 + 1) (2 ^ (11 - 1))) with (-1074).
    rewrite F2R_pos by lia. rewrite Es. do 5 f_equal. lia.
Qed.
Lemma bits_finite64 d : 0 <= d < 2 ^ 64 -> fin (b64_of_bits d) -> finite64 d.
Proof.
  intros H F. split; [exact H|]. intros E. unfold fin, b64_of_bits, binary_float_of_bits in F. rewrite is_finite_FF2B in F. unfold binary_float_of_bits_aux, split_bits in F.
  change (Z.pow_pos 2 11) with (2 ^ 11) in F. change (Z.pow_pos 2 52) with (2 ^ 52) in F. cbv zeta in F. rewrite E in F. cbn [Zeq_bool Z.compare] in F.
  change (Zeq_bool 2047 (2 ^ 11 - 1)) with true in F. cbn iota in F. destruct (d mod 2 ^ 52); discriminate.
Qed.

(** ** Writing a double as a single *)
(** the gap between neighbouring singles is at most 2^-23 of the smaller one, or the smallest positive single *)
Lemma mag32_gap t : 0 <= t -> (mag32 (t + 1) - mag32 t) * 2 ^ 23 <= Z.max (mag32 t) (2 ^ 23).
Proof.
  intros H. destruct (Z_lt_ge_dec t (2 ^ 23)) as [L|L].
  - rewrite !mag32_subnormal by lia. lia.
  - set (e := t / 2 ^ 23). set (m := t mod 2 ^ 23). pose proof (Z.div_mod t (2 ^ 23) ltac:(lia)) as D. pose proof (Z.mod_pos_bound t (2 ^ 23) ltac:(lia)) as B. fold e m in D, B.
    assert (1 <= e) by lia. replace t with ((e - 1) * 2 ^ 23 + (2 ^ 23 + m)) by lia. replace ((e - 1) * 2 ^ 23 + (2 ^ 23 + m) + 1) with ((e - 1) * 2 ^ 23 + (2 ^ 23 + m + 1)) by lia.
    rewrite !mag32_binade by lia. pose proof (Z.pow_pos_nonneg 2 (e - 1) ltac:(lia) ltac:(lia)). nia.
Qed.
Lemma narrow_near d c : finite64 d -> narrow d = Some c -> finite32 c /\ Z.abs (value64 (widen c) - value64 d) * 2 ^ 24 <= Z.max (Z.abs (value64 d)) (2 ^ 948).
Proof.
  intros F E. destruct (finite64_parts d F) as (s & T & Hs & HT & ->). rewrite value64_parts by lia.
  assert (N : 0 <= mag64 T). { unfold mag64. cbv zeta. pose proof (Z.mod_pos_bound T (2 ^ 52) ltac:(lia)). destruct (Z.eqb_spec (T / 2 ^ 52) 0); [lia|]. apply Z.mul_nonneg_nonneg; [lia|]. apply Z.pow_nonneg. lia. }
  pose proof (narrow_rounds s T Hs HT) as R. destruct (mag64 T <? overflow_bound); [|congruence].
  destruct R as (t0 & t & E' & Ht & R). assert (Ec : c = s * 2 ^ 31 + t) by congruence. subst c. clear E E'.
  assert (F' : finite32 (s * 2 ^ 31 + t)) by (apply finite32_parts; exists s, t; split; [assumption|]; split; [assumption|reflexivity]).
  split; [exact F'|]. rewrite (proj1 (proj2 (widen_value _ F'))). unfold scaled32. rewrite value32_parts by lia.
  destruct R as (H0 & HM & HT'). pose proof (mag32_gap t0 H0) as G. pose proof (mag32_nonneg t0 H0) as P0.
  change (2 ^ 948) with (2 ^ 23 * 2 ^ 925). set (S := 2 ^ 925) in *. assert (HS : 0 < S) by reflexivity. clearbody S.
  set (M := mag64 T) in *. set (a := mag32 t0) in *. set (b := mag32 (t0 + 1)) in *.
  assert (X : Z.abs (mag32 t * S - M) * 2 ^ 24 <= Z.max M (2 ^ 23 * S)).
  { assert (Y : 2 * Z.abs (mag32 t * S - M) <= (b - a) * S) by (destruct HT' as [[-> K]|[-> K]]; fold a b; lia).
    assert (Z.max a (2 ^ 23) * S <= Z.max M (2 ^ 23 * S)) by nia. nia. }
  destruct Hs; subst s; lia.
Qed.
(** in real numbers *)
Definition u24 : R := bpow radix2 (-24).
Definition eta32 : R := bpow radix2 (-150).
Lemma narrow_err d c : finite64 d -> narrow d = Some c -> fin (b64_of_bits (widen c)) /\
  (Rabs (val (b64_of_bits (widen c)) - val (b64_of_bits d)) <= u24 * Rabs (val (b64_of_bits d)) + eta32)%R.
Proof.
  intros F E. destruct (narrow_near d c F E) as [Fc G]. destruct (widen_value c Fc) as (Fw & _ & _). destruct (finite64_bits d F) as [_ Ed]. destruct (finite64_bits _ Fw) as [Ff Ew].
  split; [exact Ff|]. rewrite Ed, Ew, <- Rmult_minus_distr_r, !Rabs_mult, <- minus_IZR, <- !abs_IZR. rewrite (Rabs_pos_eq (bpow _ _)) by apply bpow_ge_0.
  apply IZR_le in G. rewrite mult_IZR in G. set (A := IZR (Z.abs (value64 (widen c) - value64 d))) in *.
  assert (G' : (A * IZR (2 ^ 24) <= IZR (Z.abs (value64 d)) + IZR (2 ^ 948))%R).
  { eapply Rle_trans; [exact G|]. rewrite <- plus_IZR. apply IZR_le. pose proof (Z.abs_nonneg (value64 d)). assert (0 < 2 ^ 948) by reflexivity. lia. }
  change (IZR (2 ^ 24)) with (IZR (radix2 ^ 24)) in G'. change (IZR (2 ^ 948)) with (IZR (radix2 ^ 948)) in G'. rewrite !IZR_Zpower in G' by lia.
  replace eta32 with (u24 * (bpow radix2 948 * bpow radix2 (-1074)))%R by (unfold u24, eta32; rewrite <- !bpow_plus; reflexivity).
  rewrite <- Rmult_plus_distr_l. rewrite <- Rmult_plus_distr_r. rewrite <- Rmult_assoc. apply Rmult_le_compat_r; [apply bpow_ge_0|].
  apply (Rmult_le_reg_r (bpow radix2 24)); [apply bpow_gt_0|]. eapply Rle_trans; [exact G'|]. unfold u24. rewrite Rmult_comm, <- Rmult_assoc, <- bpow_plus. change (bpow radix2 (24 + -24)) with 1%R. lra.
Qed.
Global Opaque u24 eta32.
