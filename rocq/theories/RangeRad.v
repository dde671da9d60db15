(** Rounding errors of the radius of curvature N = a / sqrt(1 - (e * sinLat)**2) *)
From Coq Require Import Reals ZArith Lra Lia List.
From Flocq Require Import Core Binary Bits.
From Verif Require Import Real3 RangeCoordinates PropGeo Conv PropConv Float64 DeadReckoning64 Range64 FloatErr PropDR64 PropDR64b FloatAbs PropRange64 RangeErr.
Local Open Scope R_scope.
Transparent eta.
Lemma rnd_eta : rnd eta = 0.
Proof.
  unfold rnd, eta, round, scaled_mantissa, cexp. rewrite mag_bpow. change (FLT_exp (-1074) 53 (-1075 + 1)) with (-1074)%Z. rewrite <- bpow_plus.
  replace (ZnearestE (bpow radix2 (-1075 + - (-1074)))) with 0%Z. { apply F2R_0. }
  symmetry. change (bpow radix2 (-1075 + - (-1074))) with (/ 2). unfold Znearest. assert (F : Zfloor (/ 2) = 0%Z) by (apply Zfloor_imp; cbn; lra). rewrite F. rewrite Rcompare_Eq by (cbn; lra). reflexivity.
Qed.
Opaque eta.
Lemma rnd_opp x : rnd (- x) = - rnd x. Proof. unfold rnd. apply round_NE_opp. Qed.
Lemma rnd_double x : Rabs (rnd x) <= 20001 / 10000 * Rabs x.
Proof.
  pose proof eta_pos as ET. destruct (Rle_dec (Rabs x) eta) as [H|H].
  - assert (Z : rnd x = 0). { apply Rabs_le_inv in H. apply Rle_antisym; [rewrite <- rnd_eta; apply rnd_le; lra|]. replace 0 with (rnd (- eta)) by (rewrite rnd_opp, rnd_eta; ring). apply rnd_le; lra. }
    rewrite Z, Rabs_R0. pose proof (Rabs_pos x). lra.
  - pose proof (rnd_err x) as R. replace (rnd x) with ((rnd x - x) + x) by ring. eapply Rle_trans; [apply Rabs_triang|]. pose proof (Rabs_pos x). num.
Qed.

Section Radius.
Variable L : mathlib.
Hypothesis AM : accurate_math L.
Notation a := wgs84_a.
Notation E := (wgs84_e ^ 2).
Notation N_ := (Nf a E).

(** The statement for the bound M on |sinLat| and the bound c u a on the error *)
Definition radius_ok (M c : R) : Prop := forall s64, fin s64 -> Rabs (val s64) <= M ->
  exists q d, gsquare L (fmul e64 s64) = GRet q /\ gsqrt (fsub f_1 q) = GRet d /\ gdiv a64 d = GRet (fdiv a64 d) /\ ap (fdiv a64 d) (N_ (val s64)) (c * u * a) /\ a <= val (fdiv a64 d).

Lemma rnd_1 : rnd 1 = 1. Proof. pose proof (rnd_val f_1) as H. rewrite val_1 in H. exact H. Qed.
Lemma rnd_0 : rnd 0 = 0. Proof. exact (rnd_val f_zero). Qed.
Lemma rnd_a : rnd a = a. Proof. pose proof (rnd_val a64) as H. rewrite val_a in H. exact H. Qed.
(** never below the semi-major axis *)
Lemma radius_low q : fin q -> 0 <= val q -> val q <= 1 -> fin (fsqrt (fsub f_1 q)) -> / 10 <= val (fsqrt (fsub f_1 q)) -> a <= val (fdiv a64 (fsqrt (fsub f_1 q))).
Proof.
  intros Fq Q0 Q1 F4 D0. pose proof huge_200 as HH. assert (AV : a = 6378137) by reflexivity.
  destruct (fsub_rnd f_1 q eq_refl Fq) as [F3 R]. { rewrite val_1. apply Rabs_le. lra. }
  assert (V0 : 0 <= val (fsub f_1 q)). { rewrite R, val_1. rewrite <- rnd_0 at 1. apply rnd_le. lra. }
  assert (V1 : val (fsub f_1 q) <= 1). { rewrite R, val_1. rewrite <- rnd_1 at 2. apply rnd_le. lra. }
  destruct (fsqrt_rnd _ F3 V0) as [_ S]. set (d := fsqrt (fsub f_1 q)) in *.
  assert (V4 : val d <= 1). { rewrite S. rewrite <- rnd_1. apply rnd_le. eapply Rle_trans; [apply sqrt_le_1_alt; exact V1|rewrite sqrt_1; lra]. }
  assert (I : 1 <= / val d <= 10). { split; [rewrite <- Rinv_1 at 1; apply Rinv_le_contravar; lra|]. apply Rle_trans with (/ / 10); [apply Rinv_le_contravar; lra|rewrite Rinv_inv; lra]. }
  assert (Q : a <= val a64 / val d <= 10 * a). { rewrite val_a. unfold Rdiv. rewrite AV. lra. }
  destruct (fdiv_rnd a64 d eq_refl F4) as [_ T]. { lra. } { rewrite Rabs_pos_eq by lra. lra. }
  rewrite T. rewrite <- rnd_a at 1. apply rnd_le. apply Q.
Qed.

Ltac radius M B m d1 e2 d2 d3 d4 e5 c :=
  intros s64 Fs HM; set (s := val s64) in *; pose proof e_small as ES; pose proof e_err as EE; pose proof e2_bounds as EB; assert (AV : a = 6378137) by reflexivity;
  assert (S2 : 0 <= s ^ 2 <= M * M) by (split; [apply pow2_ge_0|replace (s ^ 2) with (Rabs s * Rabs s) by (rewrite <- Rabs_mult, Rabs_pos_eq by nra; ring); apply Rmult_le_compat; try apply Rabs_pos; assumption]);
  assert (Q0 : 0 <= E * s ^ 2 <= 67 / 10000 * (M * M)) by (split; [apply Rmult_le_pos; lra|apply Rmult_le_compat; lra]);
  assert (A1 : ap (fmul e64 s64) (wgs84_e * s) d1) by (apply (ap_mul _ _ _ _ (2 * u) 0 (82 / 1000) M (2 * u * M)); [exact EE|apply ap_exact; exact Fs|apply Rabs_le; lra|exact HM|lra|num|num]);
  assert (ESB : Rabs (wgs84_e * s) <= B) by (rewrite Rabs_mult; apply Rle_trans with (82 / 1000 * M); [apply Rmult_le_compat; try apply Rabs_pos; [apply Rabs_le; lra|exact HM]|lra]);
  destruct (gsquare_ap L AM _ _ d1 B e2 d2 A1 ESB ltac:(num) ltac:(num) ltac:(num)) as [G1 A2]; set (q := l_square (g_base L) (fmul e64 s64)) in *;
  replace (wgs84_e * s * (wgs84_e * s)) with (E * s ^ 2) in A2 by ring;
  assert (A3 : ap (fsub f_1 q) (1 - E * s ^ 2) d3) by (apply (ap_sub _ _ _ _ 0 d2 1); [exact one_ap|exact A2|apply Rabs_le; lra|num|num]);
  assert (SL : sqrt (1 - E * s ^ 2) <= 1) by (eapply Rle_trans; [apply sqrt_le_1_alt with (y := 1); lra|rewrite sqrt_1; lra]);
  assert (SG : m <= sqrt (1 - E * s ^ 2)) by (rewrite <- (sqrt_square m) by lra; apply sqrt_le_1_alt; lra);
  destruct (ap_sqrt _ _ d3 m 1 d4 A3 ltac:(lra) ltac:(lra) ltac:(num) SL ltac:(num)) as [G2 A4];
  destruct (ap_div a64 (fsqrt (fsub f_1 q)) a (sqrt (1 - E * s ^ 2)) 0 d4 a m e5 (c * u * a) a_ap A4) as [G3 A5];
  [rewrite Rabs_pos_eq; lra|lra|rewrite Rabs_pos_eq; lra|num| |rewrite AV; num|rewrite AV; num|].

Lemma radius_near : radius_ok (103 / 100) (7 / 2).
Proof.
  radius (103 / 100) (85 / 1000) (996 / 1000) (22 / 10 * u) (38 / 100 * u) (40 / 100 * u) (141 / 100 * u) (242 / 100 * u) (246 / 100 * u * a) (7 / 2).
  { apply Rmult_le_reg_r with (996 / 1000 - 242 / 100 * u); [num|]. unfold Rdiv at 1. rewrite Rmult_assoc, Rinv_l by num. rewrite AV. num. }
  exists q, (fsqrt (fsub f_1 q)). split; [exact G1|]. split; [exact G2|]. split; [exact G3|]. split; [exact A5|].
  destruct A1 as [F1 X1]. destruct A2 as [Fq Xq]. destruct A4 as [F4 X4]. apply Rabs_le_inv in X1, X4, Xq. apply Rabs_le_inv in ESB. pose proof huge_200 as HH.
  apply radius_low; [exact Fq| |num|exact F4|num].
  apply (am_square L AM); [exact F1|]. assert (V : Rabs (val (fmul e64 s64)) <= 1) by (apply Rabs_le; num). rewrite Rabs_mult. apply Rle_trans with (1 * 1); [apply Rmult_le_compat; try apply Rabs_pos; assumption|lra].
Qed.
Lemma radius_far : radius_ok (95 / 10) 147.
Proof.
  radius (95 / 10) (78 / 100) (62 / 100) (198 / 10 * u) (31 * u) (325 / 10 * u) (336 / 10 * u) (553 / 10 * u) (144 * u * a) 147.
  { apply Rmult_le_reg_r with (62 / 100 - 553 / 10 * u); [num|]. unfold Rdiv at 1. rewrite Rmult_assoc, Rinv_l by num. rewrite AV. num. }
  exists q, (fsqrt (fsub f_1 q)). split; [exact G1|]. split; [exact G2|]. split; [exact G3|]. split; [exact A5|].
  destruct A1 as [F1 X1]. destruct A2 as [Fq Xq]. destruct A4 as [F4 X4]. apply Rabs_le_inv in X1, X4, Xq. apply Rabs_le_inv in ESB. pose proof huge_200 as HH.
  apply radius_low; [exact Fq| |num|exact F4|num].
  apply (am_square L AM); [exact F1|]. assert (V : Rabs (val (fmul e64 s64)) <= 1) by (apply Rabs_le; num). rewrite Rabs_mult. apply Rle_trans with (1 * 1); [apply Rmult_le_compat; try apply Rabs_pos; assumption|lra].
Qed.
End Radius.
