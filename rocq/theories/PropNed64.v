(** C73: local north, east, down coordinates in double precision *)
From Coq Require Import Reals ZArith Lra Lia List.
From Flocq Require Import Core Binary Bits.
From Verif Require Import Real3 RangeCoordinates PropGeo Conv PropConv Float64 DeadReckoning64 Range64 FloatErr PropDR64 PropDR64b FloatAbs PropRange64 RangeErr PropLla64 PropTrip64.
Local Open Scope R_scope.

(** the sum of the absolute values of the coordinates *)
Definition span (v : vec) : R := Rabs (vx v) + Rabs (vy v) + Rabs (vz v).

Lemma norm_is v : norm v = sqrt (vx v ^ 2 + vy v ^ 2 + vz v ^ 2). Proof. unfold norm, vdot. f_equal. ring. Qed.
Lemma span_norm v : span v <= 17321 / 10000 * norm v.
Proof.
  rewrite norm_is. set (S := vx v ^ 2 + vy v ^ 2 + vz v ^ 2). assert (SQ : forall x, Rabs x * Rabs x = x ^ 2) by (intros x; rewrite <- Rabs_mult, Rabs_pos_eq by nra; ring).
  assert (S0 : 0 <= S) by (unfold S; pose proof (pow2_ge_0 (vx v)); pose proof (pow2_ge_0 (vy v)); pose proof (pow2_ge_0 (vz v)); lra).
  apply Rsqr_incr_0_var; [|apply Rmult_le_pos; [lra|apply sqrt_pos]]. unfold Rsqr. replace (17321 / 10000 * sqrt S * (17321 / 10000 * sqrt S)) with (17321 / 10000 * (17321 / 10000) * (sqrt S * sqrt S)) by ring. rewrite sqrt_sqrt by exact S0.
  unfold span. unfold S in *. rewrite <- !SQ in *. set (a := Rabs (vx v)). set (b := Rabs (vy v)). set (c := Rabs (vz v)). pose proof (pow2_ge_0 (a - b)). pose proof (pow2_ge_0 (a - c)). pose proof (pow2_ge_0 (b - c)). nra.
Qed.
Lemma row_span r v : (forall j, Rabs (rc j r) <= 1) -> Rabs (vdot r v) <= span v.
Proof.
  intros H. assert (H1 := H AX). assert (H2 := H AY). assert (H3 := H AZ). cbn [rc] in H1, H2, H3. unfold vdot, span. eapply Rle_trans; [apply Rabs_triang|]. apply Rplus_le_compat; [eapply Rle_trans; [apply Rabs_triang|apply Rplus_le_compat]|]; rewrite Rabs_mult;
    match goal with |- _ <= ?x => replace x with (1 * x) at 2 by ring end; apply Rmult_le_compat; auto using Rabs_pos, Rle_refl.
Qed.
Lemma sin_1 x : Rabs (sin x) <= 1. Proof. apply Rabs_le, SIN_bound. Qed.
Lemma cos_1' x : Rabs (cos x) <= 1. Proof. apply Rabs_le, COS_bound. Qed.
Inductive entry : R -> Prop :=
| en_0 : entry 0 | en_s x : entry (sin x) | en_c x : entry (cos x) | en_n x : entry x -> entry (- x) | en_p x y : entry x -> entry y -> entry (x * y).
Lemma entry_le x : entry x -> Rabs x <= 1.
Proof.
  induction 1; [rewrite Rabs_R0; lra|apply sin_1|apply cos_1'|now rewrite Rabs_Ropp|]. rewrite Rabs_mult. replace 1 with (1 * 1) by ring. apply Rmult_le_compat; auto using Rabs_pos.
Qed.
Ltac entry_1 := apply entry_le; repeat first [apply en_0|apply en_s|apply en_c|apply en_n|apply en_p].

Section Machine.
Variable L : mathlib.
Hypothesis AM : accurate_math L.

(** ** The conversion of the origin *)
Lemma origin64 o lat lon alt K : fin3 o -> -90 < lat < 90 -> -180 < lon < 180 -> -3000000 <= alt <= 53000000 -> lla2ecef (V lat lon alt) = Ret (real3 o) ->
  1 <= K <= 9 * 10 ^ 6 -> dist o <= K * axis o ->
  exists r, (forall n, (10 <= n)%nat -> ecef2lla64 L n o f_nano = Some (GRet r)) /\ fin3 r /\ Rabs (val (fx r)) <= 116 /\ Rabs (val (fy r)) <= 181.
Proof.
  intros F Hl Hm Hh Eq HK HD. pose proof (setting_of o lat lon alt K Hl Hh Eq ltac:(lra) HD) as SE. destruct (wraps L AM o F (conj (se_low _ _ _ _ _ _ SE) (se_up _ _ _ _ _ _ SE))) as (p64 & Ap & W).
  pose proof val_nano as VN. assert (P53 : 2 ^ 53 = 9007199254740992) by ring.
  destruct (far_run64 L AM o lat lon alt K f_nano 6 p64 F SE Hl Hh ltac:(lra) Ap eq_refl ltac:(rewrite P53; lra) ltac:(cbn [pow]; lra)) as (J & la & h & HJ & Fla & Bla & Fh & [R1 R2] & ACC). destruct (lon_ap L AM o lat lon alt F Hl Hm Hh Eq) as [FO XO].
  destruct (rad2deg_ap la (val la) 0 (ap_exact la Fla) ltac:(lra) ltac:(lra)) as [FD XD].
  eexists. split; [intros n Hn; rewrite W, R1 by lia; reflexivity|]. cbn [fx fy fz]. split; [|split].
  - intros []; cbn [fc fx fy fz]; [|exact FO|exact Fh]. exact FD.
  - assert (B := rad2deg_le _ _ Bla). apply Rabs_le_inv in XD, B. apply Rabs_le. num.
  - rewrite P53 in XO. apply Rabs_le_inv in XO. apply Rabs_le. lra.
Qed.

(** ** The matrix *)
Lemma angle_ap x B : fin x -> Rabs (val x) <= B -> 0 <= B <= 200 -> ap (deg2rad64 x) (deg2rad (val x)) (u * (B / 24) + 2 * eta).
Proof.
  intros F H HB. apply (ap_weak _ _ _ _ (deg2rad_ap x F ltac:(lra))). apply Rplus_le_compat_r. rewrite (Rmult_comm u). unfold Rdiv. rewrite Rmult_assoc, (Rmult_comm (/ 24)). apply Rmult_le_compat_r; [num|exact H].
Qed.
Lemma entries r : fin3 r -> Rabs (val (fx r)) <= 116 -> Rabs (val (fy r)) <= 181 -> let lat := deg2rad (val (fx r)) in let lon := deg2rad (val (fy r)) in
  exists sa ca so co, ned_rows L (deg2rad64 (fx r)) (deg2rad64 (fy r)) = GRet (sa, ca, so, co) /\ ap sa (sin lat) (7 * u) /\ ap ca (cos lat) (7 * u) /\ ap so (sin lon) (10 * u) /\ ap co (cos lon) (10 * u).
Proof.
  intros F H1 H2 lat lon. pose proof (angle_ap _ 116 (F AX) H1 ltac:(lra)) as A. pose proof (angle_ap _ 181 (F AY) H2 ltac:(lra)) as B. cbn [fc] in A, B. fold lat in A. fold lon in B.
  destruct (gsin_ap L AM _ _ _ (7 * u) A ltac:(num)) as [G1 S1]. destruct (gcos_ap L AM _ _ _ (7 * u) A ltac:(num)) as [G2 S2]. destruct (gsin_ap L AM _ _ _ (10 * u) B ltac:(num)) as [G3 S3]. destruct (gcos_ap L AM _ _ _ (10 * u) B ltac:(num)) as [G4 S4].
  do 4 eexists. split; [unfold ned_rows; rewrite G1; cbn [gbind]; rewrite G4; cbn [gbind]; rewrite G3; cbn [gbind]; rewrite G2; reflexivity|]. repeat split; assumption || apply S1 || apply S2 || apply S3 || apply S4.
Qed.
Lemma app_of_ap x X : ap x X (20 * u) -> Rabs X <= 1 -> app x X 10 2 (200 * eta).
Proof. intros [F E] B. pose proof eta_pos. repeat split; try exact F; num. Qed.
Lemma app_prod x y X Y : ap x X (7 * u) -> ap y Y (10 * u) -> Rabs X <= 1 -> Rabs Y <= 1 -> app (fmul (fneg x) y) (- X * Y) 10 2 (200 * eta).
Proof.
  intros A B HX HY. apply app_of_ap.
  - apply (ap_mul _ _ _ _ (7 * u) (10 * u) 1 1 (18 * u)); [apply ap_neg; exact A|exact B|rewrite Rabs_Ropp; exact HX|exact HY|num|num|num].
  - rewrite Rabs_mult, Rabs_Ropp. replace 1 with (1 * 1) by ring. apply Rmult_le_compat; auto using Rabs_pos.
Qed.

(** the product with the difference of the positions, and with a vector of local coordinates *)
Lemma diff_app e o i : fin3 e -> fin3 o -> (forall i, Rabs (val (fc i e)) <= 10 ^ 9) -> (forall i, Rabs (val (fc i o)) <= 10 ^ 9) ->
  app (fc i (fmap2 fsub e o)) (rc i (vsub (real3 e) (real3 o))) 1 (Rabs (rc i (vsub (real3 e) (real3 o)))) 0.
Proof.
  intros Fe Fo He Ho. rewrite fc_map2. assert (Q : rc i (vsub (real3 e) (real3 o)) = val (fc i e) - val (fc i o)) by now destruct i. rewrite Q.
  specialize (He i). specialize (Ho i). apply Rabs_le_inv in He, Ho. pose proof huge_200.
  destruct (fsub_err (fc i e) (fc i o) (Fe i) (Fo i)) as [F X]; [apply Rabs_le; lra|]. repeat split; try exact F; lra.
Qed.
Lemma ned_app e o r : fin3 e -> fin3 o -> (forall i, Rabs (val (fc i e)) <= 10 ^ 9) -> (forall i, Rabs (val (fc i o)) <= 10 ^ 9) -> fin3 r -> Rabs (val (fx r)) <= 116 -> Rabs (val (fy r)) <= 181 ->
  let v := vsub (real3 e) (real3 o) in let M := ecefvec2nedvec (deg2rad (val (fx r))) (deg2rad (val (fy r))) in
  exists d, ecef2ned_at64 L e o r = GRet d /\ forall i, within (fc i d) (rc i (mapply M v)) (33 * u * span v + / 2 ^ 500).
Proof.
  intros Fe Fo He Ho Fr H1 H2 v M. destruct (entries r Fr H1 H2) as (sa & ca & so & co & G & A1 & A2 & A3 & A4). unfold ecef2ned_at64. rewrite G. cbn [gbind]. eexists. split; [reflexivity|].
  set (lat := deg2rad (val (fx r))) in *. set (lon := deg2rad (val (fy r))) in *. pose proof (sin_1 lat). pose proof (cos_1' lat). pose proof (sin_1 lon). pose proof (cos_1' lon).
  assert (WK : forall x X k, ap x X (k * u) -> k <= 20 -> ap x X (20 * u)) by (intros x X k A Hk; apply (ap_weak _ _ _ _ A); apply Rmult_le_compat_r; [num|exact Hk]).
  assert (ZA : app f_zero 0 10 2 (200 * eta)) by (apply app_of_ap; [apply (ap_weak _ _ 0); [exact (ap_exact f_zero eq_refl)|num]|rewrite Rabs_R0; lra]).
  set (m := FM _ _ _). intros i.
  assert (RA : forall j, app (fc j (match i with AX => f1 m | AY => f2 m | AZ => f3 m end)) (rc j (match i with AX => r1 M | AY => r2 M | AZ => r3 M end)) 10 2 (200 * eta)).
  { intros j. destruct i, j; cbn [m M f1 f2 f3 r1 r2 r3 fc rc fx fy fz vx vy vz ecefvec2nedvec]; fold lat lon; first [exact ZA|apply app_prod; assumption|apply app_of_ap; [first [apply (WK _ _ 7); [assumption|lra]|apply (WK _ _ 10); [assumption|lra]|apply ap_neg; first [apply (WK _ _ 7); [assumption|lra]|apply (WK _ _ 10); [assumption|lra]]]|rewrite ?Rabs_Ropp; assumption]]. }
  set (b := Rabs (vx v) + Rabs (vy v) + Rabs (vz v)). assert (VB : forall i, Rabs (rc i v) <= 2 * 10 ^ 9).
  { intros j. assert (Q : rc j v = val (fc j e) - val (fc j o)) by (now destruct j). rewrite Q. specialize (He j). specialize (Ho j). apply Rabs_le_inv in He, Ho. apply Rabs_le. lra. }
  assert (B1 := VB AX). assert (B2 := VB AY). assert (B3 := VB AZ). cbn [rc] in B1, B2, B3. assert (b0 : 0 <= b <= 6 * 10 ^ 9) by (unfold b; pose proof (Rabs_pos (vx v)); pose proof (Rabs_pos (vy v)); pose proof (Rabs_pos (vz v)); lra).
  pose proof (matvec_app _ _ _ _ v 1 (V (Rabs (vx v)) (Rabs (vy v)) (Rabs (vz v))) vzero (pairs_row (g_base L) m (fmap2 fsub e o) i (am_base L AM)) RA) as X. cbn [vx vy vz vzero] in X.
  destruct X as (F & _ & _ & _ & D); [intros j; pose proof (diff_app e o j Fe Fo He Ho) as Q; fold v in Q; destruct j; exact Q|lra|fold b; pose proof huge_200; lra|].
  fold b in D. split; [exact F|]. rewrite rc_mapply. eapply Rle_trans; [exact D|]. unfold span. fold b. pose proof eta_tiny as [E0 E1]. assert (EB : eta * (24 + 400 * b) <= / 2 ^ 600 * (3 * 10 ^ 12)) by (apply Rmult_le_compat; lra).
  assert (UB : 0 <= u * b) by (apply Rmult_le_pos; [num|lra]). assert (P6 : / 2 ^ 600 * (3 * 10 ^ 12) <= / 2 ^ 500) by lra. lra.
Qed.
Lemma ecef_app d o r : fin3 d -> fin3 o -> (forall i, Rabs (val (fc i d)) <= 10 ^ 11) -> (forall i, Rabs (val (fc i o)) <= 10 ^ 9) -> fin3 r -> Rabs (val (fx r)) <= 116 -> Rabs (val (fy r)) <= 181 ->
  let M := ecefvec2nedvec (deg2rad (val (fx r))) (deg2rad (val (fy r))) in let w := vadd (mapply (transposed M) (real3 d)) (real3 o) in
  exists e, ned2ecef_at64 L d o r = GRet e /\ forall i, within (fc i e) (rc i w) (31 * u * span (real3 d) + u * Rabs (rc i w) + / 2 ^ 499).
Proof.
  intros Fd Fo Hd Ho Fr H1 H2 M w. destruct (entries r Fr H1 H2) as (sa & ca & so & co & G & A1 & A2 & A3 & A4). unfold ned2ecef_at64. rewrite G. cbn [gbind]. eexists. split; [reflexivity|].
  set (lat := deg2rad (val (fx r))) in *. set (lon := deg2rad (val (fy r))) in *. pose proof (sin_1 lat). pose proof (cos_1' lat). pose proof (sin_1 lon). pose proof (cos_1' lon).
  assert (WK : forall x X k, ap x X (k * u) -> k <= 20 -> ap x X (20 * u)) by (intros x X k A Hk; apply (ap_weak _ _ _ _ A); apply Rmult_le_compat_r; [num|exact Hk]).
  assert (ZA : app f_zero 0 10 2 (200 * eta)) by (apply app_of_ap; [apply (ap_weak _ _ 0); [exact (ap_exact f_zero eq_refl)|num]|rewrite Rabs_R0; lra]).
  set (m := FM _ _ _). intros i. set (T := transposed M) in *.
  assert (RA : forall j, app (fc j (match i with AX => f1 m | AY => f2 m | AZ => f3 m end)) (rc j (match i with AX => r1 T | AY => r2 T | AZ => r3 T end)) 10 2 (200 * eta)).
  { intros j. destruct i, j; cbn [m T M transposed f1 f2 f3 r1 r2 r3 fc rc fx fy fz vx vy vz ecefvec2nedvec]; fold lat lon; first [exact ZA|apply app_prod; assumption|apply app_of_ap; [first [apply (WK _ _ 7); [assumption|lra]|apply (WK _ _ 10); [assumption|lra]|apply ap_neg; first [apply (WK _ _ 7); [assumption|lra]|apply (WK _ _ 10); [assumption|lra]]]|rewrite ?Rabs_Ropp; assumption]]. }
  set (v := real3 d) in *. set (b := Rabs (vx v) + Rabs (vy v) + Rabs (vz v)). assert (VB : forall i, Rabs (rc i v) <= 10 ^ 11) by (intros j; specialize (Hd j); now destruct j).
  assert (B1 := VB AX). assert (B2 := VB AY). assert (B3 := VB AZ). cbn [rc] in B1, B2, B3. assert (b0 : 0 <= b <= 3 * 10 ^ 11) by (unfold b; pose proof (Rabs_pos (vx v)); pose proof (Rabs_pos (vy v)); pose proof (Rabs_pos (vz v)); lra).
  pose proof (matvec_app _ _ _ _ v 0 (V (Rabs (vx v)) (Rabs (vy v)) (Rabs (vz v))) vzero (pairs_row (g_base L) m d i (am_base L AM)) RA) as X. cbn [vx vy vz vzero] in X.
  destruct X as (F & _ & _ & Y2 & D); [intros j; destruct j; exact (app_exact _ (Fd _))|lra|fold b; pose proof huge_200; lra|].
  fold b in D, Y2. pose proof eta_tiny as [E0 E1]. assert (EB : eta * (24 + 400 * b) <= / 2 ^ 600 * (3 * 10 ^ 14)) by (apply Rmult_le_compat; lra).
  assert (UB : 0 <= u * b) by (apply Rmult_le_pos; [num|lra]). assert (P6 : / 2 ^ 600 * (3 * 10 ^ 14) <= / 2 ^ 500) by lra.
  assert (D1 : Rabs (val (fc i (l_matvec (g_base L) m d)) - rc i (mapply T v)) <= 30 * u * b + / 2 ^ 500) by (rewrite rc_mapply; lra).
  rewrite <- rc_mapply in Y2. set (x := fc i (l_matvec (g_base L) m d)) in *. set (Y := rc i (mapply T v)) in *.
  assert (W : rc i w = Y + val (fc i o)) by (unfold w, Y; now destruct i). rewrite W. rewrite fc_map2. fold x. specialize (Ho i).
  assert (U0 : 0 < u <= / 10 ^ 15) by num. assert (U1 : u * b <= 1) by (apply Rle_trans with (/ 10 ^ 15 * (3 * 10 ^ 11)); [apply Rmult_le_compat; lra|lra]). assert (T5 : / 2 ^ 500 <= 1) by lra.
  assert (T4 : / 2 ^ 499 = 2 * / 2 ^ 500) by lra. set (t := / 2 ^ 500) in *. assert (t0 : 0 < t) by (unfold t; apply Rinv_0_lt_compat, pow_lt; lra).
  apply Rabs_le_inv in Ho. assert (D2 := D1). apply Rabs_le_inv in D1, Y2.
  destruct (fadd_err x (fc i o) F (Fo i)) as [FF X]; [pose proof huge_200; apply Rabs_le; lra|]. split; [exact FF|].
  assert (XS : Rabs (val x + val (fc i o)) <= Rabs (Y + val (fc i o)) + (30 * u * b + t)).
  { replace (val x + val (fc i o)) with ((Y + val (fc i o)) + (val x - Y)) by ring. eapply Rle_trans; [apply Rabs_triang|]. lra. }
  replace (val (fadd x (fc i o)) - (Y + val (fc i o))) with ((val (fadd x (fc i o)) - (val x + val (fc i o))) + (val x - Y)) by ring. eapply Rle_trans; [apply Rabs_triang|].
  assert (UX : u * Rabs (val x + val (fc i o)) <= u * (Rabs (Y + val (fc i o)) + (30 * u * b + t))) by (apply Rmult_le_compat_l; [lra|exact XS]).
  assert (UU : u * (30 * u * b) <= / 100 * (u * b)) by (replace (u * (30 * u * b)) with (30 * u * (u * b)) by ring; apply Rmult_le_compat_r; lra). assert (UT : u * t <= / 100 * t) by (apply Rmult_le_compat_r; lra).
  unfold span. fold b. rewrite Rmult_plus_distr_l in UX. rewrite (Rmult_plus_distr_l u (30 * u * b)) in UX. lra.
Qed.

(** ** The theorems *)
(** a position o with latitude, longitude and altitude where ecef2lla ends *)
Record usable (o : fvec) : Prop := { us_fin : fin3 o; us_at : exists lat lon alt K, -90 < lat < 90 /\ -180 < lon < 180 /\ -3000000 <= alt <= 53000000 /\ lla2ecef (V lat lon alt) = Ret (real3 o) /\ 1 <= K <= 9 * 10 ^ 6 /\ dist o <= K * axis o }.
Lemma usable_small o : usable o -> forall i, Rabs (val (fc i o)) <= 10 ^ 9.
Proof.
  intros [F (lat & lon & alt & K & Hl & Hm & Hh & Eq & HK & HD)] i. destruct (dist_between o lat lon alt Hl Hh Eq) as [_ D]. pose proof (normal_bounds (deg2rad lat)) as NB. assert (AV : wgs84_a = 6378137) by reflexivity. rewrite AV in NB.
  apply Rle_trans with (dist o); [|lra]. rewrite <- (sqrt_square (Rabs (val (fc i o)))) by apply Rabs_pos. apply sqrt_le_1_alt. replace (Rabs (val (fc i o)) * Rabs (val (fc i o))) with (val (fc i o) ^ 2) by (rewrite <- Rabs_mult, Rabs_pos_eq; nra).
  pose proof (pow2_ge_0 (val (fx o))). pose proof (pow2_ge_0 (val (fy o))). pose proof (pow2_ge_0 (val (fz o))). destruct i; cbn [fc]; lra.
Qed.
Lemma ned_at o e : usable o -> fin3 e -> (forall i, Rabs (val (fc i e)) <= 10 ^ 9) -> exists M d r, rotation M /\ (forall n, (10 <= n)%nat -> ecef2ned64 L n e o = Some (GRet d)) /\
  (forall i, within (fc i d) (rc i (mapply M (vsub (real3 e) (real3 o)))) (33 * u * span (vsub (real3 e) (real3 o)) + / 2 ^ 500)) /\
  M = ecefvec2nedvec (deg2rad (val (fx r))) (deg2rad (val (fy r))) /\ fin3 r /\ Rabs (val (fx r)) <= 116 /\ Rabs (val (fy r)) <= 181 /\ (forall n, (10 <= n)%nat -> ecef2lla64 L n o f_nano = Some (GRet r)).
Proof.
  intros UO Fe He. pose proof (usable_small o UO) as SO. destruct UO as [F (lat & lon & alt & K & Hl & Hm & Hh & Eq & HK & HD)]. destruct (origin64 o lat lon alt K F Hl Hm Hh Eq HK HD) as (r & R1 & R2 & R3 & R4).
  destruct (ned_app e o r Fe F He SO R2 R3 R4) as (d & G & W). exists (ecefvec2nedvec (deg2rad (val (fx r))) (deg2rad (val (fy r)))), d, r. split; [apply ned_rotation|]. split; [|split; [exact W|auto]].
  intros n Hn. unfold ecef2ned64, after_lla64. rewrite R1 by exact Hn. now rewrite G.
Qed.

(** the distance is kept *)
Theorem C73_distance o e : usable o -> fin3 e -> (forall i, Rabs (val (fc i e)) <= 10 ^ 9) ->
  exists d, (forall n, (10 <= n)%nat -> ecef2ned64 L n e o = Some (GRet d)) /\ fin3 d /\
    Rabs (norm (real3 d) - norm (vsub (real3 e) (real3 o))) <= 100 / 2 ^ 53 * norm (vsub (real3 e) (real3 o)) + / 2 ^ 490.
Proof.
  intros UO Fe He. destruct (ned_at o e UO Fe He) as (M & d & r & RM & G & W & _). exists d. split; [exact G|]. split; [intros i; apply (W i)|]. set (v := vsub (real3 e) (real3 o)) in *.
  assert (NV : norm v = norm (mapply M v)) by (symmetry; now apply rot_norm). pose proof (span_norm v) as SN. assert (N0 : 0 <= norm v) by apply sqrt_pos.
  set (x := mapply M v) in *. set (t := / 2 ^ 500) in *. assert (t0 : 0 < t) by (unfold t; apply Rinv_0_lt_compat, pow_lt; lra). assert (T4 : 2 * t <= / 2 ^ 490) by (unfold t; lra).
  set (dl := 33 * u * span v + t) in *. assert (U0 : 0 < u <= / 10 ^ 15) by num. assert (S0 : 0 <= span v) by (unfold span; pose proof (Rabs_pos (vx v)); pose proof (Rabs_pos (vy v)); pose proof (Rabs_pos (vz v)); lra).
  assert (DL : 0 <= dl) by (unfold dl; assert (0 <= u * span v) by (apply Rmult_le_pos; lra); lra).
  assert (SQ : forall i, (rc i (real3 d) - rc i x) ^ 2 <= dl * dl).
  { intros i. destruct (W i) as [_ X]. assert (Q : rc i (real3 d) = val (fc i d)) by now destruct i. rewrite Q. rewrite <- (Rabs_pos_eq (_ ^ 2)) by apply pow2_ge_0. rewrite <- RPow_abs. cbn [pow]. rewrite Rmult_1_r. apply Rmult_le_compat; auto using Rabs_pos. }
  assert (Q1 := SQ AX). assert (Q2 := SQ AY). assert (Q3 := SQ AZ). cbn [rc] in Q1, Q2, Q3.
  assert (D2 : (vx (real3 d) - vx x) ^ 2 + (vy (real3 d) - vy x) ^ 2 + (vz (real3 d) - vz x) ^ 2 <= (17321 / 10000 * dl) ^ 2) by (assert (0 <= dl * dl) by (apply Rmult_le_pos; assumption); lra).
  assert (T1 := tri3 _ _ _ _ _ _ (17321 / 10000 * dl) ltac:(lra) D2). assert (D3 : (vx x - vx (real3 d)) ^ 2 + (vy x - vy (real3 d)) ^ 2 + (vz x - vz (real3 d)) ^ 2 <= (17321 / 10000 * dl) ^ 2) by lra. assert (T2 := tri3 _ _ _ _ _ _ (17321 / 10000 * dl) ltac:(lra) D3).
  rewrite <- !norm_is in T1, T2. rewrite <- NV in T1, T2. replace (100 / 2 ^ 53) with (100 * u) by (rewrite u_val; field).
  assert (US : u * span v <= u * (17321 / 10000 * norm v)) by (apply Rmult_le_compat_l; lra). assert (UN : 0 <= u * norm v) by (apply Rmult_le_pos; lra). unfold dl in T1, T2. apply Rabs_le. lra.
Qed.

(** and back again *)
Theorem C73_round_trip o e : usable o -> fin3 e -> (forall i, Rabs (val (fc i e)) <= 10 ^ 9) ->
  exists d e', (forall n, (10 <= n)%nat -> ecef2ned64 L n e o = Some (GRet d) /\ ned2ecef64 L n d o = Some (GRet e')) /\
    forall i, within (fc i e') (val (fc i e)) (200 / 2 ^ 53 * span (vsub (real3 e) (real3 o)) + 2 / 2 ^ 53 * Rabs (val (fc i e)) + / 2 ^ 490).
Proof.
  intros UO Fe He. destruct (ned_at o e UO Fe He) as (M & d & r & RM & G & W & EM & Fr & R3 & R4 & R1). pose proof (usable_small o UO) as SO. pose proof (us_fin o UO) as Fo.
  set (v := vsub (real3 e) (real3 o)) in *. assert (Fd : fin3 d) by (intros i; apply (W i)). set (t := / 2 ^ 500) in *. assert (t0 : 0 < t) by (unfold t; apply Rinv_0_lt_compat, pow_lt; lra). assert (T4 : 10 * t <= / 2 ^ 490) by (unfold t; lra). assert (T5 : t <= 1) by (unfold t; lra).
  assert (U0 : 0 < u <= / 10 ^ 15) by num. assert (S0 : 0 <= span v) by (unfold span; pose proof (Rabs_pos (vx v)); pose proof (Rabs_pos (vy v)); pose proof (Rabs_pos (vz v)); lra).
  assert (VB : span v <= 6 * 10 ^ 9). { assert (B : forall i, Rabs (rc i v) <= 2 * 10 ^ 9). { intros j. assert (Q : rc j v = val (fc j e) - val (fc j o)) by (now destruct j). rewrite Q. specialize (He j). specialize (SO j). apply Rabs_le_inv in He, SO. apply Rabs_le. lra. } assert (B1 := B AX). assert (B2 := B AY). assert (B3 := B AZ). cbn [rc] in B1, B2, B3. unfold span. lra. }
  assert (UB : 0 <= u * span v <= 1) by (split; [apply Rmult_le_pos; lra|apply Rle_trans with (/ 10 ^ 15 * (6 * 10 ^ 9)); [apply Rmult_le_compat; lra|lra]]).
  set (dl := 33 * u * span v + t) in *.
  assert (MV : forall i, Rabs (rc i (mapply M v)) <= span v) by (intros i; rewrite rc_mapply; apply row_span; intros j; subst M; destruct i, j; cbn [rc r1 r2 r3 vx vy vz ecefvec2nedvec]; entry_1).
  assert (DB : forall i, Rabs (val (fc i d)) <= span v + dl). { intros i. destruct (W i) as [_ X]. replace (val (fc i d)) with (rc i (mapply M v) + (val (fc i d) - rc i (mapply M v))) by ring. eapply Rle_trans; [apply Rabs_triang|]. specialize (MV i). lra. }
  assert (SD : span (real3 d) <= 3 * (span v + dl)). { assert (B1 := DB AX). assert (B2 := DB AY). assert (B3 := DB AZ). cbn [fc] in B1, B2, B3. unfold span at 1. cbn [real3 vx vy vz]. lra. }
  destruct (ecef_app d o r Fd Fo ltac:(intros i; specialize (DB i); unfold dl in *; lra) SO Fr R3 R4) as (e' & G' & W'). exists d, e'. split.
  { intros n Hn. split; [now apply G|]. unfold ned2ecef64, after_lla64. rewrite R1 by exact Hn. now rewrite G'. }
  rewrite <- EM in W'. intros i. destruct (W' i) as [F X]. split; [exact F|].
  set (w := vadd (mapply (transposed M) (real3 d)) (real3 o)) in *.
  assert (WE : Rabs (rc i w - val (fc i e)) <= 3 * dl).
  { assert (Q : rc i w - val (fc i e) = rc i (mapply (transposed M) (vsub (real3 d) (mapply M v)))).
    { assert (LIN : mapply (transposed M) (vsub (real3 d) (mapply M v)) = vsub (mapply (transposed M) (real3 d)) (mapply (transposed M) (mapply M v))) by (generalize (transposed M) (mapply M v) (real3 d); clear; intros; veq).
      rewrite LIN, rot_inv by exact RM. unfold w. generalize (mapply (transposed M) (real3 d)). clear. intros [a b c]. unfold v. destruct i; cbn [rc vsub vadd real3 vx vy vz fc]; ring. }
    rewrite Q, rc_mapply. eapply Rle_trans; [apply row_span; intros j; subst M; destruct i, j; cbn [rc r1 r2 r3 vx vy vz ecefvec2nedvec transposed]; entry_1|].
    assert (B : forall j, Rabs (rc j (vsub (real3 d) (mapply M v))) <= dl) by (intros j; destruct (W j) as [_ Y]; now destruct j). assert (B1 := B AX). assert (B2 := B AY). assert (B3 := B AZ). cbn [rc] in B1, B2, B3. unfold span. lra. }
  assert (WA : Rabs (rc i w) <= Rabs (val (fc i e)) + 3 * dl) by (replace (rc i w) with (val (fc i e) + (rc i w - val (fc i e))) by ring; eapply Rle_trans; [apply Rabs_triang|]; lra).
  assert (UW : u * Rabs (rc i w) <= u * (Rabs (val (fc i e)) + 3 * dl)) by (apply Rmult_le_compat_l; lra). rewrite Rmult_plus_distr_l in UW.
  replace (val (fc i e') - val (fc i e)) with ((val (fc i e') - rc i w) + (rc i w - val (fc i e))) by ring. eapply Rle_trans; [apply Rabs_triang|].
  assert (US : u * span (real3 d) <= u * (3 * (span v + dl))) by (apply Rmult_le_compat_l; lra). rewrite !Rmult_plus_distr_l in US.
  assert (UDL : u * dl <= / 1000 * dl) by (apply Rmult_le_compat_r; [unfold dl; lra|lra]). assert (T9 : / 2 ^ 499 = 2 * t) by (unfold t; lra).
  replace (200 / 2 ^ 53) with (200 * u) by (rewrite u_val; field). replace (2 / 2 ^ 53) with (2 * u) by (rewrite u_val; field). assert (UA : 0 <= u * Rabs (val (fc i e))) by (apply Rmult_le_pos; [lra|apply Rabs_pos]).
  unfold dl in *. rewrite T9 in X. lra.
Qed.
(** the axes point north, east and down *)
Lemma deg2rad_diff x y b : Rabs (x - y) <= b -> Rabs (deg2rad x - deg2rad y) <= b / 57.
Proof.
  intros H. pose proof pi_digits as PD. replace (deg2rad x - deg2rad y) with (PI / 180 * (x - y)) by (unfold deg2rad; field). rewrite Rabs_mult, Rabs_pos_eq by lra. pose proof (Rabs_pos (x - y)). apply Rle_trans with (/ 57 * b); [apply Rmult_le_compat; lra|lra].
Qed.
Lemma prod_diff a b a' b' x y : Rabs a <= 1 -> Rabs b' <= 1 -> Rabs (a - a') <= x -> Rabs (b - b') <= y -> Rabs (a * b - a' * b') <= x + y.
Proof.
  intros A B X Y. replace (a * b - a' * b') with (a * (b - b') + (a - a') * b') by ring. eapply Rle_trans; [apply Rabs_triang|]. rewrite !Rabs_mult. rewrite (Rplus_comm x). apply Rplus_le_compat.
  - replace y with (1 * y) by ring. apply Rmult_le_compat; auto using Rabs_pos.
  - replace x with (x * 1) by ring. apply Rmult_le_compat; auto using Rabs_pos.
Qed.
Lemma row_diff r q v t : (forall j, Rabs (rc j r - rc j q) <= t) -> Rabs (vdot r v - vdot q v) <= t * span v.
Proof.
  intros H. assert (H1 := H AX). assert (H2 := H AY). assert (H3 := H AZ). cbn [rc] in H1, H2, H3. unfold vdot, span.
  replace (vx r * vx v + vy r * vy v + vz r * vz v - (vx q * vx v + vy q * vy v + vz q * vz v)) with ((vx r - vx q) * vx v + (vy r - vy q) * vy v + (vz r - vz q) * vz v) by ring.
  rewrite !Rmult_plus_distr_l. eapply Rle_trans; [apply Rabs_triang|]. apply Rplus_le_compat; [eapply Rle_trans; [apply Rabs_triang|apply Rplus_le_compat]|]; rewrite Rabs_mult; apply Rmult_le_compat; auto using Rabs_pos, Rle_refl.
Qed.
Lemma rows_near l o l' o' x y i : Rabs (l - l') <= x -> Rabs (o - o') <= y -> forall j,
  Rabs (rc j (match i with AX => r1 (ecefvec2nedvec l o) | AY => r2 (ecefvec2nedvec l o) | AZ => r3 (ecefvec2nedvec l o) end) - rc j (match i with AX => r1 (ecefvec2nedvec l' o') | AY => r2 (ecefvec2nedvec l' o') | AZ => r3 (ecefvec2nedvec l' o') end)) <= (match i with AY => 0 | _ => x end) + y.
Proof.
  intros X Y j. pose proof (sin_lipschitz l l') as S1. pose proof (cos_lipschitz l l') as S2. pose proof (sin_lipschitz o o') as S3. pose proof (cos_lipschitz o o') as S4. pose proof (Rabs_pos (l - l')). pose proof (Rabs_pos (o - o')).
  pose proof (sin_1 l). pose proof (cos_1' l). pose proof (sin_1 o'). pose proof (cos_1' o').
  assert (NG : forall p q t, Rabs (p - q) <= t -> Rabs (- p - - q) <= t) by (intros p q t Q; replace (- p - - q) with (- (p - q)) by ring; now rewrite Rabs_Ropp).
  destruct i, j; cbn [rc r1 r2 r3 vx vy vz ecefvec2nedvec]; try rewrite Rplus_0_l;
    first [ rewrite Rminus_diag_eq by reflexivity; rewrite Rabs_R0; lra
          | apply prod_diff; [rewrite Rabs_Ropp; assumption|assumption|apply NG; lra|lra]
          | apply NG; lra
          | lra ].
Qed.
Theorem C73_directions o e lat lon alt K : fin3 o -> -90 < lat < 90 -> -180 < lon < 180 -> Rabs alt <= 150000 -> lla2ecef (V lat lon alt) = Ret (real3 o) -> 1 <= K <= 10 ^ 6 -> dist o <= K * axis o ->
  fin3 e -> (forall i, Rabs (val (fc i e)) <= 10 ^ 9) ->
  let v := vsub (real3 e) (real3 o) in let U := up (deg2rad lat) (deg2rad lon) in let Ea := east (deg2rad lon) in let North := vcross U Ea in
  exists d, (forall n, (6 <= n)%nat -> ecef2ned64 L n e o = Some (GRet d)) /\
    within (fy d) (vdot Ea v) (60 / 2 ^ 53 * span v + / 2 ^ 490) /\
    (let T := 115 / 10 ^ 7 * span v + / 2 ^ 490 in within (fx d) (vdot North v) T /\ within (fz d) (- vdot U v) T) /\
    (forall i, ecef2lla64 L i o f_nano = None -> let T := (46 / 100000 * (/ 40) ^ i + (K / 4 + 100) / 2 ^ 53) * span v + / 2 ^ 490 in within (fx d) (vdot North v) T /\ within (fz d) (- vdot U v) T).
Proof.
  intros F Hl Hm Hs Eq HK HD Fe He v U Ea North. assert (Hh : -3000000 <= alt <= 53000000) by (apply Rabs_le_inv in Hs; lra).
  assert (UO : usable o) by (constructor; [exact F|exists lat, lon, alt, K; repeat (split; [assumption || lra|]); assumption]). pose proof (usable_small o UO) as SO.
  destruct (C71_near_surface L AM o lat lon alt K F Hl Hm Hs Eq HK HD) as (r & R1 & R2 & R3 & R4 & R5 & R6).
  assert (P53 : 2 ^ 53 = 9007199254740992) by ring.
  assert (L1 : Rabs (val (fx r)) <= 116) by (apply Rabs_le_inv in R4; apply Rabs_le; lra). assert (L2 : Rabs (val (fy r)) <= 181) by (rewrite P53 in R3; apply Rabs_le_inv in R3; apply Rabs_le; lra).
  destruct (ned_app e o r Fe F He SO R2 L1 L2) as (d & G & W). exists d. split; [intros n Hn; unfold ecef2ned64, after_lla64; rewrite R1 by exact Hn; now rewrite G|].
  fold v in W. destruct (C46_matrix (deg2rad lat) (deg2rad lon)) as (_ & M3 & M2 & M1). fold U in M3, M1. fold Ea in M2, M1. fold North in M1.
  pose proof (deg2rad_diff _ _ _ R3) as D3. assert (S0 : 0 <= span v) by (unfold span; pose proof (Rabs_pos (vx v)); pose proof (Rabs_pos (vy v)); pose proof (Rabs_pos (vz v)); lra).
  assert (T4 : / 2 ^ 500 <= / 2 ^ 490) by lra. assert (UV := u_val).
  assert (STEP : forall i x T, Rabs (deg2rad (val (fx r)) - deg2rad lat) <= x -> (match i with AY => 0 | _ => x end) + 1000 / 2 ^ 53 / 57 + 33 * u <= T ->
    within (fc i d) (vdot (match i with AX => r1 (ecefvec2nedvec (deg2rad lat) (deg2rad lon)) | AY => r2 (ecefvec2nedvec (deg2rad lat) (deg2rad lon)) | AZ => r3 (ecefvec2nedvec (deg2rad lat) (deg2rad lon)) end) v) (T * span v + / 2 ^ 490)).
  { intros i x T X HT. destruct (W i) as [FF Y]. split; [exact FF|]. rewrite rc_mapply in Y. pose proof (row_diff _ _ v _ (rows_near _ _ _ _ _ _ i X D3)) as Z.
    match type of Y with Rabs (?a - ?b) <= _ => match type of Z with Rabs (_ - ?c) <= _ => replace (a - c) with ((a - b) + (b - c)) by ring end end. eapply Rle_trans; [apply Rabs_triang|].
    assert (TS : ((match i with AY => 0 | _ => x end) + 1000 / 2 ^ 53 / 57 + 33 * u) * span v <= T * span v) by (apply Rmult_le_compat_r; assumption). lra. }
  assert (NEG : vdot (vscale (-1) U) v = - vdot U v) by (unfold vdot, vscale; cbn [vx vy vz]; ring).
  split; [|split].
  - rewrite <- M2. apply (STEP AY (Rabs (deg2rad (val (fx r)) - deg2rad lat)) (60 / 2 ^ 53)); [apply Rle_refl|]. rewrite UV, P53. lra.
  - pose proof (deg2rad_diff _ _ _ R4) as D4. split; [rewrite <- M1; apply (STEP AX _ _ D4)|rewrite <- NEG, <- M3; apply (STEP AZ _ _ D4)]; rewrite UV, P53; lra.
  - intros i Hi. destruct (R6 i Hi) as [D _]. apply deg2rad_diff in D. set (t := (/ 40) ^ i) in *. assert (t0 : 0 < t) by (apply pow_lt; lra). rewrite P53 in *. split; [rewrite <- M1; apply (STEP AX _ _ D)|rewrite <- NEG, <- M3; apply (STEP AZ _ _ D)]; rewrite UV; lra.
Qed.
End Machine.

(** ** Case: the origin of C71, and the position 1000 km further out along x *)
Definition case_p : fvec := FV (b64_of_bits 4707126720094797824) (b64_of_bits 4703696862291427328) (b64_of_bits 4705844345939427328).
Example C73_case : accurate_math ideal_math /\ usable case_e /\ fin3 case_p /\ (forall i, Rabs (val (fc i case_p)) <= 10 ^ 9) /\ real3 case_p = vadd (real3 case_e) (V 1000000 0 0).
Proof.
  destruct C71_case as (A & F & (lat & lon & alt & Hl & Hm & Ha & Eq) & HD & _). split; [exact A|]. split.
  { constructor; [exact F|]. exists lat, lon, alt, 2. apply Rabs_le_inv in Ha. repeat (split; [assumption || lra|]). exact HD. }
  assert (VP : val (fx case_p) = 5000000 /\ val (fy case_p) = 3000000 /\ val (fz case_p) = 4000000) by (cbn [case_p fx fy fz]; repeat split; value_of_bits; lra).
  destruct VP as (X & Y & Z). destruct case_e_val as (X' & Y' & Z'). split; [now intros []|]. split; [intros []; cbn [fc]; rewrite ?X, ?Y, ?Z, Rabs_pos_eq; lra|].
  unfold real3, vadd. rewrite X, Y, Z, X', Y', Z'. cbn [vx vy vz]. f_equal; lra.
Qed.

Definition all_PropNed64 := (C73_distance, C73_round_trip, C73_directions).
Print Assumptions all_PropNed64.
