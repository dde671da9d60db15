(** Rounding errors of the rotations in the attitude conversions, and of the angles of a frame *)
From Coq Require Import Reals ZArith Lra Lia List.
From Flocq Require Import Core Binary Bits.
From Verif Require Import Real3 RangeCoordinates PropGeo PropAtt Conv PropConv Float64 DeadReckoning64 Range64 FloatErr PropDR64 PropDR64b FloatAbs PropRange64 RangeErr Attitude64.
Import ListNotations.
Local Open Scope R_scope.

(** v is V but for d in each component *)
Definition vap (v : fvec) (W : vec) (d : R) : Prop := forall i, ap (fc i v) (rc i W) d.
Definition unit3 (v : vec) : Prop := vx v * vx v + vy v * vy v + vz v * vz v = 1.

Lemma unit_rc v i : unit3 v -> Rabs (rc i v) <= 1.
Proof.
  intros U. unfold unit3 in U. assert (S : forall x, 0 <= x * x) by (intros; nra). pose proof (S (vx v)). pose proof (S (vy v)). pose proof (S (vz v)). assert (K : forall x, x * x <= 1 -> Rabs x <= 1) by (intros x Hx; apply Rabs_le; nra). destruct i; apply K; cbn [rc]; lra.
Qed.
Lemma row3 r e1 e2 e3 d : unit3 r -> Rabs e1 <= d -> Rabs e2 <= d -> Rabs e3 <= d -> Rabs (vx r * e1 + vy r * e2 + vz r * e3) <= 17321 / 10000 * d.
Proof.
  intros U H1 H2 H3. assert (d0 : 0 <= d) by (pose proof (Rabs_pos e1); lra). unfold unit3 in U.
  apply Rle_trans with ((Rabs (vx r) + Rabs (vy r) + Rabs (vz r)) * d).
  - eapply Rle_trans; [apply Rabs_triang|]. eapply Rle_trans; [apply Rplus_le_compat_r, Rabs_triang|]. rewrite !Rabs_mult, !Rmult_plus_distr_r. pose proof (Rabs_pos (vx r)). pose proof (Rabs_pos (vy r)). pose proof (Rabs_pos (vz r)).
    repeat apply Rplus_le_compat; apply Rmult_le_compat_l; assumption.
  - apply Rmult_le_compat_r; [exact d0|]. assert (SQ : forall x, x * x = Rabs x * Rabs x) by (intros x; rewrite <- Rabs_mult, Rabs_pos_eq by nra; reflexivity). rewrite (SQ (vx r)), (SQ (vy r)), (SQ (vz r)) in U.
    set (a := Rabs (vx r)) in *. set (b := Rabs (vy r)) in *. set (c := Rabs (vz r)) in *. assert (0 <= a /\ 0 <= b /\ 0 <= c) by (unfold a, b, c; repeat split; apply Rabs_pos). pose proof (pow2_ge_0 (a - b)). pose proof (pow2_ge_0 (a - c)). pose proof (pow2_ge_0 (b - c)). nra.
Qed.
(** in particular the sum of the absolute values *)
Lemma row3_abs r : unit3 r -> Rabs (vx r) + Rabs (vy r) + Rabs (vz r) <= 17321 / 10000.
Proof.
  intros U. pose proof (row3 r (if Rle_dec 0 (vx r) then 1 else -1) (if Rle_dec 0 (vy r) then 1 else -1) (if Rle_dec 0 (vz r) then 1 else -1) 1 U) as K.
  assert (S : forall x, Rabs (if Rle_dec 0 x then 1 else -1) <= 1) by (intros x; destruct (Rle_dec 0 x); apply Rabs_le; lra). specialize (K (S _) (S _) (S _)).
  assert (M : forall x, x * (if Rle_dec 0 x then 1 else -1) = Rabs x) by (intros x; destruct (Rle_dec 0 x); [rewrite Rabs_pos_eq|rewrite Rabs_left]; lra). rewrite !M in K. rewrite Rabs_pos_eq in K; [lra|]. pose proof (Rabs_pos (vx r)). pose proof (Rabs_pos (vy r)). pose proof (Rabs_pos (vz r)). lra.
Qed.

(** ** Sums of three products *)
Lemma dot_ap r s R S dr ds x : sum_of (pairs r s) x -> vap r R dr -> vap s S ds -> unit3 R -> unit3 S -> dr <= / 1000 -> ds <= / 1000 ->
  ap x (vdot R S) (17321 / 10000 * (dr + ds) + 3 * (dr * ds) + 4 * u).
Proof.
  intros SO HR HS UR US Hr Hs. assert (R0 := ap_pos _ _ _ (HR AX)). assert (S0 := ap_pos _ _ _ (HS AX)).
  assert (DD : 0 <= dr * ds) by (apply Rmult_le_pos; lra). assert (DD1 : dr * ds <= / 1000 * / 1000) by (apply Rmult_le_compat; lra).
  assert (PR : forall j, Rabs (val (fc j r) * val (fc j s)) <= Rabs (rc j R) * Rabs (rc j S) + dr * Rabs (rc j S) + ds * Rabs (rc j R) + dr * ds).
  { intros j. rewrite Rabs_mult. pose proof (ap_abs _ _ _ _ (HR j) (Rle_refl _)) as A. pose proof (ap_abs _ _ _ _ (HS j) (Rle_refl _)) as B.
    apply Rle_trans with ((Rabs (rc j R) + dr) * (Rabs (rc j S) + ds)); [apply Rmult_le_compat; auto using Rabs_pos|]. lra. }
  assert (PX := PR AX). assert (PY := PR AY). assert (PZ := PR AZ). cbn [fc rc] in PX, PY, PZ. clear PR.
  assert (SR := row3_abs _ UR). assert (SS := row3_abs _ US).
  assert (SP : Rabs (vx R) * Rabs (vx S) + Rabs (vy R) * Rabs (vy S) + Rabs (vz R) * Rabs (vz S) <= 1).
  { unfold unit3 in UR, US. assert (SQ : forall x, x * x = Rabs x * Rabs x) by (intros y; rewrite <- Rabs_mult, Rabs_pos_eq by nra; reflexivity). rewrite (SQ (vx R)), (SQ (vy R)), (SQ (vz R)) in UR. rewrite (SQ (vx S)), (SQ (vy S)), (SQ (vz S)) in US.
    pose proof (pow2_ge_0 (Rabs (vx R) - Rabs (vx S))). pose proof (pow2_ge_0 (Rabs (vy R) - Rabs (vy S))). pose proof (pow2_ge_0 (Rabs (vz R) - Rabs (vz S))). nra. }
  assert (S1 : dr * Rabs (vx S) + dr * Rabs (vy S) + dr * Rabs (vz S) <= / 1000 * (17321 / 10000)).
  { rewrite <- !Rmult_plus_distr_l. apply Rmult_le_compat; try lra. pose proof (Rabs_pos (vx S)). pose proof (Rabs_pos (vy S)). pose proof (Rabs_pos (vz S)). lra. }
  assert (S2 : ds * Rabs (vx R) + ds * Rabs (vy R) + ds * Rabs (vz R) <= / 1000 * (17321 / 10000)).
  { rewrite <- !Rmult_plus_distr_l. apply Rmult_le_compat; try lra. pose proof (Rabs_pos (vx R)). pose proof (Rabs_pos (vy R)). pose proof (Rabs_pos (vz R)). lra. }
  assert (AS : abs_sum (pairs r s) = Rabs (val (fx r) * val (fx s)) + (Rabs (val (fy r) * val (fy s)) + (Rabs (val (fz r) * val (fz s)) + 0))) by reflexivity.
  assert (ES : exact_sum (pairs r s) = val (fx r) * val (fx s) + (val (fy r) * val (fy s) + (val (fz r) * val (fz s) + 0))) by reflexivity.
  assert (A1 : abs_sum (pairs r s) <= 101 / 100) by (rewrite AS; lra).
  destruct (sum_of_app _ _ SO) as [_ X].
  { unfold pairs. repeat constructor; cbn [fst snd]; (match goal with |- fin (?f ?v) => first [exact (proj1 (HR AX))|exact (proj1 (HR AY))|exact (proj1 (HR AZ))|exact (proj1 (HS AX))|exact (proj1 (HS AY))|exact (proj1 (HS AZ))] end). }
  { cbn. lra. } { pose proof huge_200. lra. }
  replace (INR (length (pairs r s)) * (9 / 8)) with (27 / 8) in X by (cbn; field). replace (csum (length (pairs r s))) with (24 * eta) in X by (unfold csum; cbn; ring).
  destruct X as (F & _ & _ & _ & X). split; [exact F|].
  destruct (HR AX) as [_ r1]. destruct (HR AY) as [_ r2]. destruct (HR AZ) as [_ r3]. destruct (HS AX) as [_ s1]. destruct (HS AY) as [_ s2]. destruct (HS AZ) as [_ s3]. cbn [fc rc] in r1, r2, r3, s1, s2, s3.
  set (e1 := val (fx r) - vx R) in *. set (e2 := val (fy r) - vy R) in *. set (e3 := val (fz r) - vz R) in *. set (g1 := val (fx s) - vx S) in *. set (g2 := val (fy s) - vy S) in *. set (g3 := val (fz s) - vz S) in *.
  pose proof (row3 S e1 e2 e3 dr US r1 r2 r3) as K1. pose proof (row3 R g1 g2 g3 ds UR s1 s2 s3) as K2.
  assert (K3 : Rabs (e1 * g1 + e2 * g2 + e3 * g3) <= 3 * (dr * ds)).
  { eapply Rle_trans; [apply Rabs_triang|]. eapply Rle_trans; [apply Rplus_le_compat_r, Rabs_triang|]. rewrite !Rabs_mult. assert (Rabs e1 * Rabs g1 <= dr * ds) by (apply Rmult_le_compat; auto using Rabs_pos). assert (Rabs e2 * Rabs g2 <= dr * ds) by (apply Rmult_le_compat; auto using Rabs_pos). assert (Rabs e3 * Rabs g3 <= dr * ds) by (apply Rmult_le_compat; auto using Rabs_pos). lra. }
  assert (EQ : exact_sum (pairs r s) - vdot R S = (vx S * e1 + vy S * e2 + vz S * e3) + (vx R * g1 + vy R * g2 + vz R * g3) + (e1 * g1 + e2 * g2 + e3 * g3)).
  { rewrite ES. unfold vdot, e1, e2, e3, g1, g2, g3. ring. }
  replace (val x - vdot R S) with ((val x - exact_sum (pairs r s)) + (exact_sum (pairs r s) - vdot R S)) by ring. eapply Rle_trans; [apply Rabs_triang|].
  assert (UA : u * abs_sum (pairs r s) <= u * (101 / 100)) by (apply Rmult_le_compat_l; [num|exact A1]).
  assert (KS : Rabs (exact_sum (pairs r s) - vdot R S) <= 17321 / 10000 * (dr + ds) + 3 * (dr * ds)).
  { rewrite EQ. eapply Rle_trans; [apply Rabs_triang|]. eapply Rle_trans; [apply Rplus_le_compat_r, Rabs_triang|]. lra. }
  pose proof eta_u100. num.
Qed.

Section Machine.
Variable T : attlib.
Hypothesis AT : accurate_att T.
Notation L := (t_math T).
Let AM : accurate_math L := at_math T AT.

(** ** Rotation matrices *)
Definition good_neg (neg : f64 -> f64) : Prop := forall x X d, ap x X d -> Rabs X <= 1 -> d <= / 1000 -> ap (neg x) (- X) (d + 101 / 100 * u).
Lemma fneg_good : good_neg fneg. Proof. intros x X d A _ _. apply (ap_weak _ _ d); [now apply ap_neg|num]. Qed.
Lemma zero_ap : ap f_zero 0 0. Proof. exact (ap_exact f_zero eq_refl). Qed.
Lemma ineg_good : good_neg ineg.
Proof.
  intros x X d A HX Hd. assert (d0 := ap_pos _ _ _ A). replace (- X) with (0 - X) by ring. apply (ap_sub _ _ _ _ 0 d 1); [exact zero_ap|exact A|unfold Rminus; rewrite Rplus_0_l, Rabs_Ropp; exact HX|num|num].
Qed.

Definition rows_ap (m : fmat) (M : mat) (d : R) : Prop := vap (f1 m) (r1 M) d /\ vap (f2 m) (r2 M) d /\ vap (f3 m) (r3 M) d.

Lemma entry_diag c s k n C S d N : ap c C (21 / 10 * u) -> ap s S (21 / 10 * u) -> ap k (1 - C) (43 / 10 * u) -> ap n N d -> Rabs C <= 1 -> Rabs S <= 1 -> Rabs N <= 1 -> d <= / 1000 ->
  Rabs ((1 - C) * (N * N) + C) <= 1 ->
  ap (fadd (fadd (fmul k (fmul n n)) (fmul c f_1)) (fmul s f_zero)) ((1 - C) * (N * N) + C * 1 + S * 0) (51 / 10 * d + 16 * u).
Proof.
  intros Ac As Ak An HC HS HN Hd HE. assert (d0 := ap_pos _ _ _ An). assert (DD : 0 <= d * d <= / 1000 * d) by (split; [apply Rmult_le_pos; lra|apply Rmult_le_compat_r; lra]).
  assert (NN : Rabs (N * N) <= 1) by (rewrite Rabs_mult; replace 1 with (1 * 1) by ring; apply Rmult_le_compat; auto using Rabs_pos).
  assert (A1 : ap (fmul n n) (N * N) (2002 / 1000 * d + 102 / 100 * u)) by (apply (ap_mul n n N N d d 1 1 (2001 / 1000 * d)); auto; num).
  assert (HK : Rabs (1 - C) <= 2) by (apply Rabs_le_inv in HC; apply Rabs_le; lra).
  assert (A2 : ap (fmul k (fmul n n)) ((1 - C) * (N * N)) (402 / 100 * d + 88 / 10 * u)) by (apply (ap_mul _ _ _ _ (43 / 10 * u) (2002 / 1000 * d + 102 / 100 * u) 2 1 (4011 / 1000 * d + 65 / 10 * u)); auto; num).
  assert (A3 : ap (fmul c f_1) (C * 1) (32 / 10 * u)) by (apply (ap_mul _ _ _ _ (21 / 10 * u) 0 1 1 (21 / 10 * u)); auto; [exact one_ap|rewrite Rabs_R1; lra|num|num|num]).
  assert (A4 : ap (fmul s f_zero) (S * 0) (/ 100 * u)) by (apply (ap_mul _ _ _ _ (21 / 10 * u) 0 1 0 0); auto; [exact zero_ap|rewrite Rabs_R0; lra|num|num|num]).
  assert (A5 : ap (fadd (fmul k (fmul n n)) (fmul c f_1)) ((1 - C) * (N * N) + C * 1) (403 / 100 * d + 131 / 10 * u)) by (apply (ap_add _ _ _ _ (402 / 100 * d + 88 / 10 * u) (32 / 10 * u) 1); auto; [rewrite Rmult_1_r; exact HE|num|num]).
  apply (ap_add _ _ _ _ (403 / 100 * d + 131 / 10 * u) (/ 100 * u) 1); auto; [rewrite Rmult_0_r, Rplus_0_r, Rmult_1_r; exact HE|num|num].
Qed.
Lemma entry_off c s k n1 n2 n3 C S d N1 N2 N3 : ap c C (21 / 10 * u) -> ap s S (21 / 10 * u) -> ap k (1 - C) (43 / 10 * u) -> ap n1 N1 d -> ap n2 N2 d -> ap n3 N3 (d + 101 / 100 * u) ->
  Rabs C <= 1 -> Rabs S <= 1 -> Rabs N1 <= 1 -> Rabs N2 <= 1 -> Rabs N3 <= 1 -> d <= / 1000 -> Rabs ((1 - C) * (N1 * N2) + S * N3) <= 1 ->
  ap (fadd (fadd (fmul k (fmul n1 n2)) (fmul c f_zero)) (fmul s n3)) ((1 - C) * (N2 * N1) + C * 0 + S * N3) (51 / 10 * d + 17 * u).
Proof.
  rewrite (Rmult_comm N2). intros Ac As Ak A1 A2 A3 HC HS H1 H2 H3 Hd HE. assert (d0 := ap_pos _ _ _ A1). assert (DD : 0 <= d * d <= / 1000 * d) by (split; [apply Rmult_le_pos; lra|apply Rmult_le_compat_r; lra]).
  assert (NN : Rabs (N1 * N2) <= 1) by (rewrite Rabs_mult; replace 1 with (1 * 1) by ring; apply Rmult_le_compat; auto using Rabs_pos).
  assert (B1 : ap (fmul n1 n2) (N1 * N2) (2002 / 1000 * d + 102 / 100 * u)) by (apply (ap_mul n1 n2 N1 N2 d d 1 1 (2001 / 1000 * d)); auto; num).
  assert (HK : Rabs (1 - C) <= 2) by (apply Rabs_le_inv in HC; apply Rabs_le; lra).
  assert (B2 : ap (fmul k (fmul n1 n2)) ((1 - C) * (N1 * N2)) (402 / 100 * d + 88 / 10 * u)) by (apply (ap_mul _ _ _ _ (43 / 10 * u) (2002 / 1000 * d + 102 / 100 * u) 2 1 (4011 / 1000 * d + 65 / 10 * u)); auto; num).
  assert (B3 : ap (fmul c f_zero) (C * 0) (/ 100 * u)) by (apply (ap_mul _ _ _ _ (21 / 10 * u) 0 1 0 0); auto; [exact zero_ap|rewrite Rabs_R0; lra|num|num|num]).
  assert (B4 : ap (fmul s n3) (S * N3) (1002 / 1000 * d + 42 / 10 * u)) by (apply (ap_mul _ _ _ _ (21 / 10 * u) (d + 101 / 100 * u) 1 1 (1001 / 1000 * d + 312 / 100 * u)); auto; num).
  assert (M2 : Rabs ((1 - C) * (N1 * N2)) <= 2) by (rewrite Rabs_mult; replace 2 with (2 * 1) by ring; apply Rmult_le_compat; auto using Rabs_pos).
  assert (B5 : ap (fadd (fmul k (fmul n1 n2)) (fmul c f_zero)) ((1 - C) * (N1 * N2) + C * 0) (403 / 100 * d + 109 / 10 * u)) by (apply (ap_add _ _ _ _ (402 / 100 * d + 88 / 10 * u) (/ 100 * u) 2); auto; [rewrite Rmult_0_r, Rplus_0_r; exact M2|num|num]).
  apply (ap_add _ _ _ _ (403 / 100 * d + 109 / 10 * u) (1002 / 1000 * d + 42 / 10 * u) 1); auto; [rewrite Rmult_0_r, Rplus_0_r; exact HE|num|num].
Qed.

Lemma rotation_unit M : rotation M -> unit3 (r1 M) /\ unit3 (r2 M) /\ unit3 (r3 M).
Proof. intros (H & _ & _). unfold unit3. vecs. injection H as H1 H2 H3 H4 H5 H6 H7 H8 H9. repeat split; assumption. Qed.

Lemma rotate_ap neg theta n N d : good_neg neg -> fin theta -> vap n N d -> unit3 N -> d <= / 1000 ->
  exists m, rotate64 T neg theta n = GRet m /\ rows_ap m (rotate_3x3 (val theta) N) (51 / 10 * d + 17 * u).
Proof.
  intros HG Ft Hn UN Hd. destruct (gcos_ap L AM theta (val theta) 0 (21 / 10 * u) (ap_exact _ Ft) ltac:(num)) as [G1 A1]. destruct (gsin_ap L AM theta (val theta) 0 (21 / 10 * u) (ap_exact _ Ft) ltac:(num)) as [G2 A2].
  unfold rotate64. cbv zeta. rewrite G1. cbn [gbind]. rewrite G2. cbn [gbind]. eexists. split; [reflexivity|].
  set (c := l_cos _ _) in *. set (s := l_sin _ _) in *. pose proof (COS_bound (val theta)) as CB. pose proof (SIN_bound (val theta)) as SB. set (C := cos (val theta)) in A1, CB. set (Si := sin (val theta)) in A2, SB.
  assert (HC : Rabs C <= 1) by (apply Rabs_le; lra). assert (HS : Rabs Si <= 1) by (apply Rabs_le; lra).
  assert (Ak : ap (fsub f_1 c) (1 - C) (43 / 10 * u)) by (apply (ap_sub _ _ _ _ 0 (21 / 10 * u) 2); [exact one_ap|exact A1|apply Rabs_le; lra|num|num]).
  assert (RO : rotation (rotate_3x3 (val theta) N)) by (apply (proj1 (C47_rotation (val theta) N UN))). destruct (rotation_unit _ RO) as (U1 & U2 & U3).
  assert (E1 := fun i => unit_rc _ i U1). assert (E2 := fun i => unit_rc _ i U2). assert (E3 := fun i => unit_rc _ i U3).
  assert (NX := unit_rc N AX UN). assert (NY := unit_rc N AY UN). assert (NZ := unit_rc N AZ UN). cbn [rc] in NX, NY, NZ.
  assert (nx := Hn AX). assert (ny := Hn AY). assert (nz := Hn AZ). cbn [fc rc] in nx, ny, nz. assert (d0 := ap_pos _ _ _ nx).
  assert (nx' := ap_weak _ _ _ (d + 101 / 100 * u) nx ltac:(num)). assert (ny' := ap_weak _ _ _ (d + 101 / 100 * u) ny ltac:(num)). assert (nz' := ap_weak _ _ _ (d + 101 / 100 * u) nz ltac:(num)).
  assert (mx := HG _ _ _ nx NX Hd). assert (my := HG _ _ _ ny NY Hd). assert (mz := HG _ _ _ nz NZ Hd).
  assert (K : 51 / 10 * d + 16 * u <= 51 / 10 * d + 17 * u) by num.
  split; [|split]; intros i; [specialize (E1 i)|specialize (E2 i)|specialize (E3 i)]; destruct i; cbn [rc] in *; unfold rotate_3x3 in *; cbn [mmap1 mmap2 fmap1 fmap2 identity64 ex64 ey64 ez64 f1 f2 f3 fx fy fz fc r1 r2 r3 rc vx vy vz madd mscale vadd vscale ident] in *; fold C Si in E1, E2, E3 |- *;
    (match goal with
     | |- ap _ (_ * _ + _ * 1 + _ * 0) _ => apply (ap_weak _ _ (51 / 10 * d + 16 * u)); [apply entry_diag; try assumption; match goal with H : Rabs ?x <= 1 |- Rabs ?y <= 1 => replace y with x by ring; exact H end|exact K]
     | |- _ => apply entry_off; try assumption; rewrite ?Rabs_Ropp; try assumption; match goal with H : Rabs ?x <= 1 |- Rabs ?y <= 1 => replace y with x by ring; exact H end
     end).
Qed.

(** ** Turning a frame *)
Lemma unit_apply M v : rotation M -> unit3 v -> unit3 (mapply M v).
Proof. intros HM Hv. change (vdot (mapply M v) (mapply M v) = 1). rewrite rot_dot by exact HM. exact Hv. Qed.
Lemma matvec_ap m M v W dm dv d : rows_ap m M dm -> rotation M -> vap v W dv -> unit3 W -> dm <= / 1000 -> dv <= / 1000 -> 17321 / 10000 * (dm + dv) + 3 * (dm * dv) + 4 * u <= d -> vap (l_matvec (g_base L) m v) (mapply M W) d.
Proof.
  intros (H1 & H2 & H3) HM Hv UW Hm Hd HD i. destruct (rotation_unit M HM) as (U1 & U2 & U3). pose proof (pairs_row (g_base L) m v i (am_base L AM)) as SO. apply (ap_weak _ _ (17321 / 10000 * (dm + dv) + 3 * (dm * dv) + 4 * u)); [|exact HD].
  destruct i; cbn [rc mapply vx vy vz] in *; eapply dot_ap; eassumption.
Qed.
Lemma ex_unit M : rotation M -> unit3 (mapply M ex) /\ unit3 (mapply M ey) /\ unit3 (mapply M ez).
Proof. intros H. repeat split; apply unit_apply; try exact H; unfold unit3, ex, ey, ez; cbn [vx vy vz]; ring. Qed.

Lemma rotate_matvec neg theta n N v W dn dv d : good_neg neg -> fin theta -> vap n N dn -> unit3 N -> vap v W dv -> unit3 W -> dn <= / 10000 -> dv <= / 1000 ->
  17321 / 10000 * (51 / 10 * dn + 17 * u + dv) + 3 * ((51 / 10 * dn + 17 * u) * dv) + 4 * u <= d ->
  exists m, rotate64 T neg theta n = GRet m /\ vap (l_matvec (g_base L) m v) (mapply (rotate_3x3 (val theta) N) W) d.
Proof.
  intros HG Ft Hn UN Hv UW H1 H2 HD. destruct (rotate_ap neg theta n N dn HG Ft Hn UN ltac:(lra)) as (m & E & A). exists m. split; [exact E|]. apply (matvec_ap m _ v W _ dv d A (proj1 (C47_rotation _ _ UN)) Hv UW); [num|exact H2|exact HD].
Qed.

Lemma turn_frame_ap neg x0 y0 z0 m a b c : good_neg neg -> rotation m -> vap x0 (mapply m ex) (6 * u) -> vap y0 (mapply m ey) (6 * u) -> vap z0 (mapply m ez) (6 * u) -> fin a -> fin b -> fin c ->
  exists x3 y3 z3, turn_frame64 T neg x0 y0 z0 a b c = GRet (x3, y3, z3) /\
    vap x3 (mapply (mmul m (euler (val a) (val b) (val c))) ex) (11400 * u) /\ vap y3 (mapply (mmul m (euler (val a) (val b) (val c))) ey) (11400 * u).
Proof.
  intros HG Hm X0 Y0 Z0 Fa Fb Fc. destruct (ex_unit m Hm) as (UX & UY & UZ). assert (UP : 0 < u) by num.
  destruct (rotate_ap neg a z0 (mapply m ez) (6 * u) HG Fa Z0 UZ ltac:(num)) as (m1 & E1 & A1). set (M1 := rotate_3x3 (val a) (mapply m ez)) in *. assert (R1 : rotation M1) by (apply (proj1 (C47_rotation (val a) _ UZ))).
  assert (B1 : rows_ap m1 M1 (48 * u)) by (destruct A1 as (Q1 & Q2 & Q3); repeat split; intros; match goal with H : vap ?f _ _ |- _ (fc ?i ?f) => idtac | _ => idtac end; first [apply (ap_weak _ _ _ (48 * u) (Q1 _) ltac:(num))|apply (ap_weak _ _ _ (48 * u) (Q2 _) ltac:(num))|apply (ap_weak _ _ _ (48 * u) (Q3 _) ltac:(num))]).
  assert (X1 := matvec_ap m1 M1 x0 _ (48 * u) (6 * u) (98 * u) B1 R1 X0 UX ltac:(num) ltac:(num) ltac:(num)). assert (Y1 := matvec_ap m1 M1 y0 _ (48 * u) (6 * u) (98 * u) B1 R1 Y0 UY ltac:(num) ltac:(num) ltac:(num)).
  set (x1 := l_matvec (g_base L) m1 x0) in *. set (y1 := l_matvec (g_base L) m1 y0) in *. set (WX1 := mapply M1 (mapply m ex)) in *. set (WY1 := mapply M1 (mapply m ey)) in *.
  assert (UX1 : unit3 WX1) by now apply unit_apply. assert (UY1 : unit3 WY1) by now apply unit_apply.
  destruct (rotate_ap fneg b y1 WY1 (98 * u) fneg_good Fb Y1 UY1 ltac:(num)) as (m2 & E2 & A2). set (M2 := rotate_3x3 (val b) WY1) in *. assert (R2 : rotation M2) by (apply (proj1 (C47_rotation (val b) _ UY1))).
  assert (X2 := matvec_ap m2 M2 x1 _ _ (98 * u) (1070 * u) A2 R2 X1 UX1 ltac:(num) ltac:(num) ltac:(num)). assert (Y2 := matvec_ap m2 M2 y1 _ _ (98 * u) (1070 * u) A2 R2 Y1 UY1 ltac:(num) ltac:(num) ltac:(num)).
  set (x2 := l_matvec (g_base L) m2 x1) in *. set (y2 := l_matvec (g_base L) m2 y1) in *. set (WX2 := mapply M2 WX1) in *. set (WY2 := mapply M2 WY1) in *.
  assert (UX2 : unit3 WX2) by now apply unit_apply. assert (UY2 : unit3 WY2) by now apply unit_apply.
  destruct (rotate_ap fneg c x2 WX2 (1070 * u) fneg_good Fc X2 UX2 ltac:(num)) as (m3 & E3 & A3). set (M3 := rotate_3x3 (val c) WX2) in *. assert (R3 : rotation M3) by (apply (proj1 (C47_rotation (val c) _ UX2))).
  assert (X3 := matvec_ap m3 M3 x2 _ _ (1070 * u) (11400 * u) A3 R3 X2 UX2 ltac:(num) ltac:(num) ltac:(num)). assert (Y3 := matvec_ap m3 M3 y2 _ _ (1070 * u) (11400 * u) A3 R3 Y2 UY2 ltac:(num) ltac:(num) ltac:(num)).
  do 3 eexists. split; [unfold turn_frame64; rewrite E1; cbn [gbind]; cbv zeta; fold x1 y1; rewrite E2; cbn [gbind]; fold x2 y2; rewrite E3; cbn [gbind]; reflexivity|].
  pose proof (turn_frame_is m (val a) (val b) (val c) Hm) as TF. unfold turn_frame in TF. cbv zeta in TF. fold M1 WX1 WY1 in TF. fold M2 WX2 WY2 in TF. fold M3 in TF.
  assert (TX := f_equal (fun t => fst (fst t)) TF). assert (TY := f_equal (fun t => snd (fst t)) TF). cbn [fst snd] in TX, TY.
  rewrite <- TX, <- TY. split; assumption.
Qed.

(** ** Lengths and angles *)
Lemma hyp_ap p q : fin p -> fin q -> Rabs (val p) <= 101 / 100 -> Rabs (val q) <= 101 / 100 ->
  exists h, (forall (k : f64 -> fpy (f64 * f64 * f64)), (p2 <-! gsquare L p ; q2 <-! gsquare L q ; h <-! gsqrt (fadd p2 q2) ; k h) = k h) /\ ap h (sqrt (val p * val p + val q * val q)) (10 * u) /\ 0 <= val h.
Proof.
  intros Fp Fq Hp Hq. destruct (gsquare_ulp L AM p Fp ltac:(lra)) as [G1 [F1 O1]]. destruct (gsquare_ulp L AM q Fq ltac:(lra)) as [G2 [F2 O2]].
  assert (HU := huge_200). assert (SQ : forall x, Rabs x <= 101 / 100 -> Rabs (x * x) <= 103 / 100 /\ 0 <= x * x) by (intros x Hx; apply Rabs_le_inv in Hx; split; [apply Rabs_le; nra|nra]).
  destruct (SQ _ Hp) as [P1 P0]. destruct (SQ _ Hq) as [Q1 Q0]. assert (N1 := am_square L AM p Fp ltac:(lra)). assert (N2 := am_square L AM q Fq ltac:(lra)).
  set (p2 := l_square (g_base L) p) in *. set (q2 := l_square (g_base L) q) in *. rewrite (Rabs_pos_eq _ P0) in O1, P1. rewrite (Rabs_pos_eq _ Q0) in O2, Q1. set (A := val p * val p) in *. set (B := val q * val q) in *.
  apply Rabs_le_inv in O1, O2. assert (E0 := eta_pos). assert (E1 := eta_u100).
  assert (UA : 0 <= u * A <= 104 / 100 * u) by (split; [apply Rmult_le_pos; num|rewrite (Rmult_comm u); apply Rmult_le_compat_r; num]). assert (UB : 0 <= u * B <= 104 / 100 * u) by (split; [apply Rmult_le_pos; num|rewrite (Rmult_comm u); apply Rmult_le_compat_r; num]).
  assert (S4 : 0 <= val p2 + val q2 <= 3) by (split; [lra|num]).
  destruct (fadd_rnd p2 q2 F1 F2) as [F3 V3]; [rewrite Rabs_pos_eq; lra|]. assert (N3 : 0 <= val (fadd p2 q2)) by (rewrite V3; apply rnd_pos; lra).
  pose proof (rnd_err (val p2 + val q2)) as R3. rewrite <- V3 in R3. rewrite (Rabs_pos_eq (val p2 + val q2)) in R3 by lra. set (s := fadd p2 q2) in *. apply Rabs_le_inv in R3.
  destruct (fsqrt_rnd s F3 N3) as [F4 V4]. exists (fsqrt s). split; [intros k; rewrite G1; cbn [gbind]; rewrite G2; cbn [gbind]; fold s; rewrite (gsqrt_ok s F3 N3); reflexivity|].
  assert (S0 : 0 <= sqrt (val s)) by apply sqrt_pos. split; [|rewrite V4; apply rnd_pos; exact S0]. split; [exact F4|]. rewrite V4.
  assert (US : u * (val p2 + val q2) <= 101 / 100 * (u * (A + B)) + / 100 * eta) by num.
  assert (D : Rabs (val s - (A + B)) <= 302 / 100 * (u * (A + B)) + 6 * eta) by (apply Rabs_le; lra).
  assert (SS : Rabs (sqrt (val s) - sqrt (A + B)) <= 7 * u).
  { destruct (Rle_dec (/ 10 ^ 34) (A + B)) as [BIG|SMALL].
    - set (r := sqrt (A + B)). assert (rr : r * r = A + B) by (apply sqrt_sqrt; lra). assert (r0 : / 10 ^ 17 <= r).
      { unfold r. rewrite <- (sqrt_square (/ 10 ^ 17)) by lra. apply sqrt_le_1_alt. lra. }
      assert (r1 : r <= 3 / 2) by (apply Rnot_lt_le; intros K; nra).
      destruct (sqrt_err (val s) (A + B) (302 / 100 * (u * (A + B)) + 6 * eta) r D ltac:(lra) ltac:(lra)) as [_ K].
      { rewrite rr. pose proof eta_tiny as [_ ET]. assert (P6 : / 2 ^ 600 <= / 10 ^ 60) by lra. num. }
      fold r in K. eapply Rle_trans; [exact K|]. apply Rmult_le_reg_r with r; [lra|]. replace ((302 / 100 * (u * (A + B)) + 6 * eta) / r * r) with (302 / 100 * (u * (A + B)) + 6 * eta) by (field; lra). rewrite <- rr.
      assert (M1 : u * (r * r) <= u * (3 / 2 * r)) by (apply Rmult_le_compat_l; [num|apply Rmult_le_compat_r; lra]). pose proof eta_tiny as [_ ET]. assert (P6 : / 2 ^ 600 <= / 10 ^ 60) by lra. assert (ur : / 10 ^ 40 <= u * r) by (apply Rle_trans with (/ 10 ^ 17 * / 10 ^ 17); [lra|apply Rmult_le_compat; num]). lra.
    - apply Rnot_le_lt in SMALL. assert (Z1 : sqrt (A + B) <= / 10 ^ 17) by (rewrite <- (sqrt_square (/ 10 ^ 17)) by lra; apply sqrt_le_1_alt; lra). pose proof eta_tiny as [_ ET]. assert (P6 : / 2 ^ 600 <= / 10 ^ 60) by lra.
      assert (UAB : u * (A + B) <= / 10 ^ 34) by num. assert (Z2 : sqrt (val s) <= 3 / 10 ^ 17).
      { rewrite <- (sqrt_square (3 / 10 ^ 17)) by lra. apply sqrt_le_1_alt. apply Rabs_le_inv in D. lra. }
      pose proof (sqrt_pos (A + B)). apply Rabs_le. num. }
  pose proof (rnd_err (sqrt (val s))) as RE. rewrite (Rabs_pos_eq _ S0) in RE. assert (R15 : sqrt (A + B) <= 3 / 2) by (apply Rnot_lt_le; intros K; assert (KK := sqrt_sqrt (A + B) ltac:(lra)); nra).
  apply Rabs_le_inv in SS. assert (UQ : u * sqrt (val s) <= u * (16 / 10)) by (apply Rmult_le_compat_l; num). apply Rabs_le_inv in RE. apply Rabs_le. lra.
Qed.

Lemma polar64 y x : fin y -> fin x -> exists t, Rabs t <= PI /\ fin (g_atan2 L y x) /\ Rabs (val (g_atan2 L y x) - t) <= 7 * u /\ sqrt (val x * val x + val y * val y) * cos t = val x /\ sqrt (val x * val x + val y * val y) * sin t = val y.
Proof.
  intros Fy Fx. pose proof PI_RGT_0 as P0. pose proof PI_4 as P4. pose proof eta_u100 as EU. pose proof eta_pos as E0.
  assert (UL : forall r t, one_ulp r t -> Rabs t <= PI -> fin r /\ Rabs (val r - t) <= 7 * u).
  { intros r t [F E] H. split; [exact F|]. eapply Rle_trans; [exact E|]. pose proof pi_digits. assert (u * Rabs t <= u * (32 / 10)) by (apply Rmult_le_compat_l; num). num. }
  assert (MAIN : val y <> 0 \/ 0 < val x -> exists t, Rabs t <= PI /\ fin (g_atan2 L y x) /\ Rabs (val (g_atan2 L y x) - t) <= 7 * u /\ sqrt (val x * val x + val y * val y) * cos t = val x /\ sqrt (val x * val x + val y * val y) * sin t = val y).
  { intros H. pose proof (am_atan2 L AM y x Fy Fx H) as O. exists (Real3.atan2 (val y) (val x)). pose proof (atan2_range (val y) (val x)) as AR. assert (TB : Rabs (Real3.atan2 (val y) (val x)) <= PI) by (apply Rabs_le; lra). split; [exact TB|]. destruct (UL _ _ O TB) as [A B]. split; [exact A|]. split; [exact B|]. apply (atan2_polar (val y) (val x)). }
  destruct (Req_dec (val y) 0) as [Y0|Y0]; [|apply MAIN; now left]. destruct (Rlt_dec 0 (val x)) as [X0|X0]; [apply MAIN; now right|]. apply Rnot_lt_le in X0. clear MAIN.
  assert (SX : sqrt (val x * val x + val y * val y) = - val x). { rewrite Y0, Rmult_0_l, Rplus_0_r. replace (val x * val x) with (- val x * - val x) by ring. apply sqrt_square. lra. }
  rewrite SX, Y0. destruct (at_zero T AT y x Fy Fx Y0 X0) as [O|[O|(Z & F & V)]].
  - exists PI. destruct (UL _ _ O ltac:(rewrite Rabs_pos_eq; lra)) as [A B]. rewrite cos_PI, sin_PI. repeat split; [rewrite Rabs_pos_eq; lra|exact A|exact B|ring|ring].
  - exists (- PI). destruct (UL _ _ O ltac:(rewrite Rabs_Ropp, Rabs_pos_eq; lra)) as [A B]. rewrite cos_neg, sin_neg, cos_PI, sin_PI. repeat split; [rewrite Rabs_Ropp, Rabs_pos_eq; lra|exact A|exact B|ring|ring].
  - exists 0. rewrite V, Z. repeat split; [rewrite Rabs_R0; lra|exact F|rewrite Rminus_0_r, Rabs_R0; num|ring|ring].
Qed.
End Machine.
