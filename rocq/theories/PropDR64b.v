(** * Properties C67 and C68: dead reckoning with body-frame velocities, turning entities and zero elapsed time, in floating point *)
From Coq Require Import Reals ZArith Lra Lia List Permutation.
From Flocq Require Import Core Binary Bits.
From Verif Require Bytes.
From Verif Require Import Real3 DeadReckoning Float64 DeadReckoning64 FloatErr PropDR64.
Import ListNotations.
Local Open Scope R_scope.

(** ** Specification *)
Definition fent (i j : axis) (m : fmat) : f64 := fc j (match i with AX => f1 m | AY => f2 m | AZ => f3 m end).
Definition rent (i j : axis) (m : mat) : R := rc j (match i with AX => r1 m | AY => r2 m | AZ => r3 m end).
(** the sum of the magnitudes of the components *)
Definition size1 (v : vec) : R := Rabs (vx v) + Rabs (vy v) + Rabs (vz v).

(** ** The rotation matrix *)
Ltac consts := pose proof u_pos; pose proof u_small; pose proof eta_pos; pose proof eta_small; pose proof huge_1000; pose proof eta_huge.
Lemma eta_eta : 0 <= eta * eta <= / 1000000 * eta.
Proof. consts. split; [apply Rmult_le_pos; lra|]. apply Rmult_le_compat_r; lra. Qed.

Definition trig (x : f64) (X : R) : Prop := app x X 2 1 (2 * eta).
Lemma trig_cos L x : accurate L -> fin x -> trig (l_cos L x) (cos (val x)).
Proof. intros HL F. apply app_ulp; [now apply acc_cos|]. apply Rabs_le. apply COS_bound. Qed.
Lemma trig_sin L x : accurate L -> fin x -> trig (l_sin L x) (sin (val x)).
Proof. intros HL F. apply app_ulp; [now apply acc_sin|]. apply Rabs_le. apply SIN_bound. Qed.

Lemma prod2 a b A B : trig a A -> trig b B -> app (fmul a b) (A * B) (41 / 8) 1 (16 * eta).
Proof. intros HA HB. consts. pose proof eta_eta. eapply app_weak; [apply (app_mul a b A B 2 2 1 1 (2 * eta) (2 * eta) HA HB)| | |]; lra. Qed.
Lemma prod3 a b c A B C : trig a A -> trig b B -> trig c C -> app (fmul (fmul a b) c) (A * B * C) (33 / 4) 1 (64 * eta).
Proof. intros HA HB HC. consts. pose proof eta_eta. eapply app_weak; [apply (app_mul (fmul a b) c (A * B) C _ _ _ _ _ _ (prod2 _ _ _ _ HA HB) HC)| | |]; lra. Qed.
Lemma prod_sub a b c d e A B C D E : trig a A -> trig b B -> trig c C -> trig d D -> trig e E ->
  app (fsub (fmul (fmul a b) c) (fmul d e)) (A * B * C - D * E) 10 2 (200 * eta).
Proof.
  intros HA HB HC HD HE. consts. eapply app_weak; [eapply (app_sub _ _ _ _ (33 / 4) 1 1 (64 * eta) (16 * eta) (prod3 _ _ _ _ _ _ HA HB HC))| | |]; try lra.
  eapply app_weak; [exact (prod2 _ _ _ _ HD HE)| | |]; lra.
Qed.
Lemma prod_add a b c d e A B C D E : trig a A -> trig b B -> trig c C -> trig d D -> trig e E ->
  app (fadd (fmul (fmul a b) c) (fmul d e)) (A * B * C + D * E) 10 2 (200 * eta).
Proof.
  intros HA HB HC HD HE. consts. eapply app_weak; [eapply (app_add _ _ _ _ (33 / 4) 1 1 (64 * eta) (16 * eta) (prod3 _ _ _ _ _ _ HA HB HC))| | |]; try lra.
  eapply app_weak; [exact (prod2 _ _ _ _ HD HE)| | |]; lra.
Qed.
Lemma prod_two a b A B : trig a A -> trig b B -> app (fmul a b) (A * B) 10 2 (200 * eta).
Proof. intros HA HB. consts. eapply app_weak; [exact (prod2 _ _ _ _ HA HB)| | |]; lra. Qed.

Lemma on_finite_fin f x : fin x -> on_finite f x = FRet (f x).
Proof. intros F. destruct x; try reflexivity. discriminate F. Qed.
Lemma matrix_app L o : accurate L -> fin3 o -> exists m, get_rotation_matrix64 L (fx o) (fy o) (fz o) = FRet m /\
  forall i j, app (fent i j m) (rent i j (get_rotation_matrix (vx (real3 o)) (vy (real3 o)) (vz (real3 o)))) 10 2 (200 * eta).
Proof.
  intros HL F. assert (Fx : fin (fx o)) by exact (F AX). assert (Fy : fin (fy o)) by exact (F AY). assert (Fz : fin (fz o)) by exact (F AZ).
  unfold get_rotation_matrix64, mcos, msin. rewrite !on_finite_fin by assumption. cbn [fbind]. eexists. split; [reflexivity|].
  pose proof (trig_cos L _ HL Fx). pose proof (trig_sin L _ HL Fx). pose proof (trig_cos L _ HL Fy). pose proof (trig_sin L _ HL Fy). pose proof (trig_cos L _ HL Fz). pose proof (trig_sin L _ HL Fz).
  consts. intros [] []; cbn [fent rent fc rc f1 f2 f3 r1 r2 r3 fx fy fz vx vy vz get_rotation_matrix real3]; first [now apply prod_two|now apply prod_sub|now apply prod_add|idtac].
  eapply app_weak; [apply app_neg; eassumption| | |]; lra.
Qed.
(** every entry of the rotation matrix is within 2^-48 of the exact one *)
Theorem C68_matrix L o : accurate L -> fin3 o -> exists m, get_rotation_matrix64 L (fx o) (fy o) (fz o) = FRet m /\
  forall i j, within (fent i j m) (rent i j (get_rotation_matrix (val (fx o)) (val (fy o)) (val (fz o)))) (32 * u).
Proof.
  intros HL F. destruct (matrix_app L o HL F) as (m & E & A). exists m. split; [exact E|]. intros i j. destruct (A i j) as (G & _ & _ & _ & D). split; [exact G|].
  eapply Rle_trans; [exact D|]. consts. assert (ET : eta <= u * / 1000). { Transparent eta u. unfold eta, u. Opaque eta u. apply Rle_trans with (bpow radix2 (-53 + -10)); [apply bpow_le; lia|]. rewrite bpow_plus. apply Rmult_le_compat_l; [apply bpow_ge_0|]. cbn. lra. }
  lra.
Qed.

(** ** Matrix times vector *)
Lemma matvec_app x r s R S k B C : sum_of (pairs r s) x ->
  (forall j, app (fc j r) (rc j R) 10 2 (200 * eta)) -> (forall j, app (fc j s) (rc j S) k (rc j B) (rc j C)) -> k <= 100 ->
  let b := vx B + vy B + vz B in let c := vx C + vy C + vz C in 16 * (b + c + 1) <= huge ->
  app x (vdot R S) (k + 15) (2 * b) (eta * (24 + 400 * b) + 5 * c).
Proof.
  intros SO HR HS K b c O. consts.
  assert (P : forall j, Rabs (val (fc j r) * val (fc j s) - rc j R * rc j S) <= (10 + k + / 16) * u * (2 * rc j B) + 3 / 2 * (200 * eta * rc j B + rc j C * 2 + 200 * eta * rc j C)).
  { intros j. apply (prod_bound _ _ _ _ _ _ _ _ _ _ (HR j) (HS j)). lra. }
  assert (K0 : 0 <= k) by (destruct (HS AX) as (_ & ? & _); lra).
  assert (BC : forall j, 0 <= rc j B /\ 0 <= rc j C) by (intros j; split; [exact (app_B _ _ _ _ _ (HS j))|destruct (HS j) as (_ & _ & ? & _); assumption]).
  assert (BX := BC AX). assert (BY := BC AY). assert (BZ := BC AZ). cbn [rc] in BX, BY, BZ.
  assert (EX : forall j, Rabs (rc j R * rc j S) <= 2 * rc j B).
  { intros j. rewrite Rabs_mult. destruct (HR j) as (_ & _ & _ & r0 & _), (HS j) as (_ & _ & _ & s0 & _). apply Rmult_le_compat; auto using Rabs_pos. }
  assert (PX := P AX). assert (PY := P AY). assert (PZ := P AZ). assert (EX1 := EX AX). assert (EX2 := EX AY). assert (EX3 := EX AZ). cbn [rc fc] in PX, PY, PZ, EX1, EX2, EX3.
  set (kk := (10 + k + / 16) * u) in *. assert (KK : 0 <= kk <= / 1000000) by (unfold kk; split; [apply Rmult_le_pos; lra|]; apply Rle_trans with (1000 * u); [apply Rmult_le_compat_r; lra|lra]).
  set (a1 := val (fx r) * val (fx s)) in *. set (a2 := val (fy r) * val (fy s)) in *. set (a3 := val (fz r) * val (fz s)) in *.
  set (e1 := vx R * vx S) in *. set (e2 := vy R * vy S) in *. set (e3 := vz R * vz S) in *.
  assert (TB : kk * (2 * vx B) + kk * (2 * vy B) + kk * (2 * vz B) = kk * (2 * b)) by (unfold b; ring).
  assert (TE : eta * b = eta * vx B + eta * vy B + eta * vz B) by (unfold b; ring).
  assert (TC : 200 * eta * vx C + 200 * eta * vy C + 200 * eta * vz C <= / 1000 * c).
  { replace (200 * eta * vx C + 200 * eta * vy C + 200 * eta * vz C) with (200 * eta * c) by (unfold c; ring). apply Rmult_le_compat_r; [unfold c; lra|lra]. }
  assert (b0 : 0 <= b) by (unfold b; lra). assert (c0 : 0 <= c) by (unfold c; lra).
  assert (TS : Rabs (a1 - e1) + Rabs (a2 - e2) + Rabs (a3 - e3) <= kk * (2 * b) + 300 * (eta * b) + (3 + 3 / 2000) * c) by (rewrite TE; unfold c at 1; unfold c in TC; lra).
  assert (KB : kk * (2 * b) <= / 1000 * b) by (replace (kk * (2 * b)) with (2 * kk * b) by ring; apply Rmult_le_compat_r; lra).
  assert (EB : eta * b <= / 1000000 * b) by (apply Rmult_le_compat_r; lra).
  assert (TA : forall a e, Rabs a <= Rabs e + Rabs (a - e)). { intros a e. replace a with (e + (a - e)) at 1 by ring. apply Rabs_triang. }
  assert (AS : abs_sum (pairs r s) = Rabs a1 + (Rabs a2 + (Rabs a3 + 0))) by reflexivity.
  assert (ES : exact_sum (pairs r s) = a1 + (a2 + (a3 + 0))) by reflexivity.
  assert (AB : abs_sum (pairs r s) <= 2 * b + (/ 1000 * b + 300 * (eta * b) + (3 + 3 / 2000) * c)).
  { rewrite AS. pose proof (TA a1 e1). pose proof (TA a2 e2). pose proof (TA a3 e3). unfold b at 1. lra. }
  destruct (sum_of_app _ _ SO) as [_ X].
  { unfold pairs. repeat constructor; cbn [fst snd]; (match goal with |- fin (?f ?v) => first [exact (proj1 (HR AX))|exact (proj1 (HR AY))|exact (proj1 (HR AZ))|exact (proj1 (HS AX))|exact (proj1 (HS AY))|exact (proj1 (HS AZ))] end). }
  { cbn. lra. } { lra. }
  replace (INR (length (pairs r s)) * (9 / 8)) with (27 / 8) in X by (cbn; field). replace (csum (length (pairs r s))) with (24 * eta) in X by (unfold csum; cbn; ring).
  destruct X as (F & _ & _ & _ & X). rewrite ES in X. rewrite Rplus_0_r in X.
  assert (MX : Rabs (vdot R S) <= 2 * b).
  { unfold vdot. fold e1 e2 e3. eapply Rle_trans; [apply Rabs_triang|]. eapply Rle_trans; [apply Rplus_le_compat_r, Rabs_triang|]. unfold b. lra. }
  repeat split; try lra; [exact F|assert (0 <= eta * (24 + 400 * b)) by (apply Rmult_le_pos; lra); lra|].
  unfold vdot. fold e1 e2 e3. replace (val x - (e1 + e2 + e3)) with ((val x - (a1 + (a2 + a3))) + ((a1 - e1) + (a2 - e2) + (a3 - e3))) by ring.
  eapply Rle_trans; [apply Rabs_triang|]. eapply Rle_trans; [apply Rplus_le_compat; [exact X|eapply Rle_trans; [apply Rabs_triang|apply Rplus_le_compat_r, Rabs_triang]]|].
  set (A := abs_sum (pairs r s)) in *. assert (U1 : u * A <= u * (2 * b + (/ 1000 * b + 300 * (eta * b) + (3 + 3 / 2000) * c))) by (apply Rmult_le_compat_l; lra).
  assert (ub : 0 <= u * b) by (apply Rmult_le_pos; lra). assert (U2 : u * (eta * b) <= u * (/ 1000000 * b)) by (apply Rmult_le_compat_l; lra). assert (U3 : u * c <= / 1000 * c) by (apply Rmult_le_compat_r; lra).
  assert (KE : kk * (2 * b) = (10 + k + / 16) * (u * (2 * b))) by (unfold kk; ring).
  assert (kub : 0 <= k * (u * b)) by (apply Rmult_le_pos; lra). assert (0 <= eta * b) by (apply Rmult_le_pos; lra).
  replace ((k + 15) * u * (2 * b)) with (2 * (k * (u * b)) + 30 * (u * b)) by ring. replace ((10 + k + / 16) * (u * (2 * b))) with (2 * (k * (u * b)) + (20 + / 8) * (u * b)) in KE by field.
  rewrite !Rmult_plus_distr_l in U1. lra.
Qed.

(** ** Velocity and acceleration in the body frame *)
Lemma pairs_row L m v i : accurate L -> sum_of (pairs (match i with AX => f1 m | AY => f2 m | AZ => f3 m end) v) (fc i (l_matvec L m v)).
Proof. intros HL. destruct (acc_matvec L HL m v) as (A & B & C). destruct i; assumption. Qed.
Lemma rc_mapply i m v : rc i (mapply m v) = vdot (match i with AX => r1 m | AY => r2 m | AZ => r3 m end) v. Proof. now destruct i. Qed.
Lemma rent_row i j m : rent i j m = rc j (match i with AX => r1 m | AY => r2 m | AZ => r3 m end). Proof. reflexivity. Qed.

(** constant velocity in the body frame: within 64 rounding errors of the distance *)
Theorem C68_fpb L p v dt o : accurate L -> fin3 p -> fin3 v -> fin dt -> fin3 o -> (forall i, moderate (val (fc i p))) -> moderate (size1 (real3 v)) -> moderate ((1 + size1 (real3 v)) * val dt) ->
  exists p', drm_fpb64 L p v dt o = FRet (p', o) /\
    forall i, within (fc i p') (rc i (fst (drm_fpb (real3 p) (real3 v) (val dt) (real3 o))))
      (64 * u * (Rabs (val (fc i p)) + size1 (real3 v) * Rabs (val dt)) + 2000 * eta * (1 + (1 + size1 (real3 v)) * Rabs (val dt))).
Proof.
  intros HL Fp Fv Ft Fo Mp Mv Md. destruct (matrix_app L o HL Fo) as (m & E & A). unfold drm_fpb64. rewrite E. cbn [fbind]. eexists. split; [reflexivity|]. intros i.
  cbn [fst drm_fpb]. unfold linear64, to_numpy. rewrite fc_map2, fc_map1, rc_vadd, rc_vscale, rc_real3, rc_mapply. consts. unfold moderate in *.
  set (S := size1 (real3 v)) in *. assert (S0 : 0 <= S) by (unfold S, size1; pose proof (Rabs_pos (vx (real3 v))); pose proof (Rabs_pos (vy (real3 v))); pose proof (Rabs_pos (vz (real3 v))); lra).
  rewrite (Rabs_pos_eq S S0) in Mv. rewrite Rabs_mult, (Rabs_pos_eq (1 + S)) in Md by lra. pose proof (Rabs_pos (val dt)) as T0. set (T := Rabs (val dt)) in *.
  pose proof (matvec_app _ _ v (match i with AX => r1 (get_rotation_matrix (vx (real3 o)) (vy (real3 o)) (vz (real3 o))) | AY => r2 (get_rotation_matrix (vx (real3 o)) (vy (real3 o)) (vz (real3 o))) | AZ => r3 (get_rotation_matrix (vx (real3 o)) (vy (real3 o)) (vz (real3 o))) end)
    (real3 v) 0 (V (Rabs (val (fx v))) (Rabs (val (fy v))) (Rabs (val (fz v)))) (V 0 0 0) (pairs_row L m v i HL)) as W.
  specialize (W ltac:(intros j; exact (A i j))). specialize (W ltac:(intros j; pose proof (app_exact (fc j v) (Fv j)) as X; destruct j; exact X) ltac:(lra)). cbv zeta in W. cbn [vx vy vz] in W.
  change (Rabs (val (fx v)) + Rabs (val (fy v)) + Rabs (val (fz v))) with S in W. specialize (W ltac:(lra)).
  replace (0 + 15) with 15 in W by ring. replace (eta * (24 + 400 * S) + 5 * (0 + 0 + 0)) with (eta * (24 + 400 * S)) in W by ring.
  assert (TS : 0 <= S * T) by (apply Rmult_le_pos; lra).
  assert (G1 : eta * (24 + 400 * S) * T <= eta * 400 * huge). { replace (eta * (24 + 400 * S) * T) with (eta * ((24 + 400 * S) * T)) by ring. rewrite Rmult_assoc. apply Rmult_le_compat_l; lra. }
  assert (G1' : 0 <= eta * (24 + 400 * S) * T) by (apply Rmult_le_pos; [apply Rmult_le_pos|]; lra).
  pose proof (app_mul _ _ _ _ _ _ _ _ _ _ W (app_exact dt Ft) ltac:(lra)) as Y. fold T in Y. specialize (Y ltac:(lra)).
  pose proof (app_add (fc i p) _ (val (fc i p)) _ (15 + 0 + 9 / 8) (Rabs (val (fc i p))) (2 * S * T) 0 _ ltac:(eapply app_weak; [exact (app_exact _ (Fp i))| | |]; lra) Y ltac:(lra)) as Z.
  specialize (Mp i). specialize (Z ltac:(lra)). destruct Z as (F & _ & _ & _ & Z). rewrite (Rmult_comm (val dt)). split; [exact F|]. eapply Rle_trans; [exact Z|].
  pose proof (Rabs_pos (val (fc i p))) as P0. assert (0 <= u * Rabs (val (fc i p))) by (apply Rmult_le_pos; lra). assert (0 <= u * (S * T)) by (apply Rmult_le_pos; lra).
  assert (0 <= eta * T) by (apply Rmult_le_pos; lra). assert (0 <= eta * (S * T)) by (apply Rmult_le_pos; lra). lra.
Qed.

(** constant acceleration in the body frame *)
Theorem C68_fvb L p v a dt o : accurate L -> fin3 p -> fin3 v -> fin3 a -> fin dt -> fin3 o -> (forall i, moderate (val (fc i p))) ->
  moderate (val dt * val dt) -> moderate (size1 (real3 v) * val dt) -> moderate (size1 (real3 a)) -> moderate (size1 (real3 a) * (val dt * val dt)) ->
  exists p', drm_fvb64 L p v a dt o = FRet (p', o) /\
    forall i, within (fc i p') (rc i (fst (drm_fvb (real3 p) (real3 v) (real3 a) (val dt) (real3 o))))
      (64 * u * (Rabs (val (fc i p)) + size1 (real3 v) * Rabs (val dt) + / 2 * size1 (real3 a) * (val dt * val dt))
       + 1000 * eta * (1 + size1 (real3 v) * Rabs (val dt) + size1 (real3 a) * (1 + val dt * val dt) + val dt * val dt)).
Proof.
  intros HL Fp Fv Fa Ft Fo Mp Mt Mv Ma Mat. destruct (matrix_app L o HL Fo) as (m & E & A). unfold drm_fvb64. rewrite E, square_ok by assumption. cbn [fbind]. eexists. split; [reflexivity|]. intros i.
  cbn [fst drm_fvb]. unfold to_numpy. rewrite fc_map2, rc_vadd, rc_real3, rc_mapply. consts.
  assert (T0 : 0 <= val dt * val dt) by apply Rle_0_sqr. set (t2 := val dt * val dt) in *.
  assert (Sz : forall w, 0 <= size1 w) by (intros w; unfold size1; pose proof (Rabs_pos (vx w)); pose proof (Rabs_pos (vy w)); pose proof (Rabs_pos (vz w)); lra).
  assert (Sc : forall j w, Rabs (val (fc j w)) <= size1 (real3 w)).
  { intros j w. unfold size1. cbn [real3 vx vy vz]. pose proof (Rabs_pos (val (fx w))). pose proof (Rabs_pos (val (fy w))). pose proof (Rabs_pos (val (fz w))). destruct j; cbn [fc]; lra. }
  assert (Sd : forall w, Rabs (val (fx w)) + Rabs (val (fy w)) + Rabs (val (fz w)) = size1 (real3 w)) by reflexivity.
  pose proof (Sz (real3 v)) as SV0. pose proof (Sz (real3 a)) as SA0. unfold moderate in *.
  rewrite (Rabs_pos_eq _ T0) in Mt. rewrite Rabs_mult, (Rabs_pos_eq _ SV0) in Mv. rewrite (Rabs_pos_eq _ SA0) in Ma. rewrite Rabs_mult, (Rabs_pos_eq _ SA0), (Rabs_pos_eq _ T0) in Mat.
  pose proof (Rabs_pos (val dt)) as TT0. set (T := Rabs (val dt)) in *.
  assert (D : forall j, app (fc j (shift64 v a dt (l_square L dt))) (rc j (vadd (vscale (val dt) (real3 v)) (vscale (val dt ^ 2) (vscale (1 / 2) (real3 a))))) (43 / 8)
    (Rabs (val (fc j v)) * T + / 2 * Rabs (val (fc j a)) * t2) (eta * (6 + 4 * Rabs (val (fc j a)) + 4 * t2))).
  { intros j. unfold shift64. rewrite fc_map2, !fc_map1, rc_vadd, !rc_vscale, !rc_real3. pose proof (Sc j v) as V1. pose proof (Sc j a) as A1. pose proof (Rabs_pos (val (fc j v))) as V0. pose proof (Rabs_pos (val (fc j a))) as A0.
    assert (V2 : Rabs (val (fc j v)) * T <= size1 (real3 v) * T) by (apply Rmult_le_compat_r; lra). assert (A2 : Rabs (val (fc j a)) * t2 <= size1 (real3 a) * t2) by (apply Rmult_le_compat_r; lra).
    assert (V3 : 0 <= Rabs (val (fc j v)) * T) by (apply Rmult_le_pos; lra). assert (A3 : 0 <= Rabs (val (fc j a)) * t2) by (apply Rmult_le_pos; lra).
    pose proof (accel_app L (fc j a) dt HL (Fa j) Ft) as B. unfold moderate in B. fold t2 in B. rewrite Rabs_mult, (Rabs_pos_eq t2 T0) in B. specialize (B ltac:(lra) ltac:(lra) ltac:(lra)).
    pose proof (app_mul _ _ _ _ _ _ _ _ _ _ (app_exact (fc j v) (Fv j)) (app_exact dt Ft) ltac:(lra)) as Y. fold T in Y. specialize (Y ltac:(lra)).
    assert (S1 : eta * t2 <= eta * huge) by (apply Rmult_le_compat_l; lra). assert (S2 : eta * Rabs (val (fc j a)) <= eta * huge) by (apply Rmult_le_compat_l; lra).
    assert (0 <= eta * t2) by (apply Rmult_le_pos; lra). assert (0 <= eta * Rabs (val (fc j a))) by (apply Rmult_le_pos; lra).
    replace (val dt * val (fc j v) + val dt ^ 2 * (1 / 2 * val (fc j a))) with (val (fc j v) * val dt + / 2 * val (fc j a) * t2) by (unfold t2; field).
    eapply app_weak; [eapply (app_add _ _ _ _ (17 / 4) _ _ _ _)| | |]; [eapply app_weak; [exact Y| | |]; [lra|apply Rle_refl|apply Rle_refl]|exact B| | |lra|lra|].
    - lra.
    - lra.
    - lra. }
  pose proof (matvec_app _ _ (shift64 v a dt (l_square L dt)) (match i with AX => r1 (get_rotation_matrix (vx (real3 o)) (vy (real3 o)) (vz (real3 o))) | AY => r2 (get_rotation_matrix (vx (real3 o)) (vy (real3 o)) (vz (real3 o))) | AZ => r3 (get_rotation_matrix (vx (real3 o)) (vy (real3 o)) (vz (real3 o))) end)
    (vadd (vscale (val dt) (real3 v)) (vscale (val dt ^ 2) (vscale (1 / 2) (real3 a)))) (43 / 8)
    (V (Rabs (val (fx v)) * T + / 2 * Rabs (val (fx a)) * t2) (Rabs (val (fy v)) * T + / 2 * Rabs (val (fy a)) * t2) (Rabs (val (fz v)) * T + / 2 * Rabs (val (fz a)) * t2))
    (V (eta * (6 + 4 * Rabs (val (fx a)) + 4 * t2)) (eta * (6 + 4 * Rabs (val (fy a)) + 4 * t2)) (eta * (6 + 4 * Rabs (val (fz a)) + 4 * t2))) (pairs_row L m _ i HL)) as W.
  specialize (W ltac:(intros j; exact (A i j))). specialize (W ltac:(intros j; pose proof (D j) as X; destruct j; exact X) ltac:(lra)). cbv zeta in W. cbn [vx vy vz] in W.
  set (sv := size1 (real3 v)) in *. set (sa := size1 (real3 a)) in *.
  assert (Eb : Rabs (val (fx v)) * T + / 2 * Rabs (val (fx a)) * t2 + (Rabs (val (fy v)) * T + / 2 * Rabs (val (fy a)) * t2) + (Rabs (val (fz v)) * T + / 2 * Rabs (val (fz a)) * t2) = sv * T + / 2 * sa * t2)
    by (unfold sv, sa; rewrite <- !Sd; ring).
  assert (Ec : eta * (6 + 4 * Rabs (val (fx a)) + 4 * t2) + eta * (6 + 4 * Rabs (val (fy a)) + 4 * t2) + eta * (6 + 4 * Rabs (val (fz a)) + 4 * t2) = eta * (18 + 4 * sa + 12 * t2))
    by (unfold sa; rewrite <- Sd; ring).
  rewrite Eb, Ec in W. clear Eb Ec. assert (V0 : 0 <= sv * T) by (apply Rmult_le_pos; lra). assert (A0 : 0 <= sa * t2) by (apply Rmult_le_pos; lra).
  assert (S1 : eta * t2 <= eta * huge) by (apply Rmult_le_compat_l; lra). assert (S2 : eta * sa <= eta * huge) by (apply Rmult_le_compat_l; lra). assert (S3 : eta * (sv * T) <= eta * huge) by (apply Rmult_le_compat_l; lra). assert (S4 : eta * (sa * t2) <= eta * huge) by (apply Rmult_le_compat_l; lra).
  assert (0 <= eta * t2) by (apply Rmult_le_pos; lra). assert (0 <= eta * sa) by (apply Rmult_le_pos; lra). assert (0 <= eta * (sv * T)) by (apply Rmult_le_pos; lra). assert (0 <= eta * (sa * t2)) by (apply Rmult_le_pos; lra).
  specialize (W ltac:(lra)).
  pose proof (app_add (fc i p) _ (val (fc i p)) _ (43 / 8 + 15) (Rabs (val (fc i p))) _ 0 _ ltac:(eapply app_weak; [exact (app_exact _ (Fp i))| | |]; lra) W ltac:(lra)) as Z.
  specialize (Mp i). specialize (Z ltac:(lra)). destruct Z as (F & _ & _ & _ & Z). split; [exact F|]. eapply Rle_trans; [exact Z|].
  pose proof (Rabs_pos (val (fc i p))) as P0. assert (0 <= u * Rabs (val (fc i p))) by (apply Rmult_le_pos; lra). assert (0 <= u * (sv * T)) by (apply Rmult_le_pos; lra). assert (0 <= u * (sa * t2)) by (apply Rmult_le_pos; lra). lra.
Qed.

(** ** Turning *)
Lemma app_div x y X Y k B C : app x X k B C -> fin y -> Rabs (val y - Y) <= 3 * u * Rabs Y -> Y <> 0 -> k <= 800 -> 4 * (B / Rabs Y + C / Rabs Y) <= huge ->
  app (fdiv x y) (X / Y) (k + 3 + 9 / 8) (B / Rabs Y) (3 * (C / Rabs Y) + eta).
Proof.
  intros HA Fy EY NY K O. pose proof (app_B _ _ _ _ _ HA) as B0. destruct HA as (Fx & K0 & C0 & HB & E). consts.
  assert (Y0 : 0 < Rabs Y) by now apply Rabs_pos_lt. set (y' := val y) in *. set (x' := val x) in *.
  assert (yb : (1 - 3 * u) * Rabs Y <= Rabs y'). { pose proof (Rabs_triang_inv Y y') as T. rewrite Rabs_minus_sym in EY. lra. }
  assert (y0 : 0 < Rabs y'). { apply Rlt_le_trans with (2 := yb). apply Rmult_lt_0_compat; lra. }
  assert (Ny : y' <> 0) by (intros Z; rewrite Z, Rabs_R0 in y0; lra).
  assert (iy : / Rabs y' <= (1 + 4 * u) / Rabs Y).
  { apply (Rmult_le_reg_r (Rabs y')); [exact y0|]. rewrite Rinv_l by lra. unfold Rdiv.
    apply Rle_trans with ((1 + 4 * u) * / Rabs Y * ((1 - 3 * u) * Rabs Y)).
    - replace ((1 + 4 * u) * / Rabs Y * ((1 - 3 * u) * Rabs Y)) with ((1 + 4 * u) * (1 - 3 * u)) by (field; lra). assert (0 <= u * (1 - 12 * u)) by (apply Rmult_le_pos; lra). lra.
    - apply Rmult_le_compat_l; [|exact yb]. apply Rmult_le_pos; [lra|]. apply Rlt_le, Rinv_0_lt_compat, Y0. }
  assert (iY : 0 < / Rabs Y) by now apply Rinv_0_lt_compat.
  set (q := B / Rabs Y) in *. set (c := C / Rabs Y) in *. assert (q0 : 0 <= q) by (unfold q, Rdiv; apply Rmult_le_pos; lra). assert (c0 : 0 <= c) by (unfold c, Rdiv; apply Rmult_le_pos; lra).
  assert (Q : Rabs (X / Y) <= q) by (unfold q, Rdiv; rewrite Rabs_mult, Rabs_inv; apply Rmult_le_compat_r; lra).
  assert (D : Rabs (x' / y' - X / Y) <= (k + 3 + / 16) * u * q + 2 * c).
  { replace (x' / y' - X / Y) with ((x' - X) * / y' + (X / Y) * (Y - y') * / y') by (field; split; assumption).
    eapply Rle_trans; [apply Rabs_triang|]. rewrite !Rabs_mult, !Rabs_inv.
    assert (D1 : Rabs (x' - X) * / Rabs y' <= (k * u * B + C) * ((1 + 4 * u) / Rabs Y)).
    { apply Rmult_le_compat; [apply Rabs_pos| |exact E|exact iy]. apply Rlt_le, Rinv_0_lt_compat, y0. }
    assert (D2 : Rabs (X / Y) * Rabs (Y - y') * / Rabs y' <= q * (3 * u * Rabs Y) * ((1 + 4 * u) / Rabs Y)).
    { apply Rmult_le_compat; [apply Rmult_le_pos; apply Rabs_pos|apply Rlt_le, Rinv_0_lt_compat, y0| |exact iy]. apply Rmult_le_compat; [apply Rabs_pos|apply Rabs_pos|exact Q|]. now rewrite Rabs_minus_sym. }
    replace ((k * u * B + C) * ((1 + 4 * u) / Rabs Y)) with ((1 + 4 * u) * (k * u * q + c)) in D1 by (unfold q, c; field; lra).
    replace (q * (3 * u * Rabs Y) * ((1 + 4 * u) / Rabs Y)) with ((1 + 4 * u) * (3 * u * q)) in D2 by (field; lra).
    assert (uq : 0 <= u * q) by (apply Rmult_le_pos; lra). assert (kuq : 0 <= k * (u * q)) by (apply Rmult_le_pos; lra).
    assert (Z1 : u * (k * (u * q)) <= / 1000000 * (u * q)). { replace (u * (k * (u * q))) with ((k * u) * (u * q)) by ring. apply Rmult_le_compat_r; [exact uq|]. pose proof (ku k ltac:(lra)). lra. }
    assert (Z2 : u * (u * q) <= / 1000000 * (u * q)) by (apply Rmult_le_compat_r; lra). assert (Z3 : u * c <= / 1000000 * c) by (apply Rmult_le_compat_r; lra). lra. }
  assert (M : Rabs (x' / y') <= q + ((k + 3 + / 16) * u * q + 2 * c)). { replace (x' / y') with (X / Y + (x' / y' - X / Y)) by ring. eapply Rle_trans; [apply Rabs_triang|]. lra. }
  assert (kq : (k + 3 + / 16) * u * q <= / 100 * q). { apply Rmult_le_compat_r; [exact q0|]. pose proof (ku (k + 3 + / 16) ltac:(lra)). lra. }
  destruct (fdiv_err x y Fx Fy Ny) as [F G]; [fold x' y'; lra|]. fold x' y' in G. repeat split; try lra; [exact F|].
  replace (val (fdiv x y) - X / Y) with ((x' / y' - X / Y) + (val (fdiv x y) - x' / y')) by ring. eapply Rle_trans; [apply Rabs_triang|].
  assert (u * Rabs (x' / y') <= u * (q + (/ 100 * q + 2 * c))) by (apply Rmult_le_compat_l; lra). assert (u * c <= / 1000000 * c) by (apply Rmult_le_compat_r; lra).
  assert (0 <= u * q) by (apply Rmult_le_pos; lra). lra.
Qed.

(** an angle advanced by a rate *)
Lemma advance a d D dt k B C : fin a -> app d D k B C -> fin dt -> k <= 800 -> 16 * (Rabs (val a) + B * Rabs (val dt) + C * Rabs (val dt) + 1) <= huge ->
  app (fadd a (fmul d dt)) (val a + D * val dt) (k + 9 / 4) (Rabs (val a) + B * Rabs (val dt)) (4 * (C * Rabs (val dt)) + 2 * eta).
Proof.
  intros Fa HD Ft K O. consts. pose proof (app_B _ _ _ _ _ HD) as B0. assert (C0 : 0 <= C /\ 0 <= k) by (destruct HD as (_ & ? & ? & _); lra). pose proof (Rabs_pos (val a)) as a0. pose proof (Rabs_pos (val dt)) as t0.
  assert (0 <= B * Rabs (val dt)) by (apply Rmult_le_pos; lra). assert (0 <= C * Rabs (val dt)) by (apply Rmult_le_pos; lra).
  pose proof (app_mul _ _ _ _ _ _ _ _ _ _ HD (app_exact dt Ft) ltac:(lra)) as Y. specialize (Y ltac:(lra)).
  eapply app_weak; [eapply (app_add a _ (val a) _ (k + 0 + 9 / 8) (Rabs (val a)) _ 0 _)| | |]; [eapply app_weak; [exact (app_exact a Fa)| | |]; lra|exact Y|lra|lra|lra|lra|lra].
Qed.

Lemma tiny_val : Rabs (val f_tiny - / 1000000) <= / 10000000000000000.
Proof.
  assert (E : val f_tiny = 4722366482869645 / 4722366482869645213696). { unfold f_tiny. value_of_bits. field. }
  rewrite E. apply Rabs_le. lra.
Qed.
Lemma below_tiny_spec c : fin c -> below_tiny c = true <-> Rabs (val c) < val f_tiny.
Proof.
  intros F. unfold below_tiny, b64_compare. rewrite Bcompare_correct; [|unfold b64_abs; now rewrite is_finite_Babs|reflexivity].
  unfold b64_abs. rewrite B2R_Babs. fold (val c). fold (val f_tiny). destruct (Rcompare_spec (Rabs (val c)) (val f_tiny)); split; intros; try discriminate; try reflexivity; lra.
Qed.

(** the branch taken near gimbal lock: the floating-point test agrees with the exact one except within one millionth of the threshold *)
Lemma branch L t : accurate L -> fin t -> Rabs (val (l_cos L t) - cos (val t)) <= 3 * u.
Proof. intros HL F. destruct (trig_cos L t HL F) as (_ & _ & _ & _ & E). consts. pose proof eta_u. assert (ET : eta <= u * / 1000). { Transparent eta u. unfold eta, u. Opaque eta u. apply Rle_trans with (bpow radix2 (-53 + -10)); [apply bpow_le; lia|]. rewrite bpow_plus. apply Rmult_le_compat_l; [apply bpow_ge_0|]. cbn. lra. } lra. Qed.
Lemma branch_far L t : accurate L -> fin t -> 11 / 10000000 <= Rabs (cos (val t)) -> below_tiny (l_cos L t) = false.
Proof.
  intros HL F H. destruct (below_tiny (l_cos L t)) eqn:E; [|reflexivity]. apply below_tiny_spec in E; [|apply (acc_cos L HL t F)]. pose proof (branch L t HL F) as B. pose proof tiny_val as T. apply Rabs_le_inv in T. consts.
  pose proof (Rabs_triang_inv (cos (val t)) (val (l_cos L t))) as R. rewrite Rabs_minus_sym in B. lra.
Qed.
Lemma branch_near L t : accurate L -> fin t -> Rabs (cos (val t)) <= 9 / 10000000 -> below_tiny (l_cos L t) = true.
Proof.
  intros HL F H. apply below_tiny_spec; [apply (acc_cos L HL t F)|]. pose proof (branch L t HL F) as B. pose proof tiny_val as T. apply Rabs_le_inv in T. consts.
  pose proof (Rabs_triang_inv (val (l_cos L t)) (cos (val t))) as R. lra.
Qed.
Lemma branch_false L t : accurate L -> fin t -> below_tiny (l_cos L t) = false -> 9 / 10000000 <= Rabs (cos (val t)).
Proof. intros HL F E. destruct (Rle_or_lt (9 / 10000000) (Rabs (cos (val t)))) as [|H]; [assumption|]. rewrite branch_near in E; [discriminate|assumption|assumption|lra]. Qed.

(** the rates *)
Section Rates.
Variables (L : platform) (theta phi p q r : f64).
Hypotheses (HL : accurate L) (Ft : fin theta) (Fp : fin phi) (Fpp : fin p) (Fq : fin q) (Fr : fin r).
Let W := 1 + Rabs (val p) + Rabs (val q) + Rabs (val r).
Hypothesis MW : 1000000000 * W <= huge.
Let G := Rabs (val q) + Rabs (val r).
Let N := fadd (fmul q (l_sin L phi)) (fmul r (l_cos L phi)).
Let NR := val q * sin (val phi) + val r * cos (val phi).
Lemma rate_prod x z X : fin x -> Rabs (val x) <= G -> trig z X -> app (fmul x z) (val x * X) (25 / 8) (Rabs (val x)) (eta * (4 * Rabs (val x) + 1)).
Proof.
  intros Fx Gx HZ. consts. unfold W, G in *. pose proof (Rabs_pos (val p)). pose proof (Rabs_pos (val q)). pose proof (Rabs_pos (val r)). pose proof (Rabs_pos (val x)).
  assert (eta * Rabs (val x) <= eta * huge) by (apply Rmult_le_compat_l; lra). assert (0 <= eta * Rabs (val x)) by (apply Rmult_le_pos; lra).
  eapply app_weak; [apply (app_mul _ _ _ _ _ _ _ _ _ _ (app_exact x Fx) HZ)| | |]; lra.
Qed.
Lemma rate_N : app N NR (17 / 4) G (eta * (8 * G + 4)).
Proof.
  consts. unfold W, G, N, NR in *. pose proof (Rabs_pos (val p)). pose proof (Rabs_pos (val q)). pose proof (Rabs_pos (val r)).
  assert (eta * (Rabs (val q) + Rabs (val r)) <= eta * huge) by (apply Rmult_le_compat_l; lra).
  eapply app_weak; [eapply app_add; [apply (rate_prod q _ _ Fq); [unfold G; lra|exact (trig_sin L phi HL Fp)]|apply (rate_prod r _ _ Fr); [unfold G; lra|exact (trig_cos L phi HL Fp)]| | ]| | |]; lra.
Qed.
Lemma rate_theta : app (fsub (fmul q (l_cos L phi)) (fmul r (l_sin L phi))) (val q * cos (val phi) - val r * sin (val phi)) 9 G (40000000 * eta * W).
Proof.
  consts. unfold W, G in *. pose proof (Rabs_pos (val p)). pose proof (Rabs_pos (val q)). pose proof (Rabs_pos (val r)).
  assert (0 <= eta * Rabs (val p)) by (apply Rmult_le_pos; lra). assert (0 <= eta * Rabs (val q)) by (apply Rmult_le_pos; lra). assert (0 <= eta * Rabs (val r)) by (apply Rmult_le_pos; lra).
  assert (eta * (Rabs (val q) + Rabs (val r)) <= eta * huge) by (apply Rmult_le_compat_l; lra).
  eapply app_weak; [eapply app_sub; [apply (rate_prod q _ _ Fq); [unfold G; lra|exact (trig_cos L phi HL Fp)]|apply (rate_prod r _ _ Fr); [unfold G; lra|exact (trig_sin L phi HL Fp)]| | ]| | |]; lra.
Qed.
Hypothesis Far : 9 / 10000000 <= Rabs (cos (val theta)).
Lemma inv_cos : / Rabs (cos (val theta)) <= 1200000.
Proof. replace 1200000 with (/ / 1200000) by field. apply Rinv_le; lra. Qed.
Lemma rate_psi : app (fdiv N (l_cos L theta)) (NR / cos (val theta)) 9 (G / Rabs (cos (val theta))) (40000000 * eta * W).
Proof.
  consts. pose proof rate_N as HN. pose proof inv_cos as I. unfold W, G in *. pose proof (Rabs_pos (val p)). pose proof (Rabs_pos (val q)). pose proof (Rabs_pos (val r)).
  assert (0 <= eta * Rabs (val p)) by (apply Rmult_le_pos; lra). assert (0 <= eta * Rabs (val q)) by (apply Rmult_le_pos; lra). assert (0 <= eta * Rabs (val r)) by (apply Rmult_le_pos; lra).
  set (g := Rabs (val q) + Rabs (val r)) in *. set (c := Rabs (cos (val theta))) in *. assert (I0 : 0 < / c) by (apply Rinv_0_lt_compat; lra).
  assert (g0 : 0 <= g) by (unfold g; lra).
  assert (GC : g / c <= g * 1200000) by (unfold Rdiv; apply Rmult_le_compat_l; lra). assert (EC : eta * (8 * g + 4) / c <= eta * (8 * g + 4) * 1200000) by (unfold Rdiv; apply Rmult_le_compat_l; [apply Rmult_le_pos; lra|lra]).
  assert (Hg : g <= W) by (unfold g, W; lra). unfold W in Hg. assert (eta * g <= eta * huge) by (apply Rmult_le_compat_l; lra). assert (Eg : eta * g = eta * Rabs (val q) + eta * Rabs (val r)) by (unfold g; ring).
  eapply app_weak; [eapply app_div; [exact HN|apply (acc_cos L HL theta Ft)| | | |]| | |].
  - destruct (acc_cos L HL theta Ft) as [_ E]. fold c in E |- *. assert (2 * eta <= u * c). { assert (ET : eta <= u * / 100000000). { Transparent eta u. unfold eta, u. Opaque eta u. apply Rle_trans with (bpow radix2 (-53 + -30)); [apply bpow_le; lia|]. rewrite bpow_plus. apply Rmult_le_compat_l; [apply bpow_ge_0|]. cbn. lra. } assert (u * / 50000000 <= u * c) by (apply Rmult_le_compat_l; lra). lra. } lra.
  - intros Z. unfold c in Far. rewrite Z, Rabs_R0 in Far. lra.
  - lra.
  - fold c. lra.
  - lra.
  - fold c. lra.
  - fold c. lra.
Qed.
Lemma tan_bound : Rabs (tan (val theta)) <= 1200000.
Proof. unfold tan, Rdiv. rewrite Rabs_mult, Rabs_inv. pose proof inv_cos. assert (Rabs (sin (val theta)) <= 1) by (apply Rabs_le, SIN_bound). replace 1200000 with (1 * 1200000) by ring. apply Rmult_le_compat; try assumption; [apply Rabs_pos|]. apply Rlt_le, Rinv_0_lt_compat. lra. Qed.
Lemma rate_phi : app (fadd p (fmul N (l_tan L theta))) (val p + NR * tan (val theta)) 9 (Rabs (val p) + G * Rabs (tan (val theta))) (40000000 * eta * W).
Proof.
  consts. pose proof rate_N as HN. pose proof tan_bound as TB. unfold W, G in *. pose proof (Rabs_pos (val p)). pose proof (Rabs_pos (val q)). pose proof (Rabs_pos (val r)).
  assert (0 <= eta * Rabs (val p)) by (apply Rmult_le_pos; lra). assert (0 <= eta * Rabs (val q)) by (apply Rmult_le_pos; lra). assert (0 <= eta * Rabs (val r)) by (apply Rmult_le_pos; lra).
  set (g := Rabs (val q) + Rabs (val r)) in *. assert (g0 : 0 <= g) by (unfold g; lra). assert (Eg : eta * g = eta * Rabs (val q) + eta * Rabs (val r)) by (unfold g; ring).
  pose proof (app_ulp _ _ _ (acc_tan L HL theta Ft ltac:(lra)) (Rle_refl _)) as HT. set (t := Rabs (tan (val theta))) in *. assert (t0 : 0 <= t) by apply Rabs_pos.
  assert (GT : 0 <= g * t <= g * 1200000) by (split; [apply Rmult_le_pos|apply Rmult_le_compat_l]; lra).
  assert (ET : 0 <= eta * (8 * g + 4) * t <= eta * (8 * g + 4) * 1200000) by (split; [apply Rmult_le_pos; [apply Rmult_le_pos|]|apply Rmult_le_compat_l; [apply Rmult_le_pos|]]; lra).
  assert (EE : 0 <= eta * (8 * g + 4) * (2 * eta) <= eta * (8 * g + 4) * 1) by (split; [apply Rmult_le_pos; [apply Rmult_le_pos|]|apply Rmult_le_compat_l; [apply Rmult_le_pos|]]; lra).
  assert (Hg : g <= W) by (unfold g, W; lra). unfold W in Hg. assert (eta * g <= eta * huge) by (apply Rmult_le_compat_l; lra).
  pose proof (app_mul _ _ _ _ _ _ _ _ _ _ HN HT ltac:(lra)) as A. specialize (A ltac:(lra)).
  eapply app_weak; [eapply (app_add p _ (val p) _ (17 / 4 + 2 + 9 / 8) (Rabs (val p)) _ 0 _)| | |]; [eapply app_weak; [exact (app_exact p Fpp)| | |]; lra|exact A|lra|lra|lra|lra|lra].
Qed.
End Rates.

(** the magnitudes of the rates of turn about the three angles, given the body rates w and the pitch angle theta *)
Definition rate_sizes (theta : R) (w : vec) : vec :=
  V ((Rabs (vy w) + Rabs (vz w)) / Rabs (cos theta)) (Rabs (vy w) + Rabs (vz w)) (Rabs (vx w) + (Rabs (vy w) + Rabs (vz w)) * Rabs (tan theta)).
(** Away from gimbal lock each angle is within 16 rounding errors of the exact one, relative to the angle and the turn *)
Theorem C68_turn L p v dt o w : accurate L -> fin dt -> fin3 o -> fin3 w -> (forall i, moderate (val (fc i o))) -> moderate (1000000000 * ((1 + size1 (real3 w)) * (1 + Rabs (val dt)))) ->
  11 / 10000000 <= Rabs (cos (val (fy o))) ->
  exists p' o' pr orr, drm_rpw64 L p v dt o w = FRet (p', o') /\ drm_rpw (real3 p) (real3 v) (val dt) (real3 o) (real3 w) = Ret (pr, orr) /\
    forall i, within (fc i o') (rc i orr) (16 * u * (Rabs (val (fc i o)) + rc i (rate_sizes (val (fy o)) (real3 w)) * Rabs (val dt)) + 1000000000 * eta * ((1 + size1 (real3 w)) * (1 + Rabs (val dt)))).
Proof.
  intros HL Ft Fo Fw Mo MW Far. unfold drm_rpw64, mcos, msin, mtan. rewrite !on_finite_fin by (first [exact (Fo AY)|exact (Fo AZ)]). cbn [fbind]. rewrite branch_far by (first [assumption|exact (Fo AY)]).
  unfold drm_rpw, to_numpy. cbn [real3 vx vy vz]. destruct (Rlt_dec (Rabs (cos (val (fy o)))) (1 / 1000000)) as [Z|_]; [lra|].
  rewrite pdiv_ok by (intros Z; rewrite Z, Rabs_R0 in Far; lra). cbn [pbind]. do 4 eexists. split; [reflexivity|]. split; [reflexivity|].
  consts. unfold moderate, size1 in *. cbn [real3 vx vy vz] in *. pose proof (Rabs_pos (val (fx w))). pose proof (Rabs_pos (val (fy w))). pose proof (Rabs_pos (val (fz w))). pose proof (Rabs_pos (val dt)) as t0.
  set (P := Rabs (val (fx w))) in *. set (Q := Rabs (val (fy w))) in *. set (S := Rabs (val (fz w))) in *. set (T := Rabs (val dt)) in *.
  assert (W0 : 0 <= (1 + (P + Q + S)) * T) by (apply Rmult_le_pos; lra).
  rewrite Rabs_pos_eq in MW by lra. assert (MW' : 1000000000 * (1 + P + Q + S) <= huge) by lra.
  assert (F9 : 9 / 10000000 <= Rabs (cos (val (fy o)))) by lra.
  pose proof (rate_psi L (fy o) (fz o) (fx w) (fy w) (fz w) HL (Fo AY) (Fo AZ) (Fw AY) (Fw AZ) MW' F9) as R1.
  pose proof (rate_theta L (fz o) (fx w) (fy w) (fz w) HL (Fo AZ) (Fw AY) (Fw AZ) MW') as R2.
  pose proof (rate_phi L (fy o) (fz o) (fx w) (fy w) (fz w) HL (Fo AY) (Fo AZ) (Fw AX) (Fw AY) (Fw AZ) MW' F9) as R3.
  pose proof (inv_cos (fy o) F9) as IC. pose proof (tan_bound (fy o) F9) as TB. pose proof (Rabs_pos (tan (val (fy o)))) as TB0. fold P Q S in R1, R2, R3.
  assert (E1 : eta * ((1 + P + Q + S) * T) <= eta * huge) by (apply Rmult_le_compat_l; lra). assert (E1' : 0 <= eta * ((1 + P + Q + S) * T)) by (apply Rmult_le_pos; lra).
  assert (E2 : 0 <= eta * (P + Q + S)) by (apply Rmult_le_pos; lra).
  assert (I0 : 0 < / Rabs (cos (val (fy o)))) by (apply Rinv_0_lt_compat; lra).
  assert (G0 : 0 <= (Q + S) / Rabs (cos (val (fy o)))) by (unfold Rdiv; apply Rmult_le_pos; lra).
  assert (G1 : (Q + S) / Rabs (cos (val (fy o))) * T <= (Q + S) * 1200000 * T) by (unfold Rdiv; apply Rmult_le_compat_r; [lra|]; apply Rmult_le_compat_l; lra).
  assert (G2 : (Q + S) * Rabs (tan (val (fy o))) * T <= (Q + S) * 1200000 * T) by (apply Rmult_le_compat_r; [lra|]; apply Rmult_le_compat_l; lra).
  assert (G3 : 0 <= (Q + S) * Rabs (tan (val (fy o)))) by (apply Rmult_le_pos; lra).
  assert (B : (Q + S) * T <= (1 + P + Q + S) * T) by (apply Rmult_le_compat_r; lra). assert (B' : P * T <= (1 + P + Q + S) * T) by (apply Rmult_le_compat_r; lra). assert (B2 : 0 <= P * T) by (apply Rmult_le_pos; lra).
  assert (FIN : forall a d D R, fin a -> Rabs (val a) <= huge / 64 -> app d D 9 R (40000000 * eta * (1 + P + Q + S)) -> R * T <= 1200000 * ((1 + P + Q + S) * T) + P * T ->
    within (fadd a (fmul d dt)) (val a + D * val dt) (16 * u * (Rabs (val a) + R * T) + 1000000000 * eta * ((1 + (P + Q + S)) * (1 + T)))).
  { intros a d D R Fa Ma A RT. pose proof (advance a d D dt 9 _ _ Fa A Ft ltac:(lra)) as Z. fold T in Z. specialize (Z ltac:(lra)). pose proof (app_B _ _ _ _ _ A) as R0. pose proof (Rabs_pos (val a)) as a0.
    destruct Z as (F & _ & _ & _ & E). split; [exact F|]. eapply Rle_trans; [exact E|]. assert (0 <= u * (Rabs (val a) + R * T)) by (apply Rmult_le_pos; [lra|]; assert (0 <= R * T) by (apply Rmult_le_pos; lra); lra). lra. }
  intros []; cbn [fc rc fx fy fz vx vy vz rate_sizes real3]; fold P Q S.
  - apply FIN; [exact (Fo AX)|exact (Mo AX)|exact R1|lra].
  - apply FIN; [exact (Fo AY)|exact (Mo AY)|exact R2|lra].
  - apply FIN; [exact (Fo AZ)|exact (Mo AZ)|exact R3|]. rewrite Rmult_plus_distr_r. lra.
Qed.

(** The position and the angles of a finite state do not change when no time passes *)
Lemma fadd_zero a z : fin a -> fin z -> val z = 0 -> fin (fadd a z) /\ val (fadd a z) = val a.
Proof.
  intros Fa Fz Z. unfold fadd, b64_plus. cbv zeta.
  match goal with |- context [Bplus _ _ ?x ?y ?c ?m a z] => pose proof (Bplus_correct 53 1024 x y c m a z Fa Fz) as C end.
  fold (val a) (val z) in C. rewrite rnd_is, Z, Rplus_0_r, rnd_val in C. rewrite Rlt_bool_true in C by exact (abs_B2R_lt_emax 53 1024 a). destruct C as (C & F & _). split; [exact F|exact C].
Qed.
Lemma fmul_zero d t : fin d -> fin t -> val t = 0 -> fin (fmul d t) /\ val (fmul d t) = 0.
Proof.
  intros Fd Ft Z. destruct (fmul_rnd d t Fd Ft) as [F E]; [rewrite Z, Rmult_0_r, Rabs_R0; apply Rlt_le, huge_pos|]. split; [exact F|]. rewrite E, Z, Rmult_0_r. unfold rnd. apply round_0. apply valid_rnd_N.
Qed.
Lemma still1 a d t : fin a -> fin d -> fin t -> val t = 0 -> fin (fadd a (fmul d t)) /\ val (fadd a (fmul d t)) = val a.
Proof. intros Fa Fd Ft Z. destruct (fmul_zero d t Fd Ft Z) as [F E]. now apply fadd_zero. Qed.
Definition unchanged (a b : fvec) : Prop := forall i, fin (fc i a) /\ val (fc i a) = val (fc i b).
Lemma linear_still p v dt : fin3 p -> fin3 v -> fin dt -> val dt = 0 -> unchanged (linear64 p v dt) p.
Proof. intros Fp Fv Ft Z i. unfold linear64. rewrite fc_map2, fc_map1. now apply still1. Qed.
Lemma accel_still L a dt : accurate L -> fin a -> fin dt -> val dt = 0 -> moderate (val a) -> fin (fmul (fmul f_half a) (l_square L dt)) /\ val (fmul (fmul f_half a) (l_square L dt)) = 0.
Proof.
  intros HL Fa Ft Z M. assert (Fh : fin f_half) by reflexivity. assert (Vh : val f_half = / 2) by exact val_half. pose proof huge_1000. unfold moderate in M.
  destruct (fmul_rnd f_half a Fh Fa) as [F _]. { rewrite Vh, Rabs_mult, (Rabs_pos_eq (/ 2)) by lra. lra. }
  apply fmul_zero; [exact F| |now apply acc_square0]. apply (acc_square L HL dt Ft). rewrite Z, Rmult_0_r, Rabs_R0. lra.
Qed.
Lemma moderate_0 : moderate (0 * 0). Proof. unfold moderate. rewrite Rmult_0_r, Rabs_R0. pose proof huge_pos. lra. Qed.
Lemma matvec_fin L m v : accurate L -> (forall i j, fin (fent i j m) /\ Rabs (val (fent i j m)) <= 3) -> fin3 v -> (forall i, moderate (val (fc i v))) -> fin3 (l_matvec L m v).
Proof.
  intros HL Hm Fv Mv i. pose proof huge_1000. assert (Sm : forall j, Rabs (val (fent i j m) * val (fc j v)) <= 3 * (huge / 64)).
  { intros j. rewrite Rabs_mult. apply Rmult_le_compat; auto using Rabs_pos; [apply Hm|apply Mv]. }
  destruct (sum_of_app _ _ (pairs_row L m v i HL)) as [_ (F & _)]; [| | |exact F].
  - repeat constructor; cbn [fst snd]; first [exact (proj1 (Hm i AX))|exact (proj1 (Hm i AY))|exact (proj1 (Hm i AZ))|exact (Fv AX)|exact (Fv AY)|exact (Fv AZ)].
  - cbn. lra.
  - pose proof (Sm AX) as SX. pose proof (Sm AY) as SY. pose proof (Sm AZ) as SZ. unfold pairs, abs_sum. cbn [fold_right fst snd]. unfold fent in *. cbn [fc] in *. lra.
Qed.
Lemma matrix_small L o m : accurate L -> fin3 o -> get_rotation_matrix64 L (fx o) (fy o) (fz o) = FRet m -> forall i j, fin (fent i j m) /\ Rabs (val (fent i j m)) <= 3.
Proof.
  intros HL Fo E i j. destruct (matrix_app L o HL Fo) as (m' & E' & A). assert (m' = m) by congruence. subst m'. destruct (A i j) as (F & _). split; [exact F|]. pose proof (app_abs _ _ _ _ _ (A i j)) as B. consts. lra.
Qed.
Theorem C67_still L p v a dt o w : accurate L -> fin3 p -> fin3 v -> fin3 a -> fin3 o -> fin3 w -> fin dt -> val dt = 0 ->
  (forall i, moderate (val (fc i v)) /\ moderate (val (fc i a))) -> moderate (1000000000 * (1 + size1 (real3 w))) ->
  (unchanged (fst (drm_fpw64 p v dt o)) p /\ snd (drm_fpw64 p v dt o) = o) /\
  (exists p', drm_fvw64 L p v a dt o = FRet (p', o) /\ unchanged p' p) /\
  (exists p', drm_fpb64 L p v dt o = FRet (p', o) /\ unchanged p' p) /\
  (exists p', drm_fvb64 L p v a dt o = FRet (p', o) /\ unchanged p' p) /\
  (exists p' o', drm_rpw64 L p v dt o w = FRet (p', o') /\ unchanged p' p /\ unchanged o' o) /\
  (exists p' o', drm_rvw64 L p v a dt o w = FRet (p', o') /\ unchanged p' p /\ unchanged o' o) /\
  (exists p' o', drm_rpb64 L p v dt o w = FRet (p', o') /\ unchanged p' p /\ unchanged o' o) /\
  (exists p' o', drm_rvb64 L p v a dt o w = FRet (p', o') /\ unchanged p' p /\ unchanged o' o).
Proof.
  intros HL Fp Fv Fa Fo Fw Ft Z M MW.
  assert (SQ : square L dt = FRet (l_square L dt)) by (apply square_ok; try assumption; rewrite Z; apply moderate_0).
  destruct (matrix_app L o HL Fo) as (m & EM & _). pose proof (matrix_small L o m HL Fo EM) as SM.
  assert (QD : unchanged (quadratic64 p v a dt (l_square L dt)) p).
  { intros i. unfold quadratic64. rewrite fc_map2, fc_map1. destruct (linear_still p v dt Fp Fv Ft Z i) as [F1 E1]. destruct (accel_still L (fc i a) dt HL (Fa i) Ft Z (proj2 (M i))) as [F2 E2].
    destruct (fadd_zero _ _ F1 F2 E2) as [F3 E3]. split; [exact F3|congruence]. }
  assert (PB : unchanged (linear64 p (l_matvec L m v) dt) p) by (apply linear_still; try assumption; apply matvec_fin; try assumption; intros i; apply M).
  assert (VB : unchanged (fmap2 fadd p (l_matvec L m (shift64 v a dt (l_square L dt)))) p).
  { assert (S0 : forall j, fin (fc j (shift64 v a dt (l_square L dt))) /\ val (fc j (shift64 v a dt (l_square L dt))) = 0).
    { intros j. unfold shift64. rewrite fc_map2, !fc_map1. destruct (fmul_zero (fc j v) dt (Fv j) Ft Z) as [F1 E1]. destruct (accel_still L (fc j a) dt HL (Fa j) Ft Z (proj2 (M j))) as [F2 E2].
      destruct (fadd_zero _ _ F1 F2 E2) as [F3 E3]. split; [exact F3|congruence]. }
    intros i. rewrite fc_map2. apply fadd_zero; [apply Fp| |].
    - apply matvec_fin; try assumption; intros j; [apply S0|]. rewrite (proj2 (S0 j)). unfold moderate. rewrite Rabs_R0. pose proof huge_pos. lra.
    - (* every product is zero, so every partial sum is *)
      pose proof (pairs_row L m (shift64 v a dt (l_square L dt)) i HL) as SO. revert SO. generalize (fc i (l_matvec L m (shift64 v a dt (l_square L dt)))). intros x SO.
      assert (AL : Forall (fun ab => fin (fst ab) /\ fin (snd ab) /\ val (snd ab) = 0) (pairs (match i with AX => f1 m | AY => f2 m | AZ => f3 m end) (shift64 v a dt (l_square L dt)))).
      { repeat constructor; cbn [fst snd]; first [exact (proj1 (SM i AX))|exact (proj1 (SM i AY))|exact (proj1 (SM i AZ))|exact (proj1 (S0 AX))|exact (proj1 (S0 AY))|exact (proj1 (S0 AZ))|exact (proj2 (S0 AX))|exact (proj2 (S0 AY))|exact (proj2 (S0 AZ))]. }
      revert AL. generalize dependent (pairs (match i with AX => f1 m | AY => f2 m | AZ => f3 m end) (shift64 v a dt (l_square L dt))). clear. intros l SO.
      enough (H : Forall (fun ab => fin (fst ab) /\ fin (snd ab) /\ val (snd ab) = 0) l -> fin x /\ val x = 0) by (intros A; exact (proj2 (H A))).
      induction SO as [a b|a b|a b|l l1 l2 x y P S1 IH1 S2 IH2|l l1 a b x P S1 IH1]; intros A.
      + inversion A as [|? ? (Ha & Hb & Vb) _]; subst. now apply fmul_zero.
      + inversion A as [|? ? (Ha & Hb & Vb) _]; subst. destruct (fmul_zero a b Ha Hb Vb). destruct (fadd_zero f_zero (fmul a b)) as [F E]; auto using fin_zero.
      + inversion A as [|? ? (Ha & Hb & Vb) _]; subst. cbn [fst snd] in *. destruct (ffma_rnd a b f_zero Ha Hb fin_zero) as [F E]; rewrite Vb, Rmult_0_r, val_zero, Rplus_0_r in *; [rewrite Rabs_R0; apply Rlt_le, huge_pos|].
        split; [exact F|]. rewrite E. apply round_0, valid_rnd_N.
      + apply (Permutation_Forall P) in A. apply Forall_app in A. destruct A as [A1 A2]. destruct (IH1 A1) as [F1 E1], (IH2 A2) as [F2 E2]. destruct (fadd_zero x y F1 F2 E2). split; [assumption|congruence].
      + apply (Permutation_Forall P) in A. inversion A as [|? ? (Ha & Hb & Vb) A1]; subst. cbn [fst snd] in *. destruct (IH1 A1) as [F1 E1].
        destruct (ffma_rnd a b x Ha Hb F1) as [F E]; rewrite Vb, Rmult_0_r, E1, Rplus_0_r in *; [rewrite Rabs_R0; apply Rlt_le, huge_pos|]. split; [exact F|]. rewrite E. apply round_0, valid_rnd_N. }
  assert (TU : forall v', exists o', drm_rpw64 L p v' dt o w = FRet (linear64 p v' dt, o') /\ unchanged o' o).
  { intros v'. unfold drm_rpw64, mcos, msin, mtan. rewrite !on_finite_fin by (first [exact (Fo AY)|exact (Fo AZ)]). cbn [fbind].
    unfold moderate, size1 in MW. cbn [real3 vx vy vz] in MW. pose proof (Rabs_pos (val (fx w))). pose proof (Rabs_pos (val (fy w))). pose proof (Rabs_pos (val (fz w))). rewrite Rabs_pos_eq in MW by lra. pose proof huge_pos.
    assert (MW' : 1000000000 * (1 + Rabs (val (fx w)) + Rabs (val (fy w)) + Rabs (val (fz w))) <= huge) by lra.
    destruct (rate_theta L (fz o) (fx w) (fy w) (fz w) HL (Fo AZ) (Fw AY) (Fw AZ) MW') as (F2 & _).
    destruct (below_tiny (l_cos L (fy o))) eqn:BT; eexists; (split; [reflexivity|]); intros []; cbn [fc fx fy fz].
    - apply still1; [exact (Fo AX)|exact fin_zero|exact Ft|exact Z].
    - apply still1; [exact (Fo AY)|exact F2|exact Ft|exact Z].
    - apply still1; [exact (Fo AZ)|exact (Fw AX)|exact Ft|exact Z].
    - apply branch_false in BT; [|exact HL|exact (Fo AY)]. destruct (rate_psi L (fy o) (fz o) (fx w) (fy w) (fz w) HL (Fo AY) (Fo AZ) (Fw AY) (Fw AZ) MW' BT) as (F1 & _). apply still1; [exact (Fo AX)|exact F1|exact Ft|exact Z].
    - apply still1; [exact (Fo AY)|exact F2|exact Ft|exact Z].
    - apply branch_false in BT; [|exact HL|exact (Fo AY)]. destruct (rate_phi L (fy o) (fz o) (fx w) (fy w) (fz w) HL (Fo AY) (Fo AZ) (Fw AX) (Fw AY) (Fw AZ) MW' BT) as (F1 & _). apply still1; [exact (Fo AZ)|exact F1|exact Ft|exact Z]. }
  pose proof (linear_still p v dt Fp Fv Ft Z) as LS. destruct (TU v) as (o1 & T1 & U1). destruct (TU (FV f_zero f_zero f_zero)) as (o2 & T2 & U2).
  unfold drm_fpw64, drm_fvw64, drm_fpb64, drm_fvb64, drm_rvw64, drm_rpb64, drm_rvb64. rewrite T1, T2, EM, SQ. cbn [fbind fst snd].
  repeat split; try exact LS; try (now (eexists; split; [reflexivity|assumption])); try (now (do 2 eexists; split; [reflexivity|split; assumption])); try apply LS.
Qed.

(** near gimbal lock the heading stays and the other two angles advance as in the exact algorithm *)
Theorem C68_gimbal L p v dt o w : accurate L -> fin dt -> fin3 o -> fin3 w -> (forall i, moderate (val (fc i o))) -> moderate (1000000000 * ((1 + size1 (real3 w)) * (1 + Rabs (val dt)))) ->
  Rabs (cos (val (fy o))) <= 9 / 10000000 ->
  exists p' o' pr orr, drm_rpw64 L p v dt o w = FRet (p', o') /\ drm_rpw (real3 p) (real3 v) (val dt) (real3 o) (real3 w) = Ret (pr, orr) /\
    val (fx o') = val (fx o) /\
    forall i, within (fc i o') (rc i orr) (16 * u * (Rabs (val (fc i o)) + size1 (real3 w) * Rabs (val dt)) + 1000000000 * eta * ((1 + size1 (real3 w)) * (1 + Rabs (val dt)))).
Proof.
  intros HL Ft Fo Fw Mo MW Near. unfold drm_rpw64, mcos, msin, mtan. rewrite !on_finite_fin by (first [exact (Fo AY)|exact (Fo AZ)]). cbn [fbind]. rewrite branch_near by (first [assumption|exact (Fo AY)]).
  unfold drm_rpw, to_numpy. cbn [real3 vx vy vz]. destruct (Rlt_dec (Rabs (cos (val (fy o)))) (1 / 1000000)) as [_|Z]; [|lra].
  cbn [pbind]. do 4 eexists. split; [reflexivity|]. split; [reflexivity|].
  consts. unfold moderate, size1 in *. cbn [real3 vx vy vz] in *. pose proof (Rabs_pos (val (fx w))). pose proof (Rabs_pos (val (fy w))). pose proof (Rabs_pos (val (fz w))). pose proof (Rabs_pos (val dt)) as t0.
  set (P := Rabs (val (fx w))) in *. set (Q := Rabs (val (fy w))) in *. set (S := Rabs (val (fz w))) in *. set (T := Rabs (val dt)) in *.
  assert (W0 : 0 <= (1 + (P + Q + S)) * T) by (apply Rmult_le_pos; lra).
  rewrite Rabs_pos_eq in MW by lra. assert (MW' : 1000000000 * (1 + P + Q + S) <= huge) by lra.
  pose proof (rate_theta L (fz o) (fx w) (fy w) (fz w) HL (Fo AZ) (Fw AY) (Fw AZ) MW') as R2. fold P Q S in R2.
  assert (E1 : eta * ((1 + P + Q + S) * T) <= eta * huge) by (apply Rmult_le_compat_l; lra). assert (E1' : 0 <= eta * ((1 + P + Q + S) * T)) by (apply Rmult_le_pos; lra).
  assert (E2 : 0 <= eta * (P + Q + S)) by (apply Rmult_le_pos; lra). assert (PT : 0 <= P * T) by (apply Rmult_le_pos; lra). assert (QT : 0 <= Q * T) by (apply Rmult_le_pos; lra). assert (ST : 0 <= S * T) by (apply Rmult_le_pos; lra).
  assert (Z0 : fin (fmul f_zero dt) /\ val (fmul f_zero dt) = 0).
  { destruct (fmul_rnd f_zero dt fin_zero Ft) as [F E]; rewrite val_zero, Rmult_0_l in *; [rewrite Rabs_R0; lra|]. split; [exact F|]. rewrite E. apply round_0, valid_rnd_N. }
  destruct (fadd_zero (fx o) _ (Fo AX) (proj1 Z0) (proj2 Z0)) as [Fx Ex].
  assert (FIN : forall a d D R, fin a -> Rabs (val a) <= huge / 64 -> app d D 9 R (40000000 * eta * (1 + P + Q + S)) -> R <= P + Q + S ->
    within (fadd a (fmul d dt)) (val a + D * val dt) (16 * u * (Rabs (val a) + (P + Q + S) * T) + 1000000000 * eta * ((1 + (P + Q + S)) * (1 + T)))).
  { intros a d D R Fa Ma A RT. assert (RT' : R * T <= (P + Q + S) * T) by (apply Rmult_le_compat_r; lra).
    pose proof (advance a d D dt 9 _ _ Fa A Ft ltac:(lra)) as Z. fold T in Z. specialize (Z ltac:(lra)). pose proof (app_B _ _ _ _ _ A) as R0. pose proof (Rabs_pos (val a)) as a0.
    destruct Z as (F & _ & _ & _ & E). split; [exact F|]. eapply Rle_trans; [exact E|]. assert (u * (Rabs (val a) + R * T) <= u * (Rabs (val a) + (P + Q + S) * T)) by (apply Rmult_le_compat_l; lra).
    assert (0 <= u * (Rabs (val a) + R * T)) by (apply Rmult_le_pos; [lra|]; assert (0 <= R * T) by (apply Rmult_le_pos; lra); lra). lra. }
  split; [exact Ex|]. intros []; cbn [fc rc fx fy fz vx vy vz]; fold P Q S.
  - split; [exact Fx|]. rewrite Ex. replace (val (fx o) - (val (fx o) + 0 * val dt)) with 0 by ring. rewrite Rabs_R0. pose proof (Rabs_pos (val (fx o))). assert (0 <= u * (Rabs (val (fx o)) + (P + Q + S) * T)) by (apply Rmult_le_pos; lra). lra.
  - eapply FIN; [exact (Fo AY)|exact (Mo AY)|exact R2|lra].
  - eapply FIN; [exact (Fo AZ)|exact (Mo AZ)| |]. { assert (0 <= eta * (1 + P + Q + S)) by (apply Rmult_le_pos; lra). eapply app_weak; [exact (app_exact (fx w) (Fw AX))|lra|apply Rle_refl|lra]. } fold P. lra.
Qed.

(** the rotating body-frame variants move like the fixed ones and turn like drm_rpw *)
Theorem C68_rotating L p v a dt o w p1 o1 : drm_rpw64 L p (FV f_zero f_zero f_zero) dt o w = FRet (p1, o1) ->
  (forall p' o', drm_fpb64 L p v dt o = FRet (p', o') -> drm_rpb64 L p v dt o w = FRet (p', o1)) /\
  (forall p' o', drm_fvb64 L p v a dt o = FRet (p', o') -> drm_rvb64 L p v a dt o w = FRet (p', o1)) /\
  (forall v', exists p2, drm_rpw64 L p v' dt o w = FRet (p2, o1)).
Proof.
  intros E. unfold drm_fpb64, drm_rpb64, drm_fvb64, drm_rvb64. rewrite E. cbn [fbind snd]. repeat split.
  - intros p' o'. destruct (get_rotation_matrix64 L (fx o) (fy o) (fz o)); cbn [fbind]; intros H; try discriminate. injection H as <- <-. reflexivity.
  - intros p' o'. destruct (get_rotation_matrix64 L (fx o) (fy o) (fz o)); cbn [fbind]; intros H; try discriminate. destruct (square L dt); cbn [fbind] in *; try discriminate. injection H as <- <-. reflexivity.
  - intros v'. unfold drm_rpw64 in *. destruct (mcos L (fz o)); cbn [fbind] in *; try discriminate. destruct (msin L (fz o)); cbn [fbind] in *; try discriminate. destruct (mcos L (fy o)); cbn [fbind] in *; try discriminate. destruct (mtan L (fy o)); cbn [fbind] in *; try discriminate.
    destruct (below_tiny a2); injection E as _ <-; eexists; reflexivity.
Qed.

(** C67 needs finite velocities: an infinite velocity, which a received datagram can contain, makes the position NaN even if no time has passed *)
Theorem C67_infinite p v dt o i : infinite (fc i v) -> fin dt -> val dt = 0 -> is_nan 53 1024 (fc i (fst (drm_fpw64 p v dt o))) = true.
Proof.
  intros [s I] F Z. cbn [fst drm_fpw64]. unfold linear64. rewrite fc_map2, fc_map1, I. destruct dt as [s'|s'|s' pl e|s' m e e']; try discriminate F.
  - set (n := fmul (B754_infinity 53 1024 s) (B754_zero 53 1024 s')). assert (N : is_nan 53 1024 n = true) by (destruct s, s'; reflexivity). destruct n; try discriminate N. destruct (fc i p); reflexivity.
  - exfalso. unfold val in Z. cbn in Z. apply eq_0_F2R in Z. cbn in Z. destruct s'; discriminate.
Qed.
Theorem C67_infinite_refuted : exists p v dt o, fin3 p /\ fin3 o /\ fin dt /\ val dt = 0 /\ v = FV (b64_of_bits (Bytes.widen 2139095040)) f_zero f_zero /\ ~ unchanged (fst (drm_fpw64 p v dt o)) p.
Proof.
  exists (FV f_zero f_zero f_zero), (FV (b64_of_bits (Bytes.widen 2139095040)) f_zero f_zero), f_zero, (FV f_zero f_zero f_zero).
  split; [now intros []|]. split; [now intros []|]. split; [reflexivity|]. split; [reflexivity|]. split; [reflexivity|]. intros U.
  destruct (U AX) as [F _]. pose proof (C67_infinite (FV f_zero f_zero f_zero) (FV (b64_of_bits (Bytes.widen 2139095040)) f_zero f_zero) f_zero (FV f_zero f_zero f_zero) AX) as N.
  assert (is_nan 53 1024 (fc AX (fst (drm_fpw64 (FV f_zero f_zero f_zero) (FV (b64_of_bits (Bytes.widen 2139095040)) f_zero f_zero) f_zero (FV f_zero f_zero f_zero)))) = true) as N1 by (apply N; [exists false; reflexivity|reflexivity|reflexivity]).
  revert F N1. generalize (fc AX (fst (drm_fpw64 (FV f_zero f_zero f_zero) (FV (b64_of_bits (Bytes.widen 2139095040)) f_zero f_zero) f_zero (FV f_zero f_zero f_zero)))). intros [] F N1; discriminate.
Qed.

(** ** Cases: a platform with correctly rounded functions, and a state *)
Definition ideal : platform := {| l_cos x := nearest (cos (val x)); l_sin x := nearest (sin (val x)); l_tan x := nearest (tan (val x)); l_square x := nearest (val x * val x);
  l_matvec m v := let row r := fadd (fadd (fmul (fx r) (fx v)) (fmul (fy r) (fy v))) (fmul (fz r) (fz v)) in FV (row (f1 m)) (row (f2 m)) (row (f3 m)) |}.
Lemma nearest_ulp X : Rabs X <= huge -> one_ulp (nearest X) X.
Proof. intros H. destruct (nearest_ok X H) as [F E]. split; [exact F|]. rewrite E. pose proof (rnd_err X). pose proof eta_pos. pose proof u_pos. assert (0 <= u * Rabs X) by (apply Rmult_le_pos; [lra|apply Rabs_pos]). lra. Qed.
Example ideal_accurate : accurate ideal.
Proof.
  pose proof huge_1000. split; cbn [ideal l_cos l_sin l_tan l_square l_matvec].
  - intros x _. apply nearest_ulp. assert (Rabs (cos (val x)) <= 1) by (apply Rabs_le, COS_bound). lra.
  - intros x _. apply nearest_ulp. assert (Rabs (sin (val x)) <= 1) by (apply Rabs_le, SIN_bound). lra.
  - intros x _ H'. now apply nearest_ulp.
  - intros x _ H'. now apply nearest_ulp.
  - intros x _ Z. rewrite Z, Rmult_0_l. rewrite (proj2 (nearest_ok 0 ltac:(rewrite Rabs_R0; lra))). apply round_0, valid_rnd_N.
  - assert (R : forall r v, sum_of (pairs r v) (fadd (fadd (fmul (fx r) (fx v)) (fmul (fy r) (fy v))) (fmul (fz r) (fz v)))).
    { intros r v. eapply (sum_add _ [(fx r, fx v); (fy r, fy v)] [(fz r, fz v)]); [apply Permutation_refl| |apply sum_one]. eapply (sum_add _ [(fx r, fx v)] [(fy r, fy v)]); [apply Permutation_refl|apply sum_one|apply sum_one]. }
    intros m v. repeat split; apply R.
Qed.
(** 6378137, -1.5 and 0; 250, 9.75 and 0; a quarter of a second *)
Definition case_p : fvec := FV (b64_of_bits 4708606483430899712) (b64_of_bits 13832806255468478464) f_zero.
Definition case_v : fvec := FV (b64_of_bits 4643000109586448384) (b64_of_bits 4621678380100616192) f_zero.
Definition case_dt : f64 := b64_of_bits 4598175219545276416.
Ltac value := cbn [fx fy fz case_p case_v]; unfold case_dt; value_of_bits; lra.
Lemma case_p_x : val (fx case_p) = 6378137. Proof. value. Qed.
Lemma case_p_y : val (fy case_p) = -3 / 2. Proof. value. Qed.
Lemma case_v_x : val (fx case_v) = 250. Proof. value. Qed.
Lemma case_v_y : val (fy case_v) = 39 / 4. Proof. value. Qed.
Lemma case_t : val case_dt = / 4. Proof. value. Qed.
Ltac bounds := rewrite ?case_p_x, ?case_p_y, ?case_v_x, ?case_v_y, ?case_t; change (val (fz case_p)) with 0; change (val (fz case_v)) with 0.
Lemma huge_100 : 2 ^ 100 <= huge. Proof. Transparent huge. unfold huge. Opaque huge. replace (2 ^ 100) with (bpow radix2 100) by (cbn; lra). apply bpow_le. lia. Qed.
Example C66_case : accurate ideal /\ fin3 case_p /\ fin3 case_v /\ fin case_dt /\ Rabs (val case_dt) <= 2 ^ 7 /\
  forall i, Rabs (val (fc i case_p)) <= 2 ^ 26 /\ Rabs (val (fc i case_v)) <= 2 ^ 14 /\ Rabs (val (fc i case_v)) <= 2 ^ 10.
Proof.
  split; [exact ideal_accurate|]. split; [now intros []|]. split; [now intros []|]. split; [reflexivity|].
  split; [bounds; rewrite Rabs_pos_eq; lra|]. intros []; cbn [fc]; bounds; repeat split; apply Rabs_le; lra.
Qed.
Example C66_drift_case : INR 100 <= 2 ^ 40 /\ forall i, moderate (2 * (Rabs (val (fc i case_p)) + INR 100 * Rabs (val (fc i case_v) * val case_dt)) + 1).
Proof.
  rewrite INR_IZR_INZ. cbn [Z.of_nat Pos.of_succ_nat Pos.succ]. split; [lra|]. pose proof huge_100. intros []; unfold moderate; cbn [fc]; bounds; apply Rabs_le;
    (match goal with |- context [Rabs ?a + 100 * Rabs ?b] => assert (0 <= Rabs a <= 10000000) by (split; [apply Rabs_pos|apply Rabs_le; lra]); assert (0 <= Rabs b <= 10000000) by (split; [apply Rabs_pos|apply Rabs_le; lra]) end); lra.
Qed.
Lemma case_size : size1 (real3 case_v) = 1039 / 4.
Proof. unfold size1. cbn [real3 vx vy vz]. bounds. rewrite Rabs_R0, !Rabs_pos_eq; lra. Qed.
(** the orientation 0, 0, 0 and the rates 250, 9.75, 0 *)
Definition case_o : fvec := FV f_zero f_zero f_zero.
Lemma case_o_val i : val (fc i case_o) = 0. Proof. destruct i; reflexivity. Qed.
Lemma moderate_case x : Rabs x <= 2 ^ 90 -> moderate x. Proof. intros H. unfold moderate. pose proof huge_100. lra. Qed.
Example C68_case : fin3 case_o /\ (forall i, moderate (val (fc i case_o))) /\ (forall i, moderate (val (fc i case_p)) /\ moderate (val (fc i case_v))) /\
  moderate (size1 (real3 case_v)) /\ moderate ((1 + size1 (real3 case_v)) * val case_dt) /\ moderate (val case_dt * val case_dt) /\ moderate (size1 (real3 case_v) * val case_dt) /\ moderate (size1 (real3 case_v) * (val case_dt * val case_dt)) /\
  moderate (1000000000 * (1 + size1 (real3 case_v))) /\ moderate (1000000000 * ((1 + size1 (real3 case_v)) * (1 + Rabs (val case_dt)))) /\ 11 / 10000000 <= Rabs (cos (val (fy case_o))).
Proof.
  split; [now intros []|]. split; [intros i; apply moderate_case; rewrite case_o_val, Rabs_R0; lra|].
  split; [intros []; cbn [fc]; bounds; split; apply moderate_case, Rabs_le; lra|].
  rewrite case_size, case_t. rewrite (Rabs_pos_eq (/ 4)) by lra. change (val (fy case_o)) with 0. rewrite cos_0, Rabs_R1. repeat split; try (apply moderate_case, Rabs_le; lra). lra.
Qed.
(** a pitch near a right angle: the number nearest to pi / 2 *)
Lemma small_sin x : Rabs x <= 1 -> Rabs (sin x) <= Rabs x.
Proof.
  intros H. apply Rabs_le_inv in H. assert (P : 3 < PI) by (pose proof PI2_3_2; lra). destruct (Rle_or_lt 0 x) as [[L| <-]|L].
  - rewrite (Rabs_pos_eq x) by lra. rewrite Rabs_pos_eq by (apply sin_ge_0; lra). apply Rlt_le, sin_lt_x, L.
  - rewrite sin_0. lra.
  - rewrite <- (Rabs_Ropp x), <- Rabs_Ropp, <- sin_neg. rewrite (Rabs_pos_eq (- x)) by lra. rewrite Rabs_pos_eq by (apply sin_ge_0; lra). apply Rlt_le, sin_lt_x. lra.
Qed.
Example C68_gimbal_case : fin (nearest (PI / 2)) /\ Rabs (cos (val (nearest (PI / 2)))) <= 9 / 10000000.
Proof.
  consts. pose proof PI_4. pose proof PI_RGT_0. assert (A : Rabs (PI / 2) <= 2) by (rewrite Rabs_pos_eq; lra). destruct (nearest_ok (PI / 2) ltac:(lra)) as [F E]. split; [exact F|]. rewrite E, cos_sin.
  pose proof (rnd_err (PI / 2)) as R. set (x := rnd (PI / 2)) in *. assert (u * Rabs (PI / 2) <= u * 2) by (apply Rmult_le_compat_l; lra). pose proof eta_u.
  replace (PI / 2 + x) with (PI + (x - PI / 2)) by field. rewrite Rplus_comm, neg_sin, Rabs_Ropp. pose proof (small_sin (x - PI / 2) ltac:(lra)). lra.
Qed.
Definition all_PropDR64 := (C66_fpw, C66_fvw, C66_rpw, C66_rvw, C66_micrometre, C66_drift, C68_matrix, C68_fpb, C68_fvb, C68_turn, C68_gimbal, C68_rotating, C67_still, C67_infinite, C67_infinite_refuted, C66_case, C66_drift_case, C68_case, C68_gimbal_case).
Print Assumptions all_PropDR64.
