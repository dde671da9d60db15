(** C40-C44, C52: dead reckoning (opendis/DeadReckoning.py) *)
From Coq Require Import Reals Lra Nsatz.
From Verif Require Import Real3 DeadReckoning.
Local Open Scope R_scope.

(** *** C40 *)
Theorem C40_rotation psi theta phi : get_rotation_matrix psi theta phi = mmul (mmul (Rz psi) (Ry theta)) (Rx phi) /\ rotation (get_rotation_matrix psi theta phi).
Proof.
  assert (E : get_rotation_matrix psi theta phi = euler psi theta phi) by (unfold euler, get_rotation_matrix, Rz, Ry, Rx; veq).
  split; [exact E|]. rewrite E. apply rot_euler.
Qed.

(** a quarter turn about z takes the x axis to the y axis *)
Example C40_case : mapply (get_rotation_matrix (PI / 2) 0 0) (V 1 0 0) = V 0 1 0.
Proof. unfold get_rotation_matrix. cbv zeta. rewrite cos_PI2, sin_PI2, cos_0, sin_0. veq. Qed.

(** *** C41 *)
Lemma still p v : vadd p (vscale 0 v) = p.
Proof. destruct p. veq. Qed.
Lemma still2 p v a : vadd (vadd p (vscale 0 v)) (vscale (0 ^ 2) (vscale (1 / 2) a)) = p.
Proof. destruct p. veq. Qed.

Lemma rpw_total p v dt o w : exists o', drm_rpw p v dt o w = Ret (vadd p (vscale dt v), o').
Proof.
  unfold drm_rpw. cbv zeta. destruct (Rlt_dec _ _) as [H|H]; cbn [pbind]; [eauto|].
  rewrite pdiv_ok; [cbn [pbind]; eauto|]. intros E. rewrite E, Rabs_R0 in H. lra.
Qed.
Lemma rpw_still p v o w : drm_rpw p v 0 o w = Ret (p, o).
Proof.
  assert (Z : forall a b c d e f, V (a + d * 0) (b + e * 0) (c + f * 0) = V a b c) by (intros; f_equal; ring).
  unfold drm_rpw. cbv zeta. rewrite still. destruct (Rlt_dec _ _) as [H|H]; cbn [pbind].
  - rewrite Z. now destruct o.
  - rewrite pdiv_ok; [|intros E; rewrite E, Rabs_R0 in H; lra]. cbn [pbind]. rewrite Z. now destruct o.
Qed.

Theorem C41_zero_time p v a o w :
  drm_static p o = (p, o) /\ drm_fpw p v 0 o = (p, o) /\ drm_fvw p v a 0 o = (p, o) /\ drm_fpb p v 0 o = (p, o) /\ drm_fvb p v a 0 o = (p, o) /\
  drm_rpw p v 0 o w = Ret (p, o) /\ drm_rvw p v a 0 o w = Ret (p, o) /\ drm_rpb p v 0 o w = Ret (p, o) /\ drm_rvb p v a 0 o w = Ret (p, o).
Proof.
  unfold drm_static, drm_fpw, drm_fvw, drm_fpb, drm_fvb, drm_rvw, drm_rpb, drm_rvb, to_numpy. cbv zeta. rewrite !rpw_still. cbn [pbind snd].
  repeat split; try reflexivity; f_equal; try f_equal; try apply still; try apply still2.
  all: destruct p; veq.
Qed.

(** *** C42 *)
Theorem C42_fpw p v o t1 t2 : let (p1, o1) := drm_fpw p v t1 o in o1 = o /\ drm_fpw p1 v t2 o1 = drm_fpw p v (t1 + t2) o.
Proof. unfold drm_fpw, to_numpy. cbv zeta. split; [reflexivity|]. f_equal. veq. Qed.

(** after t1 the velocity of a uniformly accelerated body is v + t1 a *)
Theorem C42_fvw p v a o t1 t2 : let (p1, o1) := drm_fvw p v a t1 o in o1 = o /\ drm_fvw p1 (vadd v (vscale t1 a)) a t2 o1 = drm_fvw p v a (t1 + t2) o.
Proof. unfold drm_fvw, to_numpy. cbv zeta. split; [reflexivity|]. f_equal. vecs. f_equal; field. Qed.

(** the rotating algorithms move the position in the same way, whatever the orientations and angular velocities *)
Theorem C42_rpw p v o o' o2 w w' w2 t1 t2 : exists p1 q1 p2 q2 q3, drm_rpw p v t1 o w = Ret (p1, q1) /\ drm_rpw p1 v t2 o' w' = Ret (p2, q2) /\
  drm_rpw p v (t1 + t2) o2 w2 = Ret (p2, q3).
Proof.
  destruct (rpw_total p v t1 o w) as (q1 & E1). destruct (rpw_total (vadd p (vscale t1 v)) v t2 o' w') as (q2 & E2). destruct (rpw_total p v (t1 + t2) o2 w2) as (q3 & E3).
  exists (vadd p (vscale t1 v)), q1, (vadd (vadd p (vscale t1 v)) (vscale t2 v)), q2, q3. split; [exact E1|]. split; [exact E2|]. rewrite E3. do 2 f_equal. veq.
Qed.
Theorem C42_rvw p v a o o' o2 w w' w2 t1 t2 : exists p1 q1 p2 q2 q3, drm_rvw p v a t1 o w = Ret (p1, q1) /\ drm_rvw p1 (vadd v (vscale t1 a)) a t2 o' w' = Ret (p2, q2) /\
  drm_rvw p v a (t1 + t2) o2 w2 = Ret (p2, q3).
Proof.
  unfold drm_rvw, to_numpy. cbv zeta.
  destruct (rpw_total p v t1 o w) as (q1 & E1). rewrite E1. cbn [pbind snd].
  destruct (rpw_total p v (t1 + t2) o2 w2) as (q3 & E3). rewrite E3. cbn [pbind snd].
  do 2 eexists. 
  match goal with |- exists p2 q2 q3, Ret ?x = _ /\ _ => idtac end.
  destruct (rpw_total (vadd (vadd p (vscale t1 v)) (vscale (t1 ^ 2) (vscale (1 / 2) a))) (vadd v (vscale t1 a)) t2 o' w') as (q2 & E2).
  do 3 eexists. split; [reflexivity|]. rewrite E2. cbn [pbind snd]. split; [reflexivity|]. do 2 f_equal. vecs. f_equal; field.
Qed.
(** the rotating world algorithms turn the body exactly alike; with no angular velocity they are the fixed ones *)
Theorem C42_rotating p v a o w dt : exists q, (exists p1, drm_rpw p v dt o w = Ret (p1, q)) /\ drm_rvw p v a dt o w = Ret (fst (drm_fvw p v a dt o), q) /\
  fst (drm_fvw p v vzero dt o) = fst (drm_fpw p v dt o).
Proof.
  destruct (rpw_total p v dt o w) as (q & E). exists q. split; [eauto|]. split; [unfold drm_rvw; cbv zeta; rewrite E; reflexivity|].
  unfold drm_fvw, drm_fpw, to_numpy. cbv zeta. cbn [fst]. veq.
Qed.
Theorem C42_no_turn p v o dt : drm_rpw p v dt o vzero = Ret (drm_fpw p v dt o).
Proof.
  unfold drm_rpw, drm_fpw, to_numpy, vzero. cbv zeta. cbn [vx vy vz]. destruct (Rlt_dec _ _) as [H|H]; cbn [pbind].
  - do 2 f_equal. destruct o. cbn. f_equal; ring.
  - assert (N : cos (vy o) <> 0) by (intros E; rewrite E, Rabs_R0 in H; lra). rewrite pdiv_ok by exact N. cbn [pbind]. do 2 f_equal. destruct o. cbn in *. f_equal; field. exact N.
Qed.

(** *** C43 *)
(** the displacement of a result from p *)
Definition moved (p : vec) (r : vec * vec) : vec := vsub (fst r) p.
Lemma moved_add p d o : moved p (vadd p d, o) = d.
Proof. unfold moved. cbn [fst]. destruct d. veq. Qed.

Theorem C43_fixed p v a dt o : exists m, rotation m /\ m = get_rotation_matrix (vx o) (vy o) (vz o) /\
  moved p (drm_fpb p v dt o) = mapply m (moved p (drm_fpw p v dt o)) /\ moved p (drm_fvb p v a dt o) = mapply m (moved p (drm_fvw p v a dt o)) /\
  norm (moved p (drm_fpb p v dt o)) = norm (vscale dt v) /\ norm (moved p (drm_fvb p v a dt o)) = norm (vadd (vscale dt v) (vscale (dt ^ 2 / 2) a)) /\
  snd (drm_fpb p v dt o) = o /\ snd (drm_fvb p v a dt o) = o.
Proof.
  exists (get_rotation_matrix (vx o) (vy o) (vz o)). pose proof (proj2 (C40_rotation (vx o) (vy o) (vz o))) as H. split; [exact H|]. split; [reflexivity|].
  unfold drm_fpb, drm_fvb, drm_fpw, drm_fvw, to_numpy. cbv zeta. rewrite !moved_add, <- mapply_scale. cbn [snd].
  replace (moved p (vadd (vadd p (vscale dt v)) (vscale (dt ^ 2) (vscale (1 / 2) a)), o)) with (vadd (vscale dt v) (vscale (dt ^ 2) (vscale (1 / 2) a))) by (unfold moved; cbn [fst]; veq).
  assert (E : vscale (dt ^ 2) (vscale (1 / 2) a) = vscale (dt ^ 2 / 2) a) by (clear H; vecs; f_equal; field). rewrite !E.
  rewrite !rot_norm by exact H. repeat split; reflexivity.
Qed.
Theorem C43_rotating p v a dt o w : exists q, drm_rpb p v dt o w = Ret (fst (drm_fpb p v dt o), q) /\ drm_rvb p v a dt o w = Ret (fst (drm_fvb p v a dt o), q) /\
  (exists p1, drm_rpw p v dt o w = Ret (p1, q)).
Proof.
  unfold drm_rpb, drm_rvb, drm_fpb, drm_fvb, to_numpy. cbv zeta. destruct (rpw_total p vzero dt o w) as (q & E). rewrite E. cbn [pbind snd fst]. exists q.
  split; [reflexivity|]. split; [reflexivity|]. exists (vadd p (vscale dt v)). revert E. unfold drm_rpw. cbv zeta. destruct (if Rlt_dec _ _ then _ else _) as [[[d1 d2] d3]|]; cbn [pbind]; [|discriminate].
  intros [= <-]. reflexivity.
Qed.
Theorem C43_aligned p v a dt : drm_fpb p v dt vzero = drm_fpw p v dt vzero /\ drm_fvb p v a dt vzero = drm_fvw p v a dt vzero.
Proof.
  unfold drm_fpb, drm_fvb, drm_fpw, drm_fvw, to_numpy, vzero. cbn [vx vy vz]. cbv zeta.
  replace (get_rotation_matrix 0 0 0) with ident by (unfold get_rotation_matrix, ident; cbv zeta; rewrite sin_0, cos_0; f_equal; f_equal; ring).
  rewrite !mapply_1. split; [reflexivity|]. f_equal. veq.
Qed.

(** *** C44 *)
(** the orientation drm_rpw returns *)
Definition turned (o w : vec) (dt : R) : vec := match drm_rpw vzero vzero dt o w with Ret r => snd r | Raise _ => vzero end.
Lemma turned_is p v dt o w : drm_rpw p v dt o w = Ret (vadd p (vscale dt v), turned o w dt).
Proof.
  unfold turned, drm_rpw. cbv zeta.
  destruct (Rlt_dec _ _) as [H|H]; cbn [pbind]; [reflexivity|]. rewrite pdiv_ok; [reflexivity|]. intros E. rewrite E, Rabs_R0 in H. lra.
Qed.

(** it never raises *)
Theorem C44_total p v dt o w : exists r, drm_rpw p v dt o w = Ret r.
Proof. rewrite turned_is. eauto. Qed.

(** F is differentiable at t, entry by entry, with derivative D *)
Definition mderiv (F : R -> mat) (t : R) (D : mat) : Prop :=
  forall row coord, List.In row (cons r1 (cons r2 (cons r3 nil))) -> List.In coord (cons vx (cons vy (cons vz nil))) -> derivable_pt_lim (fun s => coord (row (F s))) t (coord (row D)).
(** the cross product with the angular velocity, as a matrix *)
Definition spin (w : vec) : mat := Mat (V 0 (- vz w) (vy w)) (V (vz w) 0 (- vx w)) (V (- vy w) (vx w) 0).
Lemma spin_cross w u : mapply (spin w) u = vcross w u.
Proof. unfold spin. veq. Qed.

Lemma d_eq f a b : derivable_pt_lim f 0 a -> a = b -> derivable_pt_lim f 0 b.
Proof. now intros H <-. Qed.
Lemma d_aff a b : derivable_pt_lim (fun s => a + b * s) 0 b.
Proof.
  apply (d_eq _ (0 + b * 1)); [|ring]. apply (derivable_pt_lim_plus (fun _ => a) (fun s => b * s)); [apply derivable_pt_lim_const|]. apply (derivable_pt_lim_scal id b). apply derivable_pt_lim_id.
Qed.
Lemma d_cos a b : derivable_pt_lim (fun s => cos (a + b * s)) 0 (- sin a * b).
Proof.
  pose proof (derivable_pt_lim_comp (fun s => a + b * s) cos 0 b (- sin (a + b * 0)) (d_aff a b) (derivable_pt_lim_cos _)) as H.
  unfold comp in H. replace (a + b * 0) with a in H by ring. exact H.
Qed.
Lemma d_sin a b : derivable_pt_lim (fun s => sin (a + b * s)) 0 (cos a * b).
Proof.
  pose proof (derivable_pt_lim_comp (fun s => a + b * s) sin 0 b (cos (a + b * 0)) (d_aff a b) (derivable_pt_lim_sin _)) as H.
  unfold comp in H. replace (a + b * 0) with a in H by ring. exact H.
Qed.
Lemma d_mult f g a b c d : derivable_pt_lim f 0 a -> derivable_pt_lim g 0 b -> f 0 = c -> g 0 = d -> derivable_pt_lim (fun s => f s * g s) 0 (a * d + c * b).
Proof. intros A B <- <-. apply (derivable_pt_lim_mult f g); assumption. Qed.
Lemma d_plus f g a b : derivable_pt_lim f 0 a -> derivable_pt_lim g 0 b -> derivable_pt_lim (fun s => f s + g s) 0 (a + b).
Proof. apply (derivable_pt_lim_plus f g). Qed.
Lemma d_minus f g a b : derivable_pt_lim f 0 a -> derivable_pt_lim g 0 b -> derivable_pt_lim (fun s => f s - g s) 0 (a - b).
Proof. apply (derivable_pt_lim_minus f g). Qed.
Lemma d_opp f a : derivable_pt_lim f 0 a -> derivable_pt_lim (fun s => - f s) 0 (- a).
Proof. apply (derivable_pt_lim_opp f). Qed.

(** away from gimbal lock the Euler angles advance at the rate that turns the body with angular velocity w (body axes):
    the rotation matrix of the returned orientation has derivative R [w]x at dt = 0 *)
Theorem C44_kinematics o w : 1 / 1000000 <= Rabs (cos (vy o)) ->
  mderiv (fun t => get_rotation_matrix (vx (turned o w t)) (vy (turned o w t)) (vz (turned o w t))) 0 (mmul (get_rotation_matrix (vx o) (vy o) (vz o)) (spin w)).
Proof.
  intros H. assert (N : cos (vy o) <> 0) by (intros E; rewrite E, Rabs_R0 in H; lra).
  set (b1 := (vy w * sin (vz o) + vz w * cos (vz o)) / cos (vy o)). set (b2 := vy w * cos (vz o) - vz w * sin (vz o)). set (b3 := vx w + (vy w * sin (vz o) + vz w * cos (vz o)) * tan (vy o)).
  assert (T : forall t, turned o w t = V (vx o + b1 * t) (vy o + b2 * t) (vz o + b3 * t)).
  { intros t. unfold turned, drm_rpw, to_numpy. cbv zeta. destruct (Rlt_dec _ _); [lra|]. cbn [pbind]. rewrite pdiv_ok by exact N. reflexivity. }
  assert (K1 : b1 * cos (vy o) = vy w * sin (vz o) + vz w * cos (vz o)) by (unfold b1; field; exact N).
  assert (K3 : b3 = vx w + b1 * sin (vy o)) by (unfold b3, b1, tan; field; exact N).
  pose proof (sc (vz o)) as S3.
  assert (Kq : vy w = b1 * cos (vy o) * sin (vz o) + b2 * cos (vz o)). { rewrite K1. unfold b2. transitivity (vy w * (sin (vz o) * sin (vz o) + cos (vz o) * cos (vz o))); [rewrite S3; ring|ring]. }
  assert (Kr : vz w = b1 * cos (vy o) * cos (vz o) - b2 * sin (vz o)). { rewrite K1. unfold b2. transitivity (vz w * (sin (vz o) * sin (vz o) + cos (vz o) * cos (vz o))); [rewrite S3; ring|ring]. }
  assert (Kp : vx w = b3 - b1 * sin (vy o)) by lra.
  clearbody b1 b2 b3. clear K1 K3 H.
  assert (E0 : forall a b, a + b * 0 = a) by (intros; ring).
  assert (DC : forall a b, derivable_pt_lim (fun s => cos (a + b * s)) 0 (- sin a * b)) by (intros; apply d_cos).
  assert (DS : forall a b, derivable_pt_lim (fun s => sin (a + b * s)) 0 (cos a * b)) by (intros; apply d_sin).
  pose proof (sc (vx o)) as S1. pose proof (sc (vy o)) as S2.
  intros row coord Hr Hc.
  assert (D : derivable_pt_lim (fun s => coord (row (get_rotation_matrix (vx o + b1 * s) (vy o + b2 * s) (vz o + b3 * s)))) 0 (coord (row (mmul (get_rotation_matrix (vx o) (vy o) (vz o)) (spin w))))).
  2:{ eapply derivable_pt_lim_ext; [|exact D]. intros s. cbv beta. now rewrite T. }
  unfold get_rotation_matrix. cbv zeta.
  cbn [List.In] in Hr, Hc.
  destruct Hr as [<-|[<-|[<-|[]]]]; destruct Hc as [<-|[<-|[<-|[]]]]; cbn [r1 r2 r3 vx vy vz mmul transposed vdot spin];
    (eapply d_eq; [repeat first [apply DC | apply DS | apply d_opp | apply d_plus | apply d_minus | eapply d_mult; [| |reflexivity|reflexivity]]|]); cbv beta; rewrite ?E0.
  all: rewrite ?Kp, ?Kq, ?Kr; clear - S1 S2 S3;
    generalize dependent (sin (vx o)); generalize dependent (cos (vx o)); generalize dependent (sin (vy o)); generalize dependent (cos (vy o)); generalize dependent (sin (vz o)); generalize dependent (cos (vz o)); intros; unfold vdot; cbn [vx vy vz]; nsatz.
Qed.

(** at the guarded singularity: yaw stays, pitch still follows the angular velocity *)
Theorem C44_gimbal o w dt : Rabs (cos (vy o)) < 1 / 1000000 ->
  turned o w dt = V (vx o) (vy o + (vy w * cos (vz o) - vz w * sin (vz o)) * dt) (vz o + vx w * dt).
Proof.
  intros H. unfold turned, drm_rpw, to_numpy. cbv zeta. destruct (Rlt_dec _ _); [|contradiction]. cbn [pbind snd]. f_equal. ring.
Qed.

Example C44_case : 1 / 1000000 <= Rabs (cos (vy (V 0 (PI / 3) 0))) /\ Rabs (cos (vy (V 1 (PI / 2) 2))) < 1 / 1000000.
Proof. cbn [vy]. rewrite cos_PI3, cos_PI2, Rabs_R0, Rabs_pos_eq; lra. Qed.

(** *** C52 *)
Theorem C52_angular_velocity w u : mapply (get_angular_velocity_matrix w) u = vcross w u /\ transposed (get_angular_velocity_matrix w) = mscale (-1) (get_angular_velocity_matrix w).
Proof. split; unfold get_angular_velocity_matrix; cbv zeta; veq. Qed.

Definition all_PropDR := (C40_rotation, C41_zero_time, (C42_fpw, C42_fvw, C42_rpw, C42_rvw, C42_rotating, C42_no_turn), (C43_fixed, C43_rotating, C43_aligned), (C44_total, C44_kinematics, C44_gimbal), C52_angular_velocity).
Print Assumptions all_PropDR.
