(** Three-dimensional vectors, 3x3 matrices and atan2 over the reals: the operations numpy and math provide to opendis/DeadReckoning.py and opendis/RangeCoordinates.py.
    SIMPLIFICATION: IEEE double arithmetic is replaced by exact real arithmetic; numpy arrays of shape (3,) and (3,3) are the only arrays. *)
From Coq Require Import Reals Lra List.
Import ListNotations.
Local Open Scope R_scope.

(** *** Python outcomes of numeric code *)
Inductive pyerr := ZeroDivision | MathDomain | BadIndex | PlainException.
Inductive py (A : Type) := Ret (a : A) | Raise (e : pyerr).
Arguments Ret {A} _. Arguments Raise {A} _.
Definition pbind {A B} (x : py A) (k : A -> py B) : py B := match x with Ret a => k a | Raise e => Raise e end.
Notation "x <-? e ; k" := (pbind e (fun x => k)) (at level 61, e at next level, right associativity).
(** x / y *)
Definition pdiv (x y : R) : py R := if Req_EM_T y 0 then Raise ZeroDivision else Ret (x / y).
(** math.sqrt *)
Definition psqrt (x : R) : py R := if Rlt_dec x 0 then Raise MathDomain else Ret (sqrt x).

Lemma pdiv_ok x y : y <> 0 -> pdiv x y = Ret (x / y).
Proof. intros H. unfold pdiv. destruct (Req_EM_T y 0); [contradiction|reflexivity]. Qed.
Lemma psqrt_ok x : 0 <= x -> psqrt x = Ret (sqrt x).
Proof. intros H. unfold psqrt. destruct (Rlt_dec x 0); [lra|reflexivity]. Qed.

(** *** Vectors and matrices (by rows) *)
Record vec := V { vx : R; vy : R; vz : R }.
Record mat := Mat { r1 : vec; r2 : vec; r3 : vec }.
Definition vadd u v := V (vx u + vx v) (vy u + vy v) (vz u + vz v).
Definition vsub u v := V (vx u - vx v) (vy u - vy v) (vz u - vz v).
Definition vscale k v := V (k * vx v) (k * vy v) (k * vz v).
Definition vdot u v := vx u * vx v + vy u * vy v + vz u * vz v.
Definition vcross u v := V (vy u * vz v - vz u * vy v) (vz u * vx v - vx u * vz v) (vx u * vy v - vy u * vx v).
Definition norm v := sqrt (vdot v v).
Definition vzero := V 0 0 0.
Definition mapply m v := V (vdot (r1 m) v) (vdot (r2 m) v) (vdot (r3 m) v).
Definition transposed m := Mat (V (vx (r1 m)) (vx (r2 m)) (vx (r3 m))) (V (vy (r1 m)) (vy (r2 m)) (vy (r3 m))) (V (vz (r1 m)) (vz (r2 m)) (vz (r3 m))).
Definition mmul a b := let t := transposed b in
  Mat (V (vdot (r1 a) (r1 t)) (vdot (r1 a) (r2 t)) (vdot (r1 a) (r3 t)))
      (V (vdot (r2 a) (r1 t)) (vdot (r2 a) (r2 t)) (vdot (r2 a) (r3 t)))
      (V (vdot (r3 a) (r1 t)) (vdot (r3 a) (r2 t)) (vdot (r3 a) (r3 t))).
Definition madd a b := Mat (vadd (r1 a) (r1 b)) (vadd (r2 a) (r2 b)) (vadd (r3 a) (r3 b)).
Definition mscale k m := Mat (vscale k (r1 m)) (vscale k (r2 m)) (vscale k (r3 m)).
Definition ident := Mat (V 1 0 0) (V 0 1 0) (V 0 0 1).
Definition det m := vdot (r1 m) (vcross (r2 m) (r3 m)).
(** columns *)
Definition cols m := transposed m.

(** a rotation: orthogonal, of determinant one *)
Definition rotation m := mmul m (transposed m) = ident /\ mmul (transposed m) m = ident /\ det m = 1.

(** the elementary rotations about the z, y and x axes *)
Definition Rz a := Mat (V (cos a) (- sin a) 0) (V (sin a) (cos a) 0) (V 0 0 1).
Definition Ry a := Mat (V (cos a) 0 (sin a)) (V 0 1 0) (V (- sin a) 0 (cos a)).
Definition Rx a := Mat (V 1 0 0) (V 0 (cos a) (- sin a)) (V 0 (sin a) (cos a)).
(** the rotation with Euler angles psi, theta, phi (z, then y, then x) *)
Definition euler psi theta phi := mmul (mmul (Rz psi) (Ry theta)) (Rx phi).

Lemma vec_ext u v : vx u = vx v -> vy u = vy v -> vz u = vz v -> u = v.
Proof. destruct u, v. cbn. now intros -> -> ->. Qed.
Lemma mat_ext m n : vx (r1 m) = vx (r1 n) -> vy (r1 m) = vy (r1 n) -> vz (r1 m) = vz (r1 n) -> vx (r2 m) = vx (r2 n) -> vy (r2 m) = vy (r2 n) -> vz (r2 m) = vz (r2 n) ->
  vx (r3 m) = vx (r3 n) -> vy (r3 m) = vy (r3 n) -> vz (r3 m) = vz (r3 n) -> m = n.
Proof. destruct m as [[] [] []], n as [[] [] []]. cbn. now intros -> -> -> -> -> -> -> -> ->. Qed.
(** prove an equality of scalars, vectors or matrices coordinatewise *)
Ltac coords := cbn [r1 r2 r3 vx vy vz vadd vsub vscale vcross vdot vzero mapply transposed mmul madd mscale ident det].
Ltac vexp := try apply mat_ext; try apply vec_ext; unfold norm; coords; repeat (progress unfold det, vdot; coords).
Ltac veq := vexp; ring.
Ltac vecs := unfold rotation, det, mmul, mapply, madd, mscale, transposed, ident, vadd, vsub, vscale, vcross, vdot, vzero in *; cbn [r1 r2 r3 vx vy vz] in *.

Lemma sc a : sin a * sin a + cos a * cos a = 1.
Proof. pose proof (sin2_cos2 a) as H. unfold Rsqr in H. lra. Qed.

Lemma mmul_assoc a b c : mmul (mmul a b) c = mmul a (mmul b c). Proof. veq. Qed.
Lemma mmul_1_l a : mmul ident a = a. Proof. veq. Qed.
Lemma mmul_1_r a : mmul a ident = a. Proof. veq. Qed.
Lemma tr_mul a b : transposed (mmul a b) = mmul (transposed b) (transposed a). Proof. veq. Qed.
Lemma tr_tr a : transposed (transposed a) = a. Proof. destruct a as [[] [] []]. reflexivity. Qed.
Lemma det_mul a b : det (mmul a b) = det a * det b. Proof. veq. Qed.
Lemma det_tr a : det (transposed a) = det a. Proof. veq. Qed.
Lemma mapply_mul a b v : mapply (mmul a b) v = mapply a (mapply b v). Proof. veq. Qed.
Lemma mapply_1 v : mapply ident v = v. Proof. veq. Qed.
Lemma mapply_add a u v : mapply a (vadd u v) = vadd (mapply a u) (mapply a v). Proof. veq. Qed.
Lemma mapply_scale a k v : mapply a (vscale k v) = vscale k (mapply a v). Proof. veq. Qed.
Lemma dot_tr a u v : vdot (mapply a u) v = vdot u (mapply (transposed a) v). Proof. veq. Qed.
Lemma dot_comm u v : vdot u v = vdot v u. Proof. veq. Qed.

Lemma rot_mul a b : rotation a -> rotation b -> rotation (mmul a b).
Proof.
  intros (A1 & A2 & A3) (B1 & B2 & B3). unfold rotation. rewrite tr_mul, det_mul, A3, B3. repeat split; [| |ring].
  - rewrite mmul_assoc, <- (mmul_assoc b), B1, mmul_1_l. exact A1.
  - rewrite mmul_assoc, <- (mmul_assoc (transposed a)), A2, mmul_1_l. exact B2.
Qed.
Lemma rot_tr a : rotation a -> rotation (transposed a).
Proof. intros (A1 & A2 & A3). unfold rotation. rewrite tr_tr, det_tr. auto. Qed.

Ltac trig a := pose proof (sc a); generalize dependent (sin a); intros; generalize dependent (cos a); intros.
Lemma rot_z a : rotation (Rz a).
Proof. pose proof (sc a). unfold Rz, rotation. repeat split; vexp; lra. Qed.
Lemma rot_y a : rotation (Ry a).
Proof. pose proof (sc a). unfold Ry, rotation. repeat split; vexp; lra. Qed.
Lemma rot_x a : rotation (Rx a).
Proof. pose proof (sc a). unfold Rx, rotation. repeat split; vexp; lra. Qed.
Lemma rot_euler a b c : rotation (euler a b c).
Proof. apply rot_mul; [apply rot_mul|]; auto using rot_x, rot_y, rot_z. Qed.

(** rotations preserve scalar products, lengths and cross products *)
Lemma rot_dot m u v : rotation m -> vdot (mapply m u) (mapply m v) = vdot u v.
Proof. intros (_ & H & _). now rewrite dot_tr, <- mapply_mul, H, mapply_1. Qed.
Lemma rot_norm m v : rotation m -> norm (mapply m v) = norm v.
Proof. intros H. unfold norm. now rewrite rot_dot. Qed.
Lemma rot_inv m v : rotation m -> mapply (transposed m) (mapply m v) = v.
Proof. intros (_ & H & _). now rewrite <- mapply_mul, H, mapply_1. Qed.
Lemma rot_inv' m v : rotation m -> mapply m (mapply (transposed m) v) = v.
Proof. intros (H & _ & _). now rewrite <- mapply_mul, H, mapply_1. Qed.

(** the adjugate of a rotation is its transpose *)
Definition adj m := transposed (Mat (vcross (r2 m) (r3 m)) (vcross (r3 m) (r1 m)) (vcross (r1 m) (r2 m))).
Lemma adj_mul m : mmul (adj m) m = mscale (det m) ident.
Proof. unfold adj. veq. Qed.
Lemma rot_adj m : rotation m -> adj m = transposed m.
Proof.
  intros (A & _ & D). transitivity (mmul (adj m) (mmul m (transposed m))); [now rewrite A, mmul_1_r|]. rewrite <- mmul_assoc, adj_mul, D.
  replace (mscale 1 ident) with ident by veq. apply mmul_1_l.
Qed.
Lemma rot_cols m : rotation m -> vcross (r1 m) (r2 m) = r3 m /\ vcross (r2 m) (r3 m) = r1 m /\ vcross (r3 m) (r1 m) = r2 m.
Proof.
  intros H. apply rot_adj in H. unfold adj in H. apply (f_equal transposed) in H. rewrite !tr_tr in H.
  pose proof (f_equal r1 H). pose proof (f_equal r2 H). pose proof (f_equal r3 H). cbn in *. auto.
Qed.

(** *** math.atan2 (SIMPLIFICATION: real zeros are unsigned; atan2(0, 0) = 0 as for positive zeros) *)
Definition atan2 (y x : R) : R :=
  if Rlt_dec 0 x then atan (y / x)
  else if Rlt_dec x 0 then (if Rle_dec 0 y then atan (y / x) + PI else atan (y / x) - PI)
  else if Rlt_dec 0 y then PI / 2 else if Rlt_dec y 0 then - (PI / 2) else 0.

Lemma sq_pos x y : x <> 0 \/ y <> 0 -> 0 < x * x + y * y.
Proof. intros [H|H]; [pose proof (Rsqr_pos_lt x H)|pose proof (Rsqr_pos_lt y H)]; unfold Rsqr in *; pose proof (Rle_0_sqr x); pose proof (Rle_0_sqr y); unfold Rsqr in *; lra. Qed.

Lemma cos_atan_pos t : 0 < cos (atan t).
Proof. apply cos_gt_0; destruct (atan_bound t); lra. Qed.
Lemma atan_polar t : sqrt (1 + t * t) * cos (atan t) = 1 /\ sqrt (1 + t * t) * sin (atan t) = t.
Proof.
  pose proof (cos_atan_pos t) as C. pose proof (tan_atan t) as T. unfold tan in T.
  assert (S : sin (atan t) = t * cos (atan t)). { rewrite <- T at 2. field. lra. }
  pose proof (sc (atan t)) as Q. rewrite S in Q.
  assert (E : (sqrt (1 + t * t) * cos (atan t)) * (sqrt (1 + t * t) * cos (atan t)) = 1).
  { replace (_ * _) with (sqrt (1 + t * t) * sqrt (1 + t * t) * (cos (atan t) * cos (atan t))) by ring. rewrite sqrt_sqrt; [lra|]. pose proof (Rle_0_sqr t). unfold Rsqr in *. lra. }
  assert (P : 0 <= sqrt (1 + t * t) * cos (atan t)) by (apply Rmult_le_pos; [apply sqrt_pos|lra]).
  assert (H : sqrt (1 + t * t) * cos (atan t) = 1) by nra.
  split; [exact H|]. rewrite S. replace (sqrt (1 + t * t) * (t * cos (atan t))) with (t * (sqrt (1 + t * t) * cos (atan t))) by ring. rewrite H. ring.
Qed.

(** atan2 y x is the polar angle of (x, y) *)
Lemma atan2_polar y x : let r := sqrt (x * x + y * y) in r * cos (atan2 y x) = x /\ r * sin (atan2 y x) = y.
Proof.
  cbv zeta. unfold atan2.
  assert (K : forall t, x <> 0 -> t = y / x -> sqrt (x * x + y * y) = Rabs x * sqrt (1 + t * t)).
  { intros t Hx ->. rewrite <- sqrt_Rsqr_abs, <- sqrt_mult.
    - f_equal. unfold Rsqr. field. exact Hx.
    - apply Rle_0_sqr.
    - pose proof (Rle_0_sqr (y / x)). unfold Rsqr in *. lra. }
  destruct (Rlt_dec 0 x) as [Hx|Hx].
  - destruct (atan_polar (y / x)) as [A B]. rewrite (K _ ltac:(lra) eq_refl), Rabs_pos_eq by lra.
    split; [rewrite Rmult_assoc, A; ring|rewrite Rmult_assoc, B; field; lra].
  - destruct (Rlt_dec x 0) as [Hx'|Hx'].
    + destruct (atan_polar (y / x)) as [A B]. rewrite (K _ ltac:(lra) eq_refl), Rabs_left by lra.
      assert (Q : forall k, cos k = - cos (atan (y / x)) -> sin k = - sin (atan (y / x)) -> - x * sqrt (1 + y / x * (y / x)) * cos k = x /\ - x * sqrt (1 + y / x * (y / x)) * sin k = y).
      { intros k -> ->. split; [transitivity (x * (sqrt (1 + y / x * (y / x)) * cos (atan (y / x)))); [ring|rewrite A; ring]|
          transitivity (x * (sqrt (1 + y / x * (y / x)) * sin (atan (y / x)))); [ring|rewrite B; field; lra]]. }
      destruct (Rle_dec 0 y); apply Q.
      * apply neg_cos. * apply neg_sin.
      * rewrite <- (Ropp_involutive (atan (y / x) - PI)), cos_neg. replace (- (atan (y / x) - PI)) with (- atan (y / x) + PI) by ring. rewrite neg_cos, cos_neg. reflexivity.
      * rewrite <- (Ropp_involutive (atan (y / x) - PI)), sin_neg. replace (- (atan (y / x) - PI)) with (- atan (y / x) + PI) by ring. rewrite neg_sin, sin_neg. ring.
    + assert (x = 0) by lra. subst x. rewrite Rmult_0_l, Rplus_0_l. change (y * y) with (Rsqr y). rewrite sqrt_Rsqr_abs.
      destruct (Rlt_dec 0 y); [|destruct (Rlt_dec y 0)].
      * rewrite cos_PI2, sin_PI2, Rabs_pos_eq by lra. lra.
      * rewrite cos_neg, sin_neg, cos_PI2, sin_PI2, Rabs_left by lra. lra.
      * assert (y = 0) by lra. subst. rewrite Rabs_R0. lra.
Qed.

Lemma atan2_range y x : - PI < atan2 y x <= PI.
Proof.
  pose proof PI_RGT_0. unfold atan2. destruct (Rlt_dec 0 x); [|destruct (Rlt_dec x 0); [destruct (Rle_dec 0 y)|]].
  - destruct (atan_bound (y / x)). lra.
  - assert (y / x <= 0). { unfold Rdiv. pose proof (Rinv_lt_0_compat x r). nra. }
    destruct (atan_bound (y / x)). split; [lra|]. destruct (Rle_lt_or_eq_dec _ _ H0) as [L|L].
    + pose proof (atan_increasing _ _ L). rewrite atan_0 in *. lra.
    + rewrite L, atan_0. lra.
  - assert (0 < y / x). { unfold Rdiv. pose proof (Rinv_lt_0_compat x r). nra. }
    pose proof (atan_increasing _ _ H0). rewrite atan_0 in *. destruct (atan_bound (y / x)). lra.
  - destruct (Rlt_dec 0 y); [|destruct (Rlt_dec y 0)]; lra.
Qed.

(** angles in (-pi, pi] with the same cosine and sine are equal *)
Lemma angle_eq a b : - PI < a <= PI -> - PI < b <= PI -> cos a = cos b -> sin a = sin b -> a = b.
Proof.
  intros Ha Hb C S. assert (D : cos (a - b) = 1) by (rewrite cos_minus, C, S; pose proof (sc b); lra).
  assert (E : sin ((a - b) / 2) = 0).
  { pose proof (cos_2a_sin ((a - b) / 2)) as H. replace (2 * ((a - b) / 2)) with (a - b) in H by field. rewrite D in H. nra. }
  pose proof PI_RGT_0. assert (F : (a - b) / 2 = 0); [|lra].
  destruct (Rtotal_order ((a - b) / 2) 0) as [L|[L|L]]; [|exact L|].
  - pose proof (sin_lt_0_var ((a - b) / 2)). lra.
  - pose proof (sin_gt_0 ((a - b) / 2)). lra.
Qed.
