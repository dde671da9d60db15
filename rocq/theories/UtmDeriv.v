(** Derivatives of the UTM series and of the ground position along a curve; used by PropTm.v. *)
From Coq Require Import Reals Lra Lia ZArith.
From Verif Require Import Real3 RangeCoordinates PropGeo PropUtm UtmShape.
Local Open Scope R_scope.

Lemma c_eq f t a b : derivable_pt_lim f t a -> a = b -> derivable_pt_lim f t b.
Proof. now intros H <-. Qed.
Lemma c_const k t : derivable_pt_lim (fun _ => k) t 0.
Proof. apply derivable_pt_lim_const. Qed.
Lemma c_mult f g t a b : derivable_pt_lim f t a -> derivable_pt_lim g t b -> derivable_pt_lim (fun s => f s * g s) t (a * g t + f t * b).
Proof. apply (derivable_pt_lim_mult f g). Qed.
Lemma c_plus f g t a b : derivable_pt_lim f t a -> derivable_pt_lim g t b -> derivable_pt_lim (fun s => f s + g s) t (a + b).
Proof. apply (derivable_pt_lim_plus f g). Qed.
Lemma c_minus f g t a b : derivable_pt_lim f t a -> derivable_pt_lim g t b -> derivable_pt_lim (fun s => f s - g s) t (a - b).
Proof. apply (derivable_pt_lim_minus f g). Qed.
Lemma c_opp f t a : derivable_pt_lim f t a -> derivable_pt_lim (fun s => - f s) t (- a).
Proof. apply (derivable_pt_lim_opp f). Qed.
Lemma c_div f t a k : derivable_pt_lim f t a -> derivable_pt_lim (fun s => f s / k) t (a / k).
Proof. intros H. apply (c_eq _ _ (a * / k + f t * 0)); [|unfold Rdiv; ring]. exact (c_mult f (fun _ => / k) t a 0 H (c_const _ _)). Qed.
Lemma c_pow f t a n : derivable_pt_lim f t a -> derivable_pt_lim (fun s => f s ^ n) t (INR n * f t ^ Nat.pred n * a).
Proof. intros H. exact (derivable_pt_lim_comp f (fun x => x ^ n) t a _ H (derivable_pt_lim_pow (f t) n)). Qed.
Lemma c_sin f t a : derivable_pt_lim f t a -> derivable_pt_lim (fun s => sin (f s)) t (cos (f t) * a).
Proof. intros H. exact (derivable_pt_lim_comp f sin t a _ H (derivable_pt_lim_sin (f t))). Qed.
Lemma c_cos f t a : derivable_pt_lim f t a -> derivable_pt_lim (fun s => cos (f s)) t (- sin (f t) * a).
Proof. intros H. exact (derivable_pt_lim_comp f cos t a _ H (derivable_pt_lim_cos (f t))). Qed.
Ltac diff := repeat first [eassumption | apply c_const | apply c_opp | eapply c_div | eapply c_pow | eapply c_plus | eapply c_minus | eapply c_mult | eapply c_sin | eapply c_cos].

(** the series with their derivatives, along functions [P] of t for sin^2 and [w] for the square of the longitude offset *)
Lemma d_ff F P w t P' w' : derivable_pt_lim P t P' -> derivable_pt_lim w t w' -> derivable_pt_lim (fun s => ff F (P s) (w s)) t (ffS F (P t) (w t) * P' + ffu F (P t) (w t) * w').
Proof. intros HP Hw. unfold ff. eapply c_eq; [diff|]. unfold ffS, ffu. cbn [INR Nat.pred pow]. field. Qed.
Lemma d_gg F P w t P' w' : derivable_pt_lim P t P' -> derivable_pt_lim w t w' -> derivable_pt_lim (fun s => gg F (P s) (w s)) t (ggS F (P t) (w t) * P' + ggu F (P t) (w t) * w').
Proof. intros HP Hw. unfold gg. eapply c_eq; [diff|]. unfold ggS, ggu. cbn [INR Nat.pred pow]. field. Qed.

(** eccentricity squared, second eccentricity squared, curvature radius along the meridian, meridian arc series *)
Definition e2 : R := wgs84_e ^ 2.
Definition ep2 : R := e2 / (1 - e2).
Definition meridian_radius (l : R) : R := normal_radius l * (1 - e2) / (1 - e2 * sin l ^ 2).
Definition arc (l : R) : R := wgs84_a * ((1 - e2 / 4 - 3 * e2 ^ 2 / 64 - 5 * e2 ^ 3 / 256) * l - (3 * e2 / 8 + 3 * e2 ^ 2 / 32 + 45 * e2 ^ 3 / 1024) * sin (2 * l) +
  (15 * e2 ^ 2 / 256 + 45 * e2 ^ 3 / 1024) * sin (4 * l) - (35 * e2 ^ 3 / 3072) * sin (6 * l)).
Definition gx l d := k0 * (normal_radius l * (cos l * (d * ff ep2 (sin l ^ 2) (d ^ 2)))) + 500000.
Definition gy l d := k0 * (arc l + normal_radius l * (sin l * (cos l * gg ep2 (sin l ^ 2) (d ^ 2)))).
Definition gk l d := k0 * kk ep2 (sin l ^ 2) (d ^ 2).
Lemma e2_bounds : 66943 / 10000000 <= e2 <= 66944 / 10000000.
Proof. unfold e2. rewrite wgs_e2. unfold wgs84_a, wgs84_b. lra. Qed.
Lemma cos_sq l : cos l ^ 2 = 1 - sin l ^ 2.
Proof. pose proof (sc l). nra. Qed.
Lemma ep2_bounds : 0 <= ep2 <= 337 / 50000.
Proof.
  pose proof e2_bounds. unfold ep2. split; [apply Rmult_le_pos; [lra|left; apply Rinv_0_lt_compat; lra]|].
  apply Rmult_le_reg_r with (1 - e2); [lra|]. unfold Rdiv at 1. rewrite Rmult_assoc, Rinv_l by lra. lra.
Qed.
Lemma grid_poly l d : cos l <> 0 -> grid l d = (gx l d, gy l d, gk l d).
Proof.
  intros C. unfold grid, gx, gy, gk, ff, gg, kk. cbv zeta. fold e2. fold ep2. change (wgs84_a / sqrt (1 - e2 * sin l ^ 2)) with (normal_radius l). rewrite <- cos_sq.
  fold (arc l). generalize (arc l) (normal_radius l) ep2. intros M N F. unfold tan. generalize (sin l). revert C. generalize (cos l). intros c C s.
  apply f_equal2; [apply f_equal2|]; field; exact C.
Qed.

Lemma d_normal p t p' : derivable_pt_lim p t p' ->
  derivable_pt_lim (fun s => normal_radius (p s)) t (normal_radius (p t) * e2 * sin (p t) * cos (p t) / (1 - e2 * sin (p t) ^ 2) * p').
Proof.
  intros H. unfold normal_radius. fold e2. set (r := fun s => 1 - e2 * sin (p s) ^ 2).
  assert (Dr : derivable_pt_lim r t (- (2 * e2 * sin (p t) * cos (p t)) * p')). { unfold r. eapply c_eq; [diff|]. cbn [INR Nat.pred pow]. ring. }
  pose proof (radicand (p t)) as Q. fold e2 in Q. change (0 < r t <= 1) in Q. assert (S : 0 < sqrt (r t)) by (apply sqrt_lt_R0; lra).
  pose proof (derivable_pt_lim_comp r sqrt t _ _ Dr (derivable_pt_lim_sqrt (r t) (proj1 Q))) as Ds. unfold comp in Ds.
  pose proof (derivable_pt_lim_div (fun _ => wgs84_a) (fun s => sqrt (r s)) t 0 _ (c_const _ _) Ds ltac:(lra)) as Dd. unfold div_fct in Dd.
  eapply c_eq; [exact Dd|]. change (1 - e2 * sin (p t) ^ 2) with (r t). unfold Rsqr. assert (Z : r t = sqrt (r t) * sqrt (r t)) by (symmetry; apply sqrt_sqrt; lra).
  rewrite Z at 6. set (v := sqrt (r t)) in *. clearbody v. field. lra.
Qed.
Lemma d_arc p t p' : derivable_pt_lim p t p' -> derivable_pt_lim (fun s => arc (p s)) t (wgs84_a * mer e2 (sin (p t) ^ 2) * p').
Proof.
  intros H. unfold arc. eapply c_eq; [diff|]. cbv beta. set (l := p t).
  assert (C2 : cos (2 * l) = 1 - 2 * sin l ^ 2) by (rewrite cos_2a_sin; ring).
  assert (C4 : cos (4 * l) = 2 * (1 - 2 * sin l ^ 2) ^ 2 - 1) by (replace (4 * l) with (2 * (2 * l)) by ring; rewrite cos_2a_cos, C2; ring).
  assert (C6 : cos (6 * l) = 4 * (1 - 2 * sin l ^ 2) ^ 3 - 3 * (1 - 2 * sin l ^ 2)).
  { replace (6 * l) with (4 * l + 2 * l) by ring. rewrite cos_plus, C4, C2. replace (4 * l) with (2 * (2 * l)) by ring. rewrite (sin_2a (2 * l)), C2.
    pose proof (sc (2 * l)) as S2. rewrite C2 in S2. set (x := 1 - 2 * sin l ^ 2) in *. replace (2 * sin (2 * l) * x * sin (2 * l)) with (2 * x * (sin (2 * l) * sin (2 * l))) by ring. replace (sin (2 * l) * sin (2 * l)) with (1 - x * x) by lra. ring. }
  rewrite C2, C4, C6. unfold mer. ring.
Qed.

(** metres per radian: along the parallel and along the meridian *)
Definition ra l := normal_radius l * cos l.
Definition yl l d := sin l * d * (2 * ggu ep2 (sin l ^ 2) (d ^ 2)).
Lemma radius_ratio l : normal_radius l = meridian_radius l * (1 + ep2 * (1 - sin l ^ 2)).
Proof. pose proof (radicand l) as Q. fold e2 in Q. pose proof e2_bounds. unfold meridian_radius, ep2. field. split; lra. Qed.
Lemma radius_slope l : normal_radius l * e2 * sin l * cos l / (1 - e2 * sin l ^ 2) = meridian_radius l * ep2 * sin l * cos l.
Proof. pose proof (radicand l) as Q. fold e2 in Q. pose proof e2_bounds. unfold meridian_radius, ep2. field. split; lra. Qed.
Lemma meridian_pos l : 0 < meridian_radius l.
Proof. pose proof (radicand l) as Q. fold e2 in Q. pose proof e2_bounds. pose proof (normal_pos l). unfold meridian_radius. apply Rdiv_lt_0_compat; [apply Rmult_lt_0_compat; lra|lra]. Qed.

Lemma d_gx p d t p' d' : derivable_pt_lim p t p' -> derivable_pt_lim d t d' -> let S := sin (p t) ^ 2 in let u := d t ^ 2 in
  derivable_pt_lim (fun s => gx (p s) (d s)) t (k0 * (xl ep2 S u * (ra (p t) * d') + (- yl (p t) (d t) + sin (p t) * d t * d2 ep2 S u) * (meridian_radius (p t) * p'))).
Proof.
  intros Hp Hd S u. unfold gx.
  assert (HS : derivable_pt_lim (fun s => sin (p s) ^ 2) t (2 * sin (p t) * cos (p t) * p')) by (eapply c_eq; [diff|cbn [INR Nat.pred pow]; ring]).
  assert (Hu : derivable_pt_lim (fun s => d s ^ 2) t (2 * d t * d')) by (eapply c_eq; [diff|cbn [INR Nat.pred pow]; ring]).
  pose proof (d_ff ep2 _ _ t _ _ HS Hu) as Hf. cbv beta in Hf. pose proof (d_normal p t p' Hp) as Hn.
  eapply c_eq.
  { apply c_plus; [|apply c_const]. apply c_mult; [apply c_const|]. apply c_mult; [exact Hn|]. apply c_mult; [diff|]. apply c_mult; [exact Hd|exact Hf]. }
  cbv beta. rewrite radius_slope. unfold ra, xl, yl, d2, S, u. rewrite radius_ratio. set (s := sin (p t)). set (c := cos (p t)). assert (SC : c * c = 1 - s ^ 2) by (unfold s, c; rewrite <- cos_sq; ring).
  set (w := d t ^ 2). replace (d t * d t) with w by (unfold w; ring). 
  set (f := ff ep2 (s ^ 2) w). set (fS := ffS ep2 (s ^ 2) w). set (fu := ffu ep2 (s ^ 2) w). set (gu := ggu ep2 (s ^ 2) w). set (m := meridian_radius (p t)).
  assert (W : d t * d t = w) by (unfold w; ring). clearbody f fS fu gu m w. clearbody s c. clear - SC W.
  generalize dependent (d t). intros x W.
  transitivity (k0 * m * (ep2 * s * (c * c) * p' * (x * f) + (1 + ep2 * (1 - s ^ 2)) * (- s * p' * (x * f) + c * (d' * f) + x * (fS * (2 * s * (c * c) * p')) + c * (fu * (2 * (x * x) * d'))))); [ring|].
  rewrite SC, W. ring.
Qed.
Lemma d_gy p d t p' d' : derivable_pt_lim p t p' -> derivable_pt_lim d t d' -> let S := sin (p t) ^ 2 in let u := d t ^ 2 in
  derivable_pt_lim (fun s => gy (p s) (d s)) t (k0 * (yl (p t) (d t) * (ra (p t) * d') + (wgs84_a * mer e2 S / meridian_radius (p t) + yp ep2 S u) * (meridian_radius (p t) * p'))).
Proof.
  intros Hp Hd S u. unfold gy.
  assert (HS : derivable_pt_lim (fun s => sin (p s) ^ 2) t (2 * sin (p t) * cos (p t) * p')) by (eapply c_eq; [diff|cbn [INR Nat.pred pow]; ring]).
  assert (Hu : derivable_pt_lim (fun s => d s ^ 2) t (2 * d t * d')) by (eapply c_eq; [diff|cbn [INR Nat.pred pow]; ring]).
  pose proof (d_gg ep2 _ _ t _ _ HS Hu) as Hf. cbv beta in Hf. pose proof (d_normal p t p' Hp) as Hn. pose proof (d_arc p t p' Hp) as Ha.
  eapply c_eq.
  { apply c_mult; [apply c_const|]. apply c_plus; [exact Ha|]. apply c_mult; [exact Hn|]. apply c_mult; [eapply c_sin; exact Hp|]. apply c_mult; [eapply c_cos; exact Hp|exact Hf]. }
  cbv beta. rewrite radius_slope. unfold ra, yl, yp, S, u. rewrite radius_ratio. pose proof (meridian_pos (p t)) as MP. set (s := sin (p t)). set (c := cos (p t)). assert (SC : c * c = 1 - s ^ 2) by (unfold s, c; rewrite <- cos_sq; ring).
  set (w := d t ^ 2).
  set (g := gg ep2 (s ^ 2) w). set (gS := ggS ep2 (s ^ 2) w). set (gu := ggu ep2 (s ^ 2) w). set (m := meridian_radius (p t)) in *.
  clearbody g gS gu m w. generalize (mer e2 (s ^ 2)). intros M. clearbody s c. clear - SC MP.
  transitivity (k0 * (wgs84_a * M * p' + m * (ep2 * s * s * (c * c) * p' * g + (1 + ep2 * (1 - s ^ 2)) * ((c * c) * p' * g - s * s * p' * g + s * c * (gu * (2 * d t * d')) + s * s * 2 * (c * c) * gS * p')))); [ring|].
  rewrite SC. field. lra.
Qed.
