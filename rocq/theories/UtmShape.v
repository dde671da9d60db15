(** How far the series of lla2utm (RangeCoordinates.py:332-400) are from a conformal map: polynomial bounds used by PropTm.v. No definition here models code by itself;
    [ff], [gg], [kk] are the easting, northing and scale series of [PropUtm.grid] with [S] = sin^2 of the latitude, [u] = square of the longitude offset, [F] = second eccentricity squared. *)
From Coq Require Import Reals Lra Lia List.
Import ListNotations.
Local Open Scope R_scope.

(** polynomials in Bernstein form, with the binomial coefficients multiplied in *)
Fixpoint hom (l : list R) (S q : R) : R := match l with [] => 0 | x :: r => x * q ^ length r + S * hom r S q end.
Lemma same_length (P : R -> R -> Prop) l cs : Forall2 P l cs -> length l = length cs.
Proof. induction 1; cbn; congruence. Qed.
Lemma hom_bound S q B : 0 <= S -> 0 <= q -> 0 <= B -> forall l cs, Forall2 (fun x c => Rabs x <= B * c) l cs -> Rabs (hom l S q) <= B * hom cs S q.
Proof.
  intros HS Hq HB l cs H. induction H as [|x c l cs Hx Hl IH]; cbn [hom]; [rewrite Rabs_R0; lra|].
  eapply Rle_trans; [apply Rabs_triang|]. rewrite Rmult_plus_distr_l. apply Rplus_le_compat.
  - rewrite Rabs_mult, <- Rmult_assoc. pose proof (pow_le q (length l) Hq) as P. rewrite (Rabs_pos_eq (q ^ _)) by exact P. rewrite (same_length _ _ _ Hl) in *. apply Rmult_le_compat_r; assumption.
  - rewrite Rabs_mult, (Rabs_pos_eq S) by exact HS. replace (B * (S * hom cs S q)) with (S * (B * hom cs S q)) by ring. apply Rmult_le_compat_l; assumption.
Qed.
Lemma bern_bound B l cs S : 0 <= S <= 1 -> 0 <= B -> hom cs S (1 - S) = 1 -> Forall2 (fun x c => Rabs x <= B * c) l cs -> Rabs (hom l S (1 - S)) <= B.
Proof. intros HS HB H1 H. pose proof (hom_bound S (1 - S) B ltac:(lra) ltac:(lra) HB l cs H) as X. rewrite H1 in X. lra. Qed.
Ltac fa2 := repeat (apply Forall2_cons; [apply Rabs_le; lra|]); apply Forall2_nil.
Lemma term_bound u F U V h b k i w : 0 <= u <= U -> 0 <= F <= V -> Rabs h <= b -> U ^ k * V ^ i * b <= w -> Rabs (u ^ k * F ^ i * h) <= w.
Proof.
  intros Hu HF Hh Hw. eapply Rle_trans; [|exact Hw]. pose proof (pow_le u k ltac:(lra)). pose proof (pow_le F i ltac:(lra)). pose proof (pow_incr u U k Hu). pose proof (pow_incr F V i HF).
  rewrite !Rabs_mult, (Rabs_pos_eq (u ^ k)), (Rabs_pos_eq (F ^ i)) by assumption. apply Rmult_le_compat; [apply Rmult_le_pos; assumption|apply Rabs_pos|apply Rmult_le_compat; assumption|exact Hh].
Qed.

Definition binom0 : list R := [1].
Lemma binom0_1 S : hom binom0 S (1 - S) = 1.
Proof. unfold binom0. cbn [hom length pow]. ring. Qed.
Definition binom1 : list R := [1; 1].
Lemma binom1_1 S : hom binom1 S (1 - S) = 1.
Proof. unfold binom1. cbn [hom length pow]. ring. Qed.
Definition binom2 : list R := [1; 2; 1].
Lemma binom2_1 S : hom binom2 S (1 - S) = 1.
Proof. unfold binom2. cbn [hom length pow]. ring. Qed.
Definition binom3 : list R := [1; 3; 3; 1].
Lemma binom3_1 S : hom binom3 S (1 - S) = 1.
Proof. unfold binom3. cbn [hom length pow]. ring. Qed.
Definition binom4 : list R := [1; 4; 6; 4; 1].
Lemma binom4_1 S : hom binom4 S (1 - S) = 1.
Proof. unfold binom4. cbn [hom length pow]. ring. Qed.
Definition binom5 : list R := [1; 5; 10; 10; 5; 1].
Lemma binom5_1 S : hom binom5 S (1 - S) = 1.
Proof. unfold binom5. cbn [hom length pow]. ring. Qed.
Definition binom6 : list R := [1; 6; 15; 20; 15; 6; 1].
Lemma binom6_1 S : hom binom6 S (1 - S) = 1.
Proof. unfold binom6. cbn [hom length pow]. ring. Qed.
Definition binom7 : list R := [1; 7; 21; 35; 35; 21; 7; 1].
Lemma binom7_1 S : hom binom7 S (1 - S) = 1.
Proof. unfold binom7. cbn [hom length pow]. ring. Qed.
Definition binom8 : list R := [1; 8; 28; 56; 70; 56; 28; 8; 1].
Lemma binom8_1 S : hom binom8 S (1 - S) = 1.
Proof. unfold binom8. cbn [hom length pow]. ring. Qed.
Definition binom9 : list R := [1; 9; 36; 84; 126; 126; 84; 36; 9; 1].
Lemma binom9_1 S : hom binom9 S (1 - S) = 1.
Proof. unfold binom9. cbn [hom length pow]. ring. Qed.
Definition binom10 : list R := [1; 10; 45; 120; 210; 252; 210; 120; 45; 10; 1].
Lemma binom10_1 S : hom binom10 S (1 - S) = 1.
Proof. unfold binom10. cbn [hom length pow]. ring. Qed.
Definition binom11 : list R := [1; 11; 55; 165; 330; 462; 462; 330; 165; 55; 11; 1].
Lemma binom11_1 S : hom binom11 S (1 - S) = 1.
Proof. unfold binom11. cbn [hom length pow]. ring. Qed.
Definition binom13 : list R := [1; 13; 78; 286; 715; 1287; 1716; 1716; 1287; 715; 286; 78; 13; 1].
Lemma binom13_1 S : hom binom13 S (1 - S) = 1.
Proof. unfold binom13. cbn [hom length pow]. ring. Qed.

Definition ff (F S u : R) : R := 1 + u / 6 * ((1 - S) - S + F * (1 - S) ^ 2) + u ^ 2 / 120 * (5 * (1 - S) ^ 2 - 18 * S * (1 - S) + S ^ 2 + (72 * F * (1 - S) - 58 * F) * (1 - S) ^ 2).
Definition gg (F S u : R) : R := u / 2 + u ^ 2 / 24 * (5 * (1 - S) - S + 9 * F * (1 - S) ^ 2 + 4 * F ^ 2 * (1 - S) ^ 3) +
  u ^ 3 / 720 * (61 * (1 - S) ^ 2 - 58 * S * (1 - S) + S ^ 2 + 600 * F * (1 - S) ^ 3 - 330 * F * (1 - S) ^ 2).
Definition kk (F S u : R) : R := 1 + (1 + F * (1 - S)) * u * (1 - S) / 2 + (5 * (1 - S) ^ 2 - 4 * S * (1 - S) + (42 * F * (1 - S) + 13 * F ^ 2 * (1 - S) ^ 2 - 28 * F) * (1 - S) ^ 2) * u ^ 2 / 24 +
  (61 * (1 - S) ^ 3 - 148 * S * (1 - S) ^ 2 + 16 * S ^ 2 * (1 - S)) * u ^ 3 / 720.
(** their partial derivatives with respect to [S] and [u] *)
Definition ffS (F S u : R) : R := (-1 / 3) * u + (-7 / 30) * u ^ 2 + (2 / 5) * S * u ^ 2 + (-1 / 3) * F * u + (-5 / 6) * F * u ^ 2 + (1 / 3) * F * S * u + (79 / 30) * F * S * u ^ 2 + (-9 / 5) * F * S ^ 2 * u ^ 2.
Definition ffu (F S u : R) : R := (1 / 6) + (1 / 12) * u + (-1 / 3) * S + (-7 / 15) * S * u + (2 / 5) * S ^ 2 * u + (1 / 6) * F + (7 / 30) * F * u + (-1 / 3) * F * S + (-5 / 3) * F * S * u + (1 / 6) * F * S ^ 2 + (79 / 30) * F * S ^ 2 * u + (-6 / 5) * F * S ^ 3 * u.
Definition ggS (F S u : R) : R := (-1 / 4) * u ^ 2 + (-1 / 4) * u ^ 3 + (1 / 3) * S * u ^ 3 + (-3 / 4) * F * u ^ 2 + (-19 / 12) * F * u ^ 3 + (3 / 4) * F * S * u ^ 2 + (49 / 12) * F * S * u ^ 3 + (-5 / 2) * F * S ^ 2 * u ^ 3 + (-1 / 2) * F ^ 2 * u ^ 2 + 1 * F ^ 2 * S * u ^ 2 + (-1 / 2) * F ^ 2 * S ^ 2 * u ^ 2.
Definition ggu (F S u : R) : R := (1 / 2) + (5 / 12) * u + (61 / 240) * u ^ 2 + (-1 / 2) * S * u + (-3 / 4) * S * u ^ 2 + (1 / 2) * S ^ 2 * u ^ 2 + (3 / 4) * F * u + (9 / 8) * F * u ^ 2 + (-3 / 2) * F * S * u + (-19 / 4) * F * S * u ^ 2 + (3 / 4) * F * S ^ 2 * u + (49 / 8) * F * S ^ 2 * u ^ 2 + (-5 / 2) * F * S ^ 3 * u ^ 2 + (1 / 3) * F ^ 2 * u + (-1) * F ^ 2 * S * u + 1 * F ^ 2 * S ^ 2 * u + (-1 / 3) * F ^ 2 * S ^ 3 * u.
Definition kkS (F S u : R) : R := (-1 / 2) * u + (-7 / 12) * u ^ 2 + (-331 / 720) * u ^ 3 + (3 / 4) * S * u ^ 2 + (11 / 8) * S * u ^ 3 + (-15 / 16) * S ^ 2 * u ^ 3 + (-1) * F * u + (-35 / 12) * F * u ^ 2 + 1 * F * S * u + (49 / 6) * F * S * u ^ 2 + (-21 / 4) * F * S ^ 2 * u ^ 2 + (-13 / 6) * F ^ 2 * u ^ 2 + (13 / 2) * F ^ 2 * S * u ^ 2 + (-13 / 2) * F ^ 2 * S ^ 2 * u ^ 2 + (13 / 6) * F ^ 2 * S ^ 3 * u ^ 2.
Definition kku (F S u : R) : R := (1 / 2) + (5 / 12) * u + (61 / 240) * u ^ 2 + (-1 / 2) * S + (-7 / 6) * S * u + (-331 / 240) * S * u ^ 2 + (3 / 4) * S ^ 2 * u + (33 / 16) * S ^ 2 * u ^ 2 + (-15 / 16) * S ^ 3 * u ^ 2 + (1 / 2) * F + (7 / 6) * F * u + (-1) * F * S + (-35 / 6) * F * S * u + (1 / 2) * F * S ^ 2 + (49 / 6) * F * S ^ 2 * u + (-7 / 2) * F * S ^ 3 * u + (13 / 12) * F ^ 2 * u + (-13 / 3) * F ^ 2 * S * u + (13 / 2) * F ^ 2 * S ^ 2 * u + (-13 / 3) * F ^ 2 * S ^ 3 * u + (13 / 12) * F ^ 2 * S ^ 4 * u.
(** derivative of the easting to longitude and of the northing to latitude, without the meridian arc; what should vanish in the other two; the square of the scale *)
Definition xl F S u := ff F S u + 2 * u * ffu F S u.
Definition yp F S u := F * S * (1 - S) * gg F S u + (1 + F * (1 - S)) * ((1 - 2 * S) * gg F S u + 2 * S * (1 - S) * ggS F S u).
Definition d1 F S u := xl F S u - yp F S u.
Definition d2 F S u := 2 * ggu F S u - ff F S u + 2 * (1 - S) * (1 + F * (1 - S)) * ffS F S u.
Definition q3 F S u := kk F S u ^ 2 - xl F S u ^ 2 - S * u * (2 * ggu F S u) ^ 2.
(** derivative of the meridian arc series, divided by the equatorial radius; the square of the quotient by the curvature radius, less 1, without denominator *)
Definition mer (E S : R) : R := (1 - E / 4 - 3 * E ^ 2 / 64 - 5 * E ^ 3 / 256) - 2 * (3 * E / 8 + 3 * E ^ 2 / 32 + 45 * E ^ 3 / 1024) * (1 - 2 * S) +
  4 * (15 * E ^ 2 / 256 + 45 * E ^ 3 / 1024) * (2 * (1 - 2 * S) ^ 2 - 1) - 6 * (35 * E ^ 3 / 3072) * (4 * (1 - 2 * S) ^ 3 - 3 * (1 - 2 * S)).
Definition mu (F S u : R) : R := mer F S ^ 2 * (1 - F * S) ^ 3 - (1 - F) ^ 2.

Definition d1_h0 : list R := [(-13 / 24); (17 / 8); (8 / 3); 0; 0; 0].
Definition d1_h1 : list R := [(-1 / 6); (5 / 6); 1; 0; 0; 0; 0].
Definition d1_h2 : list R := [(-61 / 720); (29 / 120); (803 / 360); (1643 / 360); (15 / 4); (277 / 360); (-203 / 360); (-29 / 120); (1 / 720)].
Definition d1_h3 : list R := [(-331 / 720); (461 / 144); (713 / 72); (425 / 72); (-403 / 144); (-1771 / 720); 0; 0].
Definition d1_h4 : list R := [(-3 / 8); (5 / 2); (95 / 12); 5; (-15 / 8); (-11 / 6); 0; 0; 0].
Lemma d1_sum F S u : d1 F S u = 1 + (u ^ 2 * F ^ 2 * hom d1_h0 S (1 - S) + u ^ 2 * F ^ 3 * hom d1_h1 S (1 - S) + u ^ 3 * F ^ 0 * hom d1_h2 S (1 - S) + u ^ 3 * F ^ 1 * hom d1_h3 S (1 - S) + u ^ 3 * F ^ 2 * hom d1_h4 S (1 - S)).
Proof. unfold d1, xl, yp, ff, gg, ffu, ggS, d1_h0, d1_h1, d1_h2, d1_h3, d1_h4. cbn [hom length pow]. field. Qed.
Lemma d1_3 F S u : 0 <= S <= 1 -> 0 <= u <= (1371 / 500000) -> 0 <= F <= (337 / 50000) -> Rabs (d1 F S u - 1) <= (201 / 100000000000).
Proof.
  intros HS Hu HF. rewrite d1_sum.
  assert (B0 : Rabs (hom d1_h0 S (1 - S)) <= (13 / 24)) by (apply (bern_bound (13 / 24) _ binom5); [exact HS|lra|exact (binom5_1 S)|unfold d1_h0, binom5; fa2]).
  apply (term_bound u F (1371 / 500000) (337 / 50000) _ _ 2 2 (93 / 500000000000) Hu HF) in B0; [|cbn [pow]; lra].
  assert (B1 : Rabs (hom d1_h1 S (1 - S)) <= (1 / 6)) by (apply (bern_bound (1 / 6) _ binom6); [exact HS|lra|exact (binom6_1 S)|unfold d1_h1, binom6; fa2]).
  apply (term_bound u F (1371 / 500000) (337 / 50000) _ _ 2 3 (3 / 7812500000000) Hu HF) in B1; [|cbn [pow]; lra].
  assert (B2 : Rabs (hom d1_h2 S (1 - S)) <= (61 / 720)) by (apply (bern_bound (61 / 720) _ binom8); [exact HS|lra|exact (binom8_1 S)|unfold d1_h2, binom8; fa2]).
  apply (term_bound u F (1371 / 500000) (337 / 50000) _ _ 3 0 (7 / 4000000000) Hu HF) in B2; [|cbn [pow]; lra].
  assert (B3 : Rabs (hom d1_h3 S (1 - S)) <= (713 / 1512)) by (apply (bern_bound (713 / 1512) _ binom7); [exact HS|lra|exact (binom7_1 S)|unfold d1_h3, binom7; fa2]).
  apply (term_bound u F (1371 / 500000) (337 / 50000) _ _ 3 1 (41 / 625000000000) Hu HF) in B3; [|cbn [pow]; lra].
  assert (B4 : Rabs (hom d1_h4 S (1 - S)) <= (3 / 8)) by (apply (bern_bound (3 / 8) _ binom8); [exact HS|lra|exact (binom8_1 S)|unfold d1_h4, binom8; fa2]).
  apply (term_bound u F (1371 / 500000) (337 / 50000) _ _ 3 2 (11 / 31250000000000) Hu HF) in B4; [|cbn [pow]; lra].
  match goal with |- Rabs (?c + ?x - ?c) <= _ => replace (c + x - c) with x by ring end.
  eapply Rle_trans; [repeat first [eapply Rle_trans; [apply Rabs_triang|]; apply Rplus_le_compat; [|exact B0 || exact B1 || exact B2 || exact B3 || exact B4] | exact B0 || exact B1 || exact B2 || exact B3 || exact B4]|lra].
Qed.
Lemma d1_6 F S u : 0 <= S <= 1 -> 0 <= u <= (10967 / 1000000) -> 0 <= F <= (337 / 50000) -> Rabs (d1 F S u - 1) <= (3 / 25000000).
Proof.
  intros HS Hu HF. rewrite d1_sum.
  assert (B0 : Rabs (hom d1_h0 S (1 - S)) <= (13 / 24)) by (apply (bern_bound (13 / 24) _ binom5); [exact HS|lra|exact (binom5_1 S)|unfold d1_h0, binom5; fa2]).
  apply (term_bound u F (10967 / 1000000) (337 / 50000) _ _ 2 2 (37 / 12500000000) Hu HF) in B0; [|cbn [pow]; lra].
  assert (B1 : Rabs (hom d1_h1 S (1 - S)) <= (1 / 6)) by (apply (bern_bound (1 / 6) _ binom6); [exact HS|lra|exact (binom6_1 S)|unfold d1_h1, binom6; fa2]).
  apply (term_bound u F (10967 / 1000000) (337 / 50000) _ _ 2 3 (307 / 50000000000000) Hu HF) in B1; [|cbn [pow]; lra].
  assert (B2 : Rabs (hom d1_h2 S (1 - S)) <= (61 / 720)) by (apply (bern_bound (61 / 720) _ binom8); [exact HS|lra|exact (binom8_1 S)|unfold d1_h2, binom8; fa2]).
  apply (term_bound u F (10967 / 1000000) (337 / 50000) _ _ 3 0 (7 / 62500000) Hu HF) in B2; [|cbn [pow]; lra].
  assert (B3 : Rabs (hom d1_h3 S (1 - S)) <= (713 / 1512)) by (apply (bern_bound (713 / 1512) _ binom7); [exact HS|lra|exact (binom7_1 S)|unfold d1_h3, binom7; fa2]).
  apply (term_bound u F (10967 / 1000000) (337 / 50000) _ _ 3 1 (21 / 5000000000) Hu HF) in B3; [|cbn [pow]; lra].
  assert (B4 : Rabs (hom d1_h4 S (1 - S)) <= (3 / 8)) by (apply (bern_bound (3 / 8) _ binom8); [exact HS|lra|exact (binom8_1 S)|unfold d1_h4, binom8; fa2]).
  apply (term_bound u F (10967 / 1000000) (337 / 50000) _ _ 3 2 (9 / 400000000000) Hu HF) in B4; [|cbn [pow]; lra].
  match goal with |- Rabs (?c + ?x - ?c) <= _ => replace (c + x - c) with x by ring end.
  eapply Rle_trans; [repeat first [eapply Rle_trans; [apply Rabs_triang|]; apply Rplus_le_compat; [|exact B0 || exact B1 || exact B2 || exact B3 || exact B4] | exact B0 || exact B1 || exact B2 || exact B3 || exact B4]|lra].
Qed.
Definition d2_h0 : list R := [(-5 / 3); (29 / 15); 0; 0; 0].
Lemma d2_sum F S u : d2 F S u = 0 + (u ^ 2 * F ^ 2 * hom d2_h0 S (1 - S)).
Proof. unfold d2, ff, ffS, ggu, d2_h0. cbn [hom length pow]. field. Qed.
Lemma d2_3 F S u : 0 <= S <= 1 -> 0 <= u <= (1371 / 500000) -> 0 <= F <= (337 / 50000) -> Rabs (d2 F S u - 0) <= (571 / 1000000000000).
Proof.
  intros HS Hu HF. rewrite d2_sum.
  assert (B0 : Rabs (hom d2_h0 S (1 - S)) <= (5 / 3)) by (apply (bern_bound (5 / 3) _ binom4); [exact HS|lra|exact (binom4_1 S)|unfold d2_h0, binom4; fa2]).
  apply (term_bound u F (1371 / 500000) (337 / 50000) _ _ 2 2 (57 / 100000000000) Hu HF) in B0; [|cbn [pow]; lra].
  match goal with |- Rabs (?c + ?x - ?c) <= _ => replace (c + x - c) with x by ring end.
  eapply Rle_trans; [repeat first [eapply Rle_trans; [apply Rabs_triang|]; apply Rplus_le_compat; [|exact B0] | exact B0]|lra].
Qed.
Lemma d2_6 F S u : 0 <= S <= 1 -> 0 <= u <= (10967 / 1000000) -> 0 <= F <= (337 / 50000) -> Rabs (d2 F S u - 0) <= (57 / 6250000000).
Proof.
  intros HS Hu HF. rewrite d2_sum.
  assert (B0 : Rabs (hom d2_h0 S (1 - S)) <= (5 / 3)) by (apply (bern_bound (5 / 3) _ binom4); [exact HS|lra|exact (binom4_1 S)|unfold d2_h0, binom4; fa2]).
  apply (term_bound u F (10967 / 1000000) (337 / 50000) _ _ 2 2 (911 / 100000000000) Hu HF) in B0; [|cbn [pow]; lra].
  match goal with |- Rabs (?c + ?x - ?c) <= _ => replace (c + x - c) with x by ring end.
  eapply Rle_trans; [repeat first [eapply Rle_trans; [apply Rabs_triang|]; apply Rplus_le_compat; [|exact B0] | exact B0]|lra].
Qed.
Definition q3_h0 : list R := [(13 / 12); (-4 / 3); 0; 0; 0].
Definition q3_h1 : list R := [(61 / 360); (-29 / 60); (-803 / 180); (-1643 / 180); (-15 / 2); (-277 / 180); (203 / 180); (29 / 60); (-1 / 360)].
Definition q3_h2 : list R := [0; (-55 / 12); (-155 / 8); (-225 / 8); (-125 / 12); (25 / 2); (105 / 8); (85 / 24); 0; 0].
Definition q3_h3 : list R := [(13 / 24); (-19 / 9); (2 / 9); 0; 0; 0].
Definition q3_h4 : list R := [(13 / 24); (-2); 0; 0; 0; 0; 0].
Definition q3_h5 : list R := [0; (-4 / 9); 0; 0; 0; 0; 0; 0].
Definition q3_h6 : list R := [(61 / 720); (-5 / 9); (-2491 / 1440); (-323 / 288); (109 / 576); (319 / 2880); (-7 / 64); (1 / 960)].
Definition q3_h7 : list R := [(61 / 720); (-347 / 90); (-613 / 36); (-9029 / 360); (-391 / 36); (1169 / 180); (533 / 90); (-13 / 72); (-533 / 720); 0; 0].
Definition q3_h8 : list R := [(65 / 288); (-123 / 20); (3179 / 720); (-1 / 90); 0; 0; 0].
Definition q3_h9 : list R := [(91 / 144); (-307 / 72); (11 / 3); 0; 0; 0; 0; 0].
Definition q3_h10 : list R := [(169 / 576); 0; 0; 0; 0; 0; 0; 0; 0].
Definition q3_h11 : list R := [(61 / 1728); (-959 / 3600); (-3181 / 7200); (8131 / 21600); (571 / 960); (-149 / 960); (-9743 / 43200); (113 / 14400); (-1 / 14400)].
Definition q3_h12 : list R := [(427 / 4320); (-109 / 40); (3943 / 720); (-1187 / 432); (11 / 240); 0; 0].
Definition q3_h13 : list R := [(793 / 8640); (-1427 / 270); (13391 / 1080); (-121 / 16); 0; 0; 0; 0].
Definition q3_h14 : list R := [(3721 / 518400); (-2257 / 64800); (497 / 10800); (-37 / 4050); (1 / 2025); 0; 0].
Lemma q3_sum F S u : q3 F S u = 0 + (u ^ 2 * F ^ 2 * hom q3_h0 S (1 - S) + u ^ 3 * F ^ 0 * hom q3_h1 S (1 - S) + u ^ 3 * F ^ 1 * hom q3_h2 S (1 - S) + u ^ 3 * F ^ 2 * hom q3_h3 S (1 - S) + u ^ 3 * F ^ 3 * hom q3_h4 S (1 - S) + u ^ 3 * F ^ 4 * hom q3_h5 S (1 - S) + u ^ 4 * F ^ 0 * hom q3_h6 S (1 - S) + u ^ 4 * F ^ 1 * hom q3_h7 S (1 - S) + u ^ 4 * F ^ 2 * hom q3_h8 S (1 - S) + u ^ 4 * F ^ 3 * hom q3_h9 S (1 - S) + u ^ 4 * F ^ 4 * hom q3_h10 S (1 - S) + u ^ 5 * F ^ 0 * hom q3_h11 S (1 - S) + u ^ 5 * F ^ 1 * hom q3_h12 S (1 - S) + u ^ 5 * F ^ 2 * hom q3_h13 S (1 - S) + u ^ 6 * F ^ 0 * hom q3_h14 S (1 - S)).
Proof. unfold q3, kk, xl, ff, ffu, ggu, q3_h0, q3_h1, q3_h2, q3_h3, q3_h4, q3_h5, q3_h6, q3_h7, q3_h8, q3_h9, q3_h10, q3_h11, q3_h12, q3_h13, q3_h14. cbn [hom length pow]. field. Qed.
Lemma q3_3 F S u : 0 <= S <= 1 -> 0 <= u <= (1371 / 500000) -> 0 <= F <= (337 / 50000) -> Rabs (q3 F S u - 0) <= (99 / 25000000000).
Proof.
  intros HS Hu HF. rewrite q3_sum.
  assert (B0 : Rabs (hom q3_h0 S (1 - S)) <= (13 / 12)) by (apply (bern_bound (13 / 12) _ binom4); [exact HS|lra|exact (binom4_1 S)|unfold q3_h0, binom4; fa2]).
  apply (term_bound u F (1371 / 500000) (337 / 50000) _ _ 2 2 (371 / 1000000000000) Hu HF) in B0; [|cbn [pow]; lra].
  assert (B1 : Rabs (hom q3_h1 S (1 - S)) <= (61 / 360)) by (apply (bern_bound (61 / 360) _ binom8); [exact HS|lra|exact (binom8_1 S)|unfold q3_h1, binom8; fa2]).
  apply (term_bound u F (1371 / 500000) (337 / 50000) _ _ 3 0 (7 / 2000000000) Hu HF) in B1; [|cbn [pow]; lra].
  assert (B2 : Rabs (hom q3_h2 S (1 - S)) <= (155 / 288)) by (apply (bern_bound (155 / 288) _ binom9); [exact HS|lra|exact (binom9_1 S)|unfold q3_h2, binom9; fa2]).
  apply (term_bound u F (1371 / 500000) (337 / 50000) _ _ 3 1 (187 / 2500000000000) Hu HF) in B2; [|cbn [pow]; lra].
  assert (B3 : Rabs (hom q3_h3 S (1 - S)) <= (13 / 24)) by (apply (bern_bound (13 / 24) _ binom5); [exact HS|lra|exact (binom5_1 S)|unfold q3_h3, binom5; fa2]).
  apply (term_bound u F (1371 / 500000) (337 / 50000) _ _ 3 2 (127 / 250000000000000) Hu HF) in B3; [|cbn [pow]; lra].
  assert (B4 : Rabs (hom q3_h4 S (1 - S)) <= (13 / 24)) by (apply (bern_bound (13 / 24) _ binom6); [exact HS|lra|exact (binom6_1 S)|unfold q3_h4, binom6; fa2]).
  apply (term_bound u F (1371 / 500000) (337 / 50000) _ _ 3 3 (171 / 50000000000000000) Hu HF) in B4; [|cbn [pow]; lra].
  assert (B5 : Rabs (hom q3_h5 S (1 - S)) <= (4 / 63)) by (apply (bern_bound (4 / 63) _ binom7); [exact HS|lra|exact (binom7_1 S)|unfold q3_h5, binom7; fa2]).
  apply (term_bound u F (1371 / 500000) (337 / 50000) _ _ 3 4 (271 / 100000000000000000000) Hu HF) in B5; [|cbn [pow]; lra].
  assert (B6 : Rabs (hom q3_h6 S (1 - S)) <= (61 / 720)) by (apply (bern_bound (61 / 720) _ binom7); [exact HS|lra|exact (binom7_1 S)|unfold q3_h6, binom7; fa2]).
  apply (term_bound u F (1371 / 500000) (337 / 50000) _ _ 4 0 (479 / 100000000000000) Hu HF) in B6; [|cbn [pow]; lra].
  assert (B7 : Rabs (hom q3_h7 S (1 - S)) <= (347 / 900)) by (apply (bern_bound (347 / 900) _ binom10); [exact HS|lra|exact (binom10_1 S)|unfold q3_h7, binom10; fa2]).
  apply (term_bound u F (1371 / 500000) (337 / 50000) _ _ 4 1 (147 / 1000000000000000) Hu HF) in B7; [|cbn [pow]; lra].
  assert (B8 : Rabs (hom q3_h8 S (1 - S)) <= (41 / 40)) by (apply (bern_bound (41 / 40) _ binom6); [exact HS|lra|exact (binom6_1 S)|unfold q3_h8, binom6; fa2]).
  apply (term_bound u F (1371 / 500000) (337 / 50000) _ _ 4 2 (33 / 12500000000000000) Hu HF) in B8; [|cbn [pow]; lra].
  assert (B9 : Rabs (hom q3_h9 S (1 - S)) <= (91 / 144)) by (apply (bern_bound (91 / 144) _ binom7); [exact HS|lra|exact (binom7_1 S)|unfold q3_h9, binom7; fa2]).
  apply (term_bound u F (1371 / 500000) (337 / 50000) _ _ 4 3 (11 / 1000000000000000000) Hu HF) in B9; [|cbn [pow]; lra].
  assert (B10 : Rabs (hom q3_h10 S (1 - S)) <= (169 / 576)) by (apply (bern_bound (169 / 576) _ binom8); [exact HS|lra|exact (binom8_1 S)|unfold q3_h10, binom8; fa2]).
  apply (term_bound u F (1371 / 500000) (337 / 50000) _ _ 4 4 (343 / 10000000000000000000000) Hu HF) in B10; [|cbn [pow]; lra].
  assert (B11 : Rabs (hom q3_h11 S (1 - S)) <= (61 / 1728)) by (apply (bern_bound (61 / 1728) _ binom8); [exact HS|lra|exact (binom8_1 S)|unfold q3_h11, binom8; fa2]).
  apply (term_bound u F (1371 / 500000) (337 / 50000) _ _ 5 0 (137 / 25000000000000000) Hu HF) in B11; [|cbn [pow]; lra].
  assert (B12 : Rabs (hom q3_h12 S (1 - S)) <= (109 / 240)) by (apply (bern_bound (109 / 240) _ binom6); [exact HS|lra|exact (binom6_1 S)|unfold q3_h12, binom6; fa2]).
  apply (term_bound u F (1371 / 500000) (337 / 50000) _ _ 5 1 (19 / 40000000000000000) Hu HF) in B12; [|cbn [pow]; lra].
  assert (B13 : Rabs (hom q3_h13 S (1 - S)) <= (1427 / 1890)) by (apply (bern_bound (1427 / 1890) _ binom7); [exact HS|lra|exact (binom7_1 S)|unfold q3_h13, binom7; fa2]).
  apply (term_bound u F (1371 / 500000) (337 / 50000) _ _ 5 2 (133 / 25000000000000000000) Hu HF) in B13; [|cbn [pow]; lra].
  assert (B14 : Rabs (hom q3_h14 S (1 - S)) <= (3721 / 518400)) by (apply (bern_bound (3721 / 518400) _ binom6); [exact HS|lra|exact (binom6_1 S)|unfold q3_h14, binom6; fa2]).
  apply (term_bound u F (1371 / 500000) (337 / 50000) _ _ 6 0 (153 / 50000000000000000000) Hu HF) in B14; [|cbn [pow]; lra].
  match goal with |- Rabs (?c + ?x - ?c) <= _ => replace (c + x - c) with x by ring end.
  eapply Rle_trans; [repeat first [eapply Rle_trans; [apply Rabs_triang|]; apply Rplus_le_compat; [|exact B0 || exact B1 || exact B2 || exact B3 || exact B4 || exact B5 || exact B6 || exact B7 || exact B8 || exact B9 || exact B10 || exact B11 || exact B12 || exact B13 || exact B14] | exact B0 || exact B1 || exact B2 || exact B3 || exact B4 || exact B5 || exact B6 || exact B7 || exact B8 || exact B9 || exact B10 || exact B11 || exact B12 || exact B13 || exact B14]|lra].
Qed.
Lemma q3_6 F S u : 0 <= S <= 1 -> 0 <= u <= (10967 / 1000000) -> 0 <= F <= (337 / 50000) -> Rabs (q3 F S u - 0) <= (237 / 1000000000).
Proof.
  intros HS Hu HF. rewrite q3_sum.
  assert (B0 : Rabs (hom q3_h0 S (1 - S)) <= (13 / 12)) by (apply (bern_bound (13 / 12) _ binom4); [exact HS|lra|exact (binom4_1 S)|unfold q3_h0, binom4; fa2]).
  apply (term_bound u F (10967 / 1000000) (337 / 50000) _ _ 2 2 (37 / 6250000000) Hu HF) in B0; [|cbn [pow]; lra].
  assert (B1 : Rabs (hom q3_h1 S (1 - S)) <= (61 / 360)) by (apply (bern_bound (61 / 360) _ binom8); [exact HS|lra|exact (binom8_1 S)|unfold q3_h1, binom8; fa2]).
  apply (term_bound u F (10967 / 1000000) (337 / 50000) _ _ 3 0 (7 / 31250000) Hu HF) in B1; [|cbn [pow]; lra].
  assert (B2 : Rabs (hom q3_h2 S (1 - S)) <= (155 / 288)) by (apply (bern_bound (155 / 288) _ binom9); [exact HS|lra|exact (binom9_1 S)|unfold q3_h2, binom9; fa2]).
  apply (term_bound u F (10967 / 1000000) (337 / 50000) _ _ 3 1 (479 / 100000000000) Hu HF) in B2; [|cbn [pow]; lra].
  assert (B3 : Rabs (hom q3_h3 S (1 - S)) <= (13 / 24)) by (apply (bern_bound (13 / 24) _ binom5); [exact HS|lra|exact (binom5_1 S)|unfold q3_h3, binom5; fa2]).
  apply (term_bound u F (10967 / 1000000) (337 / 50000) _ _ 3 2 (13 / 400000000000) Hu HF) in B3; [|cbn [pow]; lra].
  assert (B4 : Rabs (hom q3_h4 S (1 - S)) <= (13 / 24)) by (apply (bern_bound (13 / 24) _ binom6); [exact HS|lra|exact (binom6_1 S)|unfold q3_h4, binom6; fa2]).
  apply (term_bound u F (10967 / 1000000) (337 / 50000) _ _ 3 3 (219 / 1000000000000000) Hu HF) in B4; [|cbn [pow]; lra].
  assert (B5 : Rabs (hom q3_h5 S (1 - S)) <= (4 / 63)) by (apply (bern_bound (4 / 63) _ binom7); [exact HS|lra|exact (binom7_1 S)|unfold q3_h5, binom7; fa2]).
  apply (term_bound u F (10967 / 1000000) (337 / 50000) _ _ 3 4 (173 / 1000000000000000000) Hu HF) in B5; [|cbn [pow]; lra].
  assert (B6 : Rabs (hom q3_h6 S (1 - S)) <= (61 / 720)) by (apply (bern_bound (61 / 720) _ binom7); [exact HS|lra|exact (binom7_1 S)|unfold q3_h6, binom7; fa2]).
  apply (term_bound u F (10967 / 1000000) (337 / 50000) _ _ 4 0 (123 / 100000000000) Hu HF) in B6; [|cbn [pow]; lra].
  assert (B7 : Rabs (hom q3_h7 S (1 - S)) <= (347 / 900)) by (apply (bern_bound (347 / 900) _ binom10); [exact HS|lra|exact (binom10_1 S)|unfold q3_h7, binom10; fa2]).
  apply (term_bound u F (10967 / 1000000) (337 / 50000) _ _ 4 1 (47 / 1250000000000) Hu HF) in B7; [|cbn [pow]; lra].
  assert (B8 : Rabs (hom q3_h8 S (1 - S)) <= (41 / 40)) by (apply (bern_bound (41 / 40) _ binom6); [exact HS|lra|exact (binom6_1 S)|unfold q3_h8, binom6; fa2]).
  apply (term_bound u F (10967 / 1000000) (337 / 50000) _ _ 4 2 (337 / 500000000000000) Hu HF) in B8; [|cbn [pow]; lra].
  assert (B9 : Rabs (hom q3_h9 S (1 - S)) <= (91 / 144)) by (apply (bern_bound (91 / 144) _ binom7); [exact HS|lra|exact (binom7_1 S)|unfold q3_h9, binom7; fa2]).
  apply (term_bound u F (10967 / 1000000) (337 / 50000) _ _ 4 3 (7 / 2500000000000000) Hu HF) in B9; [|cbn [pow]; lra].
  assert (B10 : Rabs (hom q3_h10 S (1 - S)) <= (169 / 576)) by (apply (bern_bound (169 / 576) _ binom8); [exact HS|lra|exact (binom8_1 S)|unfold q3_h10, binom8; fa2]).
  apply (term_bound u F (10967 / 1000000) (337 / 50000) _ _ 4 4 (219 / 25000000000000000000) Hu HF) in B10; [|cbn [pow]; lra].
  assert (B11 : Rabs (hom q3_h11 S (1 - S)) <= (61 / 1728)) by (apply (bern_bound (61 / 1728) _ binom8); [exact HS|lra|exact (binom8_1 S)|unfold q3_h11, binom8; fa2]).
  apply (term_bound u F (10967 / 1000000) (337 / 50000) _ _ 5 0 (561 / 100000000000000) Hu HF) in B11; [|cbn [pow]; lra].
  assert (B12 : Rabs (hom q3_h12 S (1 - S)) <= (109 / 240)) by (apply (bern_bound (109 / 240) _ binom6); [exact HS|lra|exact (binom6_1 S)|unfold q3_h12, binom6; fa2]).
  apply (term_bound u F (10967 / 1000000) (337 / 50000) _ _ 5 1 (243 / 500000000000000) Hu HF) in B12; [|cbn [pow]; lra].
  assert (B13 : Rabs (hom q3_h13 S (1 - S)) <= (1427 / 1890)) by (apply (bern_bound (1427 / 1890) _ binom7); [exact HS|lra|exact (binom7_1 S)|unfold q3_h13, binom7; fa2]).
  apply (term_bound u F (10967 / 1000000) (337 / 50000) _ _ 5 2 (109 / 20000000000000000) Hu HF) in B13; [|cbn [pow]; lra].
  assert (B14 : Rabs (hom q3_h14 S (1 - S)) <= (3721 / 518400)) by (apply (bern_bound (3721 / 518400) _ binom6); [exact HS|lra|exact (binom6_1 S)|unfold q3_h14, binom6; fa2]).
  apply (term_bound u F (10967 / 1000000) (337 / 50000) _ _ 6 0 (1 / 80000000000000) Hu HF) in B14; [|cbn [pow]; lra].
  match goal with |- Rabs (?c + ?x - ?c) <= _ => replace (c + x - c) with x by ring end.
  eapply Rle_trans; [repeat first [eapply Rle_trans; [apply Rabs_triang|]; apply Rplus_le_compat; [|exact B0 || exact B1 || exact B2 || exact B3 || exact B4 || exact B5 || exact B6 || exact B7 || exact B8 || exact B9 || exact B10 || exact B11 || exact B12 || exact B13 || exact B14] | exact B0 || exact B1 || exact B2 || exact B3 || exact B4 || exact B5 || exact B6 || exact B7 || exact B8 || exact B9 || exact B10 || exact B11 || exact B12 || exact B13 || exact B14]|lra].
Qed.
Definition xl_h0 : list R := [(1 / 2); (-1 / 2)].
Definition xl_h1 : list R := [(1 / 2); 0; 0].
Definition xl_h2 : list R := [(5 / 24); (-1 / 3); (-5 / 4); (-2 / 3); (1 / 24)].
Definition xl_h3 : list R := [(7 / 12); (-11 / 6); (-29 / 12); 0; 0].
Lemma xl_sum F S u : xl F S u = 1 + (u ^ 1 * F ^ 0 * hom xl_h0 S (1 - S) + u ^ 1 * F ^ 1 * hom xl_h1 S (1 - S) + u ^ 2 * F ^ 0 * hom xl_h2 S (1 - S) + u ^ 2 * F ^ 1 * hom xl_h3 S (1 - S)).
Proof. unfold xl, ff, ffu, xl_h0, xl_h1, xl_h2, xl_h3. cbn [hom length pow]. field. Qed.
Lemma xl_6 F S u : 0 <= S <= 1 -> 0 <= u <= (10967 / 1000000) -> 0 <= F <= (337 / 50000) -> Rabs (xl F S u - 1) <= (139 / 25000).
Proof.
  intros HS Hu HF. rewrite xl_sum.
  assert (B0 : Rabs (hom xl_h0 S (1 - S)) <= (1 / 2)) by (apply (bern_bound (1 / 2) _ binom1); [exact HS|lra|exact (binom1_1 S)|unfold xl_h0, binom1; fa2]).
  apply (term_bound u F (10967 / 1000000) (337 / 50000) _ _ 1 0 (549 / 100000) Hu HF) in B0; [|cbn [pow]; lra].
  assert (B1 : Rabs (hom xl_h1 S (1 - S)) <= (1 / 2)) by (apply (bern_bound (1 / 2) _ binom2); [exact HS|lra|exact (binom2_1 S)|unfold xl_h1, binom2; fa2]).
  apply (term_bound u F (10967 / 1000000) (337 / 50000) _ _ 1 1 (37 / 1000000) Hu HF) in B1; [|cbn [pow]; lra].
  assert (B2 : Rabs (hom xl_h2 S (1 - S)) <= (5 / 24)) by (apply (bern_bound (5 / 24) _ binom4); [exact HS|lra|exact (binom4_1 S)|unfold xl_h2, binom4; fa2]).
  apply (term_bound u F (10967 / 1000000) (337 / 50000) _ _ 2 0 (251 / 10000000) Hu HF) in B2; [|cbn [pow]; lra].
  assert (B3 : Rabs (hom xl_h3 S (1 - S)) <= (7 / 12)) by (apply (bern_bound (7 / 12) _ binom4); [exact HS|lra|exact (binom4_1 S)|unfold xl_h3, binom4; fa2]).
  apply (term_bound u F (10967 / 1000000) (337 / 50000) _ _ 2 1 (473 / 1000000000) Hu HF) in B3; [|cbn [pow]; lra].
  match goal with |- Rabs (?c + ?x - ?c) <= _ => replace (c + x - c) with x by ring end.
  eapply Rle_trans; [repeat first [eapply Rle_trans; [apply Rabs_triang|]; apply Rplus_le_compat; [|exact B0 || exact B1 || exact B2 || exact B3] | exact B0 || exact B1 || exact B2 || exact B3]|lra].
Qed.
Definition kk_h0 : list R := [(1 / 2); 0].
Definition kk_h1 : list R := [(1 / 2); 0; 0].
Definition kk_h2 : list R := [(5 / 24); (-1 / 6); 0].
Definition kk_h3 : list R := [(7 / 12); (-7 / 6); 0; 0].
Definition kk_h4 : list R := [(13 / 24); 0; 0; 0; 0].
Definition kk_h5 : list R := [(61 / 720); (-37 / 180); (1 / 45); 0].
Lemma kk_sum F S u : kk F S u = 1 + (u ^ 1 * F ^ 0 * hom kk_h0 S (1 - S) + u ^ 1 * F ^ 1 * hom kk_h1 S (1 - S) + u ^ 2 * F ^ 0 * hom kk_h2 S (1 - S) + u ^ 2 * F ^ 1 * hom kk_h3 S (1 - S) + u ^ 2 * F ^ 2 * hom kk_h4 S (1 - S) + u ^ 3 * F ^ 0 * hom kk_h5 S (1 - S)).
Proof. unfold kk, kk_h0, kk_h1, kk_h2, kk_h3, kk_h4, kk_h5. cbn [hom length pow]. field. Qed.
Lemma kk_6 F S u : 0 <= S <= 1 -> 0 <= u <= (10967 / 1000000) -> 0 <= F <= (337 / 50000) -> Rabs (kk F S u - 1) <= (139 / 25000).
Proof.
  intros HS Hu HF. rewrite kk_sum.
  assert (B0 : Rabs (hom kk_h0 S (1 - S)) <= (1 / 2)) by (apply (bern_bound (1 / 2) _ binom1); [exact HS|lra|exact (binom1_1 S)|unfold kk_h0, binom1; fa2]).
  apply (term_bound u F (10967 / 1000000) (337 / 50000) _ _ 1 0 (549 / 100000) Hu HF) in B0; [|cbn [pow]; lra].
  assert (B1 : Rabs (hom kk_h1 S (1 - S)) <= (1 / 2)) by (apply (bern_bound (1 / 2) _ binom2); [exact HS|lra|exact (binom2_1 S)|unfold kk_h1, binom2; fa2]).
  apply (term_bound u F (10967 / 1000000) (337 / 50000) _ _ 1 1 (37 / 1000000) Hu HF) in B1; [|cbn [pow]; lra].
  assert (B2 : Rabs (hom kk_h2 S (1 - S)) <= (5 / 24)) by (apply (bern_bound (5 / 24) _ binom2); [exact HS|lra|exact (binom2_1 S)|unfold kk_h2, binom2; fa2]).
  apply (term_bound u F (10967 / 1000000) (337 / 50000) _ _ 2 0 (251 / 10000000) Hu HF) in B2; [|cbn [pow]; lra].
  assert (B3 : Rabs (hom kk_h3 S (1 - S)) <= (7 / 12)) by (apply (bern_bound (7 / 12) _ binom3); [exact HS|lra|exact (binom3_1 S)|unfold kk_h3, binom3; fa2]).
  apply (term_bound u F (10967 / 1000000) (337 / 50000) _ _ 2 1 (473 / 1000000000) Hu HF) in B3; [|cbn [pow]; lra].
  assert (B4 : Rabs (hom kk_h4 S (1 - S)) <= (13 / 24)) by (apply (bern_bound (13 / 24) _ binom4); [exact HS|lra|exact (binom4_1 S)|unfold kk_h4, binom4; fa2]).
  apply (term_bound u F (10967 / 1000000) (337 / 50000) _ _ 2 2 (37 / 12500000000) Hu HF) in B4; [|cbn [pow]; lra].
  assert (B5 : Rabs (hom kk_h5 S (1 - S)) <= (61 / 720)) by (apply (bern_bound (61 / 720) _ binom3); [exact HS|lra|exact (binom3_1 S)|unfold kk_h5, binom3; fa2]).
  apply (term_bound u F (10967 / 1000000) (337 / 50000) _ _ 3 0 (7 / 62500000) Hu HF) in B5; [|cbn [pow]; lra].
  match goal with |- Rabs (?c + ?x - ?c) <= _ => replace (c + x - c) with x by ring end.
  eapply Rle_trans; [repeat first [eapply Rle_trans; [apply Rabs_triang|]; apply Rplus_le_compat; [|exact B0 || exact B1 || exact B2 || exact B3 || exact B4 || exact B5] | exact B0 || exact B1 || exact B2 || exact B3 || exact B4 || exact B5]|lra].
Qed.
Definition ggu_h0 : list R := [(1 / 2)].
Definition ggu_h1 : list R := [(5 / 12); (-1 / 12)].
Definition ggu_h2 : list R := [(3 / 4); 0; 0].
Definition ggu_h3 : list R := [(1 / 3); 0; 0; 0].
Definition ggu_h4 : list R := [(61 / 240); (-29 / 120); (1 / 240)].
Definition ggu_h5 : list R := [(9 / 8); (-11 / 8); 0; 0].
Lemma ggu_sum F S u : ggu F S u = 0 + (u ^ 0 * F ^ 0 * hom ggu_h0 S (1 - S) + u ^ 1 * F ^ 0 * hom ggu_h1 S (1 - S) + u ^ 1 * F ^ 1 * hom ggu_h2 S (1 - S) + u ^ 1 * F ^ 2 * hom ggu_h3 S (1 - S) + u ^ 2 * F ^ 0 * hom ggu_h4 S (1 - S) + u ^ 2 * F ^ 1 * hom ggu_h5 S (1 - S)).
Proof. unfold ggu, ggu_h0, ggu_h1, ggu_h2, ggu_h3, ggu_h4, ggu_h5. cbn [hom length pow]. field. Qed.
Lemma ggu_6 F S u : 0 <= S <= 1 -> 0 <= u <= (10967 / 1000000) -> 0 <= F <= (337 / 50000) -> Rabs (ggu F S u - 0) <= (253 / 500).
Proof.
  intros HS Hu HF. rewrite ggu_sum.
  assert (B0 : Rabs (hom ggu_h0 S (1 - S)) <= (1 / 2)) by (apply (bern_bound (1 / 2) _ binom0); [exact HS|lra|exact (binom0_1 S)|unfold ggu_h0, binom0; fa2]).
  apply (term_bound u F (10967 / 1000000) (337 / 50000) _ _ 0 0 (501 / 1000) Hu HF) in B0; [|cbn [pow]; lra].
  assert (B1 : Rabs (hom ggu_h1 S (1 - S)) <= (5 / 12)) by (apply (bern_bound (5 / 12) _ binom1); [exact HS|lra|exact (binom1_1 S)|unfold ggu_h1, binom1; fa2]).
  apply (term_bound u F (10967 / 1000000) (337 / 50000) _ _ 1 0 (457 / 100000) Hu HF) in B1; [|cbn [pow]; lra].
  assert (B2 : Rabs (hom ggu_h2 S (1 - S)) <= (3 / 4)) by (apply (bern_bound (3 / 4) _ binom2); [exact HS|lra|exact (binom2_1 S)|unfold ggu_h2, binom2; fa2]).
  apply (term_bound u F (10967 / 1000000) (337 / 50000) _ _ 1 1 (111 / 2000000) Hu HF) in B2; [|cbn [pow]; lra].
  assert (B3 : Rabs (hom ggu_h3 S (1 - S)) <= (1 / 3)) by (apply (bern_bound (1 / 3) _ binom3); [exact HS|lra|exact (binom3_1 S)|unfold ggu_h3, binom3; fa2]).
  apply (term_bound u F (10967 / 1000000) (337 / 50000) _ _ 1 2 (167 / 1000000000) Hu HF) in B3; [|cbn [pow]; lra].
  assert (B4 : Rabs (hom ggu_h4 S (1 - S)) <= (61 / 240)) by (apply (bern_bound (61 / 240) _ binom2); [exact HS|lra|exact (binom2_1 S)|unfold ggu_h4, binom2; fa2]).
  apply (term_bound u F (10967 / 1000000) (337 / 50000) _ _ 2 0 (153 / 5000000) Hu HF) in B4; [|cbn [pow]; lra].
  assert (B5 : Rabs (hom ggu_h5 S (1 - S)) <= (9 / 8)) by (apply (bern_bound (9 / 8) _ binom3); [exact HS|lra|exact (binom3_1 S)|unfold ggu_h5, binom3; fa2]).
  apply (term_bound u F (10967 / 1000000) (337 / 50000) _ _ 2 1 (57 / 62500000) Hu HF) in B5; [|cbn [pow]; lra].
  match goal with |- Rabs (?c + ?x - ?c) <= _ => replace (c + x - c) with x by ring end.
  eapply Rle_trans; [repeat first [eapply Rle_trans; [apply Rabs_triang|]; apply Rplus_le_compat; [|exact B0 || exact B1 || exact B2 || exact B3 || exact B4 || exact B5] | exact B0 || exact B1 || exact B2 || exact B3 || exact B4 || exact B5]|lra].
Qed.
Lemma ggu_3 F S u : 0 <= S <= 1 -> 0 <= u <= (1371 / 500000) -> 0 <= F <= (337 / 50000) -> Rabs (ggu F S u - 0) <= (503 / 1000).
Proof.
  intros HS Hu HF. rewrite ggu_sum.
  assert (B0 : Rabs (hom ggu_h0 S (1 - S)) <= (1 / 2)) by (apply (bern_bound (1 / 2) _ binom0); [exact HS|lra|exact (binom0_1 S)|unfold ggu_h0, binom0; fa2]).
  apply (term_bound u F (1371 / 500000) (337 / 50000) _ _ 0 0 (501 / 1000) Hu HF) in B0; [|cbn [pow]; lra].
  assert (B1 : Rabs (hom ggu_h1 S (1 - S)) <= (5 / 12)) by (apply (bern_bound (5 / 12) _ binom1); [exact HS|lra|exact (binom1_1 S)|unfold ggu_h1, binom1; fa2]).
  apply (term_bound u F (1371 / 500000) (337 / 50000) _ _ 1 0 (23 / 20000) Hu HF) in B1; [|cbn [pow]; lra].
  assert (B2 : Rabs (hom ggu_h2 S (1 - S)) <= (3 / 4)) by (apply (bern_bound (3 / 4) _ binom2); [exact HS|lra|exact (binom2_1 S)|unfold ggu_h2, binom2; fa2]).
  apply (term_bound u F (1371 / 500000) (337 / 50000) _ _ 1 1 (139 / 10000000) Hu HF) in B2; [|cbn [pow]; lra].
  assert (B3 : Rabs (hom ggu_h3 S (1 - S)) <= (1 / 3)) by (apply (bern_bound (1 / 3) _ binom3); [exact HS|lra|exact (binom3_1 S)|unfold ggu_h3, binom3; fa2]).
  apply (term_bound u F (1371 / 500000) (337 / 50000) _ _ 1 2 (13 / 312500000) Hu HF) in B3; [|cbn [pow]; lra].
  assert (B4 : Rabs (hom ggu_h4 S (1 - S)) <= (61 / 240)) by (apply (bern_bound (61 / 240) _ binom2); [exact HS|lra|exact (binom2_1 S)|unfold ggu_h4, binom2; fa2]).
  apply (term_bound u F (1371 / 500000) (337 / 50000) _ _ 2 0 (3 / 1562500) Hu HF) in B4; [|cbn [pow]; lra].
  assert (B5 : Rabs (hom ggu_h5 S (1 - S)) <= (9 / 8)) by (apply (bern_bound (9 / 8) _ binom3); [exact HS|lra|exact (binom3_1 S)|unfold ggu_h5, binom3; fa2]).
  apply (term_bound u F (1371 / 500000) (337 / 50000) _ _ 2 1 (571 / 10000000000) Hu HF) in B5; [|cbn [pow]; lra].
  match goal with |- Rabs (?c + ?x - ?c) <= _ => replace (c + x - c) with x by ring end.
  eapply Rle_trans; [repeat first [eapply Rle_trans; [apply Rabs_triang|]; apply Rplus_le_compat; [|exact B0 || exact B1 || exact B2 || exact B3 || exact B4 || exact B5] | exact B0 || exact B1 || exact B2 || exact B3 || exact B4 || exact B5]|lra].
Qed.
Definition kkS_h0 : list R := [(-1 / 2)].
Definition kkS_h1 : list R := [(-1); 0].
Definition kkS_h2 : list R := [(-7 / 12); (1 / 6)].
Definition kkS_h3 : list R := [(-35 / 12); (7 / 3); 0].
Definition kkS_h4 : list R := [(-13 / 6); 0; 0; 0].
Definition kkS_h5 : list R := [(-331 / 720); (41 / 90); (-1 / 45)].
Lemma kkS_sum F S u : kkS F S u = 0 + (u ^ 1 * F ^ 0 * hom kkS_h0 S (1 - S) + u ^ 1 * F ^ 1 * hom kkS_h1 S (1 - S) + u ^ 2 * F ^ 0 * hom kkS_h2 S (1 - S) + u ^ 2 * F ^ 1 * hom kkS_h3 S (1 - S) + u ^ 2 * F ^ 2 * hom kkS_h4 S (1 - S) + u ^ 3 * F ^ 0 * hom kkS_h5 S (1 - S)).
Proof. unfold kkS, kkS_h0, kkS_h1, kkS_h2, kkS_h3, kkS_h4, kkS_h5. cbn [hom length pow]. field. Qed.
Lemma kkS_6 F S u : 0 <= S <= 1 -> 0 <= u <= (10967 / 1000000) -> 0 <= F <= (337 / 50000) -> Rabs (kkS F S u - 0) <= (141 / 25000).
Proof.
  intros HS Hu HF. rewrite kkS_sum.
  assert (B0 : Rabs (hom kkS_h0 S (1 - S)) <= (1 / 2)) by (apply (bern_bound (1 / 2) _ binom0); [exact HS|lra|exact (binom0_1 S)|unfold kkS_h0, binom0; fa2]).
  apply (term_bound u F (10967 / 1000000) (337 / 50000) _ _ 1 0 (549 / 100000) Hu HF) in B0; [|cbn [pow]; lra].
  assert (B1 : Rabs (hom kkS_h1 S (1 - S)) <= 1) by (apply (bern_bound 1 _ binom1); [exact HS|lra|exact (binom1_1 S)|unfold kkS_h1, binom1; fa2]).
  apply (term_bound u F (10967 / 1000000) (337 / 50000) _ _ 1 1 (37 / 500000) Hu HF) in B1; [|cbn [pow]; lra].
  assert (B2 : Rabs (hom kkS_h2 S (1 - S)) <= (7 / 12)) by (apply (bern_bound (7 / 12) _ binom1); [exact HS|lra|exact (binom1_1 S)|unfold kkS_h2, binom1; fa2]).
  apply (term_bound u F (10967 / 1000000) (337 / 50000) _ _ 2 0 (351 / 5000000) Hu HF) in B2; [|cbn [pow]; lra].
  assert (B3 : Rabs (hom kkS_h3 S (1 - S)) <= (35 / 12)) by (apply (bern_bound (35 / 12) _ binom2); [exact HS|lra|exact (binom2_1 S)|unfold kkS_h3, binom2; fa2]).
  apply (term_bound u F (10967 / 1000000) (337 / 50000) _ _ 2 1 (237 / 100000000) Hu HF) in B3; [|cbn [pow]; lra].
  assert (B4 : Rabs (hom kkS_h4 S (1 - S)) <= (13 / 6)) by (apply (bern_bound (13 / 6) _ binom3); [exact HS|lra|exact (binom3_1 S)|unfold kkS_h4, binom3; fa2]).
  apply (term_bound u F (10967 / 1000000) (337 / 50000) _ _ 2 2 (119 / 10000000000) Hu HF) in B4; [|cbn [pow]; lra].
  assert (B5 : Rabs (hom kkS_h5 S (1 - S)) <= (331 / 720)) by (apply (bern_bound (331 / 720) _ binom2); [exact HS|lra|exact (binom2_1 S)|unfold kkS_h5, binom2; fa2]).
  apply (term_bound u F (10967 / 1000000) (337 / 50000) _ _ 3 0 (607 / 1000000000) Hu HF) in B5; [|cbn [pow]; lra].
  match goal with |- Rabs (?c + ?x - ?c) <= _ => replace (c + x - c) with x by ring end.
  eapply Rle_trans; [repeat first [eapply Rle_trans; [apply Rabs_triang|]; apply Rplus_le_compat; [|exact B0 || exact B1 || exact B2 || exact B3 || exact B4 || exact B5] | exact B0 || exact B1 || exact B2 || exact B3 || exact B4 || exact B5]|lra].
Qed.
Definition kku_h0 : list R := [(1 / 2); 0].
Definition kku_h1 : list R := [(1 / 2); 0; 0].
Definition kku_h2 : list R := [(5 / 12); (-1 / 3); 0].
Definition kku_h3 : list R := [(7 / 6); (-7 / 3); 0; 0].
Definition kku_h4 : list R := [(13 / 12); 0; 0; 0; 0].
Definition kku_h5 : list R := [(61 / 240); (-37 / 60); (1 / 15); 0].
Lemma kku_sum F S u : kku F S u = 0 + (u ^ 0 * F ^ 0 * hom kku_h0 S (1 - S) + u ^ 0 * F ^ 1 * hom kku_h1 S (1 - S) + u ^ 1 * F ^ 0 * hom kku_h2 S (1 - S) + u ^ 1 * F ^ 1 * hom kku_h3 S (1 - S) + u ^ 1 * F ^ 2 * hom kku_h4 S (1 - S) + u ^ 2 * F ^ 0 * hom kku_h5 S (1 - S)).
Proof. unfold kku, kku_h0, kku_h1, kku_h2, kku_h3, kku_h4, kku_h5. cbn [hom length pow]. field. Qed.
Lemma kku_6 F S u : 0 <= S <= 1 -> 0 <= u <= (10967 / 1000000) -> 0 <= F <= (337 / 50000) -> Rabs (kku F S u - 0) <= (51 / 100).
Proof.
  intros HS Hu HF. rewrite kku_sum.
  assert (B0 : Rabs (hom kku_h0 S (1 - S)) <= (1 / 2)) by (apply (bern_bound (1 / 2) _ binom1); [exact HS|lra|exact (binom1_1 S)|unfold kku_h0, binom1; fa2]).
  apply (term_bound u F (10967 / 1000000) (337 / 50000) _ _ 0 0 (501 / 1000) Hu HF) in B0; [|cbn [pow]; lra].
  assert (B1 : Rabs (hom kku_h1 S (1 - S)) <= (1 / 2)) by (apply (bern_bound (1 / 2) _ binom2); [exact HS|lra|exact (binom2_1 S)|unfold kku_h1, binom2; fa2]).
  apply (term_bound u F (10967 / 1000000) (337 / 50000) _ _ 0 1 (169 / 50000) Hu HF) in B1; [|cbn [pow]; lra].
  assert (B2 : Rabs (hom kku_h2 S (1 - S)) <= (5 / 12)) by (apply (bern_bound (5 / 12) _ binom2); [exact HS|lra|exact (binom2_1 S)|unfold kku_h2, binom2; fa2]).
  apply (term_bound u F (10967 / 1000000) (337 / 50000) _ _ 1 0 (457 / 100000) Hu HF) in B2; [|cbn [pow]; lra].
  assert (B3 : Rabs (hom kku_h3 S (1 - S)) <= (7 / 6)) by (apply (bern_bound (7 / 6) _ binom3); [exact HS|lra|exact (binom3_1 S)|unfold kku_h3, binom3; fa2]).
  apply (term_bound u F (10967 / 1000000) (337 / 50000) _ _ 1 1 (863 / 10000000) Hu HF) in B3; [|cbn [pow]; lra].
  assert (B4 : Rabs (hom kku_h4 S (1 - S)) <= (13 / 12)) by (apply (bern_bound (13 / 12) _ binom4); [exact HS|lra|exact (binom4_1 S)|unfold kku_h4, binom4; fa2]).
  apply (term_bound u F (10967 / 1000000) (337 / 50000) _ _ 1 2 (27 / 50000000) Hu HF) in B4; [|cbn [pow]; lra].
  assert (B5 : Rabs (hom kku_h5 S (1 - S)) <= (61 / 240)) by (apply (bern_bound (61 / 240) _ binom3); [exact HS|lra|exact (binom3_1 S)|unfold kku_h5, binom3; fa2]).
  apply (term_bound u F (10967 / 1000000) (337 / 50000) _ _ 2 0 (153 / 5000000) Hu HF) in B5; [|cbn [pow]; lra].
  match goal with |- Rabs (?c + ?x - ?c) <= _ => replace (c + x - c) with x by ring end.
  eapply Rle_trans; [repeat first [eapply Rle_trans; [apply Rabs_triang|]; apply Rplus_le_compat; [|exact B0 || exact B1 || exact B2 || exact B3 || exact B4 || exact B5] | exact B0 || exact B1 || exact B2 || exact B3 || exact B4 || exact B5]|lra].
Qed.
Definition mu_h0 : list R := [0; 0; 0; (35 / 8); (525 / 64); (105 / 32); (-35 / 64)].
Definition mu_h1 : list R := [0; 0; 0; (-35 / 8); (-315 / 32); (-147 / 32); (7 / 8)].
Definition mu_h2 : list R := [0; 0; 0; 0; (105 / 64); (63 / 64); (-63 / 256)].
Definition mu_h3 : list R := [0; 0; 0; 0; 0; (21 / 64); (7 / 64); (-11 / 256)].
Definition mu_h4 : list R := [0; 0; 0; 0; 0; 0; (315 / 64); (375 / 16); (11115 / 256); (9675 / 256); (1725 / 128); (-45 / 128); (-225 / 256); (15 / 256)].
Definition mu_h5 : list R := [0; 0; 0; 0; 0; 0; 0; (-225 / 64); (-375 / 64); (-325 / 256); (125 / 128); (-25 / 256)].
Lemma mu_sum F S u : mu F S u = 0 + (u ^ 0 * F ^ 4 * hom mu_h0 S (1 - S) + u ^ 0 * F ^ 5 * hom mu_h1 S (1 - S) + u ^ 0 * F ^ 6 * hom mu_h2 S (1 - S) + u ^ 0 * F ^ 7 * hom mu_h3 S (1 - S) + u ^ 0 * F ^ 8 * hom mu_h4 S (1 - S) + u ^ 0 * F ^ 9 * hom mu_h5 S (1 - S)).
Proof. unfold mu, mer, mu_h0, mu_h1, mu_h2, mu_h3, mu_h4, mu_h5. cbn [hom length pow]. field. Qed.
Lemma mu_1 F S u : 0 <= S <= 1 -> 0 <= u <= 1 -> 0 <= F <= (523 / 78125) -> Rabs (mu F S u - 0) <= (7 / 6250000000).
Proof.
  intros HS Hu HF. rewrite mu_sum.
  assert (B0 : Rabs (hom mu_h0 S (1 - S)) <= (35 / 64)) by (apply (bern_bound (35 / 64) _ binom6); [exact HS|lra|exact (binom6_1 S)|unfold mu_h0, binom6; fa2]).
  apply (term_bound u F 1 (523 / 78125) _ _ 0 4 (11 / 10000000000) Hu HF) in B0; [|cbn [pow]; lra].
  assert (B1 : Rabs (hom mu_h1 S (1 - S)) <= (7 / 8)) by (apply (bern_bound (7 / 8) _ binom6); [exact HS|lra|exact (binom6_1 S)|unfold mu_h1, binom6; fa2]).
  apply (term_bound u F 1 (523 / 78125) _ _ 0 5 (59 / 5000000000000) Hu HF) in B1; [|cbn [pow]; lra].
  assert (B2 : Rabs (hom mu_h2 S (1 - S)) <= (63 / 256)) by (apply (bern_bound (63 / 256) _ binom6); [exact HS|lra|exact (binom6_1 S)|unfold mu_h2, binom6; fa2]).
  apply (term_bound u F 1 (523 / 78125) _ _ 0 6 (111 / 5000000000000000) Hu HF) in B2; [|cbn [pow]; lra].
  assert (B3 : Rabs (hom mu_h3 S (1 - S)) <= (11 / 256)) by (apply (bern_bound (11 / 256) _ binom7); [exact HS|lra|exact (binom7_1 S)|unfold mu_h3, binom7; fa2]).
  apply (term_bound u F 1 (523 / 78125) _ _ 0 7 (259 / 10000000000000000000) Hu HF) in B3; [|cbn [pow]; lra].
  assert (B4 : Rabs (hom mu_h4 S (1 - S)) <= (225 / 3328)) by (apply (bern_bound (225 / 3328) _ binom13); [exact HS|lra|exact (binom13_1 S)|unfold mu_h4, binom13; fa2]).
  apply (term_bound u F 1 (523 / 78125) _ _ 0 8 (273 / 1000000000000000000000) Hu HF) in B4; [|cbn [pow]; lra].
  assert (B5 : Rabs (hom mu_h5 S (1 - S)) <= (25 / 256)) by (apply (bern_bound (25 / 256) _ binom11); [exact HS|lra|exact (binom11_1 S)|unfold mu_h5, binom11; fa2]).
  apply (term_bound u F 1 (523 / 78125) _ _ 0 9 (33 / 12500000000000000000000) Hu HF) in B5; [|cbn [pow]; lra].
  match goal with |- Rabs (?c + ?x - ?c) <= _ => replace (c + x - c) with x by ring end.
  eapply Rle_trans; [repeat first [eapply Rle_trans; [apply Rabs_triang|]; apply Rplus_le_compat; [|exact B0 || exact B1 || exact B2 || exact B3 || exact B4 || exact B5] | exact B0 || exact B1 || exact B2 || exact B3 || exact B4 || exact B5]|lra].
Qed.
