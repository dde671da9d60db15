(** Bounds on the rounding errors of the four series of the UTM projection of Utm64, one operation after another: each step states a bound of the exact value and of the error of the computed one.
    The domain is that of latitudes up to 84 degrees and of longitudes up to six degrees from the central meridian. *)
From Coq Require Import Reals ZArith Lra Lia.
From Flocq Require Import Core Binary Bits.
From Verif Require Import RangeCoordinates PropGeo Float64 DeadReckoning64 Range64 FloatAbs RangeErr PropRange64 Utm64 UtmErr.
Local Open Scope R_scope.

Lemma nap_a : nap a64 wgs84_a 6378137 0.
Proof. split; [exact a_ap|]. unfold wgs84_a. rewrite Rabs_pos_eq; lra. Qed.
Lemma val_k0 : val f_k0 = 1125449546879887 / 1125899906842624. Proof. unfold f_k0. value_of_bits. lra. Qed.
Lemma nap_k0 : nap f_k0 k0 1 (6 / 10 ^ 17).
Proof. split; [split; [reflexivity|]|]; [rewrite val_k0|]; unfold k0; apply Rabs_le; lra. Qed.

Section Terms.
Variable J : projlib.
Hypothesis AJ : accurate_proj J.

Lemma meridian_nap e2 lat e2' lat' : nap e2 e2' (67 / 10 ^ 4) (4 / 10 ^ 17) -> nap lat lat' (1467 / 1000) (4 / 10 ^ 16) ->
  exists r, meridian64 J e2 lat = GRet r /\ nap r (wgs84_a * (((((((1 - (e2' / 4)) - ((3 * (e2' ^ 2)) / 64)) - ((5 * (e2' ^ 3)) / 256)) * lat') - (((((3 * e2') / 8) + ((3 * (e2' ^ 2)) / 32)) + ((45 * (e2' ^ 3)) / 1024)) * (sin (2 * lat')))) + ((((15 * (e2' ^ 2)) / 256) + ((45 * (e2' ^ 3)) / 1024)) * (sin (4 * lat')))) - (((35 * (e2' ^ 3)) / 3072) * (sin (6 * lat'))))) 9890000 (118 / 10 ^ 10).
Proof.
  intros I0 I1. unfold meridian64.
  destruct (nap_square J AJ _ _ _ _ (449 / 10 ^ 7) (547 / 10 ^ 21) I0 ltac:(lra) ltac:(lra) ltac:(lra)) as (e4 & Qe4 & H1).
  rewrite Qe4. cbn [gbind].
  destruct (nap_pow J AJ _ _ 3 3 _ _ (301 / 10 ^ 9) (546 / 10 ^ 23) I0 eq_refl ltac:(lia) ltac:(lra) ltac:(lra) ltac:(cbn [Nat.pred]; lra)) as (e6 & Qe6 & H2).
  rewrite Qe6. cbn [gbind].
  pose proof (nap_int 1 ltac:(lia)) as H3. cbn [Z.abs] in H3.
  assert (H4 : nap (fdiv e2 (fint 4)) (e2' / 4) (168 / 10 ^ 5) (102 / 10 ^ 19)) by (eapply nap_over; [exact I0|lia|lra|lra|lra]).
  assert (H5 : nap (fsub (fint 1) (fdiv e2 (fint 4))) (1 - (e2' / 4)) (101 / 10 ^ 2) (124 / 10 ^ 18)) by (eapply nap_sub; [exact H3|exact H4|lra|lra|lra]).
  pose proof (nap_int 3 ltac:(lia)) as H6. cbn [Z.abs] in H6.
  assert (H7 : nap (fmul (fint 3) e4) (3 * (e2' ^ 2)) (135 / 10 ^ 6) (166 / 10 ^ 20)) by (eapply nap_mul; [exact H6|exact H1|lra|lra|lra]).
  assert (H8 : nap (fdiv (fmul (fint 3) e4) (fint 64)) ((3 * (e2' ^ 2)) / 64) (211 / 10 ^ 8) (262 / 10 ^ 22)) by (eapply nap_over; [exact H7|lia|lra|lra|lra]).
  assert (H9 : nap (fsub (fsub (fint 1) (fdiv e2 (fint 4))) (fdiv (fmul (fint 3) e4) (fint 64))) ((1 - (e2' / 4)) - ((3 * (e2' ^ 2)) / 64)) (102 / 10 ^ 2) (239 / 10 ^ 18)) by (eapply nap_sub; [exact H5|exact H8|lra|lra|lra]).
  pose proof (nap_int 5 ltac:(lia)) as H10. cbn [Z.abs] in H10.
  assert (H11 : nap (fmul (fint 5) e6) (5 * (e2' ^ 3)) (151 / 10 ^ 8) (275 / 10 ^ 22)) by (eapply nap_mul; [exact H10|exact H2|lra|lra|lra]).
  assert (H12 : nap (fdiv (fmul (fint 5) e6) (fint 256)) ((5 * (e2' ^ 3)) / 256) (590 / 10 ^ 11) (109 / 10 ^ 24)) by (eapply nap_over; [exact H11|lia|lra|lra|lra]).
  assert (H13 : nap (fsub (fsub (fsub (fint 1) (fdiv e2 (fint 4))) (fdiv (fmul (fint 3) e4) (fint 64))) (fdiv (fmul (fint 5) e6) (fint 256))) (((1 - (e2' / 4)) - ((3 * (e2' ^ 2)) / 64)) - ((5 * (e2' ^ 3)) / 256)) (103 / 10 ^ 2) (355 / 10 ^ 18)) by (eapply nap_sub; [exact H9|exact H12|lra|lra|lra]).
  assert (H14 : nap (fmul (fint 3) e2) (3 * e2') (201 / 10 ^ 4) (123 / 10 ^ 18)) by (eapply nap_mul; [exact H6|exact I0|lra|lra|lra]).
  assert (H15 : nap (fdiv (fmul (fint 3) e2) (fint 8)) ((3 * e2') / 8) (252 / 10 ^ 5) (157 / 10 ^ 19)) by (eapply nap_over; [exact H14|lia|lra|lra|lra]).
  assert (H16 : nap (fmul (fint 3) e4) (3 * (e2' ^ 2)) (135 / 10 ^ 6) (166 / 10 ^ 20)) by (eapply nap_mul; [exact H6|exact H1|lra|lra|lra]).
  assert (H17 : nap (fdiv (fmul (fint 3) e4) (fint 32)) ((3 * (e2' ^ 2)) / 32) (422 / 10 ^ 8) (524 / 10 ^ 22)) by (eapply nap_over; [exact H16|lia|lra|lra|lra]).
  assert (H18 : nap (fadd (fdiv (fmul (fint 3) e2) (fint 8)) (fdiv (fmul (fint 3) e4) (fint 32))) (((3 * e2') / 8) + ((3 * (e2' ^ 2)) / 32)) (253 / 10 ^ 5) (161 / 10 ^ 19)) by (eapply nap_add; [exact H15|exact H17|lra|lra|lra]).
  pose proof (nap_int 45 ltac:(lia)) as H19. cbn [Z.abs] in H19.
  assert (H20 : nap (fmul (fint 45) e6) (45 * (e2' ^ 3)) (136 / 10 ^ 7) (248 / 10 ^ 21)) by (eapply nap_mul; [exact H19|exact H2|lra|lra|lra]).
  assert (H21 : nap (fdiv (fmul (fint 45) e6) (fint 1024)) ((45 * (e2' ^ 3)) / 1024) (133 / 10 ^ 10) (244 / 10 ^ 24)) by (eapply nap_over; [exact H20|lia|lra|lra|lra]).
  assert (H22 : nap (fadd (fadd (fdiv (fmul (fint 3) e2) (fint 8)) (fdiv (fmul (fint 3) e4) (fint 32))) (fdiv (fmul (fint 45) e6) (fint 1024))) ((((3 * e2') / 8) + ((3 * (e2' ^ 2)) / 32)) + ((45 * (e2' ^ 3)) / 1024)) (254 / 10 ^ 5) (164 / 10 ^ 19)) by (eapply nap_add; [exact H18|exact H21|lra|lra|lra]).
  pose proof (nap_int 2 ltac:(lia)) as H23. cbn [Z.abs] in H23.
  assert (H24 : nap (fmul (fint 2) lat) (2 * lat') (294 / 10 ^ 2) (113 / 10 ^ 17)) by (eapply nap_mul; [exact H23|exact I1|lra|lra|lra]).
  destruct (nap_sin J AJ _ _ _ _ (136 / 10 ^ 17) H24 ltac:(lra)) as (s2 & Qs2 & H25).
  rewrite Qs2. cbn [gbind].
  pose proof (nap_int 15 ltac:(lia)) as H26. cbn [Z.abs] in H26.
  assert (H27 : nap (fmul (fint 15) e4) (15 * (e2' ^ 2)) (674 / 10 ^ 6) (829 / 10 ^ 20)) by (eapply nap_mul; [exact H26|exact H1|lra|lra|lra]).
  assert (H28 : nap (fdiv (fmul (fint 15) e4) (fint 256)) ((15 * (e2' ^ 2)) / 256) (264 / 10 ^ 8) (327 / 10 ^ 22)) by (eapply nap_over; [exact H27|lia|lra|lra|lra]).
  assert (H29 : nap (fmul (fint 45) e6) (45 * (e2' ^ 3)) (136 / 10 ^ 7) (248 / 10 ^ 21)) by (eapply nap_mul; [exact H19|exact H2|lra|lra|lra]).
  assert (H30 : nap (fdiv (fmul (fint 45) e6) (fint 1024)) ((45 * (e2' ^ 3)) / 1024) (133 / 10 ^ 10) (244 / 10 ^ 24)) by (eapply nap_over; [exact H29|lia|lra|lra|lra]).
  assert (H31 : nap (fadd (fdiv (fmul (fint 15) e4) (fint 256)) (fdiv (fmul (fint 45) e6) (fint 1024))) (((15 * (e2' ^ 2)) / 256) + ((45 * (e2' ^ 3)) / 1024)) (266 / 10 ^ 8) (333 / 10 ^ 22)) by (eapply nap_add; [exact H28|exact H30|lra|lra|lra]).
  pose proof (nap_int 4 ltac:(lia)) as H32. cbn [Z.abs] in H32.
  assert (H33 : nap (fmul (fint 4) lat) (4 * lat') (587 / 10 ^ 2) (226 / 10 ^ 17)) by (eapply nap_mul; [exact H32|exact I1|lra|lra|lra]).
  destruct (nap_sin J AJ _ _ _ _ (249 / 10 ^ 17) H33 ltac:(lra)) as (s4 & Qs4 & H34).
  rewrite Qs4. cbn [gbind].
  pose proof (nap_int 35 ltac:(lia)) as H35. cbn [Z.abs] in H35.
  assert (H36 : nap (fmul (fint 35) e6) (35 * (e2' ^ 3)) (106 / 10 ^ 7) (193 / 10 ^ 21)) by (eapply nap_mul; [exact H35|exact H2|lra|lra|lra]).
  assert (H37 : nap (fdiv (fmul (fint 35) e6) (fint 3072)) ((35 * (e2' ^ 3)) / 3072) (346 / 10 ^ 11) (633 / 10 ^ 25)) by (eapply nap_over; [exact H36|lia|lra|lra|lra]).
  pose proof (nap_int 6 ltac:(lia)) as H38. cbn [Z.abs] in H38.
  assert (H39 : nap (fmul (fint 6) lat) (6 * lat') (881 / 10 ^ 2) (339 / 10 ^ 17)) by (eapply nap_mul; [exact H38|exact I1|lra|lra|lra]).
  destruct (nap_sin J AJ _ _ _ _ (362 / 10 ^ 17) H39 ltac:(lra)) as (s6 & Qs6 & H40).
  rewrite Qs6. cbn [gbind].
  pose proof nap_a as H41.
  assert (H42 : nap (fmul (fsub (fsub (fsub (fint 1) (fdiv e2 (fint 4))) (fdiv (fmul (fint 3) e4) (fint 64))) (fdiv (fmul (fint 5) e6) (fint 256))) lat) ((((1 - (e2' / 4)) - ((3 * (e2' ^ 2)) / 64)) - ((5 * (e2' ^ 3)) / 256)) * lat') (152 / 10 ^ 2) (111 / 10 ^ 17)) by (eapply nap_mul; [exact H13|exact I1|lra|lra|lra]).
  assert (H43 : nap (fmul (fadd (fadd (fdiv (fmul (fint 3) e2) (fint 8)) (fdiv (fmul (fint 3) e4) (fint 32))) (fdiv (fmul (fint 45) e6) (fint 1024))) s2) (((((3 * e2') / 8) + ((3 * (e2' ^ 2)) / 32)) + ((45 * (e2' ^ 3)) / 1024)) * (sin (2 * lat'))) (254 / 10 ^ 5) (202 / 10 ^ 19)) by (eapply nap_mul; [exact H22|exact H25|lra|lra|lra]).
  assert (H44 : nap (fsub (fmul (fsub (fsub (fsub (fint 1) (fdiv e2 (fint 4))) (fdiv (fmul (fint 3) e4) (fint 64))) (fdiv (fmul (fint 5) e6) (fint 256))) lat) (fmul (fadd (fadd (fdiv (fmul (fint 3) e2) (fint 8)) (fdiv (fmul (fint 3) e4) (fint 32))) (fdiv (fmul (fint 45) e6) (fint 1024))) s2)) (((((1 - (e2' / 4)) - ((3 * (e2' ^ 2)) / 64)) - ((5 * (e2' ^ 3)) / 256)) * lat') - (((((3 * e2') / 8) + ((3 * (e2' ^ 2)) / 32)) + ((45 * (e2' ^ 3)) / 1024)) * (sin (2 * lat')))) (153 / 10 ^ 2) (131 / 10 ^ 17)) by (eapply nap_sub; [exact H42|exact H43|lra|lra|lra]).
  assert (H45 : nap (fmul (fadd (fdiv (fmul (fint 15) e4) (fint 256)) (fdiv (fmul (fint 45) e6) (fint 1024))) s4) ((((15 * (e2' ^ 2)) / 256) + ((45 * (e2' ^ 3)) / 1024)) * (sin (4 * lat'))) (266 / 10 ^ 8) (403 / 10 ^ 22)) by (eapply nap_mul; [exact H31|exact H34|lra|lra|lra]).
  assert (H46 : nap (fadd (fsub (fmul (fsub (fsub (fsub (fint 1) (fdiv e2 (fint 4))) (fdiv (fmul (fint 3) e4) (fint 64))) (fdiv (fmul (fint 5) e6) (fint 256))) lat) (fmul (fadd (fadd (fdiv (fmul (fint 3) e2) (fint 8)) (fdiv (fmul (fint 3) e4) (fint 32))) (fdiv (fmul (fint 45) e6) (fint 1024))) s2)) (fmul (fadd (fdiv (fmul (fint 15) e4) (fint 256)) (fdiv (fmul (fint 45) e6) (fint 1024))) s4)) ((((((1 - (e2' / 4)) - ((3 * (e2' ^ 2)) / 64)) - ((5 * (e2' ^ 3)) / 256)) * lat') - (((((3 * e2') / 8) + ((3 * (e2' ^ 2)) / 32)) + ((45 * (e2' ^ 3)) / 1024)) * (sin (2 * lat')))) + ((((15 * (e2' ^ 2)) / 256) + ((45 * (e2' ^ 3)) / 1024)) * (sin (4 * lat')))) (154 / 10 ^ 2) (149 / 10 ^ 17)) by (eapply nap_add; [exact H44|exact H45|lra|lra|lra]).
  assert (H47 : nap (fmul (fdiv (fmul (fint 35) e6) (fint 3072)) s6) (((35 * (e2' ^ 3)) / 3072) * (sin (6 * lat'))) (346 / 10 ^ 11) (763 / 10 ^ 25)) by (eapply nap_mul; [exact H37|exact H40|lra|lra|lra]).
  assert (H48 : nap (fsub (fadd (fsub (fmul (fsub (fsub (fsub (fint 1) (fdiv e2 (fint 4))) (fdiv (fmul (fint 3) e4) (fint 64))) (fdiv (fmul (fint 5) e6) (fint 256))) lat) (fmul (fadd (fadd (fdiv (fmul (fint 3) e2) (fint 8)) (fdiv (fmul (fint 3) e4) (fint 32))) (fdiv (fmul (fint 45) e6) (fint 1024))) s2)) (fmul (fadd (fdiv (fmul (fint 15) e4) (fint 256)) (fdiv (fmul (fint 45) e6) (fint 1024))) s4)) (fmul (fdiv (fmul (fint 35) e6) (fint 3072)) s6)) (((((((1 - (e2' / 4)) - ((3 * (e2' ^ 2)) / 64)) - ((5 * (e2' ^ 3)) / 256)) * lat') - (((((3 * e2') / 8) + ((3 * (e2' ^ 2)) / 32)) + ((45 * (e2' ^ 3)) / 1024)) * (sin (2 * lat')))) + ((((15 * (e2' ^ 2)) / 256) + ((45 * (e2' ^ 3)) / 1024)) * (sin (4 * lat')))) - (((35 * (e2' ^ 3)) / 3072) * (sin (6 * lat')))) (155 / 10 ^ 2) (167 / 10 ^ 17)) by (eapply nap_sub; [exact H46|exact H47|lra|lra|lra]).
  assert (H49 : nap (fmul a64 (fsub (fadd (fsub (fmul (fsub (fsub (fsub (fint 1) (fdiv e2 (fint 4))) (fdiv (fmul (fint 3) e4) (fint 64))) (fdiv (fmul (fint 5) e6) (fint 256))) lat) (fmul (fadd (fadd (fdiv (fmul (fint 3) e2) (fint 8)) (fdiv (fmul (fint 3) e4) (fint 32))) (fdiv (fmul (fint 45) e6) (fint 1024))) s2)) (fmul (fadd (fdiv (fmul (fint 15) e4) (fint 256)) (fdiv (fmul (fint 45) e6) (fint 1024))) s4)) (fmul (fdiv (fmul (fint 35) e6) (fint 3072)) s6))) (wgs84_a * (((((((1 - (e2' / 4)) - ((3 * (e2' ^ 2)) / 64)) - ((5 * (e2' ^ 3)) / 256)) * lat') - (((((3 * e2') / 8) + ((3 * (e2' ^ 2)) / 32)) + ((45 * (e2' ^ 3)) / 1024)) * (sin (2 * lat')))) + ((((15 * (e2' ^ 2)) / 256) + ((45 * (e2' ^ 3)) / 1024)) * (sin (4 * lat')))) - (((35 * (e2' ^ 3)) / 3072) * (sin (6 * lat'))))) 9890000 (118 / 10 ^ 10)) by (eapply nap_mul; [exact H41|exact H48|lra|lra|lra]).
  eexists. split; [reflexivity|exact H49].
Qed.
Lemma easting_nap N T C A ep2 N' T' C' A' ep2' : nap N N' 6400000 (3 / 10 ^ 9) -> nap T T' 93 (1 / 10 ^ 12) -> nap C C' (68 / 10 ^ 4) (7 / 10 ^ 17) -> nap A A' (105 / 1000) (3 / 10 ^ 15) -> nap ep2 ep2' (68 / 10 ^ 4) (5 / 10 ^ 17) ->
  exists r, easting64 J N T C A ep2 = GRet r /\ nap r (((k0 * N') * ((A' + ((((1 - T') + C') * (A' ^ 3)) / 6)) + ((((((5 - (18 * T')) + (T' ^ 2)) + (72 * C')) - (58 * ep2')) * (A' ^ 5)) / 120))) + 500000) 1310000 (329 / 10 ^ 10).
Proof.
  intros I0 I1 I2 I3 I4. unfold easting64.
  destruct (nap_pow J AJ _ _ 3 3 _ _ (116 / 10 ^ 5) (995 / 10 ^ 19) I3 eq_refl ltac:(lia) ltac:(lra) ltac:(lra) ltac:(cbn [Nat.pred]; lra)) as (a3 & Qa3 & H1).
  rewrite Qa3. cbn [gbind].
  destruct (nap_square J AJ _ _ _ _ 8650 (188 / 10 ^ 12) I1 ltac:(lra) ltac:(lra) ltac:(lra)) as (t2 & Qt2 & H2).
  rewrite Qt2. cbn [gbind].
  destruct (nap_pow J AJ _ _ 5 5 _ _ (128 / 10 ^ 7) (183 / 10 ^ 20) I3 eq_refl ltac:(lia) ltac:(lra) ltac:(lra) ltac:(cbn [Nat.pred]; lra)) as (a5 & Qa5 & H3).
  rewrite Qa5. cbn [gbind].
  pose proof (nap_int 5 ltac:(lia)) as H4. cbn [Z.abs] in H4.
  pose proof (nap_int 18 ltac:(lia)) as H5. cbn [Z.abs] in H5.
  assert (H6 : nap (fmul (fint 18) T) (18 * T') 1680 (182 / 10 ^ 13)) by (eapply nap_mul; [exact H5|exact I1|lra|lra|lra]).
  assert (H7 : nap (fsub (fint 5) (fmul (fint 18) T)) (5 - (18 * T')) 1690 (184 / 10 ^ 13)) by (eapply nap_sub; [exact H4|exact H6|lra|lra|lra]).
  assert (H8 : nap (fadd (fsub (fint 5) (fmul (fint 18) T)) t2) ((5 - (18 * T')) + (T' ^ 2)) 10400 (208 / 10 ^ 12)) by (eapply nap_add; [exact H7|exact H2|lra|lra|lra]).
  pose proof (nap_int 72 ltac:(lia)) as H9. cbn [Z.abs] in H9.
  assert (H10 : nap (fmul (fint 72) C) (72 * C') (490 / 10 ^ 3) (510 / 10 ^ 17)) by (eapply nap_mul; [exact H9|exact I2|lra|lra|lra]).
  assert (H11 : nap (fadd (fadd (fsub (fint 5) (fmul (fint 18) T)) t2) (fmul (fint 72) C)) (((5 - (18 * T')) + (T' ^ 2)) + (72 * C')) 10500 (210 / 10 ^ 12)) by (eapply nap_add; [exact H8|exact H10|lra|lra|lra]).
  pose proof (nap_int 58 ltac:(lia)) as H12. cbn [Z.abs] in H12.
  assert (H13 : nap (fmul (fint 58) ep2) (58 * ep2') (395 / 10 ^ 3) (295 / 10 ^ 17)) by (eapply nap_mul; [exact H12|exact I4|lra|lra|lra]).
  assert (H14 : nap (fsub (fadd (fadd (fsub (fint 5) (fmul (fint 18) T)) t2) (fmul (fint 72) C)) (fmul (fint 58) ep2)) ((((5 - (18 * T')) + (T' ^ 2)) + (72 * C')) - (58 * ep2')) 10600 (212 / 10 ^ 12)) by (eapply nap_sub; [exact H11|exact H13|lra|lra|lra]).
  pose proof (nap_int 1 ltac:(lia)) as H15. cbn [Z.abs] in H15.
  assert (H16 : nap (fsub (fint 1) T) (1 - T') (940 / 10 ^ 1) (102 / 10 ^ 14)) by (eapply nap_sub; [exact H15|exact I1|lra|lra|lra]).
  assert (H17 : nap (fadd (fsub (fint 1) T) C) ((1 - T') + C') (941 / 10 ^ 1) (104 / 10 ^ 14)) by (eapply nap_add; [exact H16|exact I2|lra|lra|lra]).
  assert (H18 : nap (fmul (fadd (fsub (fint 1) T) C) a3) (((1 - T') + C') * (A' ^ 3)) (110 / 10 ^ 3) (106 / 10 ^ 16)) by (eapply nap_mul; [exact H17|exact H1|lra|lra|lra]).
  assert (H19 : nap (fdiv (fmul (fadd (fsub (fint 1) T) C) a3) (fint 6)) ((((1 - T') + C') * (A' ^ 3)) / 6) (184 / 10 ^ 4) (177 / 10 ^ 17)) by (eapply nap_over; [exact H18|lia|lra|lra|lra]).
  assert (H20 : nap (fadd A (fdiv (fmul (fadd (fsub (fint 1) T) C) a3) (fint 6))) (A' + ((((1 - T') + C') * (A' ^ 3)) / 6)) (124 / 10 ^ 3) (479 / 10 ^ 17)) by (eapply nap_add; [exact I3|exact H19|lra|lra|lra]).
  assert (H21 : nap (fmul (fsub (fadd (fadd (fsub (fint 5) (fmul (fint 18) T)) t2) (fmul (fint 72) C)) (fmul (fint 58) ep2)) a5) (((((5 - (18 * T')) + (T' ^ 2)) + (72 * C')) - (58 * ep2')) * (A' ^ 5)) (136 / 10 ^ 3) (222 / 10 ^ 16)) by (eapply nap_mul; [exact H14|exact H3|lra|lra|lra]).
  assert (H22 : nap (fdiv (fmul (fsub (fadd (fadd (fsub (fint 5) (fmul (fint 18) T)) t2) (fmul (fint 72) C)) (fmul (fint 58) ep2)) a5) (fint 120)) ((((((5 - (18 * T')) + (T' ^ 2)) + (72 * C')) - (58 * ep2')) * (A' ^ 5)) / 120) (114 / 10 ^ 5) (186 / 10 ^ 18)) by (eapply nap_over; [exact H21|lia|lra|lra|lra]).
  assert (H23 : nap (fadd (fadd A (fdiv (fmul (fadd (fsub (fint 1) T) C) a3) (fint 6))) (fdiv (fmul (fsub (fadd (fadd (fsub (fint 5) (fmul (fint 18) T)) t2) (fmul (fint 72) C)) (fmul (fint 58) ep2)) a5) (fint 120))) ((A' + ((((1 - T') + C') * (A' ^ 3)) / 6)) + ((((((5 - (18 * T')) + (T' ^ 2)) + (72 * C')) - (58 * ep2')) * (A' ^ 5)) / 120)) (126 / 10 ^ 3) (500 / 10 ^ 17)) by (eapply nap_add; [exact H20|exact H22|lra|lra|lra]).
  pose proof nap_k0 as H24.
  assert (H25 : nap (fmul f_k0 N) (k0 * N') 6400000 (411 / 10 ^ 11)) by (eapply nap_mul; [exact H24|exact I0|lra|lra|lra]).
  assert (H26 : nap (fmul (fmul f_k0 N) (fadd (fadd A (fdiv (fmul (fadd (fsub (fint 1) T) C) a3) (fint 6))) (fdiv (fmul (fsub (fadd (fadd (fsub (fint 5) (fmul (fint 18) T)) t2) (fmul (fint 72) C)) (fmul (fint 58) ep2)) a5) (fint 120)))) ((k0 * N') * ((A' + ((((1 - T') + C') * (A' ^ 3)) / 6)) + ((((((5 - (18 * T')) + (T' ^ 2)) + (72 * C')) - (58 * ep2')) * (A' ^ 5)) / 120))) 807000 (327 / 10 ^ 10)) by (eapply nap_mul; [exact H25|exact H23|lra|lra|lra]).
  pose proof (nap_int 500000 ltac:(lia)) as H27. cbn [Z.abs] in H27.
  assert (H28 : nap (fadd (fmul (fmul f_k0 N) (fadd (fadd A (fdiv (fmul (fadd (fsub (fint 1) T) C) a3) (fint 6))) (fdiv (fmul (fsub (fadd (fadd (fsub (fint 5) (fmul (fint 18) T)) t2) (fmul (fint 72) C)) (fmul (fint 58) ep2)) a5) (fint 120)))) (fint 500000)) (((k0 * N') * ((A' + ((((1 - T') + C') * (A' ^ 3)) / 6)) + ((((((5 - (18 * T')) + (T' ^ 2)) + (72 * C')) - (58 * ep2')) * (A' ^ 5)) / 120))) + 500000) 1310000 (329 / 10 ^ 10)) by (eapply nap_add; [exact H26|exact H27|lra|lra|lra]).
  eexists. split; [reflexivity|exact H28].
Qed.
Lemma northing_nap M N t T C A ep2 M' N' t' T' C' A' ep2' : nap M M' 9890000 (118 / 10 ^ 10) -> nap N N' 6400000 (3 / 10 ^ 9) -> nap t t' (963 / 100) (5 / 10 ^ 14) -> nap T T' 93 (1 / 10 ^ 12) -> nap C C' (68 / 10 ^ 4) (7 / 10 ^ 17) -> nap A A' (105 / 1000) (3 / 10 ^ 15) -> nap ep2 ep2' (68 / 10 ^ 4) (5 / 10 ^ 17) ->
  exists r, northing64 J M N t T C A ep2 = GRet r /\ nap r (k0 * ((M' - 0) + ((N' * t') * ((((A' ^ 2) / 2) + (((((5 - T') + (9 * C')) + (4 * (C' ^ 2))) * (A' ^ 4)) / 24)) + ((((((61 - (58 * T')) + (T' ^ 2)) + (600 * C')) - (330 * ep2')) * (A' ^ 6)) / 720))))) 10300000 (422 / 10 ^ 10).
Proof.
  intros I0 I1 I2 I3 I4 I5 I6. unfold northing64.
  destruct (nap_square J AJ _ _ _ _ (111 / 10 ^ 4) (633 / 10 ^ 18) I5 ltac:(lra) ltac:(lra) ltac:(lra)) as (a2 & Qa2 & H1).
  rewrite Qa2. cbn [gbind].
  destruct (nap_square J AJ _ _ _ _ (463 / 10 ^ 7) (963 / 10 ^ 21) I4 ltac:(lra) ltac:(lra) ltac:(lra)) as (c2 & Qc2 & H2).
  rewrite Qc2. cbn [gbind].
  destruct (nap_pow J AJ _ _ 4 4 _ _ (122 / 10 ^ 6) (140 / 10 ^ 19) I5 eq_refl ltac:(lia) ltac:(lra) ltac:(lra) ltac:(cbn [Nat.pred]; lra)) as (a4 & Qa4 & H3).
  rewrite Qa4. cbn [gbind].
  destruct (nap_square J AJ _ _ _ _ 8650 (188 / 10 ^ 12) I3 ltac:(lra) ltac:(lra) ltac:(lra)) as (t2 & Qt2 & H4).
  rewrite Qt2. cbn [gbind].
  destruct (nap_pow J AJ _ _ 6 6 _ _ (135 / 10 ^ 8) (231 / 10 ^ 21) I5 eq_refl ltac:(lia) ltac:(lra) ltac:(lra) ltac:(cbn [Nat.pred]; lra)) as (a6 & Qa6 & H5).
  rewrite Qa6. cbn [gbind].
  pose proof (nap_int 5 ltac:(lia)) as H6. cbn [Z.abs] in H6.
  assert (H7 : nap (fsub (fint 5) T) (5 - T') (980 / 10 ^ 1) (102 / 10 ^ 14)) by (eapply nap_sub; [exact H6|exact I3|lra|lra|lra]).
  pose proof (nap_int 9 ltac:(lia)) as H8. cbn [Z.abs] in H8.
  assert (H9 : nap (fmul (fint 9) C) (9 * C') (612 / 10 ^ 4) (637 / 10 ^ 18)) by (eapply nap_mul; [exact H8|exact I4|lra|lra|lra]).
  assert (H10 : nap (fadd (fsub (fint 5) T) (fmul (fint 9) C)) ((5 - T') + (9 * C')) (981 / 10 ^ 1) (104 / 10 ^ 14)) by (eapply nap_add; [exact H7|exact H9|lra|lra|lra]).
  pose proof (nap_int 4 ltac:(lia)) as H11. cbn [Z.abs] in H11.
  assert (H12 : nap (fmul (fint 4) c2) (4 * (C' ^ 2)) (186 / 10 ^ 6) (388 / 10 ^ 20)) by (eapply nap_mul; [exact H11|exact H2|lra|lra|lra]).
  assert (H13 : nap (fadd (fadd (fsub (fint 5) T) (fmul (fint 9) C)) (fmul (fint 4) c2)) (((5 - T') + (9 * C')) + (4 * (C' ^ 2))) (982 / 10 ^ 1) (106 / 10 ^ 14)) by (eapply nap_add; [exact H10|exact H12|lra|lra|lra]).
  pose proof (nap_int 61 ltac:(lia)) as H14. cbn [Z.abs] in H14.
  pose proof (nap_int 58 ltac:(lia)) as H15. cbn [Z.abs] in H15.
  assert (H16 : nap (fmul (fint 58) T) (58 * T') 5400 (587 / 10 ^ 13)) by (eapply nap_mul; [exact H15|exact I3|lra|lra|lra]).
  assert (H17 : nap (fsub (fint 61) (fmul (fint 58) T)) (61 - (58 * T')) 5470 (594 / 10 ^ 13)) by (eapply nap_sub; [exact H14|exact H16|lra|lra|lra]).
  assert (H18 : nap (fadd (fsub (fint 61) (fmul (fint 58) T)) t2) ((61 - (58 * T')) + (T' ^ 2)) 14200 (249 / 10 ^ 12)) by (eapply nap_add; [exact H17|exact H4|lra|lra|lra]).
  pose proof (nap_int 600 ltac:(lia)) as H19. cbn [Z.abs] in H19.
  assert (H20 : nap (fmul (fint 600) C) (600 * C') (408 / 10 ^ 2) (425 / 10 ^ 16)) by (eapply nap_mul; [exact H19|exact I4|lra|lra|lra]).
  assert (H21 : nap (fadd (fadd (fsub (fint 61) (fmul (fint 58) T)) t2) (fmul (fint 600) C)) (((61 - (58 * T')) + (T' ^ 2)) + (600 * C')) 14300 (251 / 10 ^ 12)) by (eapply nap_add; [exact H18|exact H20|lra|lra|lra]).
  pose proof (nap_int 330 ltac:(lia)) as H22. cbn [Z.abs] in H22.
  assert (H23 : nap (fmul (fint 330) ep2) (330 * ep2') (225 / 10 ^ 2) (168 / 10 ^ 16)) by (eapply nap_mul; [exact H22|exact I6|lra|lra|lra]).
  assert (H24 : nap (fsub (fadd (fadd (fsub (fint 61) (fmul (fint 58) T)) t2) (fmul (fint 600) C)) (fmul (fint 330) ep2)) ((((61 - (58 * T')) + (T' ^ 2)) + (600 * C')) - (330 * ep2')) 14400 (253 / 10 ^ 12)) by (eapply nap_sub; [exact H21|exact H23|lra|lra|lra]).
  assert (H25 : nap (fdiv a2 (fint 2)) ((A' ^ 2) / 2) (555 / 10 ^ 5) (318 / 10 ^ 18)) by (eapply nap_over; [exact H1|lia|lra|lra|lra]).
  assert (H26 : nap (fmul (fadd (fadd (fsub (fint 5) T) (fmul (fint 9) C)) (fmul (fint 4) c2)) a4) ((((5 - T') + (9 * C')) + (4 * (C' ^ 2))) * (A' ^ 4)) (120 / 10 ^ 4) (151 / 10 ^ 17)) by (eapply nap_mul; [exact H13|exact H3|lra|lra|lra]).
  assert (H27 : nap (fdiv (fmul (fadd (fadd (fsub (fint 5) T) (fmul (fint 9) C)) (fmul (fint 4) c2)) a4) (fint 24)) (((((5 - T') + (9 * C')) + (4 * (C' ^ 2))) * (A' ^ 4)) / 24) (500 / 10 ^ 6) (630 / 10 ^ 19)) by (eapply nap_over; [exact H26|lia|lra|lra|lra]).
  assert (H28 : nap (fadd (fdiv a2 (fint 2)) (fdiv (fmul (fadd (fadd (fsub (fint 5) T) (fmul (fint 9) C)) (fmul (fint 4) c2)) a4) (fint 24))) (((A' ^ 2) / 2) + (((((5 - T') + (9 * C')) + (4 * (C' ^ 2))) * (A' ^ 4)) / 24)) (605 / 10 ^ 5) (382 / 10 ^ 18)) by (eapply nap_add; [exact H25|exact H27|lra|lra|lra]).
  assert (H29 : nap (fmul (fsub (fadd (fadd (fsub (fint 61) (fmul (fint 58) T)) t2) (fmul (fint 600) C)) (fmul (fint 330) ep2)) a6) (((((61 - (58 * T')) + (T' ^ 2)) + (600 * C')) - (330 * ep2')) * (A' ^ 6)) (195 / 10 ^ 4) (368 / 10 ^ 17)) by (eapply nap_mul; [exact H24|exact H5|lra|lra|lra]).
  assert (H30 : nap (fdiv (fmul (fsub (fadd (fadd (fsub (fint 61) (fmul (fint 58) T)) t2) (fmul (fint 600) C)) (fmul (fint 330) ep2)) a6) (fint 720)) ((((((61 - (58 * T')) + (T' ^ 2)) + (600 * C')) - (330 * ep2')) * (A' ^ 6)) / 720) (271 / 10 ^ 7) (512 / 10 ^ 20)) by (eapply nap_over; [exact H29|lia|lra|lra|lra]).
  assert (H31 : nap (fadd (fadd (fdiv a2 (fint 2)) (fdiv (fmul (fadd (fadd (fsub (fint 5) T) (fmul (fint 9) C)) (fmul (fint 4) c2)) a4) (fint 24))) (fdiv (fmul (fsub (fadd (fadd (fsub (fint 61) (fmul (fint 58) T)) t2) (fmul (fint 600) C)) (fmul (fint 330) ep2)) a6) (fint 720))) ((((A' ^ 2) / 2) + (((((5 - T') + (9 * C')) + (4 * (C' ^ 2))) * (A' ^ 4)) / 24)) + ((((((61 - (58 * T')) + (T' ^ 2)) + (600 * C')) - (330 * ep2')) * (A' ^ 6)) / 720)) (608 / 10 ^ 5) (388 / 10 ^ 18)) by (eapply nap_add; [exact H28|exact H30|lra|lra|lra]).
  pose proof nap_k0 as H32.
  pose proof (nap_int 0 ltac:(lia)) as H33. cbn [Z.abs] in H33.
  assert (H34 : nap (fsub M (fint 0)) (M' - 0) 9890000 (130 / 10 ^ 10)) by (eapply nap_sub; [exact I0|exact H33|lra|lra|lra]).
  assert (H35 : nap (fmul N t) (N' * t') 61700000 (356 / 10 ^ 9)) by (eapply nap_mul; [exact I1|exact I2|lra|lra|lra]).
  assert (H36 : nap (fmul (fmul N t) (fadd (fadd (fdiv a2 (fint 2)) (fdiv (fmul (fadd (fadd (fsub (fint 5) T) (fmul (fint 9) C)) (fmul (fint 4) c2)) a4) (fint 24))) (fdiv (fmul (fsub (fadd (fadd (fsub (fint 61) (fmul (fint 58) T)) t2) (fmul (fint 600) C)) (fmul (fint 330) ep2)) a6) (fint 720)))) ((N' * t') * ((((A' ^ 2) / 2) + (((((5 - T') + (9 * C')) + (4 * (C' ^ 2))) * (A' ^ 4)) / 24)) + ((((((61 - (58 * T')) + (T' ^ 2)) + (600 * C')) - (330 * ep2')) * (A' ^ 6)) / 720))) 376000 (262 / 10 ^ 10)) by (eapply nap_mul; [exact H35|exact H31|lra|lra|lra]).
  assert (H37 : nap (fadd (fsub M (fint 0)) (fmul (fmul N t) (fadd (fadd (fdiv a2 (fint 2)) (fdiv (fmul (fadd (fadd (fsub (fint 5) T) (fmul (fint 9) C)) (fmul (fint 4) c2)) a4) (fint 24))) (fdiv (fmul (fsub (fadd (fadd (fsub (fint 61) (fmul (fint 58) T)) t2) (fmul (fint 600) C)) (fmul (fint 330) ep2)) a6) (fint 720))))) ((M' - 0) + ((N' * t') * ((((A' ^ 2) / 2) + (((((5 - T') + (9 * C')) + (4 * (C' ^ 2))) * (A' ^ 4)) / 24)) + ((((((61 - (58 * T')) + (T' ^ 2)) + (600 * C')) - (330 * ep2')) * (A' ^ 6)) / 720)))) 10300000 (404 / 10 ^ 10)) by (eapply nap_add; [exact H34|exact H36|lra|lra|lra]).
  assert (H38 : nap (fmul f_k0 (fadd (fsub M (fint 0)) (fmul (fmul N t) (fadd (fadd (fdiv a2 (fint 2)) (fdiv (fmul (fadd (fadd (fsub (fint 5) T) (fmul (fint 9) C)) (fmul (fint 4) c2)) a4) (fint 24))) (fdiv (fmul (fsub (fadd (fadd (fsub (fint 61) (fmul (fint 58) T)) t2) (fmul (fint 600) C)) (fmul (fint 330) ep2)) a6) (fint 720)))))) (k0 * ((M' - 0) + ((N' * t') * ((((A' ^ 2) / 2) + (((((5 - T') + (9 * C')) + (4 * (C' ^ 2))) * (A' ^ 4)) / 24)) + ((((((61 - (58 * T')) + (T' ^ 2)) + (600 * C')) - (330 * ep2')) * (A' ^ 6)) / 720))))) 10300000 (422 / 10 ^ 10)) by (eapply nap_mul; [exact H32|exact H37|lra|lra|lra]).
  eexists. split; [reflexivity|exact H38].
Qed.
Lemma scale_nap T C A ep2 T' C' A' ep2' : nap T T' 93 (1 / 10 ^ 12) -> nap C C' (68 / 10 ^ 4) (7 / 10 ^ 17) -> nap A A' (105 / 1000) (3 / 10 ^ 15) -> nap ep2 ep2' (68 / 10 ^ 4) (5 / 10 ^ 17) ->
  exists r, scale64 J T C A ep2 = GRet r /\ nap r (k0 * (((1 + (((1 + C') * (A' ^ 2)) / 2)) + ((((((5 - (4 * T')) + (42 * C')) + (13 * (C' ^ 2))) - (28 * ep2')) * (A' ^ 4)) / 24)) + ((((61 - (148 * T')) + (16 * (T' ^ 2))) * (A' ^ 6)) / 720))) (103 / 10 ^ 2) (115 / 10 ^ 17).
Proof.
  intros I0 I1 I2 I3. unfold scale64.
  destruct (nap_square J AJ _ _ _ _ (111 / 10 ^ 4) (633 / 10 ^ 18) I2 ltac:(lra) ltac:(lra) ltac:(lra)) as (a2 & Qa2 & H1).
  rewrite Qa2. cbn [gbind].
  destruct (nap_square J AJ _ _ _ _ (463 / 10 ^ 7) (963 / 10 ^ 21) I1 ltac:(lra) ltac:(lra) ltac:(lra)) as (c2 & Qc2 & H2).
  rewrite Qc2. cbn [gbind].
  destruct (nap_pow J AJ _ _ 4 4 _ _ (122 / 10 ^ 6) (140 / 10 ^ 19) I2 eq_refl ltac:(lia) ltac:(lra) ltac:(lra) ltac:(cbn [Nat.pred]; lra)) as (a4 & Qa4 & H3).
  rewrite Qa4. cbn [gbind].
  destruct (nap_square J AJ _ _ _ _ 8650 (188 / 10 ^ 12) I0 ltac:(lra) ltac:(lra) ltac:(lra)) as (t2 & Qt2 & H4).
  rewrite Qt2. cbn [gbind].
  destruct (nap_pow J AJ _ _ 6 6 _ _ (135 / 10 ^ 8) (231 / 10 ^ 21) I2 eq_refl ltac:(lia) ltac:(lra) ltac:(lra) ltac:(cbn [Nat.pred]; lra)) as (a6 & Qa6 & H5).
  rewrite Qa6. cbn [gbind].
  pose proof (nap_int 5 ltac:(lia)) as H6. cbn [Z.abs] in H6.
  pose proof (nap_int 4 ltac:(lia)) as H7. cbn [Z.abs] in H7.
  assert (H8 : nap (fmul (fint 4) T) (4 * T') 372 (405 / 10 ^ 14)) by (eapply nap_mul; [exact H7|exact I0|lra|lra|lra]).
  assert (H9 : nap (fsub (fint 5) (fmul (fint 4) T)) (5 - (4 * T')) 377 (410 / 10 ^ 14)) by (eapply nap_sub; [exact H6|exact H8|lra|lra|lra]).
  pose proof (nap_int 42 ltac:(lia)) as H10. cbn [Z.abs] in H10.
  assert (H11 : nap (fmul (fint 42) C) (42 * C') (286 / 10 ^ 3) (298 / 10 ^ 17)) by (eapply nap_mul; [exact H10|exact I1|lra|lra|lra]).
  assert (H12 : nap (fadd (fsub (fint 5) (fmul (fint 4) T)) (fmul (fint 42) C)) ((5 - (4 * T')) + (42 * C')) 378 (415 / 10 ^ 14)) by (eapply nap_add; [exact H9|exact H11|lra|lra|lra]).
  pose proof (nap_int 13 ltac:(lia)) as H13. cbn [Z.abs] in H13.
  assert (H14 : nap (fmul (fint 13) c2) (13 * (C' ^ 2)) (602 / 10 ^ 6) (126 / 10 ^ 19)) by (eapply nap_mul; [exact H13|exact H2|lra|lra|lra]).
  assert (H15 : nap (fadd (fadd (fsub (fint 5) (fmul (fint 4) T)) (fmul (fint 42) C)) (fmul (fint 13) c2)) (((5 - (4 * T')) + (42 * C')) + (13 * (C' ^ 2))) 379 (420 / 10 ^ 14)) by (eapply nap_add; [exact H12|exact H14|lra|lra|lra]).
  pose proof (nap_int 28 ltac:(lia)) as H16. cbn [Z.abs] in H16.
  assert (H17 : nap (fmul (fint 28) ep2) (28 * ep2') (191 / 10 ^ 3) (143 / 10 ^ 17)) by (eapply nap_mul; [exact H16|exact I3|lra|lra|lra]).
  assert (H18 : nap (fsub (fadd (fadd (fsub (fint 5) (fmul (fint 4) T)) (fmul (fint 42) C)) (fmul (fint 13) c2)) (fmul (fint 28) ep2)) ((((5 - (4 * T')) + (42 * C')) + (13 * (C' ^ 2))) - (28 * ep2')) 380 (425 / 10 ^ 14)) by (eapply nap_sub; [exact H15|exact H17|lra|lra|lra]).
  pose proof (nap_int 61 ltac:(lia)) as H19. cbn [Z.abs] in H19.
  pose proof (nap_int 148 ltac:(lia)) as H20. cbn [Z.abs] in H20.
  assert (H21 : nap (fmul (fint 148) T) (148 * T') 13800 (150 / 10 ^ 12)) by (eapply nap_mul; [exact H20|exact I0|lra|lra|lra]).
  assert (H22 : nap (fsub (fint 61) (fmul (fint 148) T)) (61 - (148 * T')) 13900 (152 / 10 ^ 12)) by (eapply nap_sub; [exact H19|exact H21|lra|lra|lra]).
  pose proof (nap_int 16 ltac:(lia)) as H23. cbn [Z.abs] in H23.
  assert (H24 : nap (fmul (fint 16) t2) (16 * (T' ^ 2)) 139000 (303 / 10 ^ 11)) by (eapply nap_mul; [exact H23|exact H4|lra|lra|lra]).
  assert (H25 : nap (fadd (fsub (fint 61) (fmul (fint 148) T)) (fmul (fint 16) t2)) ((61 - (148 * T')) + (16 * (T' ^ 2))) 153000 (320 / 10 ^ 11)) by (eapply nap_add; [exact H22|exact H24|lra|lra|lra]).
  pose proof nap_k0 as H26.
  pose proof (nap_int 1 ltac:(lia)) as H27. cbn [Z.abs] in H27.
  assert (H28 : nap (fadd (fint 1) C) (1 + C') (101 / 10 ^ 2) (184 / 10 ^ 18)) by (eapply nap_add; [exact H27|exact I1|lra|lra|lra]).
  assert (H29 : nap (fmul (fadd (fint 1) C) a2) ((1 + C') * (A' ^ 2)) (113 / 10 ^ 4) (643 / 10 ^ 18)) by (eapply nap_mul; [exact H28|exact H1|lra|lra|lra]).
  assert (H30 : nap (fdiv (fmul (fadd (fint 1) C) a2) (fint 2)) (((1 + C') * (A' ^ 2)) / 2) (565 / 10 ^ 5) (323 / 10 ^ 18)) by (eapply nap_over; [exact H29|lia|lra|lra|lra]).
  assert (H31 : nap (fadd (fint 1) (fdiv (fmul (fadd (fint 1) C) a2) (fint 2))) (1 + (((1 + C') * (A' ^ 2)) / 2)) (101 / 10 ^ 2) (437 / 10 ^ 18)) by (eapply nap_add; [exact H27|exact H30|lra|lra|lra]).
  assert (H32 : nap (fmul (fsub (fadd (fadd (fsub (fint 5) (fmul (fint 4) T)) (fmul (fint 42) C)) (fmul (fint 13) c2)) (fmul (fint 28) ep2)) a4) (((((5 - (4 * T')) + (42 * C')) + (13 * (C' ^ 2))) - (28 * ep2')) * (A' ^ 4)) (464 / 10 ^ 4) (585 / 10 ^ 17)) by (eapply nap_mul; [exact H18|exact H3|lra|lra|lra]).
  assert (H33 : nap (fdiv (fmul (fsub (fadd (fadd (fsub (fint 5) (fmul (fint 4) T)) (fmul (fint 42) C)) (fmul (fint 13) c2)) (fmul (fint 28) ep2)) a4) (fint 24)) ((((((5 - (4 * T')) + (42 * C')) + (13 * (C' ^ 2))) - (28 * ep2')) * (A' ^ 4)) / 24) (194 / 10 ^ 5) (244 / 10 ^ 18)) by (eapply nap_over; [exact H32|lia|lra|lra|lra]).
  assert (H34 : nap (fadd (fadd (fint 1) (fdiv (fmul (fadd (fint 1) C) a2) (fint 2))) (fdiv (fmul (fsub (fadd (fadd (fsub (fint 5) (fmul (fint 4) T)) (fmul (fint 42) C)) (fmul (fint 13) c2)) (fmul (fint 28) ep2)) a4) (fint 24))) ((1 + (((1 + C') * (A' ^ 2)) / 2)) + ((((((5 - (4 * T')) + (42 * C')) + (13 * (C' ^ 2))) - (28 * ep2')) * (A' ^ 4)) / 24)) (102 / 10 ^ 2) (796 / 10 ^ 18)) by (eapply nap_add; [exact H31|exact H33|lra|lra|lra]).
  assert (H35 : nap (fmul (fadd (fsub (fint 61) (fmul (fint 148) T)) (fmul (fint 16) t2)) a6) (((61 - (148 * T')) + (16 * (T' ^ 2))) * (A' ^ 6)) (207 / 10 ^ 3) (397 / 10 ^ 16)) by (eapply nap_mul; [exact H25|exact H5|lra|lra|lra]).
  assert (H36 : nap (fdiv (fmul (fadd (fsub (fint 61) (fmul (fint 148) T)) (fmul (fint 16) t2)) a6) (fint 720)) ((((61 - (148 * T')) + (16 * (T' ^ 2))) * (A' ^ 6)) / 720) (288 / 10 ^ 6) (552 / 10 ^ 19)) by (eapply nap_over; [exact H35|lia|lra|lra|lra]).
  assert (H37 : nap (fadd (fadd (fadd (fint 1) (fdiv (fmul (fadd (fint 1) C) a2) (fint 2))) (fdiv (fmul (fsub (fadd (fadd (fsub (fint 5) (fmul (fint 4) T)) (fmul (fint 42) C)) (fmul (fint 13) c2)) (fmul (fint 28) ep2)) a4) (fint 24))) (fdiv (fmul (fadd (fsub (fint 61) (fmul (fint 148) T)) (fmul (fint 16) t2)) a6) (fint 720))) (((1 + (((1 + C') * (A' ^ 2)) / 2)) + ((((((5 - (4 * T')) + (42 * C')) + (13 * (C' ^ 2))) - (28 * ep2')) * (A' ^ 4)) / 24)) + ((((61 - (148 * T')) + (16 * (T' ^ 2))) * (A' ^ 6)) / 720)) (103 / 10 ^ 2) (967 / 10 ^ 18)) by (eapply nap_add; [exact H34|exact H36|lra|lra|lra]).
  assert (H38 : nap (fmul f_k0 (fadd (fadd (fadd (fint 1) (fdiv (fmul (fadd (fint 1) C) a2) (fint 2))) (fdiv (fmul (fsub (fadd (fadd (fsub (fint 5) (fmul (fint 4) T)) (fmul (fint 42) C)) (fmul (fint 13) c2)) (fmul (fint 28) ep2)) a4) (fint 24))) (fdiv (fmul (fadd (fsub (fint 61) (fmul (fint 148) T)) (fmul (fint 16) t2)) a6) (fint 720)))) (k0 * (((1 + (((1 + C') * (A' ^ 2)) / 2)) + ((((((5 - (4 * T')) + (42 * C')) + (13 * (C' ^ 2))) - (28 * ep2')) * (A' ^ 4)) / 24)) + ((((61 - (148 * T')) + (16 * (T' ^ 2))) * (A' ^ 6)) / 720))) (103 / 10 ^ 2) (115 / 10 ^ 17)) by (eapply nap_mul; [exact H26|exact H37|lra|lra|lra]).
  eexists. split; [reflexivity|exact H38].
Qed.

End Terms.
