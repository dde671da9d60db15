(** One iteration of the loop of ecef2lla: the altitude, and the sine with which the next iteration starts *)
From Coq Require Import Reals ZArith Lra Lia List.
From Flocq Require Import Core Binary Bits.
From Verif Require Import Real3 RangeCoordinates PropGeo Conv PropConv Float64 DeadReckoning64 Range64 FloatErr PropDR64 PropDR64b FloatAbs PropRange64 RangeErr RangeRad.
Local Open Scope R_scope.
Section Step.
Variable L : mathlib.
Hypothesis AM : accurate_math L.
Notation a := wgs84_a.
Notation E := (wgs84_e ^ 2).
Variables p64 z64 : f64.
Variables P K : R.
Notation z := (val z64).
Hypothesis HP : / 10 <= P.
Hypothesis Hp : ap p64 P (4 * u * P).
Hypothesis Hz : fin z64.
Hypothesis Hr : (a / 2) ^ 2 <= P ^ 2 + z ^ 2.
Hypothesis HZ : Rabs z <= 60000000.
Hypothesis HPB : P <= 10 ^ 9.
Hypothesis HK : 1 <= K <= 10 ^ 8.
Hypothesis HKP : sqrt (P ^ 2 + z ^ 2) <= K * P.
Notation N_ := (Nf a E).
Notation U_ := (uf E z).
Notation w_ := (wf E P z).
Notation lat_ := (angle E P z).
Notation alt_ := (height a E P z).
Notation D_ := (Df a E P z).
Notation nx := (next a E P z).
Notation enters := (enters z64).

(** *** The hypotenuse p / cos(lat) *)
Lemma hyp_ap lat64 s n : enters s n -> ap lat64 (lat_ s n) (13 * u) ->
  exists c, gcos L lat64 = GRet c /\ gdiv p64 c = GRet (fdiv p64 c) /\ ap (fdiv p64 c) (w_ s n) (u * (501 / 100 * w_ s n + 1583 / 100 * (K * w_ s n))).
Proof.
  intros HE AL. destruct (w_facts z64 P K HP Hr HZ HPB HKP s n HE) as (W1 & W2 & W3 & W4 & W5 & W6). set (w := w_ s n) in *. assert (AV : a = 6378137) by reflexivity. rewrite AV in W1.
  destruct (gcos_ap L AM lat64 _ _ (151 / 10 * u) AL ltac:(num)) as [G1 A1]. eexists. split; [exact G1|].
  assert (CE : cos (lat_ s n) = P / w). { unfold angle. destruct (hyp_cos P (U_ s n) ltac:(lra)) as [C0 HC]. change (sqrt (P ^ 2 + U_ s n ^ 2)) with w in HC. rewrite <- HC. field. split; lra. }
  rewrite CE in A1. set (c := l_cos (g_base L) lat64) in *. clear G1.
  set (k := K * w) in *. assert (KW : w <= k) by (unfold k; nra).
  assert (PW : P / w * w = P) by (field; lra). set (r := P / w) in *. assert (R0 : 0 < r) by (apply Rmult_lt_0_compat; [lra|apply Rinv_0_lt_compat; lra]).
  assert (RW : P / r = w) by (unfold r; field; lra).
  assert (WP : w <= 1047 / 1000 * (10 ^ 8 * P)) by nra.
  assert (R1 : 95 / 10 ^ 10 <= r) by (apply Rmult_le_reg_r with w; [lra|rewrite PW; lra]).
  assert (KB : k <= 2 * 10 ^ 17) by (unfold k; nra).
  destruct (ap_div p64 c P r (4 * u * P) (151 / 10 * u) P r (u * (4001 / 1000 * w + 1582 / 100 * k)) (u * (501 / 100 * w + 1583 / 100 * k)) Hp A1) as [G2 A2].
  { rewrite Rabs_pos_eq; lra. } { lra. } { rewrite Rabs_pos_eq; lra. } { num. }
  { rewrite RW. apply Rmult_le_reg_r with (r - 151 / 10 * u); [num|]. unfold Rdiv at 1. rewrite Rmult_assoc, Rinv_l by num. rewrite Rmult_1_r. apply Rmult_le_reg_r with w; [lra|].
    rewrite !Rmult_assoc, (Rmult_minus_distr_r w), PW.
    set (wP := w * P) in *. set (kP := k * P) in *. set (ww := w * w) in *. assert (0 <= wP) by (apply Rmult_le_pos; lra). assert (0 <= kP) by (apply Rmult_le_pos; lra).
    assert (B1 : w * w <= 1047 / 1000 * (10 ^ 8 * wP)) by (unfold wP; nra). assert (B2 : k * w <= 1047 / 1000 * (10 ^ 8 * kP)) by (unfold kP; nra).
    apply Rle_trans with (u * (4 * wP + 151 / 10 * ww)); [unfold wP, ww; lra|]. apply Rmult_le_compat_l; [pose proof u_pos; lra|].
    replace ((4001 / 1000 * w + 1582 / 100 * k) * (P - 151 / 10 * u * w)) with (4001 / 1000 * (wP - 151 / 10 * u * (w * w)) + 1582 / 100 * (kP - 151 / 10 * u * (k * w))) by (unfold wP, kP; ring).
    fold ww in B1. fold ww. assert (ww <= 1047 / 1000 * kP) by (unfold kP; lra). set (kw := k * w) in *. num. }
  { rewrite RW. num. } { rewrite RW. num. }
  split; [exact G2|]. rewrite RW in A2. exact A2.
Qed.

(** *** Latitude, radius and altitude of an iteration *)
Definition body_ok (M cN cA : R) : Prop := forall e2 s64 n64, ap e2 E (u * (35 / 100)) -> fin s64 -> fin n64 -> enters (val s64) (val n64) -> Rabs (val s64) <= M ->
  exists lat64 N64 alt64, rest64 L p64 z64 e2 n64 s64 = GRet (lat64, N64, alt64) /\
    ap lat64 (lat_ (val s64) (val n64)) (13 * u) /\ ap N64 (N_ (val s64)) (cN * u * a) /\ a <= val N64 /\
    ap alt64 (alt_ (val s64) (val n64)) (u * (1584 / 100 * K + cA) * w_ (val s64) (val n64)).

Ltac body cN kN RAD :=
  intros e2 s64 n64 AE Fs Fn HE HM;
  destruct (lat_ap L AM p64 z64 P K HP Hp Hz Hr HZ HPB HKP e2 s64 n64 AE Fs Fn HE) as (q & G1 & A1);
  destruct (RAD L AM s64 Fs HM) as (es & d & G2 & G3 & G4 & A2 & LO);
  destruct (hyp_ap _ _ _ HE A1) as (c & G5 & G6 & A3);
  destruct (w_facts z64 P K HP Hr HZ HPB HKP _ _ HE) as (W1 & W2 & W3 & W4 & W5 & W6);
  exists (g_atan L q), (fdiv a64 d), (fsub (fdiv p64 c) (fdiv a64 d));
  split; [unfold rest64; rewrite G1; cbn [gbind]; rewrite G2; cbn [gbind]; rewrite G3; cbn [gbind]; rewrite G4; cbn [gbind]; rewrite G5; cbn [gbind]; rewrite G6; reflexivity|];
  split; [exact A1|]; split; [exact A2|]; split; [exact LO|];
  set (s := val s64) in *; set (n := val n64) in *; set (w := w_ s n) in *; change (alt_ s n) with (w - N_ s); assert (AV : a = 6378137) by reflexivity;
  assert (KW : w <= K * w) by nra; assert (KB : K * w <= 2 * 10 ^ 17) by nra; set (k := K * w) in *.

Lemma body_near : body_ok (103 / 100) (7 / 2) (141 / 10).
Proof.
  body (7 / 2) (101 / 100) radius_near. destruct (Nf_small a E a_pos e2_bounds s HM) as (_ & N1 & N2).
  apply (ap_sub _ _ _ _ (u * (501 / 100 * w + 1583 / 100 * k)) (7 / 2 * u * a) (202 / 100 * w)); [exact A3|exact A2|apply Rabs_le; lra| |].
  - replace (u * (1584 / 100 * K + 141 / 10) * w) with (u * (1584 / 100 * k + 141 / 10 * w)) by (unfold k; ring). rewrite AV in *. num.
  - rewrite AV in *. num.
Qed.
Lemma Nf_far s : Rabs s <= 95 / 10 -> a <= N_ s <= 162 / 100 * a.
Proof.
  intros H. pose proof e2_bounds as EB. destruct (Nf_bounds a E a_pos e2_bounds s (95 / 10) (39 / 100) ltac:(lra) ltac:(lra) H ltac:(lra)) as (_ & N1 & N2). split; [exact N1|]. eapply Rle_trans; [exact N2|].
  assert (S : 62 / 100 <= sqrt (39 / 100)) by (rewrite <- (sqrt_square (62 / 100)) by lra; apply sqrt_le_1_alt; lra).
  pose proof a_pos. unfold Rdiv at 1. rewrite (Rmult_comm (162 / 100)). apply Rmult_le_compat_l; [lra|]. apply Rle_trans with (/ (62 / 100)); [apply Rinv_le_contravar; lra|lra].
Qed.
Lemma body_far : body_ok (95 / 10) 147 303.
Proof.
  body 147 (162 / 100) radius_far. destruct (Nf_far s HM) as (N1 & N2).
  apply (ap_sub _ _ _ _ (u * (501 / 100 * w + 1583 / 100 * k)) (147 * u * a) (324 / 100 * w)); [exact A3|exact A2|apply Rabs_le; lra| |].
  - replace (u * (1584 / 100 * K + 303) * w) with (u * (1584 / 100 * k + 303 * w)) by (unfold k; ring). rewrite AV in *. num.
  - rewrite AV in *. num.
Qed.

(** *** The sine with which the next iteration starts *)
Definition sine_ok (M cN cA kS cS : R) : Prop := forall e2 N64 alt64 s n, ap e2 E (u * (35 / 100)) -> enters s n -> Rabs s <= M ->
  ap N64 (N_ s) (cN * u * a) -> a <= val N64 -> ap alt64 (alt_ s n) (u * (1584 / 100 * K + cA) * w_ s n) ->
  exists s64, gdiv z64 (fadd (fmul N64 (fsub f_1 e2)) alt64) = GRet s64 /\ ap s64 (nx s n) (u * (kS * K + cS)) /\ Rabs (val s64) <= 103 / 100 /\ enters (val s64) (val N64).

Lemma after_sine D64 N64 w : fin D64 -> a / 2 <= w -> 977 / 1000 * w <= val D64 <= 2 * w -> a <= val N64 <= 163 / 100 * a -> enters (val (fdiv z64 D64)) (val N64).
Proof.
  intros FD HW HD HN. assert (AV : a = 6378137) by reflexivity. pose proof huge_200 as HH. pose proof (Rabs_pos z) as Z0.
  assert (I0 : 0 < / val D64) by (apply Rinv_0_lt_compat; lra).
  assert (I1 : / val D64 * a <= 2048 / 1000). { apply Rmult_le_reg_l with (val D64); [lra|]. rewrite <- Rmult_assoc, Rinv_r by lra. lra. }
  assert (I2 : Rabs (z / val D64) = Rabs z * / val D64) by (unfold Rdiv; rewrite Rabs_mult, (Rabs_pos_eq (/ val D64)) by lra; reflexivity).
  destruct (fdiv_rnd z64 D64 Hz FD) as [F R]. { lra. } { rewrite I2. apply Rle_trans with (60000000 * 1); [|lra]. rewrite AV in I1. apply Rmult_le_compat; lra. }
  pose proof (rnd_double (z / val D64)) as RD. rewrite <- R, I2 in RD. split; [|split; [lra|]].
  - rewrite R. destruct (Rle_dec 0 z) as [S|S].
    + apply Rmult_le_pos; [|exact S]. rewrite <- rnd_0. apply rnd_le. apply Rmult_le_pos; lra.
    + assert (rnd (z / val D64) <= 0). { rewrite <- rnd_0. apply rnd_le. unfold Rdiv. nra. } nra.
  - set (s' := Rabs (val (fdiv z64 D64))) in *. assert (0 <= s') by apply Rabs_pos.
    apply Rle_trans with (163 / 100 * a * (20001 / 10000 * (Rabs z * / val D64))); [apply Rmult_le_compat; lra|].
    replace (163 / 100 * a * (20001 / 10000 * (Rabs z * / val D64))) with (163 / 100 * (20001 / 10000) * (/ val D64 * a) * Rabs z) by ring.
    apply Rmult_le_compat_r; [exact Z0|]. lra.
Qed.

Lemma sine_near : sine_ok (103 / 100) (7 / 2) (141 / 10) (164 / 10) 29.
Proof.
  intros e2 N64 alt64 s n AE HE HM AN LO AA. destruct (w_facts z64 P K HP Hr HZ HPB HKP _ _ HE) as (W1 & W2 & W3 & W4 & W5 & W6). destruct (U_facts _ _ _ HE) as [[U1 _] _].
  set (w := w_ s n) in *. assert (AV : a = 6378137) by reflexivity. pose proof e2_bounds as EB.
  assert (KW : w <= K * w) by nra. assert (KB : K * w <= 10 ^ 8 * w) by nra. set (k := K * w) in *. destruct (Nf_small a E a_pos e2_bounds s HM) as (_ & N1 & N2).
  destruct HE as (HS & HN & HB). destruct (Df_bounds a E P z a_pos e2_bounds Hr s n (101 / 100) (14 / 1000) HS ltac:(lra) N2 ltac:(lra) ltac:(lra) ltac:(lra)) as [D1 _]. fold w in D1.
  assert (D2 : D_ s n <= w) by (unfold Df; fold w; assert (0 <= E * N_ s) by (apply Rmult_le_pos; lra); lra).
  assert (A1 : ap (fsub f_1 e2) (1 - E) (136 / 100 * u)) by (apply (ap_sub _ _ _ _ 0 (u * (35 / 100)) 1); [exact one_ap|exact AE|apply Rabs_le; lra|num|num]).
  assert (A2 : ap (fmul N64 (fsub f_1 e2)) (N_ s * (1 - E)) (592 / 100 * u * a)).
  { apply (ap_mul _ _ _ _ (7 / 2 * u * a) (136 / 100 * u) (101 / 100 * a) 1 (490 / 100 * u * a)); [exact AN|exact A1|rewrite Rabs_pos_eq; lra|apply Rabs_le; lra| | |]; rewrite AV in *; num. }
  replace (u * (1584 / 100 * K + 141 / 10) * w) with (u * (1584 / 100 * k + 141 / 10 * w)) in AA by (unfold k; ring).
  assert (A3 : ap (fadd (fmul N64 (fsub f_1 e2)) alt64) (D_ s n) (u * (1585 / 100 * k + 27 * w))).
  { replace (D_ s n) with (N_ s * (1 - E) + alt_ s n) by (unfold Df, height; ring).
    apply (ap_add _ _ _ _ (592 / 100 * u * a) (u * (1584 / 100 * k + 141 / 10 * w)) w); [exact A2|exact AA| | |].
    - replace (N_ s * (1 - E) + alt_ s n) with (D_ s n) by (unfold Df, height; ring). rewrite Rabs_pos_eq; lra.
    - rewrite AV in *. num.
    - rewrite AV in *. num. }
  set (D64 := fadd (fmul N64 (fsub f_1 e2)) alt64) in *.
  destruct (ap_div z64 D64 z (D_ s n) 0 (u * (1585 / 100 * k + 27 * w)) w (986 / 1000 * w) (u * (1632 / 100 * K + 279 / 10)) (u * (164 / 10 * K + 29))) as [G A4].
  { apply ap_exact. exact Hz. } { exact A3. } { lra. } { rewrite AV in *. lra. } { rewrite Rabs_pos_eq; lra. } { rewrite AV in *. num. }
  { replace (w / (986 / 1000 * w)) with (1000 / 986) by (field; lra). set (dD := u * (1585 / 100 * k + 27 * w)). assert (DD : 0 <= dD <= 19 / 10 ^ 8 * w) by (unfold dD; split; num). rewrite Rplus_0_l.
    apply Rmult_le_reg_r with (986 / 1000 * w - dD); [lra|]. unfold Rdiv at 1. rewrite Rmult_assoc, Rinv_l by lra. rewrite Rmult_1_r.
    set (t := u * (1632 / 100 * K + 279 / 10)). assert (T : 0 <= t <= 19 / 10 ^ 8) by (unfold t; split; num). assert (t * dD <= 19 / 10 ^ 8 * dD) by (apply Rmult_le_compat_r; lra).
    replace (t * (986 / 1000 * w - dD)) with (u * (1632 / 100 * (986 / 1000) * k + 279 / 10 * (986 / 1000) * w) - t * dD) by (unfold t, k; ring). unfold dD in *. num. }
  { replace (w / (986 / 1000 * w)) with (1000 / 986) by (field; lra). num. } { replace (w / (986 / 1000 * w)) with (1000 / 986) by (field; lra). num. }
  exists (fdiv z64 D64). split; [exact G|]. split; [exact A4|]. split.
  - assert (B : Rabs (nx s n) <= 1000 / 986).
    { destruct (next_bounds a E P z a_pos e2_bounds Hr s n (101 / 100) (14 / 1000) HS ltac:(lra) N2 ltac:(lra) ltac:(lra) ltac:(lra)) as (_ & _ & B). lra. }
    eapply Rle_trans; [apply (ap_abs _ _ _ _ A4 B)|]. num.
  - destruct A3 as [F3 X3]. apply Rabs_le_inv in X3. destruct AN as [FN XN]. apply Rabs_le_inv in XN. apply (after_sine D64 N64 w); [exact F3|exact W1| |]; rewrite AV in *; split; num.
Qed.
Lemma sine_far : sine_ok (95 / 10) 147 303 (166 / 10) 637.
Proof.
  intros e2 N64 alt64 s n AE HE HM AN LO AA. destruct (w_facts z64 P K HP Hr HZ HPB HKP _ _ HE) as (W1 & W2 & W3 & W4 & W5 & W6). destruct (U_facts _ _ _ HE) as [[U1 _] _].
  set (w := w_ s n) in *. assert (AV : a = 6378137) by reflexivity. pose proof e2_bounds as EB.
  assert (KW : w <= K * w) by nra. assert (KB : K * w <= 10 ^ 8 * w) by nra. set (k := K * w) in *. destruct (Nf_far s HM) as (N1 & N2).
  destruct HE as (HS & HN & HB). destruct (Df_bounds a E P z a_pos e2_bounds Hr s n (162 / 100) (22 / 1000) HS ltac:(lra) N2 ltac:(lra) ltac:(lra) ltac:(lra)) as [D1 _]. fold w in D1.
  assert (D2 : D_ s n <= w) by (unfold Df; fold w; assert (0 <= E * N_ s) by (apply Rmult_le_pos; lra); lra).
  assert (A1 : ap (fsub f_1 e2) (1 - E) (136 / 100 * u)) by (apply (ap_sub _ _ _ _ 0 (u * (35 / 100)) 1); [exact one_ap|exact AE|apply Rabs_le; lra|num|num]).
  assert (A2 : ap (fmul N64 (fsub f_1 e2)) (N_ s * (1 - E)) (151 * u * a)).
  { apply (ap_mul _ _ _ _ (147 * u * a) (136 / 100 * u) (162 / 100 * a) 1 (1493 / 10 * u * a)); [exact AN|exact A1|rewrite Rabs_pos_eq; lra|apply Rabs_le; lra| | |]; rewrite AV in *; num. }
  replace (u * (1584 / 100 * K + 303) * w) with (u * (1584 / 100 * k + 303 * w)) in AA by (unfold k; ring).
  assert (A3 : ap (fadd (fmul N64 (fsub f_1 e2)) alt64) (D_ s n) (u * (1585 / 100 * k + 607 * w))).
  { replace (D_ s n) with (N_ s * (1 - E) + alt_ s n) by (unfold Df, height; ring).
    apply (ap_add _ _ _ _ (151 * u * a) (u * (1584 / 100 * k + 303 * w)) w); [exact A2|exact AA| | |].
    - replace (N_ s * (1 - E) + alt_ s n) with (D_ s n) by (unfold Df, height; ring). rewrite Rabs_pos_eq; lra.
    - rewrite AV in *. num.
    - rewrite AV in *. num. }
  set (D64 := fadd (fmul N64 (fsub f_1 e2)) alt64) in *.
  destruct (ap_div z64 D64 z (D_ s n) 0 (u * (1585 / 100 * k + 607 * w)) w (978 / 1000 * w) (u * (1658 / 100 * K + 6355 / 10)) (u * (166 / 10 * K + 637))) as [G A4].
  { apply ap_exact. exact Hz. } { exact A3. } { lra. } { rewrite AV in *. lra. } { rewrite Rabs_pos_eq; lra. } { rewrite AV in *. num. }
  { replace (w / (978 / 1000 * w)) with (1000 / 978) by (field; lra). set (dD := u * (1585 / 100 * k + 607 * w)). assert (DD : 0 <= dD <= 19 / 10 ^ 8 * w) by (unfold dD; split; num). rewrite Rplus_0_l.
    apply Rmult_le_reg_r with (978 / 1000 * w - dD); [lra|]. unfold Rdiv at 1. rewrite Rmult_assoc, Rinv_l by lra. rewrite Rmult_1_r.
    set (t := u * (1658 / 100 * K + 6355 / 10)). assert (T : 0 <= t <= 19 / 10 ^ 8) by (unfold t; split; num). assert (t * dD <= 19 / 10 ^ 8 * dD) by (apply Rmult_le_compat_r; lra).
    replace (t * (978 / 1000 * w - dD)) with (u * (1658 / 100 * (978 / 1000) * k + 6355 / 10 * (978 / 1000) * w) - t * dD) by (unfold t, k; ring). unfold dD in *. num. }
  { replace (w / (978 / 1000 * w)) with (1000 / 978) by (field; lra). num. } { replace (w / (978 / 1000 * w)) with (1000 / 978) by (field; lra). num. }
  exists (fdiv z64 D64). split; [exact G|]. split; [exact A4|]. split.
  - assert (B : Rabs (nx s n) <= 1000 / 978).
    { destruct (next_bounds a E P z a_pos e2_bounds Hr s n (162 / 100) (22 / 1000) HS ltac:(lra) N2 ltac:(lra) ltac:(lra) ltac:(lra)) as (_ & _ & B). lra. }
    eapply Rle_trans; [apply (ap_abs _ _ _ _ A4 B)|]. num.
  - destruct A3 as [F3 X3]. apply Rabs_le_inv in X3. destruct AN as [FN XN]. apply Rabs_le_inv in XN. apply (after_sine D64 N64 w); [exact F3|exact W1| |]; rewrite AV in *; split; num.
Qed.
End Step.
