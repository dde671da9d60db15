(** The loop of ecef2lla in double precision: it follows the real iteration up to rounding, so it reaches the exact latitude and altitude up to rounding *)
From Coq Require Import Reals ZArith Lra Lia List.
From Flocq Require Import Core Binary Bits.
From Verif Require Import Real3 RangeCoordinates PropGeo Conv PropConv Float64 DeadReckoning64 Range64 FloatErr PropDR64 PropDR64b FloatAbs PropRange64 RangeErr RangeRad RangeStep.
Local Open Scope R_scope.
Lemma abs_fin x : fin x -> fin (b64_abs x) /\ val (b64_abs x) = Rabs (val x).
Proof. intros F. split; [unfold fin, b64_abs; rewrite is_finite_Babs; exact F|]. unfold val, b64_abs. apply B2R_Babs. Qed.
(** the test of the loop, when the latitude has moved by less than the tolerance *)
Lemma test_ends tol x y : fin tol -> fin x -> fin y -> Rabs (val x - val y) <= 1000 -> Rabs (val x - val y) * (1 + u) < val tol -> fge (b64_abs (fsub x y)) tol = false.
Proof.
  intros Ft Fx Fy HB H. pose proof huge_200. destruct (fsub_err x y Fx Fy ltac:(lra)) as [F X]. destruct (abs_fin _ F) as [FA VA]. rewrite fge_fin by assumption. rewrite VA. destruct (Rle_dec _ _) as [G|G]; [exfalso|reflexivity].
  assert (Rabs (val (fsub x y)) <= Rabs (val x - val y) * (1 + u)); [|lra]. replace (val (fsub x y)) with ((val (fsub x y) - (val x - val y)) + (val x - val y)) by ring. eapply Rle_trans; [apply Rabs_triang|]. lra.
Qed.

Section Loop.
Variable L : mathlib.
Hypothesis AM : accurate_math L.
Notation a := wgs84_a.
Notation E := (wgs84_e ^ 2).
Variables p64 z64 : f64.
Variables P K : R.
Notation z := (val z64).
Hypothesis HP : / 10 <= P.
Hypothesis Hp : ap p64 P (4 * u * P).
Hypothesis Hz : fin z64.
Hypothesis Hr : (a / 2) ^ 2 <= P ^ 2 + z ^ 2.
Hypothesis HZ : Rabs z <= 60000000.
Hypothesis HPB : P <= 10 ^ 9.
Hypothesis HK : 1 <= K <= 10 ^ 8.
Hypothesis HKP : sqrt (P ^ 2 + z ^ 2) <= K * P.
Notation N_ := (Nf a E).
Notation w_ := (wf E P z).
Notation lat_ := (angle E P z).
Notation alt_ := (height a E P z).
Notation nx := (next a E P z).
Notation enters := (enters z64).
Notation gap := (gap a).
Notation near := (near a z).
Notation step64 := (lla_step64 L p64 z64).

(** the variables after an iteration, and the real pair they stand for *)
Record state (M cN cA : R) (s n : R) (lat64 N64 alt64 : f64) : Prop := {
  st_enters : enters s n; st_abs : Rabs s <= M;
  st_lat : ap lat64 (lat_ s n) (13 * u); st_N : ap N64 (N_ s) (cN * u * a); st_low : a <= val N64;
  st_alt : ap alt64 (alt_ s n) (u * (1584 / 100 * K + cA) * w_ s n) }.
Definition close := state (103 / 100) (7 / 2) (141 / 10).
Definition rough := state (95 / 10) 147 303.
(** what rounding adds to the gap in an iteration *)
Definition eps : R := u * (164 / 10 * K + 33).

Lemma close_step s n lat64 N64 alt64 : close s n lat64 N64 alt64 -> exists s' lat' N' alt', step64 N64 alt64 = GRet (lat', N', alt') /\ close s' (val N64) lat' N' alt' /\ gap s' (val N64) (nx s n) (N_ s) <= eps /\ near s' (val N64).
Proof.
  intros [A B C D F G]. destruct (e2_ap L AM) as (e2 & GE & AE).
  destruct (sine_near p64 z64 P K HP Hp Hz Hr HZ HPB HK HKP e2 N64 alt64 s n AE A B D F G) as (s64 & GS & AS & BS & ES).
  assert (FN : fin N64) by apply D. assert (FS : fin s64) by apply AS.
  destruct (body_near L AM p64 z64 P K HP Hp Hz Hr HZ HPB HK HKP e2 s64 N64 AE FS FN ES BS) as (lat' & N' & alt' & GB & A1 & A2 & A3 & A4).
  exists (val s64), lat', N', alt'. split; [rewrite step_rest, GE; cbn [gbind]; rewrite GS; exact GB|]. split; [constructor; assumption|].
  pose proof a_pos as AP. assert (AV : a = 6378137) by reflexivity. destruct D as [_ DX].
  split.
  - unfold Conv.gap, eps. destruct AS as [_ AX]. assert (Rabs (val N64 - N_ s) / a <= 7 / 2 * u) by (apply Rmult_le_reg_r with a; [exact AP|]; unfold Rdiv at 1; rewrite Rmult_assoc, Rinv_l by lra; lra). pose proof u_pos. lra.
  - destruct ES as (ES1 & ES2 & ES3). split; [exact BS|]. split; [exact ES1|]. split; [exact F|].
    pose proof e2_bounds as EB. destruct (Nf_bounds a E a_pos e2_bounds s (103 / 100) (992 / 1000) ltac:(lra) ltac:(lra) B ltac:(lra)) as (_ & N1 & N2).
    assert (S : 995 / 1000 <= sqrt (992 / 1000)) by (rewrite <- (sqrt_square (995 / 1000)) by lra; apply sqrt_le_1_alt; lra).
    assert (N3 : N_ s <= 1006 / 1000 * a). { eapply Rle_trans; [exact N2|]. unfold Rdiv at 1. rewrite (Rmult_comm (1006 / 1000)). apply Rmult_le_compat_l; [lra|]. apply Rle_trans with (/ (995 / 1000)); [apply Rinv_le_contravar; lra|lra]. }
    apply Rabs_le_inv in DX. rewrite AV in *. num.
Qed.
Lemma rough_step s n lat64 N64 alt64 : rough s n lat64 N64 alt64 -> exists s' lat' N' alt', step64 N64 alt64 = GRet (lat', N', alt') /\ close s' (val N64) lat' N' alt'.
Proof.
  intros [A B C D F G]. destruct (e2_ap L AM) as (e2 & GE & AE).
  destruct (sine_far p64 z64 P K HP Hp Hz Hr HZ HPB HK HKP e2 N64 alt64 s n AE A B D F G) as (s64 & GS & AS & BS & ES).
  assert (FN : fin N64) by apply D. assert (FS : fin s64) by apply AS.
  destruct (body_near L AM p64 z64 P K HP Hp Hz Hr HZ HPB HK HKP e2 s64 N64 AE FS FN ES BS) as (lat' & N' & alt' & GB & A1 & A2 & A3 & A4).
  exists (val s64), lat', N', alt'. split; [rewrite step_rest, GE; cbn [gbind]; rewrite GS; exact GB|]. constructor; assumption.
Qed.

(** *** The first iteration, from N = a and alt = 0 *)
Lemma first_sine e2 : ap e2 E (u * (35 / 100)) -> exists s64, gdiv z64 (fadd (fmul a64 (fsub f_1 e2)) f_zero) = GRet s64 /\ ap s64 (s1 z) (50 * u) /\ enters (val s64) (val a64).
Proof.
  intros AE. assert (AV : a = 6378137) by reflexivity. pose proof e2_bounds as EB.
  assert (A1 : ap (fsub f_1 e2) (1 - E) (136 / 100 * u)) by (apply (ap_sub _ _ _ _ 0 (u * (35 / 100)) 1); [exact one_ap|exact AE|apply Rabs_le; lra|num|num]).
  assert (A2 : ap (fmul a64 (fsub f_1 e2)) (a * (1 - E)) (237 / 100 * u * a)).
  { apply (ap_mul _ _ _ _ 0 (136 / 100 * u) a 1 (136 / 100 * u * a)); [exact a_ap|exact A1|rewrite Rabs_pos_eq; lra|apply Rabs_le; lra| | |]; rewrite AV in *; num. }
  assert (A3 : ap (fadd (fmul a64 (fsub f_1 e2)) f_zero) (a * (1 - E)) (338 / 100 * u * a)).
  { rewrite <- (Rplus_0_r (a * (1 - E))). apply (ap_add _ _ _ _ (237 / 100 * u * a) 0 a); [exact A2|exact (ap_exact f_zero eq_refl)|rewrite Rabs_pos_eq; rewrite AV in *; lra| |]; rewrite AV in *; num. }
  set (D64 := fadd (fmul a64 (fsub f_1 e2)) f_zero) in *.
  destruct (ap_div z64 D64 z (a * (1 - E)) 0 (338 / 100 * u * a) 60000000 6335000 (35 * u) (50 * u)) as [G A4].
  { apply ap_exact. exact Hz. } { exact A3. } { exact HZ. } { lra. } { rewrite Rabs_pos_eq; rewrite AV in *; lra. } { rewrite AV in *. num. }
  { apply Rmult_le_reg_r with (6335000 - 338 / 100 * u * a); [rewrite AV; num|]. unfold Rdiv at 1. rewrite Rmult_assoc, Rinv_l by (rewrite AV; num). rewrite AV. num. }
  { num. } { num. }
  exists (fdiv z64 D64). split; [exact G|]. split; [exact A4|]. destruct A3 as [F3 X3]. apply Rabs_le_inv in X3. rewrite AV in X3. apply (after_sine z64 Hz HZ D64 a64 a); [exact F3|lra| |rewrite val_a; lra]. rewrite AV. split; num.
Qed.
Lemma first_step64 : exists s lat' N' alt', step64 a64 f_zero = GRet (lat', N', alt') /\ rough s (val a64) lat' N' alt' /\ Rabs (s - s1 z) <= 50 * u /\ (Rabs (s1 z) <= 1029 / 1000 -> close s (val a64) lat' N' alt').
Proof.
  destruct (e2_ap L AM) as (e2 & GE & AE). destruct (first_sine e2 AE) as (s64 & GS & AS & ES). assert (FS : fin s64) by apply AS. assert (FA : fin a64) by reflexivity.
  assert (S1 : Rabs (s1 z) <= 9475 / 1000).
  { rewrite s1_abs. assert (AV : a = 6378137) by reflexivity. pose proof e2_bounds as EB. apply Rmult_le_reg_r with (a * (1 - E)); [rewrite AV; lra|]. unfold Rdiv at 1. rewrite Rmult_assoc, Rinv_l by (rewrite AV; lra). rewrite AV. lra. }
  pose proof (ap_abs _ _ _ _ AS S1) as B. destruct (body_far L AM p64 z64 P K HP Hp Hz Hr HZ HPB HK HKP e2 s64 a64 AE FS FA ES ltac:(num)) as (lat' & N' & alt' & GB & A1 & A2 & A3 & A4).
  exists (val s64), lat', N', alt'. split; [rewrite step_rest, GE; cbn [gbind]; rewrite GS; exact GB|]. split; [constructor; try assumption; num|]. split; [apply AS|].
  intros S2. pose proof (ap_abs _ _ _ _ AS S2) as B2. destruct (body_near L AM p64 z64 P K HP Hp Hz Hr HZ HPB HK HKP e2 s64 a64 AE FS FA ES ltac:(num)) as (lat2 & N2 & alt2 & GB2 & C1 & C2 & C3 & C4).
  rewrite GB in GB2. injection GB2 as <- <- <-. constructor; try assumption. num.
Qed.

(** *** Towards the exact coordinates, a fixed point of the iteration *)
Variables t m l h : R.
Hypothesis T1 : near t m.
Hypothesis T2 : N_ t = m.
Hypothesis T3 : nx t m = t.
Hypothesis T4 : lat_ t m = l.
Hypothesis T5 : alt_ t m = h.
Definition reached (g : R) (lat64 N64 alt64 : f64) : Prop := exists s n, close s n lat64 N64 alt64 /\ near s n /\ gap s n t m <= g.
Lemma reached_step g lat64 N64 alt64 : reached g lat64 N64 alt64 -> exists lat' N' alt', step64 N64 alt64 = GRet (lat', N', alt') /\ reached (g / 40 + eps) lat' N' alt'.
Proof.
  intros (s & n & C & N & G). destruct (close_step _ _ _ _ _ C) as (s' & lat' & N' & alt' & GS & C' & G' & N''). exists lat', N', alt'. split; [exact GS|]. exists s', (val N64). split; [exact C'|]. split; [exact N''|].
  pose proof (contracts a E P z a_pos e2_bounds Hr s n t m N T1) as CT. rewrite T3, T2 in CT. pose proof (gap_tri a a_pos s' (val N64) (nx s n) (N_ s) t m). lra.
Qed.
Lemma reached_out g lat64 N64 alt64 : reached g lat64 N64 alt64 -> ap lat64 l (139 / 10000 * g + 13 * u) /\ ap alt64 h (139 / 10000 * a * g + u * (166 / 10 * K + 15) * sqrt (P ^ 2 + z ^ 2)).
Proof.
  intros (s & n & C & N & G). assert (P0 : 0 < P) by lra. pose proof (angle_near a E P z a_pos e2_bounds P0 Hr s n t m N T1) as A1. rewrite T4 in A1. pose proof (height_near a E P z a_pos e2_bounds s n t m N T1) as A2. rewrite T5 in A2. pose proof a_pos as AP.
  destruct C as [C1 C2 C3 C4 C5 C6]. split.
  - eapply ap_weak; [eapply ap_move; [exact C3|exact A1]|]. lra.
  - eapply ap_weak; [eapply ap_move; [exact C6|exact A2]|]. rewrite Rplus_comm. apply Rplus_le_compat; [apply Rmult_le_compat_l; lra|].
    assert (W : w_ s n <= 1047 / 1000 * sqrt (P ^ 2 + z ^ 2)) by apply (w_all z64 P K HP Hr HZ HPB HKP s n C1).
    pose proof u_pos. pose proof (sqrt_pos (P ^ 2 + z ^ 2)). rewrite !Rmult_assoc. apply Rmult_le_compat_l; [lra|]. apply Rle_trans with ((1584 / 100 * K + 141 / 10) * (1047 / 1000 * sqrt (P ^ 2 + z ^ 2))); [apply Rmult_le_compat_l; lra|]. rewrite <- Rmult_assoc. apply Rmult_le_compat_r; lra.
Qed.

(** *** The loop *)
Variables tol : f64.
Hypothesis Ft : fin tol.
Hypothesis HL : Rabs l <= 2.
Notation loop n lat prev N alt := (lla_loop64 L n tol p64 z64 lat prev N alt).
Variable G : R.
Hypothesis HG : 0 <= G <= 3.
Lemma eps_pos : 0 < eps <= / 10 ^ 6. Proof. unfold eps. pose proof u_pos. split; [nra|]. num. Qed.
(** from a state near the exact one the loop ends after at most k + 1 more iterations; the gap shrinks by 40 in each, down to rounding *)
Lemma loop_ends64 k : forall q lat N alt prev, 0 <= q <= 1 -> reached (G * q + 103 / 100 * eps) lat N alt -> 143 / 10000 * (G * q * (/ 40) ^ k) + 29 / 1000 * eps + 27 * u < val tol ->
  exists j lat' N' alt', (j <= k + 1)%nat /\ reached (G * (q * (/ 40) ^ j) + 103 / 100 * eps) lat' N' alt' /\ (forall n, (j <= n)%nat -> loop n lat prev N alt = Some (GRet (lat', alt'))) /\ (forall n, (n < j)%nat -> loop n lat prev N alt = None).
Proof.
  pose proof eps_pos as EP. induction k as [|k IH]; intros q lat N alt prev Hq RE HT.
  all: destruct (fge (b64_abs (fsub lat prev)) tol) eqn:B; [|exists 0%nat, lat, N, alt; rewrite pow_O, Rmult_1_r; split; [lia|]; split; [exact RE|]; split; [|lia]; intros [|n] _; cbn [lla_loop64]; rewrite B; reflexivity].
  all: destruct (reached_step _ _ _ _ RE) as (lat' & N' & alt' & GS & RE').
  all: assert (GQ : 0 <= G * q) by (apply Rmult_le_pos; lra).
  all: assert (RQ : reached (G * (q * / 40) + 103 / 100 * eps) lat' N' alt') by (destruct RE' as (s & n & C & Nn & Gn); exists s, n; split; [exact C|]; split; [exact Nn|]; eapply Rle_trans; [exact Gn|]; lra).
  - exists 1%nat, lat', N', alt'. rewrite pow_1. split; [lia|]. split; [exact RQ|]. rewrite pow_O, Rmult_1_r in HT.
    assert (B' : fge (b64_abs (fsub lat' lat)) tol = false).
    { destruct (reached_out _ _ _ _ RE) as [[F1 X1] _]. destruct (reached_out _ _ _ _ RQ) as [[F2 X2] _].
      assert (X : Rabs (val lat' - val lat) <= 139 / 10000 * (G * q + 103 / 100 * eps) + 13 * u + (139 / 10000 * (G * (q * / 40) + 103 / 100 * eps) + 13 * u)) by (apply Rabs_le_inv in X1, X2; apply Rabs_le; lra).
      assert (Q3 : G * q <= 3 * 1) by (apply Rmult_le_compat; lra). set (Gq := G * q) in *. replace (G * (q * / 40)) with (Gq / 40) in X by (unfold Gq; field).
      apply test_ends; try assumption; [num|]. pose proof u_pos. pose proof (Rabs_pos (val lat' - val lat)). assert (Y : Rabs (val lat' - val lat) * u <= 1 * u) by (apply Rmult_le_compat_r; num). lra. }
    split; [|intros n Hn; assert (n = 0%nat) by lia; subst n; cbn [lla_loop64]; rewrite B; reflexivity].
    intros [|n] Hn; [lia|]. cbn [lla_loop64]. rewrite B, GS. destruct n; cbn [lla_loop64]; rewrite B'; reflexivity.
  - destruct (IH (q * / 40) lat' N' alt' lat ltac:(lra) RQ) as (j & lat2 & N2 & alt2 & Hj & R2 & A2 & B2).
    { replace (G * (q * / 40) * (/ 40) ^ k) with (G * q * (/ 40) ^ S k) by (cbn [pow]; ring). exact HT. }
    exists (S j), lat2, N2, alt2. split; [lia|]. split; [replace (q * (/ 40) ^ S j) with (q * / 40 * (/ 40) ^ j) by (cbn [pow]; ring); exact R2|].
    split; intros [|n] Hn; try lia; cbn [lla_loop64]; rewrite B; [rewrite GS; apply A2; lia|reflexivity|rewrite GS; apply B2; lia].
Qed.
End Loop.
