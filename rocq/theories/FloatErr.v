(** Propagation of rounding errors through floating-point expressions *)
From Coq Require Import Reals ZArith Lra Lia List Permutation.
From Flocq Require Import Core Binary Bits.
From Verif Require Import Float64 DeadReckoning64.
Import ListNotations.
Local Open Scope R_scope.

(** the floating-point number x stands for the real number X, whose magnitude is at most B: it is off by at most k rounding errors relative to B, plus C *)
Definition app (x : f64) (X k B C : R) : Prop := fin x /\ 0 <= k <= 1000 /\ 0 <= C /\ Rabs X <= B /\ Rabs (val x - X) <= k * u * B + C.

Lemma app_exact x : fin x -> app x (val x) 0 (Rabs (val x)) 0.
Proof. intros F. repeat split; try lra; try assumption. rewrite Rminus_diag_eq by reflexivity. rewrite Rabs_R0. lra. Qed.
Lemma app_ulp x X B : one_ulp x X -> Rabs X <= B -> app x X 2 B (2 * eta).
Proof.
  intros [F E] HB. pose proof eta_pos. pose proof u_pos. repeat split; try lra; try assumption. eapply Rle_trans; [exact E|].
  apply Rplus_le_compat_r. apply Rmult_le_compat_l; lra.
Qed.
Lemma app_weak x X k B C k' B' C' : app x X k B C -> k <= k' <= 1000 -> B <= B' -> C <= C' -> app x X k' B' C'.
Proof.
  intros (F & K & HC & HB & E) Hk Hb Hc. pose proof u_pos. pose proof (Rabs_pos X). repeat split; try lra; try assumption.
  eapply Rle_trans; [exact E|]. apply Rplus_le_compat; [|exact Hc]. apply Rmult_le_compat; [|lra| |exact Hb].
  - apply Rmult_le_pos; lra.
  - apply Rmult_le_compat_r; lra.
Qed.
Lemma app_eq x X Y k B C : app x X k B C -> X = Y -> app x Y k B C.
Proof. now intros H <-. Qed.
Lemma app_B x X k B C : app x X k B C -> 0 <= B.
Proof. intros (_ & _ & _ & HB & _). pose proof (Rabs_pos X). lra. Qed.
(** the magnitude of an approximated number *)
Lemma app_abs x X k B C : app x X k B C -> Rabs (val x) <= (1 + 1000 * u) * B + C.
Proof.
  intros H. pose proof (app_B _ _ _ _ _ H) as B0. destruct H as (F & K & HC & HB & E). pose proof u_pos. replace (val x) with (X + (val x - X)) by ring.
  eapply Rle_trans; [apply Rabs_triang|]. assert (k * u * B <= 1000 * u * B) by (apply Rmult_le_compat_r; [exact B0|]; apply Rmult_le_compat_r; lra). lra.
Qed.
Lemma ku k : 0 <= k <= 1000 -> 0 <= k * u <= / 1000000000000.
Proof. intros H. pose proof u_small. pose proof u_pos. split; [apply Rmult_le_pos; lra|]. apply Rle_trans with (1000 * u); [apply Rmult_le_compat_r; lra|lra]. Qed.

Lemma app_neg x X k B C : app x X k B C -> app (fneg x) (- X) k B C.
Proof.
  intros (F & K & HC & HB & E). repeat split; try lra; [now apply fneg_fin|now rewrite Rabs_Ropp|]. rewrite fneg_val. replace (- val x - - X) with (- (val x - X)) by ring. now rewrite Rabs_Ropp.
Qed.
Lemma sum_bound k1 k2 B1 B2 C1 C2 S e1 e2 e : 0 <= k1 <= 900 -> 0 <= k2 <= k1 -> 0 <= B1 -> 0 <= B2 -> 0 <= C1 -> 0 <= C2 ->
  e1 <= k1 * u * B1 + C1 -> e2 <= k2 * u * B2 + C2 -> S <= (B1 + B2) + e1 + e2 -> e <= u * S -> e1 + e2 + e <= (k1 + 9 / 8) * u * (B1 + B2) + 2 * (C1 + C2).
Proof.
  intros K1 K2 P1 P2 Q1 Q2 E1 E2 HS E. pose proof u_pos. pose proof u_small. pose proof (ku k1 ltac:(lra)) as [Z1 Z2].
  assert (k2 * u * B2 <= k1 * u * B2) by (apply Rmult_le_compat_r; [exact P2|]; apply Rmult_le_compat_r; lra).
  assert (T : e1 + e2 <= k1 * u * (B1 + B2) + (C1 + C2)) by (rewrite Rmult_plus_distr_l; lra).
  assert (E' : e <= u * ((B1 + B2) + (k1 * u * (B1 + B2) + (C1 + C2)))) by (eapply Rle_trans; [exact E|]; apply Rmult_le_compat_l; lra).
  assert (k1 * u * (B1 + B2) <= / 8 * (B1 + B2)) by (apply Rmult_le_compat_r; lra).
  assert (u * (C1 + C2) <= 1 * (C1 + C2)) by (apply Rmult_le_compat_r; lra).
  assert (u * (k1 * u * (B1 + B2)) <= u * (/ 8 * (B1 + B2))) by (apply Rmult_le_compat_l; lra).
  replace ((k1 + 9 / 8) * u * (B1 + B2)) with (k1 * u * (B1 + B2) + u * (B1 + B2) + u * (/ 8 * (B1 + B2))) by field.
  rewrite !Rmult_plus_distr_l in E'. rewrite Rmult_plus_distr_l. lra.
Qed.
Lemma app_add_le x y X Y k1 k2 B1 B2 C1 C2 : app x X k1 B1 C1 -> app y Y k2 B2 C2 -> k2 <= k1 <= 900 -> 2 * (B1 + B2 + C1 + C2) <= huge ->
  app (fadd x y) (X + Y) (k1 + 9 / 8) (B1 + B2) (2 * (C1 + C2)).
Proof.
  intros A1 A2 K O. pose proof (app_B _ _ _ _ _ A1) as P1. pose proof (app_B _ _ _ _ _ A2) as P2.
  pose proof (app_abs _ _ _ _ _ A1) as M1. pose proof (app_abs _ _ _ _ _ A2) as M2.
  destruct A1 as (F1 & K1 & Q1 & HB1 & E1), A2 as (F2 & K2 & Q2 & HB2 & E2). pose proof u_pos. pose proof u_small.
  assert (1000 * u * B1 <= 1 * B1) by (apply Rmult_le_compat_r; lra). assert (1000 * u * B2 <= 1 * B2) by (apply Rmult_le_compat_r; lra).
  destruct (fadd_err x y F1 F2) as [F E]. { eapply Rle_trans; [apply Rabs_triang|]. lra. }
  repeat split; try lra; [exact F|eapply Rle_trans; [apply Rabs_triang|]; lra|].
  replace (val (fadd x y) - (X + Y)) with ((val x - X) + (val y - Y) + (val (fadd x y) - (val x + val y))) by ring.
  eapply Rle_trans; [eapply Rle_trans; [apply Rabs_triang|apply Rplus_le_compat_r, Rabs_triang]|].
  eapply (sum_bound k1 k2 B1 B2 C1 C2 (Rabs (val x + val y))); try lra; try exact E1; try exact E2; try exact E.
  replace (val x + val y) with (X + Y + (val x - X) + (val y - Y)) by ring. eapply Rle_trans; [apply Rabs_triang|]. apply Rplus_le_compat_r.
  eapply Rle_trans; [apply Rabs_triang|]. apply Rplus_le_compat_r. eapply Rle_trans; [apply Rabs_triang|]. lra.
Qed.
Lemma fin_cases x y : fin x -> fin y -> val x + val y = val y + val x. Proof. intros. ring. Qed.
Lemma app_add x y X Y k B1 B2 C1 C2 : app x X k B1 C1 -> app y Y k B2 C2 -> k <= 900 -> 2 * (B1 + B2 + C1 + C2) <= huge ->
  app (fadd x y) (X + Y) (k + 9 / 8) (B1 + B2) (2 * (C1 + C2)).
Proof. intros A1 A2 K O. apply (app_add_le x y X Y k k); [exact A1|exact A2|split; [lra|exact K]|exact O]. Qed.
Lemma app_sub x y X Y k B1 B2 C1 C2 : app x X k B1 C1 -> app y Y k B2 C2 -> k <= 900 -> 2 * (B1 + B2 + C1 + C2) <= huge ->
  app (fsub x y) (X - Y) (k + 9 / 8) (B1 + B2) (2 * (C1 + C2)).
Proof.
  intros A1 A2 K O. pose proof (app_B _ _ _ _ _ A1) as P1. pose proof (app_B _ _ _ _ _ A2) as P2.
  pose proof (app_abs _ _ _ _ _ A1) as M1. pose proof (app_abs _ _ _ _ _ A2) as M2.
  destruct A1 as (F1 & K1 & Q1 & HB1 & E1), A2 as (F2 & K2 & Q2 & HB2 & E2). pose proof u_pos. pose proof u_small.
  assert (1000 * u * B1 <= 1 * B1) by (apply Rmult_le_compat_r; lra). assert (1000 * u * B2 <= 1 * B2) by (apply Rmult_le_compat_r; lra).
  destruct (fsub_err x y F1 F2) as [F E]. { eapply Rle_trans; [apply Rabs_triang|]. rewrite Rabs_Ropp. lra. }
  repeat split; try lra; [exact F|eapply Rle_trans; [apply Rabs_triang|]; rewrite Rabs_Ropp; lra|].
  replace (val (fsub x y) - (X - Y)) with ((val x - X) + - (val y - Y) + (val (fsub x y) - (val x - val y))) by ring.
  eapply Rle_trans; [eapply Rle_trans; [apply Rabs_triang|apply Rplus_le_compat_r, Rabs_triang]|]. rewrite Rabs_Ropp.
  eapply (sum_bound k k B1 B2 C1 C2 (Rabs (val x - val y))); try lra; try exact E1; try exact E2; try exact E.
  replace (val x - val y) with (X + - Y + (val x - X) + - (val y - Y)) by ring. eapply Rle_trans; [apply Rabs_triang|]. rewrite Rabs_Ropp. apply Rplus_le_compat_r.
  eapply Rle_trans; [apply Rabs_triang|]. apply Rplus_le_compat_r. eapply Rle_trans; [apply Rabs_triang|]. rewrite Rabs_Ropp. lra.
Qed.

(** the error of an exact product of approximated numbers *)
Lemma prod_bound x y X Y k1 k2 B1 B2 C1 C2 : app x X k1 B1 C1 -> app y Y k2 B2 C2 -> k1 + k2 <= 900 ->
  Rabs (val x * val y - X * Y) <= (k1 + k2 + / 16) * u * (B1 * B2) + 3 / 2 * (C1 * B2 + C2 * B1 + C1 * C2).
Proof.
  intros A1 A2 K. pose proof (app_B _ _ _ _ _ A1) as P1. pose proof (app_B _ _ _ _ _ A2) as P2.
  destruct A1 as (F1 & K1 & Q1 & HB1 & E1), A2 as (F2 & K2 & Q2 & HB2 & E2). pose proof u_pos. pose proof u_small.
  pose proof (ku k1 ltac:(lra)) as [Z1 Z1']. pose proof (ku k2 ltac:(lra)) as [Z2 Z2'].
  replace (val x * val y - X * Y) with ((val x - X) * Y + X * (val y - Y) + (val x - X) * (val y - Y)) by ring.
  eapply Rle_trans; [eapply Rle_trans; [apply Rabs_triang|apply Rplus_le_compat_r, Rabs_triang]|]. rewrite !Rabs_mult.
  set (e1 := k1 * u * B1 + C1) in *. set (e2 := k2 * u * B2 + C2) in *.
  assert (T1 : Rabs (val x - X) * Rabs Y <= e1 * B2) by (apply Rmult_le_compat; auto using Rabs_pos).
  assert (T2 : Rabs X * Rabs (val y - Y) <= B1 * e2) by (apply Rmult_le_compat; auto using Rabs_pos).
  assert (T3 : Rabs (val x - X) * Rabs (val y - Y) <= e1 * e2) by (apply Rmult_le_compat; auto using Rabs_pos).
  assert (D : e1 * B2 + B1 * e2 + e1 * e2 = (k1 + k2) * u * (B1 * B2) + u * (k1 * (k2 * u)) * (B1 * B2) + (C1 * B2) * (1 + k2 * u) + (C2 * B1) * (1 + k1 * u) + C1 * C2) by (unfold e1, e2; ring).
  assert (0 <= B1 * B2) by (apply Rmult_le_pos; assumption). assert (0 <= C1 * B2) by (apply Rmult_le_pos; assumption).
  assert (0 <= C2 * B1) by (apply Rmult_le_pos; assumption). assert (0 <= C1 * C2) by (apply Rmult_le_pos; assumption).
  assert (k1 * (k2 * u) <= 1000 * / 1000000000000) by (apply Rmult_le_compat; lra).
  assert (u * (k1 * (k2 * u)) * (B1 * B2) <= u * / 16 * (B1 * B2)) by (apply Rmult_le_compat_r; [assumption|]; apply Rmult_le_compat_l; lra).
  assert ((C1 * B2) * (1 + k2 * u) <= (C1 * B2) * (3 / 2)) by (apply Rmult_le_compat_l; lra).
  assert ((C2 * B1) * (1 + k1 * u) <= (C2 * B1) * (3 / 2)) by (apply Rmult_le_compat_l; lra).
  replace ((k1 + k2 + / 16) * u * (B1 * B2)) with ((k1 + k2) * u * (B1 * B2) + u * / 16 * (B1 * B2)) by field. lra.
Qed.
Lemma app_mul x y X Y k1 k2 B1 B2 C1 C2 : app x X k1 B1 C1 -> app y Y k2 B2 C2 -> k1 + k2 <= 900 -> 2 * (B1 * B2 + C1 * B2 + C2 * B1 + C1 * C2) <= huge ->
  app (fmul x y) (X * Y) (k1 + k2 + 9 / 8) (B1 * B2) (2 * (C1 * B2 + C2 * B1 + C1 * C2) + eta).
Proof.
  intros A1 A2 K O. pose proof (prod_bound _ _ _ _ _ _ _ _ _ _ A1 A2 K) as D. pose proof (app_B _ _ _ _ _ A1) as P1. pose proof (app_B _ _ _ _ _ A2) as P2.
  destruct A1 as (F1 & K1 & Q1 & HB1 & E1), A2 as (F2 & K2 & Q2 & HB2 & E2). pose proof u_pos. pose proof u_small. pose proof eta_pos.
  pose proof (ku (k1 + k2) ltac:(lra)) as [Z1 Z2].
  assert (0 <= B1 * B2) by (apply Rmult_le_pos; assumption). assert (0 <= C1 * B2) by (apply Rmult_le_pos; assumption).
  assert (0 <= C2 * B1) by (apply Rmult_le_pos; assumption). assert (0 <= C1 * C2) by (apply Rmult_le_pos; assumption).
  set (BB := B1 * B2) in *. set (CC := C1 * B2 + C2 * B1 + C1 * C2) in *.
  assert (M : Rabs (X * Y) <= BB) by (rewrite Rabs_mult; apply Rmult_le_compat; auto using Rabs_pos).
  assert (S : Rabs (val x * val y) <= BB + ((k1 + k2 + / 16) * u * BB + 3 / 2 * CC)).
  { replace (val x * val y) with (X * Y + (val x * val y - X * Y)) by ring. eapply Rle_trans; [apply Rabs_triang|]. lra. }
  assert (W : (k1 + k2 + / 16) * u * BB <= / 16 * BB) by (apply Rmult_le_compat_r; [assumption|]; lra).
  destruct (fmul_err x y F1 F2) as [F E]. { unfold CC in *. lra. }
  repeat split; try lra; try assumption; [unfold CC; lra|].
  replace (val (fmul x y) - X * Y) with ((val x * val y - X * Y) + (val (fmul x y) - val x * val y)) by ring.
  eapply Rle_trans; [apply Rabs_triang|]. set (s := Rabs (val x * val y)) in *.
  assert (G : u * s <= u * (17 / 16 * BB + 3 / 2 * CC)) by (apply Rmult_le_compat_l; lra).
  assert (u * (3 / 2 * CC) <= / 2 * CC).
  { unfold CC. replace (/ 2 * (C1 * B2 + C2 * B1 + C1 * C2)) with (/ 3 * (3 / 2 * (C1 * B2 + C2 * B1 + C1 * C2))) by field. apply Rmult_le_compat_r; lra. }
  replace ((k1 + k2 + 9 / 8) * u * BB) with ((k1 + k2 + / 16) * u * BB + u * (17 / 16 * BB)) by field. rewrite Rmult_plus_distr_l in G. lra.
Qed.

(** ** Sums of products, added in any order *)
Definition exact_sum (l : list (f64 * f64)) : R := fold_right (fun ab s => val (fst ab) * val (snd ab) + s) 0 l.
Definition abs_sum (l : list (f64 * f64)) : R := fold_right (fun ab s => Rabs (val (fst ab) * val (snd ab)) + s) 0 l.
Lemma exact_sum_cons a l : exact_sum (a :: l) = val (fst a) * val (snd a) + exact_sum l. Proof. reflexivity. Qed.
Lemma exact_sum_nil : exact_sum [] = 0. Proof. reflexivity. Qed.
Lemma exact_sum_app l1 l2 : exact_sum (l1 ++ l2) = exact_sum l1 + exact_sum l2.
Proof. induction l1 as [|a l1 IH]; cbn [Datatypes.app]; [rewrite exact_sum_nil; ring|]. rewrite !exact_sum_cons, IH. ring. Qed.
Lemma abs_sum_cons a l : abs_sum (a :: l) = Rabs (val (fst a) * val (snd a)) + abs_sum l. Proof. reflexivity. Qed.
Lemma abs_sum_nil : abs_sum [] = 0. Proof. reflexivity. Qed.
Lemma abs_sum_app l1 l2 : abs_sum (l1 ++ l2) = abs_sum l1 + abs_sum l2.
Proof. induction l1 as [|a l1 IH]; cbn [Datatypes.app]; [rewrite abs_sum_nil; ring|]. rewrite !abs_sum_cons, IH. ring. Qed.
Lemma exact_sum_perm l l' : Permutation l l' -> exact_sum l = exact_sum l'.
Proof. induction 1; rewrite ?exact_sum_cons; [reflexivity|now f_equal|ring|congruence]. Qed.
Lemma abs_sum_perm l l' : Permutation l l' -> abs_sum l = abs_sum l'.
Proof. induction 1; rewrite ?abs_sum_cons; [reflexivity|now f_equal|ring|congruence]. Qed.
Lemma abs_sum_pos l : 0 <= abs_sum l.
Proof. induction l; [rewrite abs_sum_nil; lra|]. rewrite abs_sum_cons. pose proof (Rabs_pos (val (fst a) * val (snd a))). lra. Qed.
Lemma exact_abs l : Rabs (exact_sum l) <= abs_sum l.
Proof. induction l; [rewrite exact_sum_nil, Rabs_R0, abs_sum_nil; lra|]. rewrite exact_sum_cons, abs_sum_cons. eapply Rle_trans; [apply Rabs_triang|]. lra. Qed.
Lemma fin_zero : fin f_zero. Proof. reflexivity. Qed.
Lemma val_zero : val f_zero = 0. Proof. reflexivity. Qed.


Definition csum (n : nat) : R := INR n * 2 ^ n * eta.
Lemma pow2_le n m : (n <= m)%nat -> 2 ^ n <= 2 ^ m.
Proof. intros H. apply Rle_pow; [lra|exact H]. Qed.
Lemma csum_pos n : 0 <= csum n.
Proof. unfold csum. pose proof eta_pos. pose proof (pos_INR n). pose proof (pow_lt 2 n ltac:(lra)). apply Rmult_le_pos; [apply Rmult_le_pos|]; lra. Qed.
Lemma csum_step n m : (n <= m)%nat -> 2 * csum n <= INR n * 2 ^ S m * eta.
Proof.
  intros H. unfold csum. pose proof eta_pos. pose proof (pos_INR n). pose proof (pow2_le n m H). rewrite <- tech_pow_Rmult.
  assert (INR n * 2 ^ n <= INR n * 2 ^ m) by (apply Rmult_le_compat_l; lra). assert (INR n * 2 ^ n * eta <= INR n * 2 ^ m * eta) by (apply Rmult_le_compat_r; lra). lra.
Qed.
Lemma csum_small n : INR n <= 3 -> csum n <= 24 * eta.
Proof.
  intros H. pose proof eta_pos. assert ((n <= 3)%nat) by (apply INR_le; cbn; lra). unfold csum. apply Rmult_le_compat_r; [lra|]. pose proof (pow2_le n 3 ltac:(assumption)).
  pose proof (pos_INR n). pose proof (pow_lt 2 n ltac:(lra)). replace 24 with (3 * 2 ^ 3) by (cbn; lra). apply Rmult_le_compat; lra.
Qed.
Lemma sum_of_app l x : sum_of l x -> Forall (fun ab => fin (fst ab) /\ fin (snd ab)) l -> INR (length l) <= 3 -> abs_sum l <= huge / 4 ->
  (1 <= length l)%nat /\ app x (exact_sum l) (INR (length l) * (9 / 8)) (abs_sum l) (csum (length l)).
Proof.
  pose proof u_pos as U. pose proof u_small as U'. pose proof eta_pos as T. pose proof eta_u as T'. pose proof huge_big as HG.
  assert (HH : 1000000 <= huge).
  { eapply Rle_trans; [|exact HG]. replace 1000000 with (/ (/ 1000000)) by field. apply Rinv_le; lra. }
  assert (ONE : forall a b z, Rabs (val a * val b) + 0 <= huge / 4 -> fin z -> Rabs (val z - val a * val b) <= u * Rabs (val a * val b) + eta ->
    (1 <= length [(a, b)])%nat /\ app z (exact_sum [(a, b)]) (INR (length [(a, b)]) * (9 / 8)) (abs_sum [(a, b)]) (csum (length [(a, b)]))).
  { intros a b z O F E. split; [cbn; lia|]. pose proof (Rabs_pos (val a * val b)). unfold csum. cbn. rewrite !Rplus_0_r.
    assert (u * Rabs (val a * val b) <= (9/8 * u) * Rabs (val a * val b)) by (apply Rmult_le_compat_r; lra). repeat split; try lra; assumption. }
  induction 1 as [a b|a b|a b|l l1 l2 x y P S1 IH1 S2 IH2|l l1 a b x P S1 IH1]; intros FA N O.
  - inversion FA as [|? ? [Fa Fb] _]; subst. cbn [fst snd] in *. cbn in O. destruct (fmul_err a b Fa Fb ltac:(lra)) as [F E]. now apply ONE.
  - inversion FA as [|? ? [Fa Fb] _]; subst. cbn [fst snd] in *. cbn in O. destruct (fmul_rnd a b Fa Fb ltac:(lra)) as [F E].
    pose proof (rnd_huge (val a * val b) ltac:(lra)) as RH. rewrite <- E in RH.
    destruct (fadd_rnd f_zero (fmul a b) fin_zero F) as [F2 E2]; [rewrite val_zero, Rplus_0_l; exact RH|]. rewrite val_zero, Rplus_0_l, rnd_val, E in E2.
    apply ONE; [exact O|exact F2|]. rewrite E2. apply rnd_err.
  - inversion FA as [|? ? [Fa Fb] _]; subst. cbn [fst snd] in *. cbn in O.
    destruct (ffma_err a b f_zero Fa Fb fin_zero) as [F E]; rewrite val_zero, Rplus_0_r in *; [lra|]. now apply ONE; [rewrite Rplus_0_r|..].
  - assert (FA' := Permutation_Forall P FA). apply Forall_app in FA'. destruct FA' as [FA1 FA2].
    rewrite (exact_sum_perm _ _ P), exact_sum_app. rewrite (abs_sum_perm _ _ P), abs_sum_app in *. assert (LL := Permutation_length P). rewrite app_length in LL.
    pose proof (pos_INR (length l1)) as N1. pose proof (pos_INR (length l2)) as N2. pose proof (abs_sum_pos l1) as A1. pose proof (abs_sum_pos l2) as A2.
    assert (LN : INR (length l) = INR (length l1) + INR (length l2)) by now rewrite LL, plus_INR.
    destruct (IH1 FA1 ltac:(lra) ltac:(lra)) as (L1 & E1). destruct (IH2 FA2 ltac:(lra) ltac:(lra)) as (L2 & E2). split; [lia|].
    assert (R1 := le_INR _ _ L1). assert (R2 := le_INR _ _ L2). cbn [INR] in R1, R2.
    pose proof (csum_small (length l1) ltac:(lra)) as C1. pose proof (csum_small (length l2) ltac:(lra)) as C2. pose proof (csum_pos (length l1)). pose proof (csum_pos (length l2)).
    assert (K : 0 <= (INR (length l) - 1) * (9 / 8) <= 900) by lra.
    eapply app_weak; [eapply (app_add x y _ _ ((INR (length l) - 1) * (9 / 8)))| | |].
    + eapply app_weak; [exact E1|lra|apply Rle_refl|apply Rle_refl].
    + eapply app_weak; [exact E2|lra|apply Rle_refl|apply Rle_refl].
    + lra.
    + lra.
    + lra.
    + lra.
    + rewrite Rmult_plus_distr_l. unfold csum at 3. rewrite LN. destruct (length l) as [|m] eqn:EM; [lia|].
      pose proof (csum_step (length l1) m ltac:(lia)). pose proof (csum_step (length l2) m ltac:(lia)). rewrite !Rmult_plus_distr_r. lra.
  - assert (FA' := Permutation_Forall P FA). inversion FA' as [|? ? [Fa Fb] FA1]; subst. cbn [fst snd] in *.
    rewrite (exact_sum_perm _ _ P). rewrite (abs_sum_perm _ _ P) in *. cbn [exact_sum abs_sum fold_right fst snd] in *. fold (exact_sum l1) in *. fold (abs_sum l1) in *.
    assert (LL := Permutation_length P). cbn [length] in LL. pose proof (pos_INR (length l1)) as N1. pose proof (abs_sum_pos l1) as A1. pose proof (Rabs_pos (val a * val b)) as A2.
    assert (LN : INR (length l) = INR (length l1) + 1) by now rewrite LL, S_INR.
    destruct (IH1 FA1 ltac:(lra) ltac:(lra)) as (L1 & E1). split; [lia|]. assert (R1 := le_INR _ _ L1). cbn [INR] in R1.
    pose proof (csum_small (length l1) ltac:(lra)) as C1. pose proof (csum_pos (length l1)) as C0. pose proof (app_abs _ _ _ _ _ E1) as M1.
    assert (W : 1000 * u * abs_sum l1 <= 1 * abs_sum l1) by (apply Rmult_le_compat_r; lra).
    destruct E1 as (F1 & K1 & Q1 & HB1 & E1).
    destruct (ffma_err a b x Fa Fb F1) as [F E]. { eapply Rle_trans; [apply Rabs_triang|]. lra. }
    repeat split; try assumption; try lra; [apply csum_pos|eapply Rle_trans; [apply Rabs_triang|]; lra|].
    replace (val (ffma a b x) - (val a * val b + exact_sum l1)) with ((val x - exact_sum l1) + (val (ffma a b x) - (val a * val b + val x))) by ring.
    eapply Rle_trans; [apply Rabs_triang|].
    assert (G : Rabs (val x - exact_sum l1) + 0 + u * Rabs (val a * val b + val x) <= (INR (length l1) * (9 / 8) + 9 / 8) * u * (abs_sum l1 + Rabs (val a * val b)) + 2 * (csum (length l1) + 0)).
    { apply (sum_bound _ 0 _ _ _ _ (Rabs (val a * val b + val x)) (Rabs (val x - exact_sum l1)) 0); try lra.
      replace (val a * val b + val x) with (val a * val b + exact_sum l1 + (val x - exact_sum l1)) by ring. eapply Rle_trans; [apply Rabs_triang|].
      pose proof (Rabs_triang (val a * val b) (exact_sum l1)). lra. }
    unfold csum at 1. rewrite LN. destruct (length l) as [|m] eqn:EM; [lia|]. injection LL as LM. subst m. set (m := length l1) in *. pose proof (csum_step m m ltac:(lia)) as CS. rewrite Rplus_0_r in G.
    assert (eta <= 1 * 2 ^ S m * eta) by (pose proof (pow_R1_Rle 2 (S m) ltac:(lra)); assert (1 * eta <= 2 ^ S m * eta) by (apply Rmult_le_compat_r; lra); lra).
    replace ((INR m + 1) * 2 ^ S m * eta) with (INR m * 2 ^ S m * eta + 1 * 2 ^ S m * eta) by ring. replace ((INR m + 1) * (9 / 8)) with (INR m * (9 / 8) + 9 / 8) by ring.
    rewrite (Rplus_comm (Rabs (val a * val b))). lra.
Qed.
