(** * Property C07: float32 narrowing rounds to nearest, ties to even, or raises OverflowError

    The values of the IEEE-754 patterns are compared as integers: every finite double is an integer multiple of 2^-1074 and every finite single
    one of 2^-149, so no real numbers (and no axioms) are needed. *)
From Coq Require Import ZArith Lia String List Bool.
From Verif Require Import Lang Bytes Interp Prog Spec Codec Codec2 StreamLem Api StreamApi PropStream.
Import ListNotations.
Local Open Scope Z_scope.

(** ** The values of bit patterns (IEEE 754-2008, 3.4): sign, biased exponent, significand *)
(** the magnitude of the double with exponent and significand fields t, in units of 2^-1074 *)
Definition mag64 (t : Z) : Z := let e := t / 2 ^ 52 in let m := t mod 2 ^ 52 in if e =? 0 then m else (m + 2 ^ 52) * 2 ^ (e - 1).
(** the magnitude of the single with exponent and significand fields t, in units of 2^-149 *)
Definition mag32 (t : Z) : Z := let e := t / 2 ^ 23 in let m := t mod 2 ^ 23 in if e =? 0 then m else (m + 2 ^ 23) * 2 ^ (e - 1).
Definition value64 (d : Z) : Z := if d <? 2 ^ 63 then mag64 d else - mag64 (d - 2 ^ 63).
Definition value32 (c : Z) : Z := if c <? 2 ^ 31 then mag32 c else - mag32 (c - 2 ^ 31).
(** the value of a single in units of 2^-1074 *)
Definition scaled32 (c : Z) : Z := value32 c * 2 ^ 925.
Definition finite64 (d : Z) : Prop := 0 <= d < 2 ^ 64 /\ (d / 2 ^ 52) mod 2 ^ 11 <> 2047.
Definition finite32 (c : Z) : Prop := 0 <= c < 2 ^ 32 /\ (c / 2 ^ 23) mod 2 ^ 8 <> 255.

(** c is the single nearest to the double d; between two equally near values it is the one with even significand *)
Definition nearest_even (d c : Z) : Prop :=
  forall c', finite32 c' -> Z.abs (scaled32 c - value64 d) <= Z.abs (scaled32 c' - value64 d) /\
    (Z.abs (scaled32 c - value64 d) = Z.abs (scaled32 c' - value64 d) -> value32 c' = value32 c \/ Z.even c = true).
(** half a unit in the last place beyond the largest single, 2^128 - 2^103 *)
Definition overflow_bound : Z := (2 ^ 128 - 2 ^ 103) * 2 ^ 1074.

(** ** Arithmetic of magnitudes *)
Lemma mag32_parts e m : 1 <= e -> 0 <= m < 2 ^ 23 -> mag32 (e * 2 ^ 23 + m) = (m + 2 ^ 23) * 2 ^ (e - 1).
Proof.
  intros He Hm. unfold mag32. rewrite Z.div_add_l by lia. rewrite Z.div_small by lia. rewrite (Z.add_comm (e * 2 ^ 23) m), Z.mod_add by lia. rewrite Z.mod_small by lia.
  cbv zeta. destruct (Z.eqb_spec (e + 0) 0); [lia|]. now rewrite Z.add_0_r.
Qed.
Lemma mag32_small m : 0 <= m < 2 ^ 23 -> mag32 m = m.
Proof. intros H. unfold mag32. rewrite Z.div_small, Z.mod_small by lia. reflexivity. Qed.
(** in binade j (1 <= j), singles are q * 2^(j-1) with 2^23 <= q <= 2^24, at position (j-1) * 2^23 + q *)
Lemma mag32_binade j q : 1 <= j -> 2 ^ 23 <= q <= 2 ^ 24 -> mag32 ((j - 1) * 2 ^ 23 + q) = q * 2 ^ (j - 1).
Proof.
  intros Hj Hq. destruct (Z.eq_dec q (2 ^ 24)) as [->|N].
  - replace ((j - 1) * 2 ^ 23 + 2 ^ 24) with ((j + 1) * 2 ^ 23 + 0) by lia. rewrite mag32_parts by lia. replace (j + 1 - 1) with (j - 1 + 1) by lia. rewrite Z.pow_add_r by lia. lia.
  - replace ((j - 1) * 2 ^ 23 + q) with (j * 2 ^ 23 + (q - 2 ^ 23)) by lia. rewrite mag32_parts by lia. f_equal. lia.
Qed.
Lemma mag32_subnormal q : 0 <= q <= 2 ^ 23 -> mag32 q = q.
Proof. intros H. destruct (Z.eq_dec q (2 ^ 23)) as [->|N]; [reflexivity|apply mag32_small; lia]. Qed.
Lemma mag32_next t : 0 <= t -> mag32 t < mag32 (t + 1).
Proof.
  intros H. destruct (Z_lt_ge_dec t (2 ^ 23)) as [L|L].
  - rewrite !mag32_subnormal by lia. lia.
  - set (e := t / 2 ^ 23). assert (D : t = e * 2 ^ 23 + t mod 2 ^ 23) by (unfold e; pose proof (Z.div_mod t (2 ^ 23)); lia).
    pose proof (Z.mod_pos_bound t (2 ^ 23) ltac:(lia)) as B. set (m := t mod 2 ^ 23) in *. assert (1 <= e) by nia. rewrite D.
    replace (e * 2 ^ 23 + m) with ((e - 1) * 2 ^ 23 + (m + 2 ^ 23)) by lia. replace ((e - 1) * 2 ^ 23 + (m + 2 ^ 23) + 1) with ((e - 1) * 2 ^ 23 + (m + 2 ^ 23 + 1)) by lia.
    rewrite !mag32_binade by lia. pose proof (Z.pow_pos_nonneg 2 (e - 1) ltac:(lia) ltac:(lia)). nia.
Qed.
Lemma mag32_mono t u : 0 <= t <= u -> mag32 t <= mag32 u.
Proof.
  intros H. replace u with (t + Z.of_nat (Z.to_nat (u - t))) by lia. induction (Z.to_nat (u - t)) as [|n IH]; [now rewrite Z.add_0_r|].
  pose proof (mag32_next (t + Z.of_nat n) ltac:(lia)). replace (t + Z.of_nat (S n)) with (t + Z.of_nat n + 1) by lia. lia.
Qed.
Lemma mag32_nonneg t : 0 <= t -> 0 <= mag32 t.
Proof. intros H. change 0 with (mag32 0). apply mag32_mono. lia. Qed.

(** ** Choosing the nearer neighbour *)
(** t is t0 or t0 + 1, the nearer to M of the two, the even one in the middle *)
Definition rounds (t0 M t : Z) : Prop :=
  let lo := mag32 t0 * 2 ^ 925 in let hi := mag32 (t0 + 1) * 2 ^ 925 in
  0 <= t0 /\ lo <= M < hi /\ (t = t0 /\ (M - lo < hi - M \/ M - lo = hi - M /\ Z.even t0 = true) \/ t = t0 + 1 /\ (hi - M < M - lo \/ M - lo = hi - M /\ Z.even t0 = false)).

Lemma rounds_nearest t0 M t : rounds t0 M t -> 0 <= M -> forall u, 0 <= u ->
  let dist x := Z.abs (x * 2 ^ 925 - M) in
  dist (mag32 t) <= dist (mag32 u) /\ dist (mag32 t) <= dist (- mag32 u) /\
  (dist (mag32 t) = dist (mag32 u) -> u = t \/ Z.even t = true) /\ (dist (mag32 t) = dist (- mag32 u) -> mag32 t = - mag32 u \/ Z.even t = true).
Proof.
  intros (H0 & HM & C) M0 u Hu. cbv zeta in *. pose proof (Z.pow_pos_nonneg 2 925 ltac:(lia) ltac:(lia)) as P. set (S := 2 ^ 925) in *. clearbody S.
  assert (PU : 0 <= mag32 u) by (apply mag32_nonneg; lia). assert (P0 : 0 <= mag32 t0) by (apply mag32_nonneg; lia).
  assert (E1 : Z.even (t0 + 1) = negb (Z.even t0)) by (rewrite Z.even_add; now destruct (Z.even t0)).
  assert (A : Z.abs (mag32 t * S - M) <= Z.min (M - mag32 t0 * S) (mag32 (t0 + 1) * S - M)) by (destruct C as [(-> & C)|(-> & C)]; lia).
  assert (U : u <= t0 /\ mag32 u * S <= mag32 t0 * S \/ t0 + 1 <= u /\ mag32 (t0 + 1) * S <= mag32 u * S).
  { destruct (Z_le_gt_dec u t0); [left|right]; (split; [lia|]); apply Z.mul_le_mono_nonneg_r; try lia; apply mag32_mono; lia. }
  assert (US : u = t0 \/ u = t0 + 1 \/ mag32 u * S < mag32 t0 * S \/ mag32 (t0 + 1) * S < mag32 u * S).
  { destruct (Z.eq_dec u t0); [tauto|]. destruct (Z.eq_dec u (t0 + 1)); [tauto|]. right. right. destruct (Z_lt_ge_dec u t0); [left|right].
    - apply Z.mul_lt_mono_pos_r; [lia|]. apply Z.lt_le_trans with (mag32 (u + 1)); [apply mag32_next; lia|apply mag32_mono; lia].
    - apply Z.mul_lt_mono_pos_r; [lia|]. apply Z.lt_le_trans with (mag32 (t0 + 1 + 1)); [apply mag32_next; lia|apply mag32_mono; lia]. }
  assert (N : Z.abs (mag32 t * S - M) <= Z.abs (- mag32 u * S - M) /\ (Z.abs (mag32 t * S - M) = Z.abs (- mag32 u * S - M) -> mag32 u = 0 /\ t0 = 0 \/ Z.even t = true)).
  { assert (0 <= mag32 u * S) by nia. assert (0 <= mag32 t0 * S) by nia. split; [lia|]. intros E.
    assert (mag32 t0 * S = 0 /\ mag32 u * S = 0) by lia. assert (mag32 t0 = 0) by nia. assert (mag32 u = 0) by nia.
    assert (t0 = 0). { destruct (Z.eq_dec t0 0); [assumption|]. pose proof (mag32_next 0 ltac:(lia)) as X. change (mag32 0) with 0 in X. pose proof (mag32_mono (0 + 1) t0 ltac:(lia)). lia. } tauto. }
  split; [lia|]. split; [lia|]. split.
  - intros E. destruct C as [(-> & C)|(-> & C)].
    + destruct US as [->|[->|US]]; [tauto| |lia]. right. lia.
    + rewrite E1. destruct US as [->|[->|US]]; [|tauto|lia]. right. destruct C as [C|[_ ->]]; [lia|reflexivity].
  - intros E. destruct N as [_ N]. destruct (N E) as [[U0 T0]|Ev]; [|now right]. destruct C as [(-> & C)|(-> & C)]; [left; rewrite U0, T0; reflexivity|].
    exfalso. subst t0. change (mag32 (0 + 1)) with 1 in *. change (mag32 0) with 0 in *. destruct C as [C|[_ C]]; [lia|discriminate C].
Qed.

Lemma round_shift_cases f k : 0 < k -> 0 <= f -> let q := f / 2 ^ k in let r := f mod 2 ^ k in
  (round_shift f k = q /\ (2 * r < 2 ^ k \/ 2 * r = 2 ^ k /\ Z.even q = true)) \/ (round_shift f k = q + 1 /\ (2 ^ k < 2 * r \/ 2 * r = 2 ^ k /\ Z.even q = false)).
Proof.
  intros Hk Hf. cbv zeta. unfold round_shift. destruct (Z.leb_spec k 0); [lia|]. assert (P : 2 ^ k = 2 * 2 ^ (k - 1)) by (rewrite <- Z.pow_succ_r by lia; f_equal; lia).
  destruct (Z.ltb_spec (f mod 2 ^ k) (2 ^ (k - 1))); [left; split; [reflexivity|left; lia]|]. destruct (Z.ltb_spec (2 ^ (k - 1)) (f mod 2 ^ k)); [right; split; [reflexivity|left; lia]|].
  destruct (Z.even (f / 2 ^ k)) eqn:E; [left|right]; (split; [reflexivity|right; split; [lia|reflexivity]]).
Qed.

Lemma mag64_parts e m : 0 <= e -> 0 <= m < 2 ^ 52 -> mag64 (e * 2 ^ 52 + m) = if e =? 0 then m else (m + 2 ^ 52) * 2 ^ (e - 1).
Proof.
  intros He Hm. unfold mag64. rewrite Z.div_add_l by lia. rewrite Z.div_small by lia. rewrite (Z.add_comm (e * 2 ^ 52) m), Z.mod_add by lia. rewrite Z.mod_small by lia.
  cbv zeta. now rewrite Z.add_0_r.
Qed.
Lemma rounds_shift f k q0 j M : 0 < k -> 0 <= f -> 0 <= q0 -> (forall q, f / 2 ^ k <= q <= f / 2 ^ k + 1 -> mag32 (q0 + q) * 2 ^ 925 = q * 2 ^ k * 2 ^ j) -> 0 <= j -> Z.even q0 = true ->
  M = f * 2 ^ j -> rounds (q0 + f / 2 ^ k) M (q0 + round_shift f k).
Proof.
  intros Hk Hf Hq H Hj Ev ->. pose proof (round_shift_cases f k Hk Hf) as C. cbv zeta in C. pose proof (Z.pow_pos_nonneg 2 k ltac:(lia) ltac:(lia)) as Pk. pose proof (Z.pow_pos_nonneg 2 j ltac:(lia) Hj) as Pj.
  pose proof (Z.div_mod f (2 ^ k) ltac:(lia)) as D. pose proof (Z.mod_pos_bound f (2 ^ k) Pk) as B. assert (Q : 0 <= f / 2 ^ k) by (apply Z.div_pos; lia).
  pose proof (H (f / 2 ^ k) ltac:(lia)) as H1. pose proof (H (f / 2 ^ k + 1) ltac:(lia)) as H2. rewrite Z.add_assoc in H2.
  unfold rounds. cbv zeta. rewrite H1, H2. rewrite Z.even_add, Ev. set (q := f / 2 ^ k) in *. set (r := f mod 2 ^ k) in *. clearbody q r. set (K := 2 ^ k) in *. set (J := 2 ^ j) in *. clearbody K J.
  assert (FJ : f * J = q * K * J + r * J) by (rewrite D; ring). assert (FK : (q + 1) * K * J = q * K * J + K * J) by ring. rewrite FK, FJ. assert (RJ : 0 <= r * J < K * J) by nia.
  split; [lia|]. split; [lia|]. destruct C as [[-> C]|[-> C]]; [left|right]; (split; [lia|]).
  - destruct C as [C|[C E]]; [left; assert (2 * r * J < K * J) by (apply Z.mul_lt_mono_pos_r; assumption); lia|right; split; [rewrite <- C; ring|now rewrite E]].
  - destruct C as [C|[C E]]; [left; assert (K * J < 2 * r * J) by (apply Z.mul_lt_mono_pos_r; assumption); lia|right; split; [rewrite <- C; ring|now rewrite E]].
Qed.

Lemma narrow_rounds s T : s = 0 \/ s = 1 -> 0 <= T < 2047 * 2 ^ 52 ->
  if mag64 T <? overflow_bound
  then exists t0 t, narrow (s * 2 ^ 63 + T) = Some (s * 2 ^ 31 + t) /\ 0 <= t < 255 * 2 ^ 23 /\ rounds t0 (mag64 T) t
  else narrow (s * 2 ^ 63 + T) = None.
Proof.
  intros Hs HT. set (e := T / 2 ^ 52). set (m := T mod 2 ^ 52). assert (Hm : 0 <= m < 2 ^ 52) by (apply Z.mod_pos_bound; lia).
  assert (D : T = e * 2 ^ 52 + m) by (unfold e, m; pose proof (Z.div_mod T (2 ^ 52)); lia). assert (He : 0 <= e < 2047) by nia.
  assert (X1 : (s * 2 ^ 63 + T) / 2 ^ 63 = s) by (rewrite Z.div_add_l by lia; rewrite Z.div_small by nia; lia).
  assert (X2 : ((s * 2 ^ 63 + T) / 2 ^ 52) mod 2 ^ 11 = e).
  { replace (s * 2 ^ 63 + T) with ((s * 2 ^ 11 + e) * 2 ^ 52 + m) by lia. rewrite Z.div_add_l by lia. rewrite Z.div_small by lia. rewrite Z.add_0_r, (Z.add_comm (s * 2 ^ 11)), Z.mod_add by lia. apply Z.mod_small. lia. }
  assert (X3 : (s * 2 ^ 63 + T) mod 2 ^ 52 = m).
  { replace (s * 2 ^ 63 + T) with (m + (s * 2 ^ 11 + e) * 2 ^ 52) by lia. rewrite Z.mod_add by lia. apply Z.mod_small. lia. }
  unfold narrow. rewrite X1, X2, X3. cbv zeta. rewrite D, mag64_parts by lia. destruct (Z.eqb_spec e 2047); [lia|]. clear X1 X2 X3 D HT.
  destruct (Z.eqb_spec e 0) as [E0|E0].
  - assert (B : m <? overflow_bound = true) by (apply Z.ltb_lt; unfold overflow_bound; apply Z.lt_le_trans with (2 ^ 52); [lia|vm_compute; discriminate]). rewrite B.
    exists 0, 0. split; [f_equal; lia|]. split; [lia|]. unfold rounds. cbv zeta. change (mag32 (0 + 1)) with 1. change (mag32 0) with 0.
    assert (2 ^ 53 <= 2 ^ 925) by (apply Z.pow_le_mono_r; lia). split; [lia|]. split; [lia|]. left. split; [reflexivity|]. left. lia.
  - set (f := m + 2 ^ 52). assert (Hf : 0 <= f) by (unfold f; lia). destruct (Z.leb_spec 897 e) as [L|L].
    + assert (Q : 2 ^ 23 <= f / 2 ^ 29 < 2 ^ 24). { split; [apply Z.div_le_lower_bound; unfold f; lia|apply Z.div_lt_upper_bound; unfold f; lia]. }
      assert (R : rounds ((e - 897) * 2 ^ 23 + f / 2 ^ 29) (f * 2 ^ (e - 1)) ((e - 897) * 2 ^ 23 + round_shift f 29)).
      { apply rounds_shift with (j := e - 1); try lia; [|rewrite Z.even_mul; apply orb_true_r].
        intros q Hq. replace ((e - 897) * 2 ^ 23 + q) with ((e - 896 - 1) * 2 ^ 23 + q) by lia. rewrite mag32_binade by lia. replace (e - 1) with (e - 896 - 1 + 896) by lia. rewrite (Z.pow_add_r 2 (e - 896 - 1) 896) by lia.
        replace (2 ^ 925) with (2 ^ 29 * 2 ^ 896) by (rewrite <- Z.pow_add_r by lia; reflexivity). ring. }
      pose proof (round_shift_cases f 29 ltac:(lia) ltac:(unfold f; lia)) as C. cbv zeta in C. pose proof (Z.div_mod f (2 ^ 29) ltac:(lia)) as D. pose proof (Z.mod_pos_bound f (2 ^ 29) ltac:(lia)) as B.
      assert (BND : (e - 897) * 2 ^ 23 + round_shift f 29 < 255 * 2 ^ 23 <-> f * 2 ^ (e - 1) < overflow_bound).
      { unfold overflow_bound. replace ((2 ^ 128 - 2 ^ 103) * 2 ^ 1074) with ((2 ^ 53 - 2 ^ 28) * 2 ^ 1149) by (rewrite !Z.mul_sub_distr_r, <- !Z.pow_add_r by lia; reflexivity).
        assert (RS : 2 ^ 23 <= round_shift f 29 <= 2 ^ 24) by lia. destruct (Z_lt_ge_dec e 1150) as [S|S]; [|destruct (Z.eq_dec e 1150) as [->|S']].
        - split; [intros _|intros _; nia]. apply Z.lt_le_trans with (2 ^ 53 * 2 ^ (e - 1)); [apply Z.mul_lt_mono_pos_r; [apply Z.pow_pos_nonneg; lia|unfold f; lia]|].
          apply Z.le_trans with (2 ^ 53 * 2 ^ 1148); [apply Z.mul_le_mono_nonneg_l; [lia|]; apply Z.pow_le_mono_r; lia|]. replace 1149 with (1 + 1148) by lia. rewrite (Z.pow_add_r 2 1 1148) by lia. pose proof (Z.pow_pos_nonneg 2 1148 ltac:(lia) ltac:(lia)). clear -H. nia.
        - replace (1150 - 1) with 1149 by lia. rewrite <- Z.mul_lt_mono_pos_r by (apply Z.pow_pos_nonneg; lia). split; intros H.
          + assert (round_shift f 29 < 2 ^ 24) by lia. destruct C as [[E C]|[E C]]; [|lia]. assert (f / 2 ^ 29 <> 2 ^ 24 - 1 \/ f mod 2 ^ 29 < 2 ^ 28); [|lia].
            destruct C as [C|[C Ev]]; [right; lia|]. left. intros K. rewrite K in Ev. discriminate Ev.
          + destruct C as [[E C]|[E C]]; [lia|]. assert (f / 2 ^ 29 <> 2 ^ 24 - 1) by lia. lia.
        - split; intros H; [exfalso; nia|]. exfalso. assert (2 ^ 1150 <= 2 ^ (e - 1)) by (apply Z.pow_le_mono_r; lia). assert (P : 0 < 2 ^ 1149) by (apply Z.pow_pos_nonneg; lia).
          replace (2 ^ 1150) with (2 * 2 ^ 1149) in H0 by (rewrite <- Z.pow_succ_r by lia; reflexivity). unfold f in H. clear -H H0 P Hm. nia. }
      destruct (Z.ltb_spec (f * 2 ^ (e - 1)) overflow_bound) as [O|O]; destruct (Z.ltb_spec ((e - 897) * 2 ^ 23 + round_shift f 29) (255 * 2 ^ 23)) as [O'|O'].
      * do 2 eexists. split; [reflexivity|]. split; [split; [|exact O']|exact R]. assert (0 <= round_shift f 29) by lia. nia.
      * exfalso. apply BND in O. lia.
      * exfalso. apply BND in O'. lia.
      * reflexivity.
    + assert (K : 0 < 926 - e) by lia. pose proof (Z.pow_pos_nonneg 2 (926 - e) ltac:(lia) ltac:(lia)) as Pk.
      assert (P30 : 2 ^ 30 <= 2 ^ (926 - e)) by (apply Z.pow_le_mono_r; lia).
      assert (Q : 0 <= f / 2 ^ (926 - e) < 2 ^ 23). { split; [apply Z.div_pos; unfold f; lia|apply Z.div_lt_upper_bound; unfold f; lia]. }
      assert (O : (f * 2 ^ (e - 1) <? overflow_bound) = true).
      { apply Z.ltb_lt. apply Z.lt_le_trans with (2 ^ 53 * 2 ^ (e - 1)); [apply Z.mul_lt_mono_pos_r; [apply Z.pow_pos_nonneg; lia|unfold f; lia]|].
        apply Z.le_trans with (2 ^ 53 * 2 ^ 896); [apply Z.mul_le_mono_nonneg_l; [lia|]; apply Z.pow_le_mono_r; lia|]. unfold overflow_bound. vm_compute. discriminate. }
      rewrite O. exists (0 + f / 2 ^ (926 - e)), (0 + round_shift f (926 - e)). pose proof (round_shift_cases f (926 - e) K ltac:(unfold f; lia)) as C. cbv zeta in C.
      split; [f_equal; lia|]. split; [lia|]. apply rounds_shift with (j := e - 1); try lia; [|reflexivity].
      intros q Hq. rewrite Z.add_0_l, mag32_subnormal by lia. rewrite <- Z.mul_assoc, <- Z.pow_add_r by lia. f_equal. f_equal. lia.
Qed.

(** ** C07 *)
Lemma value64_parts s T : s = 0 \/ s = 1 -> 0 <= T < 2 ^ 63 -> value64 (s * 2 ^ 63 + T) = (1 - 2 * s) * mag64 T.
Proof. intros [->| ->] H; unfold value64; (match goal with |- context [?a <? ?b] => destruct (Z.ltb_spec a b) end; try lia). - replace (0 * 2 ^ 63 + T) with T by lia. lia. - replace (1 * 2 ^ 63 + T - 2 ^ 63) with T by lia. lia. Qed.
Lemma value32_parts s t : s = 0 \/ s = 1 -> 0 <= t < 2 ^ 31 -> value32 (s * 2 ^ 31 + t) = (1 - 2 * s) * mag32 t.
Proof. intros [->| ->] H; unfold value32; (match goal with |- context [?a <? ?b] => destruct (Z.ltb_spec a b) end; try lia). - replace (0 * 2 ^ 31 + t) with t by lia. lia. - replace (1 * 2 ^ 31 + t - 2 ^ 31) with t by lia. lia. Qed.
Lemma finite64_parts d : finite64 d -> exists s T, (s = 0 \/ s = 1) /\ 0 <= T < 2047 * 2 ^ 52 /\ d = s * 2 ^ 63 + T.
Proof.
  intros [H E]. exists (d / 2 ^ 63), (d mod 2 ^ 63). pose proof (Z.div_mod d (2 ^ 63) ltac:(lia)) as D. pose proof (Z.mod_pos_bound d (2 ^ 63) ltac:(lia)) as B.
  set (s := d / 2 ^ 63) in *. set (T := d mod 2 ^ 63) in *. assert (s = 0 \/ s = 1) by lia. split; [assumption|]. split; [|lia]. split; [lia|].
  destruct (Z_lt_ge_dec T (2047 * 2 ^ 52)); [assumption|]. exfalso. apply E. rewrite D. replace (2 ^ 63 * s + T) with ((s * 2 ^ 11 + 2047) * 2 ^ 52 + (T - 2047 * 2 ^ 52)) by lia.
  rewrite Z.div_add_l by lia. rewrite Z.div_small by lia. rewrite Z.add_0_r, (Z.add_comm (s * 2 ^ 11)), Z.mod_add by lia. reflexivity.
Qed.
Lemma finite32_parts c : finite32 c <-> exists s t, (s = 0 \/ s = 1) /\ 0 <= t < 255 * 2 ^ 23 /\ c = s * 2 ^ 31 + t.
Proof.
  split.
  - intros [H E]. exists (c / 2 ^ 31), (c mod 2 ^ 31). pose proof (Z.div_mod c (2 ^ 31) ltac:(lia)) as D. pose proof (Z.mod_pos_bound c (2 ^ 31) ltac:(lia)) as B.
    set (s := c / 2 ^ 31) in *. set (t := c mod 2 ^ 31) in *. assert (s = 0 \/ s = 1) by lia. split; [assumption|]. split; [|lia]. split; [lia|].
    destruct (Z_lt_ge_dec t (255 * 2 ^ 23)); [assumption|]. exfalso. apply E. rewrite D. replace (2 ^ 31 * s + t) with ((s * 2 ^ 8 + 255) * 2 ^ 23 + (t - 255 * 2 ^ 23)) by lia.
    rewrite Z.div_add_l by lia. rewrite Z.div_small by lia. rewrite Z.add_0_r, (Z.add_comm (s * 2 ^ 8)), Z.mod_add by lia. reflexivity.
  - intros (s & t & Hs & Ht & ->). split; [lia|]. set (e := t / 2 ^ 23). pose proof (Z.div_mod t (2 ^ 23) ltac:(lia)) as D. pose proof (Z.mod_pos_bound t (2 ^ 23) ltac:(lia)) as B. fold e in D. set (m := t mod 2 ^ 23) in *. assert (0 <= e < 255) by lia.
    replace (s * 2 ^ 31 + t) with ((s * 2 ^ 8 + e) * 2 ^ 23 + m) by lia. rewrite Z.div_add_l by lia. rewrite Z.div_small by lia. rewrite Z.add_0_r, (Z.add_comm (s * 2 ^ 8)), Z.mod_add by lia. rewrite Z.mod_small by lia. lia.
Qed.

(** widening a finite single keeps its value *)
Lemma mag64_of e m : 1 <= e -> 0 <= m < 2 ^ 52 -> mag64 (e * 2 ^ 52 + m) = (m + 2 ^ 52) * 2 ^ (e - 1).
Proof. intros He Hm. rewrite mag64_parts by lia. destruct (Z.eqb_spec e 0); [lia|reflexivity]. Qed.
Lemma widen_value c : finite32 c -> finite64 (widen c) /\ value64 (widen c) = scaled32 c /\ (widen c <? 2 ^ 63) = (c <? 2 ^ 31).
Proof.
  intros F. pose proof F as G. apply finite32_parts in G. destruct G as (s & t & Hs & Ht & ->). unfold scaled32. rewrite value32_parts by lia.
  set (e := t / 2 ^ 23). set (m := t mod 2 ^ 23). pose proof (Z.div_mod t (2 ^ 23) ltac:(lia)) as D. pose proof (Z.mod_pos_bound t (2 ^ 23) ltac:(lia)) as B. fold e m in D, B. assert (He : 0 <= e < 255) by lia.
  assert (K : exists T, 0 <= T < 2047 * 2 ^ 52 /\ widen (s * 2 ^ 31 + t) = s * 2 ^ 63 + T /\ mag64 T = mag32 t * 2 ^ 925).
  { unfold widen. assert (X1 : (s * 2 ^ 31 + t) / 2 ^ 31 = s) by (rewrite Z.div_add_l by lia; rewrite Z.div_small by lia; lia).
    assert (X2 : ((s * 2 ^ 31 + t) / 2 ^ 23) mod 2 ^ 8 = e) by (replace (s * 2 ^ 31 + t) with ((s * 2 ^ 8 + e) * 2 ^ 23 + m) by lia; rewrite Z.div_add_l by lia; rewrite Z.div_small by lia; rewrite Z.add_0_r, (Z.add_comm (s * 2 ^ 8)), Z.mod_add by lia; apply Z.mod_small; lia).
    assert (X3 : (s * 2 ^ 31 + t) mod 2 ^ 23 = m) by (replace (s * 2 ^ 31 + t) with (m + (s * 2 ^ 8 + e) * 2 ^ 23) by lia; rewrite Z.mod_add by lia; apply Z.mod_small; lia).
    rewrite X1, X2, X3. cbv zeta. destruct (Z.eqb_spec e 255); [lia|]. destruct (Z.eqb_spec e 0) as [E|E].
    - assert (Et : mag32 t = m) by (replace t with m by lia; apply mag32_small; lia). rewrite Et. destruct (Z.eqb_spec m 0) as [->|M].
      + exists 0. repeat split; lia || reflexivity.
      + set (k := Z.log2 m). pose proof (Z.log2_spec m ltac:(lia)) as LS. fold k in LS. assert (Hk : 0 <= k) by apply Z.log2_nonneg. assert (Hk' : k < 23) by (apply Z.log2_lt_pow2; lia).
        replace (Z.succ k) with (k + 1) in LS by lia. rewrite Z.pow_add_r in LS by lia.
        assert (P : 2 ^ k * 2 ^ (52 - k) = 2 ^ 52) by (rewrite <- Z.pow_add_r by lia; f_equal; lia). assert (Pp : 0 < 2 ^ (52 - k)) by (apply Z.pow_pos_nonneg; lia).
        assert (R : 0 <= (m - 2 ^ k) * 2 ^ (52 - k) < 2 ^ 52) by (rewrite <- P; nia).
        exists ((k + 874) * 2 ^ 52 + (m - 2 ^ k) * 2 ^ (52 - k)). split; [lia|]. split; [lia|]. rewrite mag64_of by lia. replace ((m - 2 ^ k) * 2 ^ (52 - k) + 2 ^ 52) with (m * 2 ^ (52 - k)) by (rewrite <- P; ring).
        rewrite <- Z.mul_assoc, <- Z.pow_add_r by lia. f_equal. f_equal. lia.
    - exists ((e + 896) * 2 ^ 52 + m * 2 ^ 29). split; [lia|]. split; [lia|]. rewrite mag64_of by lia. replace t with (e * 2 ^ 23 + m) by lia. rewrite mag32_parts by lia.
      replace (m * 2 ^ 29 + 2 ^ 52) with ((m + 2 ^ 23) * 2 ^ 29) by lia. rewrite <- !Z.mul_assoc, <- !Z.pow_add_r by lia. f_equal. f_equal. lia. }
  destruct K as (T & HT & -> & MT). split; [|split].
  - split; [lia|]. set (e' := T / 2 ^ 52). pose proof (Z.div_mod T (2 ^ 52) ltac:(lia)) as D'. pose proof (Z.mod_pos_bound T (2 ^ 52) ltac:(lia)) as B'. fold e' in D'. set (m' := T mod 2 ^ 52) in *. assert (0 <= e' < 2047) by lia.
    replace (s * 2 ^ 63 + T) with ((s * 2 ^ 11 + e') * 2 ^ 52 + m') by lia. rewrite Z.div_add_l by lia. rewrite Z.div_small by lia. rewrite Z.add_0_r, (Z.add_comm (s * 2 ^ 11)), Z.mod_add by lia. rewrite Z.mod_small by lia. lia.
  - rewrite value64_parts by lia. rewrite MT. ring.
  - destruct Hs; subst s; repeat (match goal with |- context [?a <? ?b] => destruct (Z.ltb_spec a b) end); try reflexivity; lia.
Qed.

Lemma narrow_spec d : finite64 d ->
  if Z.abs (value64 d) <? overflow_bound then exists c, narrow d = Some c /\ finite32 c /\ (c <? 2 ^ 31) = (d <? 2 ^ 63) /\ nearest_even d c else narrow d = None.
Proof.
  intros F. destruct (finite64_parts d F) as (s & T & Hs & HT & ->). rewrite value64_parts by lia.
  assert (N : 0 <= mag64 T). { unfold mag64. cbv zeta. pose proof (Z.mod_pos_bound T (2 ^ 52) ltac:(lia)). destruct (Z.eqb_spec (T / 2 ^ 52) 0); [lia|]. apply Z.mul_nonneg_nonneg; [lia|]. apply Z.pow_nonneg. lia. }
  assert (A : Z.abs ((1 - 2 * s) * mag64 T) = mag64 T) by (destruct Hs; subst s; lia). rewrite A. pose proof (narrow_rounds s T Hs HT) as R. destruct (mag64 T <? overflow_bound); [|exact R].
  destruct R as (t0 & t & E & Ht & R). exists (s * 2 ^ 31 + t). split; [exact E|]. split; [apply finite32_parts; exists s, t; split; [assumption|]; split; [assumption|reflexivity]|]. split.
  { destruct Hs; subst s; repeat (match goal with |- context [?a <? ?b] => destruct (Z.ltb_spec a b) end); try reflexivity; lia. }
  intros c' F'. apply finite32_parts in F'. destruct F' as (s' & u & Hs' & Hu & ->). unfold scaled32. rewrite !value32_parts, value64_parts by lia.
  pose proof (rounds_nearest t0 (mag64 T) t R N u ltac:(lia)) as Q. cbv zeta in Q. destruct Q as (Q1 & Q2 & Q3 & Q4). set (S := 2 ^ 925) in *. clearbody S.
  assert (Ev : Z.even (s * 2 ^ 31 + t) = Z.even t) by (rewrite Z.even_add, Z.even_mul; cbn [Z.even Z.pow]; rewrite orb_true_r; now destruct (Z.even t)). rewrite Ev.
  clear E R A. destruct Hs as [->| ->], Hs' as [->| ->].
  - split; [lia|]. intros X. destruct Q3 as [->|]; [lia|left; reflexivity|right; assumption].
  - split; [lia|]. intros X. destruct Q4 as [Y|]; [lia|left; lia|right; assumption].
  - split; [lia|]. intros X. destruct Q4 as [Y|]; [lia|left; lia|right; assumption].
  - split; [lia|]. intros X. destruct Q3 as [->|]; [lia|left; reflexivity|right; assumption].
Qed.

(** A finite double d is written as the nearest single and read back as that value (with the sign of d, also for zero); only when |d| reaches
    2^128 - 2^103 the writer raises OverflowError, and then nothing has been written. *)
Theorem C07_narrowing n w r d s : (2 <= n)%nat -> In (w, r) single_pairs -> finite64 d ->
  (Z.abs (value64 d) < overflow_bound ->
     exists c bs, finite32 c /\ nearest_even d c /\ length bs = 4%nat /\ wr n w (VFloat d) s = (Ok VNone, appended s bs) /\
       exists d', (forall s' rest, irest s' = bs ++ rest -> rd n r s' = (Ok (VFloat d'), unread s' rest)) /\
         finite64 d' /\ value64 d' = scaled32 c /\ (d' <? 2 ^ 63) = (d <? 2 ^ 63)) /\
  (overflow_bound <= Z.abs (value64 d) -> wr n w (VFloat d) s = (Exc OverflowError, s)).
Proof.
  intros Hn Hp F. assert (wprim w = Some PF32 /\ rprim r = Some PF32) as [Hw Hr] by (destruct Hp as [[= <- <-]|[[= <- <-]|[]]]; split; reflexivity).
  pose proof (narrow_spec d F) as K. split; intros B.
  - rewrite (proj2 (Z.ltb_lt _ _) B) in K. destruct K as (c & E & Fc & Sg & Nr). exists c, (be 4 c). split; [exact Fc|]. split; [exact Nr|]. split; [apply be_length|]. split.
    + rewrite (wr_prim w _ n (VFloat d) (WFloat d) s Hw eq_refl Hn). cbn [enc_prim]. now rewrite E.
    + exists (widen c). destruct (widen_value c Fc) as (W1 & W2 & W3). split; [|split; [exact W1|split; [exact W2|now rewrite W3]]].
      intros s' rest E'. rewrite (rd_prim r _ n s' Hr Hn), E', dec_val_app by apply be_length. cbn [dec_prim vof]. rewrite be_val_be. destruct Fc as [Rc _].
      change (256 ^ Z.of_nat 4) with (2 ^ 32). now rewrite Z.mod_small by exact Rc.
  - assert (X : (Z.abs (value64 d) <? overflow_bound) = false) by (apply Z.ltb_ge; exact B). rewrite X in K.
    rewrite (wr_prim w _ n (VFloat d) (WFloat d) s Hw eq_refl Hn). cbn [enc_prim]. now rewrite K.
Qed.
(** a double that is not a single: 0.1; and the largest double *)
Example C07_case : finite64 4591870180066957722 /\ Z.abs (value64 4591870180066957722) < overflow_bound /\ finite64 9218868437227405311 /\ overflow_bound <= Z.abs (value64 9218868437227405311).
Proof. repeat split; vm_compute; congruence. Qed.
(** the singles with equal value are equal patterns, except for the two zeros: so the nearest single is unique *)
Theorem C07_unique d c c' : finite32 c -> finite32 c' -> nearest_even d c -> nearest_even d c' -> value32 c = value32 c'.
Proof.
  intros F F' N N'. destruct (N c' F') as [A1 A2]. destruct (N' c F) as [B1 B2]. assert (Q : Z.abs (scaled32 c - value64 d) = Z.abs (scaled32 c' - value64 d)) by lia.
  destruct (A2 Q) as [E|E]; [lia|]. destruct (B2 (eq_sym Q)) as [E'|E']; [lia|].
  (* both even: they cannot be the two neighbours of d; the single between them would be nearer *)
  destruct (Z.eq_dec (value32 c) (value32 c')) as [|NE]; [assumption|]. exfalso.
  assert (P : 0 < 2 ^ 925) by (apply Z.pow_pos_nonneg; lia).
  assert (MID : exists u, finite32 u /\ (value32 c < value32 u < value32 c' \/ value32 c' < value32 u < value32 c)).
  { apply finite32_parts in F, F'. destruct F as (s & t & Hs & Ht & ->). destruct F' as (s' & t' & Hs' & Ht' & ->). rewrite !value32_parts in * by lia.
    assert (Ev : Z.even t = true) by (rewrite Z.even_add, Z.even_mul, orb_true_r in E; now destruct (Z.even t)). assert (Ev' : Z.even t' = true) by (rewrite Z.even_add, Z.even_mul, orb_true_r in E'; now destruct (Z.even t')).
    apply Z.even_spec in Ev, Ev'. destruct Ev as [k Hk]. destruct Ev' as [k' Hk'].
    assert (FIN : forall s0 x, s0 = 0 \/ s0 = 1 -> 0 <= x < 255 * 2 ^ 23 -> finite32 (s0 * 2 ^ 31 + x) /\ value32 (s0 * 2 ^ 31 + x) = (1 - 2 * s0) * mag32 x) by (intros s0 x Hs0 Hx; split; [apply finite32_parts; exists s0, x; auto|apply value32_parts; lia]).
    assert (LT : forall x y, 0 <= x < y -> mag32 x < mag32 y) by (intros x y H; apply Z.lt_le_trans with (mag32 (x + 1)); [apply mag32_next; lia|apply mag32_mono; lia]).
    destruct (Z.eq_dec s s') as [->|SN].
    - assert (t <> t') by (intros ->; lia). destruct (Z_lt_ge_dec t t') as [L|L].
      + destruct (FIN s' (t + 1) Hs' ltac:(lia)) as [G V]. exists (s' * 2 ^ 31 + (t + 1)). split; [exact G|]. rewrite V. pose proof (LT t (t + 1) ltac:(lia)). pose proof (LT (t + 1) t' ltac:(lia)). destruct Hs'; subst s'; lia.
      + destruct (FIN s' (t' + 1) Hs' ltac:(lia)) as [G V]. exists (s' * 2 ^ 31 + (t' + 1)). split; [exact G|]. rewrite V. pose proof (LT t' (t' + 1) ltac:(lia)). pose proof (LT (t' + 1) t ltac:(lia)). destruct Hs'; subst s'; lia.
    - destruct (Z.eq_dec t 0) as [T0|T0]; [|destruct (Z.eq_dec t' 0) as [T0'|T0']].
      + rewrite T0 in NE |- *. change (mag32 0) with 0 in *. assert (t' <> 0) by (intros Z0; rewrite Z0 in NE; change (mag32 0) with 0 in NE; lia). destruct (FIN s' 1 Hs' ltac:(lia)) as [G V]. exists (s' * 2 ^ 31 + 1). split; [exact G|]. rewrite V. pose proof (LT 1 t' ltac:(lia)). change (mag32 1) with 1 in *. destruct Hs'; subst s'; lia.
      + rewrite T0' in NE |- *. change (mag32 0) with 0 in *. destruct (FIN s 1 Hs ltac:(lia)) as [G V]. exists (s * 2 ^ 31 + 1). split; [exact G|]. rewrite V. pose proof (LT 1 t ltac:(lia)). change (mag32 1) with 1 in *. destruct Hs; subst s; lia.
      + exists (0 * 2 ^ 31 + 0). destruct (FIN 0 0 ltac:(lia) ltac:(lia)) as [G V]. split; [exact G|]. rewrite V. change (mag32 0) with 0. pose proof (LT 0 t ltac:(lia)). pose proof (LT 0 t' ltac:(lia)). change (mag32 0) with 0 in *. destruct Hs, Hs'; subst s s'; lia. }
  destruct MID as (u & Fu & Hu). destruct (N u Fu) as [C _]. unfold scaled32 in *. set (S := 2 ^ 925) in *. clearbody S.
  destruct Hu as [[H1 H2]|[H1 H2]]; apply (Z.mul_lt_mono_pos_r S) in H1, H2; try exact P; lia.
Qed.

Definition all_PropFloat := (C07_narrowing, C07_unique).
Print Assumptions all_PropFloat.
