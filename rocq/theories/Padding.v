(** * Re-encoding what was decoded has the length of what was read

    The number of bytes read along a layout is determined by the values read, although some bits are ignored. *)
From Coq Require Import ZArith String List Bool Lia.
From Coq Require Import Strings.Byte.
From Verif Require Import Lang Bytes Spec Codec Codec2.
Import ListNotations.
Open Scope string_scope. Open Scope Z_scope. Open Scope list_scope.

(** ** The number of bytes read is determined by the contents *)
Lemma dec_val_len p bs x r : dec_val p bs = DOk x r -> length bs = (width p + length r)%nat.
Proof. intros E. apply dec_val_inv in E as (c & -> & Hc & _). rewrite app_length. lia. Qed.

Lemma dec_vals_len p n : forall bs l r, dec_list (dec_val p) n bs = DOk l r -> length bs = (n * width p + length r)%nat.
Proof.
  induction n as [|n IH]; intros bs l r; cbn [dec_list].
  - intros [= <- <-]. reflexivity.
  - destruct (dec_val p bs) as [x r1|] eqn:E1; [|discriminate]. cbn [dbind]. destruct (dec_list (dec_val p) n r1) as [l2 r2|] eqn:E2; [|discriminate].
    intros [= <- <-]. apply dec_val_len in E1. apply IH in E2. lia.
Qed.

Definition same_ints (C D : counts) : Prop := forall b, count (CInt b) C = count (CInt b) D.

Lemma same_cadd a x C D : same_ints C D -> same_ints (cadd a x C) (cadd a x D).
Proof. intros H b. unfold cadd. destruct (wint x); [|apply H]. cbn [count key_eqb]. destruct (String.eqb b a); [reflexivity|apply H]. Qed.

Lemma same_len a z y C D : same_ints C D -> same_ints ((CLen a, z) :: C) ((CLen a, y) :: D).
Proof. intros H b. cbn [count key_eqb]. apply H. Qed.

Definition same_length_at (f : fmt) : Prop := forall C D bs cs W r t, same_ints C D ->
  decode f [] C bs = DOk W r -> decode f [] D cs = DOk W t -> (length bs + length t = length cs + length r)%nat.

Lemma dec_objs_len sub n : same_length_at sub -> forall bs cs l r t,
  dec_list (decode sub [] []) n bs = DOk l r -> dec_list (decode sub [] []) n cs = DOk l t -> (length bs + length t = length cs + length r)%nat.
Proof.
  intros H. induction n as [|n IH]; intros bs cs l r t; cbn [dec_list].
  - intros [= <- <-] [= <-]. lia.
  - destruct (decode sub [] [] bs) as [x r1|] eqn:E1; [|discriminate]. cbn [dbind]. destruct (dec_list _ n r1) as [l2 r2|] eqn:E2; [|discriminate].
    intros [= <- <-]. destruct (decode sub [] [] cs) as [y t1|] eqn:E3; [|discriminate]. cbn [dbind]. destruct (dec_list _ n t1) as [l4 t2|] eqn:E4; [|discriminate].
    cbn [dmap]. intros E. injection E as -> -> ->. assert (A := H [] [] _ _ _ _ _ (fun b => eq_refl) E1 E3). assert (B := IH _ _ _ _ _ E2 E4). lia.
Qed.

Lemma map_WObj_inj l m : map WObj l = map WObj m -> l = m.
Proof. revert m. induction l as [|x l IH]; destruct m as [|y m]; try discriminate; [reflexivity|]. simpl. intros [= -> E]. f_equal. auto. Qed.

Lemma dec_bits_app bf u v V V' : dec_bits bf u ++ V = dec_bits bf v ++ V' -> V = V'.
Proof.
  induction bf as [|b bf IH]; [auto|]. cbn [dec_bits]. destruct (bf_attr b); [|exact IH]. cbn [app]. intros [= _ E]. auto.
Qed.

Theorem decode_same_length f : same_length_at f.
Proof.
  unfold same_length_at.
  induction f as [|a p k IH|a c sub IHs k IH|a p m k IH|a p k IH|a c sub IHs k IH|a p n k IH|p k IH|a n k IH|a p b dv k IH|b k IH|a b d k IH|bf k IH|a k IH];
    intros C D bs cs W r t S; cbn [decode].
  - intros [= <- <-] [= <-]. lia.
  - destruct (dec_val p bs) as [x r1|] eqn:E1; [|discriminate]. cbn [dbind]. destruct (decode k _ _ r1) as [V r2|] eqn:E2; [|discriminate]. intros [= <- <-].
    destruct (dec_val p cs) as [y t1|] eqn:E3; [|discriminate]. cbn [dbind]. destruct (decode k _ _ t1) as [V' t2|] eqn:E4; [|discriminate]. intros [= -> -> ->].
    apply dec_val_len in E1, E3. assert (A := IH _ _ _ _ _ _ _ (same_cadd a x _ _ S) E2 E4). lia.
  - destruct (decode sub _ _ bs) as [x r1|] eqn:E1; [|discriminate]. cbn [dbind]. destruct (decode k _ _ r1) as [V r2|] eqn:E2; [|discriminate]. intros [= <- <-].
    destruct (decode sub _ _ cs) as [y t1|] eqn:E3; [|discriminate]. cbn [dbind]. destruct (decode k _ _ t1) as [V' t2|] eqn:E4; [|discriminate]. intros [= -> -> ->].
    assert (A := IHs _ _ _ _ _ _ _ (fun b => eq_refl) E1 E3). assert (B := IH _ _ _ _ _ _ _ S E2 E4). lia.
  - destruct (dec_val p bs) as [x r1|] eqn:E1; [|discriminate]. cbn [dbind]. destruct (wint x) as [z|]; [|discriminate]. intros E2.
    destruct (dec_val p cs) as [y t1|] eqn:E3; [|discriminate]. cbn [dbind]. destruct (wint y) as [z'|]; [|discriminate]. intros E4.
    apply dec_val_len in E1, E3. assert (A := IH _ _ _ _ _ _ _ (same_len a _ _ _ _ S) E2 E4). lia.
  - destruct (count (CLen a) C) as [n|]; [|discriminate]. destruct (dec_list _ _ bs) as [l r1|] eqn:E1; [|discriminate]. cbn [dbind]. destruct (decode k _ _ r1) as [V r2|] eqn:E2; [|discriminate]. intros [= <- <-].
    destruct (count (CLen a) D) as [n'|]; [|discriminate]. destruct (dec_list _ _ cs) as [l' t1|] eqn:E3; [|discriminate]. cbn [dbind]. destruct (decode k _ _ t1) as [V' t2|] eqn:E4; [|discriminate]. intros [= -> -> ->].
    pose proof (dec_list_length _ _ _ _ _ E1). pose proof (dec_list_length _ _ _ _ _ E3). apply dec_vals_len in E1, E3. assert (A := IH _ _ _ _ _ _ _ S E2 E4). 
    assert (Z.to_nat n = Z.to_nat n') as Hn by congruence. rewrite Hn in E1. lia.
  - destruct (count (CLen a) C) as [n|]; [|discriminate]. destruct (dec_list _ _ bs) as [l r1|] eqn:E1; [|discriminate]. cbn [dbind]. destruct (decode k _ _ r1) as [V r2|] eqn:E2; [|discriminate]. intros [= <- <-].
    destruct (count (CLen a) D) as [n'|]; [|discriminate]. destruct (dec_list _ _ cs) as [l' t1|] eqn:E3; [|discriminate]. cbn [dbind]. destruct (decode k _ _ t1) as [V' t2|] eqn:E4; [|discriminate]. intros [= El -> ->].
    apply map_WObj_inj in El. subst l'.
    pose proof (dec_list_length _ _ _ _ _ E1) as L1. pose proof (dec_list_length _ _ _ _ _ E3) as L3. rewrite <- L1 in E1. rewrite <- L3 in E3.
    assert (B := dec_objs_len sub _ IHs _ _ _ _ _ E1 E3). assert (A := IH _ _ _ _ _ _ _ S E2 E4). lia.
  - destruct (dec_list _ _ bs) as [l r1|] eqn:E1; [|discriminate]. cbn [dbind]. destruct (decode k _ _ r1) as [V r2|] eqn:E2; [|discriminate]. intros [= <- <-].
    destruct (dec_list _ _ cs) as [l' t1|] eqn:E3; [|discriminate]. cbn [dbind]. destruct (decode k _ _ t1) as [V' t2|] eqn:E4; [|discriminate]. intros [= -> -> ->].
    apply dec_vals_len in E1, E3. assert (A := IH _ _ _ _ _ _ _ S E2 E4). lia.
  - destruct (dec_val p bs) as [x r1|] eqn:E1; [|discriminate]. cbn [dbind]. intros E2.
    destruct (dec_val p cs) as [y t1|] eqn:E3; [|discriminate]. cbn [dbind]. intros E4.
    apply dec_val_len in E1, E3. assert (A := IH _ _ _ _ _ _ _ S E2 E4). lia.
  - destruct (dec_val _ bs) as [x r1|] eqn:E1; [|discriminate]. cbn [dbind]. destruct (wint x) as [z|]; [|discriminate]. destruct (decode k _ _ r1) as [V r2|] eqn:E2; [|discriminate]. intros [= <- <-].
    destruct (dec_val _ cs) as [y t1|] eqn:E3; [|discriminate]. cbn [dbind]. destruct (wint y) as [z'|]; [|discriminate]. destruct (decode k _ _ t1) as [V' t2|] eqn:E4; [|discriminate]. intros [= _ -> ->].
    apply dec_val_len in E1, E3. assert (A := IH _ _ _ _ _ _ _ S E2 E4). lia.
  - rewrite <- (S b). destruct (count (CInt b) C) as [n|]; [|discriminate]. destruct (dec_list _ _ bs) as [l r1|] eqn:E1; [|discriminate]. cbn [dbind]. destruct (decode k _ _ r1) as [V r2|] eqn:E2; [|discriminate]. intros [= <- <-].
    destruct (dec_list _ _ cs) as [l' t1|] eqn:E3; [|discriminate]. cbn [dbind]. destruct (decode k _ _ t1) as [V' t2|] eqn:E4; [|discriminate]. intros [= -> -> ->].
    apply dec_vals_len in E1, E3. assert (A := IH _ _ _ _ _ _ _ S E2 E4). lia.
  - rewrite <- (S b). destruct (count (CInt b) C) as [n|]; [|discriminate]. destruct (dec_list _ _ bs) as [l r1|] eqn:E1; [|discriminate]. cbn [dbind]. intros E2.
    destruct (dec_list _ _ cs) as [l' t1|] eqn:E3; [|discriminate]. cbn [dbind]. intros E4.
    apply dec_vals_len in E1, E3. assert (A := IH _ _ _ _ _ _ _ S E2 E4). lia.
  - rewrite <- (S b). destruct (count (CInt b) C) as [n|]; [|discriminate]. intros E2 E4. exact (IH _ _ _ _ _ _ _ (same_len a _ _ _ _ S) E2 E4).
  - destruct (Nat.leb_spec (bits_bytes bf) (length bs)); [|discriminate]. destruct (Nat.leb_spec (bits_bytes bf) (length cs)); [|discriminate].
    destruct (decode k _ C _) as [V r2|] eqn:E2; [|discriminate]. intros [= <- <-]. destruct (decode k _ D _) as [V' t2|] eqn:E4; [|discriminate]. intros E. cbn [dmap] in E.
    assert (V' = V /\ t2 = t) as [-> ->] by (injection E as E -> ; split; [eapply dec_bits_app; exact E|reflexivity]).
    assert (A := IH _ _ _ _ _ _ _ S E2 E4). rewrite !skipn_length in A. lia.
  - destruct (count (CLen a) C) as [n|]; [|discriminate]. destruct (n <=? 0); [|discriminate]. destruct (count (CLen a) D) as [n'|]; [|discriminate]. destruct (n' <=? 0); [|discriminate].
    destruct (decode k _ C _) as [V r2|] eqn:E2; [|discriminate]. intros [= <- <-]. destruct (decode k _ D _) as [V' t2|] eqn:E4; [|discriminate]. intros [= -> ->].
    exact (IH _ _ _ _ _ _ _ S E2 E4).
Qed.
