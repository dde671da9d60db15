(** * C65: what serialize accepts comes back (opendis/dis7.py, all serialize and parse methods with a common layout)

    No hypothesis on the values here: they may be of any type and size. *)
From Coq Require Import ZArith String List Bool Lia.
From Coq Require Import Strings.Byte.
From Verif Require Import Lang Bytes Interp ProgDis Prog Spec Codec Codec2 Rep Dec StreamLem SerSound ParSound NewSound Layouts Refine Api Classes PropCodec PropFactory.
Import ListNotations.
Open Scope string_scope. Open Scope Z_scope. Open Scope list_scope.

(** ** Specification *)
(** the values a scalar field takes: integers in range, booleans as 0 and 1, floats that do not overflow, integers as floats *)
Definition takes (p : prim) (x : wv) : Prop :=
  match p with
  | PInt n sg => exists z, wint x = Some z /\ lo n sg <= z < hi n sg
  | PF64 => (exists b, x = WFloat b) \/ (exists z b, wint x = Some z /\ of_int z = Some b)
  | PF32 => (exists b c, x = WFloat b /\ narrow b = Some c) \/ (exists z b c, wint x = Some z /\ of_int z = Some b /\ narrow b = Some c)
  end.
(** what the reader gets: the same integer, the same 64-bit float, or the float rounded to 32 bits ([narrow] is characterised by C07, [widen] by C06) *)
Definition gives (p : prim) (x y : wv) : Prop :=
  match p with
  | PInt n sg => exists z, wint x = Some z /\ y = WInt z
  | PF64 => exists b, (x = WFloat b \/ exists z, wint x = Some z /\ of_int z = Some b) /\ y = WFloat (b mod 2 ^ 64)
  | PF32 => exists b c, (x = WFloat b \/ exists z, wint x = Some z /\ of_int z = Some b) /\ narrow b = Some c /\ y = WFloat (widen (c mod 2 ^ 32))
  end.

(** the attributes of a record that its serialize accepts *)
Fixpoint accepts (f : fmt) (W : flds) : Prop :=
  match f with
  | Done => True
  | Prim a p k => (exists x, field a W = Some x /\ takes p x) /\ accepts k W
  | Obj a _ sub k => (exists w, field a W = Some (WObj w) /\ accepts sub w) /\ accepts k W
  | Cnt a p m k => (exists l, field a W = Some (WList l) /\ takes p (WInt (Z.of_nat (length l) * m))) /\ accepts k W
  | PList a p k => (exists l, field a W = Some (WList l) /\ Forall (takes p) l) /\ accepts k W
  | OList a _ sub k => (exists l, field a W = Some (WList l) /\ Forall (fun x => accepts sub (as_obj x)) l) /\ accepts k W
  | Arr a p n k => (exists l, field a W = Some (WList l) /\ (n <= length l)%nat /\ Forall (takes p) (firstn n l)) /\ accepts k W
  | Zero _ k | Derive _ _ _ k => accepts k W
  | Mask a _ k => (exists x z, field a W = Some x /\ wint x = Some z) /\ accepts k W
  | VList a p b dv k => (exists l y z, field a W = Some (WList l) /\ field b W = Some y /\ wint y = Some z /\ (Z.to_nat (z / dv) <= length l)%nat /\
                           Forall (takes p) (firstn (Z.to_nat (z / dv)) l)) /\ accepts k W
  | Pad b k => (exists y z, field b W = Some y /\ wint y = Some z) /\ accepts k W
  | Bits bf k => (forall b a, In b bf -> bf_attr b = Some a -> exists x z, field a W = Some x /\ wint x = Some z) /\ accepts k W
  | NullL a k => field a W = Some (WList []) /\ accepts k W
  end.

(** what the reader has for a record W *)
Fixpoint comes_back (f : fmt) (W V : flds) : Prop :=
  match f with
  | Done => True
  | Prim a p k => (exists x y, field a W = Some x /\ field a V = Some y /\ gives p x y) /\ comes_back k W V
  | Obj a _ sub k => (exists w v, field a W = Some (WObj w) /\ field a V = Some (WObj v) /\ map fst v = names sub /\ comes_back sub w v) /\ comes_back k W V
  | Cnt _ _ _ k | Zero _ k | Pad _ k | Derive _ _ _ k => comes_back k W V
  | PList a p k => (exists l m, field a W = Some (WList l) /\ field a V = Some (WList m) /\ Forall2 (gives p) l m) /\ comes_back k W V
  | OList a _ sub k => (exists l m, field a W = Some (WList l) /\ field a V = Some (WList (map WObj m)) /\ Forall2 (fun x v => map fst v = names sub /\ comes_back sub (as_obj x) v) l m) /\ comes_back k W V
  | Arr a p n k => (exists l m, field a W = Some (WList l) /\ field a V = Some (WList m) /\ Forall2 (gives p) (firstn n l) m) /\ comes_back k W V
  | Mask a _ k => (exists x z, field a W = Some x /\ wint x = Some z /\ field a V = Some (WInt (z mod 2))) /\ comes_back k W V
  | VList a p b dv k => (exists l m y z, field a W = Some (WList l) /\ field a V = Some (WList m) /\ field b W = Some y /\ wint y = Some z /\
                           Forall2 (gives p) (firstn (Z.to_nat (z / dv)) l) m) /\ comes_back k W V
  | Bits bf k => (forall b a, In b bf -> bf_attr b = Some a -> exists x z, field a W = Some x /\ wint x = Some z /\
                    field a V = Some (if bf_flag b then WBool (negb (z mod 2 =? 0)) else WInt (z mod 2 ^ bf_width b))) /\ comes_back k W V
  | NullL a k => field a V = Some (WList []) /\ comes_back k W V
  end.

(** ** Proofs *)
Lemma takes_enc p x : takes p x <-> exists bs, enc_val p x = (bs, None).
Proof.
  unfold enc_val, fail. destruct p as [n sg| |]; cbn [takes enc_prim].
  - destruct (wint x) as [z|]; [|split; [intros (z & A & _)|intros (bs & A)]; discriminate].
    destruct ((lo n sg <=? z) && (z <? hi n sg)) eqn:E; split.
    + intros _. eexists. reflexivity.
    + intros _. exists z. split; [reflexivity|]. apply andb_prop in E as [E1 E2]. lia.
    + intros (z' & [= <-] & H). apply andb_false_iff in E. lia.
    + intros (bs & A). discriminate.
  - split.
    + intros [(b & c & -> & ->)|(z & b & c & A & B & C)]; [eexists; reflexivity|]. destruct x; try discriminate; rewrite A, B, C; eexists; reflexivity.
    + intros (bs & A). destruct x; cbn [wint] in *; try discriminate;
        repeat match type of A with context [of_int ?t] => destruct (of_int t) eqn:?; try discriminate | context [narrow ?t] => destruct (narrow t) eqn:?; try discriminate end; eauto 10.
  - split.
    + intros [(b & ->)|(z & b & A & B)]; [eexists; reflexivity|]. destruct x; try discriminate; rewrite A, B; eexists; reflexivity.
    + intros (bs & A). destruct x; cbn [wint] in *; try discriminate;
        repeat match type of A with context [of_int ?t] => destruct (of_int t) eqn:?; try discriminate | context [narrow ?t] => destruct (narrow t) eqn:?; try discriminate end; eauto 10.
Qed.

Lemma gives_norm p x bs : wf_prim p = true -> enc_val p x = (bs, None) -> gives p x (norm_prim p x).
Proof.
  intros Hp E. pose proof E as E0. unfold enc_val, fail in E. destruct p as [n sg| |]; cbn [gives enc_prim] in *.
  - destruct (wint x) as [z|] eqn:Ew; [|discriminate]. exists z. split; [reflexivity|]. exact (norm_int n sg x z bs (wf_pos _ _ Hp) Ew E0).
  - unfold norm_prim. cbn [enc_prim]. 
    assert (K : forall c, dec_prim PF32 (be 4 c) = WFloat (widen (c mod 2 ^ 32))) by (intros c; cbn [dec_prim]; now rewrite be_val_be).
    destruct x; cbn [wint] in *; try discriminate;
      repeat match goal with |- context [of_int ?t] => destruct (of_int t) eqn:?; try discriminate | |- context [narrow ?t] => destruct (narrow t) eqn:?; try discriminate end; rewrite K; eauto 12.
  - unfold norm_prim. cbn [enc_prim].
    assert (K : forall c, dec_prim PF64 (be 8 c) = WFloat (c mod 2 ^ 64)) by (intros c; cbn [dec_prim]; now rewrite be_val_be).
    destruct x; cbn [wint] in *; try discriminate;
      repeat match goal with |- context [of_int ?t] => destruct (of_int t) eqn:?; try discriminate | |- context [narrow ?t] => destruct (narrow t) eqn:?; try discriminate end; rewrite K; eauto 12.
Qed.

Lemma oseq_iff x y : (exists bs, oseq x y = (bs, None)) <-> (exists b, x = (b, None)) /\ (exists b, y = (b, None)).
Proof.
  split.
  - intros (bs & E). apply oseq_ok in E as (b1 & b2 & -> & -> & _). eauto.
  - intros ((b1 & ->) & (b2 & ->)). eexists. reflexivity.
Qed.
Lemma enc_list_iff {A} (e : A -> outcome) l : (exists bs, enc_list e l = (bs, None)) <-> Forall (fun x => exists bs, e x = (bs, None)) l.
Proof.
  induction l as [|x l IH]; cbn [enc_list].
  - split; [constructor|eexists; reflexivity].
  - rewrite oseq_iff, IH. split; [intros [H1 H2]; now constructor|intros H; inversion H; auto].
Qed.
Lemma enc_idx_iff e n : forall l, (exists bs, enc_idx e l n = (bs, None)) <-> (n <= length l)%nat /\ Forall (fun x => exists bs, e x = (bs, None)) (firstn n l).
Proof.
  induction n as [|n IH]; intros l; cbn [enc_idx firstn].
  - split; [intros _; split; [lia|constructor]|eexists; reflexivity].
  - destruct l as [|x l]; cbn [length].
    + split; [intros (bs & E); discriminate|intros [H _]; lia].
    + rewrite oseq_iff, IH. split; [intros (A & B & C); split; [lia|now constructor]|intros (A & B)]. inversion B; subst. split; [auto|]. split; [lia|auto].
Qed.
Lemma Forall_iff {A} (P Q : A -> Prop) l : (forall x, P x <-> Q x) -> Forall P l <-> Forall Q l.
Proof. intros H. split; intros F; eapply Forall_impl; try exact F; intros a Ha; now apply H. Qed.

Lemma enc_bits_iff bf W : (exists u, enc_bits bf W = Some u) <-> (forall b a, In b bf -> bf_attr b = Some a -> exists x z, field a W = Some x /\ wint x = Some z).
Proof.
  induction bf as [|b r IH]; cbn [enc_bits].
  - split; [intros _ b a []|eauto].
  - destruct (bf_attr b) as [a|] eqn:Ea.
    + split.
      * intros (u & E). destruct (field a W) as [x|] eqn:Ef; [|discriminate]. destruct (wint x) as [z|] eqn:Ew; [|discriminate]. destruct (enc_bits r W) as [v|]; [|discriminate].
        intros b' a' [<-|Hb] Ha; [rewrite Ea in Ha; injection Ha as <-; eauto|]. now apply (proj1 IH (ex_intro _ v eq_refl) b' a').
      * intros H. destruct (H b a (or_introl eq_refl) Ea) as (x & z & -> & ->). destruct (proj2 IH) as (u & ->); [intros; eapply H; eauto; now right|eauto].
    + split.
      * intros (u & E). destruct (enc_bits r W) as [v|]; [|discriminate]. intros b' a' [<-|Hb] Ha; [congruence|]. now apply (proj1 IH (ex_intro _ v eq_refl) b' a').
      * intros H. destruct (proj2 IH) as (u & ->); [intros; eapply H; eauto; now right|eauto].
Qed.

Ltac both := let H := fresh in split; [intros H|intros H].

Lemma accepts_encode f : forall cs is W, wf_in cs is f = true -> accepts f W <-> exists bs, encode f W = (bs, None).
Proof.
  induction f as [|a p k IH|a c sub IHs k IH|a p m k IH|a p k IH|a c sub IHs k IH|a p n k IH|p k IH|a n k IH|a p b dv k IH|b k IH|a b d k IH|bf k IH|a k IH];
    intros cs is W Hwf; cbn [accepts encode wf_in] in *; rewrite ?andb_true_iff in Hwf.
  - split; [eexists; reflexivity|auto].
  - destruct Hwf as [_ Hk]. rewrite (IH _ _ W Hk). destruct (field a W) as [x|].
    + rewrite oseq_iff, <- takes_enc. split; [intros ((y & [= <-] & A) & B); auto|intros [A B]; eauto].
    + split; [intros ((y & A & _) & _); discriminate|intros (bs & A); discriminate].
  - destruct Hwf as [[_ Hs] Hk]. rewrite (IH _ _ W Hk). destruct (field a W) as [[]|];
      try (split; [intros ((y & A & _) & _); discriminate|intros (bs & A); discriminate]).
    rewrite oseq_iff, <- (IHs _ _ _ Hs). split; [intros ((y & [= <-] & A) & B); auto|intros [A B]; eauto].
  - destruct Hwf as [_ Hk]. rewrite (IH _ _ W Hk). destruct (field a W) as [[]|];
      try (split; [intros ((y & A & _) & _); discriminate|intros (bs & A); discriminate]).
    rewrite oseq_iff, <- takes_enc. split; [intros ((y & [= <-] & A) & B); auto|intros [A B]; eauto].
  - destruct Hwf as [_ Hk]. rewrite (IH _ _ W Hk). destruct (field a W) as [[]|];
      try (split; [intros ((y & A & _) & _); discriminate|intros (bs & A); discriminate]).
    rewrite oseq_iff, enc_list_iff, <- (Forall_iff (takes p)) by apply takes_enc. split; [intros ((y & [= <-] & A) & B); auto|intros [A B]; eauto].
  - destruct Hwf as [[[_ Hs] _] Hk]. rewrite (IH _ _ W Hk). destruct (field a W) as [[]|];
      try (split; [intros ((y & A & _) & _); discriminate|intros (bs & A); discriminate]).
    rewrite oseq_iff, enc_list_iff, <- (Forall_iff (fun x => accepts sub (as_obj x))) by (intros x; exact (IHs _ _ (as_obj x) Hs)).
    split; [intros ((y & [= <-] & A) & B); auto|intros [A B]; eauto].
  - destruct Hwf as [_ Hk]. rewrite (IH _ _ W Hk). destruct (field a W) as [[]|];
      try (split; [intros ((y & A & _) & _); discriminate|intros (bs & A); discriminate]).
    rewrite oseq_iff, enc_idx_iff, <- (Forall_iff (takes p)) by apply takes_enc. split; [intros ((y & [= <-] & A) & B); auto|intros [A B]; eauto].
  - destruct Hwf as [Hp Hk]. rewrite (IH _ _ W Hk), oseq_iff. split; [|tauto]. intros H. split; [|exact H]. apply takes_enc. destruct p as [n sg| |]; try discriminate. cbn [takes].
    apply Nat.ltb_lt in Hp. exists 0. split; [reflexivity|]. unfold lo, hi. assert (0 < 2 ^ (8 * Z.of_nat n - 1)) by (apply Z.pow_pos_nonneg; lia).
    assert (0 < 2 ^ (8 * Z.of_nat n)) by (apply Z.pow_pos_nonneg; lia). destruct sg; lia.
  - destruct Hwf as [Hp Hk]. rewrite (IH _ _ W Hk). destruct (field a W) as [x|]; [|split; [intros ((y & z & A & _) & _); discriminate|intros (bs & A); discriminate]].
    destruct (wint x) as [z|] eqn:Ew; [|unfold not_int, fail; split; [intros ((y & z & [= <-] & A) & _); congruence|intros (bs & A); discriminate]].
    rewrite oseq_iff. split; [intros (_ & B); split; [|exact B]|intros [_ B]; eauto]. apply takes_enc. cbn [takes wint]. eexists. split; [reflexivity|].
    apply Nat.ltb_lt in Hp. change 1 with (Z.ones 1). rewrite Z.land_ones by lia. change (2 ^ 1) with 2. pose proof (Z.mod_pos_bound z 2 ltac:(lia)). unfold lo, hi.
    assert (2 ^ 8 <= 2 ^ (8 * Z.of_nat n)) by (apply Z.pow_le_mono_r; lia). lia.
  - destruct Hwf as [_ Hk]. rewrite (IH _ _ W Hk). destruct (field a W) as [[]|];
      try (split; [intros ((l0 & y0 & z0 & A0 & _) & _); discriminate|intros (bs0 & A0); discriminate]).
    destruct (field b W) as [y|]; [|split; [intros ((l0 & y0 & z0 & _ & A0 & _) & _); discriminate|intros (bs0 & A0); discriminate]].
    destruct (wint y) as [z|] eqn:Ew; [|unfold not_int, fail; split; [intros ((l0 & y' & z0 & _ & [= <-] & A & _) & _); congruence|intros (bs & A); discriminate]].
    rewrite oseq_iff, enc_idx_iff, <- (Forall_iff (takes p)) by apply takes_enc.
    split; [intros ((l' & y' & z' & [= <-] & [= <-] & E' & A) & B)|intros [A B]; eauto 12]. rewrite Ew in E'. injection E' as <-. auto.
  - destruct Hwf as [_ Hk]. rewrite (IH _ _ W Hk). destruct (field b W) as [x|]; [|split; [intros ((y & z & A & _) & _); discriminate|intros (bs & A); discriminate]].
    destruct (wint x) as [z|] eqn:Ew; [|unfold not_int, fail; split; [intros ((y & z & [= <-] & A) & _); congruence|intros (bs & A); discriminate]].
    rewrite oseq_iff. split; [intros (_ & B); eauto|intros [_ B]; eauto].
  - discriminate.
  - destruct Hwf as [_ Hk]. rewrite (IH _ _ W Hk), <- enc_bits_iff. destruct (enc_bits bf W) as [u|].
    + rewrite oseq_iff. split; [intros (_ & B); eauto|intros [_ B]; eauto].
    + unfold fail. split; [intros ((u & A) & _); discriminate|intros (bs & A); discriminate].
  - destruct Hwf as [_ Hk]. rewrite (IH _ _ W Hk). destruct (field a W) as [[| | | | | |[|]|]|]; unfold fail; split; try (intros [A B]; (exact B || discriminate)); try (intros (bs & A); discriminate); auto.
Qed.

Lemma Forall2_gives p l : wf_prim p = true -> Forall (fun x => exists bs, enc_val p x = (bs, None)) l -> Forall2 (gives p) l (map (norm_prim p) l).
Proof. intros Hp F. induction F as [|x l (bs & E) F IH]; cbn [map]; constructor; [now apply gives_norm with bs|exact IH]. Qed.

Lemma bits_back bf W u : bits_wf bf = true -> enc_bits bf W = Some u -> NoDup (bnames bf) ->
  forall b a, In b bf -> bf_attr b = Some a -> exists x z, field a W = Some x /\ wint x = Some z /\
    field a (dec_bits bf u) = Some (if bf_flag b then WBool (negb (z mod 2 =? 0)) else WInt (z mod 2 ^ bf_width b)).
Proof.
  revert u. induction bf as [|c r IH]; intros u Hw E ND b a; [intros []|]. cbn [forallb enc_bits] in *. apply andb_prop in Hw as [Hc Hw].
  destruct (enc_bits r W) as [v|] eqn:Ev; [|destruct (match bf_attr c with Some _ => _ | None => _ end); discriminate].
  pose proof (bits_enc_range _ _ _ Hw Ev) as R. pose proof (bits_tot_nonneg _ Hw) as T. pose proof (bits_pos _ Hc) as Hp.
  assert (D : forall z, (z mod 2 ^ bf_width c * 2 ^ bits_tot r + v) / 2 ^ bits_tot r mod 2 ^ bf_width c = z mod 2 ^ bf_width c).
  { intros z. rewrite Z.div_add_l by lia. rewrite (Z.div_small v) by lia. rewrite Z.add_0_r. apply Z.mod_mod. apply Z.pow_nonzero; lia. }
  assert (P : forall z, dec_bits r (z mod 2 ^ bf_width c * 2 ^ bits_tot r + v) = dec_bits r v) by (intros z; now apply dec_bits_low).
  cbn [flat_map] in ND. destruct (bf_attr c) as [d|] eqn:Ed.
  - destruct (field d W) as [x|] eqn:Ef; [|discriminate]. destruct (wint x) as [z|] eqn:Ez; [|discriminate]. injection E as <-. cbn [dec_bits app] in *. rewrite Ed, P, D.
    inversion ND as [|? ? Hd ND']; subst. intros [<-|Hb] Ha.
    + rewrite Ed in Ha. injection Ha as <-. exists x, z. split; [exact Ef|]. split; [exact Ez|]. cbn [field]. rewrite String.eqb_refl.
      destruct (bf_flag c); [|reflexivity]. apply Z.eqb_eq in Hc. now rewrite Hc.
    + cbn [field]. destruct (String.eqb_spec a d) as [->|]; [|now apply IH]. exfalso. apply Hd. apply in_flat_map. exists b. rewrite Ha. cbn. auto.
  - assert (Eu : u = 0 mod 2 ^ bf_width c * 2 ^ bits_tot r + v) by congruence. rewrite Eu. cbn [dec_bits app] in *. rewrite Ed, P. intros [<-|Hb] Ha; [congruence|]. now apply IH.
Qed.

Lemma names_norm f : forall W, (exists bs, encode f W = (bs, None)) -> map fst (norm f W) = names f.
Proof.
  induction f as [|a p k IH|a c sub IHs k IH|a p m k IH|a p k IH|a c sub IHs k IH|a p n k IH|p k IH|a n k IH|a p b dv k IH|b k IH|a b d k IH|bf k IH|a k IH];
    intros W HE; cbn [encode norm names] in *; try reflexivity; try (now apply IH);
    repeat match type of HE with context [match ?x with _ => _ end] => destruct x eqn:?; try (destruct HE as (bs & HE); discriminate) end;
    try (apply oseq_iff in HE as [E1 E2]); cbn [map fst app]; rewrite ?map_app, ?bnames_dec, ?IH by assumption; try reflexivity.
Qed.

Lemma back f : forall cs is W V, wf_in cs is f = true -> NoDup (names f) -> (exists bs, encode f W = (bs, None)) ->
  (forall a, In a (names f) -> field a V = field a (norm f W)) -> comes_back f W V.
Proof.
  assert (C1 : forall (a : string) x (N k : flds) V ns, ~ In a ns -> (forall b, a = b \/ In b ns -> field b V = field b ((a, x) :: N)) ->
    field a V = Some x /\ (forall b, In b ns -> field b V = field b N)).
  { intros a x N _ V ns Hn H. split; [rewrite (H a) by auto; cbn [field]; now rewrite String.eqb_refl|]. intros b Hb. rewrite (H b) by auto. cbn [field].
    destruct (String.eqb_spec b a) as [->|]; [contradiction|reflexivity]. }
  induction f as [|a p k IH|a c sub IHs k IH|a p m k IH|a p k IH|a c sub IHs k IH|a p n k IH|p k IH|a n k IH|a p b dv k IH|b k IH|a b d k IH|bf k IH|a k IH];
    intros cs is W V Hwf ND HE HV; cbn [comes_back encode wf_in norm names] in *; rewrite ?andb_true_iff in Hwf.
  - exact I.
  - destruct Hwf as [Hp Hk]. inversion ND as [|? ? Ha NDk]; subst. destruct (field a W) as [x|]; [|destruct HE as (bs & HE); discriminate].
    apply oseq_iff in HE as [(b1 & E1) E2]. destruct (C1 _ _ _ W V _ Ha HV) as [F G]. split; [|now apply (IH _ _ W V Hk)]. exists x, (norm_prim p x). split; [reflexivity|]. split; [exact F|]. now apply gives_norm with b1.
  - destruct Hwf as [[Hn Hs] Hk]. inversion ND as [|? ? Ha NDk]; subst. destruct (field a W) as [[]|]; try (destruct HE as (bs & HE); discriminate).
    apply oseq_iff in HE as [E1 E2]. destruct (C1 _ _ _ W V _ Ha HV) as [F G]. split; [|now apply (IH _ _ W V Hk)]. eexists _, _. split; [reflexivity|]. split; [exact F|].
    split; [now apply names_norm|]. apply (IHs _ _ _ _ Hs); auto. now apply nodupb_NoDup.
  - destruct Hwf as [_ Hk]. destruct (field a W) as [[]|]; try (destruct HE as (bs & HE); discriminate). apply oseq_iff in HE as [E1 E2]. now apply (IH _ _ W V Hk).
  - destruct Hwf as [[Hp _] Hk]. inversion ND as [|? ? Ha NDk]; subst. destruct (field a W) as [[]|]; try (destruct HE as (bs & HE); discriminate).
    apply oseq_iff in HE as [E1 E2]. destruct (C1 _ _ _ W V _ Ha HV) as [F G]. split; [|now apply (IH _ _ W V Hk)]. eexists _, _. split; [reflexivity|]. split; [exact F|].
    apply Forall2_gives; [exact Hp|]. now apply enc_list_iff.
  - destruct Hwf as [[[Hn Hs] _] Hk]. inversion ND as [|? ? Ha NDk]; subst. destruct (field a W) as [[]|]; try (destruct HE as (bs & HE); discriminate).
    apply oseq_iff in HE as [E1 E2]. destruct (C1 _ _ _ W V _ Ha HV) as [F G]. split; [|now apply (IH _ _ W V Hk)]. eexists _, _. split; [reflexivity|]. split.
    { rewrite <- (map_map (fun x => norm sub (as_obj x)) WObj) in F. exact F. }
    apply enc_list_iff in E1. clear -E1 IHs Hs Hn. induction E1 as [|x l E E1 IH]; cbn [map]; constructor; [|exact IH]. split; [now apply names_norm|]. apply (IHs _ _ _ _ Hs); auto. now apply nodupb_NoDup.
  - destruct Hwf as [Hp Hk]. inversion ND as [|? ? Ha NDk]; subst. destruct (field a W) as [[]|]; try (destruct HE as (bs & HE); discriminate).
    apply oseq_iff in HE as [E1 E2]. destruct (C1 _ _ _ W V _ Ha HV) as [F G]. split; [|now apply (IH _ _ W V Hk)]. eexists _, _. split; [reflexivity|]. split; [exact F|].
    apply Forall2_gives; [exact Hp|]. now apply enc_idx_iff in E1.
  - destruct Hwf as [_ Hk]. apply oseq_iff in HE as [E1 E2]. now apply (IH _ _ W V Hk).
  - destruct Hwf as [_ Hk]. inversion ND as [|? ? Ha NDk]; subst. destruct (field a W) as [x|]; [|destruct HE as (bs & HE); discriminate].
    destruct (wint x) as [z|] eqn:Ez; [|destruct HE as (bs & HE); discriminate]. apply oseq_iff in HE as [E1 E2]. destruct (C1 _ _ _ W V _ Ha HV) as [F G]. split; [|now apply (IH _ _ W V Hk)].
    exists x, z. split; [reflexivity|]. split; [exact Ez|]. rewrite F. change 1 with (Z.ones 1). now rewrite Z.land_ones by lia.
  - destruct Hwf as [[[Hp _] _] Hk]. inversion ND as [|? ? Ha NDk]; subst. destruct (field a W) as [[]|]; try (destruct HE as (bs & HE); discriminate).
    destruct (field b W) as [y|]; [|destruct HE as (bs & HE); discriminate]. destruct (wint y) as [z|] eqn:Ez; [|destruct HE as (bs & HE); discriminate].
    apply oseq_iff in HE as [E1 E2]. destruct (C1 _ _ _ W V _ Ha HV) as [F G]. split; [|now apply (IH _ _ W V Hk)]. eexists _, _, y, z. split; [reflexivity|]. split; [exact F|]. split; [reflexivity|]. split; [exact Ez|].
    apply Forall2_gives; [exact Hp|]. now apply enc_idx_iff in E1.
  - destruct Hwf as [_ Hk]. destruct (field b W) as [y|]; [|destruct HE as (bs & HE); discriminate]. destruct (wint y) as [z|] eqn:Ez; [|destruct HE as (bs & HE); discriminate].
    apply oseq_iff in HE as [E1 E2]. now apply (IH _ _ W V Hk).
  - discriminate.
  - destruct Hwf as [[Hb _] Hk]. destruct (enc_bits bf W) as [u|] eqn:Eu; [|destruct HE as (bs & HE); discriminate]. apply oseq_iff in HE as [E1 E2].
    pose proof (bnames_dec bf u) as Hd.
    assert (ND1 : NoDup (bnames bf) /\ NoDup (names k) /\ forall a, In a (bnames bf) -> ~ In a (names k)).
    { clear -ND. induction (bnames bf) as [|a l IH]; cbn [app] in *; [split; [constructor|]; split; [exact ND|intros a []]|]. inversion ND as [|? ? H1 H2]; subst. destruct (IH H2) as (A & B & C).
      split; [constructor; [intros H; apply H1; apply in_or_app; auto|exact A]|]. split; [exact B|]. intros b [<-|H] K; [apply H1; apply in_or_app; auto|exact (C b H K)]. }
    destruct ND1 as (N1 & N2 & N3). split.
    + intros b a Hb' Ha. destruct (bits_back bf W u Hb Eu N1 b a Hb' Ha) as (x & z & A & B & C). exists x, z. split; [exact A|]. split; [exact B|].
      assert (Hi : In a (bnames bf)) by (apply in_flat_map; exists b; rewrite Ha; cbn; auto). rewrite HV by (apply in_or_app; auto). now rewrite field_app, C.
    + apply (IH _ _ W V Hk N2 E2). intros a Ha. rewrite HV by (apply in_or_app; auto). rewrite field_app. destruct (field a (dec_bits bf u)) eqn:Ef; [|reflexivity].
      exfalso. apply (N3 a); [|exact Ha]. rewrite <- Hd. apply field_In. eauto.
  - destruct Hwf as [_ Hk]. inversion ND as [|? ? Ha NDk]; subst. destruct (field a W) as [[| | | | | |[|]|]|]; try (destruct HE as (bs & HE); discriminate).
    destruct (C1 _ _ _ W V _ Ha HV) as [F G]. split; [exact F|]. now apply (IH _ _ W V Hk).
Qed.

(** ** C65 *)
(** serialize returns exactly when every attribute is acceptable; otherwise it raises *)
Theorem C65_accepts n c f s o W : (fuel_ok <= n)%nat -> layout c = Some f -> contents the_prog (heap s) c f o = Some W ->
  (accepts f W -> exists bs, serialize n o s = (Ok VNone, appended s bs)) /\ (~ accepts f W -> exists e, fst (serialize n o s) = Exc e).
Proof.
  intros Hn L HW. pose proof (layout_wf _ _ L) as Hf. apply andb_true_iff in Hf as [_ Hf]. rewrite (accepts_encode f _ _ W Hf), (ser_layout n c f o s W Hn L HW).
  destruct (encode f W) as [b [e|]]; cbn [fst snd]; split; eauto; [intros (bs & A); discriminate|intros H; exfalso; apply H; eauto].
Qed.

(** and then the reader, whatever follows the bytes, gets these values *)
Theorem C65_comes_back n c f s o W bs : (fuel_ok <= n)%nat -> layout c = Some f -> contents the_prog (heap s) c f o = Some W -> serialize n o s = (Ok VNone, appended s bs) ->
  forall s' rest, irest s' = bs ++ rest -> exists o' s'' V, load the_prog n c s' = (Ok o', s'') /\ contents the_prog (heap s'') c f o' = Some V /\ irest s'' = rest /\ comes_back f W V.
Proof.
  intros Hn L HW E s' rest Hi. pose proof (layout_wf _ _ L) as Hf. rewrite (ser_layout n c f o s W Hn L HW) in E. destruct (encode f W) as [b1 [e|]] eqn:Ee; cbn [fst snd] in E; [discriminate|].
  unfold appended in E. injection E as E. apply app_inv_head in E. subst b1. pose proof (load_layout n c f s' Hn L) as H. rewrite Hi, (decode_encode_top f W bs rest Hf Ee) in H.
  destruct H as (o' & s'' & A & B & _ & R & _). exists o', s'', (norm f W). split; [exact A|]. split; [exact B|]. split; [exact R|].
  apply andb_true_iff in Hf as [Hn' Hf]. apply (back f _ _ W (norm f W) Hf); eauto. now apply nodupb_NoDup.
Qed.

(** for a PDU whose type number createPdu knows, createPdu reads it *)
Theorem C65_created n c f s o W bs t : (fuel_ok <= n)%nat -> layout c = Some f -> is_pdu c = true -> contents the_prog (heap s) c f o = Some W ->
  field "pduType" W = Some (WInt t) -> zassoc t pdu_types = Some c -> serialize n o s = (Ok VNone, appended s bs) ->
  forall h rest, exists o' s' V, factory n h (bs ++ rest) = (Ok o', s') /\ contents the_prog (heap s') c f o' = Some V /\ irest s' = rest /\ comes_back f W V.
Proof.
  intros Hn L HP HW Ht Hz E h rest. rewrite <- types_ok in Hz. pose proof (C65_comes_back n c f s o W bs Hn L HW E) as K.
  rewrite (ser_layout n c f o s W Hn L HW) in E. destruct (encode f W) as [b1 [e|]] eqn:Ee; cbn [fst snd] in E; [discriminate|].
  unfold appended in E. injection E as E. apply app_inv_head in E. subst b1.
  destruct (third_byte c f W bs t HP (proj1 (layout_inv _ _ L)) Ee Ht) as (b & N & B).
  unfold factory, createPdu. rewrite (factory_spec n) by (unfold fuel_ok, need, G in Hn; lia). cbn [ifull heap out].
  rewrite nth_error_app1 by (apply nth_error_Some; congruence). rewrite N, B. unfold table. rewrite Hz. apply K. reflexivity.
Qed.

(** the layouts in which a value can be accepted and cut: arrays of fixed size, lists with a separate length, flags and bit fields *)
Fixpoint cuts (f : fmt) : bool :=
  match f with
  | Done => false
  | Arr _ _ _ _ | VList _ _ _ _ _ | Mask _ _ _ | Bits _ _ => true
  | Obj _ _ sub k | OList _ _ sub k => cuts sub || cuts k
  | Prim _ _ k | Cnt _ _ _ k | PList _ _ k | Zero _ k | Pad _ k | Derive _ _ _ k | NullL _ k => cuts k
  end.
Definition cutting : list string := Eval vm_compute in filter (fun c => match layout c with Some f => cuts f | None => false end) wire_classes.
Example cutting_is : cutting =
  ["NetId"; "BasicHaveQuickMP"; "DeadReckoningParameters"; "EntityMarking"; "DatumSpecification"; "IFFFundamentalParameterData"; "AggregateMarking"; "BeamStatus"; "VariableDatum";
   "ActionRequestPdu"; "ActionRequestReliablePdu"; "EntityStatePdu"; "ElectromagneticEmissionsPdu"; "EmissionSystemBeamRecord"; "EmissionSystemRecord"; "SetDataReliablePdu"; "EventReportPdu";
   "DataPdu"; "FastEntityStatePdu"; "DataReliablePdu"; "CommentPdu"; "CommentReliablePdu"; "SetDataPdu"; "ActionResponsePdu"; "EventReportReliablePdu"; "ActionResponseReliablePdu"].
Proof. reflexivity. Qed.

(** the other 133 classes cut nothing: [same W V] says, without reference to a layout, that the integers of V are those of W, its floats those of W, possibly rounded to 32 bits, its
    lists as long as those of W, and so on inside *)
Inductive same : wv -> wv -> Prop :=
| same_int x z : wint x = Some z -> same x (WInt z)
| same_double x b : x = WFloat b \/ (exists z, wint x = Some z /\ of_int z = Some b) -> same x (WFloat (b mod 2 ^ 64))
| same_single x b c : x = WFloat b \/ (exists z, wint x = Some z /\ of_int z = Some b) -> narrow b = Some c -> same x (WFloat (widen (c mod 2 ^ 32)))
| same_list l m : Forall2 same l m -> same (WList l) (WList m)
| same_obj x v : (forall a y, field a v = Some y -> exists u, field a (as_obj x) = Some u /\ same u y) -> same x (WObj v).

Lemma gives_same p x y : gives p x y -> same x y.
Proof.
  destruct p; cbn [gives].
  - intros (z & A & ->). now constructor.
  - intros (b & c & A & B & ->). now apply same_single with b.
  - intros (b & A & ->). now constructor.
Qed.

Lemma back_same f : forall W V, cuts f = false -> comes_back f W V -> accepts f W ->
  forall a y, In a (names f) -> field a V = Some y -> exists x, field a W = Some x /\ same x y.
Proof.
  assert (C : forall a W V g (P : Prop), (exists x y, field a W = Some x /\ field a V = Some y /\ same x y) ->
    (forall b y, In b (names g) -> field b V = Some y -> exists x, field b W = Some x /\ same x y) ->
    forall b y, a = b \/ In b (names g) -> field b V = Some y -> exists x, field b W = Some x /\ same x y).
  { intros a W V g _ (x & y & A & B & D) H b y' [<-|Hb] Hy; [|now apply H]. exists x. split; [exact A|]. congruence. }
  induction f as [|a p k IH|a c sub IHs k IH|a p m k IH|a p k IH|a c sub IHs k IH|a p n k IH|p k IH|a n k IH|a p b dv k IH|b k IH|a b d k IH|bf k IH|a k IH];
    intros W V HC HB HA; cbn [cuts comes_back accepts names] in *; try discriminate.
  - intros a y [].
  - destruct HB as [(x & y & A & B & D) HB], HA as [_ HA]. apply (C _ _ _ _ True); [|now apply IH]. exists x, y. eauto using gives_same.
  - apply orb_false_iff in HC as [HC1 HC2]. destruct HB as [(w & v & A & B & N & D) HB], HA as [(w' & A' & HA') HA]. rewrite A in A'. injection A' as <-. apply (C _ _ _ _ True); [|now apply IH].
    exists (WObj w), (WObj v). split; [exact A|]. split; [exact B|]. constructor. intros b y Hy. apply (IHs w v HC1 D HA' b y); [|exact Hy]. rewrite <- N. apply field_In. eauto.
  - destruct HA as [_ HA]. now apply IH.
  - destruct HB as [(l & m & A & B & D) HB], HA as [_ HA]. apply (C _ _ _ _ True); [|now apply IH]. exists (WList l), (WList m). split; [exact A|]. split; [exact B|]. constructor.
    clear -D. induction D; constructor; eauto using gives_same.
  - apply orb_false_iff in HC as [HC1 HC2]. destruct HB as [(l & m & A & B & D) HB], HA as [(l' & A' & HA') HA]. rewrite A in A'. injection A' as <-. apply (C _ _ _ _ True); [|now apply IH].
    exists (WList l), (WList (map WObj m)). split; [exact A|]. split; [exact B|]. constructor. clear -IHs HC1 D HA'.
    induction D as [|x v l m [N D] F IH]; cbn [map]; constructor; inversion HA'; subst; auto. constructor. intros a y Hy. apply (IHs (as_obj x) v HC1 D); auto. rewrite <- N. apply field_In. eauto.
  - now apply IH.
  - destruct HA as [_ HA]. now apply IH.
  - now apply IH.
  - destruct HB as [B HB], HA as [A HA]. apply (C _ _ _ _ True); [|now apply IH]. exists (WList []), (WList []). split; [exact A|]. split; [exact B|]. apply same_list. constructor.
Qed.

Theorem C65_same n c f s o W bs : (fuel_ok <= n)%nat -> layout c = Some f -> cuts f = false -> contents the_prog (heap s) c f o = Some W -> serialize n o s = (Ok VNone, appended s bs) ->
  forall s' rest, irest s' = bs ++ rest -> exists o' s'' V, load the_prog n c s' = (Ok o', s'') /\ contents the_prog (heap s'') c f o' = Some V /\ irest s'' = rest /\
    map fst V = names f /\ same (WObj W) (WObj V).
Proof.
  intros Hn L HC HW E s' rest Hi. pose proof (layout_wf _ _ L) as Hf. rewrite (ser_layout n c f o s W Hn L HW) in E. destruct (encode f W) as [b1 [e|]] eqn:Ee; cbn [fst snd] in E; [discriminate|].
  unfold appended in E. injection E as E. apply app_inv_head in E. subst b1. pose proof (load_layout n c f s' Hn L) as H. rewrite Hi, (decode_encode_top f W bs rest Hf Ee) in H.
  destruct H as (o' & s'' & A & B & _ & R & _). exists o', s'', (norm f W). split; [exact A|]. split; [exact B|]. split; [exact R|].
  pose proof (names_norm f W (ex_intro _ bs Ee)) as N. split; [exact N|]. apply andb_true_iff in Hf as [Hn' Hf]. constructor. intros a y Hy.
  apply (back_same f W (norm f W) HC); cbn [as_obj].
  - apply (back f _ _ W (norm f W) Hf); eauto. now apply nodupb_NoDup.
  - apply (accepts_encode f _ _ W Hf). eauto.
  - rewrite <- N. apply field_In. eauto.
  - exact Hy.
Qed.

(** ** Cases that meet the hypotheses *)
(** Vector3Float(1, 0.1, True): an int, a float that 32 bits do not hold, a bool *)
Definition odd_vector : res val * st := new the_prog 20 "Vector3Float" [VInt 1; VFloat 0x3FB999999999999A; VBool true] st0.
Example C65_same_case : exists o s f W bs, odd_vector = (Ok o, s) /\ layout "Vector3Float" = Some f /\ cuts f = false /\ contents the_prog (heap s) "Vector3Float" f o = Some W /\
  serialize 60 o s = (Ok VNone, appended s bs) /\ W = [("x", WInt 1); ("y", WFloat 0x3FB999999999999A); ("z", WBool true)] /\ bs = [x3f; x80; x00; x00; x3d; xcc; xcc; xcd; x3f; x80; x00; x00].
Proof. do 5 eexists. split; [vm_compute; reflexivity|]. split; [vm_compute; reflexivity|]. split; [reflexivity|]. split; [vm_compute; reflexivity|]. split; [vm_compute; reflexivity|]. split; reflexivity. Qed.

(** SimulationAddress(65536, 0) is not accepted *)
Definition big_address : res val * st := new the_prog 20 "SimulationAddress" [VInt 65536; VInt 0] st0.
Example C65_refused_case : exists o s f W, big_address = (Ok o, s) /\ layout "SimulationAddress" = Some f /\ contents the_prog (heap s) "SimulationAddress" f o = Some W /\ ~ accepts f W /\
  fst (serialize 60 o s) = Exc StructError.
Proof.
  do 4 eexists. split; [vm_compute; reflexivity|]. split; [vm_compute; reflexivity|]. split; [vm_compute; reflexivity|]. split; [|vm_compute; reflexivity].
  intros ((x & [= <-] & z & [= <-] & H) & _). change (hi 2 false) with 65536 in H. lia.
Qed.

(** where something can be cut it is: an entity marking with twelve characters is accepted, and comes back with eleven *)
Definition long_marking : res val * st :=
  bind (halloc (HList (map VInt [1; 2; 3; 4; 5; 6; 7; 8; 9; 10; 11; 12]))) (fun l => new the_prog 20 "EntityMarking" [VInt 1; l]) st0.
Theorem C65_cut_refuted : exists o s f W bs o' s' V, long_marking = (Ok o, s) /\ layout "EntityMarking" = Some f /\ contents the_prog (heap s) "EntityMarking" f o = Some W /\
  serialize 60 o s = (Ok VNone, appended s bs) /\ load the_prog 60 "EntityMarking" (mkst [] bs bs []) = (Ok o', s') /\ contents the_prog (heap s') "EntityMarking" f o' = Some V /\
  field "characters" W = Some (WList (map WInt [1; 2; 3; 4; 5; 6; 7; 8; 9; 10; 11; 12])) /\ field "characters" V = Some (WList (map WInt [1; 2; 3; 4; 5; 6; 7; 8; 9; 10; 11])).
Proof.
  do 4 eexists. exists [x01; x01; x02; x03; x04; x05; x06; x07; x08; x09; x0a; x0b]. do 3 eexists.
  split; [vm_compute; reflexivity|]. split; [vm_compute; reflexivity|]. split; [vm_compute; reflexivity|]. split; [vm_compute; reflexivity|]. split; [vm_compute; reflexivity|].
  split; [vm_compute; reflexivity|]. split; reflexivity.
Qed.

Definition all_PropAccept := (C65_accepts, C65_comes_back, C65_created, C65_same, C65_cut_refuted).
Print Assumptions all_PropAccept.
