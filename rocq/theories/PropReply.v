(** * C98: filling in a reply: copying several records from one object to another (opendis/dis7.py: every class's serialize) *)
From Coq Require Import ZArith String List Bool Lia Permutation.
From Coq Require Import Strings.Byte.
From Verif Require Import Lang Bytes Interp Shift Mono ProgBase ProgDis Prog Spec Codec Codec2 Rep Dec StreamLem SerSound ParSound ParStep ParClass NewSound Layouts Refine Api StreamApi Classes PropCodec CtorRun PropFactory PropOffsets Assign PropAssign Append PropAppend Rewrite PropRewrite Replace PropReplace Client PropClient PropTransfer.
Import ListNotations.
Open Scope string_scope. Open Scope Z_scope. Open Scope list_scope.

(** ** Specification *)
(** o.a1 = p.b1; o.a2 = p.b2; ... *)
Fixpoint copies (n : nat) (o p : val) (l : list (string * string)) : M unit :=
  match l with
  | [] => ret tt
  | (a, b) :: r => bind (getattr n p b) (fun v => bind (set_attr the_prog o a v) (fun _ => copies n o p r))
  end.
(** o.a and p.b are records of the same class: at offset k in what o serializes to, at offset k' in what p serializes to, of len bytes *)
Definition copyable (f f' : fmt) (x : string * string) (m : nat * nat * nat) : Prop :=
  let '(a, b) := x in let '(k, k', len) := m in
  exists dc e e', record_at f [] a = Some (dc, e, Some k) /\ record_at f' [] b = Some (dc, e', Some k') /\ fixed e = Some len.
(** bs with the bytes from offset k on overwritten by new *)
Definition splice (k : nat) (new bs : list byte) : list byte := firstn k bs ++ new ++ skipn (k + length new) bs.
Definition spliced (bs' : list byte) (bs : list byte) (m : nat * nat * nat) : list byte := let '(k, k', len) := m in splice k (slice k' len bs') bs.

(** ** Lemmas *)
Fixpoint objs_of (f : fmt) : list (string * string * fmt) :=
  match f with
  | Done => []
  | Obj a c sub k => (a, c, sub) :: objs_of k
  | Prim _ _ k | OList _ _ _ k | Cnt _ _ _ k | PList _ _ k | Arr _ _ _ k | Zero _ k | Mask _ _ k | VList _ _ _ _ k | Pad _ k | Derive _ _ _ k | Bits _ k | NullL _ k => objs_of k
  end.
Lemma objs_fapp f g : objs_of (fapp f g) = objs_of f ++ objs_of g.
Proof. induction f; cbn [fapp objs_of app]; congruence. Qed.
Lemma record_objs f a dc e off : record_at f [] a = Some (dc, e, off) -> In (a, dc, e) (objs_of f).
Proof.
  cbn [record_at]. destruct (find_spot a f) as [[[f1 j] f2]|] eqn:HF; [|discriminate]. destruct j; try discriminate. intros [= <- <- <-]. apply find_spot_inv in HF as (-> & _). rewrite objs_fapp. cbn [put_spot objs_of]. apply in_or_app. right. now left.
Qed.
(** the object of class c' with attributes ga holds the record x at the locations q *)
Definition owns (h : list hobj) (ga : string -> option val) (x : string * string * fmt) (q : list nat) : Prop :=
  let '(b, dc, e) := x in exists v w, ga b = Some v /\ elem_rep the_prog h dc e v (WObj w) q.
Lemma rep_objs f : forall h ga W fp, rep the_prog h f ga W fp -> exists qs rest, Forall2 (owns h ga) (objs_of f) qs /\ Permutation fp (rest ++ concat qs).
Proof.
  assert (KP : forall l (fp rest : list nat) q, Permutation fp (rest ++ q) -> Permutation (l ++ fp) ((l ++ rest) ++ q)) by (intros l fp rest q H; rewrite <- app_assoc; now apply Permutation_app_head).
  induction f as [|a p k IH|a c sub IHs k IH|a p m k IH|a p k IH|a c sub IHs k IH|a p n k IH|p k IH|a n k IH
                 |a p b dv k IH|b k IH|a b d k IH|bf k IH|a k IH]; intros h ga W fp HR; cbn [rep objs_of] in *;
    try (eapply IH; eauto; fail); try (eapply IH; exact (proj2 HR)).
  - subst fp. exists [], []. split; constructor.
  - destruct HR as (l & at_ & w & fp1 & fp2 & A & B & C & D & E & ->). destruct (IH _ _ _ _ E) as (qs & rest & F & P). exists ((l :: fp1) :: qs), rest. split.
    + constructor; [|exact F]. exists (VRef l), w. split; [exact A|]. exists l, at_, w, fp1. auto.
    + cbn [concat]. change (l :: fp1 ++ fp2) with ((l :: fp1) ++ fp2). transitivity ((l :: fp1) ++ rest ++ concat qs); [now apply Permutation_app_head|]. apply Permutation_app_swap_app.
  - destruct HR as (l & vs & ws & fp2 & _ & _ & _ & _ & E & ->). destruct (IH _ _ _ _ E) as (qs & rest & F & P). exists qs, ([l] ++ rest). split; [exact F|]. exact (KP [l] _ _ _ P).
  - destruct HR as (l & vs & ws & fps & fp2 & _ & _ & _ & _ & E & ->). destruct (IH _ _ _ _ E) as (qs & rest & F & P). exists qs, ((l :: concat fps) ++ rest). split; [exact F|]. exact (KP (l :: concat fps) _ _ _ P).
  - destruct HR as (l & vs & ws & fp2 & _ & _ & _ & _ & E & ->). destruct (IH _ _ _ _ E) as (qs & rest & F & P). exists qs, ([l] ++ rest). split; [exact F|]. exact (KP [l] _ _ _ P).
  - destruct HR as (l & vs & ws & fp2 & _ & _ & _ & _ & E & ->). destruct (IH _ _ _ _ E) as (qs & rest & F & P). exists qs, ([l] ++ rest). split; [exact F|]. exact (KP [l] _ _ _ P).
  - destruct HR as (l & fp2 & _ & _ & _ & E & ->). destruct (IH _ _ _ _ E) as (qs & rest & F & P). exists qs, ([l] ++ rest). split; [exact F|]. exact (KP [l] _ _ _ P).
Qed.
Lemma concat_apart {A} : forall (qs : list (list A)) i j q r, NoDup (concat qs) -> nth_error qs i = Some q -> nth_error qs j = Some r -> i <> j -> forall z, In z q -> ~ In z r.
Proof.
  induction qs as [|x qs IH]; intros i j q r N Hi Hj Hne z Hq Hr; [destruct i; discriminate|]. cbn [concat] in N. apply NoDup_app_parts in N as (_ & N & D).
  assert (K : forall k y, nth_error qs k = Some y -> In z y -> In z (concat qs)) by (intros k y Hk Hy; apply in_concat; exists y; split; [eapply nth_error_In; eauto|exact Hy]).
  destruct i as [|i], j as [|j]; cbn [nth_error] in *; [congruence| | |].
  - injection Hi as ->. exact (D z Hq (K _ _ Hj Hr)).
  - injection Hj as ->. exact (D z Hr (K _ _ Hi Hq)).
  - apply (IH i j q r N Hi Hj ltac:(congruence) z Hq Hr).
Qed.
Lemma F2_nth {A B} (R : A -> B -> Prop) : forall l m i x, Forall2 R l m -> nth_error l i = Some x -> exists y, nth_error m i = Some y /\ R x y.
Proof. intros l m i x F. revert i. induction F as [|a b l m H F IH]; intros [|i] E; cbn [nth_error] in *; try discriminate; [injection E as <-; eauto|eauto]. Qed.
Lemma splice_at (A X Y B : list byte) : length X = length Y -> splice (length A) Y (A ++ X ++ B) = A ++ Y ++ B.
Proof.
  intros E. unfold splice. rewrite firstn_app, firstn_all, Nat.sub_diag. cbn [firstn]. rewrite app_nil_r. do 2 f_equal. rewrite app_assoc, <- E, <- app_length. rewrite skipn_app, skipn_all, Nat.sub_diag. reflexivity.
Qed.
Lemma slice_at (A X B : list byte) : slice (length A) (length X) (A ++ X ++ B) = X.
Proof. unfold slice. rewrite skipn_app, skipn_all, Nat.sub_diag. cbn [skipn app]. rewrite firstn_app, firstn_all, Nat.sub_diag. cbn [firstn]. apply app_nil_r. Qed.

Lemma two_splices (bs X Y : list byte) : (24 <= length bs)%nat -> length X = 6%nat -> length Y = 6%nat -> splice 18 Y (splice 12 X bs) = firstn 12 bs ++ X ++ Y ++ skipn 24 bs.
Proof.
  intros K HX HY. unfold splice. rewrite HX, HY. cbn [Nat.add]. assert (L : length (firstn 12 bs) = 12%nat) by (rewrite firstn_length; lia). set (h := firstn 12 bs) in *.
  assert (E : length (h ++ X) = 18%nat) by (rewrite app_length; lia). rewrite (app_assoc h X (skipn 18 bs)), firstn_app, skipn_app, E, (firstn_all2 (n := 18) (h ++ X)), (skipn_all2 (n := 24) (h ++ X)) by lia. cbn [Nat.sub firstn app]. rewrite app_nil_r, <- app_assoc. do 3 f_equal.
  rewrite <- (firstn_skipn 18 bs) at 2. rewrite skipn_app, firstn_length, (skipn_all2 (n := 24) (firstn 18 bs)) by (rewrite firstn_length; lia). replace (Nat.min 18 (length bs)) with 18%nat by lia. reflexivity.
Qed.
Lemma record_len n c f o s a dc e k len bs : (fuel_ok <= n)%nat -> layout c = Some f -> unshared (heap s) c f o -> record_at f [] a = Some (dc, e, Some k) -> fixed e = Some len -> serialize n o s = (Ok VNone, appended s bs) -> (k + len <= length bs)%nat.
Proof.
  intros Hn L (W & HH) HT Hf HS. destruct (layout_inv _ _ L) as (L1 & _). unfold serialize in HS. rewrite (serialize_holds n c f o s W Hn L1 HH) in HS. destruct HH as (l & fp & at_ & -> & Hl & HR & _).
  assert (E : encode f W = (bs, None)).
  { destruct (encode f W) as [x [ex|]]; unfold oc, add_out, appended in HS; cbn [fst snd] in HS; [discriminate|]. apply (f_equal (fun r => out (snd r))) in HS. cbn [out snd] in HS. apply app_inv_head in HS. now subst x. }
  cbn [record_at] in HT. destruct (find_spot a f) as [[[f1 j] f2]|] eqn:HF; [|discriminate]. destruct j; try discriminate. injection HT as <- <- HT. apply find_spot_inv in HF as (-> & _). cbn [put_spot] in *. apply rep_fapp in HR as (q1 & q2 & R1 & R2 & _).
  cbn [rep] in R2. destruct R2 as (l' & at' & w & r1 & r2 & _ & _ & Fd & _). rewrite encode_fapp in E. cbn [encode] in E. rewrite Fd in E. apply oseq_ok in E as (b1 & b2 & E1 & E2 & ->). apply oseq_ok in E2 as (b3 & b4 & E3 & _ & ->).
  rewrite !app_length, (fixed_out _ _ _ _ HT E1), (fixed_out _ _ _ _ Hf E3). lia.
Qed.

Lemma copies_ind n c f c' f' l l' at' w' fp' bs' qs : (fuel_ok <= n)%nat -> layout c = Some f -> layout c' = Some f' -> encode f' w' = (bs', None) -> NoDup (l' :: fp') -> ~ In l (l' :: fp') -> NoDup (concat qs) -> incl (concat qs) fp' ->
  forall cs ms s at_ W fp bs, Forall2 (copyable f f') cs ms -> NoDup (map snd cs) ->
  nth_error (heap s) l = Some (HInst c at_) -> rep the_prog (heap s) f (getA the_prog c at_) W fp -> NoDup (l :: fp) -> encode f W = (bs, None) ->
  nth_error (heap s) l' = Some (HInst c' at') -> rep the_prog (heap s) f' (getA the_prog c' at') w' fp' -> Forall2 (owns (heap s) (getA the_prog c' at')) (objs_of f') qs ->
  (forall i b dc e q, In b (map snd cs) -> nth_error (objs_of f') i = Some (b, dc, e) -> nth_error qs i = Some q -> forall z, In z q -> ~ In z fp) ->
  exists s1 at1 W1 fp1, copies n (VRef l) (VRef l') cs s = (Ok tt, s1) /\ out s1 = out s /\ (forall z, z <> l -> nth_error (heap s1) z = nth_error (heap s) z) /\
    nth_error (heap s1) l = Some (HInst c at1) /\ rep the_prog (heap s1) f (getA the_prog c at1) W1 fp1 /\ NoDup (l :: fp1) /\ encode f W1 = (fold_left (spliced bs') ms bs, None).
Proof.
  intros Hn L L' HE' HN' Hll Nq Iq. induction cs as [|[a b] cs IH]; intros ms s at_ W fp bs F2 Nb Hl HR HN HE Hl' HR' HO HP.
  - inversion F2; subst. exists s, at_, W, fp. cbn [copies fold_left]. unfold ret. repeat (split; [auto; fail|]). auto.
  - inversion F2 as [|? [[k k'] len] ? ms' HCp F2']; subst. destruct HCp as (dc & e & e' & HT & HT' & Hf). cbn [map snd] in Nb, HP. inversion Nb as [|? ? Nb1 Nb2]; subst.
    pose proof (joined_record _ _ _ _ _ _ (joined_layout _ _ L) HT) as Ld. assert (e' = e) as -> by (pose proof (joined_record _ _ _ _ _ _ (joined_layout _ _ L') HT') as K2; congruence).
    destruct (In_nth_error _ _ (record_objs _ _ _ _ _ HT')) as (i & Hi). destruct (F2_nth _ _ _ _ _ HO Hi) as (q & Hq & (v & w & G & HV)).
    assert (Hqf : incl q fp') by (intros z Hz; apply Iq; apply in_concat; exists q; split; [eapply nth_error_In; eauto|exact Hz]).
    assert (NQ : NoDup q) by (eapply NoDup_concat_in; [exact Nq|eapply nth_error_In; eauto]).
    assert (HG : getattr n (VRef l') b s = (Ok v, s)) by (eapply getattr_ok; eauto).
    destruct (record_rep n b v s [] f' dc e (Some k') s l' c' at' w' fp' HT' Hl' HR') as (A' & B' & w2 & q2 & rest2 & _ & HC' & HV2 & HP2 & HK' & _). { cbn [app reach]. unfold bind. now rewrite HG. }
    assert (NQ2 : NoDup q2) by (inversion HN' as [|? ? _ N]; subst; apply (Permutation_NoDup HP2) in N; now apply NoDup_app_parts in N as (_ & N & _)).
    assert (EW : encode e w = encode e w2).
    { pose proof (elem_out n s dc e v w q Hn Ld HV NQ) as K1. rewrite (elem_out n s dc e v w2 q2 Hn Ld HV2 NQ2) in K1. destruct (encode e w) as [x1 [y1|]], (encode e w2) as [x2 [y2|]]; unfold oc, add_out in K1; cbn [fst snd] in K1; try discriminate;
        pose proof (f_equal (fun r => out (snd r)) K1) as K2; cbn [out snd] in K2; apply app_inv_head in K2; subst; [apply (f_equal fst) in K1; cbn [fst] in K1; now injection K1 as ->|reflexivity]. }
    rewrite HC', <- EW in HE'. apply oseq_ok in HE' as (b1 & b2 & EA' & EB' & ->). apply oseq_ok in EB' as (b3 & b4 & EC' & ED' & ->).
    assert (exists s2 at2, set_attr the_prog (VRef l) a v s = (Ok tt, s2) /\ s2 = mkst (set_nth l (HInst c at2) (heap s)) (irest s) (ifull s) (out s)) as (s2 & at2 & HS & E2).
    { cbn [record_at] in HT. destruct (find_spot a f) as [[[f1 j] f2]|] eqn:HF; [|discriminate]. destruct j; try discriminate. apply find_spot_inv in HF as (-> & _). apply rep_fapp in HR as (q1 & q3 & R1 & R2 & _). cbn [put_spot rep] in R2. destruct R2 as (l2 & _ & w0 & r1 & r2 & Ga & _).
      unfold set_attr, bind, hget, hset. rewrite Hl. unfold getA in Ga. destruct (lookup the_prog c a) as [[m|]|]; [discriminate| |]; do 2 eexists; split; reflexivity. }
    assert (HA : assign n (VRef l) [] (TAttr a) v s = (Ok tt, s2)) by exact HS.
    destruct (swap_ind n a v [] f dc e (Some k) s l c at_ W fp s2 HT Hl HR HN HA) as (_ & _ & A & B & old & w0 & q0 & rest & _ & _ & HRe & HC & HO0 & HPf & HK & HW).
    assert (Hrest : incl rest fp) by (intros z Hz; eapply Permutation_in; [apply Permutation_sym; exact HPf|]; apply in_or_app; now left).
    assert (N2 : NoDup ((l :: rest) ++ q)).
    { apply NoDup_app; [|exact NQ|].
      - inversion HN as [|? ? N1 N3]; subst. constructor; [intros Hz; apply N1; now apply Hrest|]. apply (Permutation_NoDup HPf) in N3. now apply NoDup_app_parts in N3 as (N3 & _).
      - intros z [<-|Hz] Hz'; [apply Hll; right; now apply Hqf|]. exact (HP i b dc e q (or_introl eq_refl) Hi Hq z Hz' (Hrest z Hz)). }
    destruct (HW w q HV N2) as (at1 & W1 & fp1 & Hl1 & HR1 & HC1 & HP1).
    assert (Hh : forall z, z <> l -> nth_error (heap s2) z = nth_error (heap s) z) by (intros z Hz; rewrite E2; cbn [heap]; apply set_nth_ne; congruence).
    assert (Hhp : forall z, In z (l' :: fp') -> nth_error (heap s2) z = nth_error (heap s) z) by (intros z Hz; apply Hh; intros ->; contradiction).
    rewrite HC in HE. apply oseq_ok in HE as (c1 & c2 & EA & EB & ->). apply oseq_ok in EB as (c3 & c4 & EC & ED & ->).
    assert (L3 : length b3 = len) by (eapply fixed_out; eauto). assert (L4 : length c3 = len) by (eapply fixed_out; eauto).
    assert (HE1 : encode f W1 = (spliced (b1 ++ b3 ++ b4) (c1 ++ c3 ++ c4) (k, k', len), None)).
    { cbn [spliced]. rewrite <- (HK k c1 eq_refl EA), <- (HK' k' b1 eq_refl EA'), <- L3, slice_at, splice_at by congruence. rewrite HC1, EA, EC', ED. reflexivity. }
    destruct (IH ms' s2 at1 W1 fp1 (spliced (b1 ++ b3 ++ b4) (c1 ++ c3 ++ c4) (k, k', len)) F2' Nb2 Hl1 HR1) as (s3 & at3 & W3 & fp3 & H1 & H2 & H3 & H4 & H5 & H6 & H7).
    + eapply Permutation_NoDup; [|exact N2]. cbn [app]. apply perm_skip. now apply Permutation_sym.
    + exact HE1.
    + rewrite Hhp by (now left). exact Hl'.
    + eapply rep_ext; [exact HR'|intros z Hz; apply Hhp; now right|auto|auto].
    + clear -HO Iq Hhp. revert Iq. induction HO as [|[[b dc] e] q xs qs (v & w & G & HV) _ IHo]; intros Iq; constructor.
      * exists v, w. split; [exact G|]. eapply elem_rep_ext; [exact HV|]. intros z Hz. apply Hhp. right. apply Iq. cbn [concat]. apply in_or_app. now left.
      * apply IHo. intros z Hz. apply Iq. cbn [concat]. apply in_or_app. now right.
    + intros j b' dc' e' q' Hb' Hj Hq' z Hz Hz1. apply (Permutation_in z HP1) in Hz1. apply in_app_or in Hz1 as [Hz1|Hz1]; [exact (HP j b' dc' e' q' (or_intror Hb') Hj Hq' z Hz (Hrest z Hz1))|].
      assert (Hne : j <> i) by (intros ->; rewrite Hi in Hj; injection Hj as <- <- <-; contradiction). exact (concat_apart qs j i q' q Nq Hq' Hq Hne z Hz Hz1).
    + exists s3, at3, W3, fp3. split; [cbn [copies]; unfold bind; rewrite HG, HS; exact H1|]. split; [rewrite H2, E2; reflexivity|]. split; [intros z Hz; now rewrite H3, Hh|]. split; [exact H4|]. split; [exact H5|]. split; [exact H6|]. exact H7.
Qed.

(** ** C98 *)
(** o.a1 = p.b1; o.a2 = p.b2; ...: any number of records at fixed places, of two objects that are apart, no record of p being used twice.  It goes through; the bytes o serializes to have each of these records overwritten by the bytes of the record of p, and no other byte changes; p serializes to the same bytes as before; each of the two is still whole *)
Theorem C98_copies n c f c' f' s o p cs ms bs bs' : (fuel_ok <= n)%nat -> layout c = Some f -> layout c' = Some f' -> apart (heap s) c f o c' f' p -> Forall2 (copyable f f') cs ms -> NoDup (map snd cs) ->
  serialize n o s = (Ok VNone, appended s bs) -> serialize n p s = (Ok VNone, appended s bs') ->
  exists s1, copies n o p cs s = (Ok tt, s1) /\ out s1 = out s /\ unshared (heap s1) c f o /\ unshared (heap s1) c' f' p /\
    serialize n o s1 = (Ok VNone, appended s1 (fold_left (spliced bs') ms bs)) /\ serialize n p s1 = (Ok VNone, appended s1 bs').
Proof.
  intros Hn L L' (W & l & fp & w & l' & fp' & (at_ & -> & Hl & HR & HN) & (at' & -> & Hl' & HR' & HN') & HD) F2 Nb HS HS'. destruct (layout_inv _ _ L) as (L1 & _). destruct (layout_inv _ _ L') as (L1' & _).
  assert (EN : forall c f l W b, assoc c TW = Some f -> holds the_prog (heap s) c f (VRef l) W -> serialize n (VRef l) s = (Ok VNone, appended s b) -> encode f W = (b, None)).
  { clear - Hn. intros c f l W b A H E. unfold serialize in E. rewrite (serialize_holds n c f (VRef l) s W Hn A H) in E. destruct (encode f W) as [x [ex|]]; unfold oc, add_out, appended in E; cbn [fst snd] in E; [discriminate|].
    apply (f_equal (fun r => out (snd r))) in E. cbn [out snd] in E. apply app_inv_head in E. now subst x. }
  assert (E : encode f W = (bs, None)) by (eapply EN; [exact L1|exists l, fp, at_; auto|exact HS]). assert (E' : encode f' w = (bs', None)) by (eapply EN; [exact L1'|exists l', fp', at'; auto|exact HS']).
  destruct (rep_objs _ _ _ _ _ HR') as (qs & rest & HO & HP). inversion HN' as [|? ? N1 N2]; subst. pose proof N2 as N3. apply (Permutation_NoDup HP) in N3. apply NoDup_app_parts in N3 as (_ & N3 & _).
  assert (Iq : incl (concat qs) fp') by (intros z Hz; eapply Permutation_in; [apply Permutation_sym; exact HP|]; apply in_or_app; now right).
  destruct (copies_ind n c f c' f' l l' at' w fp' bs' qs Hn L L' E' HN' (HD l (or_introl eq_refl)) N3 Iq cs ms s at_ W fp bs F2 Nb Hl HR HN E Hl' HR' HO) as (s1 & at1 & W1 & fp1 & H1 & H2 & H3 & H4 & H5 & H6 & H7).
  { intros i b dc e q _ _ Hq z Hz Hz'. apply (HD z (or_intror Hz')). right. apply Iq. apply in_concat. exists q. split; [eapply nth_error_In; eauto|exact Hz]. }
  assert (Hh : forall z, In z (l' :: fp') -> nth_error (heap s1) z = nth_error (heap s) z) by (intros z Hz; apply H3; intros ->; exact (HD l (or_introl eq_refl) Hz)).
  assert (HH : holds the_prog (heap s1) c f (VRef l) W1) by (exists l, fp1, at1; auto).
  assert (HH' : holds the_prog (heap s1) c' f' (VRef l') w).
  { exists l', fp', at'. split; [reflexivity|]. split; [rewrite Hh by (now left); exact Hl'|]. split; [|exact HN']. eapply rep_ext; [exact HR'|intros z Hz; apply Hh; now right|auto|auto]. }
  exists s1. split; [exact H1|]. split; [exact H2|]. split; [exists W1; exact HH|]. split; [exists w; exact HH'|].
  unfold serialize. rewrite (serialize_holds n c f (VRef l) s1 W1 Hn L1 HH), (serialize_holds n c' f' (VRef l') s1 w Hn L1' HH'), H7, E'. split; reflexivity.
Qed.

(** The reply: in a received simulation management PDU p of any class with an originating and a receiving entity, these are at bytes 12-17 and 18-23; with r = AcknowledgePdu() (or any other such class),
    r.originatingEntityID = p.receivingEntityID; r.receivingEntityID = p.originatingEntityID, the reply goes from the receiver to the originator *)
Definition answering : list (string * string) := [("originatingEntityID", "receivingEntityID"); ("receivingEntityID", "originatingEntityID")].
Definition management : list string :=
  ["DataQueryPdu"; "CreateEntityPdu"; "RemoveEntityPdu"; "ActionRequestPdu"; "AcknowledgePdu"; "ActionRequestReliablePdu"; "StopFreezePdu"; "StartResumePdu"; "SetDataReliablePdu"; "EventReportPdu"; "DataPdu"; "AcknowledgeReliablePdu";
   "StartResumeReliablePdu"; "DataQueryReliablePdu"; "DataReliablePdu"; "CommentPdu"; "CommentReliablePdu"; "SetDataPdu"; "RecordQueryReliablePdu"; "ActionResponsePdu"; "RemoveEntityReliablePdu"; "CreateEntityReliablePdu";
   "StopFreezeReliablePdu"; "EventReportReliablePdu"; "ActionResponseReliablePdu"].
Lemma management_ok : Forall (fun c => exists f, layout c = Some f /\ record_at f [] "originatingEntityID" = Some ("EntityIdentifier", w_EntityIdentifier, Some 12%nat) /\ record_at f [] "receivingEntityID" = Some ("EntityIdentifier", w_EntityIdentifier, Some 18%nat)) management.
Proof. unfold management. repeat (constructor; [eexists; split; [vm_compute; reflexivity|]; split; vm_compute; reflexivity|]). constructor. Qed.
Theorem C98_answer n c f c' f' s r p bs bs' : (fuel_ok <= n)%nat -> In c management -> In c' management -> layout c = Some f -> layout c' = Some f' -> apart (heap s) c f r c' f' p ->
  serialize n r s = (Ok VNone, appended s bs) -> serialize n p s = (Ok VNone, appended s bs') ->
  exists s1, copies n r p answering s = (Ok tt, s1) /\ out s1 = out s /\
    serialize n r s1 = (Ok VNone, appended s1 (firstn 12 bs ++ slice 18 6 bs' ++ slice 12 6 bs' ++ skipn 24 bs)) /\ serialize n p s1 = (Ok VNone, appended s1 bs').
Proof.
  intros Hn Hc Hc' L L' HA HS HS'. pose proof management_ok as K. rewrite Forall_forall in K. destruct (K _ Hc) as (f1 & L1 & A1 & A2). destruct (K _ Hc') as (f2 & L2 & B1 & B2). rewrite L in L1. injection L1 as <-. rewrite L' in L2. injection L2 as <-.
  assert (F6 : fixed w_EntityIdentifier = Some 6%nat) by (vm_compute; reflexivity).
  destruct (C98_copies n c f c' f' s r p answering [(12, 18, 6); (18, 12, 6)]%nat bs bs' Hn L L' HA) as (s1 & H1 & H2 & _ & _ & H3 & H4); [| |exact HS|exact HS'|].
  - unfold answering. constructor; [do 3 eexists; split; [exact A1|]; split; [exact B2|exact F6]|]. constructor; [do 3 eexists; split; [exact A2|]; split; [exact B1|exact F6]|constructor].
  - unfold answering. cbn [map snd]. repeat constructor; cbn; intuition discriminate.
  - exists s1. split; [exact H1|]. split; [exact H2|]. split; [|exact H4]. rewrite H3. do 2 f_equal. cbn [fold_left spliced].
    assert (U : unshared (heap s) c f r /\ unshared (heap s) c' f' p) by (destruct HA as (W & l & fp & w & l' & fp' & X & Y & _); split; [exists W, l, fp; exact X|exists w, l', fp'; exact Y]).
    pose proof (record_len _ _ _ _ _ _ _ _ _ _ _ Hn L (proj1 U) A2 F6 HS) as K1. pose proof (record_len _ _ _ _ _ _ _ _ _ _ _ Hn L' (proj2 U) B2 F6 HS') as K2.
    assert (S1 : length (slice 18 6 bs') = 6%nat) by (unfold slice; rewrite firstn_length, skipn_length; lia). assert (S2 : length (slice 12 6 bs') = 6%nat) by (unfold slice; rewrite firstn_length, skipn_length; lia).
    apply two_splices; assumption.
Qed.

(** ** A case *)
(** a received Action Request PDU from entity 1:2:3 to entity 4:5:6; ack = AcknowledgePdu(): the answer goes from 4:5:6 to 1:2:3 *)
Definition request : list byte := [x07; x01; x10; x05] ++ repeat x00 8 ++ [x00; x01; x00; x02; x00; x03] ++ [x00; x04; x00; x05; x00; x06] ++ repeat x00 16.
Definition c1_ : st := Eval vm_compute in snd (load the_prog 50 "ActionRequestPdu" (mkst [] request request [])).
Definition req_ : val := Eval vm_compute in val_of (load the_prog 50 "ActionRequestPdu" (mkst [] request request [])).
Definition ack_ : val := Eval vm_compute in val_of (new the_prog 50 "AcknowledgePdu" [] c1_).
Definition c2_ : st := Eval vm_compute in snd (new the_prog 50 "AcknowledgePdu" [] c1_).
Definition c3_ : st := Eval vm_compute in snd (copies 50 ack_ req_ answering c2_).
Example C98_case : In "AcknowledgePdu" management /\ In "ActionRequestPdu" management /\ apart (heap c2_) "AcknowledgePdu" w_AcknowledgePdu ack_ "ActionRequestPdu" w_ActionRequestPdu req_ /\
  layout "AcknowledgePdu" = Some w_AcknowledgePdu /\ layout "ActionRequestPdu" = Some w_ActionRequestPdu /\
  serialize 50 ack_ c2_ = (Ok VNone, appended c2_ (bytes ack_ c2_)) /\ serialize 50 req_ c2_ = (Ok VNone, appended c2_ request) /\ copies 50 ack_ req_ answering c2_ = (Ok tt, c3_) /\
  slice 12 12 (bytes ack_ c2_) = repeat x00 12 /\ slice 12 12 (bytes ack_ c3_) = [x00; x04; x00; x05; x00; x06] ++ [x00; x01; x00; x02; x00; x03] /\ bytes req_ c3_ = request.
Proof.
  assert (LE : layout "ActionRequestPdu" = Some w_ActionRequestPdu) by (vm_compute; reflexivity). assert (LF : layout "AcknowledgePdu" = Some w_AcknowledgePdu) by (vm_compute; reflexivity).
  assert (F : (fuel_ok <= 50)%nat) by (apply Nat.leb_le; vm_compute; reflexivity).
  split; [unfold management; cbn; tauto|]. split; [unfold management; cbn; tauto|]. split.
  - apply (C97_apart 50 [("AcknowledgePdu", ack_); ("ActionRequestPdu", req_)] c2_ "AcknowledgePdu" _ _ "ActionRequestPdu" _ _ F); [|exact LF|exact LE|now left|right; now left|discriminate].
    eapply reach_step; [eapply reach_step; [apply (reach_start 50 (mkst [] [] [] []))|]|].
    + apply (do_parse 50 "ActionRequestPdu" request req_ [] _ c1_); [rewrite LE; discriminate|vm_compute; reflexivity].
    + apply (do_new 50 "AcknowledgePdu" ack_ _ _ c2_); [rewrite LF; discriminate|cbn; intuition discriminate|vm_compute; reflexivity].
  - split; [exact LF|]. split; [exact LE|]. repeat (split; [vm_compute; reflexivity|]). vm_compute. reflexivity.
Qed.

Definition all_PropReply := (C98_copies, C98_answer, C98_case).
Print Assumptions all_PropReply.
