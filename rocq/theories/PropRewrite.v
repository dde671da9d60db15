(** * C94: however the elements of a list are changed in place, what is written follows (opendis/dis7.py: every class's serialize) *)
From Coq Require Import ZArith String List Bool Lia Permutation.
From Coq Require Import Strings.Byte.
From Verif Require Import Lang Bytes Interp Shift Mono ProgBase ProgDis Prog Spec Codec Codec2 Rep Dec StreamLem SerSound ParSound ParStep ParClass NewSound Layouts Refine Api StreamApi Classes PropCodec CtorRun PropFactory PropOffsets Assign PropAssign Append PropAppend Rewrite.
Import ListNotations.
Open Scope string_scope. Open Scope Z_scope. Open Scope list_scope.

(** ** Specification *)
(** o.path.a[:] = us: the list object stays, and its elements become us.  It is Python's own operation, not one of the package; insert, remove, pop, clear, del, extend, reverse and sort of a list have such an effect too *)
Definition set_elements (n : nat) (o : val) (path : list step) (a : string) (us : list val) : M unit :=
  bind (list_of n o path a) (fun l => match l with VRef ll => hset ll (HList us) | _ => raise TypeError end).
(** l.append(v) for each v of vs in turn, l = o.path.a *)
Fixpoint append_all (n : nat) (l : val) (vs : list val) : M unit :=
  match vs with [] => ret tt | v :: r => bind (call_method the_prog n l "append" [v]) (fun _ => append_all n l r) end.
Definition extend (n : nat) (o : val) (path : list step) (a : string) (vs : list val) : M unit := bind (list_of n o path a) (fun l => append_all n l vs).
(** vs can all become elements of the list j of o: o and vs share no object, and no object appears twice in them *)
Definition separate_all (h : list hobj) (c : string) (f : fmt) (o : val) (j : spot) (vs : list val) : Prop :=
  exists W l fp xs qs, holds_at the_prog h c f o W l fp /\ Forall3 (item h j) vs xs qs /\ NoDup ((l :: fp) ++ concat qs).
(** us consists of elements of vs and of news; objects are not repeated, numbers may be *)
Definition drawn (j : spot) (us vs news : list val) : Prop :=
  (forall u, In u us -> In u vs \/ In u news) /\ match j with SRecords _ _ => NoDup us | _ => True end.

(** ** Lemmas *)
(** the class of the elements of a list has a layout *)
Definition known (d : counted_list) : Prop := match cl_elem d with SRecords ce es => layout ce = Some es | _ => True end.
Fixpoint linked (f : fmt) : Prop :=
  match f with
  | Done => True
  | Obj _ _ sub k => linked sub /\ linked k
  | OList _ c sub k => layout c = Some sub /\ linked sub /\ linked k
  | Prim _ _ k | Cnt _ _ _ k | PList _ _ k | Arr _ _ _ k | Zero _ k | Mask _ _ k | VList _ _ _ _ k | Pad _ k | Derive _ _ _ k | Bits _ k | NullL _ k => linked k
  end.
Lemma linked_fapp f g : linked (fapp f g) -> linked g.
Proof. induction f; cbn [fapp linked]; tauto. Qed.
Lemma linked_all : Forall (fun p => layout (fst p) = Some (snd p) -> linked (snd p)) TW.
Proof. unfold TW. repeat (constructor; [vm_compute; first [discriminate|intros _; repeat split]|]). constructor. Qed.
Lemma linked_layout c f : layout c = Some f -> linked f.
Proof. intros L. destruct (layout_inv _ _ L) as (L1 & _). pose proof linked_all as K. rewrite Forall_forall in K. exact (K _ (assoc_In _ _ _ L1) L). Qed.
Lemma linked_known a : forall path f d, linked f -> list_at f path a = Some d -> known d.
Proof.
  induction path as [|[b|b i] path IH]; intros f d HL HT; cbn [list_at] in HT.
  - destruct (find_list a f) as [[[[[[g1 q] z] g2] j] f2]|] eqn:HF; [|discriminate]. injection HT as <-. unfold known. cbn [cl_elem]. apply find_list_inv in HF as (-> & _). apply linked_fapp in HL. destruct j; auto. exact (proj1 HL).
  - destruct (find_spot b f) as [[[f1 k] f2]|] eqn:HF; [|discriminate]. destruct k as [|dc sub|dc sub| |]; try discriminate. destruct (list_at sub path a) as [[p m j off gap]|] eqn:HT'; [|discriminate]. injection HT as <-.
    apply find_spot_inv in HF as (-> & _). apply linked_fapp in HL. exact (IH _ _ (proj1 HL) HT').
  - destruct (find_spot b f) as [[[f1 k] f2]|] eqn:HF; [|discriminate]. destruct k as [|dc sub|dc sub| |]; try discriminate. destruct (list_at sub path a) as [[p m j off gap]|] eqn:HT'; [|discriminate]. injection HT as <-.
    apply find_spot_inv in HF as (-> & _). apply linked_fapp in HL. exact (IH _ _ (proj1 (proj2 HL)) HT').
Qed.
Lemma Forall3_pick {A B C} (R : A -> B -> list C -> Prop) : forall us L X Q, Forall3 R L X Q -> NoDup us -> incl us L ->
  exists X' Q' r, Forall3 R us X' Q' /\ Permutation (concat Q) (concat Q' ++ r).
Proof.
  induction us as [|u us IH]; intros L X Q HF HN HI.
  - exists [], [], (concat Q). split; [constructor|reflexivity].
  - destruct (In_nth_error _ _ (HI u (or_introl eq_refl))) as (i & Hi). destruct (Forall3_split _ _ _ _ _ _ HF Hi) as (l1 & l2 & y & x1 & x2 & q & q1 & q2 & -> & -> & -> & _ & _ & HR & F1 & F2).
    inversion HN as [|? ? Hu HN']; subst. destruct (IH (l1 ++ l2) (x1 ++ x2) (q1 ++ q2)) as (X' & Q' & r & HF' & HP); [now apply Forall3_app|exact HN'| |].
    { intros z Hz. specialize (HI z (or_intror Hz)). apply in_app_or in HI. apply in_or_app. cbn [In] in HI. destruct HI as [?|[->|?]]; auto. contradiction. }
    exists (y :: X'), (q :: Q'), r. split; [now constructor|]. rewrite !concat_app in *. cbn [concat]. rewrite <- app_assoc.
    transitivity (q ++ concat q1 ++ concat q2); [apply Permutation_app_swap_app|]. now apply Permutation_app_head.
Qed.
Lemma Forall3_in_l {A B C} (R : A -> B -> C -> Prop) l m n x : Forall3 R l m n -> In x l -> exists y z, In z n /\ R x y z.
Proof. induction 1 as [|a b c l m n H _ IH]; intros Hx; [destruct Hx|]. destruct Hx as [->|Hx]; [exists b, c; split; [now left|exact H]|]. destruct (IH Hx) as (y & z & Hz & HR). exists y, z. split; [now right|exact HR]. Qed.
Lemma NoDup_concat_in {A} (q : list A) qs : NoDup (concat qs) -> In q qs -> NoDup q.
Proof. induction qs as [|p qs IH]; intros HN Hq; [destruct Hq|]. cbn [concat] in HN. apply NoDup_app_parts in HN as (H1 & H2 & _). destruct Hq as [->|Hq]; auto. Qed.
Lemma elements_of n s j vs ws fps b : (fuel_ok <= n)%nat -> (forall ce es, j = SRecords ce es -> layout ce = Some es) -> Forall3 (item (heap s) j) vs ws fps -> NoDup (concat fps) -> enc_list (enc_item j) ws = (b, None) ->
  exists elems, concat elems = b /\ Forall2 (element_bytes n s j) vs elems.
Proof.
  intros Hn HL HF. revert b. induction HF as [|u x q vs ws fps HI _ IH]; intros b HN HE; cbn [enc_list concat] in *.
  - injection HE as <-. exists []. split; [reflexivity|constructor].
  - apply NoDup_app_parts in HN as (N1 & N2 & _). apply oseq_ok in HE as (y1 & y2 & EY & EL & ->). destruct (IH _ N2 EL) as (elems & <- & FE). exists (y1 :: elems). split; [reflexivity|]. constructor; [eapply outcome_element; eauto|exact FE].
Qed.
Lemma elements_out n s j vs ws fps elems : (fuel_ok <= n)%nat -> Forall3 (item (heap s) j) vs ws fps -> NoDup (concat fps) -> Forall2 (element_bytes n s j) vs elems -> enc_list (enc_item j) ws = (concat elems, None).
Proof.
  intros Hn HF. revert elems. induction HF as [|u x q vs ws fps HI _ IH]; intros elems HN HE; inversion HE as [|? b ? es Hb HE']; subst; cbn [enc_list concat] in *; [reflexivity|].
  apply NoDup_app_parts in HN as (N1 & N2 & _). rewrite (element_outcome n s j u x q b Hn HI N1 Hb), (IH _ N2 HE'). reflexivity.
Qed.
Lemma Forall2_in_l {A B} (R : A -> B -> Prop) l m x : Forall2 R l m -> In x l -> exists y, R x y.
Proof. induction 1 as [|a b l m H _ IH]; intros Hx; [destruct Hx|]. destruct Hx as [->|Hx]; eauto. Qed.
Lemma all_have {A B} (R : A -> B -> Prop) l : (forall x, In x l -> exists y, R x y) -> exists m, Forall2 R l m.
Proof. induction l as [|x l IH]; intros H; [exists []; constructor|]. destruct (H x (or_introl eq_refl)) as (y & Hy). destruct IH as (m & Hm); [intros z Hz; apply H; now right|]. exists (y :: m). now constructor. Qed.
Lemma ok_bytes (oo : outcome) s bs : oc oo VNone s = (Ok VNone, appended s bs) -> oo = (bs, None).
Proof.
  destruct oo as [b [e|]]; unfold oc; cbn [fst snd]; intros HS; [discriminate|]. unfold add_out, appended in HS. apply (f_equal (fun x => out (snd x))) in HS. cbn [out snd] in HS. apply app_inv_head in HS. now subst.
Qed.

(** elements drawn from vs and news have bytes and belong together *)
Lemma drawn_items h j vs ws fps news xs qs us : Forall3 (item h j) vs ws fps -> Forall3 (item h j) news xs qs -> drawn j us vs news ->
  exists wn fpn r, Forall3 (item h j) us wn fpn /\ Permutation (concat (fps ++ qs)) (concat fpn ++ r).
Proof.
  intros F1 F2 [HI HN]. pose proof (Forall3_app _ _ _ _ _ _ _ F1 F2) as F. destruct j as [|cc ff|ce es|k|q]; cbn [item] in *.
  1,2,4: destruct us as [|u us]; [exists [], [], (concat (fps ++ qs)); split; [constructor|reflexivity]|]; exfalso;
    destruct (HI u (or_introl eq_refl)) as [Hu|Hu]; [destruct (Forall3_in_l _ _ _ _ _ F1 Hu) as (? & ? & _ & [])|destruct (Forall3_in_l _ _ _ _ _ F2 Hu) as (? & ? & _ & [])].
  - eapply Forall3_pick; [exact F|exact HN|]. intros u Hu. apply in_or_app. auto.
  - destruct (all_have (fun v w => scal v = Some w) us) as (wn & Hw).
    { intros u Hu. destruct (HI u Hu) as [H|H]; [destruct (Forall3_in_l _ _ _ _ _ F1 H) as (y & ? & _ & K & _)|destruct (Forall3_in_l _ _ _ _ _ F2 H) as (y & ? & _ & K & _)]; exists y; exact K. }
    destruct (no_objects_items h q us wn Hw) as (fpn & F3 & HC). exists wn, fpn, (concat (fps ++ qs)). split; [exact F3|]. now rewrite HC.
Qed.

(** ** C94 *)
(** o.path.a[:] = us, where us are elements the list had and new ones, in any order: of the bytes o serializes to, the count becomes that of us, and the bytes of the elements become those of us, in the order of us;
    no other byte changes.  If the type of the count cannot hold it, serialize raises what writing it raises *)
Theorem C94_rewrite n c f s o path a d ll vs news nbs us bs s1 : (fuel_ok <= n)%nat -> layout c = Some f -> list_at f path a = Some d ->
  list_of n o path a s = (Ok (VRef ll), s) -> nth_error (heap s) ll = Some (HList vs) ->
  separate_all (heap s) c f o (cl_elem d) news -> Forall2 (element_bytes n s (cl_elem d)) news nbs -> drawn (cl_elem d) us vs news ->
  serialize n o s = (Ok VNone, appended s bs) -> set_elements n o path a us s = (Ok tt, s1) ->
  out s1 = out s /\ irest s1 = irest s /\ nth_error (heap s1) ll = Some (HList us) /\ unshared (heap s1) c f o /\
  exists before count gap elems after elems',
    Forall2 (element_bytes n s (cl_elem d)) vs elems /\ Forall2 (element_bytes n s (cl_elem d)) us elems' /\
    bs = before ++ count ++ gap ++ concat elems ++ after /\ enc_prim (cl_type d) (WInt (Z.of_nat (length vs) * cl_unit d)) = inl count /\
    (forall k, cl_off d = Some k -> length before = k) /\ (forall k, cl_gap d = Some k -> length gap = k) /\
    match enc_prim (cl_type d) (WInt (Z.of_nat (length us) * cl_unit d)) with
    | inl count' => serialize n o s1 = (Ok VNone, appended s1 (before ++ count' ++ gap ++ concat elems' ++ after))
    | inr e => serialize n o s1 = (Exc e, appended s1 before)
    end.
Proof.
  intros Hn L HT HL Hll (W & l & fp & xs & qs & (at_ & -> & Hl & HR & HN1) & HX & HN) HB HD HS HA. destruct (layout_inv _ _ L) as (L1 & _). pose proof (linked_known _ _ _ _ (linked_layout _ _ L) HT) as HK.
  assert (HLay : forall ce es, cl_elem d = SRecords ce es -> layout ce = Some es) by (intros ce es Ej; unfold known in HK; now rewrite Ej in HK).
  unfold set_elements, bind in HA. rewrite HL in HA. unfold hset in HA. injection HA as <-. cbn [heap out irest].
  assert (HH : holds the_prog (heap s) c f (VRef l) W) by (exists l, fp, at_; auto).
  destruct (rewrite_ind n a path f d s l c at_ W fp _ _ HT Hl HR HN1 HL) as (_ & ll' & vs' & E & Hll' & (A & G & ws & B & fps & rest & E1 & F & HPf & Hin & HO & HG & HW)).
  injection E as <-. rewrite Hll in Hll'. injection Hll' as <-.
  destruct (drawn_items _ _ _ _ _ _ _ _ _ F HX HD) as (wn & fpn & r & Fn & HPn).
  assert (N0 : NoDup (((l :: rest) ++ concat fpn) ++ r)).
  { eapply Permutation_NoDup; [|exact HN]. cbn [app]. apply perm_skip. rewrite <- app_assoc. transitivity ((rest ++ concat fps) ++ concat qs); [now apply Permutation_app_tail|]. rewrite <- app_assoc. apply Permutation_app_head. now rewrite <- concat_app. }
  apply NoDup_app_parts in N0 as (N2 & _). destruct (HW us wn fpn Fn N2) as (W' & fp' & E2 & HP' & HR').
  assert (NF : NoDup (concat fps)).
  { assert (X : NoDup ((l :: rest) ++ concat fps)) by (eapply Permutation_NoDup; [|exact HN1]; cbn [app]; now apply perm_skip). now apply NoDup_app_parts in X as (_ & X & _). }
  assert (NFn : NoDup (concat fpn)) by (now apply NoDup_app_parts in N2 as (_ & N2 & _)).
  assert (Nl : l <> ll).
  { intros ->. inversion N2 as [|? ? X _]; subst. apply X. apply in_or_app. now left. }
  assert (HH' : holds the_prog (set_nth ll (HList us) (heap s)) c f (VRef l) W').
  { exists l, fp', at_. split; [reflexivity|]. split; [rewrite set_nth_ne by congruence; exact Hl|]. split; [exact HR'|]. eapply Permutation_NoDup; [|exact N2]. cbn [app]. apply perm_skip. now apply Permutation_sym. }
  split; [reflexivity|]. split; [reflexivity|]. split; [apply set_nth_eq; eapply lt_of; eauto|]. split; [now exists W'|].
  unfold serialize in HS. rewrite (serialize_holds n c f (VRef l) s W Hn L1 HH) in HS. apply ok_bytes in HS. rewrite E1 in HS.
  apply oseq_ok in HS as (b1 & b2 & EA & HS & ->). apply oseq_ok in HS as (b3 & b4 & EC & HS & ->). apply oseq_ok in HS as (b5 & b6 & EG & HS & ->). apply oseq_ok in HS as (b7 & b8 & EL & EB & ->).
  destruct (elements_of n s _ _ _ _ _ Hn HLay F NF EL) as (elems & <- & FE).
  destruct (all_have (element_bytes n s (cl_elem d)) us) as (elems' & FE').
  { intros u Hu. destruct (proj1 HD u Hu) as [H|H]; [exact (Forall2_in_l _ _ _ _ FE H)|exact (Forall2_in_l _ _ _ _ HB H)]. }
  exists b1, b3, b5, elems, b8, elems'. split; [exact FE|]. split; [exact FE'|]. split; [reflexivity|].
  split; [unfold enc_val in EC; destruct (enc_prim (cl_type d) _); [|discriminate]; now injection EC as ->|].
  split; [intros k Hk; eapply HO; eauto|]. split; [intros k Hk; eapply HG; eauto|].
  set (s1 := mkst (set_nth ll (HList us) (heap s)) (irest s) (ifull s) (out s)).
  unfold serialize. rewrite (serialize_holds n c f (VRef l) s1 W' Hn L1 HH'), E2, EA, EG, EB, (elements_out n s _ _ _ _ _ Hn Fn NFn FE').
  unfold enc_val. destruct (enc_prim (cl_type d) (WInt (Z.of_nat (length us) * cl_unit d))) as [b'|e]; unfold oc, oseq, add_out, appended; cbn [fst snd]; [reflexivity|now rewrite app_nil_r].
Qed.

(** further values that are separate from o and from the new elements stay separate from o, and they and the elements keep their bytes: so the theorem applies to the next change *)
Theorem C94_rest n c f s o path a d ll vs news more us s1 : (fuel_ok <= n)%nat -> layout c = Some f -> list_at f path a = Some d ->
  list_of n o path a s = (Ok (VRef ll), s) -> nth_error (heap s) ll = Some (HList vs) ->
  separate_all (heap s) c f o (cl_elem d) (news ++ more) -> drawn (cl_elem d) us vs news -> set_elements n o path a us s = (Ok tt, s1) ->
  separate_all (heap s1) c f o (cl_elem d) more /\ forall u b, In u (us ++ more) -> element_bytes n s (cl_elem d) u b -> element_bytes n s1 (cl_elem d) u b.
Proof.
  intros Hn L HT HL Hll (W & l & fp & xs0 & qs0 & (at_ & -> & Hl & HR & HN1) & HX0 & HN0) HD HA. pose proof (linked_known _ _ _ _ (linked_layout _ _ L) HT) as HK.
  assert (HLay : forall ce es, cl_elem d = SRecords ce es -> layout ce = Some es) by (intros ce es Ej; unfold known in HK; now rewrite Ej in HK).
  unfold set_elements, bind in HA. rewrite HL in HA. unfold hset in HA. injection HA as <-. cbn [heap].
  assert (exists xs ys qs rs, xs0 = xs ++ ys /\ qs0 = qs ++ rs /\ Forall3 (item (heap s) (cl_elem d)) news xs qs /\ Forall3 (item (heap s) (cl_elem d)) more ys rs) as (xs & ys & qs & rs & -> & -> & HX & HY).
  { clear -HX0. revert xs0 qs0 HX0. induction news as [|v news IH]; intros xs0 qs0 H; cbn [app] in H; [exists [], xs0, [], qs0; repeat split; [constructor|exact H]|]. inversion H as [|? x q ? xs' qs' Hv H']; subst.
    destruct (IH _ _ H') as (xs & ys & qs & rs & -> & -> & H1 & H2). exists (x :: xs), ys, (q :: qs), rs. repeat split; [now constructor|exact H2]. }
  destruct (rewrite_ind n a path f d s l c at_ W fp _ _ HT Hl HR HN1 HL) as (_ & ll' & vs' & E & Hll' & (A & G & ws & B & fps & rest & E1 & F & HPf & Hin & HO & HG & HW)).
  injection E as <-. rewrite Hll in Hll'. injection Hll' as <-.
  destruct (drawn_items _ _ _ _ _ _ _ _ _ F HX HD) as (wn & fpn & r & Fn & HPn).
  assert (N0 : NoDup ((((l :: rest) ++ concat fpn) ++ concat rs) ++ r)).
  { eapply Permutation_NoDup; [|exact HN0]. cbn [app]. apply perm_skip. rewrite <- !app_assoc. transitivity ((rest ++ concat fps) ++ concat (qs ++ rs)); [now apply Permutation_app_tail|]. rewrite <- app_assoc. apply Permutation_app_head.
    rewrite concat_app, app_assoc, <- concat_app. transitivity ((concat fpn ++ r) ++ concat rs); [now apply Permutation_app_tail|]. rewrite <- app_assoc. apply Permutation_app_head, Permutation_app_comm. }
  apply NoDup_app_parts in N0 as (N3 & _). pose proof N3 as N2. apply NoDup_app_parts in N2 as (N2 & _). destruct (HW us wn fpn Fn N2) as (W' & fp' & E2 & HP' & HR').
  assert (Nl : l <> ll).
  { intros ->. inversion N2 as [|? ? X _]; subst. apply X. apply in_or_app. now left. }
  assert (Hnot : ~ In ll (concat fpn ++ concat rs)).
  { rewrite <- app_assoc in N3. apply NoDup_app_parts in N3 as (_ & _ & N3). apply N3. now right. }
  rewrite in_app_iff in Hnot.
  assert (Keep : forall k u x q, item (heap s) k u x q -> ~ In ll q -> item (set_nth ll (HList us) (heap s)) k u x q).
  { intros k u x q HI Hq. destruct k; cbn [item] in *; auto. now apply elem_rep_set. }
  split.
  - exists W', l, fp', ys, rs. split; [|split].
    + exists at_. split; [reflexivity|]. split; [rewrite set_nth_ne by congruence; exact Hl|]. split; [exact HR'|]. eapply Permutation_NoDup; [|exact N2]. cbn [app]. apply perm_skip. now apply Permutation_sym.
    + eapply Forall3_impl; [|exact HY]. intros u x q Hq HI. apply Keep; [exact HI|]. intros X. apply Hnot. right. apply in_concat. eauto.
    + eapply Permutation_NoDup; [|exact N3]. apply Permutation_app_tail. cbn [app]. apply perm_skip. now apply Permutation_sym.
  - intros u b Hu Hb.
    assert (exists x q, item (heap s) (cl_elem d) u x q /\ NoDup q /\ ~ In ll q) as (x & q & HI & Nq & Hq).
    { rewrite <- app_assoc in N3. apply NoDup_app_parts in N3 as (_ & N3 & _). apply NoDup_app_parts in N3 as (Na & Nb & _).
      apply in_app_or in Hu as [Hu|Hu]; [destruct (Forall3_in_l _ _ _ _ _ Fn Hu) as (x & q & Hq & HI)|destruct (Forall3_in_l _ _ _ _ _ HY Hu) as (x & q & Hq & HI)]; exists x, q; (split; [exact HI|split; [eapply NoDup_concat_in; [|exact Hq]; assumption|intros X; apply Hnot]]); [left|right]; apply in_concat; eauto. }
    eapply outcome_element; [exact Hn|exact HLay|cbn [heap]; apply Keep; [exact HI|exact Hq]|exact Nq|]. eapply element_outcome; eauto.
Qed.

Lemma no_news h c f o j : unshared h c f o -> separate_all h c f o j [].
Proof. intros (W & l & fp & HH). exists W, l, fp, [], []. split; [exact HH|]. split; [constructor|]. cbn [concat]. rewrite app_nil_r. now destruct HH as (at_ & _ & _ & _ & HN). Qed.
Lemma element_bytes_fun n s j u b b' : element_bytes n s j u b -> element_bytes n s j u b' -> b = b'.
Proof.
  destruct j as [| |ce es| |q]; cbn [element_bytes]; try contradiction.
  - intros [_ H1] [_ H2]. rewrite H1 in H2. unfold appended in H2. apply (f_equal (fun x => out (snd x))) in H2. cbn [out snd] in H2. now apply app_inv_head in H2.
  - intros (x & Hx & H1) (y & Hy & H2). congruence.
Qed.
Lemma elements_fun n s j us e e' : Forall2 (element_bytes n s j) us e -> Forall2 (element_bytes n s j) us e' -> e = e'.
Proof. intros H. revert e'. induction H as [|u b us e Hb _ IH]; intros e' H'; inversion H' as [|? b' ? e2 Hb' H2]; subst; [reflexivity|]. f_equal; [eapply element_bytes_fun; eauto|auto]. Qed.

(** objects of which none appears twice in o and news are different *)
Lemma items_distinct h ce es vs ws fps : Forall3 (item h (SRecords ce es)) vs ws fps -> NoDup (concat fps) -> NoDup vs.
Proof.
  induction 1 as [|u x q vs ws fps H HF IH]; intros HN; [constructor|]. cbn [concat] in HN. apply NoDup_app_parts in HN as (N1 & N2 & N3). constructor; [|auto]. intros Hu.
  destruct H as (l & at_ & w & r & -> & _ & _ & _ & ->). destruct (Forall3_in_l _ _ _ _ _ HF Hu) as (y & z & Hz & (l' & at' & w' & r' & E & _ & _ & _ & ->)). injection E as <-.
  apply (N3 l (or_introl eq_refl)). apply in_concat. exists (l :: r'). split; [exact Hz|now left].
Qed.
Lemma distinct n c f s o path a d ll vs news : list_at f path a = Some d -> list_of n o path a s = (Ok (VRef ll), s) -> nth_error (heap s) ll = Some (HList vs) ->
  separate_all (heap s) c f o (cl_elem d) news -> match cl_elem d with SRecords _ _ => NoDup (vs ++ news) | _ => True end.
Proof.
  intros HT HL Hll (W & l & fp & xs & qs & (at_ & -> & Hl & HR & HN1) & HX & HN).
  destruct (rewrite_ind n a path f d s l c at_ W fp _ _ HT Hl HR HN1 HL) as (_ & ll' & vs' & E & Hll' & (A & G & ws & B & fps & rest & E1 & F & HPf & _)). injection E as <-. rewrite Hll in Hll'. injection Hll' as <-.
  destruct (cl_elem d) as [| |ce es| |]; auto. eapply items_distinct; [exact (Forall3_app _ _ _ _ _ _ _ F HX)|]. rewrite concat_app.
  assert (X : NoDup ((l :: rest) ++ concat fps ++ concat qs)).
  { eapply Permutation_NoDup; [|exact HN]. cbn [app]. apply perm_skip. rewrite app_assoc. now apply Permutation_app_tail. }
  now apply NoDup_app_parts in X as (_ & X & _).
Qed.

(** del o.path.a[i]: the bytes of the element disappear, and the count is that of one element less *)
Theorem C94_remove n c f s o path a d ll vs1 u vs2 bs s1 : (fuel_ok <= n)%nat -> layout c = Some f -> list_at f path a = Some d -> unshared (heap s) c f o ->
  list_of n o path a s = (Ok (VRef ll), s) -> nth_error (heap s) ll = Some (HList (vs1 ++ u :: vs2)) ->
  serialize n o s = (Ok VNone, appended s bs) -> set_elements n o path a (vs1 ++ vs2) s = (Ok tt, s1) ->
  unshared (heap s1) c f o /\ exists before count gap e1 b e2 after,
    element_bytes n s (cl_elem d) u b /\ bs = before ++ count ++ gap ++ e1 ++ b ++ e2 ++ after /\ enc_prim (cl_type d) (WInt (Z.of_nat (S (length (vs1 ++ vs2))) * cl_unit d)) = inl count /\
    match enc_prim (cl_type d) (WInt (Z.of_nat (length (vs1 ++ vs2)) * cl_unit d)) with
    | inl count' => serialize n o s1 = (Ok VNone, appended s1 (before ++ count' ++ gap ++ e1 ++ e2 ++ after))
    | inr e => serialize n o s1 = (Exc e, appended s1 before)
    end.
Proof.
  intros Hn L HT HU HL Hll HS HA.
  destruct (C94_rewrite n c f s o path a d ll (vs1 ++ u :: vs2) [] [] (vs1 ++ vs2) bs s1 Hn L HT HL Hll (no_news _ _ _ _ _ HU) (Forall2_nil _)) as (_ & _ & _ & HU' & before & count & gap & elems & after & elems' & F & F' & -> & EC & _ & _ & HR); [|exact HS|exact HA|].
  { split; [intros x Hx; left; apply in_app_or in Hx; apply in_or_app; cbn [In]; tauto|]. pose proof (distinct n c f s o path a d ll _ [] HT HL Hll (no_news _ _ _ _ _ HU)) as K. rewrite app_nil_r in K. destruct (cl_elem d); auto. now apply NoDup_remove_1 in K. }
  split; [exact HU'|]. apply Forall2_app_inv_l in F as (e1 & e2' & F1 & F2 & ->). inversion F2 as [|? b ? e2 Hb F3]; subst.
  rewrite (elements_fun _ _ _ _ _ _ F' (Forall2_app F1 F3)) in HR. rewrite !concat_app in *. cbn [concat] in *.
  exists before, count, gap, (concat e1), b, (concat e2), after. split; [exact Hb|]. split; [now rewrite <- !app_assoc|]. split; [rewrite <- EC; rewrite !app_length; cbn [length]; now rewrite Nat.add_succ_r|].
  now rewrite <- app_assoc in HR.
Qed.

(** for v in vs: o.path.a.append(v) *)
Lemma append_all_run n : forall vs s ll old, nth_error (heap s) ll = Some (HList old) ->
  append_all n (VRef ll) vs s = (Ok tt, mkst (match vs with [] => heap s | _ => set_nth ll (HList (old ++ vs)) (heap s) end) (irest s) (ifull s) (out s)).
Proof.
  induction vs as [|v vs IH]; intros s ll old Hll; cbn [append_all]; [now destruct s|]. unfold bind. rewrite (call_append n s ll old v Hll).
  rewrite (IH _ ll (old ++ [v])) by (cbn [heap]; apply set_nth_eq; eapply lt_of; eauto). cbn [heap irest ifull out]. do 2 f_equal. rewrite <- app_assoc. cbn [app].
  destruct vs as [|w vs]; [reflexivity|]. generalize (HList (old ++ [v])) (HList (old ++ v :: w :: vs)). intros x y. generalize (heap s). clear. induction ll as [|k IH]; intros [|z h]; cbn; try reflexivity. now rewrite IH.
Qed.
Lemma set_nth_same {A} : forall k (x : A) h, nth_error h k = Some x -> set_nth k x h = h.
Proof. induction k as [|k IH]; intros x [|z h] H; cbn in *; try discriminate; [congruence|]. now rewrite IH. Qed.
Theorem C94_appends n c f s o path a d ll vs news nbs bs s1 : (fuel_ok <= n)%nat -> layout c = Some f -> list_at f path a = Some d ->
  list_of n o path a s = (Ok (VRef ll), s) -> nth_error (heap s) ll = Some (HList vs) ->
  separate_all (heap s) c f o (cl_elem d) news -> Forall2 (element_bytes n s (cl_elem d)) news nbs ->
  serialize n o s = (Ok VNone, appended s bs) -> extend n o path a news s = (Ok tt, s1) ->
  unshared (heap s1) c f o /\ exists before count gap es after,
    bs = before ++ count ++ gap ++ es ++ after /\ enc_prim (cl_type d) (WInt (Z.of_nat (length vs) * cl_unit d)) = inl count /\
    match enc_prim (cl_type d) (WInt (Z.of_nat (length vs + length news) * cl_unit d)) with
    | inl count' => serialize n o s1 = (Ok VNone, appended s1 (before ++ count' ++ gap ++ es ++ concat nbs ++ after))
    | inr e => serialize n o s1 = (Exc e, appended s1 before)
    end.
Proof.
  intros Hn L HT HL Hll HX HB HS HA.
  assert (HA' : set_elements n o path a (vs ++ news) s = (Ok tt, s1)).
  { unfold extend, set_elements, bind in *. rewrite HL in *. rewrite (append_all_run n news s ll vs Hll) in HA. unfold hset. injection HA as <-. do 2 f_equal. destruct news; [|reflexivity]. rewrite app_nil_r. now apply set_nth_same. }
  destruct (C94_rewrite n c f s o path a d ll vs news nbs (vs ++ news) bs s1 Hn L HT HL Hll HX HB) as (_ & _ & _ & HU' & before & count & gap & elems & after & elems' & F & F' & -> & EC & _ & _ & HR); [|exact HS|exact HA'|].
  { split; [intros x Hx; now apply in_app_or in Hx|]. exact (distinct n c f s o path a d ll vs news HT HL Hll HX). }
  split; [exact HU'|]. rewrite (elements_fun _ _ _ _ _ _ F' (Forall2_app F HB)), concat_app, app_length, <- app_assoc in HR. exists before, count, gap, (concat elems), after. auto.
Qed.

(** read, modify, write: createPdu(data), the elements of a list reordered, removed or (numbers) repeated, serialize: data with the count and the bytes of the elements replaced *)
Theorem C94_read_modify_write n h data b c f o s' W path a d ll vs us s1 : (fuel_ok <= n)%nat -> nth_error data 2 = Some b -> zassoc (b2z b) pdu_types = Some c -> exact_layout c f ->
  factory n h data = (Ok o, s') -> contents the_prog (heap s') c f o = Some W -> nonan f W = true ->
  list_at f path a = Some d -> list_of n o path a s' = (Ok (VRef ll), s') -> nth_error (heap s') ll = Some (HList vs) -> drawn (cl_elem d) us vs [] -> set_elements n o path a us s' = (Ok tt, s1) ->
  exists before count gap elems after elems',
    Forall2 (element_bytes n s' (cl_elem d)) vs elems /\ Forall2 (element_bytes n s' (cl_elem d)) us elems' /\
    data = before ++ count ++ gap ++ concat elems ++ after ++ irest s' /\ (forall k, cl_off d = Some k -> length before = k) /\ (forall k, cl_gap d = Some k -> length gap = k) /\
    match enc_prim (cl_type d) (WInt (Z.of_nat (length us) * cl_unit d)) with
    | inl count' => serialize n o s1 = (Ok VNone, appended s1 (before ++ count' ++ gap ++ concat elems' ++ after))
    | inr e => serialize n o s1 = (Exc e, appended s1 before)
    end.
Proof.
  intros Hn Hb Hz L E HW HNan HT HL Hll HD HA. destruct (C12_created n h data b c f o s' W Hn Hb Hz L E HW HNan) as (q & Ed & ES).
  assert (U : unshared (heap s') c f o).
  { unfold factory, createPdu in E. rewrite (factory_spec n) in E by (unfold fuel_ok, need, G in Hn; lia). cbn [ifull heap out] in E.
    rewrite Hb in E. unfold table in E. rewrite types_ok, Hz in E. destruct L as [L _]. eapply load_unshared; eauto. }
  destruct L as [L _].
  destruct (C94_rewrite n c f s' o path a d ll vs [] [] us q s1 Hn L HT HL Hll (no_news _ _ _ _ _ U) (Forall2_nil _) HD ES HA) as (_ & _ & _ & _ & before & count & gap & elems & after & elems' & F & F' & -> & _ & HO & HG & HR).
  exists before, count, gap, elems, after, elems'. split; [exact F|]. split; [exact F'|]. split; [rewrite Ed, <- !app_assoc; reflexivity|]. auto.
Qed.
(** the lists of an object are there to be changed *)
Theorem C94_goes_through n c f s o a d us : unshared (heap s) c f o -> list_at f [] a = Some d ->
  exists ll vs s1, list_of n o [] a s = (Ok (VRef ll), s) /\ nth_error (heap s) ll = Some (HList vs) /\ set_elements n o [] a us s = (Ok tt, s1).
Proof.
  intros (W & l & fp & at_ & -> & Hl & HR & HN) HT. cbn [list_at] in HT. destruct (find_list a f) as [[[[[[g1 q] z] g2] j] f2]|] eqn:HF; [|discriminate].
  apply find_list_inv in HF as (-> & Hj & _). apply rep_fapp in HR as (q1 & q2 & _ & R2 & _).
  assert (exists ll vs, getA the_prog c at_ a = Some (VRef ll) /\ nth_error (heap s) ll = Some (HList vs)) as (ll & vs & G & Hll).
  { destruct j; try contradiction; cbn [put_spot rep] in R2; destruct R2 as (l1 & v1 & R2); exists l1, v1; destruct R2 as (w1 & R2); [destruct R2 as (? & ? & ? & ? & _)|destruct R2 as (? & ? & ? & _)]; auto. }
  assert (HL : list_of n (VRef l) [] a s = (Ok (VRef ll), s)) by (unfold list_of; cbn [reach]; unfold bind, ret; exact (getattr_ok n _ _ _ _ _ _ Hl G)).
  exists ll, vs. eexists. split; [exact HL|]. split; [exact Hll|]. unfold set_elements, bind. rewrite HL. reflexivity.
Qed.

(** ** How new elements come about *)
(** a new object is separate from the object and from the elements there are to be added already, and these stay as they are *)
Theorem C94_new n c f s o ce es vs : (fuel_ok <= n)%nat -> separate_all (heap s) c f o (SRecords ce es) vs -> layout ce = Some es -> ~ In ce not_readable_new ->
  exists v s', new the_prog n ce [] s = (Ok v, s') /\ separate_all (heap s') c f o (SRecords ce es) (vs ++ [v]) /\ out s' = out s /\ (forall l x, nth_error (heap s) l = Some x -> nth_error (heap s') l = Some x).
Proof.
  intros Hn (W & l0 & fp0 & xs & qs & (at0 & -> & Hl0 & HR0 & HN0) & HX & HN) L Hx. destruct (layout_inv _ _ L) as (L1 & L2 & HC). destruct (new_at_NC ce es L2 HC s) as (h & l & at_ & fp & E & Er & El & _ & _).
  pose proof new_holdsb_all as K. rewrite forallb_forall in K. specialize (K _ (assoc_In _ _ _ L1)). cbn [fst] in K. rewrite L in K. apply orb_prop in K as [K|K]; [apply mem_In in K; contradiction|].
  unfold new_holdsb in K. rewrite Er, El, String.eqb_refl in K. cbn [andb] in K. destruct (read the_prog h es (getA the_prog ce at_)) as [w|] eqn:ER; [|discriminate].
  destruct (locs h es (getA the_prog ce at_)) as [q|] eqn:EL; [|discriminate]. apply nodupn_NoDup in K.
  destruct (tidy_inv _ _ _ tidyS L1) as [S1 S2]. destruct (read_rep the_prog es S1 S2 _ _ _ ER) as (q' & HR). specialize (HR w (fun _ _ => eq_refl)).
  rewrite (rep_locs _ _ _ _ _ _ HR EL) in HR. do 2 eexists. split; [eapply (new_fuel the_prog new_fuel_ n ce []); [unfold fuel_ok, need, G, Dp, new_fuel_ in *; lia|exact E|discriminate]|].
  assert (Old : forall l x r, nth_error (heap s) l = Some x -> nth_error (heap s ++ r) l = Some x) by (intros; rewrite nth_error_app1; [assumption|eapply lt_of; eauto]).
  cbn [heap out]. split; [|split; [reflexivity|intros; now apply Old]].
  assert (Al : forall z, In z (concat qs) -> exists ob, nth_error (heap s) z = Some ob).
  { clear -HX. induction HX as [|u x p vs xs qs HI _ IH]; intros z Hz; cbn [concat] in Hz; [destruct Hz|]. apply in_app_or in Hz as [Hz|Hz]; [|auto].
    destruct HI as (l1 & a1 & w1 & p1 & -> & Hl1 & -> & Re & ->). destruct Hz as [<-|Hz]; [eauto|]. eapply rep_alive; eauto. }
  exists W, l0, fp0, (xs ++ [WObj w]), (qs ++ [map (fun l => length (heap s) + l)%nat (l :: q)]). split; [|split].
  - exists at0. split; [reflexivity|]. split; [now apply Old|]. split; [|exact HN0]. eapply rep_ext; [exact HR0| |auto|auto].
    intros y Hy. destruct (rep_alive _ _ _ _ _ HR0 _ Hy) as (x & Hx'). rewrite Hx'. now apply Old.
  - apply Forall3_app.
    + cbn [item] in *. eapply elems_ext; [exact HX|]. intros z Hz. destruct (Al z Hz) as (ob & Hob). rewrite Hob. now apply Old.
    + constructor; [|constructor]. cbn [item]. exists (length (heap s) + l)%nat, (shift_env (length (heap s)) at_), w, (map (fun l => length (heap s) + l)%nat q). split; [reflexivity|].
      split; [now apply nth_shift with (o := HInst ce at_)|]. split; [reflexivity|]. split; [eapply rep_shift; eauto; intros; apply getA_shift|reflexivity].
  - rewrite concat_app, app_assoc. cbn [concat]. rewrite app_nil_r. apply NoDup_app; [exact HN|apply FinFun.Injective_map_NoDup; [intros x y Hxy; lia|exact K]|].
    intros x Hx1 Hx2. assert (x < length (heap s))%nat.
    { apply in_app_or in Hx1 as [[<-|Hx1]|Hx1]; [eapply lt_of; eauto|destruct (rep_alive _ _ _ _ _ HR0 _ Hx1) as (y & Hy); eapply lt_of; eauto|destruct (Al _ Hx1) as (y & Hy); eapply lt_of; eauto]. }
    apply in_map_iff in Hx2 as (y & <- & _). lia.
Qed.

Lemma app_inj_len {A} : forall (a b c d : list A), a ++ b = c ++ d -> length a = length c -> a = c /\ b = d.
Proof. induction a as [|x a IH]; intros b [|y c] d E Hl; try discriminate; [auto|]. injection E as -> E. destruct (IH _ _ _ E) as [-> ->]; auto. Qed.
Lemma item_frame h h' j u x q : item h j u x q -> (forall z, In z q -> nth_error h' z = nth_error h z) -> item h' j u x q.
Proof. destruct j; cbn [item]; auto. intros HI Hq. eapply elem_rep_ext; eauto. Qed.
Lemma element_frame n s s1 j u x q b : (fuel_ok <= n)%nat -> item (heap s) j u x q -> NoDup q -> (forall z, In z q -> nth_error (heap s1) z = nth_error (heap s) z) -> element_bytes n s j u b -> element_bytes n s1 j u b.
Proof.
  intros Hn HI Hq Hf Hb. eapply outcome_element; [exact Hn| |eapply item_frame; eauto|exact Hq|eapply element_outcome; eauto]. intros ce es ->. exact (proj1 Hb).
Qed.
(** assigning to an attribute of the object, or of one of its parts, keeps it separate from the new elements, and leaves their bytes as they are *)
Theorem C94_assign_object n c f s o j news path t p off y x s1 : (fuel_ok <= n)%nat -> separate_all (heap s) c f o j news -> type_at f path t = Some (p, off) -> scal y = Some x ->
  assign n o path t y s = (Ok tt, s1) ->
  separate_all (heap s1) c f o j news /\ forall u b, In u news -> element_bytes n s j u b -> element_bytes n s1 j u b.
Proof.
  intros Hn (W & l & fp & xs & qs & (at_ & -> & Hl & HR & HN1) & HX & HN) HT Hx HA.
  destruct (assign_ind n t y path f p off s l c at_ W fp s1 HT Hl HR HN1 HA) as (lu & ob & Hin & E1 & W' & _ & HW). destruct (HW x Hx) as (at2 & Hl2 & HR2).
  pose proof HN as ND. apply NoDup_app_parts in ND as (_ & NQ & ND).
  assert (Ne : forall z, In z (concat qs) -> nth_error (heap s1) z = nth_error (heap s) z) by (intros z Hz; subst s1; cbn [heap]; apply set_nth_ne; intros ->; exact (ND _ Hin Hz)).
  split.
  - exists (W' x), l, fp, xs, qs. split; [exists at2; auto|]. split; [|exact HN]. eapply Forall3_impl; [|exact HX]. intros u z q Hq HI. eapply item_frame; [exact HI|]. intros k Hk. apply Ne. apply in_concat. eauto.
  - intros u b Hu Hb. destruct (Forall3_in_l _ _ _ _ _ HX Hu) as (z & q & Hq & HI). eapply element_frame; [exact Hn|exact HI|eapply NoDup_concat_in; eauto| |exact Hb]. intros k Hk. apply Ne. apply in_concat. eauto.
Qed.
(** assigning to an attribute of a new element keeps it separate, and leaves the bytes of the object and of the other new elements as they are *)
Theorem C94_assign_new n c f s o ce es n1 u n2 path t p off y x s1 : (fuel_ok <= n)%nat -> separate_all (heap s) c f o (SRecords ce es) (n1 ++ u :: n2) -> type_at es path t = Some (p, off) -> scal y = Some x ->
  assign n u path t y s = (Ok tt, s1) ->
  separate_all (heap s1) c f o (SRecords ce es) (n1 ++ u :: n2) /\ (forall v b, In v (n1 ++ n2) -> element_bytes n s (SRecords ce es) v b -> element_bytes n s1 (SRecords ce es) v b) /\
  forall bs, layout c = Some f -> serialize n o s = (Ok VNone, appended s bs) -> serialize n o s1 = (Ok VNone, appended s1 bs).
Proof.
  intros Hn (W & l & fp & xs & qs & (at_ & -> & Hl & HR & HN1) & HX & HN) HT Hx HA.
  assert (Hi : nth_error (n1 ++ u :: n2) (length n1) = Some u) by (rewrite nth_error_app2, Nat.sub_diag by lia; reflexivity).
  destruct (Forall3_split _ _ _ _ _ _ HX Hi) as (m1 & m2 & x0 & x1 & x2 & q & q1 & q2 & E & -> & -> & L1 & L2 & (l' & at' & w & r & -> & Hl' & -> & HR' & ->) & F1 & F2).
  apply app_inj_len in E as [<- E]; [|now symmetry]. injection E as <-. 
  rewrite concat_app in HN. cbn [concat] in HN.
  assert (HP : Permutation ((l :: fp) ++ concat q1 ++ (l' :: r) ++ concat q2) ((l' :: r) ++ ((l :: fp) ++ concat q1 ++ concat q2))).
  { rewrite (app_assoc (l :: fp)), (app_assoc (l :: fp) (concat q1) (concat q2)). apply Permutation_app_swap_app. }
  pose proof (Permutation_NoDup HP HN) as N. apply NoDup_app_parts in N as (N1 & N2 & N3).
  destruct (assign_ind n t y path es p off s l' ce at' w r s1 HT Hl' HR' N1 HA) as (lu & ob & Hin & E1 & W' & _ & HW). destruct (HW x Hx) as (at2 & Hl2 & HR2).
  assert (Ne : forall z, In z ((l :: fp) ++ concat q1 ++ concat q2) -> nth_error (heap s1) z = nth_error (heap s) z) by (intros z Hz; subst s1; cbn [heap]; apply set_nth_ne; intros ->; exact (N3 _ Hin Hz)).
  assert (HR3 : rep the_prog (heap s1) f (getA the_prog c at_) W fp) by (eapply rep_ext; [exact HR|intros z Hz; apply Ne; apply in_or_app; left; now right|auto|auto]).
  assert (Hl3 : nth_error (heap s1) l = Some (HInst c at_)) by (rewrite Ne by (now left); exact Hl).
  assert (Fr : forall vs ws fs, Forall3 (item (heap s) (SRecords ce es)) vs ws fs -> (forall z, In z (concat fs) -> In z (concat q1 ++ concat q2)) -> Forall3 (item (heap s1) (SRecords ce es)) vs ws fs).
  { intros vs ws fs HF Hs. eapply Forall3_impl; [|exact HF]. intros v z k Hk HI. eapply item_frame; [exact HI|]. intros i Hii. apply Ne. apply in_or_app. right. apply Hs. apply in_concat. eauto. }
  split; [|split].
  - exists W, l, fp, (x1 ++ WObj (W' x) :: x2), (q1 ++ (l' :: r) :: q2). split; [exists at_; auto|]. split; [|rewrite concat_app; exact HN].
    apply Forall3_app; [apply Fr; [exact F1|intros; apply in_or_app; now left]|]. constructor; [|apply Fr; [exact F2|intros; apply in_or_app; now right]]. exists l', at2, (W' x), r. auto.
  - intros v b Hv Hb. destruct (Forall3_in_l _ _ _ _ _ (Forall3_app _ _ _ _ _ _ _ F1 F2) Hv) as (z & k & Hk & HI). apply NoDup_app_parts in N2 as (_ & N2 & _). rewrite <- concat_app in N2.
    eapply element_frame; [exact Hn|exact HI|eapply NoDup_concat_in; eauto| |exact Hb]. intros i Hii. apply Ne. apply in_or_app. right. rewrite <- concat_app. apply in_concat. eauto.
  - intros bs L HS. destruct (layout_inv _ _ L) as (L0 & _). assert (HH : holds the_prog (heap s) c f (VRef l) W) by (exists l, fp, at_; auto). assert (HH3 : holds the_prog (heap s1) c f (VRef l) W) by (exists l, fp, at_; auto).
    unfold serialize in *. rewrite (serialize_holds n c f _ s W Hn L0 HH) in HS. apply ok_bytes in HS. now rewrite (serialize_holds n c f _ s1 W Hn L0 HH3), HS.
Qed.

(** whether objects are separate can be computed *)
Definition parts (h : list hobj) (c : string) (f : fmt) (v : val) : option (flds * list nat) :=
  match v with
  | VRef l => match nth_error h l with
              | Some (HInst c' at_) => if String.eqb c' c then match read the_prog h f (getA the_prog c at_), locs h f (getA the_prog c at_) with Some w, Some q => Some (w, l :: q) | _, _ => None end else None
              | _ => None
              end
  | _ => None
  end.
Lemma parts_sound h c f v w r : layout c = Some f -> parts h c f v = Some (w, r) -> exists l at_ q, v = VRef l /\ nth_error h l = Some (HInst c at_) /\ rep the_prog h f (getA the_prog c at_) w q /\ r = l :: q.
Proof.
  intros L H. destruct (layout_inv _ _ L) as (L1 & _). destruct (tidy_inv _ _ _ tidyS L1) as [S1 S2]. unfold parts in H. destruct v; try discriminate. destruct (nth_error h l) as [[c' at_|]|] eqn:Hl; try discriminate.
  destruct (String.eqb c' c) eqn:Ec; [|discriminate]. apply String.eqb_eq in Ec. subst c'. destruct (read the_prog h f (getA the_prog c at_)) as [w'|] eqn:ER; [|discriminate]. destruct (locs h f (getA the_prog c at_)) as [q|] eqn:EL; [|discriminate].
  injection H as <- <-. destruct (read_rep the_prog f S1 S2 _ _ _ ER) as (q' & HR). specialize (HR w' (fun _ _ => eq_refl)). rewrite (rep_locs _ _ _ _ _ _ HR EL) in HR. exists l, at_, q. auto.
Qed.
Fixpoint parts_all (h : list hobj) (c : string) (f : fmt) (vs : list val) : option (list (list nat)) :=
  match vs with [] => Some [] | v :: r => match parts h c f v, parts_all h c f r with Some (_, q), Some qs => Some (q :: qs) | _, _ => None end end.
Lemma separate_check h c f o ce es vs w r qs : layout c = Some f -> layout ce = Some es -> parts h c f o = Some (w, r) -> parts_all h ce es vs = Some qs -> nodupn (r ++ concat qs) = true -> separate_all h c f o (SRecords ce es) vs.
Proof.
  intros L Le H1 H2 H3. apply nodupn_NoDup in H3. destruct (parts_sound _ _ _ _ _ _ L H1) as (l & at_ & q & -> & Hl & HR & ->).
  assert (HF : exists xs, Forall3 (item h (SRecords ce es)) vs xs qs).
  { clear -H2 Le. revert qs H2. induction vs as [|v vs IH]; intros qs H2; cbn [parts_all] in H2; [injection H2 as <-; exists []; constructor|].
    destruct (parts h ce es v) as [[x q]|] eqn:E; [|discriminate]. destruct (parts_all h ce es vs) as [qs'|]; [|discriminate]. injection H2 as <-. destruct (IH _ eq_refl) as (xs & HF).
    destruct (parts_sound _ _ _ _ _ _ Le E) as (l' & at' & q' & -> & Hl' & HR' & ->). exists (WObj x :: xs). constructor; [|exact HF]. exists l', at', x, q'. auto. }
  destruct HF as (xs & HF). exists w, l, q, xs, qs. split; [|split; [exact HF|exact H3]]. exists at_. split; [reflexivity|]. split; [exact Hl|]. split; [exact HR|]. now apply NoDup_app_parts in H3 as (H3 & _).
Qed.

(** ** Cases *)
(** pdu = EntityStatePdu(); v1, v2, v3 = VariableParameter() three times, of recordType 1, 2, 3 *)
Definition made (s : st) : val * st := match new the_prog 50 "VariableParameter" [] s with (Ok v, s') => (v, s') | (_, s') => (VNone, s') end.
Definition typed (k : Z) (s : st) : val * st := let '(v, s') := made s in (v, snd (assign 50 v [] (TAttr "recordType") (VInt k) s')).
Definition p1 : val * st := Eval vm_compute in typed 1 es_0.
Definition p2 : val * st := Eval vm_compute in typed 2 (snd p1).
Definition p3 : val * st := Eval vm_compute in typed 3 (snd p2).
Definition v1 : val := Eval vm_compute in fst p1.  Definition v2 : val := Eval vm_compute in fst p2.  Definition v3 : val := Eval vm_compute in fst p3.
Definition t0 : st := Eval vm_compute in snd p3.
(** v1 and v2 are appended; then the elements become v3, v1; then v3 is removed *)
Definition t1 : st := Eval vm_compute in snd (extend 50 es_o [] "variableParameters" [v1; v2] t0).
Definition t2 : st := Eval vm_compute in snd (set_elements 50 es_o [] "variableParameters" [v3; v1] t1).
Definition t3 : st := Eval vm_compute in snd (set_elements 50 es_o [] "variableParameters" [v1] t2).
Definition bytes (v : val) (s : st) : list byte := out (snd (serialize 50 v s)).
Example C94_case :
  extend 50 es_o [] "variableParameters" [v1; v2] t0 = (Ok tt, t1) /\ set_elements 50 es_o [] "variableParameters" [v3; v1] t1 = (Ok tt, t2) /\ set_elements 50 es_o [] "variableParameters" [v1] t2 = (Ok tt, t3) /\
  length (bytes v1 t0) = 16%nat /\ map (fun v => nth_error (bytes v t0) 0) [v1; v2; v3] = [Some x01; Some x02; Some x03] /\ length (bytes es_o t0) = 144%nat /\
  let before := firstn 19 (bytes es_o t0) in let gap := skipn 20 (bytes es_o t0) in
  bytes es_o t0 = before ++ [x00] ++ gap /\ bytes es_o t1 = before ++ [x02] ++ gap ++ bytes v1 t0 ++ bytes v2 t0 /\ bytes es_o t2 = before ++ [x02] ++ gap ++ bytes v3 t0 ++ bytes v1 t0 /\ bytes es_o t3 = before ++ [x01] ++ gap ++ bytes v1 t0.
Proof. repeat (split; [vm_compute; reflexivity|]). vm_compute. reflexivity. Qed.
(** these steps meet the hypotheses of the theorems *)
Example C94_case_applies : exists f d l, layout "EntityStatePdu" = Some f /\ list_at f [] "variableParameters" = Some d /\ list_of 50 es_o [] "variableParameters" t0 = (Ok (VRef l), t0) /\
  nth_error (heap t0) l = Some (HList []) /\ nth_error (heap t1) l = Some (HList [v1; v2]) /\
  separate_all (heap t0) "EntityStatePdu" f es_o (cl_elem d) [v1; v2] /\ Forall2 (element_bytes 50 t0 (cl_elem d)) [v1; v2] [bytes v1 t0; bytes v2 t0] /\
  separate_all (heap t1) "EntityStatePdu" f es_o (cl_elem d) [v3] /\ Forall2 (element_bytes 50 t1 (cl_elem d)) [v3] [bytes v3 t1] /\ drawn (cl_elem d) [v3; v1] [v1; v2] [v3] /\
  unshared (heap t2) "EntityStatePdu" f es_o /\ serialize 50 es_o t0 = (Ok VNone, appended t0 (bytes es_o t0)).
Proof.
  assert (L : layout "VariableParameter" = Some w_VariableParameter) by (vm_compute; reflexivity). assert (LE : layout "EntityStatePdu" = Some w_EntityStatePdu) by (vm_compute; reflexivity).
  exists w_EntityStatePdu. do 2 eexists. split; [exact LE|]. split; [vm_compute; reflexivity|]. split; [vm_compute; reflexivity|]. split; [vm_compute; reflexivity|]. split; [vm_compute; reflexivity|]. cbn [cl_elem]. 
  assert (F : (fuel_ok <= 50)%nat) by (apply Nat.leb_le; vm_compute; reflexivity). set (J := SRecords "VariableParameter" w_VariableParameter).
  assert (S : separate_all (heap t0) "EntityStatePdu" w_EntityStatePdu es_o J [v1; v2; v3]) by (eapply (separate_check _ _ _ _ _ w_VariableParameter _ _ _ _ LE L); vm_compute; reflexivity).
  assert (S12 : separate_all (heap t0) "EntityStatePdu" w_EntityStatePdu es_o J [v1; v2]) by (eapply (separate_check _ _ _ _ _ w_VariableParameter _ _ _ _ LE L); vm_compute; reflexivity).
  assert (S3 : separate_all (heap t1) "EntityStatePdu" w_EntityStatePdu es_o J [v3]).
  { eapply (proj1 (C94_rest 50 "EntityStatePdu" w_EntityStatePdu t0 es_o [] "variableParameters" _ _ [] [v1; v2] [v3] [v1; v2] t1 F LE ltac:(vm_compute; reflexivity) ltac:(vm_compute; reflexivity) ltac:(vm_compute; reflexivity) S _ ltac:(vm_compute; reflexivity))).
    Unshelve. split; [cbn [In]; intuition|repeat (constructor; [cbn; intuition discriminate|]); constructor]. }
  assert (D : drawn J [v3; v1] [v1; v2] [v3]) by (split; [cbn [In]; intuition|repeat (constructor; [cbn; intuition discriminate|]); constructor]).
  assert (B3 : Forall2 (element_bytes 50 t1 J) [v3] [bytes v3 t1]) by (repeat (constructor; [split; vm_compute; reflexivity|]); constructor).
  split; [exact S12|]. split; [repeat (constructor; [split; vm_compute; reflexivity|]); constructor|]. split; [exact S3|]. split; [exact B3|]. split; [exact D|]. split; [|vm_compute; reflexivity].
  destruct (C94_rewrite 50 "EntityStatePdu" w_EntityStatePdu t1 es_o [] "variableParameters" _ _ [v1; v2] [v3] _ [v3; v1] (bytes es_o t1) t2 F LE ltac:(vm_compute; reflexivity) ltac:(vm_compute; reflexivity) ltac:(vm_compute; reflexivity) S3 B3 D ltac:(vm_compute; reflexivity) ltac:(vm_compute; reflexivity)) as (_ & _ & _ & U & _). exact U.
Qed.

(** a received Entity State PDU with two variable parameters, which are exchanged *)
Definition es_mixed : list byte := [x07; x01; x01; x01] ++ repeat x00 15 ++ [x02] ++ repeat x11 124 ++ repeat x22 16 ++ repeat x33 16.
Definition rx : val * st := Eval vm_compute in match factory 50 [] es_mixed with (Ok o, s) => (o, s) | (_, s) => (VNone, s) end.
Example C94_received : exists f d W ll u1 u2 s1, exact_layout "EntityStatePdu" f /\ factory 50 [] es_mixed = (Ok (fst rx), snd rx) /\ contents the_prog (heap (snd rx)) "EntityStatePdu" f (fst rx) = Some W /\ nonan f W = true /\
  list_at f [] "variableParameters" = Some d /\ list_of 50 (fst rx) [] "variableParameters" (snd rx) = (Ok (VRef ll), snd rx) /\ nth_error (heap (snd rx)) ll = Some (HList [u1; u2]) /\ drawn (cl_elem d) [u2; u1] [u1; u2] [] /\
  set_elements 50 (fst rx) [] "variableParameters" [u2; u1] (snd rx) = (Ok tt, s1) /\ out (snd (serialize 50 (fst rx) s1)) = firstn 144 es_mixed ++ repeat x33 16 ++ repeat x22 16.
Proof.
  do 7 eexists. split; [split; vm_compute; reflexivity|]. split; [vm_compute; reflexivity|]. split; [vm_compute; reflexivity|]. split; [vm_compute; reflexivity|]. split; [vm_compute; reflexivity|].
  split; [vm_compute; reflexivity|]. split; [vm_compute; reflexivity|]. split; [split; [cbn [In]; intuition|repeat (constructor; [cbn; intuition discriminate|]); constructor]|]. split; [vm_compute; reflexivity|]. vm_compute. reflexivity.
Qed.

Definition all_PropRewrite := (C94_rewrite, C94_rest, C94_remove, C94_appends, C94_new, C94_assign_object, C94_assign_new, C94_read_modify_write, C94_goes_through, C94_case, C94_case_applies, C94_received).
Print Assumptions all_PropRewrite.
