(** * C95: what a program may do with the objects it makes and receives (opendis/dis7.py: every class's constructor, parse and serialize) *)
From Coq Require Import ZArith String List Bool Lia Permutation.
From Coq Require Import Strings.Byte.
From Verif Require Import Lang Bytes Interp Shift Mono ProgBase ProgDis Prog Spec Codec Codec2 Rep Dec StreamLem SerSound ParSound ParStep ParClass NewSound Layouts Refine Api StreamApi Classes PropCodec CtorRun PropFactory PropOffsets Assign PropAssign Append PropAppend Rewrite PropRewrite Replace PropReplace PropAccept Client.
Import ListNotations.
Open Scope string_scope. Open Scope Z_scope. Open Scope list_scope.

(** ** Specification *)
(** the objects a program has at hand, each with its class, and the state of the interpreter *)
Definition world : Type := list (string * val) * st.
(** the new elements us of a list, and the objects back that the program keeps at hand, come from the elements vs the list had and from the objects ts; no object is used twice.  Numbers may be any and any number of times *)
Definition takes (j : spot) (us back vs : list val) (ts : list (string * val)) : Prop :=
  match j with
  | SRecords ce _ => NoDup (us ++ back) /\ forall u, In u (us ++ back) -> In u vs \/ In (ce, u) ts
  | SItems _ => back = [] /\ forall u, In u us -> exists w, scal u = Some w
  | _ => False
  end.
Definition elem_class (j : spot) : string := match j with SRecords ce _ => ce | _ => "" end.
(** one thing a program may do; w is the object it does it to *)
Inductive does (n : nat) : option val -> world -> world -> Prop :=
| do_new c v P s s' : layout c <> None -> ~ In c not_readable_new -> new the_prog n c [] s = (Ok v, s') ->
    does n None (P, s) ((c, v) :: P, s') (* v = c() *)
| do_parse c data v P s s' : layout c <> None -> load the_prog n c (mkst (heap s) data data (out s)) = (Ok v, s') ->
    does n None (P, s) ((c, v) :: P, s') (* v = c(); v.parse(DataInputStream(data)) *)
| do_assign c f o path t p off y x P s s' : In (c, o) P -> layout c = Some f -> type_at f path t = Some (p, off) -> scal y = Some x -> assign n o path t y s = (Ok tt, s') ->
    does n (Some o) (P, s) (P, s') (* o.path.t = y *)
| do_elements c f o path a d ll vs us back ts more P s s' : Permutation P ((c, o) :: ts ++ more) -> layout c = Some f -> list_at f path a = Some d ->
    list_of n o path a s = (Ok (VRef ll), s) -> nth_error (heap s) ll = Some (HList vs) -> takes (cl_elem d) us back vs ts -> set_elements n o path a us s = (Ok tt, s') ->
    does n (Some o) (P, s) ((c, o) :: map (pair (elem_class (cl_elem d))) back ++ more, s') (* o.path.a[:] = us *)
| do_record c f o path a dc e off v old back more P s s' : Permutation P ((c, o) :: (dc, v) :: more) -> layout c = Some f -> record_at f path a = Some (dc, e, off) ->
    reach n o (path ++ [Attr a]) s = (Ok old, s) -> (back = [] \/ back = [(dc, old)]) -> assign n o path (TAttr a) v s = (Ok tt, s') ->
    does n (Some o) (P, s) ((c, o) :: back ++ more, s') (* o.path.a = v, v a record; the program may keep the old one at hand *)
| do_reparse c f o data r P s s' : In (c, o) P -> layout c = Some f -> has_bits f = false -> call_method the_prog n o "parse" [VIn] (mkst (heap s) data data (out s)) = (Ok r, s') ->
    does n (Some o) (P, s) (P, s') (* o.parse(DataInputStream(data)), into the object there is *)
| do_serialize c o r P s s' : In (c, o) P -> serialize n o s = (r, s') ->
    does n None (P, s) (P, s'). (* o.serialize(stream), with or without an exception *)
(** any number of such things, one after the other, by a program that starts with no objects *)
Inductive reaches (n : nat) : list (string * val) -> st -> Prop :=
| reach_start s : reaches n [] s
| reach_step w P s P' s' : reaches n P s -> does n w (P, s) (P', s') -> reaches n P' s'.

(** ** Lemmas *)
Definition tree (h : list hobj) (x : string * val) (q : list nat) : Prop := exists f w, layout (fst x) = Some f /\ elem_rep the_prog h (fst x) f (snd x) w q.
Definition forest (h : list hobj) (P : list (string * val)) (qs : list (list nat)) : Prop := Forall2 (tree h) P qs /\ NoDup (concat qs).

Lemma tree_frame h h' x q : tree h x q -> (forall z, In z q -> nth_error h' z = nth_error h z) -> tree h' x q.
Proof. intros (f & w & L & H) Hf. exists f, w. split; [exact L|]. eapply elem_rep_ext; eauto. Qed.
Lemma trees_frame h h' P qs : Forall2 (tree h) P qs -> (forall z, In z (concat qs) -> nth_error h' z = nth_error h z) -> Forall2 (tree h') P qs.
Proof.
  induction 1 as [|x q P qs H _ IH]; intros Hf; [constructor|]. cbn [concat] in Hf. constructor; [eapply tree_frame; [exact H|]|apply IH]; intros z Hz; apply Hf; apply in_or_app; auto.
Qed.
Lemma trees_alive h P qs z : Forall2 (tree h) P qs -> In z (concat qs) -> (z < length h)%nat.
Proof.
  induction 1 as [|x q P qs (f & w & _ & (l & at_ & w' & r & _ & Hl & _ & HR & ->)) _ IH]; intros Hz; [destruct Hz|]. cbn [concat] in Hz. apply in_app_or in Hz as [[<-|Hz]|Hz]; auto; [eapply lt_of; eauto|].
  destruct (rep_alive _ _ _ _ _ HR _ Hz) as (y & Hy). eapply lt_of; eauto.
Qed.
Lemma Permutation_concat {A} (l m : list (list A)) : Permutation l m -> Permutation (concat l) (concat m).
Proof.
  induction 1; cbn [concat]; [reflexivity|now apply Permutation_app_head| |etransitivity; eauto]. apply Permutation_app_swap_app.
Qed.
Lemma forest_perm h P P' qs : Permutation P P' -> forest h P qs -> exists qs', forest h P' qs' /\ Permutation qs qs'.
Proof.
  intros HP [HF HN]. destruct (Permutation_Forall2 HP HF) as (qs' & Hq & HF'). exists qs'. split; [split; [exact HF'|]|exact Hq]. eapply Permutation_NoDup; [|exact HN]. now apply Permutation_concat.
Qed.
Lemma forest_front h P qs x : forest h P qs -> In x P -> exists r q qs', Permutation P (x :: r) /\ forest h (x :: r) (q :: qs').
Proof.
  intros HF Hx. apply in_split in Hx as (l1 & l2 & ->). assert (HP : Permutation (l1 ++ x :: l2) (x :: l1 ++ l2)) by (apply Permutation_sym, Permutation_middle).
  destruct (forest_perm _ _ _ _ HP HF) as (qs' & HF' & _). pose proof HF' as [H _]. inversion H as [|? q ? qs'' _ _]; subst. exists (l1 ++ l2), q, qs''. auto.
Qed.

(** the objects of class ce among ts *)
Lemma of_class h ce es ts tq : layout ce = Some es -> Forall2 (tree h) ts tq ->
  exists news xs qs r, Forall3 (item h (SRecords ce es)) news xs qs /\ Permutation (concat tq) (concat qs ++ r) /\ forall u, In (ce, u) ts -> In u news.
Proof.
  intros L. induction 1 as [|[c v] q ts tq (f & w & L' & H) _ (news & xs & qs & r & F & HP & HI)]; [exists [], [], [], []; split; [constructor|split; [reflexivity|intros u []]]|]. cbn [fst snd] in *.
  destruct (string_dec c ce) as [->|Hc].
  - rewrite L in L'. injection L' as <-. exists (v :: news), (w :: xs), (q :: qs), r. split; [constructor; [exact H|exact F]|]. split; [cbn [concat]; rewrite <- app_assoc; now apply Permutation_app_head|].
    intros u [E|Hu]; [injection E as <-; now left|right; auto].
  - exists news, xs, qs, (q ++ r). split; [exact F|]. split; [cbn [concat]; transitivity (q ++ concat qs ++ r); [now apply Permutation_app_head|apply Permutation_app_swap_app]|].
    intros u [E|Hu]; [congruence|auto].
Qed.
Lemma Forall3_app_inv {A B C} (R : A -> B -> C -> Prop) l1 : forall l2 m n, Forall3 R (l1 ++ l2) m n -> exists m1 m2 n1 n2, m = m1 ++ m2 /\ n = n1 ++ n2 /\ Forall3 R l1 m1 n1 /\ Forall3 R l2 m2 n2.
Proof.
  induction l1 as [|x l1 IH]; intros l2 m n H; cbn [app] in H; [exists [], m, [], n; repeat split; [constructor|exact H]|]. inversion H as [|? y z ? m' n' Hx H']; subst.
  destruct (IH _ _ _ H') as (m1 & m2 & n1 & n2 & -> & -> & H1 & H2). exists (y :: m1), m2, (z :: n1), n2. repeat split; [now constructor|exact H2].
Qed.
(** the new elements and the objects kept, with their heap locations *)
Lemma takes_items h d vs ws fps ts tq us back : known d -> Forall3 (item h (cl_elem d)) vs ws fps -> Forall2 (tree h) ts tq -> takes (cl_elem d) us back vs ts ->
  exists wn un bq r, Forall3 (item h (cl_elem d)) us wn un /\ Forall2 (tree h) (map (pair (elem_class (cl_elem d))) back) bq /\ Permutation (concat fps ++ concat tq) (concat un ++ concat bq ++ r).
Proof.
  unfold known. intros HK F HT HD. destruct (cl_elem d) as [|cc ff|ce es|k|q]; cbn [takes elem_class] in *; try contradiction.
  - destruct HD as [HN HI]. destruct (of_class h ce es ts tq HK HT) as (news & xs & qs & r & F2 & HP & HIn).
    destruct (drawn_items h (SRecords ce es) vs ws fps news xs qs (us ++ back) F F2) as (wn & fpn & r2 & F3 & HP2); [split; [|exact HN]; intros u Hu; destruct (HI u Hu); auto|].
    apply Forall3_app_inv in F3 as (w1 & w2 & un & bq & -> & -> & F3 & F4). exists w1, un, bq, (r2 ++ r). split; [exact F3|]. split.
    + clear -F4 HK. induction F4 as [|u x q us ws fps H _ IH]; cbn [map]; constructor; [|exact IH]. exists es, x. cbn [fst snd]. auto.
    + transitivity (concat fps ++ concat qs ++ r); [now apply Permutation_app_head|]. rewrite app_assoc, <- concat_app. rewrite concat_app in HP2 at 1. rewrite concat_app.
      rewrite !concat_app in HP2. transitivity (((concat un ++ concat bq) ++ r2) ++ r); [now apply Permutation_app_tail|]. now rewrite <- !app_assoc.
  - destruct HD as [-> HS]. destruct (all_have (fun v w => scal v = Some w) us HS) as (wn & Hw). destruct (no_objects_items h q us wn Hw) as (un & F3 & HC).
    exists wn, un, [], (concat fps ++ concat tq). split; [exact F3|]. split; [constructor|]. rewrite HC. reflexivity.
Qed.

Lemma does_new n c v s s' P qs : (fuel_ok <= n)%nat -> layout c <> None -> ~ In c not_readable_new -> new the_prog n c [] s = (Ok v, s') -> forest (heap s) P qs ->
  exists q, forest (heap s') ((c, v) :: P) (q :: qs) /\ forall z, (z < length (heap s))%nat -> nth_error (heap s') z = nth_error (heap s) z.
Proof.
  intros Hn L0 Hx EN [HF HN]. destruct (layout c) as [f|] eqn:L; [clear L0|congruence]. destruct (layout_inv _ _ L) as (L1 & L2 & HC). destruct (new_at_NC c f L2 HC s) as (h & l & at_ & fp & E & Er & El & _ & _).
  pose proof new_holdsb_all as K. rewrite forallb_forall in K. specialize (K _ (assoc_In _ _ _ L1)). cbn [fst] in K. rewrite L in K. apply orb_prop in K as [K|K]; [apply mem_In in K; contradiction|].
  unfold new_holdsb in K. rewrite Er, El, String.eqb_refl in K. cbn [andb] in K. destruct (read the_prog h f (getA the_prog c at_)) as [w|] eqn:ER; [|discriminate].
  destruct (locs h f (getA the_prog c at_)) as [q|] eqn:EL; [|discriminate]. apply nodupn_NoDup in K.
  destruct (tidy_inv _ _ _ tidyS L1) as [S1 S2]. destruct (read_rep the_prog f S1 S2 _ _ _ ER) as (q' & HR). specialize (HR w (fun _ _ => eq_refl)).
  rewrite (rep_locs _ _ _ _ _ _ HR EL) in HR. erewrite (new_fuel the_prog new_fuel_ n c []) in EN; [|unfold fuel_ok, need, G, Dp, new_fuel_ in *; lia|exact E|discriminate].
  injection EN as <- <-. cbn [heap]. assert (Old : forall z r, (z < length (heap s))%nat -> nth_error (heap s ++ r) z = nth_error (heap s) z) by (intros; now apply nth_error_app1).
  exists (map (fun l => length (heap s) + l)%nat (l :: q)). split; [|intros; now apply Old]. split.
  - constructor; [|eapply trees_frame; [exact HF|]; intros z Hz; apply Old; eapply trees_alive; eauto]. exists f, (WObj w). cbn [fst snd]. split; [exact L|].
    exists (length (heap s) + l)%nat, (shift_env (length (heap s)) at_), w, (map (fun l => length (heap s) + l)%nat q). split; [reflexivity|].
    split; [now apply nth_shift with (o := HInst c at_)|]. split; [reflexivity|]. split; [eapply rep_shift; eauto; intros; apply getA_shift|reflexivity].
  - cbn [concat]. apply NoDup_app; [apply FinFun.Injective_map_NoDup; [intros x y Hxy; lia|exact K]|exact HN|].
    intros x Hx1 Hx2. apply (trees_alive _ _ _ _ HF) in Hx2. apply in_map_iff in Hx1 as (y & <- & _). lia.
Qed.
Lemma does_parse n c v s s' P qs : (fuel_ok <= n)%nat -> layout c <> None -> load the_prog n c s = (Ok v, s') -> forest (heap s) P qs ->
  exists q, forest (heap s') ((c, v) :: P) (q :: qs) /\ forall z, (z < length (heap s))%nat -> nth_error (heap s') z = nth_error (heap s) z.
Proof.
  intros Hn L0 E [HF HN]. destruct (layout c) as [f|] eqn:L; [clear L0|congruence]. destruct (layout_inv _ _ L) as (_ & L2 & HC). pose proof (load_spec n c f s Hn L2 HC) as H. destruct (decode f [] [] (irest s)) as [W r|e].
  - destruct H as (o1 & s2 & l & fp & A & (at_ & -> & Hl & HR & HND) & _ & Hnew & [_ Hfr] & _). rewrite E in A. injection A as -> ->.
    assert (Old : forall z, (z < length (heap s))%nat -> nth_error (heap s2) z = nth_error (heap s) z) by (intros; apply Hfr; auto).
    exists (l :: fp). split; [|exact Old]. split.
    + constructor; [|eapply trees_frame; [exact HF|]; intros z Hz; apply Old; eapply trees_alive; eauto]. exists f, (WObj W). cbn [fst snd]. split; [exact L|]. exists l, at_, W, fp. auto.
    + cbn [concat]. apply NoDup_app; [exact HND|exact HN|]. intros x Hx1 Hx2. apply (trees_alive _ _ _ _ HF) in Hx2. specialize (Hnew _ Hx1). lia.
  - destruct H as (s2 & A). rewrite E in A. discriminate.
Qed.
Lemma does_assign n c f o path t p off y x s s' r q qs : layout c = Some f -> type_at f path t = Some (p, off) -> scal y = Some x -> assign n o path t y s = (Ok tt, s') -> forest (heap s) ((c, o) :: r) (q :: qs) ->
  forest (heap s') ((c, o) :: r) (q :: qs) /\ forall z, In z (concat qs) -> nth_error (heap s') z = nth_error (heap s) z.
Proof.
  intros L HT Hx HA [HF HN]. inversion HF as [|? ? ? ? (f' & w & L' & (l & at_ & w' & fp & E & Hl & -> & HR & ->)) HF']; subst. cbn [fst snd] in *. subst o. rewrite L in L'. injection L' as <-.
  cbn [concat] in HN. pose proof HN as N. apply NoDup_app_parts in N as (N1 & N2 & N3).
  destruct (assign_ind n t y path f p off s l c at_ w' fp s' HT Hl HR N1 HA) as (lu & ob & Hin & E1 & W' & _ & HW). destruct (HW x Hx) as (at2 & Hl2 & HR2).
  assert (Ne : forall z, In z (concat qs) -> nth_error (heap s') z = nth_error (heap s) z) by (intros z Hz; subst s'; cbn [heap]; apply set_nth_ne; intros ->; exact (N3 _ Hin Hz)).
  split; [|exact Ne]. split; [|exact HN]. constructor; [|eapply trees_frame; eauto]. exists f, (WObj (W' x)). split; [exact L|]. exists l, at2, (W' x), fp. auto.
Qed.
Lemma does_elements n c f o path a d ll vs us back ts more s s' qs : layout c = Some f -> list_at f path a = Some d ->
  list_of n o path a s = (Ok (VRef ll), s) -> nth_error (heap s) ll = Some (HList vs) -> takes (cl_elem d) us back vs ts -> set_elements n o path a us s = (Ok tt, s') ->
  forest (heap s) ((c, o) :: ts ++ more) qs ->
  exists q bq mq tq q0, qs = q0 :: tq ++ mq /\ forest (heap s') ((c, o) :: map (pair (elem_class (cl_elem d))) back ++ more) (q :: bq ++ mq) /\ forall z, In z (concat (tq ++ mq)) -> nth_error (heap s') z = nth_error (heap s) z.
Proof.
  intros L HT HL Hll HD HA [HF HN]. pose proof (linked_known _ _ _ _ (linked_layout _ _ L) HT) as HK.
  inversion HF as [|? ? ? qs' (f' & w & L' & (l & at_ & w' & fp & E & Hl & -> & HR & ->)) HF']; subst. cbn [fst snd] in *. subst o. rewrite L in L'. injection L' as <-.
  apply Forall2_app_inv_l in HF' as (tq & mq & HF1 & HF2 & ->). cbn [concat] in HN. rewrite concat_app in HN.
  unfold set_elements, bind in HA. rewrite HL in HA. unfold hset in HA. injection HA as <-. cbn [heap].
  assert (HN1 : NoDup (l :: fp)) by (now apply NoDup_app_parts in HN as (HN & _)).
  destruct (rewrite_ind n a path f d s l c at_ w' fp _ _ HT Hl HR HN1 HL) as (_ & ll' & vs' & E & Hll' & (A & G & ws & B & fps & rest & E1 & F & HPf & Hin & HO & HG & HW)).
  injection E as <-. rewrite Hll in Hll'. injection Hll' as <-.
  destruct (takes_items _ d _ _ _ _ _ us back HK F HF1 HD) as (wn & un & bq & r & Fn & Fb & HPn).
  assert (N0 : NoDup (((l :: rest) ++ concat un) ++ (concat bq ++ concat mq) ++ r)).
  { eapply Permutation_NoDup; [|exact HN]. cbn [app]. apply perm_skip. transitivity ((rest ++ concat fps) ++ concat tq ++ concat mq); [now apply Permutation_app_tail|]. rewrite <- !app_assoc. apply Permutation_app_head.
    rewrite app_assoc. transitivity ((concat un ++ concat bq ++ r) ++ concat mq); [now apply Permutation_app_tail|]. rewrite <- !app_assoc. do 2 apply Permutation_app_head. apply Permutation_app_comm. }
  rewrite app_assoc in N0. apply NoDup_app_parts in N0 as (N3 & _). pose proof N3 as N2. apply NoDup_app_parts in N2 as (N2 & N4 & N5). destruct (HW us wn un Fn N2) as (W' & fp' & E2 & HP' & HR').
  assert (Nl : l <> ll).
  { intros ->. inversion N2 as [|? ? X _]; subst. apply X. apply in_or_app. now left. }
  assert (Hnot : ~ In ll (concat bq ++ concat mq)) by (apply N5; right; apply in_or_app; now left). rewrite in_app_iff in Hnot.
  exists (l :: fp'), bq, mq, tq, (l :: fp). split; [reflexivity|]. split; [split|].
  - constructor.
    + exists f, (WObj W'). split; [exact L|]. exists l, at_, W', fp'. split; [reflexivity|]. split; [rewrite set_nth_ne by congruence; exact Hl|]. auto.
    + apply Forall2_app; (eapply trees_frame; [eassumption|]); intros z Hz; apply set_nth_ne; intros ->; tauto.
  - cbn [concat]. rewrite concat_app. eapply Permutation_NoDup; [|exact N3]. apply Permutation_app_tail. cbn [app]. apply perm_skip. now apply Permutation_sym.
  - intros z Hz. rewrite concat_app in Hz. apply set_nth_ne. intros ->. apply NoDup_app_parts in HN as (_ & _ & HN). apply (HN z); [|exact Hz]. right. apply (Permutation_in _ (Permutation_sym HPf)). apply in_or_app. now left.
Qed.
Lemma does_record n c f o path a dc e off v old back more s s' qs : layout c = Some f -> record_at f path a = Some (dc, e, off) ->
  reach n o (path ++ [Attr a]) s = (Ok old, s) -> (back = [] \/ back = [(dc, old)]) -> assign n o path (TAttr a) v s = (Ok tt, s') ->
  forest (heap s) ((c, o) :: (dc, v) :: more) qs ->
  exists q bq q0 mq, qs = q0 :: mq /\ (exists ks, forest (heap s') ((c, o) :: back ++ more) (q :: bq ++ ks)) /\ forall z, In z (concat mq) -> nth_error (heap s') z = nth_error (heap s) z.
Proof.
  intros L HT HO HB HA [HF HN]. pose proof (joined_record _ _ _ _ _ _ (joined_layout _ _ L) HT) as Ld.
  inversion HF as [|? ? ? qs' (f' & w & L' & (l & at_ & w' & fp & E & Hl & -> & HR & ->)) HF']; subst. cbn [fst snd] in *. subst o. rewrite L in L'. injection L' as <-.
  inversion HF' as [|? vq ? mq (e' & wv & Lv & HI) HM]; subst. cbn [fst snd] in *. rewrite Ld in Lv. injection Lv as <-. cbn [concat] in HN.
  assert (HN1 : NoDup (l :: fp)) by (now apply NoDup_app_parts in HN as (HN & _)).
  destruct (swap_ind n a v path f dc e off s l c at_ w' fp s' HT Hl HR HN1 HA) as (lu & ob & A & B & old' & w0 & q0 & rest & Hin & E1 & HRe & HC1 & HOl & HPf & HC3 & HW).
  rewrite HO in HRe. injection HRe as <-.
  assert (exists w, wv = WObj w) as (w & ->) by (destruct HI as (? & ? & w & ? & _ & _ & -> & _); eauto).
  assert (N0 : NoDup (((l :: rest) ++ vq) ++ q0 ++ concat mq)).
  { eapply Permutation_NoDup; [|exact HN]. cbn [app]. apply perm_skip. transitivity ((rest ++ q0) ++ vq ++ concat mq); [now apply Permutation_app_tail|]. rewrite <- !app_assoc. apply Permutation_app_head, Permutation_app_swap_app. }
  pose proof N0 as N2. apply NoDup_app_parts in N2 as (N2 & N3 & N4). destruct (HW w vq HI N2) as (at' & W' & fp' & Hl' & HR' & HC2 & HP').
  assert (Hlu : ~ In lu (q0 ++ concat mq)) by (apply N4; apply in_or_app; now left). rewrite in_app_iff in Hlu.
  assert (Hlv : ~ In lu vq) by (apply NoDup_app_parts in N2 as (_ & _ & N2); now apply N2).
  assert (NP : NoDup ((l :: fp') ++ q0 ++ concat mq)).
  { eapply Permutation_NoDup; [|exact N0]. apply Permutation_app_tail. cbn [app]. apply perm_skip. now apply Permutation_sym. }
  assert (T1 : tree (heap s') (c, VRef l) (l :: fp')) by (exists f, (WObj W'); split; [exact L|]; exists l, at', W', fp'; auto).
  assert (TM : Forall2 (tree (heap s')) more mq) by (eapply trees_frame; [exact HM|]; intros z Hz; subst s'; cbn [heap]; apply set_nth_ne; intros ->; tauto).
  assert (Fr : forall z, In z (concat (vq :: mq)) -> nth_error (heap s') z = nth_error (heap s) z).
  { intros z Hz. cbn [concat] in Hz. apply in_app_or in Hz. subst s'. cbn [heap]. apply set_nth_ne. intros ->. tauto. }
  destruct HB as [-> | ->].
  - exists (l :: fp'), [], (l :: fp), (vq :: mq). split; [reflexivity|]. split; [|exact Fr]. exists mq. cbn [app]. split; [now constructor|]. cbn [concat]. change (NoDup ((l :: fp') ++ concat mq)).
    eapply Permutation_NoDup in NP; [|apply Permutation_app_swap_app]. now apply NoDup_app_parts in NP as (_ & NP & _).
  - exists (l :: fp'), [q0], (l :: fp), (vq :: mq). split; [reflexivity|]. split; [|exact Fr]. exists mq. cbn [app]. split; [|exact NP]. constructor; [exact T1|]. constructor; [|exact TM].
    exists e, (WObj w0). split; [exact Ld|]. subst s'. cbn [heap fst snd]. apply elem_rep_set; [exact HOl|tauto].
Qed.
Lemma does_reparse n c f o s v s' r q qs : (fuel_ok <= n)%nat -> layout c = Some f -> has_bits f = false -> call_method the_prog n o "parse" [VIn] s = (Ok v, s') -> forest (heap s) ((c, o) :: r) (q :: qs) ->
  exists q', forest (heap s') ((c, o) :: r) (q' :: qs) /\ forall z, In z (concat qs) -> nth_error (heap s') z = nth_error (heap s) z.
Proof.
  intros Hn L HB E [HF HN]. inversion HF as [|? ? ? ? (f' & w & L' & (l & at_ & w' & fp & Eo & Hl & -> & HR & ->)) HF']; subst. cbn [fst snd] in *. subst o. rewrite L in L'. injection L' as <-.
  cbn [concat] in HN. pose proof HN as N. apply NoDup_app_parts in N as (N1 & N2 & N3). destruct (layout_inv _ _ L) as (_ & L2 & _).
  pose proof (reparse_spec n c f s (VRef l) w' l fp Hn L2 HB) as H. unfold par_result in H. destruct (decode f w' [] (irest s)) as [W t|e].
  - destruct H as (s2 & fp' & A & (at2 & _ & Hl2 & HR2 & HN2) & Hnew & [_ Hfr] & _); [exists at_; auto|]. rewrite E in A. injection A as -> ->.
    assert (Old : forall z, In z (concat qs) -> nth_error (heap s2) z = nth_error (heap s) z).
    { intros z Hz. apply Hfr; [eapply trees_alive; eauto|]. intros Hi. apply (N3 z); [|exact Hz]. destruct Hi as [->|Hi]; [now left|now right]. }
    exists (l :: fp'). split; [|exact Old]. split.
    + constructor; [|eapply trees_frame; eauto]. exists f, (WObj W). split; [exact L|]. exists l, at2, W, fp'. auto.
    + cbn [concat]. apply NoDup_app; [exact HN2|exact N2|]. intros x [<-|Hx] Hq; [apply (N3 l); [now left|exact Hq]|]. destruct (Hnew x Hx) as [Hi|Hi]; [apply (N3 x); [now right|exact Hq]|]. apply (trees_alive _ _ _ _ HF') in Hq. lia.
  - destruct H as (s2 & A); [exists at_; auto|]. rewrite E in A. discriminate.
Qed.
Lemma does_serialize n c o s r s' P qs : (fuel_ok <= n)%nat -> In (c, o) P -> serialize n o s = (r, s') -> forest (heap s) P qs -> heap s' = heap s.
Proof.
  intros Hn Hi E HF. destruct (forest_front _ _ _ _ HF Hi) as (r1 & q & qs' & _ & [HF1 HN1]). inversion HF1 as [|? ? ? ? (f & w & L & (l & at_ & w' & fp & E1 & Hl & -> & HR & ->)) _]; subst. cbn [fst snd] in *. subst o.
  destruct (layout_inv _ _ L) as (L1 & _). cbn [concat] in HN1. apply NoDup_app_parts in HN1 as (HN1 & _).
  unfold serialize in E. rewrite (serialize_holds n c f (VRef l) s w' Hn L1) in E by (exists l, fp, at_; auto). unfold oc in E. destruct (encode f w') as [b [e|]]; cbn [fst snd] in E; injection E as _ <-; reflexivity.
Qed.

(** the objects a program has at hand share nothing, whatever it has done *)
Lemma does_forest n w P s P' s' : (fuel_ok <= n)%nat -> does n w (P, s) (P', s') -> (exists qs, forest (heap s) P qs) -> exists qs, forest (heap s') P' qs.
Proof.
  intros Hn H (qs & HF). inversion H; subst.
  - destruct (does_new n c v s s' P qs) as (q & K & _); eauto.
  - destruct (does_parse n c v (mkst (heap s) data data (out s)) s' P qs) as (q & K & _); eauto.
  - destruct (forest_front _ _ _ _ HF H4) as (r & q & qs' & HP & HF1). destruct (does_assign n c f o path t p off y x s s' r q qs') as [K _]; auto. destruct (forest_perm _ _ _ _ (Permutation_sym HP) K) as (q2 & K2 & _). eauto.
  - destruct (forest_perm _ _ _ _ H4 HF) as (qs1 & HF1 & _). destruct (does_elements n c f o path a d ll vs us back ts more s s' qs1) as (q & bq & mq & tq & q0 & _ & K & _); eauto.
  - destruct (forest_perm _ _ _ _ H4 HF) as (qs1 & HF1 & _). destruct (does_record n c f o path a dc e off v old back more s s' qs1) as (q & bq & q0 & mq & _ & (ks & K) & _); eauto.
  - match goal with K : In (c, o) _ |- _ => destruct (forest_front _ _ _ _ HF K) as (r1 & q & qs' & HP & HF1) end. destruct (does_reparse n c f o (mkst (heap s) data data (out s)) r s' r1 q qs') as (q2 & K & _); auto. destruct (forest_perm _ _ _ _ (Permutation_sym HP) K) as (q3 & K2 & _). eauto.
  - rewrite (does_serialize n c o s r s' P' qs); eauto.
Qed.
Lemma reach_forest n P s : (fuel_ok <= n)%nat -> reaches n P s -> exists qs, forest (heap s) P qs.
Proof. intros Hn. induction 1 as [s|w P s P' s' _ IH H]; [exists []; split; constructor|]. eapply does_forest; eauto. Qed.

(** ** C95 *)
(** Whatever the program did, every object it has at hand is whole: it shares nothing, all its attributes can be read, serialize either raises, or writes bytes from which a reader gets the same values back, whatever follows them *)
Theorem C95_whole n P s c o : (fuel_ok <= n)%nat -> reaches n P s -> In (c, o) P ->
  exists f W, layout c = Some f /\ unshared (heap s) c f o /\ contents the_prog (heap s) c f o = Some W /\
    (accepts f W -> exists bs, serialize n o s = (Ok VNone, appended s bs) /\
      forall s' rest, irest s' = bs ++ rest -> exists o' s'' V, load the_prog n c s' = (Ok o', s'') /\ contents the_prog (heap s'') c f o' = Some V /\ irest s'' = rest /\ comes_back f W V) /\
    (~ accepts f W -> exists e, fst (serialize n o s) = Exc e).
Proof.
  intros Hn HR Hi. destruct (reach_forest n P s Hn HR) as (qs & HF). destruct (forest_front _ _ _ _ HF Hi) as (r1 & q & qs' & _ & [HF1 HN1]).
  inversion HF1 as [|? ? ? ? (f & w & L & (l & at_ & w' & fp & E1 & Hl & -> & HR1 & ->)) _]; subst. cbn [fst snd] in *. subst o. cbn [concat] in HN1. apply NoDup_app_parts in HN1 as (HN1 & _).
  destruct (rep_reads _ _ _ _ _ HR1) as (V & HV). assert (HW : contents the_prog (heap s) c f (VRef l) = Some V) by (cbn [contents]; rewrite Hl, String.eqb_refl; apply HV; auto).
  exists f, V. split; [exact L|]. split; [exists w', l, fp, at_; auto|]. split; [exact HW|]. destruct (C65_accepts n c f s (VRef l) V Hn L HW) as [K1 K2]. split; [|exact K2].
  intros HA. destruct (K1 HA) as (bs & E). exists bs. split; [exact E|]. exact (C65_comes_back n c f s (VRef l) V bs Hn L HW E).
Qed.

Lemma in_rest {A} (c c' : string) (o o' : A) r P : Permutation P ((c, o) :: r) -> In (c', o') P -> o' <> o -> In (c', o') r.
Proof. intros HP Hi Hd. apply (Permutation_in _ HP) in Hi as [E|Hi]; [congruence|exact Hi]. Qed.
Lemma tree_in h P qs x : Forall2 (tree h) P qs -> In x P -> exists q, In q qs /\ tree h x q.
Proof. induction 1 as [|y q P qs H _ IH]; intros Hx; [destruct Hx|]. destruct Hx as [->|Hx]; [exists q; split; [now left|exact H]|]. destruct (IH Hx) as (k & Hk & Ht). exists k. split; [now right|exact Ht]. Qed.
Lemma tree_root h c o q : tree h (c, o) q -> exists l, o = VRef l /\ In l q.
Proof. intros (f & w & _ & (l & at_ & w' & r & E & _ & _ & _ & ->)). exists l. split; [exact E|now left]. Qed.
(** an object at hand that the program does nothing to keeps its heap locations *)
Lemma untouched n w P s P' s' c o : (fuel_ok <= n)%nat -> reaches n P s -> does n w (P, s) (P', s') -> In (c, o) P -> w <> Some o ->
  exists q, tree (heap s) (c, o) q /\ NoDup q /\ forall z, In z q -> nth_error (heap s') z = nth_error (heap s) z.
Proof.
  intros Hn HR H Hi Hw. destruct (reach_forest n P s Hn HR) as (qs & HF).
  assert (Any : forall Q ks, forest (heap s) Q ks -> In (c, o) Q -> exists q, In q ks /\ tree (heap s) (c, o) q /\ NoDup q /\ forall z, In z q -> In z (concat ks)).
  { intros Q ks [K1 K2] HQ. destruct (tree_in _ _ _ _ K1 HQ) as (q & Hq & Ht). exists q. split; [exact Hq|]. split; [exact Ht|]. split; [eapply NoDup_concat_in; eauto|]. intros z Hz. apply in_concat. eauto. }
  inversion H; subst.
  - destruct (does_new n c0 v s s' P qs) as (q0 & _ & K); auto. destruct (Any _ _ HF Hi) as (q & Hq & Ht & Nq & Hz). exists q. split; [exact Ht|]. split; [exact Nq|]. intros z Hzq. apply K. eapply trees_alive; [exact (proj1 HF)|auto].
  - destruct (does_parse n c0 v (mkst (heap s) data data (out s)) s' P qs) as (q0 & _ & K); auto. destruct (Any _ _ HF Hi) as (q & Hq & Ht & Nq & Hz). exists q. split; [exact Ht|]. split; [exact Nq|]. intros z Hzq. apply K. eapply trees_alive; [exact (proj1 HF)|auto].
  - destruct (forest_front _ _ _ _ HF H4) as (r & q0 & qs' & HP & HF1). destruct (does_assign n c0 f o0 path t p off y x s s' r q0 qs') as [_ K]; auto.
    assert (HQ : In (c, o) r) by (eapply in_rest; eauto; congruence). destruct HF1 as [HF1 HN1]. inversion HF1 as [|? ? ? ? _ HF2]; subst. cbn [concat] in HN1. apply NoDup_app_parts in HN1 as (_ & HN1 & _).
    destruct (Any r qs' (conj HF2 HN1) HQ) as (q & Hq & Ht & Nq & Hz). exists q. auto.
  - destruct (forest_perm _ _ _ _ H4 HF) as (qs1 & HF1 & _). destruct (does_elements n c0 f o0 path a d ll vs us back ts more s s' qs1) as (q & bq & mq & tq & q0 & E & K0 & K); auto. subst qs1.
    assert (HQ : In (c, o) (ts ++ more)) by (eapply in_rest; eauto; congruence).
    destruct HF1 as [HF1 HN1]. inversion HF1 as [|? ? ? ? _ HF2]; subst. cbn [concat] in HN1. apply NoDup_app_parts in HN1 as (_ & HN1 & _).
    destruct (Any _ _ (conj HF2 HN1) HQ) as (q1 & Hq & Ht & Nq & Hz). exists q1. auto.
  - destruct (forest_perm _ _ _ _ H4 HF) as (qs1 & HF1 & _). destruct (does_record n c0 f o0 path a dc e off v old back more s s' qs1) as (q & bq & q0 & mq & E & _ & K); auto. subst qs1.
    assert (HQ : In (c, o) ((dc, v) :: more)) by (eapply in_rest; eauto; congruence).
    destruct HF1 as [HF1 HN1]. inversion HF1 as [|? ? ? ? _ HF2]; subst. cbn [concat] in HN1. apply NoDup_app_parts in HN1 as (_ & HN1 & _).
    destruct (Any _ _ (conj HF2 HN1) HQ) as (q1 & Hq & Ht & Nq & Hz). exists q1. auto.
  - match goal with K : In (c0, o0) _ |- _ => destruct (forest_front _ _ _ _ HF K) as (r1 & q0 & qs' & HP & HF1) end. destruct (does_reparse n c0 f o0 (mkst (heap s) data data (out s)) r s' r1 q0 qs') as (q2 & _ & K); auto.
    assert (HQ : In (c, o) r1) by (eapply in_rest; eauto; congruence). destruct HF1 as [HF1 HN1]. inversion HF1 as [|? ? ? ? _ HF2]; subst. cbn [concat] in HN1. apply NoDup_app_parts in HN1 as (_ & HN1 & _).
    destruct (Any r1 qs' (conj HF2 HN1) HQ) as (q & Hq & Ht & Nq & Hz). exists q. auto.
  - assert (Eh : heap s' = heap s) by (eapply does_serialize; eauto). destruct (Any _ _ HF Hi) as (q & Hq & Ht & Nq & Hz). exists q. split; [exact Ht|]. split; [exact Nq|]. intros z _. now rewrite Eh.
Qed.
(** What the program does to one object has no effect on another one at hand: it holds the same, and serialize writes the same bytes, or raises the same after the same bytes.  This is so also if the other becomes an element of a list of the first *)
Theorem C95_independent n w P s P' s' c f o : (fuel_ok <= n)%nat -> reaches n P s -> does n w (P, s) (P', s') -> In (c, o) P -> w <> Some o -> layout c = Some f ->
  contents the_prog (heap s') c f o = contents the_prog (heap s) c f o /\ exists r bs, serialize n o s = (r, appended s bs) /\ serialize n o s' = (r, appended s' bs).
Proof.
  intros Hn HR H Hi Hw L. destruct (untouched n w P s P' s' c o Hn HR H Hi Hw) as (q & (f' & w0 & L' & (l & at_ & w' & r & E & Hl & -> & HRp & ->)) & Nq & Hz). cbn [fst snd] in *. subst o. rewrite L in L'. injection L' as <-.
  destruct (rep_reads _ _ _ _ _ HRp) as (V & HV). assert (Hl' : nth_error (heap s') l = Some (HInst c at_)) by (rewrite Hz by (now left); exact Hl).
  assert (HW : contents the_prog (heap s) c f (VRef l) = Some V) by (cbn [contents]; rewrite Hl, String.eqb_refl; apply HV; auto).
  assert (HW' : contents the_prog (heap s') c f (VRef l) = Some V) by (cbn [contents]; rewrite Hl', String.eqb_refl; apply HV; intros z Hq; apply Hz; now right).
  split; [now rewrite HW, HW'|]. do 2 eexists. rewrite (ser_layout n c f _ s V Hn L HW), (ser_layout n c f _ s' V Hn L HW'). split; reflexivity.
Qed.

(** Different objects of one class at hand can become elements of a list of another one: the theorems C94_rewrite and C94_appends apply; and one of them can become a record of it, so that C96_replace applies *)
Theorem C95_separate n P s c f o ce es vs : (fuel_ok <= n)%nat -> reaches n P s -> layout c = Some f -> layout ce = Some es -> In (c, o) P -> (forall v, In v vs -> In (ce, v) P) -> NoDup (o :: vs) ->
  separate_all (heap s) c f o (SRecords ce es) vs.
Proof.
  intros Hn HR L Le Hi Hvs HN. destruct (reach_forest n P s Hn HR) as (qs & HF). destruct (forest_front _ _ _ _ HF Hi) as (r1 & q & qs' & HP & [HF1 HN1]).
  inversion HF1 as [|? ? ? ? (f' & w & L' & (l & at_ & w' & fp & E1 & Hl & -> & HR1 & ->)) HF2]; subst. cbn [fst snd] in *. subst o. rewrite L in L'. injection L' as <-. inversion HN as [|? ? HN2 HN3]; subst.
  destruct (of_class (heap s) ce es r1 qs' Le HF2) as (news & xs & ks & r & F & HPk & HIn).
  destruct (Forall3_pick _ vs _ _ _ F HN3) as (xs' & ks' & r' & F' & HP'). { intros v Hv. apply HIn. eapply in_rest; eauto. intros ->. contradiction. }
  cbn [concat] in HN1. exists w', l, fp, xs', ks'. split; [|split; [exact F'|]].
  - exists at_. split; [reflexivity|]. split; [exact Hl|]. split; [exact HR1|]. now apply NoDup_app_parts in HN1 as (HN1 & _).
  - assert (X : NoDup (((l :: fp) ++ concat ks') ++ r' ++ r)).
    { eapply Permutation_NoDup; [|exact HN1]. rewrite <- app_assoc. apply Permutation_app_head. transitivity (concat ks ++ r); [exact HPk|]. rewrite app_assoc. now apply Permutation_app_tail. }
    now apply NoDup_app_parts in X as (X & _).
Qed.

(** a program can always make an object, and write one *)
Theorem C95_new n c P s : (fuel_ok <= n)%nat -> layout c <> None -> ~ In c not_readable_new -> exists v s', does n None (P, s) ((c, v) :: P, s').
Proof.
  intros Hn L Hx. destruct (layout c) as [f|] eqn:E; [|congruence]. destruct (C63_new n c f s Hn E Hx) as (o & s' & A & _). exists o, s'. apply do_new; auto. congruence.
Qed.

(** ** A case *)
(** a = EntityStatePdu(), received with two variable parameters; b = EntityStatePdu(); v = a.variableParameters.pop(0); v.recordType = 5; b.variableParameters.append(v); b.serialize(...) *)
Definition val_of (r : res val * st) : val := match fst r with Ok v => v | _ => VNone end.
Definition w0 : st := mkst [] es_data es_data [].
Definition a_ : val := Eval vm_compute in val_of (load the_prog 50 "EntityStatePdu" w0).
Definition w1 : st := Eval vm_compute in snd (load the_prog 50 "EntityStatePdu" w0).
Definition b_ : val := Eval vm_compute in val_of (new the_prog 50 "EntityStatePdu" [] w1).
Definition w2 : st := Eval vm_compute in snd (new the_prog 50 "EntityStatePdu" [] w1).
Definition la : val := Eval vm_compute in val_of (list_of 50 a_ [] "variableParameters" w2).
Definition lb : val := Eval vm_compute in val_of (list_of 50 b_ [] "variableParameters" w2).
Definition elements (s : st) (l : val) : list val := match l with VRef k => match nth_error (heap s) k with Some (HList vs) => vs | _ => [] end | _ => [] end.
Definition v_ : val := Eval vm_compute in nth 0 (elements w2 la) VNone.
Definition u_ : val := Eval vm_compute in nth 1 (elements w2 la) VNone.
Definition w3 : st := Eval vm_compute in snd (set_elements 50 a_ [] "variableParameters" [u_] w2).
Definition w4 : st := Eval vm_compute in snd (assign 50 v_ [] (TAttr "recordType") (VInt 5) w3).
Definition w5 : st := Eval vm_compute in snd (set_elements 50 b_ [] "variableParameters" [v_] w4).
Definition w6 : st := Eval vm_compute in snd (serialize 50 b_ w5).
Example C95_case : reaches 50 [("EntityStatePdu", b_); ("EntityStatePdu", a_)] w6 /\ length (out w6) = 160%nat /\ nth_error (out w6) 144 = Some x05.
Proof.
  assert (LE : layout "EntityStatePdu" = Some w_EntityStatePdu) by (vm_compute; reflexivity).
  assert (LV : layout "VariableParameter" = Some w_VariableParameter) by (vm_compute; reflexivity).
  assert (exists d, list_at w_EntityStatePdu [] "variableParameters" = Some d /\ cl_elem d = SRecords "VariableParameter" w_VariableParameter) as (d & HD & Hd) by (eexists; split; [vm_compute; reflexivity|]; vm_compute; reflexivity).
  split; [|split; vm_compute; reflexivity].
  eapply reach_step; [eapply reach_step; [eapply reach_step; [eapply reach_step; [eapply reach_step; [eapply reach_step; [apply (reach_start 50 (mkst [] [] [] []))|]|]|]|]|]|].
  - apply (do_parse 50 "EntityStatePdu" es_data a_ [] _ w1); [rewrite LE; discriminate|vm_compute; reflexivity].
  - apply (do_new 50 "EntityStatePdu" b_ _ _ w2); [rewrite LE; discriminate|cbn; intuition discriminate|vm_compute; reflexivity].
  - pose proof (do_elements 50 "EntityStatePdu" w_EntityStatePdu a_ [] "variableParameters" d (match la with VRef k => k | _ => 0%nat end) [v_; u_] [u_] [v_] [] [("EntityStatePdu", b_)] [("EntityStatePdu", b_); ("EntityStatePdu", a_)] w2 w3) as K.
    rewrite Hd in K. cbn [elem_class map app] in K. apply K; [apply perm_swap|exact LE|exact HD|vm_compute; reflexivity|vm_compute; reflexivity| |vm_compute; reflexivity]. cbn [takes app]. split; [|intros x [<-|[<-|[]]]; left; cbn; tauto].
    repeat constructor; cbn; unfold u_, v_; intuition discriminate.
  - eapply (do_assign 50 "VariableParameter" w_VariableParameter v_ [] (TAttr "recordType") _ _ (VInt 5)); [right; left; reflexivity|exact LV|vm_compute; reflexivity|reflexivity|]. instantiate (1 := w4). vm_compute. reflexivity.
  - pose proof (do_elements 50 "EntityStatePdu" w_EntityStatePdu b_ [] "variableParameters" d (match lb with VRef k => k | _ => 0%nat end) [] [v_] [] [("VariableParameter", v_)] [("EntityStatePdu", a_)] [("EntityStatePdu", a_); ("VariableParameter", v_); ("EntityStatePdu", b_)] w4 w5) as K.
    rewrite Hd in K. cbn [elem_class map app] in K. apply K; [apply Permutation_rev with (l := [("EntityStatePdu", a_); ("VariableParameter", v_); ("EntityStatePdu", b_)])|exact LE|exact HD|vm_compute; reflexivity|vm_compute; reflexivity| |vm_compute; reflexivity].
    cbn [takes app]. split; [repeat constructor; auto|]. intros x [<-|[]]. right. now left.
  - eapply (do_serialize 50 "EntityStatePdu" b_); [now left|]. vm_compute. reflexivity.
Qed.

Definition all_PropClient := (C95_whole, C95_independent, C95_separate, C95_new, C95_case).
Print Assumptions all_PropClient.
