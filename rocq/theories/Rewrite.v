(** * Changing the elements of a list of an object in place: lemmas for PropRewrite.v (the generalisation of Append.v to any new elements) *)
From Coq Require Import ZArith String List Bool Lia Permutation.
From Coq Require Import Strings.Byte.
From Verif Require Import Lang Bytes Interp Shift Mono ProgBase ProgDis Prog Spec Codec Codec2 Rep Dec StreamLem SerSound ParSound ParStep ParClass NewSound Layouts Refine Api StreamApi Classes PropCodec CtorRun PropFactory PropOffsets Assign PropAssign Append.
Import ListNotations.
Open Scope string_scope. Open Scope Z_scope. Open Scope list_scope.


(** in the object l of class c, the list ll, of elements vs, can be given other elements: A, G and B are the outcomes of writing what precedes the count, is between the count and the elements, and follows them;
    rest are the objects that do not belong to the elements *)
Definition hole (h : list hobj) (f : fmt) (l : nat) (ga : string -> option val) (W : flds) (fp : list nat) (d : counted_list) (ll : nat) (vs : list val) : Prop :=
  exists A G ws B fps rest, let count k := enc_val (cl_type d) (WInt (Z.of_nat k * cl_unit d)) in
    encode f W = oseq A (oseq (count (length vs)) (oseq G (oseq (enc_list (enc_item (cl_elem d)) ws) B))) /\
    Forall3 (item h (cl_elem d)) vs ws fps /\ Permutation fp (rest ++ concat fps) /\ In ll rest /\
    (forall k bs, cl_off d = Some k -> A = (bs, None) -> length bs = k) /\ (forall k bs, cl_gap d = Some k -> G = (bs, None) -> length bs = k) /\
    forall vn wn fpn, Forall3 (item h (cl_elem d)) vn wn fpn -> NoDup ((l :: rest) ++ concat fpn) ->
      exists W' fp', encode f W' = oseq A (oseq (count (length vn)) (oseq G (oseq (enc_list (enc_item (cl_elem d)) wn) B))) /\
        Permutation fp' (rest ++ concat fpn) /\ rep the_prog (set_nth ll (HList vn) h) f ga W' fp'.

Lemma items_no_objects h q vs ws fps : Forall3 (item h (SItems q)) vs ws fps -> concat fps = [] /\ Forall2 (fun v w => scal v = Some w) vs ws.
Proof. induction 1 as [|u x p vs ws fps [H ->] _ [IH1 IH2]]; [split; [reflexivity|constructor]|]. split; [exact IH1|now constructor]. Qed.
Lemma no_objects_items h q vs ws : Forall2 (fun v w => scal v = Some w) vs ws -> exists fps, Forall3 (item h (SItems q)) vs ws fps /\ concat fps = [].
Proof. induction 1 as [|u x vs ws H _ (fps & IH1 & IH2)]; [exists []; split; [constructor|reflexivity]|]. exists ([] :: fps). split; [constructor; [now split|exact IH1]|exact IH2]. Qed.

Lemma rewrite_here f a g1 p m g2 j f2 s l c at_ W fp ll vs : find_list a f = Some (g1, p, m, g2, j, f2) ->
  rep the_prog (heap s) f (getA the_prog c at_) W fp -> NoDup (l :: fp) ->
  getA the_prog c at_ a = Some (VRef ll) -> nth_error (heap s) ll = Some (HList vs) ->
  hole (heap s) f l (getA the_prog c at_) W fp (mk_counted p m j (fixed g1) (fixed g2)) ll vs.
Proof.
  intros HF HR HN G Hll. apply find_list_inv in HF as (-> & Hj & U1 & U2 & U3 & U4).
  apply rep_fapp in HR as (q1 & q2 & R1 & R2 & ->).
  assert (E1 : forall ws, field a W = Some (WList ws) -> length vs = length ws -> encode (put_spot a j f2) W = oseq (enc_list (enc_item j) ws) (encode f2 W) ->
    encode (fapp (fapp g1 (Cnt a p m g2)) (put_spot a j f2)) W = oseq (encode g1 W) (oseq (enc_val p (WInt (Z.of_nat (length vs) * m))) (oseq (encode g2 W) (oseq (enc_list (enc_item j) ws) (encode f2 W))))).
  { intros ws Fd Hlen E. rewrite !encode_fapp. cbn [encode]. rewrite Fd, E, Hlen. now rewrite !oseq_assoc. }
  assert (E2 : forall ws (vn : list val) wn, field a W = Some (WList ws) -> length vn = length wn -> encode (put_spot a j f2) (put a (WList wn) W) = oseq (enc_list (enc_item j) wn) (encode f2 (put a (WList wn) W)) ->
    encode (fapp (fapp g1 (Cnt a p m g2)) (put_spot a j f2)) (put a (WList wn) W) = oseq (encode g1 W) (oseq (enc_val p (WInt (Z.of_nat (length vn) * m))) (oseq (encode g2 W) (oseq (enc_list (enc_item j) wn) (encode f2 W))))).
  { intros ws vn wn Fd Hlen E. rewrite !encode_fapp. cbn [encode]. rewrite (field_put _ _ _ _ Fd), E, !(encode_part true), Hlen by (assumption || discriminate). now rewrite !oseq_assoc. }
  destruct j as [|?|d sub|?|q]; try contradiction; cbn [put_spot rep] in *.
  - destruct R2 as (ll' & vs' & ws & fps & r2 & G' & Hll' & Fd & F3 & R2 & ->). rewrite G in G'. injection G' as <-. rewrite Hll in Hll'. injection Hll' as <-. fold (elem_rep the_prog (heap s) d sub) in F3.
    exists (encode g1 W), (encode g2 W), ws, (encode f2 W), fps, (q1 ++ ll :: r2). cbn [cl_type cl_unit cl_elem cl_off cl_gap].
    split; [apply E1; [exact Fd|eapply Forall3_len; eauto|cbn [encode]; now rewrite Fd]|]. split; [exact F3|].
    split; [rewrite <- app_assoc; apply Permutation_app_head; cbn [app]; apply perm_skip, Permutation_app_comm|]. split; [apply in_or_app; right; now left|].
    split; [intros; eapply fixed_out; eauto|]. split; [intros; eapply fixed_out; eauto|].
    intros vn wn fpn HI N. cbn [app] in N. inversion N as [|? ? _ N']; subst. rewrite <- app_assoc in N'. cbn [app] in N'. apply NoDup_remove_2 in N'. rewrite !in_app_iff in N'.
    exists (put a (WList wn) W), (q1 ++ ll :: concat fpn ++ r2). split; [|split].
    + eapply E2; [exact Fd|eapply Forall3_len; eauto|cbn [encode]; now rewrite (field_put _ _ _ _ Fd)].
    + rewrite <- app_assoc. apply Permutation_app_head. cbn [app]. apply perm_skip, Permutation_app_comm.
    + apply rep_fapp. exists q1, (ll :: concat fpn ++ r2). split; [eapply rep_set; eauto; tauto|]. split; [|reflexivity]. cbn [put_spot rep].
      exists ll, vn, wn, fpn, r2. split; [exact G|]. split; [apply set_nth_eq; eapply lt_of; eauto|]. split; [eapply field_put; eauto|]. split; [|split; [|reflexivity]].
      * apply elems_rep_set; [exact HI|tauto].
      * eapply rep_set; eauto; tauto.
  - destruct R2 as (ll' & vs' & ws & r2 & G' & Hll' & Fd & F2 & R2 & ->). rewrite G in G'. injection G' as <-. rewrite Hll in Hll'. injection Hll' as <-.
    destruct (no_objects_items (heap s) q _ _ F2) as (fps & F3 & HC).
    exists (encode g1 W), (encode g2 W), ws, (encode f2 W), fps, (q1 ++ ll :: r2). cbn [cl_type cl_unit cl_elem cl_off cl_gap].
    split; [apply E1; [exact Fd|eapply Forall3_len; eauto|cbn [encode]; now rewrite Fd]|]. split; [exact F3|].
    split; [now rewrite HC, app_nil_r|]. split; [apply in_or_app; right; now left|].
    split; [intros; eapply fixed_out; eauto|]. split; [intros; eapply fixed_out; eauto|].
    intros vn wn fpn HI N. destruct (items_no_objects _ _ _ _ _ HI) as [HCn HI2]. rewrite HCn, app_nil_r in N. inversion N as [|? ? _ N']; subst. apply NoDup_remove_2 in N'. rewrite !in_app_iff in N'.
    exists (put a (WList wn) W), (q1 ++ ll :: r2). split; [|split].
    + eapply E2; [exact Fd|eapply Forall3_len; eauto|cbn [encode]; now rewrite (field_put _ _ _ _ Fd)].
    + now rewrite HCn, app_nil_r.
    + apply rep_fapp. exists q1, (ll :: r2). split; [eapply rep_set; eauto; tauto|]. split; [|reflexivity]. cbn [put_spot rep].
      exists ll, vn, wn, r2. split; [exact G|]. split; [apply set_nth_eq; eapply lt_of; eauto|]. split; [eapply field_put; eauto|]. split; [exact HI2|split; [|reflexivity]].
      eapply rep_set; eauto; tauto.
Qed.

Lemma rewrite_ind n a : forall path f d s l c at_ W fp lv s', list_at f path a = Some d -> nth_error (heap s) l = Some (HInst c at_) ->
  rep the_prog (heap s) f (getA the_prog c at_) W fp -> NoDup (l :: fp) -> list_of n (VRef l) path a s = (Ok lv, s') ->
  s' = s /\ exists ll vs, lv = VRef ll /\ nth_error (heap s) ll = Some (HList vs) /\ hole (heap s) f l (getA the_prog c at_) W fp d ll vs.
Proof.
  induction path as [|st path IH]; intros f d s l c at_ W fp lv s' HT Hl HR HN HA.
  - unfold list_of in HA. cbn [reach] in HA. change (bind (ret (VRef l)) ?k s) with (k (VRef l) s) in HA. cbn beta in HA. cbn [list_at] in HT.
    destruct (find_list a f) as [[[[[[g1 q] z] g2] i] f2]|] eqn:HF; [|discriminate]. injection HT as <-. rename i into j.
    assert (exists ll vs, getA the_prog c at_ a = Some (VRef ll) /\ nth_error (heap s) ll = Some (HList vs)) as (ll & vs & G & Hll).
    { pose proof (find_list_inv _ _ _ _ _ _ _ _ HF) as (-> & Hj & _). apply rep_fapp in HR as (q1 & q2 & _ & R2 & _).
      destruct j; try contradiction; cbn [put_spot rep] in R2; destruct R2 as (l1 & v1 & R2); exists l1, v1; destruct R2 as (w1 & R2).
      - destruct R2 as (? & ? & ? & ? & _). auto.
      - destruct R2 as (? & ? & ? & _). auto. }
    rewrite (getattr_ok n _ _ _ _ _ _ Hl G) in HA. injection HA as <- <-. split; [reflexivity|]. exists ll, vs. split; [reflexivity|]. split; [exact Hll|]. eapply rewrite_here; eauto.
  - destruct st as [b|b i]; cbn [list_at] in HT; destruct (find_spot b f) as [[[f1 k] f2]|] eqn:HF; try discriminate; destruct k as [|dc sub|dc sub| |]; try discriminate;
      destruct (list_at sub path a) as [[p m j off gap]|] eqn:HT'; try discriminate; injection HT as <-;
      apply find_spot_inv in HF as (-> & U1 & U2); cbn [counted put_spot] in *; apply rep_fapp in HR as (q1 & q2 & R1 & R2 & ->); cbn [rep] in R2.
    + destruct R2 as (l' & at' & w1 & r1 & r2 & G & Hl' & Fd & Rs & R2 & ->).
      assert (HA' : list_of n (VRef l') path a s = (Ok lv, s')).
      { unfold list_of in *. cbn [reach] in HA. unfold bind in *. rewrite (getattr_ok n _ _ _ _ _ _ Hl G) in HA. exact HA. }
      assert (HP : forall z fx, Permutation ((l :: q1 ++ l' :: z ++ r2) ++ fx) ((l' :: z) ++ (l :: q1 ++ r2) ++ fx)).
      { intros z fx. rewrite app_assoc. apply Permutation_app_tail. change (l :: q1 ++ l' :: z ++ r2) with ((l :: q1) ++ (l' :: z) ++ r2). change (l :: q1 ++ r2) with ((l :: q1) ++ r2). apply Permutation_app_swap_app. }
      assert (D4 : NoDup (l' :: r1)).
      { pose proof (HP r1 []) as HP0. rewrite !app_nil_r in HP0. apply (Permutation_NoDup HP0) in HN. now apply NoDup_app_parts in HN as (HN & _). }
      destruct (IH _ _ _ _ _ _ _ _ _ _ HT' Hl' Rs D4 HA') as (-> & ll & vs & -> & Hll & (A & M & ww & B & fps & rest & HC1 & HC2 & HPf & Hin & HC4 & HC5 & HX)).
      split; [reflexivity|]. exists ll, vs. split; [reflexivity|]. split; [exact Hll|]. cbn [cl_type cl_unit cl_elem cl_off cl_gap] in *.
      exists (oseq (encode f1 W) A), M, ww, (oseq B (encode f2 W)), fps, (q1 ++ l' :: rest ++ r2). cbn [cl_type cl_unit cl_elem cl_off cl_gap].
      assert (HPz : forall z fx, Permutation z (rest ++ fx) -> Permutation (q1 ++ l' :: z ++ r2) ((q1 ++ l' :: rest ++ r2) ++ fx)).
      { intros z fx Hz. rewrite <- app_assoc. apply Permutation_app_head. cbn [app]. apply perm_skip. rewrite <- app_assoc. transitivity ((rest ++ fx) ++ r2); [now apply Permutation_app_tail|].
        rewrite <- app_assoc. apply Permutation_app_head. apply Permutation_app_comm. }
      split; [rewrite encode_fapp; cbn [encode]; rewrite Fd, HC1; now rewrite !oseq_assoc|]. split; [exact HC2|]. split; [now apply HPz|]. split; [apply in_or_app; right; right; apply in_or_app; now left|].
      split; [|split; [exact HC5|]].
      { intros k bs Hk Hb. apply oadd_inv in Hk as (y & z & E2 & E3 & ->). apply oseq_ok in Hb as (b1 & b2 & E4 & E5 & ->).
        now rewrite app_length, (fixed_out _ _ _ _ E2 E4), (HC4 _ _ E3 E5). }
      intros vn wn fpn HI N. apply (Permutation_NoDup (HP rest (concat fpn))) in N.
      assert (D5 : NoDup ((l' :: rest) ++ concat fpn)).
      { pose proof N as N2. apply Permutation_NoDup with (l' := (l :: q1 ++ r2) ++ (l' :: rest) ++ concat fpn) in N2; [|apply Permutation_app_swap_app]. now apply NoDup_app_parts in N2 as (_ & N2 & _). }
      destruct (HX vn wn fpn HI D5) as (w' & fp' & HC & HPn & HW).
      apply NoDup_app_parts in N as (D1 & D2 & D3). pose proof (D3 ll (or_intror Hin)) as N. rewrite in_app_iff in N. cbn [In] in N. rewrite in_app_iff in N.
      assert (Nl : l' <> ll) by (intros ->; inversion D1; contradiction).
      exists (put b (WObj w') W), (q1 ++ l' :: fp' ++ r2). split; [|split].
      * rewrite encode_fapp. cbn [encode]. rewrite (field_put _ _ _ _ Fd), HC, !(encode_part true) by (assumption || discriminate). now rewrite !oseq_assoc.
      * now apply HPz.
      * apply rep_fapp. exists q1, (l' :: fp' ++ r2). split; [eapply rep_set; eauto; tauto|]. split; [|reflexivity]. cbn [rep]. exists l', at', w', fp', r2.
        split; [exact G|]. split; [rewrite set_nth_ne by congruence; exact Hl'|]. split; [eapply field_put; eauto|]. split; [exact HW|]. split; [|reflexivity]. eapply rep_set; eauto; tauto.
    + destruct R2 as (lx & vx & ws & fps0 & r2 & G & Hlx & Fd & F3 & R2 & ->).
      unfold list_of in HA. cbn [reach] in HA. unfold bind in HA. rewrite (getattr_ok n _ _ _ _ _ _ Hl G) in HA.
      destruct (sub_val (VRef lx) (VInt (Z.of_nat i)) s) as [[u|] s0] eqn:HS; [|discriminate]. destruct (sub_list _ _ _ _ _ _ Hlx HS) as [-> Hi].
      destruct (Forall3_split _ _ _ _ _ _ F3 Hi) as (vs1 & vs2 & y & ws1 & ws2 & q & fps1 & fps2 & -> & -> & -> & L1 & L2 & (l' & at' & w1 & r1 & -> & Hl' & -> & Rs & ->) & F1 & F2).
      assert (HA' : list_of n (VRef l') path a s = (Ok lv, s')) by exact HA. clear HA.
      set (X := concat fps1) in *. set (Y := concat fps2) in *.
      assert (EC : concat (fps1 ++ (l' :: r1) :: fps2) = X ++ (l' :: r1) ++ Y) by (rewrite concat_app; reflexivity). rewrite EC in *.
      assert (HP : forall z fx, Permutation ((l :: q1 ++ lx :: (X ++ (l' :: z) ++ Y) ++ r2) ++ fx) ((l' :: z) ++ (l :: q1 ++ lx :: X ++ Y ++ r2) ++ fx)).
      { intros z fx. rewrite (app_assoc (l' :: z)). apply Permutation_app_tail. change (l :: q1 ++ lx :: (X ++ (l' :: z) ++ Y) ++ r2) with ((l :: q1) ++ (lx :: X ++ (l' :: z) ++ Y) ++ r2).
        replace ((l :: q1) ++ (lx :: X ++ (l' :: z) ++ Y) ++ r2) with (((l :: q1) ++ lx :: X) ++ (l' :: z) ++ (Y ++ r2)) by (cbn [app]; rewrite <- !app_assoc; cbn [app]; now rewrite <- !app_assoc).
        replace (l :: q1 ++ lx :: X ++ Y ++ r2) with (((l :: q1) ++ lx :: X) ++ (Y ++ r2)) by (cbn [app]; rewrite <- !app_assoc; reflexivity). apply Permutation_app_swap_app. }
      assert (D4 : NoDup (l' :: r1)).
      { pose proof (HP r1 []) as HP0. rewrite !app_nil_r in HP0. apply (Permutation_NoDup HP0) in HN. now apply NoDup_app_parts in HN as (HN & _). }
      destruct (IH _ _ _ _ _ _ _ _ _ _ HT' Hl' Rs D4 HA') as (-> & ll & vs & -> & Hll & (A & M & ww & B & fps & rest & HC1 & HC2 & HPf & Hin & HC4 & HC5 & HX)).
      split; [reflexivity|]. exists ll, vs. split; [reflexivity|]. split; [exact Hll|]. cbn [cl_type cl_unit cl_elem cl_off cl_gap] in *.
      exists (oseq (encode f1 W) (oseq (enc_list (fun x => encode sub (as_obj x)) ws1) A)), M, ww, (oseq B (oseq (enc_list (fun x => encode sub (as_obj x)) ws2) (encode f2 W))), fps, (q1 ++ lx :: (X ++ (l' :: rest) ++ Y) ++ r2). cbn [cl_type cl_unit cl_elem cl_off cl_gap].
      assert (HPz : forall z fx, Permutation z (rest ++ fx) -> Permutation (q1 ++ lx :: (X ++ (l' :: z) ++ Y) ++ r2) ((q1 ++ lx :: (X ++ (l' :: rest) ++ Y) ++ r2) ++ fx)).
      { intros z0 fx Hz. assert (E : forall z, q1 ++ lx :: (X ++ (l' :: z) ++ Y) ++ r2 = (q1 ++ lx :: X ++ [l']) ++ z ++ (Y ++ r2)) by (intros z; rewrite <- !app_assoc; cbn [app]; rewrite <- !app_assoc; reflexivity).
        rewrite !E. clear E. generalize (q1 ++ lx :: X ++ [l']). intros z. rewrite <- (app_assoc z). apply Permutation_app_head. transitivity ((rest ++ fx) ++ Y ++ r2); [apply Permutation_app_tail; exact Hz|]. rewrite <- !(app_assoc rest). apply Permutation_app_head. apply Permutation_app_comm. }
      split; [rewrite encode_fapp; cbn [encode]; rewrite Fd, enc_list_app; cbn [enc_list as_obj]; rewrite HC1; now rewrite !oseq_assoc|]. split; [exact HC2|]. split; [now apply HPz|].
      split; [apply in_or_app; right; right; apply in_or_app; left; apply in_or_app; right; right; apply in_or_app; now left|].
      split; [|split; [exact HC5|]].
      { intros k bs Hk Hb. apply oadd_inv in Hk as (y & z & E2 & E3 & ->). apply oadd_inv in E2 as (y1 & y2 & E4 & E5 & ->). destruct (fixed sub) as [mm|] eqn:Hm; [|discriminate]. injection E5 as <-.
        apply oseq_ok in Hb as (b1 & b2 & E6 & E7 & ->). apply oseq_ok in E7 as (b3 & b4 & E8 & E9 & ->).
        rewrite !app_length, (fixed_out _ _ _ _ E4 E6), (HC4 _ _ E3 E9), (fixed_list_length _ _ Hm _ _ E8). lia. }
      intros vn wn fpn HI N. apply (Permutation_NoDup (HP rest (concat fpn))) in N.
      assert (D5 : NoDup ((l' :: rest) ++ concat fpn)).
      { pose proof N as N2. apply Permutation_NoDup with (l' := (l :: q1 ++ lx :: X ++ Y ++ r2) ++ (l' :: rest) ++ concat fpn) in N2; [|apply Permutation_app_swap_app]. now apply NoDup_app_parts in N2 as (_ & N2 & _). }
      destruct (HX vn wn fpn HI D5) as (w' & fp' & HC & HPn & HW).
      apply NoDup_app_parts in N as (D1 & D2 & D3). pose proof (D3 ll (or_intror Hin)) as N. rewrite in_app_iff in N. cbn [In] in N. rewrite in_app_iff in N. cbn [In] in N. rewrite !in_app_iff in N.
      assert (Nl : l' <> ll) by (intros ->; inversion D1; contradiction).
      assert (C : false = false -> same_len (field b W) (field b (put b (WList (ws1 ++ WObj w' :: ws2)) W))).
      { intros _. eapply same_len_put; eauto. rewrite !app_length. reflexivity. }
      exists (put b (WList (ws1 ++ WObj w' :: ws2)) W), (q1 ++ lx :: (X ++ (l' :: fp') ++ Y) ++ r2). split; [|split].
      * rewrite encode_fapp. cbn [encode]. rewrite (field_put _ _ _ _ Fd), !(encode_part false) by auto. rewrite enc_list_app. cbn [enc_list as_obj]. rewrite HC. now rewrite !oseq_assoc.
      * now apply HPz.
      * apply rep_fapp. exists q1, (lx :: (X ++ (l' :: fp') ++ Y) ++ r2). split; [eapply rep_set; eauto; tauto|]. split; [|reflexivity]. cbn [rep].
        exists lx, (vs1 ++ VRef l' :: vs2), (ws1 ++ WObj w' :: ws2), (fps1 ++ (l' :: fp') :: fps2), r2.
        split; [exact G|]. split; [rewrite set_nth_ne by (intros E; subst; tauto); exact Hlx|]. split; [eapply field_put; eauto|]. split; [|split; [|now rewrite concat_app]].
        -- apply Forall3_app; [apply elems_rep_set; [exact F1|fold X; tauto]|]. constructor; [|apply elems_rep_set; [exact F2|fold Y; tauto]].
           exists l', at', w', fp'. split; [reflexivity|]. split; [rewrite set_nth_ne by congruence; exact Hl'|]. auto.
        -- eapply rep_set; eauto; tauto.
Qed.
