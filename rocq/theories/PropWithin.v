(** * C99: using one record for two attributes of an object (opendis/dis7.py: every class's serialize) *)
From Coq Require Import ZArith String List Bool Lia Permutation.
From Coq Require Import Strings.Byte.
From Verif Require Import Lang Bytes Interp Shift Mono ProgBase ProgDis Prog Spec Codec Codec2 Rep Dec StreamLem SerSound ParSound ParStep ParClass NewSound Layouts Refine Api StreamApi Classes PropCodec CtorRun PropFactory PropOffsets Assign PropAssign Append PropAppend Rewrite PropRewrite Replace PropReplace Client PropClient PropTransfer PropReply.
Import ListNotations.
Open Scope string_scope. Open Scope Z_scope. Open Scope list_scope.

(** ** Lemmas *)
Lemma serialize_rep n c f l at_ s W fp : (fuel_ok <= n)%nat -> assoc c TW = Some f -> nth_error (heap s) l = Some (HInst c at_) -> rep the_prog (heap s) f (getA the_prog c at_) W fp ->
  call_method the_prog n (VRef l) "serialize" [VOut] s = oc (encode f W) VNone s.
Proof. intros Hn A E HR. eapply (ser_sound the_prog); eauto using out_cls, tabS, nestS. Qed.

(** as swap_here, for a record that may be part of the object already *)
Lemma swap_within f a f1 dc e f2 s l c at_ W fp v w q s1 : find_spot a f = Some (f1, SObj dc e, f2) -> nth_error (heap s) l = Some (HInst c at_) ->
  rep the_prog (heap s) f (getA the_prog c at_) W fp -> NoDup (l :: fp) -> set_attr the_prog (VRef l) a v s = (Ok tt, s1) -> elem_rep the_prog (heap s) dc e v (WObj w) q -> ~ In l q ->
  exists A B w0 at' W' fp', encode f W = oseq A (oseq (encode e w0) B) /\ (forall k bs, fixed f1 = Some k -> A = (bs, None) -> length bs = k) /\ out s1 = out s /\
    nth_error (heap s1) l = Some (HInst c at') /\ rep the_prog (heap s1) f (getA the_prog c at') W' fp' /\ encode f W' = oseq A (oseq (encode e w) B).
Proof.
  intros HF Hl HR HN HS (lv & atv & w' & qv & -> & Hlv & Ew & Rv & ->) Nl. injection Ew as <-. apply find_spot_inv in HF as (-> & U1 & U2). cbn [counted put_spot] in *. apply rep_fapp in HR as (q1 & q2 & R1 & R2 & ->).
  cbn [rep] in R2. destruct R2 as (l' & at' & w0 & r1 & r2 & G & Hl' & Fd & Rs & R2 & ->).
  assert (E1 : s1 = mkst (set_nth l (HInst c (upd a (VRef lv) at_)) (heap s)) (irest s) (ifull s) (out s)).
  { unfold set_attr, bind, hget, hset in HS. rewrite Hl in HS. unfold getA in G. destruct (lookup the_prog c a) as [[m|]|]; [discriminate| |]; now injection HS as <-. }
  inversion HN as [|? ? N1 N2]; subst. rewrite in_app_iff in N1. cbn [In] in N1, Nl. rewrite in_app_iff in N1.
  assert (Hh : forall y, y <> l -> nth_error (set_nth l (HInst c (upd a (VRef lv) at_)) (heap s)) y = nth_error (heap s) y) by (intros y Hy; apply set_nth_ne; congruence).
  exists (encode f1 W), (encode f2 W), w0, (upd a (VRef lv) at_), (put a (WObj w) W), (q1 ++ (lv :: qv) ++ r2). cbn [heap out]. split; [rewrite encode_fapp; cbn [encode]; now rewrite Fd|]. split; [intros k bs Hk Hb; eapply fixed_out; eauto|]. split; [reflexivity|].
  split; [apply set_nth_eq; eapply lt_of; eauto|]. split.
  - apply rep_fapp. exists q1, (lv :: qv ++ r2). split; [|split; [|reflexivity]].
    + eapply rep_part; eauto; [intros; apply Hh; intros ->; tauto|intros; now apply getA_upd].
    + cbn [rep]. exists lv, atv, w, qv, r2. split; [eapply getA_upd_eq; eauto|]. split; [rewrite Hh by (intros ->; tauto); exact Hlv|]. split; [eapply field_put; eauto|].
      split; [eapply rep_ext; [exact Rv|intros; apply Hh; intros ->; tauto|auto|auto]|]. split; [|reflexivity].
      eapply rep_part; eauto; [intros; apply Hh; intros ->; tauto|intros; now apply getA_upd].
  - rewrite encode_fapp. cbn [encode]. rewrite (field_put _ _ _ _ Fd), !(encode_part true) by (assumption || discriminate). reflexivity.
Qed.

(** ** C99 *)
(** o.a = o.b, both records of the same class: it goes through, and serialize writes the bytes of b in the place of a as well; no other byte changes *)
Theorem C99_within n c f s o a b dc e e' k k' len bs : (fuel_ok <= n)%nat -> layout c = Some f -> unshared (heap s) c f o -> record_at f [] a = Some (dc, e, Some k) -> record_at f [] b = Some (dc, e', Some k') -> fixed e = Some len ->
  serialize n o s = (Ok VNone, appended s bs) ->
  exists s1, copies n o o [(a, b)] s = (Ok tt, s1) /\ out s1 = out s /\ serialize n o s1 = (Ok VNone, appended s1 (splice k (slice k' len bs) bs)).
Proof.
  intros Hn L (W & l & fp & at_ & -> & Hl & HR & HN) HT HT' Hf HS. destruct (layout_inv _ _ L) as (L1 & _).
  pose proof (joined_record _ _ _ _ _ _ (joined_layout _ _ L) HT) as Ld. assert (e' = e) as -> by (pose proof (joined_record _ _ _ _ _ _ (joined_layout _ _ L) HT') as K2; congruence).
  unfold serialize in HS. rewrite (serialize_rep n c f l at_ s W fp Hn L1 Hl HR) in HS.
  assert (E : encode f W = (bs, None)).
  { destruct (encode f W) as [x [ex|]]; unfold oc, add_out, appended in HS; cbn [fst snd] in HS; [discriminate|]. apply (f_equal (fun r => out (snd r))) in HS. cbn [out snd] in HS. apply app_inv_head in HS. now subst x. }
  destruct (rep_objs _ _ _ _ _ HR) as (qs & rest & HO & HP). destruct (In_nth_error _ _ (record_objs _ _ _ _ _ HT')) as (i & Hi). destruct (F2_nth _ _ _ _ _ HO Hi) as (q0 & _ & (v & _ & G & _)).
  assert (HG : getattr n (VRef l) b s = (Ok v, s)) by (eapply getattr_ok; eauto).
  destruct (record_rep n b v s [] f dc e (Some k') s l c at_ W fp HT' Hl HR) as (A' & B' & w & q & rest' & _ & HC' & HV & HP' & HK' & _). { cbn [app reach]. unfold bind. now rewrite HG. }
  assert (Nl : ~ In l q) by (inversion HN as [|? ? N1 _]; subst; intros Hz; apply N1; eapply Permutation_in; [apply Permutation_sym; exact HP'|]; apply in_or_app; now right).
  cbn [record_at] in HT. destruct (find_spot a f) as [[[f1 j] f2]|] eqn:HF; [|discriminate]. destruct j; try discriminate. injection HT as -> -> HT.
  assert (exists s1, set_attr the_prog (VRef l) a v s = (Ok tt, s1)) as (s1 & HA).
  { pose proof HF as HF'. apply find_spot_inv in HF' as (E1 & _). rewrite E1 in HR. apply rep_fapp in HR as (q1 & q3 & R1 & R2 & _). cbn [put_spot rep] in R2. destruct R2 as (l2 & _ & w0 & r1 & r2 & Ga & _).
    unfold set_attr, bind, hget, hset. rewrite Hl. unfold getA in Ga. destruct (lookup the_prog c a) as [[m|]|]; [discriminate| |]; eauto. }
  destruct (swap_within f a f1 dc e f2 s l c at_ W fp v w q s1 HF Hl HR HN HA HV Nl) as (A & B & w0 & at1 & W1 & fp1 & HC & HK & HO1 & Hl1 & HR1 & HC1).
  exists s1. split; [cbn [copies]; unfold bind; rewrite HG, HA; reflexivity|]. split; [exact HO1|]. unfold serialize. rewrite (serialize_rep n c f l at1 s1 W1 fp1 Hn L1 Hl1 HR1).
  pose proof E as E'. rewrite HC in E. rewrite HC' in E'. apply oseq_ok in E as (c1 & c2 & EA & EB & EQ). apply oseq_ok in EB as (c3 & c4 & EC & ED & ->). apply oseq_ok in E' as (b1 & b2 & EA' & EB' & EQ'). apply oseq_ok in EB' as (b3 & b4 & EC' & ED' & ->).
  assert (L3 : length b3 = len) by (eapply fixed_out; eauto). assert (L4 : length c3 = len) by (eapply fixed_out; eauto).
  assert (ES : slice k' len bs = b3) by (rewrite EQ', <- (HK' k' b1 eq_refl EA'), <- L3; apply slice_at).
  rewrite ES, EQ, <- (HK k c1 HT EA), splice_at by congruence. rewrite HC1, EA, EC', ED. reflexivity.
Qed.

(** From then on C63 is lost for these attributes: an assignment to o.a.x is one to o.b.x.  esp = EntityStatePdu() received; esp.alternativeEntityType = esp.entityType; esp.alternativeEntityType.country = 7 changes bytes 22-23 (entityType) and 30-31 *)
Definition d1 : st := Eval vm_compute in snd (copies 50 es_ es_ [("alternativeEntityType", "entityType")] t1).
Definition d2 : st := Eval vm_compute in snd (assign 50 es_ [Attr "alternativeEntityType"] (TAttr "country") (VInt 7) d1).
Theorem C99_linked_refuted : ~ (forall n c f s o path t p off v x bs s1, (fuel_ok <= n)%nat -> layout c = Some f -> type_at f path t = Some (p, Some off) -> scal v = Some x ->
  serialize n o s = (Ok VNone, appended s bs) -> assign n o path t v s = (Ok tt, s1) ->
  exists new, serialize n o s1 = (Ok VNone, appended s1 new) /\ firstn off new = firstn off bs).
Proof.
  intros H. assert (F : (fuel_ok <= 50)%nat) by (apply Nat.leb_le; vm_compute; reflexivity).
  assert (K1 : layout "EntityStatePdu" = Some w_EntityStatePdu) by (vm_compute; reflexivity).
  assert (K2 : type_at w_EntityStatePdu [Attr "alternativeEntityType"] (TAttr "country") = Some (u16, Some 30%nat)) by (vm_compute; reflexivity).
  assert (K3 : serialize 50 es_ d1 = (Ok VNone, appended d1 (bytes es_ d1))) by (vm_compute; reflexivity).
  assert (K4 : assign 50 es_ [Attr "alternativeEntityType"] (TAttr "country") (VInt 7) d1 = (Ok tt, d2)) by (vm_compute; reflexivity).
  assert (K5 : serialize 50 es_ d2 = (Ok VNone, appended d2 (bytes es_ d2))) by (vm_compute; reflexivity).
  assert (K6 : firstn 30 (bytes es_ d2) <> firstn 30 (bytes es_ d1)) by (vm_compute; discriminate).
  pose proof (H 50%nat "EntityStatePdu" w_EntityStatePdu d1 es_ [Attr "alternativeEntityType"] (TAttr "country") u16 30%nat (VInt 7) (WInt 7) (bytes es_ d1) d2 F K1 K2 eq_refl K3 K4) as K. clear H.
  revert K5 K6 K. generalize (bytes es_ d1), (bytes es_ d2), (serialize 50 es_ d2), d2. intros x y r d E N (new & E' & K). rewrite E in E'. apply (f_equal (fun z => out (snd z))) in E'. cbn [out snd appended] in E'. apply app_inv_head in E'. congruence.
Qed.
Example C99_case : unshared (heap t1) "EntityStatePdu" w_EntityStatePdu es_ /\ (exists e, record_at w_EntityStatePdu [] "alternativeEntityType" = Some ("EntityType", e, Some 28%nat) /\ record_at w_EntityStatePdu [] "entityType" = Some ("EntityType", e, Some 20%nat) /\ fixed e = Some 8%nat) /\
  serialize 50 es_ t1 = (Ok VNone, appended t1 es_mixed) /\ copies 50 es_ es_ [("alternativeEntityType", "entityType")] t1 = (Ok tt, d1) /\
  slice 22 2 (bytes es_ d1) = [x11; x11] /\ slice 22 2 (bytes es_ d2) = [x00; x07] /\ slice 30 2 (bytes es_ d2) = [x00; x07].
Proof.
  assert (LE : layout "EntityStatePdu" = Some w_EntityStatePdu) by (vm_compute; reflexivity). assert (F : (fuel_ok <= 50)%nat) by (apply Nat.leb_le; vm_compute; reflexivity).
  split; [apply (load_unshared 50 "EntityStatePdu" w_EntityStatePdu (mkst [] es_mixed es_mixed []) es_ t1 F LE); vm_compute; reflexivity|].
  split; [eexists; split; [vm_compute; reflexivity|]; split; vm_compute; reflexivity|]. repeat (split; [vm_compute; reflexivity|]). vm_compute. reflexivity.
Qed.

Definition all_PropWithin := (C99_within, C99_linked_refuted, C99_case).
Print Assumptions all_PropWithin.
