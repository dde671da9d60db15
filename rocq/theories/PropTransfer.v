(** * C97: copying a record from one object to another (opendis/dis7.py: every class's serialize) *)
From Coq Require Import ZArith String List Bool Lia Permutation.
From Coq Require Import Strings.Byte.
From Verif Require Import Lang Bytes Interp Shift Mono ProgBase ProgDis Prog Spec Codec Codec2 Rep Dec StreamLem SerSound ParSound ParStep ParClass NewSound Layouts Refine Api StreamApi Classes PropCodec CtorRun PropFactory PropOffsets Assign PropAssign Append PropAppend Rewrite PropRewrite Replace PropReplace Client PropClient.
Import ListNotations.
Open Scope string_scope. Open Scope Z_scope. Open Scope list_scope.

(** ** Lemmas *)
Lemma reach_app n : forall p1 p2 o s, reach n o (p1 ++ p2) s = bind (reach n o p1) (fun u => reach n u p2) s.
Proof.
  induction p1 as [|[b|b i] p1 IH]; intros p2 o s; cbn [app reach]; [reflexivity| |]; unfold bind in *.
  - destruct (getattr n o b s) as [[u|x] s0]; [apply IH|reflexivity].
  - destruct (getattr n o b s) as [[u|x] s0]; [|reflexivity]. destruct (sub_val u (VInt (Z.of_nat i)) s0) as [[u'|x] s1]; [apply IH|reflexivity].
Qed.
Lemma assign_below n o path v pth t x s : reach n o path s = (Ok v, s) -> assign n o (path ++ pth) t x s = assign n v pth t x s.
Proof. intros H. unfold assign, bind. rewrite reach_app. unfold bind. now rewrite H. Qed.
Lemma type_below a pth t p k dc e : forall path f off, record_at f path a = Some (dc, e, off) -> type_at e pth t = Some (p, k) -> type_at f (path ++ Attr a :: pth) t = Some (p, oadd off k).
Proof.
  induction path as [|[b|b i] path IH]; intros f off HT HE; cbn [record_at app type_at] in *.
  - destruct (find_spot a f) as [[[f1 j] f2]|]; [|discriminate]. destruct j; try discriminate. injection HT as <- <- <-. now rewrite HE.
  - destruct (find_spot b f) as [[[f1 j] f2]|]; [|discriminate]. destruct j as [|d sub|d sub| |]; try discriminate. destruct (record_at sub path a) as [[[dc' e'] off']|] eqn:E; [|discriminate]. injection HT as <- <- <-.
    rewrite (IH _ _ E HE). do 2 f_equal. destruct (fixed f1), off', k; cbn [oadd]; try reflexivity. f_equal. lia.
  - destruct (find_spot b f) as [[[f1 j] f2]|]; [|discriminate]. destruct j as [|d sub|d sub| |]; try discriminate. destruct (record_at sub path a) as [[[dc' e'] off']|] eqn:E; [|discriminate]. injection HT as <- <- <-.
    rewrite (IH _ _ E HE). do 2 f_equal. destruct (oadd (fixed f1) (option_map (Nat.mul i) (fixed sub))), off', k; cbn [oadd]; try reflexivity. f_equal. lia.
Qed.

(** the record o.path.a and its bytes within those of o *)
Lemma record_rep n a v s0 : forall path f dc e off s l c at_ W fp, record_at f path a = Some (dc, e, off) -> nth_error (heap s) l = Some (HInst c at_) ->
  rep the_prog (heap s) f (getA the_prog c at_) W fp -> reach n (VRef l) (path ++ [Attr a]) s = (Ok v, s0) ->
  exists A B w q rest, s0 = s /\ encode f W = oseq A (oseq (encode e w) B) /\ elem_rep the_prog (heap s) dc e v (WObj w) q /\ Permutation fp (rest ++ q) /\
    (forall k bs, off = Some k -> A = (bs, None) -> length bs = k) /\
    (forall s1, (forall z, In z (l :: fp) -> nth_error (heap s1) z = nth_error (heap s) z) -> reach n (VRef l) (path ++ [Attr a]) s1 = (Ok v, s1)).
Proof.
  induction path as [|[b|b i] path IH]; intros f dc e off s l c at_ W fp HT Hl HR HA; cbn [record_at app reach] in *.
  - destruct (find_spot a f) as [[[f1 j] f2]|] eqn:HF; [|discriminate]. destruct j; try discriminate. injection HT as <- <- <-. apply find_spot_inv in HF as (-> & _). cbn [put_spot] in HR. apply rep_fapp in HR as (q1 & q2 & R1 & R2 & ->).
    cbn [rep] in R2. destruct R2 as (l' & at' & w0 & r1 & r2 & G & Hl' & Fd & Rs & R2 & ->). unfold bind in HA. rewrite (getattr_ok n _ _ _ _ _ _ Hl G) in HA. injection HA as <- <-.
    exists (encode f1 W), (encode f2 W), w0, (l' :: r1), (q1 ++ r2). split; [reflexivity|]. split; [rewrite encode_fapp; cbn [put_spot encode]; now rewrite Fd|]. split; [exists l', at', w0, r1; auto|].
    split; [rewrite <- app_assoc; apply Permutation_app_head; change (l' :: r1 ++ r2) with ((l' :: r1) ++ r2); apply Permutation_app_comm|]. split; [intros k bs Hk Hb; eapply fixed_out; eauto|].
    intros s1 Hh. cbn [app reach]. unfold bind. rewrite (getattr_ok n s1 l c at_ a (VRef l')); [reflexivity|rewrite Hh by (now left); exact Hl|exact G].
  - destruct (find_spot b f) as [[[f1 j] f2]|] eqn:HF; [|discriminate]. destruct j as [|d sub|d sub| |]; try discriminate. destruct (record_at sub path a) as [[[dc' e'] off']|] eqn:HT'; [|discriminate]. injection HT as <- <- <-.
    apply find_spot_inv in HF as (-> & _). cbn [put_spot] in HR. apply rep_fapp in HR as (q1 & q2 & R1 & R2 & ->). cbn [rep] in R2. destruct R2 as (l' & at' & w1 & r1 & r2 & G & Hl' & Fd & Rs & R2 & ->).
    unfold bind at 1 in HA. rewrite (getattr_ok n _ _ _ _ _ _ Hl G) in HA. destruct (IH _ _ _ _ _ _ _ _ _ _ HT' Hl' Rs HA) as (A & B & w & q & rest & -> & HC & HO & HP & HK & HY).
    exists (oseq (encode f1 W) A), (oseq B (encode f2 W)), w, q, (q1 ++ l' :: rest ++ r2). split; [reflexivity|]. split; [rewrite encode_fapp; cbn [put_spot encode]; rewrite Fd, HC; now rewrite !oseq_assoc|]. split; [exact HO|]. split; [|split].
    + rewrite <- app_assoc. apply Permutation_app_head. cbn [app]. apply perm_skip. rewrite <- app_assoc. transitivity ((rest ++ q) ++ r2); [now apply Permutation_app_tail|]. rewrite <- app_assoc. apply Permutation_app_head. apply Permutation_app_comm.
    + intros k bs Hk Hb. apply oadd_inv in Hk as (y & z & E2 & E3 & ->). apply oseq_ok in Hb as (b1 & b2 & E4 & E5 & ->). now rewrite app_length, (fixed_out _ _ _ _ E2 E4), (HK _ _ E3 E5).
    + intros s1 Hh. cbn [app reach]. unfold bind at 1. rewrite (getattr_ok n s1 l c at_ b (VRef l')); [|rewrite Hh by (now left); exact Hl|exact G]. apply HY.
      intros z Hz. apply Hh. right. apply in_or_app. right. change (In z ((l' :: r1) ++ r2)). apply in_or_app. now left.
  - destruct (find_spot b f) as [[[f1 j] f2]|] eqn:HF; [|discriminate]. destruct j as [|d sub|d sub| |]; try discriminate. destruct (record_at sub path a) as [[[dc' e'] off']|] eqn:HT'; [|discriminate]. injection HT as <- <- <-.
    apply find_spot_inv in HF as (-> & _). cbn [put_spot] in HR. apply rep_fapp in HR as (q1 & q2 & R1 & R2 & ->). cbn [rep] in R2. destruct R2 as (lx & vx & ws & fps0 & r2 & G & Hlx & Fd & F3 & R2 & ->).
    unfold bind at 1 in HA. rewrite (getattr_ok n _ _ _ _ _ _ Hl G) in HA. unfold bind at 1 in HA. destruct (sub_val (VRef lx) (VInt (Z.of_nat i)) s) as [[u|] s2] eqn:HS; [|discriminate]. destruct (sub_list _ _ _ _ _ _ Hlx HS) as [-> Hi].
    destruct (Forall3_split _ _ _ _ _ _ F3 Hi) as (vs1 & vs2 & y & ws1 & ws2 & q' & fps1 & fps2 & -> & -> & -> & L1 & L2 & (l' & at' & w1 & r1 & -> & Hl' & -> & Rs & ->) & F1 & F2).
    destruct (IH _ _ _ _ _ _ _ _ _ _ HT' Hl' Rs HA) as (A & B & w & q & rest & -> & HC & HO & HP & HK & HY).
    exists (oseq (encode f1 W) (oseq (enc_list (fun x => encode sub (as_obj x)) ws1) A)), (oseq B (oseq (enc_list (fun x => encode sub (as_obj x)) ws2) (encode f2 W))), w, q, (q1 ++ lx :: (concat fps1 ++ (l' :: rest) ++ concat fps2) ++ r2).
    split; [reflexivity|]. split; [rewrite encode_fapp; cbn [put_spot encode]; rewrite Fd, enc_list_app; cbn [enc_list as_obj]; rewrite HC; now rewrite !oseq_assoc|]. split; [exact HO|]. split; [|split].
    + rewrite concat_app. cbn [concat]. assert (E : forall z, q1 ++ lx :: (concat fps1 ++ (l' :: z) ++ concat fps2) ++ r2 = (q1 ++ lx :: concat fps1 ++ [l']) ++ z ++ (concat fps2 ++ r2)) by (intros z; rewrite <- !app_assoc; cbn [app]; rewrite <- !app_assoc; reflexivity).
      rewrite !E. clear E. generalize (q1 ++ lx :: concat fps1 ++ [l']), (concat fps2 ++ r2). intros z z2. rewrite <- (app_assoc z). apply Permutation_app_head. transitivity ((rest ++ q) ++ z2); [now apply Permutation_app_tail|]. rewrite <- !(app_assoc rest). apply Permutation_app_head. apply Permutation_app_comm.
    + intros k bs Hk Hb. apply oadd_inv in Hk as (y & z & E2 & E3 & ->). apply oadd_inv in E2 as (y1 & y2 & E4 & E5 & ->). destruct (fixed sub) as [mm|] eqn:Hm; [|discriminate]. injection E5 as <-.
      apply oseq_ok in Hb as (b1 & b2 & E6 & E7 & ->). apply oseq_ok in E7 as (b3 & b4 & E8 & E9 & ->).
      rewrite !app_length, (fixed_out _ _ _ _ E4 E6), (HK _ _ E3 E9), (fixed_list_length _ _ Hm _ _ E8). lia.
    + intros s1 Hh. cbn [app reach]. unfold bind at 1. rewrite (getattr_ok n s1 l c at_ b (VRef lx)); [|rewrite Hh by (now left); exact Hl|exact G]. unfold bind at 1.
      assert (Hx : nth_error (heap s1) lx = nth_error (heap s) lx) by (apply Hh; right; apply in_or_app; right; now left).
      assert (HS1 : sub_val (VRef lx) (VInt (Z.of_nat i)) s1 = (Ok (VRef l'), s1)).
      { unfold sub_val, bind, hget in *. rewrite Hx, Hlx in *. cbn [as_int] in *. unfold nth_val in *. rewrite py_index_nat in *. destruct (_ <? _)%nat; [|discriminate]. rewrite Hi. reflexivity. }
      rewrite HS1. apply HY. intros z Hz. apply Hh. right. apply in_or_app. right. right. apply in_or_app. left. rewrite concat_app. cbn [concat]. apply in_or_app. right. change (In z ((l' :: r1) ++ concat fps2)). apply in_or_app. now left.
Qed.

(** after o.path.a = v, o.path.a is v *)
Lemma reach_after n a v : forall path f dc e off s l c at_ W fp s1, record_at f path a = Some (dc, e, off) -> nth_error (heap s) l = Some (HInst c at_) ->
  rep the_prog (heap s) f (getA the_prog c at_) W fp -> NoDup (l :: fp) -> assign n (VRef l) path (TAttr a) v s = (Ok tt, s1) -> reach n (VRef l) (path ++ [Attr a]) s1 = (Ok v, s1).
Proof.
  induction path as [|[b|b i] path IH]; intros f dc e off s l c at_ W fp s1 HT Hl HR HN HA.
  - cbn [record_at] in HT. unfold assign in HA. cbn [reach] in HA. change (bind (ret (VRef l)) ?k s) with (k (VRef l) s) in HA. cbn beta iota in HA.
    destruct (find_spot a f) as [[[f1 j] f2]|] eqn:HF; [|discriminate]. destruct j; try discriminate. apply find_spot_inv in HF as (-> & _). cbn [put_spot] in HR. apply rep_fapp in HR as (q1 & q2 & R1 & R2 & ->).
    cbn [rep] in R2. destruct R2 as (l' & at' & w0 & r1 & r2 & G & _).
    assert (E1 : s1 = mkst (set_nth l (HInst c (upd a v at_)) (heap s)) (irest s) (ifull s) (out s)).
    { unfold set_attr, bind, hget, hset in HA. rewrite Hl in HA. unfold getA in G. destruct (lookup the_prog c a) as [[m|]|]; [discriminate| |]; now injection HA as <-. }
    cbn [app reach]. unfold bind. erewrite (getattr_ok n s1 l c (upd a v at_) a v); [reflexivity| |eapply getA_upd_eq; eauto]. subst s1. cbn [heap]. apply set_nth_eq. eapply lt_of; eauto.
  - cbn [record_at] in HT. destruct (find_spot b f) as [[[f1 j] f2]|] eqn:HF; [|discriminate]. destruct j as [|d sub|d sub| |]; try discriminate. destruct (record_at sub path a) as [[[dc' e'] off']|] eqn:HT'; [|discriminate].
    apply find_spot_inv in HF as (-> & _). cbn [put_spot] in HR. apply rep_fapp in HR as (q1 & q2 & R1 & R2 & ->). cbn [rep] in R2. destruct R2 as (l' & at' & w1 & r1 & r2 & G & Hl' & Fd & Rs & R2 & ->).
    assert (HA' : assign n (VRef l') path (TAttr a) v s = (Ok tt, s1)).
    { unfold assign in *. cbn [reach] in HA. unfold bind in *. rewrite (getattr_ok n _ _ _ _ _ _ Hl G) in HA. exact HA. }
    inversion HN as [|? ? N1 N2]; subst. apply NoDup_app_parts in N2 as (_ & N2 & _). change (l' :: r1 ++ r2) with ((l' :: r1) ++ r2) in N2. apply NoDup_app_parts in N2 as (N2 & _).
    destruct (swap_ind n a v path sub dc' e' off' s l' d at' w1 r1 s1 HT' Hl' Rs N2 HA') as (lu & ob & A & B & old & w0 & q0 & rest & Hin & E1 & _ & _ & _ & HP & _).
    assert (Hlu : lu <> l).
    { intros ->. apply N1. apply in_or_app. right. destruct Hin as [->|Hin]; [now left|]. right. apply in_or_app. left. eapply Permutation_in; [apply Permutation_sym; exact HP|]. apply in_or_app. now left. }
    cbn [app reach]. unfold bind at 1. rewrite (getattr_ok n s1 l c at_ b (VRef l')); [|subst s1; cbn [heap]; rewrite set_nth_ne by congruence; exact Hl|exact G].
    exact (IH _ _ _ _ _ _ _ _ _ _ _ HT' Hl' Rs N2 HA').
  - cbn [record_at] in HT. destruct (find_spot b f) as [[[f1 j] f2]|] eqn:HF; [|discriminate]. destruct j as [|d sub|d sub| |]; try discriminate. destruct (record_at sub path a) as [[[dc' e'] off']|] eqn:HT'; [|discriminate].
    apply find_spot_inv in HF as (-> & _). cbn [put_spot] in HR. apply rep_fapp in HR as (q1 & q2 & R1 & R2 & ->). cbn [rep] in R2. destruct R2 as (lx & vx & ws & fps0 & r2 & G & Hlx & Fd & F3 & R2 & ->).
    unfold assign in HA. cbn [reach] in HA. unfold bind in HA. rewrite (getattr_ok n _ _ _ _ _ _ Hl G) in HA.
    destruct (sub_val (VRef lx) (VInt (Z.of_nat i)) s) as [[u|] s0] eqn:HS; [|discriminate]. destruct (sub_list _ _ _ _ _ _ Hlx HS) as [-> Hi].
    destruct (Forall3_split _ _ _ _ _ _ F3 Hi) as (vs1 & vs2 & y & ws1 & ws2 & q & fps1 & fps2 & -> & -> & -> & L1 & L2 & (l' & at' & w1 & r1 & -> & Hl' & -> & Rs & ->) & F1 & F2).
    assert (HA' : assign n (VRef l') path (TAttr a) v s = (Ok tt, s1)) by exact HA. clear HA. rewrite concat_app in HN. cbn [concat] in HN.
    inversion HN as [|? ? N1 N2]; subst. apply NoDup_app_parts in N2 as (_ & N2 & _). inversion N2 as [|? ? N3 N4]; subst. apply NoDup_app_parts in N4 as (N4 & _). apply NoDup_app_parts in N4 as (_ & N4 & _). change (l' :: r1 ++ concat fps2) with ((l' :: r1) ++ concat fps2) in N4. apply NoDup_app_parts in N4 as (N4 & _).
    destruct (swap_ind n a v path sub dc' e' off' s l' d at' w1 r1 s1 HT' Hl' Rs N4 HA') as (lu & ob & A & B & old & w0 & q0 & rest & Hin & E1 & _ & _ & _ & HP & _).
    assert (Hin' : In lu (l' :: r1)) by (destruct Hin as [->|Hin]; [now left|]; right; eapply Permutation_in; [apply Permutation_sym; exact HP|]; apply in_or_app; now left).
    assert (Hx : In lu ((concat fps1 ++ (l' :: r1) ++ concat fps2) ++ r2)) by (apply in_or_app; left; apply in_or_app; right; apply in_or_app; now left).
    assert (Hlu : lu <> l) by (intros ->; apply N1; apply in_or_app; right; now right). assert (Hlx' : lu <> lx) by (intros ->; now apply N3).
    cbn [app reach]. unfold bind at 1. rewrite (getattr_ok n s1 l c at_ b (VRef lx)); [|subst s1; cbn [heap]; rewrite set_nth_ne by congruence; exact Hl|exact G]. unfold bind at 1.
    assert (HS1 : sub_val (VRef lx) (VInt (Z.of_nat (length vs1))) s1 = (Ok (VRef l'), s1)).
    { unfold sub_val, bind, hget in *. rewrite Hlx in HS. subst s1. cbn [heap]. rewrite set_nth_ne by congruence. rewrite Hlx. cbn [as_int] in *. unfold nth_val in *. rewrite py_index_nat in *. destruct (_ <? _)%nat; [|discriminate]. rewrite Hi. reflexivity. }
    rewrite HS1. exact (IH _ _ _ _ _ _ _ _ _ _ _ HT' Hl' Rs N4 HA').
Qed.

(** ** C97 *)
(** objects at hand in a program (C95) are apart *)
Theorem C97_apart n P s c f o c' f' p : (fuel_ok <= n)%nat -> reaches n P s -> layout c = Some f -> layout c' = Some f' -> In (c, o) P -> In (c', p) P -> o <> p -> apart (heap s) c f o c' f' p.
Proof.
  intros Hn HR L L' Ho Hp Hne. destruct (C95_separate n P s c f o c' f' [p] Hn HR L L' Ho) as (W & l & fp & xs & qs & HH & HX & HN); [intros v [<-|[]]; exact Hp|repeat constructor; cbn; intuition|].
  inversion HX as [|? x q ? ? ? (l' & at' & w & fp' & -> & Hl' & -> & HR' & ->) HX']; subst. inversion HX'; subst. cbn [concat] in HN. rewrite app_nil_r in HN. apply NoDup_app_parts in HN as (_ & HN & HD).
  exists W, l, fp, w, l', fp'. split; [exact HH|]. split; [exists at'; auto|exact HD].
Qed.

(** o.path.a = p.path'.a', both records of the same class, of two objects that are apart: of the bytes o serializes to, those of its record are replaced by the bytes that this record has within those of p, each at its offset where that does not depend on the values; no other byte changes.
    p serializes to the same bytes as before *)
Theorem C97_copy n c f c' f' s o p path a path' a' dc e e' off off' v bs bs' s1 : (fuel_ok <= n)%nat -> layout c = Some f -> layout c' = Some f' -> apart (heap s) c f o c' f' p ->
  record_at f path a = Some (dc, e, off) -> record_at f' path' a' = Some (dc, e', off') -> serialize n o s = (Ok VNone, appended s bs) -> serialize n p s = (Ok VNone, appended s bs') ->
  reach n p (path' ++ [Attr a']) s = (Ok v, s) -> assign n o path (TAttr a) v s = (Ok tt, s1) ->
  out s1 = out s /\ unshared (heap s1) c f o /\ unshared (heap s1) c' f' p /\ reach n o (path ++ [Attr a]) s1 = (Ok v, s1) /\ reach n p (path' ++ [Attr a']) s1 = (Ok v, s1) /\
  exists before old after before' record after', bs = before ++ old ++ after /\ bs' = before' ++ record ++ after' /\ (forall k, off = Some k -> length before = k) /\ (forall k, off' = Some k -> length before' = k) /\
    serialize n o s1 = (Ok VNone, appended s1 (before ++ record ++ after)) /\ serialize n p s1 = (Ok VNone, appended s1 bs').
Proof.
  intros Hn L L' (W & l & fp & w & l' & fp' & (at_ & -> & Hl & HR & HN) & (at' & -> & Hl' & HR' & HN') & HD) HT HT' HS HS' HG HA.
  assert (e' = e) as -> by (pose proof (joined_record _ _ _ _ _ _ (joined_layout _ _ L) HT) as K1; pose proof (joined_record _ _ _ _ _ _ (joined_layout _ _ L') HT') as K2; congruence).
  pose proof (joined_record _ _ _ _ _ _ (joined_layout _ _ L) HT) as Ld. destruct (layout_inv _ _ L') as (L1' & _).
  destruct (record_rep n a' v s path' f' dc e off' s l' c' at' w fp' HT' Hl' HR' HG) as (A & B & w0 & q0 & rest & _ & HC & HO & HP & HK & HY).
  assert (HH' : holds the_prog (heap s) c' f' (VRef l') w) by (exists l', fp', at'; auto).
  pose proof HS' as HE. unfold serialize in HE. rewrite (serialize_holds n c' f' (VRef l') s w Hn L1' HH') in HE.
  assert (EE : encode f' w = (bs', None)).
  { destruct (encode f' w) as [b [ex|]]; unfold oc, add_out, appended in HE; cbn [fst snd] in HE; [discriminate|]. apply (f_equal (fun x => out (snd x))) in HE. cbn [out snd] in HE. apply app_inv_head in HE. now subst b. }
  clear HE. rewrite HC in EE. apply oseq_ok in EE as (b1 & b2 & EA & EB & ->). apply oseq_ok in EB as (b3 & b4 & EC & ED & ->).
  assert (Nq : NoDup q0) by (inversion HN' as [|? ? _ N]; subst; apply (Permutation_NoDup HP) in N; now apply NoDup_app_parts in N as (_ & N & _)).
  assert (Hq : forall z, In z q0 -> In z (l' :: fp')) by (intros z Hz; right; eapply Permutation_in; [apply Permutation_sym; exact HP|]; apply in_or_app; now right).
  assert (HSep : separate_all (heap s) c f (VRef l) (SRecords dc e) [v]).
  { exists W, l, fp, [WObj w0], [q0]. split; [exists at_; auto|]. split; [repeat constructor; exact HO|]. cbn [concat]. rewrite app_nil_r. apply NoDup_app; [exact HN|exact Nq|]. intros z Hz Hz'. exact (HD z Hz (Hq z Hz')). }
  assert (HV : serialize n v s = (Ok VNone, appended s b3)) by (rewrite (elem_out n s dc e v w0 q0 Hn Ld HO Nq), EC; reflexivity).
  destruct (C96_replace n c f s (VRef l) path a dc e off v (Ok VNone) b3 bs s1 Hn L HT HSep HV HS HA) as (O1 & _ & U1 & before & old & ob & after & _ & _ & -> & HB & _ & HS1).
  destruct (swap_ind n a v path f dc e off s l c at_ W fp s1 HT Hl HR HN HA) as (lu & obj & _ & _ & _ & _ & q1 & rest1 & Hin & E1 & _ & _ & _ & HP1 & _).
  assert (Hlu : ~ In lu (l' :: fp')).
  { apply HD. destruct Hin as [->|Hin]; [now left|]. right. eapply Permutation_in; [apply Permutation_sym; exact HP1|]. apply in_or_app. now left. }
  assert (Hh : forall z, In z (l' :: fp') -> nth_error (heap s1) z = nth_error (heap s) z) by (intros z Hz; subst s1; cbn [heap]; apply set_nth_ne; intros ->; contradiction).
  assert (Hl1 : nth_error (heap s1) l' = Some (HInst c' at')) by (rewrite Hh by (now left); exact Hl').
  assert (HR1 : rep the_prog (heap s1) f' (getA the_prog c' at') w fp') by (eapply rep_ext; [exact HR'|intros z Hz; apply Hh; now right|auto|auto]).
  assert (HH1 : holds the_prog (heap s1) c' f' (VRef l') w) by (exists l', fp', at'; auto).
  split; [exact O1|]. split; [exact U1|]. split; [exists w; exact HH1|]. split; [eapply reach_after; eauto|]. split; [now apply HY|].
  exists before, ob, after, b1, b3, b4. split; [reflexivity|]. split; [reflexivity|]. split; [exact HB|]. split; [intros k Hk; eapply HK; eauto|]. split; [exact HS1|].
  unfold serialize. rewrite (serialize_holds n c' f' (VRef l') s1 w Hn L1' HH1), HC, EA, EC, ED. reflexivity.
Qed.

(** It is not copied by value: from then on o and p have this record in common.  Assigning x to one of its attributes through o is assigning it through p, and changes both: in the bytes of each, exactly those of that attribute become those of x (or serialize raises there, if x does not fit) *)
Theorem C97_shared n c f c' f' s1 o p path a path' a' dc e e' off off' v pth t ty k y x bs bs' s2 : (fuel_ok <= n)%nat -> layout c = Some f -> layout c' = Some f' -> unshared (heap s1) c f o -> unshared (heap s1) c' f' p ->
  record_at f path a = Some (dc, e, off) -> record_at f' path' a' = Some (dc, e', off') -> reach n o (path ++ [Attr a]) s1 = (Ok v, s1) -> reach n p (path' ++ [Attr a']) s1 = (Ok v, s1) ->
  serialize n o s1 = (Ok VNone, appended s1 bs) -> serialize n p s1 = (Ok VNone, appended s1 bs') -> type_at e pth t = Some (ty, k) -> scal y = Some x -> assign n o (path ++ Attr a :: pth) t y s1 = (Ok tt, s2) ->
  assign n p (path' ++ Attr a' :: pth) t y s1 = (Ok tt, s2) /\
  (exists before old after, bs = before ++ old ++ after /\ length old = width ty /\ (forall j, oadd off k = Some j -> length before = j) /\ rewritten n o s2 ty x before after) /\
  (exists before old after, bs' = before ++ old ++ after /\ length old = width ty /\ (forall j, oadd off' k = Some j -> length before = j) /\ rewritten n p s2 ty x before after).
Proof.
  intros Hn L L' U U' HT HT' G G' HS HS' HY Hx HA.
  assert (e' = e) as -> by (pose proof (joined_record _ _ _ _ _ _ (joined_layout _ _ L) HT) as K1; pose proof (joined_record _ _ _ _ _ _ (joined_layout _ _ L') HT') as K2; congruence).
  assert (HA' : assign n p (path' ++ Attr a' :: pth) t y s1 = (Ok tt, s2)).
  { change (Attr a' :: pth) with ([Attr a'] ++ pth). change (Attr a :: pth) with ([Attr a] ++ pth) in HA. rewrite app_assoc in *. rewrite (assign_below n p _ v pth t y s1 G'). now rewrite (assign_below n o _ v pth t y s1 G) in HA. }
  split; [exact HA'|].
  destruct (C63_assign n c f s1 o _ t ty _ y x bs s2 Hn L U (type_below _ _ _ _ _ _ _ _ _ _ HT HY) Hx HS HA) as (_ & _ & _ & b & q & r & K).
  destruct (C63_assign n c' f' s1 p _ t ty _ y x bs' s2 Hn L' U' (type_below _ _ _ _ _ _ _ _ _ _ HT' HY) Hx HS' HA') as (_ & _ & _ & b' & q' & r' & K'). split; [exists b, q, r; exact K|exists b', q', r'; exact K'].
Qed.

(** ** A case *)
(** a received Entity State PDU es and fire = FirePdu(); fire.location = es.entityLocation: bytes 40-63 of fire become bytes 48-71 of es.  Then fire.location.y = 1.0 changes bytes 48-55 of fire and bytes 56-63 of es *)
Definition t1 : st := Eval vm_compute in snd (load the_prog 50 "EntityStatePdu" (mkst [] es_mixed es_mixed [])).
Definition es_ : val := Eval vm_compute in val_of (load the_prog 50 "EntityStatePdu" (mkst [] es_mixed es_mixed [])).
Definition fire_ : val := Eval vm_compute in val_of (new the_prog 50 "FirePdu" [] t1).
Definition t2 : st := Eval vm_compute in snd (new the_prog 50 "FirePdu" [] t1).
Definition el_ : val := Eval vm_compute in val_of (reach 50 es_ [Attr "entityLocation"] t2).
Definition t3 : st := Eval vm_compute in snd (assign 50 fire_ [] (TAttr "location") el_ t2).
Definition t4 : st := Eval vm_compute in snd (assign 50 fire_ [Attr "location"] (TAttr "y") (VFloat 4607182418800017408) t3).
Example C97_case : apart (heap t2) "FirePdu" w_FirePdu fire_ "EntityStatePdu" w_EntityStatePdu es_ /\ layout "FirePdu" = Some w_FirePdu /\ layout "EntityStatePdu" = Some w_EntityStatePdu /\
  (exists e, record_at w_FirePdu [] "location" = Some ("WorldCoordinates", e, Some 40%nat) /\ record_at w_EntityStatePdu [] "entityLocation" = Some ("WorldCoordinates", e, Some 48%nat) /\ type_at e [] (TAttr "y") = Some (f64, Some 8%nat)) /\
  serialize 50 fire_ t2 = (Ok VNone, appended t2 (bytes fire_ t2)) /\ serialize 50 es_ t2 = (Ok VNone, appended t2 es_mixed) /\
  reach 50 es_ [Attr "entityLocation"] t2 = (Ok el_, t2) /\ assign 50 fire_ [] (TAttr "location") el_ t2 = (Ok tt, t3) /\
  bytes fire_ t3 = firstn 40 (bytes fire_ t2) ++ firstn 24 (skipn 48 es_mixed) ++ skipn 64 (bytes fire_ t2) /\ bytes fire_ t3 <> bytes fire_ t2 /\ bytes es_ t3 = es_mixed /\
  assign 50 fire_ [Attr "location"] (TAttr "y") (VFloat 4607182418800017408) t3 = (Ok tt, t4) /\
  bytes fire_ t4 = firstn 48 (bytes fire_ t3) ++ [x3f; xf0] ++ repeat x00 6 ++ skipn 56 (bytes fire_ t3) /\ bytes es_ t4 = firstn 56 es_mixed ++ [x3f; xf0] ++ repeat x00 6 ++ skipn 64 es_mixed.
Proof.
  assert (LE : layout "EntityStatePdu" = Some w_EntityStatePdu) by (vm_compute; reflexivity). assert (LF : layout "FirePdu" = Some w_FirePdu) by (vm_compute; reflexivity).
  assert (F : (fuel_ok <= 50)%nat) by (apply Nat.leb_le; vm_compute; reflexivity).
  split.
  - apply (C97_apart 50 [("FirePdu", fire_); ("EntityStatePdu", es_)] t2 "FirePdu" _ _ "EntityStatePdu" _ _ F); [|exact LF|exact LE|now left|right; now left|discriminate].
    eapply reach_step; [eapply reach_step; [apply (reach_start 50 (mkst [] [] [] []))|]|].
    + apply (do_parse 50 "EntityStatePdu" es_mixed es_ [] _ t1); [rewrite LE; discriminate|vm_compute; reflexivity].
    + apply (do_new 50 "FirePdu" fire_ _ _ t2); [rewrite LF; discriminate|cbn; intuition discriminate|vm_compute; reflexivity].
  - split; [exact LF|]. split; [exact LE|]. split; [eexists; split; [vm_compute; reflexivity|]; split; vm_compute; reflexivity|].
    repeat (split; [first [vm_compute; reflexivity|vm_compute; discriminate]|]). vm_compute. reflexivity.
Qed.

Definition all_PropTransfer := (C97_apart, C97_copy, C97_shared, C97_case).
Print Assumptions all_PropTransfer.
