(** * Assigning an object to an attribute of another one: lemmas for PropReplace.v *)
From Coq Require Import ZArith String List Bool Lia Permutation.
From Coq Require Import Strings.Byte.
From Verif Require Import Lang Bytes Interp Shift Mono ProgBase ProgDis Prog Spec Codec Codec2 Rep Dec StreamLem SerSound ParSound ParStep ParClass NewSound Layouts Refine Api StreamApi Classes PropCodec CtorRun PropFactory PropOffsets Assign PropAssign Append.
Import ListNotations.
Open Scope string_scope. Open Scope Z_scope. Open Scope list_scope.

(** the class and the layout of the record that o.path.a is, and its offset where that does not depend on the values of o *)
Fixpoint record_at (f : fmt) (path : list step) (a : string) : option (string * fmt * option nat) :=
  match path with
  | [] => match find_spot a f with Some (f1, SObj c sub, _) => Some (c, sub, fixed f1) | _ => None end
  | Attr b :: r =>
      match find_spot b f with
      | Some (f1, SObj _ sub, _) => match record_at sub r a with Some (c, e, off) => Some (c, e, oadd (fixed f1) off) | None => None end
      | _ => None
      end
  | Elem b i :: r =>
      match find_spot b f with
      | Some (f1, SRecords _ sub, _) => match record_at sub r a with Some (c, e, off) => Some (c, e, oadd (oadd (fixed f1) (option_map (Nat.mul i) (fixed sub))) off) | None => None end
      | _ => None
      end
  end.

(** the object l of class c before (s) and after (s1) o.path.a = v: old, of locations q0, is replaced by v; rest are the other locations of l *)
Definition swapped (n : nat) (path : list step) (a : string) (s s1 : st) (l : nat) (c : string) (f : fmt) (W : flds) (fp : list nat) (dc : string) (e : fmt) (off : option nat) (v : val) : Prop :=
  exists lu ob A B old w0 q0 rest, In lu (l :: rest) /\ s1 = mkst (set_nth lu ob (heap s)) (irest s) (ifull s) (out s) /\ reach n (VRef l) (path ++ [Attr a]) s = (Ok old, s) /\
    encode f W = oseq A (oseq (encode e w0) B) /\ elem_rep the_prog (heap s) dc e old (WObj w0) q0 /\ Permutation fp (rest ++ q0) /\
    (forall k bs, off = Some k -> A = (bs, None) -> length bs = k) /\
    forall w q, elem_rep the_prog (heap s) dc e v (WObj w) q -> NoDup ((l :: rest) ++ q) ->
      exists at' W' fp', nth_error (heap s1) l = Some (HInst c at') /\ rep the_prog (heap s1) f (getA the_prog c at') W' fp' /\
        encode f W' = oseq A (oseq (encode e w) B) /\ Permutation fp' (rest ++ q).

Lemma swap_here n f a f1 dc e f2 s l c at_ W fp v s1 : find_spot a f = Some (f1, SObj dc e, f2) -> nth_error (heap s) l = Some (HInst c at_) ->
  rep the_prog (heap s) f (getA the_prog c at_) W fp -> NoDup (l :: fp) -> set_attr the_prog (VRef l) a v s = (Ok tt, s1) ->
  swapped n [] a s s1 l c f W fp dc e (fixed f1) v.
Proof.
  intros HF Hl HR HN HS. apply find_spot_inv in HF as (-> & U1 & U2). cbn [counted put_spot] in *. apply rep_fapp in HR as (q1 & q2 & R1 & R2 & ->).
  cbn [rep] in R2. destruct R2 as (l' & at' & w0 & r1 & r2 & G & Hl' & Fd & Rs & R2 & ->).
  assert (E1 : s1 = mkst (set_nth l (HInst c (upd a v at_)) (heap s)) (irest s) (ifull s) (out s)).
  { unfold set_attr, bind, hget, hset in HS. rewrite Hl in HS. unfold getA in G. destruct (lookup the_prog c a) as [[m|]|]; [discriminate| |]; now injection HS as <-. }
  exists l, (HInst c (upd a v at_)), (encode f1 W), (encode f2 W), (VRef l'), w0, (l' :: r1), (q1 ++ r2). split; [now left|]. split; [exact E1|].
  split; [cbn [app reach]; unfold bind; rewrite (getattr_ok n _ _ _ _ _ _ Hl G); reflexivity|].
  split; [rewrite encode_fapp; cbn [encode]; now rewrite Fd|]. split; [exists l', at', w0, r1; auto|].
  split; [rewrite <- app_assoc; apply Permutation_app_head; change (l' :: r1 ++ r2) with ((l' :: r1) ++ r2); apply Permutation_app_comm|].
  split; [intros k bs Hk Hb; eapply fixed_out; eauto|].
  intros w q (lv & atv & w' & qv & -> & Hlv & Ew & Rv & ->) N. injection Ew as <-. cbn [app] in N. inversion N as [|? ? N1 N2]; subst. rewrite !in_app_iff in N1. cbn [In] in N1.
  assert (Hh : forall y, y <> l -> nth_error (set_nth l (HInst c (upd a (VRef lv) at_)) (heap s)) y = nth_error (heap s) y) by (intros y Hy; apply set_nth_ne; congruence).
  exists (upd a (VRef lv) at_), (put a (WObj w) W), (q1 ++ (lv :: qv) ++ r2). cbn [heap]. split; [apply set_nth_eq; eapply lt_of; eauto|]. split; [|split].
  - apply rep_fapp. exists q1, (lv :: qv ++ r2). split; [|split; [|reflexivity]].
    + eapply rep_part; eauto; [intros; apply Hh; intros ->; tauto|intros; now apply getA_upd].
    + cbn [rep]. exists lv, atv, w, qv, r2. split; [eapply getA_upd_eq; eauto|]. split; [rewrite Hh by (intros ->; tauto); exact Hlv|]. split; [eapply field_put; eauto|].
      split; [eapply rep_ext; [exact Rv|intros; apply Hh; intros ->; tauto|auto|auto]|]. split; [|reflexivity].
      eapply rep_part; eauto; [intros; apply Hh; intros ->; tauto|intros; now apply getA_upd].
  - rewrite encode_fapp. cbn [encode]. rewrite (field_put _ _ _ _ Fd), !(encode_part true) by (assumption || discriminate). reflexivity.
  - rewrite <- app_assoc. apply Permutation_app_head. apply Permutation_app_comm.
Qed.

Lemma swap_ind n a v : forall path f dc e off s l c at_ W fp s1, record_at f path a = Some (dc, e, off) -> nth_error (heap s) l = Some (HInst c at_) ->
  rep the_prog (heap s) f (getA the_prog c at_) W fp -> NoDup (l :: fp) -> assign n (VRef l) path (TAttr a) v s = (Ok tt, s1) -> swapped n path a s s1 l c f W fp dc e off v.
Proof.
  induction path as [|st path IH]; intros f dc e off s l c at_ W fp s1 HT Hl HR HN HA.
  - unfold assign in HA. cbn [reach] in HA. change (bind (ret (VRef l)) ?k s) with (k (VRef l) s) in HA. cbn beta in HA. cbn [record_at] in HT.
    destruct (find_spot a f) as [[[f1 j] f2]|] eqn:HF; try discriminate. destruct j; try discriminate. injection HT as <- <- <-. eapply swap_here; eauto.
  - destruct st as [b|b i]; cbn [record_at] in HT; destruct (find_spot b f) as [[[f1 k] f2]|] eqn:HF; try discriminate; destruct k as [|d sub|d sub| |]; try discriminate;
      destruct (record_at sub path a) as [[[dc' e'] off']|] eqn:HT'; try discriminate; injection HT as <- <- <-; apply find_spot_inv in HF as (-> & U1 & U2); cbn [counted put_spot] in *;
      apply rep_fapp in HR as (q1 & q2 & R1 & R2 & ->); cbn [rep] in R2.
    + destruct R2 as (l' & at' & w1 & r1 & r2 & G & Hl' & Fd & Rs & R2 & ->).
      assert (HA' : assign n (VRef l') path (TAttr a) v s = (Ok tt, s1)).
      { unfold assign in *. cbn [reach] in HA. unfold bind in *. rewrite (getattr_ok n _ _ _ _ _ _ Hl G) in HA. exact HA. }
      assert (HP : forall z fx, Permutation ((l :: q1 ++ l' :: z ++ r2) ++ fx) ((l' :: z) ++ (l :: q1 ++ r2) ++ fx)).
      { intros z fx. rewrite app_assoc. apply Permutation_app_tail. change (l :: q1 ++ l' :: z ++ r2) with ((l :: q1) ++ (l' :: z) ++ r2). change (l :: q1 ++ r2) with ((l :: q1) ++ r2). apply Permutation_app_swap_app. }
      assert (D4 : NoDup (l' :: r1)).
      { pose proof (HP r1 []) as HP0. rewrite !app_nil_r in HP0. apply (Permutation_NoDup HP0) in HN. now apply NoDup_app_parts in HN as (HN & _). }
      destruct (IH _ _ _ _ _ _ _ _ _ _ _ HT' Hl' Rs D4 HA') as (lu & ob & A & B & old & w0 & q0 & rest & Hin & E1 & HRe & HC1 & HO & HPf & HC3 & HX).
      assert (HPz : forall z fx, Permutation z (rest ++ fx) -> Permutation (q1 ++ l' :: z ++ r2) ((q1 ++ l' :: rest ++ r2) ++ fx)).
      { intros z fx Hz. rewrite <- app_assoc. apply Permutation_app_head. cbn [app]. apply perm_skip. rewrite <- app_assoc. transitivity ((rest ++ fx) ++ r2); [now apply Permutation_app_tail|].
        rewrite <- app_assoc. apply Permutation_app_head. apply Permutation_app_comm. }
      exists lu, ob, (oseq (encode f1 W) A), (oseq B (encode f2 W)), old, w0, q0, (q1 ++ l' :: rest ++ r2).
      split; [right; apply in_or_app; right; change (In lu ((l' :: rest) ++ r2)); apply in_or_app; now left|]. split; [exact E1|].
      split; [cbn [app reach]; unfold bind at 1; rewrite (getattr_ok n _ _ _ _ _ _ Hl G); exact HRe|].
      split; [rewrite encode_fapp; cbn [encode]; rewrite Fd, HC1; now rewrite !oseq_assoc|]. split; [exact HO|]. split; [now apply HPz|]. split.
      { intros k bs Hk Hb. apply oadd_inv in Hk as (y & z & E2 & E3 & ->). apply oseq_ok in Hb as (b1 & b2 & E4 & E5 & ->). now rewrite app_length, (fixed_out _ _ _ _ E2 E4), (HC3 _ _ E3 E5). }
      intros w q HI N. apply (Permutation_NoDup (HP rest q)) in N.
      assert (D5 : NoDup ((l' :: rest) ++ q)).
      { pose proof N as N2. apply Permutation_NoDup with (l' := (l :: q1 ++ r2) ++ (l' :: rest) ++ q) in N2; [|apply Permutation_app_swap_app]. now apply NoDup_app_parts in N2 as (_ & N2 & _). }
      destruct (HX w q HI D5) as (at2 & W' & fp' & Hl2 & HW & HC & HPn).
      apply NoDup_app_parts in N as (_ & _ & D3). pose proof (D3 lu Hin) as N. rewrite in_app_iff in N. cbn [In] in N. rewrite in_app_iff in N.
      exists at_, (put b (WObj W') W), (q1 ++ l' :: fp' ++ r2). split; [subst s1; cbn [heap]; rewrite set_nth_ne by (intros ->; tauto); exact Hl|]. split; [|split].
      * apply rep_fapp. exists q1, (l' :: fp' ++ r2). split; [eapply rep_part; eauto; intros y Hy; subst s1; cbn [heap]; apply set_nth_ne; intros ->; tauto|]. split; [|reflexivity]. cbn [rep]. exists l', at2, W', fp', r2.
        split; [exact G|]. split; [exact Hl2|]. split; [eapply field_put; eauto|]. split; [exact HW|]. split; [|reflexivity]. eapply rep_part; eauto. intros y Hy. subst s1. cbn [heap]. apply set_nth_ne. intros ->. tauto.
      * rewrite encode_fapp. cbn [encode]. rewrite (field_put _ _ _ _ Fd), HC, !(encode_part true) by (assumption || discriminate). now rewrite !oseq_assoc.
      * now apply HPz.
    + destruct R2 as (lx & vx & ws & fps0 & r2 & G & Hlx & Fd & F3 & R2 & ->).
      unfold assign in HA. cbn [reach] in HA. unfold bind in HA. rewrite (getattr_ok n _ _ _ _ _ _ Hl G) in HA.
      destruct (sub_val (VRef lx) (VInt (Z.of_nat i)) s) as [[u|] s0] eqn:HS; [|discriminate]. destruct (sub_list _ _ _ _ _ _ Hlx HS) as [-> Hi].
      destruct (Forall3_split _ _ _ _ _ _ F3 Hi) as (vs1 & vs2 & y & ws1 & ws2 & q & fps1 & fps2 & -> & -> & -> & L1 & L2 & (l' & at' & w1 & r1 & -> & Hl' & -> & Rs & ->) & F1 & F2).
      assert (HA' : assign n (VRef l') path (TAttr a) v s = (Ok tt, s1)) by exact HA. clear HA.
      set (X := concat fps1) in *. set (Y := concat fps2) in *.
      assert (EC : forall z, concat (fps1 ++ (l' :: z) :: fps2) = X ++ (l' :: z) ++ Y) by (intros z; rewrite concat_app; reflexivity). rewrite EC in *.
      assert (HP : forall z fx, Permutation ((l :: q1 ++ lx :: (X ++ (l' :: z) ++ Y) ++ r2) ++ fx) ((l' :: z) ++ (l :: q1 ++ lx :: X ++ Y ++ r2) ++ fx)).
      { intros z fx. rewrite (app_assoc (l' :: z)). apply Permutation_app_tail. change (l :: q1 ++ lx :: (X ++ (l' :: z) ++ Y) ++ r2) with ((l :: q1) ++ (lx :: X ++ (l' :: z) ++ Y) ++ r2).
        replace ((l :: q1) ++ (lx :: X ++ (l' :: z) ++ Y) ++ r2) with (((l :: q1) ++ lx :: X) ++ (l' :: z) ++ (Y ++ r2)) by (cbn [app]; rewrite <- !app_assoc; cbn [app]; now rewrite <- !app_assoc).
        replace (l :: q1 ++ lx :: X ++ Y ++ r2) with (((l :: q1) ++ lx :: X) ++ (Y ++ r2)) by (cbn [app]; rewrite <- !app_assoc; reflexivity). apply Permutation_app_swap_app. }
      assert (D4 : NoDup (l' :: r1)).
      { pose proof (HP r1 []) as HP0. rewrite !app_nil_r in HP0. apply (Permutation_NoDup HP0) in HN. now apply NoDup_app_parts in HN as (HN & _). }
      destruct (IH _ _ _ _ _ _ _ _ _ _ _ HT' Hl' Rs D4 HA') as (lu & ob & A & B & old & w0 & q0 & rest & Hin & E1 & HRe & HC1 & HO & HPf & HC3 & HX).
      assert (HPz : forall z fx, Permutation z (rest ++ fx) -> Permutation (q1 ++ lx :: (X ++ (l' :: z) ++ Y) ++ r2) ((q1 ++ lx :: (X ++ (l' :: rest) ++ Y) ++ r2) ++ fx)).
      { intros z0 fx Hz. assert (E : forall z, q1 ++ lx :: (X ++ (l' :: z) ++ Y) ++ r2 = (q1 ++ lx :: X ++ [l']) ++ z ++ (Y ++ r2)) by (intros z; rewrite <- !app_assoc; cbn [app]; rewrite <- !app_assoc; reflexivity).
        rewrite !E. clear E. generalize (q1 ++ lx :: X ++ [l']). intros z. rewrite <- (app_assoc z). apply Permutation_app_head. transitivity ((rest ++ fx) ++ Y ++ r2); [apply Permutation_app_tail; exact Hz|]. rewrite <- !(app_assoc rest). apply Permutation_app_head. apply Permutation_app_comm. }
      exists lu, ob, (oseq (encode f1 W) (oseq (enc_list (fun x => encode sub (as_obj x)) ws1) A)), (oseq B (oseq (enc_list (fun x => encode sub (as_obj x)) ws2) (encode f2 W))), old, w0, q0, (q1 ++ lx :: (X ++ (l' :: rest) ++ Y) ++ r2).
      split; [right; apply in_or_app; right; right; apply in_or_app; left; apply in_or_app; right; apply in_or_app; now left|]. split; [exact E1|].
      split; [cbn [app reach]; unfold bind at 1 2; rewrite (getattr_ok n _ _ _ _ _ _ Hl G), HS; exact HRe|].
      split; [rewrite encode_fapp; cbn [encode]; rewrite Fd, enc_list_app; cbn [enc_list as_obj]; rewrite HC1; now rewrite !oseq_assoc|]. split; [exact HO|]. split; [now apply HPz|]. split.
      { intros k bs Hk Hb. apply oadd_inv in Hk as (y & z & E2 & E3 & ->). apply oadd_inv in E2 as (y1 & y2 & E4 & E5 & ->). destruct (fixed sub) as [mm|] eqn:Hm; [|discriminate]. injection E5 as <-.
        apply oseq_ok in Hb as (b1 & b2 & E6 & E7 & ->). apply oseq_ok in E7 as (b3 & b4 & E8 & E9 & ->).
        rewrite !app_length, (fixed_out _ _ _ _ E4 E6), (HC3 _ _ E3 E9), (fixed_list_length _ _ Hm _ _ E8). lia. }
      intros w q HI N. apply (Permutation_NoDup (HP rest q)) in N.
      assert (D5 : NoDup ((l' :: rest) ++ q)).
      { pose proof N as N2. apply Permutation_NoDup with (l' := (l :: q1 ++ lx :: X ++ Y ++ r2) ++ (l' :: rest) ++ q) in N2; [|apply Permutation_app_swap_app]. now apply NoDup_app_parts in N2 as (_ & N2 & _). }
      destruct (HX w q HI D5) as (at2 & W' & fp' & Hl2 & HW & HC & HPn).
      apply NoDup_app_parts in N as (_ & _ & D3). pose proof (D3 lu Hin) as N. rewrite in_app_iff in N. cbn [In] in N. rewrite in_app_iff in N. cbn [In] in N. rewrite !in_app_iff in N.
      assert (C : false = false -> same_len (field b W) (field b (put b (WList (ws1 ++ WObj W' :: ws2)) W))).
      { intros _. eapply same_len_put; eauto. rewrite !app_length. reflexivity. }
      exists at_, (put b (WList (ws1 ++ WObj W' :: ws2)) W), (q1 ++ lx :: (X ++ (l' :: fp') ++ Y) ++ r2). split; [subst s1; cbn [heap]; rewrite set_nth_ne by (intros ->; tauto); exact Hl|]. split; [|split].
      * apply rep_fapp. exists q1, (lx :: (X ++ (l' :: fp') ++ Y) ++ r2). split; [eapply rep_part; eauto; intros z Hz; subst s1; cbn [heap]; apply set_nth_ne; intros ->; tauto|]. split; [|reflexivity]. cbn [rep].
        exists lx, (vs1 ++ VRef l' :: vs2), (ws1 ++ WObj W' :: ws2), (fps1 ++ (l' :: fp') :: fps2), r2.
        split; [exact G|]. split; [subst s1; cbn [heap]; rewrite set_nth_ne by (intros E; subst; tauto); exact Hlx|]. split; [eapply field_put; eauto|]. split; [|split; [|now rewrite EC]].
        -- apply Forall3_app; [subst s1; cbn [heap]; apply elems_rep_set; [exact F1|fold X; tauto]|]. constructor; [|subst s1; cbn [heap]; apply elems_rep_set; [exact F2|fold Y; tauto]].
           exists l', at2, W', fp'. auto.
        -- eapply rep_part; eauto. intros z Hz. subst s1. cbn [heap]. apply set_nth_ne. intros ->. tauto.
      * rewrite encode_fapp. cbn [encode]. rewrite (field_put _ _ _ _ Fd), !(encode_part false) by auto. rewrite enc_list_app. cbn [enc_list as_obj]. rewrite HC. now rewrite !oseq_assoc.
      * now apply HPz.
Qed.
