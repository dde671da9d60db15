(** * How a PDU reads a list of standard variable records (opendis/dis7.py:5112-5116, 6400-6403, 6674-6677) *)
From Coq Require Import ZArith String List Bool Lia.
From Coq Require Import Strings.Byte.
From Verif Require Import Lang Bytes Interp Shift Mono ProgBase ProgDis Prog Spec Codec Codec2 Rep Dec StreamLem SerSound ParSound ParStep ParClass NewSound Layouts Refine Api StreamApi Classes PropCodec Special PropSize SvRun PropSV.
Import ListNotations.
Open Scope string_scope. Open Scope Z_scope. Open Scope list_scope.

(** ** One record *)
(** the two base classes the PDUs ask for *)
Definition expected : list string := ["DamageDescriptionRecord"; "VariableTransmitterParametersRecord"].
(** class and fields of the records of type t that a PDU asking for e accepts *)
Definition sv_class (e : string) (t : Z) : option (string * fmt) :=
  if String.eqb e "VariableTransmitterParametersRecord" then if t =? 3000 then Some ("HighFidelityHAVEQUICKRadio", tail_HighFidelityHAVEQUICKRadio) else None
  else if t =? 4000 then Some ("DirectedEnergyPrecisionAimpoint", tail_DirectedEnergyPrecisionAimpoint)
  else if t =? 4001 then Some ("DirectedEnergyAreaAimpoint", tail_DirectedEnergyAreaAimpoint)
  else if t =? 4500 then Some ("DirectedEnergyDamage", tail_DirectedEnergyDamage) else None.
(** a record: 32-bit type, 16-bit length that has to be a multiple of eight, the fields of the class *)
Definition sv_get (e : string) (bs : list byte) : dres (string * flds) :=
  dbind (dec_val u32 bs) (fun t r => dbind (dec_val u16 r) (fun z r' =>
    match t, z with
    | WInt t, WInt z =>
        match sv_class e t with
        | Some (c, f) => if z mod 8 =? 0 then dmap (pair c) (decode f [] [] r') else DErr ValueError
        | None => DErr TypeError
        end
    | _, _ => DErr TypeError
    end)).

(** v is a record of class and fields p, stored at K *)
Definition sv_elem (h : list hobj) (v : val) (p : string * flds) (K : list nat) : Prop :=
  exists t dbl f l fp, In (fst p, (t, dbl, f)) sv_classes /\ holds_at the_prog h (fst p) f v (snd p) l fp /\ shaped f (snd p) /\ map fst (snd p) = names f /\ K = l :: fp.
Definition sv_is (h : list hobj) (v : val) (p : string * flds) : Prop :=
  exists t dbl f, In (fst p, (t, dbl, f)) sv_classes /\ contents the_prog h (fst p) f v = Some (snd p).

Lemma sv_elem_is h v p K : sv_elem h v p K -> sv_is h v p.
Proof.
  intros (t & dbl & f & l & fp & Hi & H & Sh & Hm & _). exists t, dbl, f. split; [exact Hi|]. destruct (sv_tables _ _ _ _ Hi) as (_ & _ & _ & _ & S1 & S2 & _).
  apply holds_contents; auto. now exists l, fp.
Qed.
Lemma sv_elem_valid h v p K x : sv_elem h v p K -> In x K -> (x < length h)%nat.
Proof.
  intros (t & dbl & f & l & fp & _ & (at_ & -> & Hl & HR & _) & _ & _ & ->) [<-|Hx]; [apply nth_error_Some; congruence|eapply rep_valid; eauto].
Qed.
Lemma sv_elem_frame h h' v p K : sv_elem h v p K -> (forall x, In x K -> nth_error h' x = nth_error h x) -> sv_elem h' v p K.
Proof.
  intros (t & dbl & f & l & fp & Hi & (at_ & -> & Hl & HR & HN) & Sh & Hm & ->) Hh. exists t, dbl, f, l, fp. split; [exact Hi|]. split; [|auto].
  exists at_. split; [reflexivity|]. split; [rewrite Hh by (left; reflexivity); exact Hl|]. split; [|exact HN]. eapply rep_ext; eauto. intros x Hx. apply Hh. now right.
Qed.

Lemma sv_class_some e t c f : In e expected -> sv_class e t = Some (c, f) -> exists dbl, In (c, (t, dbl, f)) sv_classes /\ subclass c e.
Proof.
  intros He. unfold sv_class. destruct He as [<-|[<-|[]]]; cbn [String.eqb Ascii.eqb Bool.eqb].
  - destruct (Z.eqb_spec t 4000) as [->|]; [intros [= <- <-]; eexists; split; [unfold sv_classes; cbn; tauto|apply subclass_dec; vm_compute; reflexivity]|].
    destruct (Z.eqb_spec t 4001) as [->|]; [intros [= <- <-]; eexists; split; [unfold sv_classes; cbn; tauto|apply subclass_dec; vm_compute; reflexivity]|].
    destruct (Z.eqb_spec t 4500) as [->|]; [intros [= <- <-]; eexists; split; [unfold sv_classes; cbn; tauto|apply subclass_dec; vm_compute; reflexivity]|discriminate].
  - destruct (Z.eqb_spec t 3000) as [->|]; [intros [= <- <-]; eexists; split; [unfold sv_classes; cbn; tauto|apply subclass_dec; vm_compute; reflexivity]|discriminate].
Qed.
Lemma sv_class_none n s e t : (fuel_ok <= n)%nat -> In e expected -> 0 <= t -> sv_class e t = None -> lookup_sv n (VInt t) (VClass e) s = (Exc TypeError, s).
Proof.
  intros Hn He Ht H. assert (D : (exists c, In (t, c) registry) \/ forall c, ~ In (t, c) registry).
  { destruct (zassoc t variableRecordClasses) as [c|] eqn:E; [left; exists c; now apply zassoc_registry|right]. intros c Hc. apply zassoc_registry in Hc. congruence. }
  destruct D as [(c & Hc)|D].
  - apply (C32_registered n s t c e Hc). unfold registry in Hc. cbn [In] in Hc.
    repeat match goal with H : _ \/ _ |- _ => destruct H as [H|H] end; try contradiction; injection Hc as <- <-; destruct He as [<-|[<-|[]]]; try discriminate H; rewrite <- subclass_dec; vm_compute; discriminate.
  - apply (C32_unregistered n s t e Hn Ht D). destruct He as [<-|[<-|[]]]; rewrite <- subclass_dec; vm_compute; discriminate.
Qed.

Lemma dec_uint k bs y r : dec_val (PInt k false) bs = DOk y r -> exists z, y = WInt z /\ in_range k false z /\ bs = be k z ++ r.
Proof.
  intros H. apply dec_val_inv in H as (c & -> & L & ->). cbn [width] in L. cbn [dec_prim]. exists (be_val c). split; [reflexivity|]. rewrite <- L, be_be_val.
  split; [|reflexivity]. unfold in_range. pose proof (be_val_range c). rewrite Z.pow_mul_r by lia. change (2 ^ 8) with 256. exact H.
Qed.

(** parseStandardVariableRecord on any input *)
Theorem parse_sv_all n e s : (S fuel_ok <= n)%nat -> In e expected ->
  match sv_get e (irest s) with
  | DOk p r => exists v s' K, parse_sv n e s = (Ok v, s') /\ sv_elem (heap s') v p K /\ (forall x, In x K -> (length (heap s) <= x)%nat) /\ fr (fun _ => False) (heap s) (heap s') /\
      irest s' = r /\ ifull s' = ifull s /\ out s' = out s
  | DErr x => exists s', parse_sv n e s = (Exc x, s')
  end.
Proof.
  intros Hn He. unfold sv_get. unfold u32 at 1, u16 at 1. assert (H2 : (2 <= Nat.pred n)%nat) by (unfold fuel_ok, need, G, Dp in *; lia).
  destruct (dec_val (PInt 4 false) (irest s)) as [y r|x] eqn:D1; cbn [dbind].
  2: { destruct n as [|n]; [lia|]. unfold parse_sv. cbn [run f_parseStandardVariableRecord m_params m_body bind_args bind_pos bind_rest length Nat.sub firstn skipn combine app].
    exists (set_in [] s). unfold bind at 1. cbn [run_block]. unfold bind at 1. rewrite (as_read n "recordType" "read_uint32" u32) by (auto || reflexivity). unfold u32. now rewrite D1. }
  apply dec_uint in D1 as (t & -> & Ht & E1).
  destruct (dec_val (PInt 2 false) r) as [y r'|x] eqn:D2; cbn [dbind].
  2: { destruct n as [|n]; [lia|]. unfold parse_sv. cbn [run f_parseStandardVariableRecord m_params m_body bind_args bind_pos bind_rest length Nat.sub firstn skipn combine app].
    exists (set_in [] (set_in r s)). unfold bind at 1. cbn [run_block]. unfold bind at 1. rewrite (as_read n "recordType" "read_uint32" u32) by (auto || reflexivity).
    rewrite E1. unfold u32. rewrite dec_be by (lia || exact Ht). cbn [fst snd vof upd String.eqb Ascii.eqb Bool.eqb].
    unfold bind at 1. rewrite (as_read n "recordLength" "read_uint16" u16) by (auto || reflexivity). change (irest (set_in r s)) with r. unfold u16. now rewrite D2. }
  apply dec_uint in D2 as (z & -> & Hz & E2). rewrite E2 in E1.
  destruct (sv_class e t) as [[c f]|] eqn:SC.
  - destruct (sv_class_some e t c f He SC) as (dbl & Hc & Hs). pose proof (parse_sv_holds n e c t dbl f s z r' Hn Hc Hs Hz E1) as Q.
    destruct (z mod 8 =? 0); [|exact Q]. destruct (decode f [] [] r') as [W r2|x] eqn:ED; cbn [dmap]; [|exact Q].
    destruct Q as (v & s' & l & fp & A & B & C & D & E & F1 & F2). exists v, s', (l :: fp). split; [exact A|]. split; [|auto 8].
    destruct (sv_tables _ _ _ _ Hc) as (_ & _ & _ & _ & S1 & S2 & _). exists t, dbl, f, l, fp. cbn [fst snd]. repeat (split; [assumption|]).
    split; [eapply decode_shaped; eauto using oldshaped_nil|]. split; [eapply decode_names; eauto|reflexivity].
  - destruct n as [|n]; [lia|]. apply le_S_n in Hn. cbn [Nat.pred] in H2. exists (set_in r' s). set (s1 := set_in r' s).
    unfold parse_sv. cbn [run f_parseStandardVariableRecord m_params m_body bind_args bind_pos bind_rest length Nat.sub firstn skipn combine app].
    unfold bind at 1. cbn [run_block]. unfold bind at 1. rewrite (as_read n "recordType" "read_uint32" u32) by (auto || reflexivity).
    rewrite E1. unfold u32. rewrite dec_be by (lia || exact Ht). cbn [fst snd vof upd String.eqb Ascii.eqb Bool.eqb].
    unfold bind at 1. rewrite (as_read n "recordLength" "read_uint16" u16) by (auto || reflexivity).
    change (irest (set_in (be 2 z ++ r') s)) with (be 2 z ++ r'). unfold u16. rewrite dec_be by (lia || exact Hz). cbn [fst snd vof upd String.eqb Ascii.eqb Bool.eqb].
    change (set_in r' (set_in (be 2 z ++ r') s)) with s1.
    assert (EL : eval the_prog (run the_prog n) (CallV (Glob "getStandardVariableClass") [Loc "recordType"; Loc "expectedType"] [])
        [("inputStream", VIn); ("expectedType", VClass e); ("recordType", VInt t); ("recordLength", VInt z)] s1 = (Exc TypeError, s1)).
    { pose proof (sv_class_none n s1 e t Hn He ltac:(destruct Ht; lia) SC) as Q. unfold lookup_sv in Q. cbn [eval eval_list]. unfold bind in *.
      destruct (glob the_prog "getStandardVariableClass" s1) as [[g|x] s']; [|exact Q]. destruct (callee_of the_prog g s') as [[k|x] s'']; exact Q. }
    remember (CallV (Glob "getStandardVariableClass") [Loc "recordType"; Loc "expectedType"] []) as e1.
    unfold bind at 1. cbn [exec]. unfold bind at 1. rewrite EL. reflexivity.
Qed.

(** ** The loop that reads them *)
Definition sv_read (e : string) : expr := CallV (Glob "parseStandardVariableRecord") [Loc "inputStream"; Glob e] [].
Definition sv_body (y e a : string) : list stmt := [Assign y (sv_read e); Expr (Meth (self_ a) "append" [Loc y] [])].
Definition sv_loop (x cnt y e a : string) : stmt := For x (Builtin BRange [Lit (LInt 0); Loc cnt]) (sv_body y e a).

Lemma ev_sv_read n e rho s : In e expected -> assoc "inputStream" rho = Some VIn -> eval the_prog (run the_prog n) (sv_read e) rho s = parse_sv n e s.
Proof.
  intros He Hi. unfold sv_read. cbn [eval eval_list].
  assert (G1 : glob the_prog "parseStandardVariableRecord" s = (Ok (VFun "parseStandardVariableRecord"), s)).
  { unfold glob. replace (get_cls the_prog "parseStandardVariableRecord") with (@None cls) by (vm_compute; reflexivity). reflexivity. }
  assert (G2 : glob the_prog e s = (Ok (VClass e), s)).
  { unfold glob. assert (K : match get_cls the_prog e with Some _ => true | None => false end = true) by (destruct He as [<-|[<-|[]]]; vm_compute; reflexivity). destruct (get_cls the_prog e); [reflexivity|discriminate]. }
  unfold bind at 1. rewrite G1. cbn [callee_of String.eqb Ascii.eqb Bool.eqb]. unfold bind at 1.
  match goal with |- context [assoc "parseStandardVariableRecord" ?x] => replace (assoc "parseStandardVariableRecord" x) with (Some f_parseStandardVariableRecord) by (vm_compute; reflexivity) end.
  unfold ret at 1. unfold bind at 1. rewrite Hi. unfold bind at 1, ret at 1. unfold bind at 1. unfold bind at 1. rewrite G2. unfold bind, ret. reflexivity.
Qed.

Lemma F3_app {A B C} (R : A -> B -> C -> Prop) l1 l2 l3 x y z : Forall3 R l1 l2 l3 -> R x y z -> Forall3 R (l1 ++ [x]) (l2 ++ [y]) (l3 ++ [z]).
Proof. intros H H0. induction H; cbn; repeat constructor; auto. Qed.
Lemma F3_in {A B C} (R : A -> B -> C -> Prop) l1 l2 l3 z : Forall3 R l1 l2 l3 -> In z l3 -> exists x y, R x y z.
Proof. intros H. induction H; cbn; [tauto|]. intros [<-|Hz]; eauto. Qed.
Lemma F3_F2 {A B C} (R : A -> B -> C -> Prop) (R' : A -> B -> Prop) l1 l2 l3 : Forall3 R l1 l2 l3 -> (forall x y z, R x y z -> R' x y) -> Forall2 R' l1 l2.
Proof. intros H H0. induction H; constructor; eauto. Qed.

(** the loop appends the records to the list at la, which is empty before *)
Theorem sv_for n D x cnt y e a z rho s l at_ la : (S fuel_ok <= n)%nat -> In e expected -> ~ In x ["self"; "inputStream"] -> ~ In y ["self"; "inputStream"] ->
  assoc "self" rho = Some (VRef l) -> assoc "inputStream" rho = Some VIn -> assoc cnt rho = Some (VInt z) ->
  nth_error (heap s) l = Some (HInst D at_) -> getA the_prog D at_ a = Some (VRef la) -> nth_error (heap s) la = Some (HList []) ->
  match dec_list (sv_get e) (Z.to_nat z) (irest s) with
  | DOk ps r => exists rho' s' vs Ks, run_block (exec the_prog (run the_prog n)) [sv_loop x cnt y e a] rho s = (Ok (rho', None), s') /\
      nth_error (heap s') la = Some (HList vs) /\ Forall3 (sv_elem (heap s')) vs ps Ks /\ (forall k, In k (concat Ks) -> (length (heap s) <= k)%nat) /\
      fr (eq la) (heap s) (heap s') /\ irest s' = r /\ ifull s' = ifull s /\ out s' = out s
  | DErr q => exists s', run_block (exec the_prog (run the_prog n)) [sv_loop x cnt y e a] rho s = (Exc q, s')
  end.
Proof.
  intros Hn He Hx Hy Hs Hi Hc Hl Ga Hla. set (h0 := heap s) in *.
  assert (Nl : l <> la) by (intros ->; congruence).
  assert (V1 : (l < length h0)%nat) by (apply nth_error_Some; congruence). assert (V2 : (la < length h0)%nat) by (apply nth_error_Some; congruence).
  pose (Inv := fun (rho1 : env) (s1 : st) (acc : list (string * flds)) => pctx rho1 l false /\ ifull s1 = ifull s /\ out s1 = out s /\ fr (eq la) h0 (heap s1) /\
    exists vs Ks, nth_error (heap s1) la = Some (HList vs) /\ Forall3 (sv_elem (heap s1)) vs acc Ks /\ forall k, In k (concat Ks) -> (length h0 <= k)%nat).
  unfold sv_loop. rewrite (range_for the_prog n (Loc cnt) z) by (cbn [eval]; rewrite Hc; reflexivity).
  pose proof (for_dec (sv_get e) Inv (run_block (exec the_prog (run the_prog n)) (sv_body y e a)) x) as F.
  assert (ST : forall rho1 s1 acc, Inv rho1 s1 acc ->
    match sv_get e (irest s1) with
    | DOk p r => exists rho' s', run_block (exec the_prog (run the_prog n)) (sv_body y e a) (upd x (VInt (Z.of_nat (length acc))) rho1) s1 = (Ok (rho', None), s') /\ irest s' = r /\ Inv rho' s' (acc ++ [p])
    | DErr q => exists s', run_block (exec the_prog (run the_prog n)) (sv_body y e a) (upd x (VInt (Z.of_nat (length acc))) rho1) s1 = (Exc q, s')
    end).
  { intros rho1 s1 acc (I1 & I2 & I3 & I4 & vs & Ks & I5 & I6 & I7). destruct I1 as (C1 & C2 & _).
    set (rho2 := upd x (VInt (Z.of_nat (length acc))) rho1).
    assert (P2 : pctx rho2 l false). { unfold rho2. cbn in Hx. split; [rewrite assoc_upd_ne by (intros Q0; subst; tauto); exact C1|]. split; [rewrite assoc_upd_ne by (intros Q0; subst; tauto); exact C2|discriminate]. }
    assert (L1 : nth_error (heap s1) l = Some (HInst D at_)) by (destruct I4 as [_ I4]; rewrite I4 by congruence; exact Hl).
    pose proof (parse_sv_all n e s1 Hn He) as Q. pose proof (ev_sv_read n e rho2 s1 He (proj1 (proj2 P2))) as ER.
    fold rho2. assert (EB : run_block (exec the_prog (run the_prog n)) (sv_body y e a) rho2 s1 =
      match parse_sv n e s1 with (Ok v, s2) => run_block (exec the_prog (run the_prog n)) [Expr (Meth (self_ a) "append" [Loc y] [])] (upd y v rho2) s2 | (Exc q, s2) => (Exc q, s2) end).
    { unfold sv_body. remember (sv_read e) as er. remember [Expr (Meth (self_ a) "append" [Loc y] [])] as tl. cbn [run_block exec]. unfold bind at 1. unfold bind at 1. rewrite ER. destruct (parse_sv n e s1) as [[v|q] s2]; reflexivity. }
    rewrite EB. clear EB ER.
    destruct (sv_get e (irest s1)) as [p r|q]; [|destruct Q as (s' & Q); rewrite Q; eauto].
    destruct Q as (v & s2 & K & Q1 & Q2 & Q3 & Q4 & Q5 & Q6 & Q7). rewrite Q1.
    set (rho3 := upd y v rho2).
    assert (P3 : pctx rho3 l false). { destruct P2 as (U1 & U2 & _). unfold rho3. cbn in Hy. split; [rewrite assoc_upd_ne by (intros Q0; subst; tauto); exact U1|]. split; [rewrite assoc_upd_ne by (intros Q0; subst; tauto); exact U2|discriminate]. }
    assert (V3 : (length h0 <= length (heap s1))%nat) by apply I4.
    assert (L2 : nth_error (heap s2) l = Some (HInst D at_)) by (destruct Q4 as [_ Q4]; rewrite Q4 by (auto; lia); exact L1).
    assert (L3 : nth_error (heap s2) la = Some (HList vs)) by (destruct Q4 as [_ Q4]; rewrite Q4 by (auto; lia); exact I5).
    assert (EA := ev_append the_prog n rho3 l false a D at_ la vs (Loc y) v s2 s2 P3 L2 Ga L3 ltac:(cbn [eval]; unfold rho3; rewrite assoc_upd_eq; reflexivity) eq_refl).
    remember (Meth (self_ a) "append" [Loc y] []) as em. cbn [run_block exec]. unfold bind. rewrite EA. unfold ret. cbn [snd fst].
    eexists; eexists. split; [reflexivity|]. split; [exact Q5|]. unfold Inv, obj_set. cbn [heap irest ifull out].
    split; [exact P3|]. split; [congruence|]. split; [congruence|].
    assert (V4 : (length (heap s1) <= length (heap s2))%nat) by apply Q4.
    split. { apply (fr_trans (eq la) (eq la) _ (heap s1)); [exact I4| |tauto]. apply (fr_trans (eq la) (eq la) _ (heap s2)); [apply (fr_weak _ _ _ _ Q4); tauto|apply fr_set|tauto]. }
    exists (vs ++ [v]), (Ks ++ [K]). split; [apply set_nth_eq; lia|]. split.
    - apply F3_app.
      + apply Forall3_impl with (2 := I6). intros v0 p0 K0 HK0 HE. eapply sv_elem_frame; [exact HE|]. intros k Hk.
        assert (k < length (heap s1))%nat by (eapply sv_elem_valid; eauto). assert (length h0 <= k)%nat by (apply I7; apply in_concat; eauto).
        rewrite set_nth_ne by lia. destruct Q4 as [_ Q4]. apply Q4; auto.
      + eapply sv_elem_frame; [exact Q2|]. intros k Hk. apply set_nth_ne. specialize (Q3 k Hk). lia.
    - intros k Hk. rewrite concat_app, in_app_iff in Hk. destruct Hk as [Hk|Hk]; [auto|]. cbn in Hk. rewrite app_nil_r in Hk. specialize (Q3 k Hk). lia. }
  specialize (F ST (Z.to_nat z) rho s []). cbn [length Z.of_nat app] in F.
  assert (I0 : Inv rho s []). { split; [split; [exact Hs|split; [exact Hi|discriminate]]|]. split; [reflexivity|]. split; [reflexivity|]. split; [apply fr_refl|]. exists [], []. split; [exact Hla|]. split; [constructor|intros k []]. }
  specialize (F I0). destruct (dec_list (sv_get e) (Z.to_nat z) (irest s)) as [ps r|q]; [|exact F].
  destruct F as (rho' & s' & F1 & F2 & (_ & F3 & F4 & F5 & vs & Ks & F6 & F7 & F8)). exists rho', s', vs, Ks. auto 12.
Qed.

(** ** A PDU that ends with such a loop *)
Lemma ready_lists f : forall h D at_ W fp g, ready the_prog h (fapp f g) D at_ W fp -> exists fp1 fp2, ready the_prog h f D at_ W fp1 /\ ready the_prog h g D at_ W fp2 /\ fp = fp1 ++ fp2.
Proof. intros. now apply ready_fapp. Qed.

(** D's parse reads the fields f, the last of which is the number of records, then the records *)
Definition sv_pdu (D : string) (f : fmt) (pre : list stmt) (cm : list cent) (cnt y e a : string) : bool :=
  match lookup the_prog D "parse" with
  | Some (MMeth m) => is (opt_dec (pair_dec bool_dec bool_dec)) (is_par m) (Some (false, true)) && is (list_eq_dec stmt_dec) (m_body m) (pre ++ [sv_loop "_" cnt y e a])
  | _ => false
  end && newb the_prog new_fuel_ D (fapp f (PList a u8 Done)) && negb (mem y ["self"; "inputStream"]) && mem e expected && has (EL a cnt 1) cm &&
  (nest f <=? Dp)%nat && (nodupb (names f) && forallb (fun a => negb (mem a X1) && negb (String.eqb a "_struct")) (names f)) && subs_nodup f && negb (mem a (names f)) && negb (mem a X1) && plain_attr the_prog D a.

Theorem sv_load n D f pre cm cnt y e a s : (S (S fuel_ok) <= n)%nat -> sv_pdu D f pre cm cnt y e a = true -> new_pure the_prog new_fuel_ D ->
  chkP the_prog TR1 X1 NC 4 D false pre f [] = Some (Done, cm) ->
  match dec2 f [] [] (irest s) with
  | DOk (W, C) r => exists z, count (CLen a) C = Some z /\
      match dec_list (sv_get e) (Z.to_nat z) r with
      | DOk ps r' => exists o s' vs, load the_prog n D s = (Ok o, s') /\ contents the_prog (heap s') D f o = Some W /\
          list_attr (heap s') o a = Some vs /\ Forall2 (sv_is (heap s')) vs ps /\ irest s' = r' /\ ifull s' = ifull s /\ out s' = out s
      | DErr x => exists s', load the_prog n D s = (Exc x, s')
      end
  | DErr x => exists s', load the_prog n D s = (Exc x, s')
  end.
Proof.
  intros Hn SP NP CK. assert (Hf : (new_fuel_ <= n)%nat) by (unfold fuel_ok, need, G, Dp, new_fuel_ in *; lia).
  assert (N : exists k, n = S k /\ (S fuel_ok <= k)%nat /\ (need 4 Dp <= k)%nat) by (exists (Nat.pred n); unfold fuel_ok, need, G, Dp in *; lia). destruct N as (n' & -> & Hn' & Hn4).
  unfold sv_pdu in SP. repeat match type of SP with _ && _ = true => apply andb_prop in SP as [SP ?] end.
  rename H into HP, H0 into HX, H1 into HA, H2 into HS, H3 into HG, H4 into HD, H5 into HH, H6 into HE, H7 into HY, H8 into NB.
  destruct (lookup the_prog D "parse") as [[m|]|] eqn:L; try discriminate. apply andb_prop in SP as [Ip Bp]. apply is_eq in Ip, Bp.
  assert (He : In e expected) by (now apply mem_In). assert (Hy : ~ In y ["self"; "inputStream"]) by (intros Q; apply mem_In in Q; rewrite Q in HY; discriminate).
  destruct (new_ok_at (S n') _ _ NB NP Hf s) as (s1 & l & at_ & fp & E1 & E2 & E3 & E4 & E5 & E6 & E7 & E8 & E9).
  apply ready_fapp in E3 as (fp1 & fp2 & R1 & R2 & ->). cbn [ready] in R2. destruct R2 as (lv & vs & fp3 & A1 & A2 & A3 & -> & ->).
  assert (vs = []) by (inversion A3; reflexivity). subst vs.
  rename n' into n. destruct (run_par the_prog n m false l s1 Ip) as (bv & HB & RP).
  assert (EL : load the_prog (S n) D s = match run_env the_prog n m (par_env l bv) s1 with (Ok _, s') => (Ok (VRef l), s') | (Exc e, s') => (Exc e, s') end).
  { unfold load, bind at 1. unfold new. rewrite E1. unfold bind, ret. unfold call_method, bind at 1, resolve, bind at 1, hget. rewrite E2, L, (proj1 (is_par_inv _ _ _ Ip)). unfold ret. cbn [apply app]. rewrite RP.
    destruct (run_env the_prog n m (par_env l bv) s1) as [[|] ?]; reflexivity. }
  rewrite EL. clear EL RP. unfold run_env. rewrite Bp. unfold bind. rewrite run_block_app.
  assert (NDl : NoDup (l :: fp1) /\ ~ In lv (l :: fp1)).
  { inversion E4 as [|? ? N1 N2]; subst. rewrite in_app_iff in N1. apply NoDup_remove in N2 as [N2 N3]. rewrite app_nil_r in *. split; [constructor; tauto|]. cbn in N1. cbn. intuition congruence. }
  destruct NDl as [ND1 NDv].
  assert (PO := par_part n D false pre f [] cm Hn4 CK HD HG s1 (par_env l bv) l at_ [] [] fp1 (pctx_env l false bv HB) E2 R1 ND1 ltac:(constructor)).
  rewrite E7 in PO. destruct (dec2 f [] [] (irest s)) as [[W C] r|x] eqn:ED; [|destruct PO as (s' & PO); rewrite PO; eauto].
  destruct PO as (rho & s2 & at2 & fp4 & PE & (PC1 & PC2 & _) & PI & PP). rewrite PE. clear PE.
  destruct PP as [P1 P2 P3 P4 P5 P6 P7 P8 P9].
  destruct (has_ok (EL a cnt 1) cm rho (getA the_prog D at2) C HH PI) as (z & Z1 & Z2). rewrite Z.div_1_r in Z2. exists z. split; [exact Z2|].
  assert (NA : ~ In a (names f)) by (intros Q; apply mem_In in Q; rewrite Q in HA; discriminate). assert (NX : ~ In a X1) by (intros Q; apply mem_In in Q; rewrite Q in HX; discriminate).
  assert (B1 : assoc a at2 = assoc a at_) by (apply P6; tauto).
  assert (A1' : assoc a at_ = Some (VRef lv)).
  { unfold getA in A1. unfold plain_attr in HP. destruct (lookup the_prog D a) as [[q|li]|]; [discriminate| |exact A1].
    destruct (assoc a at_); [exact A1|]. injection A1 as A1. destruct li; discriminate A1. }
  assert (A2' : getA the_prog D at2 a = Some (VRef lv)) by (unfold getA; unfold plain_attr in HP; rewrite B1, A1'; destruct (lookup the_prog D a) as [[q|li]|]; [discriminate|reflexivity..]).
  assert (V1 : (lv < length (heap s1))%nat) by (apply nth_error_Some; congruence).
  assert (Hlv : nth_error (heap s2) lv = Some (HList [])) by (destruct P5 as [_ P5]; rewrite P5; [exact A2|exact V1|intros [Q|Q]; apply NDv; [now left|now right]]).
  assert (V2 : forall x, In x (l :: fp4) -> (x < length (heap s2))%nat) by (intros x [<-|Hx]; [apply nth_error_Some; congruence|eapply rep_valid; eauto]).
  assert (N4 : ~ In lv (l :: fp4)).
  { intros [Q|Q]; [apply NDv; now left|]. destruct (P4 _ Q) as [Q'|Q']; [apply NDv; now right|]. clear -V1 Q'. lia. }
  pose proof (sv_for n D "_" cnt y e a z rho s2 l at2 lv Hn' He ltac:(cbn; intuition discriminate) Hy PC1 PC2 Z1 P1 A2' Hlv) as F. rewrite P7 in F.
  destruct (dec_list (sv_get e) (Z.to_nat z) r) as [ps r'|x]; [|destruct F as (s' & F); rewrite F; eauto].
  destruct F as (rho' & s3 & vs & Ks & F1 & F2 & F3 & F4 & F5 & F6 & F7 & F8). rewrite F1. cbn [ret snd].
  assert (L3 : nth_error (heap s3) l = Some (HInst D at2)).
  { destruct F5 as [_ F5]. rewrite F5; [exact P1|apply V2; now left|]. intros ->. apply N4. now left. }
  exists (VRef l), s3, vs. split; [reflexivity|]. split; [|split; [|split; [|split; [exact F6|split; congruence]]]].
  - apply andb_prop in HG as [HG _]. apply holds_contents; auto.
    + exists l, fp4, at2. split; [reflexivity|]. split; [exact L3|]. split; [|exact P3]. eapply rep_ext; [exact P2| |reflexivity|reflexivity].
      intros x Hx. destruct F5 as [_ F5]. apply F5; [apply V2; now right|]. intros ->. apply N4. now right.
    + assert (DD : decode f [] [] (irest s) = DOk W r) by (rewrite dec2_decode, ED; reflexivity). eapply decode_shaped; eauto using oldshaped_nil.
    + eapply dec2_names; eauto.
  - cbn [list_attr]. rewrite L3, B1, A1', F2. reflexivity.
  - eapply F3_F2; [exact F3|]. intros v p K. apply sv_elem_is.
Qed.
