(** * C82: lists that can be written and not read (opendis/dis7.py: the eleven classes whose parse creates the elements of a list with null()) *)
From Coq Require Import ZArith String List Bool Lia.
From Coq Require Import Strings.Byte.
From Verif Require Import Lang Bytes Interp Shift Mono ProgBase ProgDis Prog Spec Codec Codec2 Rep Dec StreamLem SerSound ParSound ParStep ParClass NewSound Layouts Refine Api StreamApi Classes PropCodec PropFactory Special PropSize PropOffsets PropSV TxRun PropSvList.
Import ListNotations.
Open Scope string_scope. Open Scope Z_scope. Open Scope list_scope.

(** ** Specification *)
(** the fields of a layout, without the lists and without their counts *)
Fixpoint plain_fields (f : fmt) : fmt :=
  match f with
  | Prim a p k => Prim a p (plain_fields k)
  | Obj a c sub k => Obj a c sub (plain_fields k)
  | Cnt _ _ _ k | NullL _ k => plain_fields k
  | _ => Done
  end.
(** the lists, in the order they are written *)
Fixpoint the_lists (f : fmt) : list string :=
  match f with
  | Prim _ _ k | Obj _ _ _ k | Cnt _ _ _ k => the_lists k
  | NullL a k => a :: the_lists k
  | _ => []
  end.
Definition elems (a : string) (L : list (string * list outcome)) : list outcome := match assoc a L with Some os => os | None => [] end.
(** what a record with these fields goes out as, L giving for every list what each of its elements goes out as:
    every field in its place, for every count m times the number of elements, for every list its elements one after the other *)
Fixpoint wire (f : fmt) (W : flds) (L : list (string * list outcome)) : outcome :=
  match f with
  | Prim a p k => match field a W with Some x => oseq (enc_val p x) (wire k W L) | None => fail AttributeError end
  | Obj a _ sub k => match field a W with Some (WObj w) => oseq (encode sub w) (wire k W L) | _ => fail AttributeError end
  | Cnt a p m k => oseq (enc_val p (WInt (Z.of_nat (length (elems a L)) * m))) (wire k W L)
  | NullL a k => oseq (outs (elems a L)) (wire k W L)
  | _ => done
  end.

(** the eleven classes *)
Definition null_classes : list (string * fmt) := [
  ("GridAxisDescriptorVariable", w_GridAxisDescriptorVariable);
  ("SilentEntitySystem", w_SilentEntitySystem);
  ("StandardVariableSpecification", w_StandardVariableSpecification);
  ("RecordSpecification", w_RecordSpecification);
  ("IntercomSignalPdu", w_IntercomSignalPdu);
  ("ResupplyReceivedPdu", w_ResupplyReceivedPdu);
  ("RecordQueryReliablePdu", w_RecordQueryReliablePdu);
  ("UaPdu", w_UaPdu);
  ("IntercomControlPdu", w_IntercomControlPdu);
  ("SeesPdu", w_SeesPdu);
  ("MinefieldResponseNackPdu", w_MinefieldResponseNackPdu)].

(** ** Machinery *)
(** the part before the lists *)
Fixpoint upto (f : fmt) : fmt :=
  match f with
  | Prim a p k => Prim a p (upto k)
  | Obj a c sub k => Obj a c sub (upto k)
  | Cnt a p m k => Cnt a p m (upto k)
  | _ => Done
  end.
Fixpoint only_null (f : fmt) : bool := match f with Done => true | NullL _ k => only_null k | _ => false end.
Fixpoint null_tail (f : fmt) : bool :=
  match f with
  | Prim _ _ k | Obj _ _ _ k | Cnt _ _ _ k => null_tail k
  | _ => only_null f
  end.
Fixpoint cnts_in (ls : list string) (f : fmt) : bool :=
  match f with
  | Prim _ _ k | Obj _ _ _ k | NullL _ k => cnts_in ls k
  | Cnt a _ _ k => mem a ls && cnts_in ls k
  | _ => true
  end.
(** stand-ins that only have a length *)
Definition standin (ls : list string) (L : list (string * list outcome)) : flds := map (fun a => (a, WList (repeat (WInt 0) (length (elems a L))))) ls.

Lemma standin_in ls L a : mem a ls = true -> field a (standin ls L) = Some (WList (repeat (WInt 0) (length (elems a L)))).
Proof.
  unfold standin. induction ls as [|b ls IH]; cbn [mem existsb map field]; [discriminate|]. destruct (String.eqb_spec a b) as [->|N]; [intros _|intros H]; cbn; [reflexivity|].
  apply IH. exact H.
Qed.
Lemma standin_out ls L a : mem a ls = false -> field a (standin ls L) = None.
Proof.
  unfold standin. induction ls as [|b ls IH]; cbn [mem existsb map field]; [reflexivity|]. destruct (String.eqb_spec a b) as [->|N]; [discriminate|]. exact IH.
Qed.

Definition all_outs (ls : list string) (L : list (string * list outcome)) : outcome := outs (map (fun a => outs (elems a L)) ls).
Lemma only_wire f W L : only_null f = true -> wire f W L = all_outs (the_lists f) L.
Proof. induction f; cbn [only_null]; try discriminate; intros H; [reflexivity|]. cbn [wire the_lists]. rewrite (IHf H). reflexivity. Qed.

Definition apart (ls : list string) (f : fmt) : bool := forallb (fun a => negb (mem a ls)) (names (plain_fields f)).
Lemma field_under ls L W a : negb (mem a ls) = true -> field a (standin ls L ++ W) = field a W.
Proof. intros H. apply negb_true_iff in H. now rewrite field_app, (standin_out ls L a H). Qed.
Lemma wire_upto ls L W f : null_tail f = true -> cnts_in ls f = true -> apart ls f = true -> (forall a, In a (names (plain_fields f)) -> exists x, field a W = Some x) ->
  wire f W L = oseq (encode (upto f) (standin ls L ++ W)) (all_outs (the_lists f) L).
Proof.
  unfold apart. induction f; cbn [null_tail]; try discriminate; intros H1 H2 H3 H4; cbn [cnts_in plain_fields names forallb wire upto encode the_lists] in *;
    try (apply andb_prop in H3 as [H3 H3']); try (apply andb_prop in H2 as [H2 H2']).
  - reflexivity.
  - rewrite (field_under _ _ _ _ H3). destruct (H4 a (or_introl eq_refl)) as [x ->]. rewrite (IHf H1 H2 H3') by (intros; apply H4; now right). now rewrite oseq_assoc.
  - rewrite (field_under _ _ _ _ H3). destruct (H4 a (or_introl eq_refl)) as [x ->].
    destruct x; try reflexivity. rewrite (IHf2 H1 H2 H3') by (intros; apply H4; now right). now rewrite oseq_assoc.
  - rewrite field_app, (standin_in _ _ _ H2), repeat_length. rewrite (IHf H1 H2' H3 H4). now rewrite oseq_assoc.
  - rewrite (only_wire f W L) by exact H1. now rewrite oseq_done_l.
Qed.
Lemma rep_upto ls L W h ga : forall f fp, null_tail f = true -> apart ls f = true -> rep the_prog h (plain_fields f) ga W fp -> exists fp', rep the_prog h (upto f) ga (standin ls L ++ W) fp'.
Proof.
  unfold apart. induction f; intros fp; cbn [null_tail]; try discriminate; intros H1 H3 HR; cbn [plain_fields names forallb rep upto] in *; try (apply andb_prop in H3 as [H3 H3']).
  - now exists [].
  - destruct HR as [HR1 HR2]. destruct (IHf fp H1 H3' HR2) as [fp' Q]. exists fp'. rewrite (field_under _ _ _ _ H3). auto.
  - destruct HR as (l & at_ & w & p1 & p2 & A1 & A2 & A3 & A4 & A5 & ->). destruct (IHf2 p2 H1 H3' A5) as [fp' Q]. exists (l :: p1 ++ fp'), l, at_, w, p1, fp'. rewrite (field_under _ _ _ _ H3). auto 10.
  - exact (IHf fp H1 H3 HR).
  - now exists [].
Qed.
Lemma rep_names h ga W : forall f fp, rep the_prog h (plain_fields f) ga W fp -> forall a, In a (names (plain_fields f)) -> exists x, field a W = Some x.
Proof.
  induction f; intros fp HR a' Ha; cbn [plain_fields names rep] in *; try (destruct Ha; fail); eauto.
  - destruct HR as [(v & x & _ & _ & Fx) HR2]. destruct Ha as [<-|Ha]; eauto.
  - destruct HR as (l & at_ & w & p1 & p2 & A1 & A2 & A3 & A4 & A5 & ->). destruct Ha as [<-|Ha]; eauto.
Qed.
Lemma deps_upto ls L W h ga : forall f, cnts_in ls f = true -> null_tail f = true ->
  (forall a, mem a ls = true -> exists l vs, ga a = Some (VRef l) /\ nth_error h l = Some (HList vs) /\ length vs = length (elems a L)) -> deps h (upto f) ga (standin ls L ++ W).
Proof.
  induction f; cbn [null_tail]; try discriminate; intros H1 H2 HL; cbn [cnts_in upto deps] in *; auto.
  apply andb_prop in H1 as [H1 H1']. split; [|auto]. destruct (HL a H1) as (l & vs & A & B & C). exists l, vs, (repeat (WInt 0) (length (elems a L))).
  rewrite field_app, (standin_in _ _ _ H1), repeat_length. auto.
Qed.

(** serialize: the part before the lists, then one loop for each *)
Definition loops (ls : list string) : list stmt := map (ser_records "anObj") ls.
Definition null_writer (D : string) (f : fmt) : bool :=
  match lookup the_prog D "serialize" with
  | Some (MMeth m) => is_ser m && let k := (length (m_body m) - length (the_lists f))%nat in
      is (list_eq_dec stmt_dec) (m_body m) (firstn k (m_body m) ++ loops (the_lists f)) && is (opt_dec fmt_dec) (chkS the_prog TW 4 D (firstn k (m_body m)) (upto f)) (Some Done)
  | _ => false
  end && null_tail f && cnts_in (the_lists f) f && apart (the_lists f) f && (nest (upto f) <=? Dp)%nat && subs_nodup (plain_fields f) && nodupb (names (plain_fields f)) &&
  forallb (fun a => match lookup the_prog D a with None => true | _ => false end) (the_lists f).
Lemma null_writers : forallb (fun c => null_writer (fst c) (snd c)) null_classes = true. Proof. vm_compute. reflexivity. Qed.

Lemma loop_writes n l h D at_ a vs os : nth_error h l = Some (HInst D at_) -> list_attr h (VRef l) a = Some vs -> lookup the_prog D a = None -> all_write n h vs os ->
  writes n l h [ser_records "anObj" a] (outs os).
Proof.
  intros Hl HV HL HA rho s Hh Hc. cbn [list_attr] in HV. rewrite Hl in HV.
  destruct (assoc a at_) as [av|] eqn:Aa; [|discriminate]. destruct av as [| | | | | |lv| | | | | | | | | | |]; try discriminate HV. destruct (nth_error h lv) as [[|vs']|] eqn:Hv; try discriminate HV. injection HV as <-.
  assert (Gv : getA the_prog D at_ a = Some (VRef lv)) by (apply getA_plain; [exact HL|exact Aa]).
  destruct (ser_loop n h "anObj" vs' os l ltac:(discriminate) ltac:(discriminate) HA rho s Hh Hc) as (rho' & C' & E'). exists rho'. split; [exact C'|].
  rewrite <- Hh in Hl, Hv. pose proof (ev_attr n rho l _ at_ _ _ s (proj1 Hc) Hl Gv) as Ea. unfold ser_records. remember (self_ a) as e.
  remember [Expr (Meth (Loc "anObj") "serialize" [Loc "outputStream"] [])] as bd. cbn [run_block exec]. unfold bind. rewrite Ea. cbn [iter_vals]. unfold bind, hget. rewrite Hv. unfold ret at 1.
  fold (run_block (exec the_prog (run the_prog n))). rewrite E'. unfold oc. destruct (snd (outs os)); reflexivity.
Qed.

(** ** C82: writing *)
(** every list holds elements that go out as L says *)
Definition lists_write (n : nat) (h : list hobj) (o : val) (f : fmt) (L : list (string * list outcome)) : Prop :=
  forall a, In a (the_lists f) -> exists vs, list_attr h o a = Some vs /\ all_write n h vs (elems a L).

Theorem C82_writes n s D f o W L : (S fuel_ok < n)%nat -> In (D, f) null_classes -> contents the_prog (heap s) D (plain_fields f) o = Some W ->
  lists_write (Nat.pred n) (heap s) o f L -> serialize n o s = oc (wire f W L) VNone s.
Proof.
  intros Hn HI HW HL. pose proof null_writers as HK. rewrite forallb_forall in HK. specialize (HK _ HI). cbn [fst snd] in HK. clear HI. unfold null_writer in HK.
  repeat match type of HK with _ && _ = true => apply andb_prop in HK as [HK ?] end.
  rename H into K1, H0 into S2, H1 into S1, H2 into HN, H3 into HA, H4 into HC, H5 into HT.
  destruct n as [|n]; [lia|]. cbn [Nat.pred] in HL.
  destruct (contents_inv _ _ _ _ _ S1 S2 HW) as (l & at_ & fp & -> & Hl & HR).
  destruct (lookup the_prog D "serialize") as [[m|]|] eqn:Lm; try discriminate. apply andb_prop in HK as [Im HK]. cbn zeta in HK. apply andb_prop in HK as [Bm CK]. apply is_eq in Bm. apply is_eq in CK.
  rewrite (ser_run _ _ _ _ _ _ Lm Im Hl), Bm. remember (firstn _ (m_body m)) as pre eqn:Ep. clear Ep Bm.
  rewrite (wire_upto (the_lists f) L W f HT HC HA (rep_names _ _ _ _ _ HR)).
  assert (X : writes n l (heap s) (pre ++ loops (the_lists f)) (oseq (encode (upto f) (standin (the_lists f) L ++ W)) (all_outs (the_lists f) L))).
  { apply writes_app.
    - intros rho s' Hh Hc. destruct (rep_upto (the_lists f) L W _ _ f fp HT HA HR) as [fp' HR'].
      assert (HD : deps (heap s) (upto f) (getA the_prog D at_) (standin (the_lists f) L ++ W)).
      { apply deps_upto; [exact HC|exact HT|]. intros a Ha. apply mem_In in Ha. destruct (HL a Ha) as (vs & LA & AW). cbn [list_attr] in LA. rewrite Hl in LA.
        destruct (assoc a at_) as [av|] eqn:Aa; [|discriminate]. destruct av as [| | | | | |lv| | | | | | | | | | |]; try discriminate LA. destruct (nth_error (heap s) lv) as [[|vs']|] eqn:Hv; try discriminate LA. injection LA as <-.
        exists lv, vs'. rewrite forallb_forall in K1. specialize (K1 a Ha). split; [apply getA_plain; [destruct (lookup the_prog D a); [discriminate|reflexivity]|exact Aa]|]. split; [exact Hv|]. exact (SerSound.Forall2_length _ _ _ AW). }
      rewrite <- Hh in HR', HD, Hl. eapply ser_part; eauto. unfold fuel_ok, need, G, Dp in *. lia.
    - clear HT HC HA HN CK S1 S2 HR HW. unfold all_outs, loops. unfold lists_write in HL. induction (the_lists f) as [|a ls IH]; cbn [map].
      + intros rho s' Hh Hc. exists rho. split; [exact Hc|]. cbn [run_block outs fold_right]. now rewrite oc_done.
      + cbn [forallb] in K1. apply andb_prop in K1 as [K1 K2]. destruct (HL a (or_introl eq_refl)) as (vs & LA & AW).
        change (ser_records "anObj" a :: map (ser_records "anObj") ls) with ([ser_records "anObj" a] ++ map (ser_records "anObj") ls).
        change (outs (outs (elems a L) :: map (fun a => outs (elems a L)) ls)) with (oseq (outs (elems a L)) (outs (map (fun a => outs (elems a L)) ls))).
        apply writes_app; [|apply IH; [intros b Hb; apply HL; now right|exact K2]].
        eapply loop_writes; eauto. destruct (lookup the_prog D a); [discriminate|reflexivity]. }
  destruct (X [("self", VRef l); ("outputStream", VOut)] s eq_refl ltac:(split; reflexivity)) as (rho' & _ & E1). unfold bind. rewrite E1. unfold oc. destruct (snd _); reflexivity.
Qed.

(** ** C82: reading *)
Fixpoint counted (f : fmt) : list string :=
  match f with
  | Prim _ _ k | Obj _ _ _ k | NullL _ k => counted k
  | Cnt a _ _ k => a :: counted k
  | _ => []
  end.
Fixpoint null_reader (f : fmt) : bool :=
  match f with
  | Done => true
  | Prim _ p k => wf_prim p && null_reader k
  | Obj _ _ sub k => wf_in [] [] sub && null_reader k
  | Cnt _ (PInt n false) m k => (0 <? n)%nat && (0 <? m) && null_reader k
  | NullL _ k => only_null k
  | _ => false
  end.
Lemma only_decode L rest : forall f C bs W, only_null f = true -> wire f W L = (bs, None) ->
  (forall a, In a (the_lists f) -> count (CLen a) C = Some (Z.of_nat (length (elems a L)))) -> (exists a, In a (the_lists f) /\ elems a L <> []) ->
  decode f [] C (bs ++ rest) = DErr NameError.
Proof.
  induction f; cbn [only_null]; try discriminate; intros C bs W H1 HW HC (a0 & Ha & He); cbn [the_lists] in *; [destruct Ha|].
  cbn [wire decode] in *. rewrite (HC a (or_introl eq_refl)). destruct (elems a L) as [|o os] eqn:EL.
  - cbn [length]. change (Z.of_nat 0 <=? 0) with true. cbn iota. cbn [outs fold_right] in HW. rewrite oseq_done_l in HW. rewrite (IHf C bs W H1 HW); [reflexivity|intros b Hb; apply HC; now right|].
    exists a0. split; [|exact He]. destruct Ha as [<-|Ha]; [congruence|exact Ha].
  - replace (Z.of_nat (length (o :: os)) <=? 0) with false; [reflexivity|]. symmetry. apply Z.leb_gt. cbn [length]. lia.
Qed.
Lemma wire_decode L rest : forall f C bs W, null_reader f = true -> wire f W L = (bs, None) ->
  (forall a, In a (the_lists f) -> In a (counted f) \/ count (CLen a) C = Some (Z.of_nat (length (elems a L)))) -> (exists a, In a (the_lists f) /\ elems a L <> []) ->
  decode f [] C (bs ++ rest) = DErr NameError.
Proof.
  induction f; cbn [null_reader]; try discriminate; intros C bs W H1 HW HC HE.
  - destruct HE as (b & [] & _).
  - apply andb_prop in H1 as [_ H1]. cbn [wire decode the_lists counted] in *. destruct (field a W) as [x|]; [|discriminate].
    apply oseq_ok in HW as (b1 & b2 & E1 & E2 & ->). rewrite <- app_assoc, (dec_enc_val _ _ _ _ E1). cbn [dbind].
    rewrite (IHf _ b2 W H1 E2); [reflexivity| |exact HE]. intros b Hb. rewrite count_cadd_len. auto.
  - apply andb_prop in H1 as [H0 H1]. cbn [wire decode the_lists counted] in *. destruct (field a W) as [[| | | | | | |w]|]; try discriminate.
    apply oseq_ok in HW as (b1 & b2 & E1 & E2 & ->). rewrite <- app_assoc. unfold old_obj. cbn [field].
    rewrite (decode_encode f1 [] [] w [] b1 (b2 ++ rest) H0 ltac:(intros ? []) ltac:(intros ? []) E1). cbn [dbind]. rewrite (IHf2 _ b2 W H1 E2); [reflexivity|exact HC|exact HE].
  - destruct p as [k [|]| |]; try discriminate. apply andb_prop in H1 as [H0 H1]. apply andb_prop in H0 as [Hk Hm]. apply Nat.ltb_lt in Hk. apply Z.ltb_lt in Hm.
    cbn [wire decode the_lists counted] in *. apply oseq_ok in HW as (b1 & b2 & E1 & E2 & ->). rewrite <- app_assoc, (dec_enc_val _ _ _ _ E1). cbn [dbind].
    rewrite (norm_int' k false _ b1 Hk E1). cbn [wint]. rewrite Z.div_mul by lia. apply (IHf _ b2 W H1 E2); [|exact HE].
    intros b Hb. cbn [count key_eqb]. destruct (String.eqb_spec b a) as [->|N]; [right; reflexivity|]. destruct (HC b Hb) as [[->|Q]|Q]; [contradiction|now left|now right].
  - assert (H1' : only_null (NullL a f) = true) by exact H1. apply only_decode with (1 := H1') (2 := HW); [|exact HE].
    intros b Hb. destruct (HC b Hb) as [Q|Q]; [|exact Q]. exfalso. revert Q. cbn [counted]. clear -H1. induction f; try discriminate; cbn in *; auto.
Qed.
Lemma null_readers : forallb (fun c => String.eqb (fst c) "IntercomControlPdu" || (null_reader (snd c) && forallb (fun a => mem a (counted (snd c))) (the_lists (snd c)) && is (opt_dec fmt_dec) (assoc (fst c) TR) (Some (snd c)) && mem (fst c) NC)) null_classes = true.
Proof. vm_compute. reflexivity. Qed.

(** parse of the same class, on the bytes of a record with an element in one of its lists, raises NameError
    (IntercomControlPdu.parse raises TypeError or struct.error whatever it is given: C23, C39) *)
Theorem C82_parse_refuted n D f W L bs s rest : (fuel_ok <= n)%nat -> In (D, f) null_classes -> D <> "IntercomControlPdu" -> wire f W L = (bs, None) ->
  (exists a, In a (the_lists f) /\ elems a L <> []) -> irest s = bs ++ rest -> exists s', load the_prog n D s = (Exc NameError, s').
Proof.
  intros Hn HI HD HW HE Hs. pose proof null_readers as HK. rewrite forallb_forall in HK. specialize (HK _ HI). cbn [fst snd] in HK. clear HI. apply String.eqb_neq in HD. rewrite HD in HK. cbn [orb] in HK.
  apply andb_prop in HK as [HK H4]. apply andb_prop in HK as [HK H3]. apply andb_prop in HK as [H1 H2]. apply is_eq in H3.
  pose proof (load_spec n D f s Hn H3 H4) as Q. rewrite Hs, (wire_decode L rest f [] bs W H1 HW) in Q; [exact Q| |exact HE].
  intros a Ha. left. rewrite forallb_forall in H2. apply mem_In. auto.
Qed.

Lemma wire_of_writes n s D f o W L bs : (S fuel_ok < n)%nat -> In (D, f) null_classes -> contents the_prog (heap s) D (plain_fields f) o = Some W ->
  lists_write (Nat.pred n) (heap s) o f L -> serialize n o s = (Ok VNone, appended s bs) -> wire f W L = (bs, None).
Proof.
  intros Hn HI HW HL HS. rewrite (C82_writes n s D f o W L Hn HI HW HL) in HS. unfold oc in HS. destruct (wire f W L) as [b [x|]]; cbn [fst snd] in HS; [discriminate|].
  unfold add_out, appended in HS. apply (f_equal (fun x => out (snd x))) in HS. cbn [out snd] in HS. apply app_inv_head in HS. now subst b.
Qed.

Lemma null_headers : forallb (fun c => negb (existsb (fun p => String.eqb (snd p) (fst c)) pdu_types) || (starts 0 header (upto (snd c)) && negb (mem "pduType" (the_lists (snd c))))) null_classes = true.
Proof. vm_compute. reflexivity. Qed.

(** what serialize writes for such a PDU, createPdu answers with NameError *)
Theorem C82_createPdu_refuted n m h s D f o W L t bs rest : (S fuel_ok < n)%nat -> (fuel_ok < m)%nat -> In (D, f) null_classes -> D <> "IntercomControlPdu" ->
  contents the_prog (heap s) D (plain_fields f) o = Some W -> lists_write (Nat.pred n) (heap s) o f L -> (exists a, In a (the_lists f) /\ elems a L <> []) ->
  field "pduType" W = Some (WInt t) -> zassoc t pdu_types = Some D -> serialize n o s = (Ok VNone, appended s bs) ->
  exists s', factory m h (bs ++ rest) = (Exc NameError, s').
Proof.
  intros Hn Hm. assert (Hm1 : (fuel_ok <= m)%nat) by lia. pose proof (fun tb => factory_spec m tb ltac:(unfold fuel_ok, need, G in Hm; lia)) as FS.
  intros HI HD HW HL HE Ht HT HS. pose proof (wire_of_writes n s D f o W L bs Hn HI HW HL HS) as HB.
  pose proof null_headers as HK. rewrite forallb_forall in HK. specialize (HK _ HI). cbn [fst snd] in HK.
  assert (X : existsb (fun p => String.eqb (snd p) D) pdu_types = true).
  { clear -HT. induction pdu_types as [|[y v] r IH]; cbn [zassoc existsb snd] in *; [discriminate|]. destruct (t =? y); [injection HT as ->; now rewrite String.eqb_refl|rewrite IH by exact HT; apply orb_true_r]. }
  rewrite X in HK. cbn [negb orb] in HK. apply andb_prop in HK as [HK1 HK2].
  pose proof null_writers as HK. rewrite forallb_forall in HK. specialize (HK _ HI). cbn [fst snd] in HK. unfold null_writer in HK.
  repeat match type of HK with _ && _ = true => apply andb_prop in HK as [HK ?] end. clear HK.
  destruct (contents_inv _ _ _ _ _ ltac:(eassumption) ltac:(eassumption) HW) as (l & at_ & fp & -> & Hl & HR).
  pose proof HB as HB2. rewrite (wire_upto (the_lists f) L W f) in HB2 by (eauto using rep_names). apply oseq_ok in HB2 as (b1 & b2 & E1 & E2 & ->).
  destruct (starts_bytes header 0 (upto f) _ [] b1 HK1 E1 eq_refl "pduType" 2%nat 1%nat) as (x & z & F & Z1 & R & B); [cbn; tauto|].
  rewrite (field_under _ _ _ _ HK2), Ht in F. injection F as <-. injection Z1 as <-. destruct (be1 t R) as (b & B1 & B2). rewrite B1 in B. cbn [app] in B.
  assert (Hb : nth_error b1 2 = Some b) by (destruct b1 as [|c0 [|c1 [|c2 r]]]; cbn in B; try discriminate; injection B as ->; reflexivity).
  unfold factory, createPdu. rewrite FS. cbn [ifull heap out].
  rewrite <- app_assoc, nth_error_app1 by (apply nth_error_Some; congruence). rewrite Hb, B2. unfold table. rewrite types_ok, HT. rewrite app_assoc.
  eapply (C82_parse_refuted m D f W L (b1 ++ b2) _ rest); [exact Hm1|exact HI|exact HD|exact HB|exact HE|reflexivity].
Qed.

(** ** C82: numbers *)
Definition is_number (v : val) : Prop := match v with VInt _ | VFloat _ => True | _ => False end.
(** a list of numbers - what the constructor's annotations of xiValues, recordIDs, missingPduSequenceNumbers and others ask for - cannot be written:
    after the fields and the counts serialize raises AttributeError.  L gives the number of elements of every list *)
Lemma number_outs n h vs : Forall is_number vs -> all_write n h vs (map (fun _ => fail AttributeError) vs).
Proof.
  intros F. induction F as [|v vs Hv F IH]; cbn [map]; constructor; [|exact IH]. intros s _. unfold serialize, call_method, bind, resolve, oc, fail. destruct v; try destruct Hv; cbn [fst snd]; now rewrite add_out_nil.
Qed.
Lemma wire_lengths f W : forall L L', (forall a, In a (counted f) -> length (elems a L) = length (elems a L')) -> wire (upto f) W L = wire (upto f) W L'.
Proof.
  induction f; intros L L' HL; cbn [counted upto wire] in *; try reflexivity.
  - destruct (field a W); [|reflexivity]. now rewrite (IHf L L' HL).
  - destruct (field a W) as [[]|]; try reflexivity. now rewrite (IHf2 L L' HL).
  - rewrite (HL a (or_introl eq_refl)), (IHf L L'); [reflexivity|]. intros b Hb. apply HL. now right.
Qed.
Lemma wire_stops f W : forall L b, null_tail f = true -> wire (upto f) W L = (b, None) -> (forall a, In a (the_lists f) -> Forall (fun o => o = fail AttributeError) (elems a L)) ->
  (exists a, In a (the_lists f) /\ elems a L <> []) -> wire f W L = (b, Some AttributeError).
Proof.
  induction f; intros L bb HT HB HF HE; cbn [null_tail] in HT; try discriminate; cbn [upto wire the_lists] in *.
  - destruct HE as (a & [] & _).
  - destruct (field a W); [|discriminate]. apply oseq_ok in HB as (b1 & b2 & E1 & E2 & ->). rewrite E1, (IHf L b2 HT E2 HF HE). reflexivity.
  - destruct (field a W) as [[]|]; try discriminate. apply oseq_ok in HB as (b1 & b2 & E1 & E2 & ->). rewrite E1, (IHf2 L b2 HT E2 HF HE). reflexivity.
  - apply oseq_ok in HB as (b1 & b2 & E1 & E2 & ->). rewrite E1, (IHf L b2 HT E2 HF HE). reflexivity.
  - injection HB as <-. clear IHf. rewrite (only_wire f W L HT). change (oseq (outs (elems a L)) (all_outs (the_lists f) L)) with (all_outs (a :: the_lists f) L).
    revert HF HE. generalize (a :: the_lists f). intros ls. induction ls as [|c ls IH]; intros HF (a0 & Ha & He); [destruct Ha|].
    unfold all_outs. cbn [map outs fold_right]. fold (outs (map (fun a => outs (elems a L)) ls)). fold (all_outs ls L).
    pose proof (HF c (or_introl eq_refl)) as Fc. destruct (elems c L) as [|o os] eqn:Ec.
    + cbn [outs fold_right]. rewrite oseq_done_l. apply IH; [intros d Hd; apply HF; now right|]. exists a0. split; [|exact He]. destruct Ha as [<-|Ha]; [congruence|exact Ha].
    + inversion Fc; subst. reflexivity.
Qed.
Lemma cnts_counted ls f : cnts_in ls f = true -> forall a, In a (counted f) -> In a ls.
Proof.
  induction f; cbn [cnts_in counted]; intros H a' Ha; try (destruct Ha; fail); auto.
  apply andb_prop in H as [H1 H2]. destruct Ha as [<-|Ha]; [now apply mem_In|auto].
Qed.
Theorem C82_numbers_refuted n s D f o W L b : (S fuel_ok < n)%nat -> In (D, f) null_classes -> contents the_prog (heap s) D (plain_fields f) o = Some W ->
  (forall a, In a (the_lists f) -> exists vs, list_attr (heap s) o a = Some vs /\ Forall is_number vs /\ length vs = length (elems a L)) -> (exists a, In a (the_lists f) /\ elems a L <> []) ->
  wire (upto f) W L = (b, None) -> serialize n o s = (Exc AttributeError, appended s b).
Proof.
  intros Hn HI HW HV HE HB.
  set (L' := map (fun a => (a, map (fun _ => fail AttributeError) (elems a L))) (the_lists f)).
  assert (EL : forall a, In a (the_lists f) -> elems a L' = map (fun _ => fail AttributeError) (elems a L)).
  { intros a. unfold L', elems at 1. clear. induction (the_lists f) as [|c ls IH]; cbn [In map assoc]; [intros []|]. destruct (String.eqb_spec a c) as [->|N]; [reflexivity|]. intros [->|H]; [contradiction|]. exact (IH H). }
  assert (HL : lists_write (Nat.pred n) (heap s) o f L').
  { intros a Ha. destruct (HV a Ha) as (vs & A & B & C). exists vs. split; [exact A|]. rewrite (EL a Ha). replace (map (fun _ => fail AttributeError) (elems a L)) with (map (fun _ => fail AttributeError) vs); [now apply number_outs|].
    clear -C. revert C. generalize (elems a L). induction vs as [|v vs IH]; intros [|o os] C; try discriminate; [reflexivity|]. cbn [map]. f_equal. apply IH. now injection C. }
  rewrite (C82_writes n s D f o W L' Hn HI HW HL).
  pose proof null_writers as HK. rewrite forallb_forall in HK. specialize (HK _ HI). cbn [fst snd] in HK. unfold null_writer in HK.
  repeat match type of HK with _ && _ = true => apply andb_prop in HK as [HK ?] end. clear HK.
  assert (CI : forall a, In a (counted f) -> In a (the_lists f)).
  { intros a. now apply cnts_counted. }
  rewrite (wire_stops f W L' b); [reflexivity|assumption| | |].
  - rewrite (wire_lengths f W L' L); [exact HB|]. intros a Ha. rewrite (EL a (CI a Ha)). apply map_length.
  - intros a Ha. rewrite (EL a Ha). apply Forall_forall. intros x Hx. apply in_map_iff in Hx as (y & <- & _). reflexivity.
  - destruct HE as (a & Ha & He). exists a. split; [exact Ha|]. rewrite (EL a Ha). intros Q. apply map_eq_nil in Q. contradiction.
Qed.

(** ** The classes are all those whose parse cannot create the elements of a list of theirs *)
Fixpoint own_null (f : fmt) : bool :=
  match f with
  | Done => false
  | NullL _ _ => true
  | Obj _ _ _ k | OList _ _ _ k | Prim _ _ k | PList _ _ k | Arr _ _ _ k | Mask _ _ k | VList _ _ _ _ k | Cnt _ _ _ k | Zero _ k | Pad _ k | Derive _ _ _ k | Bits _ k => own_null k
  end.
Lemma null_all : forallb (fun c => negb (own_null (snd c)) || existsb (fun d => is (pair_dec string_dec fmt_dec) c d) null_classes) TW = true. Proof. vm_compute. reflexivity. Qed.
Theorem C82_covers D f : assoc D TW = Some f -> own_null f = true -> In (D, f) null_classes.
Proof.
  intros A N. pose proof null_all as K. rewrite forallb_forall in K. specialize (K _ (assoc_In _ _ _ A)). cbn [snd] in K. rewrite N in K. cbn [negb orb] in K. apply existsb_exists in K as (d & Hd & K). apply is_eq in K. now subst d.
Qed.

(** ** Cases *)
(** a Resupply Received PDU with two supply quantities: written, and not read *)
Definition resupply_obj : res val * st :=
  bind (new the_prog 60 "SupplyQuantity" []) (fun r1 => bind (new the_prog 60 "SupplyQuantity" [VNone; VInt 7]) (fun r2 => bind (halloc (HList [r1; r2])) (fun l =>
    new the_prog 60 "ResupplyReceivedPdu" [VNone; VNone; l]))) st0.
Definition supply_bytes : list byte := repeat x00 12.
Definition seven : list byte := repeat x00 8 ++ [x40; xe0; x00; x00].
Definition resupply_L : list (string * list outcome) := [("supplies", [(supply_bytes, None); (seven, None)])].
Example C82_case : exists o s W bs, resupply_obj = (Ok o, s) /\ contents the_prog (heap s) "ResupplyReceivedPdu" (plain_fields w_ResupplyReceivedPdu) o = Some W /\
  lists_write 59 (heap s) o w_ResupplyReceivedPdu resupply_L /\ field "pduType" W = Some (WInt 7) /\ zassoc 7 pdu_types = Some "ResupplyReceivedPdu" /\
  wire w_ResupplyReceivedPdu W resupply_L = (bs, None) /\ serialize 60 o s = (Ok VNone, appended s bs) /\ nth_error bs 24 = Some x02 /\ skipn 28 bs = supply_bytes ++ seven /\
  fst (factory 60 [] bs) = Exc NameError.
Proof.
  do 4 eexists. split; [vm_compute; reflexivity|]. split; [vm_compute; reflexivity|]. split.
  - intros a [<-|[]]. eexists. split; [vm_compute; reflexivity|]. change (elems "supplies" resupply_L) with [(supply_bytes, @None exn); (seven, None)]. 
    constructor; [|constructor; [|constructor]]; intros s E.
    + unfold serialize. erewrite (serialize_spec 59 "SupplyQuantity" w_SupplyQuantity _ s); [|apply Nat.leb_le; vm_compute; reflexivity|vm_compute; reflexivity|rewrite E; vm_compute; reflexivity]. f_equal.
    + unfold serialize. erewrite (serialize_spec 59 "SupplyQuantity" w_SupplyQuantity _ s); [|apply Nat.leb_le; vm_compute; reflexivity|vm_compute; reflexivity|rewrite E; vm_compute; reflexivity]. f_equal.
  - repeat (split; [vm_compute; reflexivity|]). vm_compute. reflexivity.
Qed.
(** a Minefield Response NACK PDU with three sequence numbers: not written *)
Definition nack_obj : res val * st := bind (halloc (HList [VInt 1; VInt 2; VInt 5])) (fun l => new the_prog 60 "MinefieldResponseNackPdu" [VNone; VNone; VInt 0; l]) st0.
Definition nack_L : list (string * list outcome) := [("missingPduSequenceNumbers", [done; done; done])].
Example C82_numbers_case : exists o s W b vs, nack_obj = (Ok o, s) /\ contents the_prog (heap s) "MinefieldResponseNackPdu" (plain_fields w_MinefieldResponseNackPdu) o = Some W /\
  list_attr (heap s) o "missingPduSequenceNumbers" = Some vs /\ Forall is_number vs /\ length vs = length (elems "missingPduSequenceNumbers" nack_L) /\
  wire (upto w_MinefieldResponseNackPdu) W nack_L = (b, None) /\ length b = 26%nat /\ serialize 60 o s = (Exc AttributeError, appended s b).
Proof.
  do 5 eexists. split; [vm_compute; reflexivity|]. split; [vm_compute; reflexivity|]. split; [vm_compute; reflexivity|]. split; [repeat constructor|]. split; [reflexivity|].
  split; [vm_compute; reflexivity|]. split; [reflexivity|]. unfold appended. vm_compute. reflexivity.
Qed.

Definition all_PropNullList := (C82_writes, C82_parse_refuted, C82_createPdu_refuted, C82_numbers_refuted, C82_covers, C82_case, C82_numbers_case).
Print Assumptions all_PropNullList.
