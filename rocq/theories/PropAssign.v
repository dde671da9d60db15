(** * C63: assigning to one attribute changes only that attribute's bytes (opendis/dis7.py: every class's serialize) *)
From Coq Require Import ZArith String List Bool Lia.
From Coq Require Import Strings.Byte.
From Verif Require Import Lang Bytes Interp Shift Mono ProgBase ProgDis Prog Spec Codec Codec2 Rep Dec StreamLem SerSound ParSound ParStep ParClass NewSound Layouts Refine Api StreamApi Classes PropCodec CtorRun PropFactory PropOffsets Assign.
Import ListNotations.
Open Scope string_scope. Open Scope Z_scope. Open Scope list_scope.

(** ** Specification *)
(** bytes [bs] with the field of type p that follows [before] rewritten to the value x: what serialize must now append, and what it must raise if x is not a p *)
Definition rewritten (n : nat) (o : val) (s1 : st) (p : prim) (x : wv) (before after : list byte) : Prop :=
  match enc_prim p x with
  | inl new => length new = width p /\ serialize n o s1 = (Ok VNone, appended s1 (before ++ new ++ after))
  | inr e => serialize n o s1 = (Exc e, appended s1 before)
  end.
(** o is an instance of c, laid out as f, in which no object appears twice *)
Definition unshared (h : list hobj) (c : string) (f : fmt) (o : val) : Prop := exists W, holds the_prog h c f o W.

(** ** C63 *)
(** o.path.a = v, or o.path.a[i] = v: of the bytes o serializes to, exactly those of the attribute change; they become those of v, or v is refused.
    Where the offset of the attribute does not depend on the values of o, the change is at that offset *)
Theorem C63_assign n c f s o path t p off v x bs s1 : (fuel_ok <= n)%nat -> layout c = Some f -> unshared (heap s) c f o ->
  type_at f path t = Some (p, off) -> scal v = Some x -> serialize n o s = (Ok VNone, appended s bs) -> assign n o path t v s = (Ok tt, s1) ->
  out s1 = out s /\ irest s1 = irest s /\ unshared (heap s1) c f o /\
  exists before old after, bs = before ++ old ++ after /\ length old = width p /\ (forall k, off = Some k -> length before = k) /\ rewritten n o s1 p x before after.
Proof.
  intros Hn L (W & l & fp & at_ & -> & Hl & HR & HN) HT Hx HS HA.
  destruct (layout_inv _ _ L) as (L1 & _).
  assert (HH : holds the_prog (heap s) c f (VRef l) W) by (exists l, fp, at_; auto).
  destruct (assign_ind n t v path f p off s l c at_ W fp s1 HT Hl HR HN HA) as (lu & ob & Hin & E1 & W' & (A & B & x0 & HC1 & HC2 & HC3) & HW).
  destruct (HW x Hx) as (at' & Hl' & HR').
  assert (HH' : holds the_prog (heap s1) c f (VRef l) (W' x)) by (exists l, fp, at'; auto).
  unfold serialize in HS. rewrite (serialize_holds n c f (VRef l) s W Hn L1 HH) in HS. rewrite HC2 in HS.
  assert (HO : oseq A (oseq (enc_val p x0) B) = (bs, None)).
  { unfold oc in HS. destruct (oseq A (oseq (enc_val p x0) B)) as [b [e|]]; cbn [fst snd] in HS; [discriminate|]. unfold add_out, appended in HS.
    apply (f_equal (fun x => out (snd x))) in HS. cbn [out snd] in HS. apply app_inv_head in HS. now subst. }
  split; [now subst s1|]. split; [now subst s1|]. split; [now exists (W' x)|].
  apply oseq_ok in HO as (b1 & b2 & EA & HO & ->). apply oseq_ok in HO as (old & b3 & E0 & EB & ->).
  exists b1, old, b3. split; [reflexivity|]. split; [exact (enc_val_length _ _ _ E0)|]. split; [intros k Hk; eapply HC3; eauto|].
  unfold rewritten, serialize. rewrite (serialize_holds n c f (VRef l) s1 (W' x) Hn L1 HH'), HC1, EA, EB. unfold enc_val. destruct (enc_prim p x) as [new|e] eqn:Ex.
  - split; [eapply enc_prim_length; eauto|]. cbn [oseq fst snd]. reflexivity.
  - unfold fail, oseq, oc, add_out, appended. cbn [fst snd]. now rewrite app_nil_r.
Qed.

(** the attributes this covers: every scalar attribute of every class with a layout, but for the length a VariableDatum keeps, which decides how many bytes its value takes *)
Fixpoint scalars (f : fmt) : list string :=
  match f with
  | Done => []
  | Prim a _ k => a :: scalars k
  | Obj _ _ _ k | Cnt _ _ _ k | PList _ _ k | OList _ _ _ k| Arr _ _ _ k | Zero _ k | Mask _ _ k | VList _ _ _ _ k | Pad _ k | Derive _ _ _ k | Bits _ k | NullL _ k => scalars k
  end.
Definition covered (p : string * fmt) : bool :=
  match layout (fst p) with
  | Some f => forallb (fun a => match type_at f [] (TAttr a) with Some _ => true | None => String.eqb (fst p) "VariableDatum" && String.eqb a "variableDatumLength" end) (scalars f)
  | None => true
  end.
Lemma all_covered : forallb covered TW = true. Proof. vm_compute. reflexivity. Qed.
Theorem C63_covers c f a : layout c = Some f -> In a (scalars f) -> ~ (c = "VariableDatum" /\ a = "variableDatumLength") -> exists p off, type_at f [] (TAttr a) = Some (p, off).
Proof.
  intros L Ha N. pose proof all_covered as K. rewrite forallb_forall in K. destruct (layout_inv _ _ L) as (L1 & _). specialize (K _ (assoc_In _ _ _ L1)). unfold covered in K. cbn [fst] in K. rewrite L, forallb_forall in K.
  specialize (K _ Ha). destruct (type_at f [] (TAttr a)) as [[p off]|]; [eauto|]. apply andb_prop in K as [K1 K2]. apply String.eqb_eq in K1. apply String.eqb_eq in K2. now elim N.
Qed.

(** a PDU just decoded shares nothing *)
Lemma load_unshared n c f s o s' : (fuel_ok <= n)%nat -> layout c = Some f -> load the_prog n c s = (Ok o, s') -> unshared (heap s') c f o.
Proof.
  intros Hn L E. destruct (layout_inv _ _ L) as (_ & L2 & HC). pose proof (load_spec n c f s Hn L2 HC) as H. destruct (decode f [] [] (irest s)) as [W r|e].
  - destruct H as (o1 & s2 & l & fp & A & B & _). rewrite E in A. injection A as <- <-. exists W, l, fp. exact B.
  - destruct H as (s2 & A). rewrite E in A. discriminate.
Qed.

(** read, modify, write: createPdu(data), one assignment, serialize: data with the bytes of that attribute replaced *)
Theorem C63_read_modify_write n h data b c f o s' W path t p off v x s1 : (fuel_ok <= n)%nat -> nth_error data 2 = Some b -> zassoc (b2z b) pdu_types = Some c -> exact_layout c f ->
  factory n h data = (Ok o, s') -> contents the_prog (heap s') c f o = Some W -> nonan f W = true ->
  type_at f path t = Some (p, off) -> scal v = Some x -> assign n o path t v s' = (Ok tt, s1) ->
  exists before old after, data = before ++ old ++ after ++ irest s' /\ length old = width p /\ (forall k, off = Some k -> length before = k) /\ rewritten n o s1 p x before after.
Proof.
  intros Hn Hb Hz L E HW HNan HT Hx HA. destruct (C12_created n h data b c f o s' W Hn Hb Hz L E HW HNan) as (q & Ed & ES).
  assert (U : unshared (heap s') c f o).
  { unfold factory, createPdu in E. rewrite (factory_spec n) in E by (unfold fuel_ok, need, G in Hn; lia). cbn [ifull heap out] in E.
    rewrite Hb in E. unfold table in E. rewrite types_ok, Hz in E. destruct L as [L _]. eapply load_unshared; eauto. }
  destruct L as [L _]. destruct (C63_assign n c f s' o path t p off v x q s1 Hn L U HT Hx ES HA) as (_ & _ & _ & b1 & old & b2 & -> & Ho & Hoff & HR).
  exists b1, old, b2. rewrite Ed, <- !app_assoc. auto.
Qed.

(** a Fire PDU, its velocity's y set to 2^-1: bytes 84-87 become 3f 00 00 00 *)
Definition fire_data : list byte := [x07; x01; x02; x02] ++ repeat x41 92 ++ [x99].
Example C63_case : exists f o s' W s1, exact_layout "FirePdu" f /\ zassoc 2 pdu_types = Some "FirePdu" /\ factory 50 [] fire_data = (Ok o, s') /\
  contents the_prog (heap s') "FirePdu" f o = Some W /\ nonan f W = true /\ type_at f [Attr "velocity"] (TAttr "y") = Some (PF32, Some 84%nat) /\
  assign 50 o [Attr "velocity"] (TAttr "y") (VFloat 4602678819172646912) s' = (Ok tt, s1) /\
  out (snd (serialize 50 o s1)) = firstn 84 fire_data ++ [x3f; x00; x00; x00] ++ skipn 88 (firstn 96 fire_data).
Proof.
  do 5 eexists. split; [split; vm_compute; reflexivity|]. split; [reflexivity|]. split; [vm_compute; reflexivity|]. split; [vm_compute; reflexivity|].
  split; [vm_compute; reflexivity|]. split; [vm_compute; reflexivity|]. split; [vm_compute; reflexivity|]. vm_compute. reflexivity.
Qed.
(** an Entity State PDU with two variable parameters: variableParameters[1].variableParameterFields2 = 7, marking.characters[3] = 65 *)
Definition es_data : list byte := [x07; x01; x01; x01] ++ repeat x00 15 ++ [x02] ++ repeat x11 156.
Example C63_element_case : exists f o s' W s1 s2, exact_layout "EntityStatePdu" f /\ zassoc 1 pdu_types = Some "EntityStatePdu" /\ factory 50 [] es_data = (Ok o, s') /\
  contents the_prog (heap s') "EntityStatePdu" f o = Some W /\ nonan f W = true /\
  type_at f [Elem "variableParameters" 1] (TAttr "variableParameterFields2") = Some (u32, Some 169%nat) /\ type_at f [Attr "marking"] (TItem "characters" 3) = Some (i8, Some 132%nat) /\
  assign 50 o [Elem "variableParameters" 1] (TAttr "variableParameterFields2") (VInt 7) s' = (Ok tt, s1) /\
  assign 50 o [Attr "marking"] (TItem "characters" 3) (VInt 65) s1 = (Ok tt, s2) /\
  out (snd (serialize 50 o s1)) = firstn 169 es_data ++ [x00; x00; x00; x07] ++ skipn 173 es_data /\
  out (snd (serialize 50 o s2)) = firstn 132 es_data ++ [x41] ++ skipn 133 (firstn 169 es_data) ++ [x00; x00; x00; x07] ++ skipn 173 es_data.
Proof.
  do 6 eexists. split; [split; vm_compute; reflexivity|]. split; [reflexivity|]. split; [vm_compute; reflexivity|]. split; [vm_compute; reflexivity|].
  split; [vm_compute; reflexivity|]. split; [vm_compute; reflexivity|]. split; [vm_compute; reflexivity|]. split; [vm_compute; reflexivity|]. split; [vm_compute; reflexivity|].
  split; vm_compute; reflexivity.
Qed.

(** an object newly built shares nothing either: C(), assignments, serialize *)
Theorem C63_new n c f s : (fuel_ok <= n)%nat -> layout c = Some f -> ~ In c not_readable_new ->
  exists o s', new the_prog n c [] s = (Ok o, s') /\ unshared (heap s') c f o /\ out s' = out s.
Proof.
  intros Hn L Hx. destruct (new_holds n c f s) as (o & s' & W & A & B & _ & _ & C); auto; [unfold fuel_ok, need, G, Dp, new_fuel_ in *; lia|].
  exists o, s'. split; [exact A|]. split; [now exists W|exact C].
Qed.
(** FirePdu(), then pdu.range = 2.0 *)
Definition fire_o : val := Eval vm_compute in match fst (new the_prog 50 "FirePdu" [] (mkst [] [] [] [])) with Ok o => o | _ => VNone end.
Definition fire_st : st := Eval vm_compute in snd (new the_prog 50 "FirePdu" [] (mkst [] [] [] [])).
Definition fire_bytes : list byte := Eval vm_compute in out (snd (serialize 50 fire_o fire_st)).
Example C63_new_case : exists s1, layout "FirePdu" = Some w_FirePdu /\ ~ In "FirePdu" not_readable_new /\ new the_prog 50 "FirePdu" [] (mkst [] [] [] []) = (Ok fire_o, fire_st) /\
  type_at w_FirePdu [] (TAttr "range") = Some (PF32, Some 92%nat) /\ serialize 50 fire_o fire_st = (Ok VNone, appended fire_st fire_bytes) /\
  assign 50 fire_o [] (TAttr "range") (VFloat 4611686018427387904) fire_st = (Ok tt, s1) /\ out (snd (serialize 50 fire_o s1)) = firstn 92 fire_bytes ++ [x40; x00; x00; x00].
Proof.
  exists (snd (assign 50 fire_o [] (TAttr "range") (VFloat 4611686018427387904) fire_st)). split; [vm_compute; reflexivity|]. split; [cbn; intuition discriminate|]. split; [vm_compute; reflexivity|].
  split; [vm_compute; reflexivity|]. split; [vm_compute; reflexivity|]. split; vm_compute; reflexivity.
Qed.

Definition shared_o : val := Eval vm_compute in match fst (factory 50 [] es_data) with Ok o => o | _ => VNone end.
Definition shared_st : st := Eval vm_compute in
  snd (bind (reach 50 shared_o [Attr "entityType"]) (fun u => set_attr the_prog shared_o "alternativeEntityType" u) (snd (factory 50 [] es_data))).
(** without "in which no object appears twice" it is false: pdu.alternativeEntityType = pdu.entityType, then pdu.entityType.category = 9 changes bytes 24 and 32 *)
Theorem C63_shared_refuted : exists f o s W s1 bs, layout "EntityStatePdu" = Some f /\ contents the_prog (heap s) "EntityStatePdu" f o = Some W /\
  serialize 50 o s = (Ok VNone, appended s bs) /\ type_at f [Attr "entityType"] (TAttr "category") = Some (u8, Some 24%nat) /\
  assign 50 o [Attr "entityType"] (TAttr "category") (VInt 9) s = (Ok tt, s1) /\
  exists bs1, serialize 50 o s1 = (Ok VNone, appended s1 bs1) /\ nth_error bs 32 <> nth_error bs1 32.
Proof.
  exists w_EntityStatePdu, shared_o, shared_st. eexists. exists (snd (assign 50 shared_o [Attr "entityType"] (TAttr "category") (VInt 9) shared_st)), (out (snd (serialize 50 shared_o shared_st))).
  split; [vm_compute; reflexivity|]. split; [vm_compute; reflexivity|]. split; [vm_compute; reflexivity|]. split; [vm_compute; reflexivity|].
  split; [vm_compute; reflexivity|]. exists (out (snd (serialize 50 shared_o (snd (assign 50 shared_o [Attr "entityType"] (TAttr "category") (VInt 9) shared_st))))).
  split; vm_compute; [reflexivity|discriminate].
Qed.

Definition all_PropAssign := (C63_assign, C63_covers, C63_read_modify_write, C63_new, C63_shared_refuted).
Print Assumptions all_PropAssign.
