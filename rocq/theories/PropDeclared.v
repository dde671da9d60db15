(** * Property C60: attributes are written in their declared type

    [declared] ([Declared.v]) lists the types the source declares for its attributes (opendis/types.py: "type aliases to document the size
    of attributes required/used by classes in dis7.py"). *)
From Coq Require Import ZArith String List Bool Lia.
From Coq Require Import Strings.Byte.
From Verif Require Import Lang Bytes Interp ProgDis Prog Spec Codec Codec2 Rep StreamLem SerSound NewSound Layouts Refine Api Classes PropCodec PropFactory PropOffsets Declared.
Import ListNotations.
Open Scope string_scope. Open Scope Z_scope. Open Scope list_scope.

(** the declaration of attribute a in class k *)
Definition declares (k a : string) : option prim :=
  match find (fun e => String.eqb (fst (fst e)) k && String.eqb (snd (fst e)) a) declared with Some e => Some (snd e) | None => None end.
(** the declaration of attribute a of an instance of class c: that of the first class in its method resolution order that has one *)
Definition declared_type (c a : string) : option prim :=
  fold_right (fun k r => match declares k a with Some p => Some p | None => r end) None (mro the_prog c).

(** the fields of f before and after field a *)
Fixpoint split_prim (a : string) (f : fmt) : option (fmt * prim * fmt) :=
  let on g k := match split_prim a k with Some (x, p, r) => Some (g x, p, r) | None => None end in
  match f with
  | Done => None
  | Prim b p k => if String.eqb a b then Some (Done, p, k) else on (Prim b p) k
  | Cnt b p m k => on (Cnt b p m) k
  | Obj b c sub k => on (Obj b c sub) k
  | PList b p k => on (PList b p) k
  | OList b c sub k => on (OList b c sub) k
  | Arr b p n k => on (Arr b p n) k
  | Zero p k => on (Zero p) k
  | Mask b n k => on (Mask b n) k
  | VList b p x dv k => on (VList b p x dv) k
  | Pad b k => on (Pad b) k
  | Derive b x d k => on (Derive b x d) k
  | Bits bf k => on (Bits bf) k
  | NullL b k => on (NullL b) k
  end.

Lemma split_prim_ok a f : forall g p r, split_prim a f = Some (g, p, r) -> f = fapp g (Prim a p r).
Proof.
  induction f; intros g q r H; cbn [split_prim] in H; try discriminate;
    try (destruct (split_prim a f) as [[[x p'] r']|] eqn:E; [injection H as <- <- <-; cbn [fapp]; f_equal; now apply IHf|discriminate]);
    try (destruct (split_prim a f2) as [[[x p'] r']|] eqn:E; [injection H as <- <- <-; cbn [fapp]; f_equal; now apply IHf2|discriminate]).
  destruct (String.eqb_spec a a0) as [->|].
  - injection H as <- <- <-. reflexivity.
  - destruct (split_prim a f) as [[[x p'] r']|] eqn:E; [injection H as <- <- <-; cbn [fapp]; f_equal; now apply IHf|discriminate].
Qed.

Definition agrees (c : string) (f : fmt) (a : string) : bool :=
  match declared_type c a with
  | None => true
  | Some p => match split_prim a f with Some (_, q, _) => prim_eqb p q | None => false end
  end.

(** attributes whose declared type (first) is not the type they are written in (second); those called padding are not of interest to a
    user, the others are *)
Definition disagreements : list (string * string * prim * prim) :=
  [("ArticulatedParts", "parameterValue", f32, i64); ("ClockTime", "hour", i32, u32); ("SystemIdentifier", "systemMode", u8, u16);
   ("AggregateType", "country", u8, u16); ("BlankingSector", "recordType", u32, i32); ("BlankingSector", "padding3", u32, i32);
   ("BlankingSector", "padding4", u32, i32); ("StorageFuelReload", "standardQuantityReloadTime", u32, u8);
   ("StorageFuelReload", "maximumQuantityReloadTime", u32, u8); ("EnvironmentGeneral", "length", u16, u8); ("PduHeader", "pduLength", u16, u8);
   ("PduHeader", "pduStatus", u8, u16); ("ExpendableDescriptor", "padding", u64, i64); ("LiveEntityPdu", "subprotocolNumber", u8, u16);
   ("EntityStateUpdatePdu", "padding1", u8, i8); ("RepairCompletePdu", "padding4", u16, i16); ("CollisionPdu", "pad", u8, i8);
   ("RepairResponsePdu", "padding1", u8, i16); ("RepairResponsePdu", "padding2", u16, i8); ("ResupplyReceivedPdu", "padding1", u8, i16);
   ("ResupplyReceivedPdu", "padding2", u16, i8); ("CollisionElasticPdu", "pad", u16, i16); ("ActionRequestReliablePdu", "pad1", u8, u16);
   ("ActionRequestReliablePdu", "pad2", u16, u8); ("ActionRequestReliablePdu", "pad3", u32, i32); ("DesignatorPdu", "deadReckoningAlgorithm", u8, i8);
   ("DesignatorPdu", "padding1", u8, u16); ("DesignatorPdu", "padding2", u16, i8); ("StopFreezePdu", "padding1", u16, i16);
   ("ResupplyOfferPdu", "padding1", u8, i8); ("ResupplyOfferPdu", "padding2", u16, i16); ("AttributePdu", "padding1", u32, i32);
   ("AttributePdu", "padding2", u16, i16); ("AttributePdu", "padding3", u8, i8); ("SetDataReliablePdu", "pad1", u8, u16); ("SetDataReliablePdu", "pad2", u16, u8);
   ("StartResumeReliablePdu", "pad1", u8, u16); ("StartResumeReliablePdu", "pad2", u16, u8); ("DataQueryReliablePdu", "pad1", u8, u16);
   ("DataQueryReliablePdu", "pad2", u16, u8); ("DataReliablePdu", "pad1", u8, u16); ("DataReliablePdu", "pad2", u16, u8);
   ("RecordQueryReliablePdu", "pad1", u8, u16); ("UaPdu", "stateChangeIndicator", u8, i8); ("UaPdu", "pad", u8, i8);
   ("IntercomControlPdu", "sourceCommunicationsDeviceID", u16, u8); ("RemoveEntityReliablePdu", "pad1", u8, u16);
   ("RemoveEntityReliablePdu", "pad2", u16, u8); ("CreateEntityReliablePdu", "pad1", u8, u16); ("CreateEntityReliablePdu", "pad2", u16, u8);
   ("EventReportReliablePdu", "eventType", u32, u16); ("MinefieldResponseNackPdu", "requestID", u32, u8)].
Definition disagrees (c a : string) : bool := existsb (fun e => String.eqb (fst (fst (fst e))) c && String.eqb (snd (fst (fst e))) a) disagreements.

(** BeamStatus.beamState is written as its low bit *)
Definition apart (c a : string) : bool := disagrees c a || (String.eqb c "BeamStatus" && String.eqb a "beamState").

Lemma declared_ok : forallb (fun e => forallb (fun a => agrees (fst e) (snd e) a || apart (fst e) a) (names (snd e))) TW = true.
Proof. vm_compute. reflexivity. Qed.

(** of the attributes with a declaration, these are not written under their own name: a length and counts that are computed, an attribute whose
    padding is written as a constant (opendis/dis7.py:5261), and two that are lost *)
Example declared_unwritten : filter (fun e => let '(k, a, p) := e in match assoc k TW with Some f => negb (mem a (names f)) | None => false end) declared =
  [("IFFData", "recordLength", u16); ("GridAxisDescriptorVariable", "numberOfPointsOnXiAxis", u16); ("Environment", "padding0", u8);
   ("EmissionSystemRecord", "paddingForEmissionsPdu", u8); ("PointObjectStatePdu", "pad1", u16)].
Proof. vm_compute. reflexivity. Qed.

(** serialize writes attribute a in type q after the fields of f1: if its value does not fit, it raises after writing those *)
Definition written_as (n : nat) (s : st) (o : val) (W : flds) (f1 : fmt) (a : string) (q : prim) : Prop :=
  (forall bs, serialize n o s = (Ok VNone, appended s bs) ->
     exists before x b after, field a W = Some x /\ encode f1 W = (before, None) /\ enc_prim q x = inl b /\ bs = before ++ b ++ after) /\
  (forall before x e, encode f1 W = (before, None) -> field a W = Some x -> enc_prim q x = inr e -> serialize n o s = (Exc e, appended s before)).

Lemma prim_written n c f f1 f2 a q s o W : (fuel_ok <= n)%nat -> assoc c TW = Some f -> f = fapp f1 (Prim a q f2) -> contents the_prog (heap s) c f o = Some W ->
  written_as n s o W f1 a q.
Proof.
  intros Hn L Hf HW. pose proof (serialize_spec n c f o s W Hn L HW) as E0. change (call_method the_prog n o "serialize" [VOut] s) with (serialize n o s) in E0.
  rewrite Hf, encode_fapp in E0. cbn [encode] in E0. unfold oc in E0. split.
  - intros bs E. rewrite E0 in E. destruct (encode f1 W) as [b1 [e|]]; unfold oseq in E; cbn [fst snd] in E; [discriminate|].
    destruct (field a W) as [x|] eqn:Hx; cbn [fst snd fail] in E; [|discriminate]. unfold enc_val in E. destruct (enc_prim q x) as [b|e] eqn:Eb; cbn [fst snd fail] in E; [|discriminate].
    destruct (encode f2 W) as [b2 [e|]]; cbn [fst snd] in E; [discriminate|]. unfold appended, StreamLem.add_out in E. injection E as E. apply app_inv_head in E.
    exists b1, x, b, b2. auto.
  - intros before x e H1 Hx Eb. rewrite E0, H1. unfold oseq at 1. cbn [fst snd]. rewrite Hx. unfold enc_val. rewrite Eb. cbn [fst snd fail oseq]. now rewrite app_nil_r.
Qed.

(** every written attribute, of every class, is written in the type declared for it *)
Theorem C60_declared_partial n c f a p s o W : (fuel_ok <= n)%nat -> assoc c TW = Some f -> In a (names f) -> declared_type c a = Some p -> apart c a = false ->
  contents the_prog (heap s) c f o = Some W -> exists f1 f2, f = fapp f1 (Prim a p f2) /\ written_as n s o W f1 a p.
Proof.
  intros Hn L Ha D HA HW. pose proof declared_ok as Q. rewrite forallb_forall in Q.
  assert (Hin : In (c, f) TW). { clear - L. revert L. induction TW as [|[k g] r IH]; cbn [assoc]; [discriminate|]. destruct (String.eqb_spec c k) as [->|]; [intros [= ->]; now left|right; auto]. }
  specialize (Q _ Hin). cbn [fst snd] in Q. rewrite forallb_forall in Q. specialize (Q _ Ha). rewrite HA, orb_false_r in Q. unfold agrees in Q. rewrite D in Q.
  destruct (split_prim a f) as [[[f1 q] f2]|] eqn:E; [|discriminate]. apply prim_eqb_eq in Q. subst q. apply split_prim_ok in E. exists f1, f2. split; [exact E|].
  now apply (prim_written n c f f1 f2 a p s o W).
Qed.

Lemma typed_prim a p f1 f2 W : typed (fapp f1 (Prim a p f2)) W -> exists x, field a W = Some x /\ fits p x.
Proof. induction f1; cbn [fapp typed]; intros H; try (apply IHf1; tauto); try (apply IHf1_2; tauto). tauto. Qed.

(** and after parse it holds a value of that type *)
Theorem C60_read_partial n c f a p s o s' W : (fuel_ok <= n)%nat -> layout c = Some f -> In a (names f) -> declared_type c a = Some p -> apart c a = false ->
  load the_prog n c s = (Ok o, s') -> contents the_prog (heap s') c f o = Some W -> exists x, field a W = Some x /\ fits p x.
Proof.
  intros Hn L Ha D HA E HW. destruct (load_inv n c f s o s' Hn L E) as (W' & Dc & HW' & _). rewrite HW in HW'. injection HW' as <-.
  pose proof (decode_value_of f _ _ _ (layout_sound _ _ L) Dc) as [_ HT]. pose proof L as L0. apply layout_inv in L0 as (L1 & _).
  pose proof declared_ok as Q. rewrite forallb_forall in Q.
  assert (Hin : In (c, f) TW). { clear - L1. revert L1. induction TW as [|[k g] r IH]; cbn [assoc]; [discriminate|]. destruct (String.eqb_spec c k) as [->|]; [intros [= ->]; now left|right; auto]. }
  specialize (Q _ Hin). cbn [fst snd] in Q. rewrite forallb_forall in Q. specialize (Q _ Ha). rewrite HA, orb_false_r in Q. unfold agrees in Q. rewrite D in Q.
  destruct (split_prim a f) as [[[f1 q] f2]|] eqn:Es; [|discriminate]. apply prim_eqb_eq in Q. subst q. apply split_prim_ok in Es. rewrite Es in HT. exact (typed_prim _ _ _ _ _ HT).
Qed.

(** EntityStatePdu has 10 attributes of its own and of its superclasses with a declaration; capabilities is one *)
Example C60_case : exists f o s W, assoc "EntityStatePdu" TW = Some f /\ In "capabilities" (names f) /\ declared_type "EntityStatePdu" "capabilities" = Some u32 /\
  apart "EntityStatePdu" "capabilities" = false /\ new the_prog 20 "EntityStatePdu" [] st0 = (Ok o, s) /\ contents the_prog (heap s) "EntityStatePdu" f o = Some W /\
  filter (fun a => match declared_type "EntityStatePdu" a with Some _ => true | None => false end) (names f) =
    ["protocolVersion"; "pduType"; "protocolFamily"; "timestamp"; "length"; "pduStatus"; "padding"; "forceId"; "entityAppearance"; "capabilities"].
Proof. do 4 eexists. split; [vm_compute; reflexivity|]. split; [vm_compute; tauto|]. repeat (split; [vm_compute; reflexivity|]). vm_compute. reflexivity. Qed.
(** in all, 936 attributes of 180 classes *)
Example C60_extent : (length TW, fold_right (fun e n => (n + length (filter (fun a => match declared_type (fst e) a with Some _ => true | None => false end) (names (snd e))))%nat) 0%nat TW) = (180, 936)%nat.
Proof. vm_compute. reflexivity. Qed.

(** the exceptions are written in another type than the declared one *)
Definition disagree_ok (e : string * string * prim * prim) : bool :=
  let '(c, a, p, q) := e in match declared_type c a, assoc c TW with
  | Some p', Some f => prim_eqb p p' && negb (prim_eqb p q) && match split_prim a f with Some (_, q', _) => prim_eqb q' q | None => false end
  | _, _ => false end.
Lemma disagreements_ok : forallb disagree_ok disagreements = true. Proof. vm_compute. reflexivity. Qed.

Theorem C60_declared_refuted n c a p q s o W f : (fuel_ok <= n)%nat -> In (c, a, p, q) disagreements -> assoc c TW = Some f -> contents the_prog (heap s) c f o = Some W ->
  declared_type c a = Some p /\ p <> q /\ exists f1 f2, f = fapp f1 (Prim a q f2) /\ written_as n s o W f1 a q.
Proof.
  intros Hn Hi L HW. pose proof disagreements_ok as Q. rewrite forallb_forall in Q. specialize (Q _ Hi). unfold disagree_ok in Q. rewrite L in Q.
  destruct (declared_type c a) as [p'|]; [|discriminate]. apply andb_prop in Q as [Q Q3]. apply andb_prop in Q as [Q1 Q2]. apply prim_eqb_eq in Q1. subst p'.
  split; [reflexivity|]. split; [intros ->; destruct q; cbn in Q2; rewrite ?Nat.eqb_refl, ?eqb_reflx in Q2; discriminate|].
  destruct (split_prim a f) as [[[f1 q'] f2]|] eqn:E; [|discriminate]. apply prim_eqb_eq in Q3. subst q'. apply split_prim_ok in E. exists f1, f2. split; [exact E|].
  now apply (prim_written n c f f1 f2 a q s o W).
Qed.

(** values of the declared type that serialize rejects *)
Definition rejected : list (string * string * wv) :=
  [("ArticulatedParts", "parameterValue", WFloat 4607182418800017408); ("ClockTime", "hour", WInt (-1)); ("BlankingSector", "recordType", WInt 2147483648);
   ("StorageFuelReload", "standardQuantityReloadTime", WInt 256); ("StorageFuelReload", "maximumQuantityReloadTime", WInt 256);
   ("EnvironmentGeneral", "length", WInt 256); ("PduHeader", "pduLength", WInt 256); ("DesignatorPdu", "deadReckoningAlgorithm", WInt 128);
   ("UaPdu", "stateChangeIndicator", WInt 128); ("IntercomControlPdu", "sourceCommunicationsDeviceID", WInt 256);
   ("EventReportReliablePdu", "eventType", WInt 65536); ("MinefieldResponseNackPdu", "requestID", WInt 256)].

Definition fitsb (p : prim) (x : wv) : bool :=
  match p, x with
  | PInt n sg, WInt z => (lo n sg <=? z) && (z <? hi n sg)
  | PF64, WFloat b => (0 <=? b) && (b <? 2 ^ 64)
  | PF32, WFloat b => (0 <=? b) && (b <? 2 ^ 64) && match narrow b with Some c => widen c =? b | None => false end
  | _, _ => false
  end.
Lemma fitsb_fits p x : fitsb p x = true -> fits p x.
Proof.
  destruct p, x; cbn [fitsb fits]; try discriminate; intros H.
  - apply andb_prop in H as [A B]. apply Z.leb_le in A. apply Z.ltb_lt in B. lia.
  - apply andb_prop in H as [H C]. apply andb_prop in H as [A B]. apply Z.leb_le in A. apply Z.ltb_lt in B. destruct (narrow bits) as [c|]; [|discriminate].
    apply Z.eqb_eq in C. split; [lia|]. eauto.
  - apply andb_prop in H as [A B]. apply Z.leb_le in A. apply Z.ltb_lt in B. lia.
Qed.
Definition rejected_ok (e : string * string * wv) : bool :=
  let '(c, a, x) := e in
  existsb (fun d => let '(c', a', p, q) := d in String.eqb c c' && String.eqb a a' && fitsb p x && match enc_prim p x with inl _ => true | inr _ => false end &&
    match enc_prim q x with inr StructError => true | _ => false end) disagreements.
Lemma all_rejected : forallb rejected_ok rejected = true. Proof. vm_compute. reflexivity. Qed.

Theorem C60_rejected_refuted n c a x f s o W : (fuel_ok <= n)%nat -> In (c, a, x) rejected -> assoc c TW = Some f -> contents the_prog (heap s) c f o = Some W -> field a W = Some x ->
  exists p, declared_type c a = Some p /\ fits p x /\ (exists b, enc_prim p x = inl b) /\ forall bs, serialize n o s <> (Ok VNone, appended s bs).
Proof.
  intros Hn Hi L HW Hx.
  pose proof all_rejected as Q. rewrite forallb_forall in Q. specialize (Q _ Hi). unfold rejected_ok in Q. apply existsb_exists in Q as ([[[c' a'] p] q] & I & Q).
  apply andb_prop in Q as [Q Q5]. apply andb_prop in Q as [Q Q4]. apply andb_prop in Q as [Q Q3]. apply andb_prop in Q as [Q1 Q2].
  apply String.eqb_eq in Q1, Q2. subst c' a'. apply fitsb_fits in Q3.
  destruct (C60_declared_refuted n c a p q s o W f Hn I L HW) as (D & _ & f1 & f2 & _ & K & _). exists p. split; [exact D|]. split; [exact Q3|].
  split; [destruct (enc_prim p x); [eauto|discriminate]|]. intros bs H. destruct (K bs H) as (b0 & y & b & b1 & Hy & _ & Eb & _).
  rewrite Hx in Hy. injection Hy as <-. rewrite Eb in Q5. discriminate.
Qed.

(** a MinefieldResponseNackPdu with request number 256 *)
Example C60_rejected_case : exists o s f W, new the_prog 20 "MinefieldResponseNackPdu" [VNone; VNone; VInt 256] st0 = (Ok o, s) /\ assoc "MinefieldResponseNackPdu" TW = Some f /\
  contents the_prog (heap s) "MinefieldResponseNackPdu" f o = Some W /\ field "requestID" W = Some (WInt 256) /\ fst (serialize 50 o s) = Exc StructError.
Proof. do 4 eexists. repeat (split; [vm_compute; reflexivity|]). vm_compute. reflexivity. Qed.

Definition all_PropDeclared := (C60_declared_partial, C60_read_partial, C60_declared_refuted, C60_rejected_refuted).
Print Assumptions all_PropDeclared.
