(** * Properties C25-C29: what serialising and parsing do to the state *)
From Coq Require Import ZArith String List Bool Lia.
From Coq Require Import Strings.Byte.
From Verif Require Import Lang Bytes Interp Pure Inv Shift Mono Closed Anywhere ProgDis Prog Spec Codec Codec2 Rep Dec StreamLem SerSound ParSound NewSound Layouts Refine Api Classes PropCodec PropFactory.
Import ListNotations.
Open Scope string_scope. Open Scope Z_scope. Open Scope list_scope.

(** ** C25 *)
(** the methods called, directly or not, by serialize, by marshalledSize and by properties *)
Definition writers : list string :=
  ["write"; "write_float64"; "_struct"; "write_bytes"; "datumPaddingSizeInBits"; "write_long"; "marshalledSize"; "write_uint64"; "write_short"; "write_double"; "write_int";
   "write_float32"; "write_uint8"; "write_uint32"; "write_uint16"; "write_float"; "write_byte"; "write_unsigned_byte"; "write_unsigned_short"; "write_unsigned_int"; "serialize"].
Lemma writers_pure : pure_prog writers the_prog = true. Proof. vm_compute. reflexivity. Qed.

(** no object is created or changed and no input consumed, whatever the object is and whether or not there is an exception *)
Theorem C25_serialize_pure n o s : exists bs, snd (serialize n o s) = appended s bs.
Proof.
  pose proof (pure_call_method writers the_prog writers_pure n o "serialize" [VOut] eq_refl s) as (A & B & C & bs & D). exists bs.
  unfold serialize. destruct (snd (call_method the_prog n o "serialize" [VOut] s)) as [h i fu ou]. unfold appended. cbn in *. congruence.
Qed.
Theorem C25_size_pure n o s : exists bs, snd (call_method the_prog n o "marshalledSize" [] s) = appended s bs.
Proof.
  pose proof (pure_call_method writers the_prog writers_pure n o "marshalledSize" [] eq_refl s) as (A & B & C & bs & D). exists bs.
  destruct (snd (call_method the_prog n o "marshalledSize" [] s)) as [h i fu ou]. unfold appended. cbn in *. congruence.
Qed.
(** reading an attribute, which may be a property *)
Theorem C25_attribute_pure n o a s : exists bs, snd (getattr n o a s) = appended s bs.
Proof.
  pose proof (pure_get_attr writers the_prog writers_pure (run the_prog n) (fun m x k H => pure_run writers the_prog writers_pure n m x k H) o a s) as (A & B & C & bs & D). exists bs.
  unfold getattr. destruct (snd (get_attr the_prog (run the_prog n) o a s)) as [h i fu ou]. unfold appended. cbn in *. congruence.
Qed.

Fixpoint shift_0 v {struct v} : shift 0 v = v.
Proof. destruct v; simpl; auto. f_equal. induction vs as [|x r IH]; simpl; [reflexivity|]. now rewrite shift_0, IH. Qed.
Lemma shift_obj_0 o : shift_obj 0 o = o.
Proof.
  destruct o; simpl; f_equal.
  - unfold shift_env. induction attrs as [|[x v] r IH]; simpl; [reflexivity|]. now rewrite shift_0, IH.
  - induction vs as [|x r IH]; simpl; [reflexivity|]. now rewrite shift_0, IH.
Qed.
Lemma map_shift_obj_0 h : map (shift_obj 0) h = h.
Proof. induction h; simpl; [reflexivity|]. now rewrite shift_obj_0, IHh. Qed.

(** what serialize appends does not depend on what was written before *)
Lemma serialize_out n o s o0 : serialize n o (mkst (heap s) (irest s) (ifull s) (o0 ++ out s)) =
  (fst (serialize n o s), mkst (heap (snd (serialize n o s))) (irest (snd (serialize n o s))) (ifull (snd (serialize n o s))) (o0 ++ out (snd (serialize n o s)))).
Proof.
  pose proof (sim_call_method [] o0 the_prog no_shared n o "serialize" [VOut] s) as H. unfold lift in H. cbn [length app map shift] in H. rewrite shift_0, !map_shift_obj_0 in H.
  unfold serialize. rewrite H. destruct (fst (call_method the_prog n o "serialize" [VOut] s)) as [v|e]; cbn [map_res]; [now rewrite shift_0|reflexivity].
Qed.
(** serialising twice appends the same bytes twice, and ends the same way *)
Theorem C25_twice n o s : exists bs, snd (serialize n o s) = appended s bs /\ serialize n o (appended s bs) = (fst (serialize n o s), appended (appended s bs) bs).
Proof.
  set (z := mkst (heap s) (irest s) (ifull s) []). destruct (C25_serialize_pure n o z) as (bs & E). exists bs.
  assert (X : forall ou, serialize n o (mkst (heap s) (irest s) (ifull s) ou) = (fst (serialize n o z), mkst (heap s) (irest s) (ifull s) (ou ++ bs))).
  { intros ou. pose proof (serialize_out n o z ou) as H. rewrite E in H. unfold z in H at 1. cbn [heap irest ifull out appended] in H. now rewrite app_nil_r in H. }
  assert (Xs : serialize n o s = (fst (serialize n o z), appended s bs)) by (destruct s as [h i fu ou]; apply X).
  split; [now rewrite Xs|]. rewrite Xs. cbn [fst]. unfold appended at 1. rewrite X. reflexivity.
Qed.
Example C25_run : let '(r, s) := ex_event in match r with Ok o => out (snd (serialize 20 o (snd (serialize 20 o s)))) = [x00; x07; xff; xff; x00; x2a; x00; x07; xff; xff; x00; x2a] | _ => False end.
Proof. vm_compute. reflexivity. Qed.

(** ** C26 *)
(** the first item of a layout, alone *)
Definition first_item (f : fmt) : fmt :=
  match f with
  | Done => Done
  | Prim a p _ => Prim a p Done
  | Obj a c sub _ => Obj a c sub Done
  | Cnt a p m _ => Cnt a p m Done
  | PList a p _ => PList a p Done
  | OList a c sub _ => OList a c sub Done
  | Arr a p n _ => Arr a p n Done
  | Zero p _ => Zero p Done
  | Mask a n _ => Mask a n Done
  | VList a p b dv _ => VList a p b dv Done
  | Pad b _ => Pad b Done
  | Derive a b d _ => Derive a b d Done
  | Bits bf _ => Bits bf Done
  | NullL a _ => NullL a Done
  end.
Definition other_items (f : fmt) : fmt :=
  match f with
  | Done => Done
  | Prim _ _ k | Obj _ _ _ k | Cnt _ _ _ k | PList _ _ k | OList _ _ _ k | Arr _ _ _ k | Zero _ k | Mask _ _ k | VList _ _ _ _ k | Pad _ k | Derive _ _ _ k | Bits _ k
  | NullL _ k => k
  end.
Lemma items f : f = fapp (first_item f) (other_items f). Proof. destruct f; reflexivity. Qed.

Lemma encode_stops f : forall W bs e, encode f W = (bs, Some e) ->
  exists f1 f2 b1 b2, f = fapp f1 f2 /\ encode f1 W = (b1, None) /\ encode (first_item f2) W = (b2, Some e) /\ bs = b1 ++ b2.
Proof.
  induction f; intros W bs e E; [discriminate|..];
  (match type of E with encode ?F W = _ => remember F as F0 eqn:EF; pose proof (encode_fapp (first_item F0) (other_items F0) W) as A; rewrite <- items, E in A; unfold oseq in A;
     destruct (snd (encode (first_item F0) W)) as [e1|] eqn:S1;
     [ exists Done, F0, [], bs; split; [reflexivity|]; split; [reflexivity|]; split; [symmetry; exact A|reflexivity]
     | assert (X : exists bs', encode (other_items F0) W = (bs', Some e) /\ bs = fst (encode (first_item F0) W) ++ bs')
         by (destruct (encode (other_items F0) W) as [bs' e']; cbn [fst snd] in A; injection A as -> ->; eauto);
       destruct X as (bs' & E2 & ->); subst F0; cbn [other_items] in E2; destruct (IHf _ _ _ E2) || destruct (IHf2 _ _ _ E2) ] end).
  all: match goal with H : exists f2 b1 b2, _ |- context [first_item ?F] => destruct H as (g2 & b1 & b2 & E3 & E4 & E5 & ->); match type of E3 with _ = fapp ?G _ =>
    exists (fapp (first_item F) G), g2, (fst (encode (first_item F) W) ++ b1), b2 end end.
  all: split; [cbn [first_item fapp]; now f_equal|]; split; [rewrite encode_fapp; unfold oseq; rewrite S1, E4; reflexivity|]; split; [exact E5|now rewrite app_assoc].
Qed.
(** a failing scalar writes nothing *)
Lemma scalar_nothing a p k W bs e : encode (first_item (Prim a p k)) W = (bs, Some e) -> bs = [].
Proof. cbn [first_item encode]. destruct (field a W) as [x|]; [|intros [= <- _]; reflexivity]. unfold enc_val, oseq, done. destruct (enc_prim p x); cbn; intros [= <- _]; reflexivity. Qed.

(** for every object of every class: bytes are only appended *)
Theorem C26_append_only n o s : exists bs, out (snd (serialize n o s)) = out s ++ bs.
Proof. destruct (C25_serialize_pure n o s) as (bs & E). exists bs. now rewrite E. Qed.
(** on an exception, the bytes appended are those of the items before the one that fails, then those of that item up to the failure; none if it is a scalar *)
Theorem C26_failure_prefix n c f o s W e s' : (fuel_ok <= n)%nat -> layout c = Some f -> contents the_prog (heap s) c f o = Some W -> serialize n o s = (Exc e, s') ->
  exists f1 f2 b1 b2, f = fapp f1 f2 /\ encode f1 W = (b1, None) /\ encode (first_item f2) W = (b2, Some e) /\ s' = appended s (b1 ++ b2) /\
    (forall a p k, f2 = Prim a p k -> b2 = []).
Proof.
  intros Hn L HW E. rewrite (ser_layout n c f o s W Hn L HW) in E. destruct (encode f W) as [bs [e1|]] eqn:E1; [|discriminate]. cbn [fst snd] in E. injection E as <- <-.
  destruct (encode_stops f W bs e1 E1) as (f1 & f2 & b1 & b2 & A & B & C & ->). exists f1, f2, b1, b2. repeat (split; [assumption|]). split; [reflexivity|].
  intros a p k ->. eapply scalar_nothing; eauto.
Qed.
(** an event number that does not fit: the simulation address has been written *)
Definition ex_bad : res val * st :=
  bind (new the_prog 20 "SimulationAddress" [VInt 7; VInt 65535]) (fun a => new the_prog 20 "EventIdentifier" [a; VInt 65536]) st0.
Example C26_run : let '(r, s) := ex_bad in match r with Ok o => let '(r, s) := serialize 20 o s in r = Exc StructError /\ out s = [x00; x07; xff; xff] | _ => False end.
Proof. vm_compute. auto. Qed.

(** ** C27 *)
(** what a record holding W0 should hold after reading W1 if lists were extended instead of replaced *)
Definition list_of (a : string) (W : flds) : list wv := match field a W with Some (WList l) => l | _ => [] end.
Definition obj_of (a : string) (W : flds) : flds := match field a W with Some (WObj w) => w | _ => [] end.
Fixpoint merge (f : fmt) (W0 W1 : flds) : flds :=
  match f, W1 with
  | Done, _ => W1
  | (PList a _ k | OList a _ _ k | VList a _ _ _ k), (b, WList l) :: r => (b, WList (list_of a W0 ++ l)) :: merge k W0 r
  | Obj a _ sub k, (b, WObj w) :: r => (b, WObj (merge sub (obj_of a W0) w)) :: merge k W0 r
  | (Prim _ _ k | Arr _ _ _ k | Mask _ _ k | NullL _ k), x :: r => x :: merge k W0 r
  | (Cnt _ _ _ k | Zero _ k | Pad _ k | Derive _ _ _ k), _ => merge k W0 W1
  | _, _ => W1
  end.
(** no list whose elements are appended in parse *)
Fixpoint no_lists (f : fmt) : bool :=
  match f with
  | Done => true
  | PList _ _ _ | OList _ _ _ _ | VList _ _ _ _ _ => false
  | Obj _ _ sub k => no_lists sub && no_lists k
  | Prim _ _ k | Arr _ _ _ k | Mask _ _ k | Cnt _ _ _ k | Zero _ k | Pad _ k | Derive _ _ _ k | NullL _ k | Bits _ k => no_lists k
  end.

Lemma dmap_dbind {A B C} (g : B -> C) (d : dres A) k : dmap g (dbind d k) = dbind d (fun w r => dmap g (k w r)). Proof. destruct d; reflexivity. Qed.
Lemma dbind_ext {A B} (d : dres A) (k k' : A -> list byte -> dres B) : (forall w r, k w r = k' w r) -> dbind d k = dbind d k'. Proof. destruct d; simpl; auto. Qed.
Lemma dmap_dmap {A B C} (g : B -> C) (h : A -> B) d : dmap g (dmap h d) = dmap (fun x => g (h x)) d. Proof. destruct d; reflexivity. Qed.

Lemma decode_merge f : has_bits f = false -> forall W0 C bs, decode f W0 C bs = dmap (merge f W0) (decode f [] C bs).
Proof.
  induction f; intros HB W0 C bs; cbn [has_bits] in HB; try (apply orb_false_iff in HB as [HB1 HB2]); try discriminate; cbn [decode merge].
  - reflexivity.
  - rewrite dmap_dbind. apply dbind_ext. intros w r. rewrite IHf by assumption. now rewrite !dmap_dmap.
  - rewrite (IHf1 HB1). change (old_obj a []) with (@nil (string * wv)). destruct (decode f1 [] [] bs) as [w r|e]; [|reflexivity]. cbn [dmap dbind]. rewrite (IHf2 HB2), !dmap_dmap. reflexivity.
  - rewrite dmap_dbind. apply dbind_ext. intros w r. destruct (wint w); [now apply IHf|reflexivity].
  - destruct (count (CLen a) C) as [z|]; [|reflexivity]. rewrite dmap_dbind. apply dbind_ext. intros w r. rewrite IHf by assumption. now rewrite !dmap_dmap.
  - destruct (count (CLen a) C) as [z|]; [|reflexivity]. rewrite dmap_dbind. apply dbind_ext. intros w r. rewrite (IHf2 HB2). now rewrite !dmap_dmap.
  - rewrite dmap_dbind. apply dbind_ext. intros w r. rewrite IHf by assumption. now rewrite !dmap_dmap.
  - rewrite dmap_dbind. apply dbind_ext. intros w r. now apply IHf.
  - rewrite dmap_dbind. apply dbind_ext. intros w r. destruct (wint w); [|reflexivity]. rewrite IHf by assumption. now rewrite !dmap_dmap.
  - destruct (count (CInt b) C) as [z|]; [|reflexivity]. rewrite dmap_dbind. apply dbind_ext. intros w r. rewrite IHf by assumption. now rewrite !dmap_dmap.
  - destruct (count (CInt b) C) as [z|]; [|reflexivity]. rewrite dmap_dbind. apply dbind_ext. intros w r. now apply IHf.
  - destruct (count (CInt b) C) as [z|]; [|reflexivity]. now apply IHf.
  - destruct (count (CLen a) C) as [z|]; [|reflexivity]. destruct (z <=? 0); [|reflexivity]. rewrite IHf by assumption. now rewrite !dmap_dmap.
Qed.
Lemma merge_no_lists f : no_lists f = true -> forall W0 W1, merge f W0 W1 = W1.
Proof.
  induction f; cbn [no_lists]; intros HL W0 W1; try discriminate; cbn [merge]; try (apply andb_prop in HL as [H1 H2]); auto; try (destruct W1 as [|x r]; [reflexivity|]; now rewrite IHf).
  destruct W1 as [|[b x] r]; [reflexivity|]. destruct x; try reflexivity. now rewrite IHf1, IHf2.
Qed.

(** parsing into a used object, compared with parsing the same bytes into a new one: same exception; or the same bytes consumed and the same contents, except that
    the elements read are added to the lists of the object *)
Theorem C27_reparse n c f s o W0 l fp s1 : (fuel_ok <= n)%nat -> layout c = Some f -> has_bits f = false -> holds_at the_prog (heap s) c f o W0 l fp -> irest s1 = irest s ->
  (exists o1 s1' s' W1, load the_prog n c s1 = (Ok o1, s1') /\ contents the_prog (heap s1') c f o1 = Some W1 /\
     parse n o s = (Ok VNone, s') /\ holds the_prog (heap s') c f o (merge f W0 W1) /\ irest s' = irest s1') \/
  (exists e s1' s', load the_prog n c s1 = (Exc e, s1') /\ parse n o s = (Exc e, s')).
Proof.
  intros Hn L HB HW Hi. pose proof (load_layout n c f s1 Hn L) as H1. rewrite Hi in H1.
  destruct (layout_inv _ _ L) as (_ & LR & _). pose proof (reparse_spec n c f s o W0 l fp Hn LR HB HW) as H2. unfold par_result in H2. rewrite decode_merge in H2 by assumption.
  destruct (decode f [] [] (irest s)) as [W1 r|e]; cbn [dmap] in H2.
  - left. destruct H1 as (o1 & s1' & A & B & _ & R & _). destruct H2 as (s' & fp' & E & F & _ & _ & G & _). exists o1, s1', s', W1. split; [exact A|]. split; [exact B|].
    split; [exact E|]. split; [exists l, fp'; exact F|congruence].
  - right. destruct H1 as (s1' & A). destruct H2 as (s' & B). exists e, s1', s'. auto.
Qed.
(** without lists: the same object as a new one *)
Theorem C27_replaces_partial n c f s o W0 l fp s1 : (fuel_ok <= n)%nat -> layout c = Some f -> has_bits f = false -> no_lists f = true ->
  holds_at the_prog (heap s) c f o W0 l fp -> irest s1 = irest s ->
  (exists o1 s1' s' W1, load the_prog n c s1 = (Ok o1, s1') /\ contents the_prog (heap s1') c f o1 = Some W1 /\
     parse n o s = (Ok VNone, s') /\ holds the_prog (heap s') c f o W1 /\ irest s' = irest s1') \/
  (exists e s1' s', load the_prog n c s1 = (Exc e, s1') /\ parse n o s = (Exc e, s')).
Proof.
  intros Hn L HB HL HW Hi. destruct (C27_reparse n c f s o W0 l fp s1 Hn L HB HW Hi) as [(o1 & s1' & s' & W1 & A & B & C & D & E)|H]; [left|right; exact H].
  exists o1, s1', s', W1. rewrite merge_no_lists in D by assumption. auto.
Qed.
(** with lists it is false: reading the same list of one fixed datum twice leaves two *)
Definition one_datum : list byte := [x00; x00; x00; x01; x00; x00; x00; x00] ++ [x00; x00; x00; x09; x00; x00; x00; x05].
Definition reread (c : string) (data : list byte) : res val * st :=
  bind (load the_prog 50 c) (fun o => bind (raw_seek 0) (fun _ => bind (parse 50 o) (fun _ => ret o))) (mkst [] data data []).
Definition list_len (r : res val * st) (c a : string) : option nat :=
  match r with (Ok o, s) => match layout c with Some f => match contents the_prog (heap s) c f o with Some W => Some (length (list_of a W)) | None => None end | None => None end | _ => None end.
Theorem C27_replaces_refuted : exists c data a, list_len (load the_prog 50 c (mkst [] data data [])) c a = Some 1%nat /\ list_len (reread c data) c a = Some 2%nat.
Proof. exists "DatumSpecification", one_datum, "fixedDatumRecords". vm_compute. auto. Qed.

(** the classes for which the partial theorem holds *)
Definition replacing : list string := Eval vm_compute in filter (fun c => match layout c with Some f => no_lists f && negb (has_bits f) | None => false end) wire_classes.
Example replacing_some : length replacing = 127%nat. Proof. vm_compute. reflexivity. Qed.

(** ** C28 *)
Definition build_and_write (c : string) (n : nat) : M val := bind (new the_prog n c []) (fun o => serialize n o).
Lemma portable_build c : portable (build_and_write c).
Proof. apply (portable_new_call the_prog no_shared c "serialize" [VOut]). reflexivity. Qed.

(** the classes that fail, and how: when built (true) or when serialised (false) *)
Definition failing : list (string * (bool * exn)) :=
  [("UnknownStandardVariableRecord", (false, AttributeError));
   ("AttachedParts", (false, AttributeError));
   ("SilentAggregateSystem", (false, AttributeError));
   ("Environment", (false, AttributeError));
   ("EnvironmentGeneral", (false, AttributeError));
   ("PduSuperclass", (true, ValueError));
   ("SeparationVP", (false, StructError));
   ("LiveEntityPdu", (true, ValueError));
   ("Pdu", (true, ValueError));
   ("EntityInformationFamilyPdu", (true, ValueError));
   ("LogisticsFamilyPdu", (true, ValueError));
   ("SyntheticEnvironmentFamilyPdu", (true, ValueError));
   ("SimulationManagementFamilyPdu", (true, ValueError));
   ("RadioCommunicationsFamilyPdu", (true, ValueError));
   ("WarfareFamilyPdu", (true, ValueError));
   ("DistributedEmissionsFamilyPdu", (true, ValueError));
   ("SimulationManagementWithReliabilityFamilyPdu", (true, ValueError));
   ("EntityManagementFamilyPdu", (true, ValueError));
   ("MinefieldFamilyPdu", (true, ValueError));
   ("LinearObjectStatePdu", (true, NameError));
   ("AttributePdu", (true, ValueError));
   ("DirectedEnergyFirePdu", (false, AttributeError));
   ("IntercomControlPdu", (false, TypeError))].
Lemma defaults i fu : forallb (fun c =>
    match assoc c failing with
    | Some (b, e) => match new the_prog 30 c [] (mkst [] i fu []) with
                     | (Exc x, _) => b && if exn_dec x e then true else false
                     | (Ok o, s) => negb b && match fst (serialize 30 o s) with Exc x => if exn_dec x e then true else false | Ok _ => false end
                     end
    | None => match fst (build_and_write c 30 (mkst [] i fu [])) with Ok VNone => true | _ => false end
    end) wire_classes = true.
Proof. vm_compute. reflexivity. Qed.
Lemma failing_real : forallb (fun p => match snd (snd p) with RecursionError => false | _ => true end) failing = true. Proof. reflexivity. Qed.

(** in every state, for every class not in the list: C() succeeds, and then o.serialize(outputStream) *)
Theorem C28_defaults_partial n c s : (30 <= n)%nat -> In c wire_classes -> assoc c failing = None ->
  exists o s1 bs, new the_prog n c [] s = (Ok o, s1) /\ serialize n o s1 = (Ok VNone, appended s1 bs).
Proof.
  intros Hn Hin HF. pose proof (defaults (irest s) (ifull s)) as D. rewrite forallb_forall in D. specialize (D c Hin). rewrite HF in D.
  destruct (build_and_write c 30 (mkst [] (irest s) (ifull s) [])) as [r s1] eqn:E. cbn [fst] in D. destruct r as [v|]; [|discriminate]. destruct v; try discriminate.
  pose proof (anywhere _ 30 (Ok VNone) s1 s (portable_build c) E ltac:(discriminate) n Hn) as H. unfold build_and_write, bind in H.
  destruct (new the_prog n c [] s) as [[o|e] s2] eqn:E2; [|discriminate]. destruct (C25_serialize_pure n o s2) as (bs & B). exists o, s2, bs. split; [reflexivity|].
  rewrite (surjective_pairing (serialize n o s2)), B. f_equal. now rewrite H.
Qed.
(** and for every class in the list: the exception, in every state *)
Theorem C28_defaults_refuted n c b e s : (30 <= n)%nat -> In c wire_classes -> assoc c failing = Some (b, e) ->
  if b then exists s1, new the_prog n c [] s = (Exc e, s1)
  else exists o s1 s2, new the_prog n c [] s = (Ok o, s1) /\ serialize n o s1 = (Exc e, s2).
Proof.
  intros Hn Hin HF. pose proof (defaults (irest s) (ifull s)) as D. rewrite forallb_forall in D. specialize (D c Hin). rewrite HF in D.
  assert (He : e <> RecursionError).
  { pose proof failing_real as R. rewrite forallb_forall in R. assert (I1 : In (c, (b, e)) failing).
    { revert HF. generalize failing. induction l as [|[y w] r IH]; simpl; [discriminate|]. destruct (String.eqb_spec c y); [intros [= ->]; left; congruence|auto]. }
    specialize (R _ I1). cbn [snd] in R. intros ->. discriminate. }
  destruct (new the_prog 30 c [] (mkst [] (irest s) (ifull s) [])) as [[o|x] s1] eqn:E.
  - apply andb_prop in D as [D1 D2]. destruct b; [discriminate|].
    destruct (serialize 30 o s1) as [[v|x] s2] eqn:E2; [discriminate|]. cbn [fst] in D2. destruct (exn_dec x e); [|discriminate]. subst x.
    assert (E3 : build_and_write c 30 (mkst [] (irest s) (ifull s) []) = (Exc e, s2)) by (unfold build_and_write, bind; now rewrite E).
    pose proof (anywhere _ 30 (Exc e) s2 s (portable_build c) E3 ltac:(congruence) n Hn) as H.
    pose proof (anywhere (fun n => new the_prog n c []) 30 (Ok o) s1 s (portable_new the_prog no_shared c) E ltac:(discriminate) n Hn) as H2.
    do 3 eexists. split; [exact H2|]. unfold build_and_write, bind in H. rewrite H2 in H. exact H.
  - apply andb_prop in D as [D1 D2]. subst b. destruct (exn_dec x e); [|discriminate]. subst x.
    eexists. exact (anywhere (fun n => new the_prog n c []) 30 (Exc e) s1 s (portable_new the_prog no_shared c) E ltac:(congruence) n Hn).
Qed.
Example C28_counts : length wire_classes = 192%nat /\ length failing = 23%nat /\ forallb (fun p => mem (fst p) wire_classes) failing = true. Proof. vm_compute. auto. Qed.

(** ** C29 *)
(** the contents of an object does not change when objects are added *)
Definition keeps (h h' : list hobj) : Prop := forall x, (x < length h)%nat -> nth_error h' x = nth_error h x.
Lemma keeps_some h h' x o : keeps h h' -> nth_error h x = Some o -> nth_error h' x = Some o.
Proof. intros H E. rewrite H; [exact E|]. apply nth_error_Some. congruence. Qed.
Lemma get_list_keeps h h' v vs : keeps h h' -> get_list h v = Some vs -> get_list h' v = Some vs.
Proof. intros K. destruct v as [[]|]; simpl; try discriminate. destruct (nth_error h l) as [[]|] eqn:E; try discriminate. now rewrite (keeps_some _ _ _ _ K E). Qed.
Lemma read_keeps f : forall h h' ga W, keeps h h' -> read the_prog h f ga = Some W -> read the_prog h' f ga = Some W.
Proof.
  induction f; intros h h' ga W K; cbn [read]; try (now apply IHf); auto;
  try (intros E; apply cons_opt_inv in E as (x & r & E1 & E2 & ->); rewrite (IHf _ _ _ _ K E2), ?E1; reflexivity).
  - intros E. apply cons_opt_inv in E as (x & r & E1 & E2 & ->). rewrite (IHf2 _ _ _ _ K E2). destruct (ga a) as [[]|]; try discriminate.
    destruct (nth_error h l) as [[d at_|]|] eqn:E; try discriminate. rewrite (keeps_some _ _ _ _ K E). destruct (String.eqb c d); [|discriminate].
    destruct (read the_prog h f1 (getA the_prog d at_)) as [w|] eqn:R; [|discriminate]. rewrite (IHf1 _ _ _ _ K R). cbn [option_map] in *. injection E1 as <-. reflexivity.
  - intros E. apply cons_opt_inv in E as (x & r & E1 & E2 & ->). rewrite (IHf _ _ _ _ K E2). destruct (get_list h (ga a)) as [vs|] eqn:G; [|discriminate]. now rewrite (get_list_keeps _ _ _ _ K G), E1.
  - intros E. apply cons_opt_inv in E as (x & r & E1 & E2 & ->). rewrite (IHf2 _ _ _ _ K E2). destruct (get_list h (ga a)) as [vs|] eqn:G; [|discriminate]. rewrite (get_list_keeps _ _ _ _ K G).
    destruct (objs _ c h vs) as [ws|] eqn:O; [|discriminate].
    assert (X : objs (fun d at_ => read the_prog h' f1 (getA the_prog d at_)) c h' vs = Some ws).
    { clear - O K IHf1. revert ws O. induction vs as [|v vs IH]; intros ws; cbn [objs]; [auto|]. destruct v; try discriminate.
      destruct (nth_error h l) as [[d at_|]|] eqn:E; try discriminate. rewrite (keeps_some _ _ _ _ K E). destruct (String.eqb c d); [|discriminate].
      destruct (read the_prog h f1 (getA the_prog d at_)) as [w|] eqn:R; [|discriminate]. rewrite (IHf1 _ _ _ _ K R).
      destruct (objs _ c h vs) as [l1|]; [|discriminate]. rewrite (IH l1 eq_refl). auto. }
    rewrite X. cbn [option_map] in *. injection E1 as <-. reflexivity.
  - intros E. apply cons_opt_inv in E as (x & r & E1 & E2 & ->). rewrite (IHf _ _ _ _ K E2). destruct (get_list h (ga a)) as [vs|] eqn:G; [|discriminate]. now rewrite (get_list_keeps _ _ _ _ K G), E1.
  - intros E. apply cons_opt_inv in E as (x & r & E1 & E2 & ->). rewrite (IHf _ _ _ _ K E2). destruct (get_list h (ga a)) as [vs|] eqn:G; [|discriminate]. now rewrite (get_list_keeps _ _ _ _ K G), E1.
  - revert W. induction bf as [|b r IH]; intros W; [apply IHf; exact K|]. destruct (bf_attr b); [|apply IH]. intros E. apply cons_opt_inv in E as (x & r' & E1 & E2 & ->).
    rewrite (IH _ E2), E1. reflexivity.
  - intros E. apply cons_opt_inv in E as (x & r & E1 & E2 & ->). rewrite (IHf _ _ _ _ K E2). destruct (get_list h (ga a)) as [vs|] eqn:G; [|discriminate]. now rewrite (get_list_keeps _ _ _ _ K G), E1.
Qed.
Lemma contents_keeps h h' c f o W : keeps h h' -> contents the_prog h c f o = Some W -> contents the_prog h' c f o = Some W.
Proof.
  intros K. destruct o; simpl; try discriminate. destruct (nth_error h l) as [[d at_|]|] eqn:E; try discriminate. rewrite (keeps_some _ _ _ _ K E). destruct (String.eqb c d); [|discriminate]. now apply read_keeps.
Qed.

(** o1.serialize(out); o2.serialize(out); ... *)
Fixpoint serialize_all (n : nat) (os : list val) : M val :=
  match os with [] => ret VNone | o :: r => bind (serialize n o) (fun _ => serialize_all n r) end.
(** o1 = c1(); o1.parse(in); o2 = c2(); o2.parse(in); ... *)
Fixpoint load_all (n : nat) (cs : list string) : M (list val) :=
  match cs with [] => ret [] | c :: r => bind (load the_prog n c) (fun o => bind (load_all n r) (fun os => ret (o :: os))) end.

(** o is an instance of c with contents W *)
Definition is_a (h : list hobj) (c : string) (W : flds) (o : val) : Prop := exists f, layout c = Some f /\ contents the_prog h c f o = Some W.
Definition encodable (c : string) (W : flds) : Prop := exists f, layout c = Some f /\ value_of f W.

Lemma sequence_keeps n cs Ws : (fuel_ok <= n)%nat -> forall os s, Forall2 encodable cs Ws -> Forall3 (is_a (heap s)) cs Ws os ->
  exists bs, serialize_all n os s = (Ok VNone, appended s bs) /\
    forall s' rest, irest s' = bs ++ rest -> exists os' s'', load_all n cs s' = (Ok os', s'') /\ Forall3 (is_a (heap s'')) cs Ws os' /\ irest s'' = rest /\ keeps (heap s') (heap s'').
Proof.
  intros Hn os s HE HA. revert s HE HA. revert Ws os. induction cs as [|c cs IH]; intros Ws os s HE HA.
  - inversion HE; subst. inversion HA; subst. exists []. split; [unfold appended; simpl; rewrite app_nil_r; now destruct s|]. intros s' rest Hi. exists [], s'. simpl in *. repeat split; auto. constructor.
  - inversion HE as [|? W ? Ws' (f & L & HV) HE']; subst. inversion HA as [|? ? o ? ? os' (f' & L' & HC) HA']; subst. rewrite L in L'. injection L' as <-.
    destruct (C10_round_trip n c f s o W Hn L HC HV) as (b1 & E1 & D1).
    destruct (IH Ws' os' (appended s b1) HE' HA') as (b2 & E2 & D2). exists (b1 ++ b2). split.
    + simpl. unfold bind. rewrite E1, E2. unfold appended. simpl. now rewrite app_assoc.
    + intros s' rest Hi. rewrite <- app_assoc in Hi.
      pose proof (load_layout n c f s' Hn L) as HL. destruct (D1 s' (b2 ++ rest) Hi) as (o1 & s1 & F1 & F2 & F3).
      assert (K1 : keeps (heap s') (heap s1) /\ (length (heap s') <= length (heap s1))%nat).
      { destruct (decode f [] [] (irest s')); [|destruct HL as (? & X); rewrite F1 in X; discriminate]. destruct HL as (o2 & s2 & X1 & _ & X2 & _). rewrite F1 in X1. injection X1 as <- <-. split; [exact X2|].
        destruct (Nat.le_gt_cases (length (heap s')) (length (heap s1))) as [|Hlt]; [assumption|]. exfalso.
        specialize (X2 (length (heap s1)) Hlt). rewrite (proj2 (nth_error_None (heap s1) (length (heap s1)))) in X2 by lia. symmetry in X2. apply nth_error_None in X2. lia. }
      destruct K1 as [K1 Hle].
      destruct (D2 s1 rest F3) as (os1 & s2 & G1 & G2 & G3 & K2). exists (o1 :: os1), s2. split; [simpl; unfold bind; now rewrite F1, G1|]. split; [|split; [exact G3|]].
      * constructor; [|exact G2]. exists f. split; [exact L|]. eapply contents_keeps; eauto.
      * intros x Hx. rewrite K2 by lia. now apply K1.
Qed.
Theorem C29_sequence n cs Ws os s : (fuel_ok <= n)%nat -> Forall2 encodable cs Ws -> Forall3 (is_a (heap s)) cs Ws os ->
  exists bs, serialize_all n os s = (Ok VNone, appended s bs) /\
    forall s' rest, irest s' = bs ++ rest -> exists os' s'', load_all n cs s' = (Ok os', s'') /\ Forall3 (is_a (heap s'')) cs Ws os' /\ irest s'' = rest.
Proof.
  intros Hn HE HA. destruct (sequence_keeps n cs Ws Hn os s HE HA) as (bs & A & B). exists bs. split; [exact A|]. intros s' rest Hi.
  destruct (B s' rest Hi) as (os' & s'' & C & D & E & _). eauto.
Qed.
Example C29_case : exists s os Ws, Forall2 encodable ["EventIdentifier"; "EventIdentifier"] Ws /\ Forall3 (is_a (heap s)) ["EventIdentifier"; "EventIdentifier"] Ws os.
Proof.
  destruct C10_case as (o & s & f & W & _ & L & C & V & _). exists s, [o; o], [W; W]. split; repeat constructor; exists f; auto.
Qed.

(** getPdu does not continue where the last PDU ended: it reads at the start of the stream again, whatever the position *)
Theorem C29_getPdu_position n s bs : getPdu the_prog ProgDis.PduTypeDecoders n (unread s bs) = getPdu the_prog ProgDis.PduTypeDecoders n s.
Proof. reflexivity. Qed.
(** so calling it again gives another copy of the first PDU, not the next one *)
Theorem C29_getPdu_rewinds n s s1 v1 c f W : (fuel_ok <= n)%nat -> getPdu the_prog ProgDis.PduTypeDecoders n s = (Ok v1, s1) -> layout c = Some f -> contents the_prog (heap s1) c f v1 = Some W ->
  exists v2 s2, getPdu the_prog ProgDis.PduTypeDecoders n s1 = (Ok v2, s2) /\ v2 <> v1 /\ contents the_prog (heap s2) c f v2 = Some W /\ irest s2 = irest s1.
Proof.
  intros Hn E L HW. assert (Hn2 : (2 <= n)%nat) by (unfold fuel_ok in Hn; vm_compute in Hn; lia).
  pose proof (factory_spec n s Hn2) as F. unfold table in F. rewrite E in F. pose proof (factory_spec n s1 Hn2) as F1. unfold table in F1.
  destruct (nth_error (ifull s) 2) as [b|] eqn:Eb; [|discriminate]. cbv zeta in F. destruct (zassoc (b2z b) ProgDis.PduTypeDecoders) as [d|] eqn:Ed; [|injection F as -> _; discriminate].
  symmetry in F. destruct (load_class _ _ _ _ _ F) as (l & at_ & -> & Hl & Hd).
  assert (d = c). { cbn [contents] in HW. rewrite Hd in HW. destruct (String.eqb_spec c d); congruence. } subst d.
  match type of F with load _ _ _ ?s0 = _ => pose proof (load_layout n c f s0 Hn L) as H0 end. cbn [irest ifull heap] in H0.
  destruct (decode f [] [] (ifull s)) as [W1 r|e] eqn:D; [|destruct H0 as (x & X); rewrite F in X; discriminate].
  destruct H0 as (o0 & s0 & A & B & K & R & I & O). rewrite F in A. injection A as <- <-. rewrite HW in B. injection B as <-.
  rewrite I, Eb in F1. cbv zeta in F1. rewrite Ed in F1.
  match type of F1 with _ = load _ _ _ ?s0 => pose proof (load_layout n c f s0 Hn L) as H1 end. cbn [irest ifull heap] in H1. rewrite D in H1.
  destruct H1 as (o2 & s2 & A2 & B2 & K2 & R2 & _). exists o2, s2. rewrite F1. split; [exact A2|]. split; [|split; [exact B2|congruence]].
  destruct (load_class _ _ _ _ _ A2) as (l2 & at2 & -> & Hl2 & _). cbn [heap] in Hl2. intros [= ->].
  assert (l < length (heap s1))%nat by (apply nth_error_Some; congruence). lia.
Qed.
Example C29_run : let d := [x07; x00; x01; x01] ++ repeat x00 140 in
  match getPdu the_prog ProgDis.PduTypeDecoders 50 (mkst [] (d ++ d) (d ++ d) []) with
  | (Ok v, s) => length (irest s) = 144%nat /\ length (irest (snd (getPdu the_prog ProgDis.PduTypeDecoders 50 s))) = 144%nat | _ => False end.
Proof. vm_compute. auto. Qed.

Definition all_PropEffects := (C25_serialize_pure, C25_size_pure, C25_attribute_pure, C25_twice, C26_append_only, C26_failure_prefix, C27_reparse, C27_replaces_partial, C27_replaces_refuted,
  C28_defaults_partial, C28_defaults_refuted, C29_sequence, C29_getPdu_position, C29_getPdu_rewinds).
Print Assumptions all_PropEffects.
