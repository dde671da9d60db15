(** * C77: appending to a list adds the element's bytes after the others and counts it (opendis/dis7.py: every class's serialize) *)
From Coq Require Import ZArith String List Bool Lia Permutation.
From Coq Require Import Strings.Byte.
From Verif Require Import Lang Bytes Interp Shift Mono ProgBase ProgDis Prog Spec Codec Codec2 Rep Dec StreamLem SerSound ParSound ParStep ParClass NewSound Layouts Refine Api StreamApi Classes PropCodec CtorRun PropFactory PropOffsets Assign PropAssign Append.
Import ListNotations.
Open Scope string_scope. Open Scope Z_scope. Open Scope list_scope.

(** ** Specification *)
(** the bytes of the value u as an element of a list: what u.serialize() appends, or u in the elements' wire type *)
Definition element_bytes (n : nat) (s : st) (j : spot) (u : val) (b : list byte) : Prop :=
  match j with
  | SRecords ce es => layout ce = Some es /\ serialize n u s = (Ok VNone, appended s b)
  | SItems q => exists x, scal u = Some x /\ enc_prim q x = inl b
  | _ => False
  end.
(** o and v, of classes c and ce, share no object, and no object appears in one of them twice *)
Definition apart (h : list hobj) (c : string) (f : fmt) (o : val) (ce : string) (es : fmt) (v : val) : Prop :=
  exists W l fp w l' fp', holds_at the_prog h c f o W l fp /\ holds_at the_prog h ce es v w l' fp' /\ forall x, In x (l :: fp) -> ~ In x (l' :: fp').
(** v can be an element of the list j of o *)
Definition separate (h : list hobj) (c : string) (f : fmt) (o : val) (j : spot) (v : val) : Prop :=
  match j with SRecords ce es => apart h c f o ce es v | _ => unshared h c f o end.

(** ** C77 *)
Lemma element_outcome n s j u x q b : (fuel_ok <= n)%nat -> item (heap s) j u x q -> NoDup q -> element_bytes n s j u b -> enc_item j x = (b, None).
Proof.
  intros Hn HI HN HB. destruct j as [| |ce es| |p]; cbn [item element_bytes enc_item] in *; try contradiction.
  - destruct HB as [L HS]. destruct HI as (l & at_ & w & fp & -> & Hl & -> & HR & ->). cbn [as_obj]. destruct (layout_inv _ _ L) as (L1 & _).
    assert (HH : holds the_prog (heap s) ce es (VRef l) w) by (exists l, fp, at_; auto).
    unfold serialize in HS. rewrite (serialize_holds n ce es (VRef l) s w Hn L1 HH) in HS. unfold oc in HS. destruct (encode es w) as [b0 [e|]]; cbn [fst snd] in HS; [discriminate|].
    unfold add_out, appended in HS. apply (f_equal (fun x => out (snd x))) in HS. cbn [out snd] in HS. apply app_inv_head in HS. now subst.
  - destruct HI as [HI _]. destruct HB as (y & Hy & HE). rewrite HI in Hy. injection Hy as <-. unfold enc_val. now rewrite HE.
Qed.
Lemma outcome_element n s j u x q b : (fuel_ok <= n)%nat -> (forall ce es, j = SRecords ce es -> layout ce = Some es) -> item (heap s) j u x q -> NoDup q -> enc_item j x = (b, None) -> element_bytes n s j u b.
Proof.
  intros Hn HL HI HN HB. destruct j as [| |ce es| |p]; cbn [item element_bytes enc_item] in *; try contradiction.
  - specialize (HL _ _ eq_refl). split; [exact HL|]. destruct HI as (l & at_ & w & fp & -> & Hl & -> & HR & ->). cbn [as_obj] in HB. destruct (layout_inv _ _ HL) as (L1 & _).
    assert (HH : holds the_prog (heap s) ce es (VRef l) w) by (exists l, fp, at_; auto).
    unfold serialize. rewrite (serialize_holds n ce es (VRef l) s w Hn L1 HH), HB. reflexivity.
  - destruct HI as [HI _]. exists x. split; [exact HI|]. unfold enc_val in HB. destruct (enc_prim p x); [|discriminate]. now injection HB as ->.
Qed.

(** o.path.a.append(v): of the bytes o serializes to, the count of the list becomes that of one more element, and the bytes of v are added after those of the elements there are;
    no other byte changes.  If the type of the count cannot hold it, serialize raises what writing it raises *)
Theorem C77_append n c f s o path a d v bs eb r s1 : (fuel_ok <= n)%nat -> layout c = Some f -> list_at f path a = Some d ->
  separate (heap s) c f o (cl_elem d) v -> element_bytes n s (cl_elem d) v eb ->
  serialize n o s = (Ok VNone, appended s bs) -> append n o path a v s = (Ok r, s1) ->
  out s1 = out s /\ irest s1 = irest s /\ unshared (heap s1) c f o /\
  exists ll vs elems before count gap after,
    list_of n o path a s = (Ok (VRef ll), s) /\ nth_error (heap s) ll = Some (HList vs) /\ nth_error (heap s1) ll = Some (HList (vs ++ [v])) /\
    Forall2 (element_bytes n s (cl_elem d)) vs elems /\
    bs = before ++ count ++ gap ++ concat elems ++ after /\ enc_prim (cl_type d) (WInt (Z.of_nat (length vs) * cl_unit d)) = inl count /\
    (forall k, cl_off d = Some k -> length before = k) /\ (forall k, cl_gap d = Some k -> length gap = k) /\
    match enc_prim (cl_type d) (WInt (Z.of_nat (S (length vs)) * cl_unit d)) with
    | inl count' => length count' = length count /\ serialize n o s1 = (Ok VNone, appended s1 (before ++ count' ++ gap ++ concat elems ++ eb ++ after))
    | inr e => serialize n o s1 = (Exc e, appended s1 before)
    end.
Proof.
  intros Hn L HT HP HB HS HA. destruct (layout_inv _ _ L) as (L1 & _).
  assert (exists l fp at_ W w fx, o = VRef l /\ nth_error (heap s) l = Some (HInst c at_) /\ rep the_prog (heap s) f (getA the_prog c at_) W fp /\ NoDup ((l :: fp) ++ fx) /\ NoDup (l :: fp) /\ NoDup fx /\ item (heap s) (cl_elem d) v w fx)
    as (l & fp & at_ & W & w & fx & -> & Hl & HR & HN & HN1 & HN2 & HI).
  { destruct (cl_elem d) as [| |ce es| |q]; cbn [separate element_bytes item] in *; try contradiction.
    - destruct HP as (W & l & fp & w & l' & fp' & (at_ & -> & Hl & HR & HN) & (at' & -> & Hl' & HR' & HN') & HD).
      exists l, fp, at_, W, (WObj w), (l' :: fp'). split; [reflexivity|]. split; [exact Hl|]. split; [exact HR|]. split; [|split; [exact HN|split; [exact HN'|exists l', at', w, fp'; auto]]].
      clear -HN HN' HD. revert HN HD. generalize (l :: fp). intros q. induction q as [|y q IH]; intros HN HD; [exact HN'|]. inversion HN; subst. cbn [app]. constructor; [rewrite in_app_iff; intros [?|?]; [contradiction|]; eapply HD; [now left|eassumption]|apply IH; [assumption|]]. intros x Hx. apply HD. now right.
    - destruct HP as (W & l & fp & at_ & -> & Hl & HR & HN). destruct HB as (x & Hx & _). exists l, fp, at_, W, x, []. rewrite app_nil_r. split; [reflexivity|]. split; [exact Hl|]. split; [exact HR|]. split; [exact HN|]. split; [exact HN|]. split; [constructor|auto]. }
  assert (HH : holds the_prog (heap s) c f (VRef l) W) by (exists l, fp, at_; auto).
  unfold append in HA. unfold bind at 1 in HA. destruct (list_of n (VRef l) path a s) as [[lv|] s'] eqn:HL; [|discriminate].
  destruct (append_ind n a v w fx path f d s l c at_ W fp lv s' HT Hl HR HN HI HL) as (-> & ll & vs & -> & Hll & Hin & W' & fp' & (A & G & ws & B & E1 & E2 & F & HO & HG) & HPf & HR').
  rewrite (call_append n s ll vs v Hll) in HA. injection HA as <- <-. cbn [heap out irest].
  assert (Nl : l <> ll) by (intros ->; inversion HN1; contradiction).
  assert (HH' : holds the_prog (set_nth ll (HList (vs ++ [v])) (heap s)) c f (VRef l) W').
  { exists l, fp', at_. split; [reflexivity|]. split; [rewrite set_nth_ne by congruence; exact Hl|]. split; [exact HR'|]. eapply Permutation_NoDup; [|exact HN]. cbn [app]. apply perm_skip. now apply Permutation_sym. }
  split; [reflexivity|]. split; [reflexivity|]. split; [now exists W'|].
  unfold serialize in HS. rewrite (serialize_holds n c f (VRef l) s W Hn L1 HH), E1 in HS.
  assert (HX : oseq A (oseq (enc_val (cl_type d) (WInt (Z.of_nat (length vs) * cl_unit d))) (oseq G (oseq (enc_list (enc_item (cl_elem d)) ws) B))) = (bs, None)).
  { clear -HS. revert HS. generalize (oseq A (oseq (enc_val (cl_type d) (WInt (Z.of_nat (length vs) * cl_unit d))) (oseq G (oseq (enc_list (enc_item (cl_elem d)) ws) B)))). intros [b [e|]] HS; unfold oc in HS; cbn [fst snd] in HS; [discriminate|].
    unfold add_out, appended in HS. apply (f_equal (fun x => out (snd x))) in HS. cbn [out snd] in HS. apply app_inv_head in HS. now subst. }
  apply oseq_ok in HX as (b1 & b2 & EA & HX & ->). apply oseq_ok in HX as (b3 & b4 & EC & HX & ->). apply oseq_ok in HX as (b5 & b6 & EG & HX & ->). apply oseq_ok in HX as (b7 & b8 & EL & EB & ->).
  assert (exists elems, concat elems = b7 /\ Forall2 (element_bytes n s (cl_elem d)) vs elems) as (elems & <- & FE).
  { assert (HLay : forall ce es, cl_elem d = SRecords ce es -> layout ce = Some es) by (intros ce es Ej; rewrite Ej in HB; exact (proj1 HB)).
    clear -F EL HLay Hn. revert b7 EL. induction F as [|u x us xs (q & HI & HN) F IH]; intros b7 EL; cbn [enc_list] in EL.
    - injection EL as <-. exists []. split; [reflexivity|constructor].
    - apply oseq_ok in EL as (y1 & y2 & EY & EL & ->). destruct (IH _ EL) as (elems & <- & FE). exists (y1 :: elems). split; [reflexivity|]. constructor; [eapply outcome_element; eauto|exact FE]. }
  exists ll, vs, elems, b1, b3, b5, b8. split; [reflexivity|]. split; [exact Hll|]. split; [apply set_nth_eq; eapply lt_of; eauto|]. split; [exact FE|].
  split; [reflexivity|]. split; [unfold enc_val in EC; destruct (enc_prim (cl_type d) _); [|discriminate]; now injection EC as ->|].
  split; [intros k Hk; eapply HO; eauto|]. split; [intros k Hk; eapply HG; eauto|].
  pose proof (element_outcome n s (cl_elem d) v w fx eb Hn HI HN2 HB) as EV.
  unfold serialize. rewrite (serialize_holds n c f (VRef l) (mkst (set_nth ll (HList (vs ++ [v])) (heap s)) (irest s) (ifull s) (out s)) W' Hn L1 HH'), E2, EA, EG, EL, EB, EV. pose proof (enc_val_length _ _ _ EC) as LC. unfold enc_val. destruct (enc_prim (cl_type d) (WInt (Z.of_nat (S (length vs)) * cl_unit d))) as [b3'|e] eqn:EC'.
  - split; [rewrite LC; eapply enc_prim_length; eauto|]. cbn [oseq fst snd]. reflexivity.
  - unfold fail, oseq, oc, add_out, appended. cbn [fst snd]. now rewrite app_nil_r.
Qed.

(** every list of every class with a layout is covered, but for those whose elements have no class in the library (parse calls null() for them) *)
Fixpoint element_lists (f : fmt) : list string :=
  match f with
  | Done => []
  | PList a _ k | OList a _ _ k => a :: element_lists k
  | Prim _ _ k | Obj _ _ _ k | Cnt _ _ _ k | Arr _ _ _ k | Zero _ k | Mask _ _ k | VList _ _ _ _ k | Pad _ k | Derive _ _ _ k | Bits _ k | NullL _ k => element_lists k
  end.
(** class, list, class of the elements, offset of the count, bytes between the count and the list *)
Definition list_table : list (string * string * option string * option nat * option nat) :=
  [("DataQueryDatumSpecification", "fixedDatumIDs", None, Some 0%nat, Some 4%nat); ("DataQueryDatumSpecification", "variableDatumIDs", None, Some 4%nat, None);
   ("RecordQuerySpecification", "recordIDs", None, Some 0%nat, Some 0%nat); ("DatumSpecification", "fixedDatumRecords", Some "FixedDatum", Some 0%nat, Some 4%nat);
   ("DatumSpecification", "variableDatumRecords", Some "VariableDatum", Some 4%nat, None); ("EntityStateUpdatePdu", "variableParameters", Some "VariableParameter", Some 19%nat, Some 52%nat);
   ("ServiceRequestPdu", "supplies", Some "SupplyQuantity", Some 25%nat, Some 2%nat); ("EntityStatePdu", "variableParameters", Some "VariableParameter", Some 19%nat, Some 124%nat);
   ("ElectromagneticEmissionsPdu", "systems", Some "EmissionSystemRecord", Some 25%nat, Some 2%nat); ("EmissionSystemBeamRecord", "trackJamRecords", Some "TrackJamData", Some 45%nat, Some 6%nat);
   ("EmissionSystemRecord", "beamRecords", Some "EmissionSystemBeamRecord", Some 1%nat, Some 18%nat); ("ResupplyOfferPdu", "supplies", Some "SupplyQuantity", Some 24%nat, Some 3%nat);
   ("FastEntityStatePdu", "variableParameters", Some "VariableParameter", Some 19%nat, Some 124%nat); ("ArealObjectStatePdu", "objectLocation", Some "WorldCoordinates", Some 38%nat, Some 8%nat);
   ("MinefieldStatePdu", "perimeterPoints", Some "Vector2Float", Some 21%nat, Some 50%nat); ("MinefieldStatePdu", "mineTypes", Some "EntityType", Some 30%nat, None);
   ("DetonationPdu", "variableParameters", Some "VariableParameter", Some 101%nat, Some 2%nat); ("SignalPdu", "data", None, Some 28%nat, Some 2%nat)].
Definition row_ok (r : string * string * option string * option nat * option nat) : Prop :=
  let '(c, a, ce, off, gap) := r in
  exists f d, layout c = Some f /\ list_at f [] a = Some d /\ cl_off d = off /\ cl_gap d = gap /\
    match ce with Some e => exists es, cl_elem d = SRecords e es /\ layout e = Some es | None => exists q, cl_elem d = SItems q end.
Theorem C77_covers : Forall row_ok list_table.
Proof.
  unfold list_table. repeat (constructor; [do 2 eexists; split; [vm_compute; reflexivity|split; [vm_compute; reflexivity|split; [reflexivity|split; [reflexivity|eexists; try (split; [reflexivity|vm_compute]); reflexivity]]]]|]). constructor.
Qed.
Lemma all_listed : forallb (fun p => match layout (fst p) with Some f => forallb (fun a => existsb (fun r => let '(c, b, _, _, _) := r in String.eqb c (fst p) && String.eqb b a) list_table) (element_lists f) | None => true end) TW = true.
Proof. vm_compute. reflexivity. Qed.
Theorem C77_covers_all c f a : layout c = Some f -> In a (element_lists f) -> exists ce off gap, In (c, a, ce, off, gap) list_table.
Proof.
  intros L Ha. pose proof all_listed as K. rewrite forallb_forall in K. destruct (layout_inv _ _ L) as (L1 & _). specialize (K _ (assoc_In _ _ _ L1)). cbn [fst] in K. rewrite L, forallb_forall in K.
  specialize (K _ Ha). apply existsb_exists in K as ([[[[c' b] ce] off] gap] & Hin & K). apply andb_prop in K as [K1 K2]. apply String.eqb_eq in K1. apply String.eqb_eq in K2. subst. eauto.
Qed.

(** ** How an element comes about *)
(** a new object is apart from every object there already is *)
Theorem C77_new n c f s o ce es : (fuel_ok <= n)%nat -> unshared (heap s) c f o -> layout ce = Some es -> ~ In ce not_readable_new ->
  exists v s', new the_prog n ce [] s = (Ok v, s') /\ apart (heap s') c f o ce es v /\ out s' = out s /\ (forall l x, nth_error (heap s) l = Some x -> nth_error (heap s') l = Some x).
Proof.
  intros Hn (W & l0 & fp0 & at0 & -> & Hl0 & HR0 & HN0) L Hx. destruct (layout_inv _ _ L) as (L1 & L2 & HC). destruct (new_at_NC ce es L2 HC s) as (h & l & at_ & fp & E & Er & El & _ & _).
  pose proof new_holdsb_all as K. rewrite forallb_forall in K. specialize (K _ (assoc_In _ _ _ L1)). cbn [fst] in K. rewrite L in K. apply orb_prop in K as [K|K]; [apply mem_In in K; contradiction|].
  unfold new_holdsb in K. rewrite Er, El, String.eqb_refl in K. cbn [andb] in K. destruct (read the_prog h es (getA the_prog ce at_)) as [w|] eqn:ER; [|discriminate].
  destruct (locs h es (getA the_prog ce at_)) as [q|] eqn:EL; [|discriminate]. apply nodupn_NoDup in K.
  destruct (tidy_inv _ _ _ tidyS L1) as [S1 S2]. destruct (read_rep the_prog es S1 S2 _ _ _ ER) as (q' & HR). specialize (HR w (fun _ _ => eq_refl)).
  rewrite (rep_locs _ _ _ _ _ _ HR EL) in HR. do 2 eexists. split; [eapply (new_fuel the_prog new_fuel_ n ce []); [unfold fuel_ok, need, G, Dp, new_fuel_ in *; lia|exact E|discriminate]|].
  assert (Old : forall l x r, nth_error (heap s) l = Some x -> nth_error (heap s ++ r) l = Some x) by (intros; rewrite nth_error_app1; [assumption|eapply lt_of; eauto]).
  cbn [heap out]. split; [|split; [reflexivity|intros; now apply Old]].
  exists W, l0, fp0, w, (length (heap s) + l)%nat, (map (fun l => length (heap s) + l)%nat q). split; [|split].
  - exists at0. split; [reflexivity|]. split; [now apply Old|]. split; [|exact HN0]. eapply rep_ext; [exact HR0| |auto|auto].
    intros y Hy. destruct (rep_alive _ _ _ _ _ HR0 _ Hy) as (x & Hx'). rewrite Hx'. now apply Old.
  - exists (shift_env (length (heap s)) at_). split; [reflexivity|]. split; [now apply nth_shift with (o := HInst ce at_)|]. split; [eapply rep_shift; eauto; intros; apply getA_shift|].
    change (NoDup (map (fun l => length (heap s) + l)%nat (l :: q))). apply FinFun.Injective_map_NoDup; [|exact K]. intros x y Hxy. lia.
  - intros x Hx1 Hx2. assert (x < length (heap s))%nat.
    { destruct Hx1 as [<-|Hx1]; [eapply lt_of; eauto|]. destruct (rep_alive _ _ _ _ _ HR0 _ Hx1) as (y & Hy). eapply lt_of; eauto. }
    change (In x (map (fun l => length (heap s) + l)%nat (l :: q))) in Hx2. apply in_map_iff in Hx2 as (y & <- & _). lia.
Qed.

(** assigning to an attribute of one of two objects that are apart keeps them apart, and leaves the bytes of the other as they are *)
Lemma apart_sym h c f o ce es v : apart h c f o ce es v -> apart h ce es v c f o.
Proof. intros (W & l & fp & w & l' & fp' & A & B & C). exists w, l', fp', W, l, fp. split; [exact B|]. split; [exact A|]. intros x H1 H2. exact (C x H2 H1). Qed.
Theorem C77_apart n c f s o ce es v path t p off y x s1 : (fuel_ok <= n)%nat -> layout ce = Some es -> apart (heap s) c f o ce es v -> type_at f path t = Some (p, off) -> scal y = Some x ->
  assign n o path t y s = (Ok tt, s1) ->
  apart (heap s1) c f o ce es v /\ forall b, serialize n v s = (Ok VNone, appended s b) -> serialize n v s1 = (Ok VNone, appended s1 b).
Proof.
  intros Hn L (W & l & fp & w & l' & fp' & (at_ & -> & Hl & HR & HN) & (at' & -> & Hl' & HR' & HN') & HD) HT Hx HA. destruct (layout_inv _ _ L) as (L1 & _).
  destruct (assign_ind n t y path f p off s l c at_ W fp s1 HT Hl HR HN HA) as (lu & ob & Hin & E1 & W' & _ & HW). destruct (HW x Hx) as (at2 & Hl2 & HR2).
  assert (Ne : forall z, In z (l' :: fp') -> nth_error (heap s1) z = nth_error (heap s) z) by (intros z Hz; subst s1; cbn [heap]; apply set_nth_ne; intros ->; exact (HD _ Hin Hz)).
  assert (HR3 : rep the_prog (heap s1) es (getA the_prog ce at') w fp') by (eapply rep_ext; [exact HR'|intros z Hz; apply Ne; now right|auto|auto]).
  assert (Hl3 : nth_error (heap s1) l' = Some (HInst ce at')) by (rewrite Ne by (now left); exact Hl').
  split.
  - exists (W' x), l, fp, w, l', fp'. split; [exists at2; auto|]. split; [exists at'; auto|exact HD].
  - intros b HS. assert (HH : holds the_prog (heap s) ce es (VRef l') w) by (exists l', fp', at'; auto). assert (HH3 : holds the_prog (heap s1) ce es (VRef l') w) by (exists l', fp', at'; auto).
    unfold serialize in *. rewrite (serialize_holds n ce es _ s w Hn L1 HH) in HS. rewrite (serialize_holds n ce es _ s1 w Hn L1 HH3). unfold oc in *. destruct (encode es w) as [b0 [e|]]; cbn [fst snd] in *; [discriminate|].
    unfold add_out, appended in *. apply (f_equal (fun x => out (snd x))) in HS. cbn [out snd] in HS. apply app_inv_head in HS. now subst.
Qed.

(** ** Cases *)
(** pdu = EntityStatePdu(); vp = VariableParameter(); vp.recordType = 4; pdu.variableParameters.append(vp) *)
Definition es_o : val := Eval vm_compute in match fst (new the_prog 50 "EntityStatePdu" [] (mkst [] [] [] [])) with Ok o => o | _ => VNone end.
Definition es_0 : st := Eval vm_compute in snd (new the_prog 50 "EntityStatePdu" [] (mkst [] [] [] [])).
Definition vp_o : val := Eval vm_compute in match fst (new the_prog 50 "VariableParameter" [] es_0) with Ok o => o | _ => VNone end.
Definition es_1 : st := Eval vm_compute in snd (new the_prog 50 "VariableParameter" [] es_0).
Definition es_2 : st := Eval vm_compute in snd (assign 50 vp_o [] (TAttr "recordType") (VInt 4) es_1).
Definition es_3 : st := Eval vm_compute in snd (append 50 es_o [] "variableParameters" vp_o es_2).
Definition es_bytes : list byte := Eval vm_compute in out (snd (serialize 50 es_o es_2)).
Definition vp_bytes : list byte := Eval vm_compute in out (snd (serialize 50 vp_o es_2)).
Example C77_case :
  new the_prog 50 "EntityStatePdu" [] (mkst [] [] [] []) = (Ok es_o, es_0) /\ new the_prog 50 "VariableParameter" [] es_0 = (Ok vp_o, es_1) /\
  assign 50 vp_o [] (TAttr "recordType") (VInt 4) es_1 = (Ok tt, es_2) /\ append 50 es_o [] "variableParameters" vp_o es_2 = (Ok VNone, es_3) /\
  length es_bytes = 144%nat /\ length vp_bytes = 16%nat /\ nth_error vp_bytes 0 = Some x04 /\
  out (snd (serialize 50 es_o es_3)) = firstn 19 es_bytes ++ [x01] ++ skipn 20 es_bytes ++ vp_bytes.
Proof. repeat (split; [vm_compute; reflexivity|]). vm_compute. reflexivity. Qed.
(** this case meets the hypotheses of C77_append, so its conclusion says the same *)
Example C77_case_applies : exists f d, layout "EntityStatePdu" = Some f /\ list_at f [] "variableParameters" = Some d /\ separate (heap es_2) "EntityStatePdu" f es_o (cl_elem d) vp_o /\
  element_bytes 50 es_2 (cl_elem d) vp_o vp_bytes /\ serialize 50 es_o es_2 = (Ok VNone, appended es_2 es_bytes).
Proof.
  exists w_EntityStatePdu. eexists. split; [vm_compute; reflexivity|]. split; [vm_compute; reflexivity|]. cbn [cl_elem separate element_bytes]. split; [|split; [split|]; vm_compute; reflexivity].
  assert (F : (fuel_ok <= 50)%nat) by (apply Nat.leb_le; vm_compute; reflexivity).
  assert (L : layout "VariableParameter" = Some w_VariableParameter) by (vm_compute; reflexivity). assert (LE : layout "EntityStatePdu" = Some w_EntityStatePdu) by (vm_compute; reflexivity).
  assert (U : unshared (heap es_0) "EntityStatePdu" w_EntityStatePdu es_o).
  { destruct (C63_new 50 "EntityStatePdu" w_EntityStatePdu (mkst [] [] [] []) F LE) as (o & s' & E & U & _); [cbn; intuition discriminate|]. 
    assert (X : (Ok o, s') = (Ok es_o, es_0)) by (rewrite <- E; vm_compute; reflexivity). injection X as -> ->. exact U. }
  destruct (C77_new 50 "EntityStatePdu" w_EntityStatePdu es_0 es_o "VariableParameter" w_VariableParameter F U L) as (v & s' & E & A & _); [cbn; intuition discriminate|].
  assert (X : (Ok v, s') = (Ok vp_o, es_1)) by (rewrite <- E; vm_compute; reflexivity). injection X as -> ->.
  apply apart_sym. eapply (proj1 (C77_apart 50 "VariableParameter" w_VariableParameter es_1 vp_o "EntityStatePdu" w_EntityStatePdu es_o [] (TAttr "recordType") (PInt 1 false) (Some 0%nat) (VInt 4) (WInt 4) es_2 F LE (apart_sym _ _ _ _ _ _ _ A) ltac:(vm_compute; reflexivity) eq_refl ltac:(vm_compute; reflexivity))).
Qed.

(** SignalPdu: the count is in bits, and is a 16-bit integer; appending the 8192nd byte makes serialize raise *)
Example C77_signal : exists f d, layout "SignalPdu" = Some f /\ list_at f [] "data" = Some d /\ cl_unit d = 8 /\ cl_type d = PInt 2 false /\ enc_prim (cl_type d) (WInt (8192 * cl_unit d)) = inr StructError.
Proof. do 2 eexists. split; [vm_compute; reflexivity|]. split; [vm_compute; reflexivity|]. repeat split. Qed.
(** FastEntityStatePdu: the count is a signed byte; appending the 128th variable parameter makes serialize raise *)
Example C77_fast : exists f d, layout "FastEntityStatePdu" = Some f /\ list_at f [] "variableParameters" = Some d /\ cl_type d = PInt 1 true /\ enc_prim (cl_type d) (WInt (128 * cl_unit d)) = inr StructError.
Proof. do 2 eexists. split; [vm_compute; reflexivity|]. split; [vm_compute; reflexivity|]. repeat split. Qed.

Definition all_PropAppend := (C77_append, C77_covers, C77_covers_all, C77_new, C77_apart, C77_case, C77_case_applies, C77_signal, C77_fast).
Print Assumptions all_PropAppend.
