(** * Announced sizes (C30)

    marshalledSize() of the records with a fixed layout and of the records of raw bytes.
    The standard variable records are in [PropSV.v]. *)
From Coq Require Import ZArith String List Bool Lia.
From Coq Require Import Strings.Byte.
From Verif Require Import Lang Bytes Interp Shift Mono ProgBase ProgDis Prog Spec Codec Codec2 Rep Dec StreamLem SerSound ParSound ParStep ParClass NewSound Layouts Refine Api StreamApi Classes PropCodec Special.
Import ListNotations.
Open Scope string_scope. Open Scope Z_scope. Open Scope list_scope.

(** o.marshalledSize() *)
Definition marshalledSize (n : nat) (o : val) : M val := call_method the_prog n o "marshalledSize" [].

(** ** How marshalledSize runs *)
Definition size_body (c : string) : option (list stmt) :=
  match lookup the_prog c "marshalledSize" with
  | Some (MMeth m) =>
      match m_kind m, is (list_eq_dec (pair_dec string_dec (opt_dec dflt_dec))) (m_params m) [("self", None)] with
      | KNormal, true => Some (m_body m)
      | _, _ => None
      end
  | _ => None
  end.

Lemma size_run c b n l at_ s : size_body c = Some b -> nth_error (heap s) l = Some (HInst c at_) ->
  marshalledSize (S n) (VRef l) s =
  bind (run_block (exec the_prog (run the_prog n)) b [("self", VRef l)]) (fun p => ret match snd p with Some v => v | None => VNone end) s.
Proof.
  intros H Hl. unfold size_body in H. destruct (lookup the_prog c "marshalledSize") as [[m|]|] eqn:L; try discriminate.
  destruct (m_kind m) eqn:K; try discriminate. destruct (is _ _ _) eqn:E; [|discriminate]. apply is_eq in E. injection H as <-.
  unfold marshalledSize, call_method, bind at 1, resolve, bind at 1, hget. rewrite Hl, L, K. unfold ret at 1. cbn [apply app run]. rewrite E. reflexivity.
Qed.

Lemma size_const c k n l at_ s : size_body c = Some [Return (Lit (LInt k))] -> nth_error (heap s) l = Some (HInst c at_) ->
  marshalledSize (S n) (VRef l) s = (Ok (VInt k), s).
Proof. intros H Hl. rewrite (size_run _ _ _ _ _ _ H Hl). reflexivity. Qed.

Notation self_ a := (Attr (Loc "self") a).
Notation size_of e := (Meth e "marshalledSize" [] []).

Lemma ev_size n e rho s v z : eval the_prog (run the_prog n) e rho s = (Ok v, s) -> marshalledSize n v s = (Ok z, s) ->
  eval the_prog (run the_prog n) (size_of e) rho s = (Ok z, s).
Proof.
  intros He Hz. cbn [eval]. unfold bind at 1. rewrite He. unfold marshalledSize, call_method in Hz. unfold bind at 1 in Hz. unfold bind at 1.
  destruct (resolve the_prog v "marshalledSize" s) as [[k|e0] s0]; [|exact Hz]. exact Hz.
Qed.

Lemma ev_attr n rho l c at_ a v s : assoc "self" rho = Some (VRef l) -> nth_error (heap s) l = Some (HInst c at_) -> getA the_prog c at_ a = Some v ->
  eval the_prog (run the_prog n) (self_ a) rho s = (Ok v, s).
Proof. intros A Hl Hg. cbn [eval]. rewrite A. unfold bind, ret at 1. eapply get_attr_ga; eauto. Qed.

Lemma size_plus c a k n l at_ s v z : size_body c = Some [Return (Bin OAdd (size_of (self_ a)) (Lit (LInt k)))] -> nth_error (heap s) l = Some (HInst c at_) ->
  getA the_prog c at_ a = Some v -> marshalledSize n v s = (Ok (VInt z), s) -> marshalledSize (S n) (VRef l) s = (Ok (VInt (z + k)), s).
Proof.
  intros H Hl Hg Hz. rewrite (size_run _ _ _ _ _ _ H Hl). pose proof (ev_attr n [("self", VRef l)] l c at_ a v s eq_refl Hl Hg) as Ea.
  pose proof (ev_size n _ _ _ _ _ Ea Hz) as E. remember (size_of (self_ a)) as e. unfold bind at 1. cbn [run_block exec eval]. unfold bind. rewrite E. reflexivity.
Qed.

Lemma size_bits c fs n l at_ s : size_body c = Some [Return (size_of (self_ "_struct"))] -> nth_error (heap s) l = Some (HInst c at_) ->
  getA the_prog c at_ "_struct" = Some (VBitCls fs) -> marshalledSize (S n) (VRef l) s = (Ok (VInt (Z.of_nat (bits_size fs))), s).
Proof.
  intros H Hl Hg. rewrite (size_run _ _ _ _ _ _ H Hl). pose proof (ev_attr n [("self", VRef l)] l c at_ _ _ s eq_refl Hl Hg) as Ea.
  assert (E := ev_size n _ _ _ _ (VInt (Z.of_nat (bits_size fs))) Ea eq_refl). remember (size_of (self_ "_struct")) as e.
  unfold bind at 1. cbn [run_block exec]. unfold bind. rewrite E. reflexivity.
Qed.

(** nobody has assigned to the private attribute _struct of an object *)
Definition struct_untouched (h : list hobj) : Prop := forall l c at_, nth_error h l = Some (HInst c at_) -> assoc "_struct" at_ = None.

Lemma getA_struct h l c at_ fs : struct_untouched h -> nth_error h l = Some (HInst c at_) -> lookup the_prog c "_struct" = Some (MAttr (LBits fs)) ->
  getA the_prog c at_ "_struct" = Some (VBitCls fs).
Proof. intros H Hl L. unfold getA. rewrite L, (H _ _ _ Hl). reflexivity. Qed.

Ltac size_const := eapply size_const; cycle 1; [eassumption|vm_compute; reflexivity].

Lemma size_SimulationAddress n l at_ s : nth_error (heap s) l = Some (HInst "SimulationAddress" at_) -> marshalledSize (S n) (VRef l) s = (Ok (VInt 4), s).
Proof. intros Hl. size_const. Qed.

Lemma size_EntityIdentifier n l at_ s W fp : nth_error (heap s) l = Some (HInst "EntityIdentifier" at_) ->
  rep the_prog (heap s) w_EntityIdentifier (getA the_prog "EntityIdentifier" at_) W fp -> marshalledSize (S (S n)) (VRef l) s = (Ok (VInt 6), s).
Proof.
  intros Hl (l' & at' & w & fp1 & fp2 & A & B & _). change 6 with (4 + 2).
  eapply size_plus; [|exact Hl|exact A|]; [vm_compute; reflexivity|]. eapply size_SimulationAddress; eauto.
Qed.

Lemma size_EventIdentifier n l at_ s W fp : nth_error (heap s) l = Some (HInst "EventIdentifier" at_) ->
  rep the_prog (heap s) w_EventIdentifier (getA the_prog "EventIdentifier" at_) W fp -> marshalledSize (S (S n)) (VRef l) s = (Ok (VInt 6), s).
Proof.
  intros Hl (l' & at' & w & fp1 & fp2 & A & B & _). change 6 with (4 + 2).
  eapply size_plus; [|exact Hl|exact A|]; [vm_compute; reflexivity|]. eapply size_SimulationAddress; eauto.
Qed.

Lemma size_Deposition n l at_ s W fp : nth_error (heap s) l = Some (HInst "DirectedEnergyTargetEnergyDeposition" at_) ->
  rep the_prog (heap s) w_DirectedEnergyTargetEnergyDeposition (getA the_prog "DirectedEnergyTargetEnergyDeposition" at_) W fp ->
  marshalledSize (S (S (S n))) (VRef l) s = (Ok (VInt 12), s).
Proof.
  intros Hl (l' & at' & w & fp1 & fp2 & A & B & _ & D & _). change 12 with (6 + 6).
  eapply size_plus; [|exact Hl|exact A|]; [vm_compute; reflexivity|]. eapply size_EntityIdentifier; eauto.
Qed.

Lemma size_SpreadSpectrum n l at_ s : struct_untouched (heap s) -> nth_error (heap s) l = Some (HInst "SpreadSpectrum" at_) ->
  marshalledSize (S n) (VRef l) s = (Ok (VInt 2), s).
Proof.
  intros U Hl. change 2 with (Z.of_nat (bits_size [("frequencyHopping", 1); ("pseudoNoise", 1); ("timeHopping", 1); ("padding", 13)])).
  eapply size_bits; [|exact Hl|]; [vm_compute; reflexivity|]. eapply getA_struct; [exact U|exact Hl|vm_compute; reflexivity].
Qed.

Lemma size_NetId n l at_ s : struct_untouched (heap s) -> nth_error (heap s) l = Some (HInst "NetId" at_) ->
  marshalledSize (S n) (VRef l) s = (Ok (VInt 2), s).
Proof.
  intros U Hl. change 2 with (Z.of_nat (bits_size [("netNumber", 10); ("frequencyTable", 2); ("mode", 2); ("padding", 2)])).
  eapply size_bits; [|exact Hl|]; [vm_compute; reflexivity|]. eapply getA_struct; [exact U|exact Hl|vm_compute; reflexivity].
Qed.

Lemma size_DEFireFlags n l at_ s : struct_untouched (heap s) -> nth_error (heap s) l = Some (HInst "DEFireFlags" at_) ->
  marshalledSize (S n) (VRef l) s = (Ok (VInt 2), s).
Proof.
  intros U Hl. change 2 with (Z.of_nat (bits_size [("weaponOn", 1); ("stateUpdateFlag", 1); ("padding", 14)])).
  eapply size_bits; [|exact Hl|]; [vm_compute; reflexivity|]. eapply getA_struct; [exact U|exact Hl|vm_compute; reflexivity].
Qed.

Lemma size_ModulationType n l at_ s W fp : struct_untouched (heap s) -> nth_error (heap s) l = Some (HInst "ModulationType" at_) ->
  rep the_prog (heap s) w_ModulationType (getA the_prog "ModulationType" at_) W fp -> marshalledSize (S (S n)) (VRef l) s = (Ok (VInt 8), s).
Proof.
  intros U Hl (l' & at' & w & fp1 & fp2 & A & B & _).
  erewrite size_run; [| |exact Hl]; [|vm_compute; reflexivity].
  assert (E : eval the_prog (run the_prog (S n)) (size_of (self_ "spreadSpectrum")) [("self", VRef l); ("size", VInt 0)] s = (Ok (VInt 2), s)).
  { eapply ev_size; [eapply ev_attr; [reflexivity|exact Hl|exact A]|]. eapply size_SpreadSpectrum; eauto. }
  remember (size_of (self_ "spreadSpectrum")) as e. cbn [run_block exec eval assoc upd String.eqb Ascii.eqb Bool.eqb lit_val].
  unfold bind, ret. cbn [fst snd assoc upd String.eqb Ascii.eqb Bool.eqb]. rewrite E. reflexivity.
Qed.

(** the record classes with a marshalledSize method, other than those carrying bytes and the standard variable records *)
Definition announcing : list (string * Z) :=
  [("SimulationAddress", 4); ("EntityIdentifier", 6); ("EventIdentifier", 6); ("Vector3Float", 12); ("EulerAngles", 12); ("WorldCoordinates", 24);
   ("BeamAntennaPattern", 40); ("SpreadSpectrum", 2); ("NetId", 2); ("DEFireFlags", 2); ("ModulationType", 8); ("GenericRadio", 0);
   ("SimpleIntercomRadio", 0); ("BasicHaveQuickMP", 16); ("CCTTSincgarsMP", 16); ("DirectedEnergyTargetEnergyDeposition", 12)].

Lemma size_announced n c k f l at_ s W fp : In (c, k) announcing -> assoc c TW = Some f -> struct_untouched (heap s) ->
  nth_error (heap s) l = Some (HInst c at_) -> rep the_prog (heap s) f (getA the_prog c at_) W fp ->
  marshalledSize (S (S (S n))) (VRef l) s = (Ok (VInt k), s).
Proof.
  intros Hi L U Hl HR. unfold announcing in Hi. cbn [In] in Hi.
  repeat match goal with H : _ \/ _ |- _ => destruct H as [H|H] end; try contradiction; injection Hi as <- <-.
  all: try (size_const; fail).
  - vm_compute in L. injection L as <-. eapply size_EntityIdentifier; eauto.
  - vm_compute in L. injection L as <-. eapply size_EventIdentifier; eauto.
  - eapply size_SpreadSpectrum; eauto.
  - eapply size_NetId; eauto.
  - eapply size_DEFireFlags; eauto.
  - vm_compute in L. injection L as <-. eapply size_ModulationType; eauto.
  - vm_compute in L. injection L as <-. eapply size_Deposition; eauto.
Qed.

Lemma announcing_fixed c k : In (c, k) announcing -> exists f m, assoc c TW = Some f /\ fixed f = Some m /\ k = Z.of_nat m.
Proof.
  intros Hi. unfold announcing in Hi. cbn [In] in Hi.
  repeat match goal with H : _ \/ _ |- _ => destruct H as [H|H] end; try contradiction; injection Hi as <- <-.
  all: eexists; eexists; split; [vm_compute; reflexivity|]; split; [vm_compute; reflexivity|reflexivity].
Qed.

(** C30 for the record classes with a fixed layout *)
Theorem C30_announced_partial n c k f s o W bs : (fuel_ok <= n)%nat -> In (c, k) announcing -> assoc c TW = Some f -> struct_untouched (heap s) ->
  contents the_prog (heap s) c f o = Some W -> serialize n o s = (Ok VNone, appended s bs) ->
  marshalledSize n o s = (Ok (VInt (Z.of_nat (length bs))), s).
Proof.
  intros Hn Hi L U HW E. destruct (announcing_fixed c k Hi) as (f' & m & L' & Hf & Ek). rewrite L in L'. injection L' as <-.
  destruct (tidy_inv _ _ _ tidyS L) as [S1 S2]. destruct (contents_inv _ _ _ _ _ S1 S2 HW) as (l & at_ & fp & -> & Hl & HR).
  pose proof (serialize_spec n c f _ s W Hn L HW) as E'. unfold serialize in E. rewrite E' in E. unfold oc in E.
  destruct (encode f W) as [b [e|]] eqn:Ee; cbn [fst snd] in E; [discriminate|]. unfold add_out, appended in E. injection E as E. apply app_inv_head in E. subst b.
  assert (EL : length bs = m). { rewrite <- (fixed_size f m W Hf). eapply encode_size; eauto. }
  rewrite EL, <- Ek. do 3 (destruct n as [|n]; [unfold fuel_ok, need in Hn; lia|]). eapply size_announced; eauto.
Qed.

(** every class of [announcing] has such a layout, so the theorem is about each of them *)
Example C30_case : exists o s f W bs, ex_event = (Ok o, s) /\ In ("EventIdentifier", 6) announcing /\ assoc "EventIdentifier" TW = Some f /\ struct_untouched (heap s) /\
  contents the_prog (heap s) "EventIdentifier" f o = Some W /\ serialize 50 o s = (Ok VNone, appended s bs) /\ length bs = 6%nat.
Proof.
  do 5 eexists. split; [vm_compute; reflexivity|]. split; [cbn; tauto|]. split; [vm_compute; reflexivity|].
  split; [intros [|[|l]] c at_ H; cbn in H; try (destruct l; discriminate H); injection H as <- <-; reflexivity|].
  split; [vm_compute; reflexivity|]. split; [vm_compute; reflexivity|]. reflexivity.
Qed.

(** ** Records of raw bytes: UnknownRadio and UnknownAntennaPattern *)
Definition raw_classes : list string := ["UnknownRadio"; "UnknownAntennaPattern"].
Definition raw_data (h : list hobj) (c : string) (o : val) (d : list byte) : Prop :=
  exists l at_, o = VRef l /\ nth_error h l = Some (HInst c at_) /\ assoc "data" at_ = Some (VBytes d).

Lemma sup_ser n X D m l at_ s rho rho' o : ctx rho l -> nth_error (heap s) l = Some (HInst D at_) ->
  match after X (mro the_prog D) with Some rest => lookup_in the_prog rest "serialize" | None => None end = Some (MMeth m) -> is_ser m = true ->
  run_block (exec the_prog (run the_prog n)) (m_body m) [("self", VRef l); ("outputStream", VOut)] s = oc o (rho', None) s ->
  exec the_prog (run the_prog (S n)) (Expr (Super X "serialize" [Loc "outputStream"] [])) rho s = oc o (rho, None) s.
Proof.
  intros [Hs Ho] Hl HL HI HB. apply is_ser_inv in HI as [K Q]. apply ex_expr. exists VNone.
  cbn [eval]. rewrite Hs. unfold bind at 1. unfold resolve_super. unfold bind at 1, hget. rewrite Hl.
  destruct (after X (mro the_prog D)) as [rest|]; [|discriminate]. rewrite HL, K.
  unfold ret at 1. cbn [eval_list eval]. rewrite Ho. unfold bind at 1, ret at 1. unfold bind at 1. unfold bind at 1. unfold ret at 1. unfold ret at 1. cbn [apply app]. rewrite run_ser by exact Q.
  unfold bind. rewrite HB. unfold oc. destruct (snd o); reflexivity.
Qed.

Lemma oc_seq {A} n c rest (rho rho1 : env) (r : A) (k : R -> M A) s o1 o2 :
  exec the_prog (run the_prog n) c rho s = oc o1 (rho1, None) s ->
  (snd o1 = None -> bind (run_block (exec the_prog (run the_prog n)) rest rho1) k (add_out (fst o1) s) = oc o2 r (add_out (fst o1) s)) ->
  bind (run_block (exec the_prog (run the_prog n)) (c :: rest) rho) k s = oc (oseq o1 o2) r s.
Proof.
  intros H1 H2. unfold bind at 1. cbn [run_block]. unfold bind at 1. rewrite H1. destruct o1 as [b [e|]]; unfold oc, oseq; cbn [fst snd] in *.
  - reflexivity.
  - specialize (H2 eq_refl). unfold bind in H2. fold (run_block (exec the_prog (run the_prog n))). rewrite H2. unfold oc. f_equal. unfold add_out. cbn. now rewrite app_assoc.
Qed.

Lemma ex_write_bytes n e rho l s b : (1 <= n)%nat -> ctx rho l -> eval the_prog (run the_prog n) e rho s = (Ok (VBytes b), s) ->
  exec the_prog (run the_prog n) (Expr (Meth (Loc "outputStream") "write_bytes" [e] [])) rho s = oc (b, None) (rho, None) s.
Proof.
  intros Hn [_ Ho] He. destruct (write_bytes_ok the_prog out_cls n b s Hn) as (k & A & B).
  cbn [exec eval]. rewrite Ho. unfold bind at 1, bind at 1, ret at 1. unfold bind at 1. rewrite A.
  cbn [eval_list]. unfold bind at 1. unfold bind at 1. rewrite He. unfold bind, ret. cbn [apply app]. rewrite B. reflexivity.
Qed.

Lemma ser_run c m n l at_ s : lookup the_prog c "serialize" = Some (MMeth m) -> is_ser m = true -> nth_error (heap s) l = Some (HInst c at_) ->
  serialize (S n) (VRef l) s = bind (run_block (exec the_prog (run the_prog n)) (m_body m) [("self", VRef l); ("outputStream", VOut)])
    (fun p => ret match snd p with Some v => v | None => VNone end) s.
Proof.
  intros L I Hl. apply is_ser_inv in I as [K Q]. unfold serialize, call_method, bind at 1, resolve, bind at 1, hget. rewrite Hl, L, K. unfold ret at 1. cbn [apply app].
  now rewrite run_ser by exact Q.
Qed.

Lemma getA_plain c at_ a v : lookup the_prog c a = None -> assoc a at_ = Some v -> getA the_prog c at_ a = Some v.
Proof. intros L A. unfold getA. now rewrite L, A. Qed.

Definition raw_ser (c : string) (m : meth) : bool :=
  is_ser m && is (list_eq_dec stmt_dec) (m_body m)
    [Expr (Super c "serialize" [Loc "outputStream"] []); Expr (Meth (Loc "outputStream") "write_bytes" [self_ "data"] [])].

Lemma raw_serialize n c m0 m l at_ d s : lookup the_prog c "serialize" = Some (MMeth m0) -> raw_ser c m0 = true -> lookup the_prog c "data" = None ->
  match after c (mro the_prog c) with Some rest => lookup_in the_prog rest "serialize" | None => None end = Some (MMeth m) -> is_ser m && is (list_eq_dec stmt_dec) (m_body m) [] = true ->
  nth_error (heap s) l = Some (HInst c at_) -> assoc "data" at_ = Some (VBytes d) ->
  serialize (S (S n)) (VRef l) s = (Ok VNone, appended s d).
Proof.
  intros L R0 Ld Ls I Hl Hd. apply andb_prop in R0 as [R1 R2]. apply is_eq in R2. apply andb_prop in I as [I1 I2]. apply is_eq in I2.
  rewrite (ser_run _ _ _ _ _ _ L R1 Hl), R2.
  change (Ok VNone, appended s d) with (@oc val (d, None) VNone s). replace (d, None) with (oseq done (d, @None exn)) by reflexivity.
  eapply oc_seq.
  - eapply (sup_ser n c c m l at_ s _ [("self", VRef l); ("outputStream", VOut)] done); [split; reflexivity|exact Hl|exact Ls|exact I1|].
    rewrite I2. cbn [run_block]. unfold ret. now rewrite oc_done.
  - intros _. unfold done. cbn [fst]. rewrite add_out_nil. replace (d, None) with (oseq (d, None) (@nil byte, @None exn)) by (unfold oseq; cbn; now rewrite app_nil_r).
    eapply oc_seq.
    + eapply ex_write_bytes with (l := l); [lia|split; reflexivity|]. eapply ev_attr; [reflexivity|exact Hl|now apply getA_plain].
    + intros _. cbn [run_block fst]. unfold bind, ret, oc. cbn. now rewrite add_out_nil.
Qed.

Lemma raw_size n c l at_ d s : size_body c = Some [Return (Builtin BLen [self_ "data"])] -> lookup the_prog c "data" = None ->
  nth_error (heap s) l = Some (HInst c at_) -> assoc "data" at_ = Some (VBytes d) ->
  marshalledSize (S n) (VRef l) s = (Ok (VInt (Z.of_nat (length d))), s).
Proof.
  intros B Ld Hl Hd. rewrite (size_run _ _ _ _ _ _ B Hl). pose proof (ev_attr n [("self", VRef l)] l c at_ _ _ s eq_refl Hl (getA_plain _ _ _ _ Ld Hd)) as Ea.
  remember (self_ "data") as e. cbn [run_block exec eval eval_list]. unfold bind. rewrite Ea. reflexivity.
Qed.

(** C30 for the records of raw bytes: any number of bytes *)
Theorem C30_raw_partial n c s o d : (fuel_ok <= n)%nat -> In c raw_classes -> raw_data (heap s) c o d ->
  serialize n o s = (Ok VNone, appended s d) /\ marshalledSize n o s = (Ok (VInt (Z.of_nat (length d))), s).
Proof.
  intros Hn Hc (l & at_ & -> & Hl & Hd). do 2 (destruct n as [|n]; [unfold fuel_ok, need in Hn; lia|]).
  assert (Q : exists m0 m, lookup the_prog c "serialize" = Some (MMeth m0) /\ raw_ser c m0 = true /\ lookup the_prog c "data" = None /\
    match after c (mro the_prog c) with Some rest => lookup_in the_prog rest "serialize" | None => None end = Some (MMeth m) /\
    is_ser m && is (list_eq_dec stmt_dec) (m_body m) [] = true /\ size_body c = Some [Return (Builtin BLen [self_ "data"])]).
  { destruct Hc as [<-|[<-|[]]]; eexists; eexists; repeat split; vm_compute; reflexivity. }
  destruct Q as (m0 & m & L & R0 & Ld & Ls & I & B). split; [eapply raw_serialize|eapply raw_size]; eauto.
Qed.


Example C30_raw_case : exists o s, new the_prog 60 "UnknownRadio" [VBytes [x01; x02; x03]] st0 = (Ok o, s) /\ raw_data (heap s) "UnknownRadio" o [x01; x02; x03].
Proof. do 2 eexists. split; [vm_compute; reflexivity|]. do 2 eexists. repeat split; vm_compute; reflexivity. Qed.

Definition all_PropSize := (C30_announced_partial, C30_raw_partial).
Print Assumptions all_PropSize.
