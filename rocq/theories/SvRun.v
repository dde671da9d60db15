(** * Standard variable records (C30, C31, C32) *)
From Coq Require Import ZArith String List Bool Lia.
From Coq Require Import Strings.Byte.
From Verif Require Import Lang Bytes Interp Shift Mono ProgBase ProgDis Prog Spec Codec Codec2 Rep Dec StreamLem SerSound ParSound ParStep ParClass NewSound Layouts Refine Api StreamApi Classes PropCodec Special PropSize.
Import ListNotations.
Open Scope string_scope. Open Scope Z_scope. Open Scope list_scope.

(** ** Standard variable records *)
Definition tail_HighFidelityHAVEQUICKRadio : fmt := lay [
  Prim "padding1" u16; Obj "netId" "NetId" w_NetId; Prim "todTransmitIndicator" u8; Prim "padding2" u8; Prim "todDelta" u32;
  Prim "wod1" u32; Prim "wod2" u32; Prim "wod3" u32; Prim "wod4" u32; Prim "wod5" u32; Prim "wod6" u32].
Definition tail_DirectedEnergyDamage : fmt := lay [
  Prim "padding" u16; Obj "damageLocation" "Vector3Float" w_Vector3Float; Prim "damageDiameter" f32; Prim "temperature" f32;
  Prim "componentIdentification" u8; Prim "componentDamageStatus" u8; Prim "componentVisualDamageStatus" u8; Prim "componentVisualSmokeColor" u8;
  Obj "fireEventID" "EventIdentifier" w_EventIdentifier; Prim "padding2" u16].
Definition tail_DirectedEnergyAreaAimpoint : fmt := lay [
  Prim "padding" u16; Cnt "beamAntennaPatterns" u16 1; Cnt "directedEnergyTargetEnergyDepositions" u16 1;
  OList "beamAntennaPatterns" "BeamAntennaPattern" w_BeamAntennaPattern;
  OList "directedEnergyTargetEnergyDepositions" "DirectedEnergyTargetEnergyDeposition" w_DirectedEnergyTargetEnergyDeposition].
Definition tail_DirectedEnergyPrecisionAimpoint : fmt := lay [
  Prim "padding" u16; Obj "targetSpotLocation" "WorldCoordinates" w_WorldCoordinates; Obj "targetSpotEntityLocation" "Vector3Float" w_Vector3Float;
  Obj "targetSpotVelocity" "Vector3Float" w_Vector3Float; Obj "targetSpotAcceleration" "Vector3Float" w_Vector3Float;
  Obj "targetEntityID" "EntityIdentifier" w_EntityIdentifier; Prim "targetComponentID" u8; Prim "beamSpotType" u8;
  Prim "beamSpotCrossSectionSemiMajorAxis" f32; Prim "beamSpotCrossSectionSemiMinorAxis" f32; Prim "beamSpotCrossSectionOrientationAngle" f32;
  Prim "peakIrradiance" f32; Prim "padding2" u32].

(** Size of DirectedEnergyAreaAimpoint *)
Lemma size_loop (h : list hobj) n c f k vs ws fps : Forall3 (elem_rep the_prog h c f) vs ws fps ->
  (forall l at_ w fp s, heap s = h -> nth_error h l = Some (HInst c at_) -> rep the_prog h f (getA the_prog c at_) w fp -> marshalledSize n (VRef l) s = (Ok (VInt k), s)) ->
  forall self z s rho, heap s = h -> assoc "size" rho = Some (VInt z) -> assoc "self" rho = Some self ->
  exists rho', assoc "size" rho' = Some (VInt (z + k * Z.of_nat (length ws))) /\ assoc "self" rho' = Some self /\
    for_loop (run_block (exec the_prog (run the_prog n)) [Assign "size" (Bin OAdd (Loc "size") (size_of (Loc "record")))]) "record" vs rho s = (Ok (rho', None), s).
Proof.
  intros F H self. induction F as [|v x q vs ws fps (l & at_ & w & fp & -> & Hl & -> & HR & ->) F IH]; intros z s rho Hh Hz Hs.
  - exists rho. rewrite Z.mul_0_r, Z.add_0_r. auto.
  - assert (E : eval the_prog (run the_prog n) (size_of (Loc "record")) (upd "record" (VRef l) rho) s = (Ok (VInt k), s)).
    { eapply ev_size; [cbn [eval]; rewrite assoc_upd_eq; reflexivity|eauto]. }
    destruct (IH (z + k) s (upd "size" (VInt (z + k)) (upd "record" (VRef l) rho)) Hh) as (rho' & A & B & C).
    { apply assoc_upd_eq. }
    { rewrite !assoc_upd_ne by discriminate. exact Hs. }
    exists rho'. split; [rewrite A; do 2 f_equal; cbn [length]; lia|]. split; [exact B|]. rewrite <- C. cbn [for_loop].
    remember (size_of (Loc "record")) as e. unfold bind at 1. cbn [run_block exec eval]. rewrite assoc_upd_ne by discriminate. rewrite Hz. unfold bind, ret. rewrite E. reflexivity.
Qed.

Definition sizes_area (W : flds) : Z :=
  8 + 40 * Z.of_nat (length (old_list "beamAntennaPatterns" W)) + 12 * Z.of_nat (length (old_list "directedEnergyTargetEnergyDepositions" W)).

Lemma size_area n l at_ s W fp : nth_error (heap s) l = Some (HInst "DirectedEnergyAreaAimpoint" at_) ->
  rep the_prog (heap s) tail_DirectedEnergyAreaAimpoint (getA the_prog "DirectedEnergyAreaAimpoint" at_) W fp ->
  marshalledSize (S (S (S (S n)))) (VRef l) s = (Ok (VInt (sizes_area W)), s).
Proof.
  intros Hl (_ & l1 & vs1 & ws1 & fps1 & fp1 & A1 & B1 & C1 & F1 & (l2 & vs2 & ws2 & fps2 & fp2 & A2 & B2 & C2 & F2 & _) & _).
  erewrite size_run; [| |exact Hl]; [|vm_compute; reflexivity].
  destruct (size_loop (heap s) (S (S (S n))) _ _ 40 _ _ _ F1) with (self := VRef l) (z := 8) (s := s) (rho := [("self", VRef l); ("size", VInt 8)]) as (r1 & R1 & R2 & R3); try reflexivity.
  { intros. rewrite <- H in H0. size_const. }
  destruct (size_loop (heap s) (S (S (S n))) _ _ 12 _ _ _ F2) with (self := VRef l) (z := 8 + 40 * Z.of_nat (length ws1)) (s := s) (rho := r1) as (r2 & Q1 & Q2 & Q3); try reflexivity; auto.
  { intros. rewrite <- H in *. eapply size_Deposition; eauto. }
  assert (E1 := ev_attr (S (S (S n))) [("self", VRef l); ("size", VInt 8)] l _ at_ _ _ s eq_refl Hl A1).
  assert (E2 := ev_attr (S (S (S n))) r1 l _ at_ _ _ s R2 Hl A2).
  remember (self_ "beamAntennaPatterns") as e1. remember (self_ "directedEnergyTargetEnergyDepositions") as e2. remember [Assign "size" (Bin OAdd (Loc "size") (size_of (Loc "record")))] as bd.
  cbn [run_block exec eval lit_val upd String.eqb Ascii.eqb Bool.eqb]. unfold bind, ret. cbn [fst snd upd String.eqb Ascii.eqb Bool.eqb]. rewrite E1. cbn [iter_vals]. unfold bind, hget, ret. rewrite B1.
  fold (run_block (exec the_prog (run the_prog (S (S (S n)))))). rewrite R3. cbn [fst snd]. rewrite E2. cbn [iter_vals]. unfold bind, hget, ret. rewrite B2.
  rewrite Q3. cbn [fst snd]. rewrite Q1. cbn [snd]. unfold sizes_area, old_list. rewrite C1, C2. reflexivity.
Qed.

(** *** How they serialize *)
Definition w32_type := Expr (Meth (Loc "outputStream") "write_uint32" [self_ "recordType"] []).
Definition w32_length := Expr (Meth (Loc "outputStream") "write_uint32" [self_ "recordLength"] []).
Definition w16_length := Expr (Meth (Loc "outputStream") "write_uint16" [self_ "recordLength"] []).
Definition length_prop : meth := mkmeth KProperty false [("self", None)] [Return (Meth (Loc "self") "marshalledSize" [] [])].
Definition super_ser (X D : string) : option meth :=
  match after X (mro the_prog D) with Some rest => match lookup_in the_prog rest "serialize" with Some (MMeth m) => Some m | _ => None end | None => None end.
Definition body_is (m : meth) (ss : list stmt) : bool := is_ser m && is (list_eq_dec stmt_dec) (m_body m) ss.

(** the shape of the serialize methods: c writes the header once more before the rest *)
Definition sv_shape (c : string) (dbl : bool) (rest : list stmt) : bool :=
  match lookup the_prog c "serialize", super_ser c c, super_ser "StandardVariableRecord" c, lookup the_prog c "recordLength" with
  | Some (MMeth m), Some m1, Some m2, Some (MMeth p) =>
      body_is m (Expr (Super c "serialize" [Loc "outputStream"] []) :: (if dbl then [w32_type; w16_length] else []) ++ rest) &&
      body_is m1 [Expr (Super "StandardVariableRecord" "serialize" [Loc "outputStream"] []); w32_type; w32_length] && body_is m2 [] &&
      is mkind_dec (m_kind p) KProperty && is (list_eq_dec (pair_dec string_dec (opt_dec dflt_dec))) (m_params p) [("self", None)] &&
      is (list_eq_dec stmt_dec) (m_body p) [Return (Meth (Loc "self") "marshalledSize" [] [])]
  | _, _, _, _ => false
  end.

Lemma ev_length c n l at_ s rho p z : lookup the_prog c "recordLength" = Some (MMeth p) ->
  is mkind_dec (m_kind p) KProperty && is (list_eq_dec (pair_dec string_dec (opt_dec dflt_dec))) (m_params p) [("self", None)] &&
      is (list_eq_dec stmt_dec) (m_body p) [Return (Meth (Loc "self") "marshalledSize" [] [])] = true ->
  ctx rho l -> nth_error (heap s) l = Some (HInst c at_) -> marshalledSize n (VRef l) s = (Ok (VInt z), s) ->
  eval the_prog (run the_prog (S n)) (self_ "recordLength") rho s = (Ok (VInt z), s).
Proof.
  intros L H [Hs _] Hl Hz. apply andb_prop in H as [H K3]. apply andb_prop in H as [K1 K2]. apply is_eq in K1, K2, K3.
  cbn [eval]. rewrite Hs. unfold bind at 1, ret at 1. unfold get_attr, bind at 1, hget. rewrite Hl, L, K1. cbn [run]. rewrite K2, K3.
  assert (E : eval the_prog (run the_prog n) (size_of (Loc "self")) [("self", VRef l)] s = (Ok (VInt z), s)) by (eapply ev_size; [reflexivity|exact Hz]).
  remember (size_of (Loc "self")) as e. cbn [bind_args bind_pos bind_rest firstn length skipn combine Nat.sub app]. cbn [run_block exec]. unfold bind. rewrite E. reflexivity.
Qed.

(** the bytes of the record header: once with a 32-bit length, in three classes once more with a 16-bit length *)
Definition sv_head (dbl : bool) (t : wv) (m : Z) : outcome :=
  oseq (enc_val u32 t) (oseq (enc_val u32 (WInt m)) (if dbl then oseq (enc_val u32 t) (enc_val u16 (WInt m)) else done)).

Lemma sv_serialize c dbl rest n l at_ s v t m o : sv_shape c dbl rest = true -> nth_error (heap s) l = Some (HInst c at_) ->
  getA the_prog c at_ "recordType" = Some v -> scal v = Some t ->
  (forall k s', (4 <= k)%nat -> heap s' = heap s -> marshalledSize k (VRef l) s' = (Ok (VInt m), s')) ->
  (forall rho s', ctx rho l -> heap s' = heap s -> exists rho', run_block (exec the_prog (run the_prog (S (S (S (S (S (S (S n))))))))) rest rho s' = oc o (rho', None) s') ->
  serialize (S (S (S (S (S (S (S (S n)))))))) (VRef l) s = oc (oseq (sv_head dbl t m) o) VNone s.
Proof.
  intros SH Hl Hv Ht Hz Hr. unfold sv_shape in SH.
  destruct (lookup the_prog c "serialize") as [[m0|]|] eqn:L0; try discriminate. destruct (super_ser c c) as [m1|] eqn:L1; try discriminate.
  destruct (super_ser "StandardVariableRecord" c) as [m2|] eqn:L2; try discriminate. destruct (lookup the_prog c "recordLength") as [[p|]|] eqn:Lp; try discriminate.
  apply andb_prop in SH as [SH P3]. apply andb_prop in SH as [SH P2]. apply andb_prop in SH as [SH P1]. apply andb_prop in SH as [SH B2]. apply andb_prop in SH as [B0 B1].
  pose proof (andb_true_intro (conj (andb_true_intro (conj P1 P2)) P3)) as PP. clear P1 P2 P3.
  apply andb_prop in B0 as [I0 B0]. apply andb_prop in B1 as [I1 B1]. apply andb_prop in B2 as [I2 B2]. apply is_eq in B0, B1, B2.
  rewrite (ser_run _ _ _ _ _ _ L0 I0 Hl), B0.
  assert (S1 : match after c (mro the_prog c) with Some rest => lookup_in the_prog rest "serialize" | None => None end = Some (MMeth m1)).
  { unfold super_ser in L1. destruct (after c (mro the_prog c)) as [r|]; [|discriminate]. destruct (lookup_in _ _ _) as [[x|]|]; try discriminate. now injection L1 as ->. }
  assert (S2 : match after "StandardVariableRecord" (mro the_prog c) with Some rest => lookup_in the_prog rest "serialize" | None => None end = Some (MMeth m2)).
  { unfold super_ser in L2. destruct (after "StandardVariableRecord" (mro the_prog c)) as [r|]; [|discriminate]. destruct (lookup_in _ _ _) as [[x|]|]; try discriminate. now injection L2 as ->. }
  assert (WT : forall k rho s', (2 <= k)%nat -> ctx rho l -> heap s' = heap s -> exec the_prog (run the_prog k) w32_type rho s' = oc (enc_val u32 t) (rho, None) s').
  { intros k rho s' Hk Hc Hh. unfold w32_type. refine (ex_write the_prog out_cls _ "write_uint32" u32 _ t v _ _ _ Hk eq_refl Hc _ Ht). destruct Hc as [Hs _]. eapply ev_attr; [exact Hs|rewrite Hh; exact Hl|exact Hv]. }
  assert (WL : forall w q k rho s', wprim w = Some q -> (5 <= k)%nat -> ctx rho l -> heap s' = heap s ->
     exec the_prog (run the_prog k) (Expr (Meth (Loc "outputStream") w [self_ "recordLength"] [])) rho s' = oc (enc_val q (WInt m)) (rho, None) s').
  { intros w q k rho s' Hw Hk Hc Hh. destruct k as [|k]; [lia|]. refine (ex_write the_prog out_cls _ _ _ _ (WInt m) (VInt m) _ _ _ _ Hw Hc _ eq_refl); [lia|].
    refine (ev_length c _ _ _ _ _ _ _ Lp PP Hc _ _); [rewrite Hh; exact Hl|]. apply Hz; [lia|exact Hh]. }
  set (rho := [("self", VRef l); ("outputStream", VOut)]). assert (Hc : ctx rho l) by (split; reflexivity).
  assert (HS : exec the_prog (run the_prog (S (S (S (S (S (S (S n)))))))) (Expr (Super c "serialize" [Loc "outputStream"] [])) rho s = oc (oseq (enc_val u32 t) (enc_val u32 (WInt m))) (rho, None) s).
  { eapply (sup_ser _ c c m1 l at_ s rho rho); [exact Hc|exact Hl|exact S1|exact I1|]. rewrite B1. fold rho.
    rewrite <- (oseq_done_l (oseq _ _)).
    assert (K : forall x, x = oc (oseq done (oseq (enc_val u32 t) (enc_val u32 (WInt m)))) (rho, @None val) s -> bind (fun _ => x) ret s = x). { intros x ->. unfold bind, oc. destruct (snd _); reflexivity. }
    match goal with |- ?x = ?y => enough (E : bind (fun s => run_block (exec the_prog (run the_prog (S (S (S (S (S (S n)))))))) [Expr (Super "StandardVariableRecord" "serialize" [Loc "outputStream"] []); w32_type; w32_length] rho s) ret s = y) end.
    { unfold bind in E. destruct (run_block _ _ rho s) as [[a|e] s']; exact E. }
    clear K. eapply oc_seq.
    - eapply (sup_ser _ _ c m2 l at_ s rho rho); [exact Hc|exact Hl|exact S2|exact I2|]. rewrite B2. symmetry. apply oc_done.
    - intros _. unfold done. cbn [fst]. rewrite add_out_nil. eapply oc_seq; [apply WT; [lia|exact Hc|reflexivity]|]. intros _.
      rewrite <- (oseq_done_r (enc_val u32 (WInt m))). eapply oc_seq.
      + apply (WL "write_uint32" u32); [reflexivity|lia|exact Hc|reflexivity].
      + intros _. cbn [run_block]. unfold bind, ret. now rewrite oc_done. }
  assert (HE : oseq (sv_head dbl t m) o = oseq (oseq (enc_val u32 t) (enc_val u32 (WInt m))) (oseq (if dbl then oseq (enc_val u32 t) (enc_val u16 (WInt m)) else done) o)).
  { unfold sv_head. now rewrite !oseq_assoc. }
  rewrite HE. eapply oc_seq; [exact HS|]. intros _. cbn [app]. fold rho.
  assert (HR : forall s', heap s' = heap s -> bind (run_block (exec the_prog (run the_prog (S (S (S (S (S (S (S n))))))))) rest rho) (fun p => ret match snd p with Some v => v | None => VNone end) s' = oc o VNone s').
  { intros s' Hh. destruct (Hr rho s' Hc Hh) as (rho' & E). unfold bind. rewrite E. unfold oc. destruct (snd o); reflexivity. }
  destruct dbl.
  - rewrite oseq_assoc. cbn [app]. eapply oc_seq; [apply WT; [lia|exact Hc|reflexivity]|]. intros _. eapply oc_seq; [apply (WL "write_uint16" u16); [reflexivity|lia|exact Hc|reflexivity]|]. intros _. now apply HR.
  - rewrite oseq_done_l. cbn [app]. now apply HR.
Qed.
