(** C30-C32: standard variable records (opendis/record/base.py, opendis/record/__init__.py, warfare/, radio/, opendis/dis7.py parseStandardVariableRecord) *)
From Coq Require Import ZArith String List Bool Lia.
From Coq Require Import Strings.Byte.
From Verif Require Import Lang Bytes Interp Shift Mono ProgBase ProgDis Prog Spec Codec Codec2 Rep Dec StreamLem SerSound ParSound ParStep ParClass NewSound Layouts Refine Api StreamApi Classes PropCodec Special PropSize SvRun.
Import ListNotations.
Open Scope string_scope. Open Scope Z_scope. Open Scope list_scope.


(** *** The four registered records *)
(** class, record type, header written twice, the fields after the header *)
Definition sv_classes : list (string * (Z * bool * fmt)) :=
  [("HighFidelityHAVEQUICKRadio", (3000, false, tail_HighFidelityHAVEQUICKRadio)); ("DirectedEnergyPrecisionAimpoint", (4000, true, tail_DirectedEnergyPrecisionAimpoint));
   ("DirectedEnergyAreaAimpoint", (4001, true, tail_DirectedEnergyAreaAimpoint)); ("DirectedEnergyDamage", (4500, true, tail_DirectedEnergyDamage))].
(** the size a record of these fields announces *)
Definition sv_announced (c : string) (W : flds) : Z :=
  if String.eqb c "DirectedEnergyAreaAimpoint" then sizes_area W else if String.eqb c "DirectedEnergyPrecisionAimpoint" then 96 else 40.

Definition ser_rest (c : string) (k : nat) : list stmt := match lookup the_prog c "serialize" with Some (MMeth m) => skipn k (m_body m) | _ => [] end.

Lemma sv_tables c t dbl f : In (c, (t, dbl, f)) sv_classes -> sv_shape c dbl (ser_rest c (if dbl then 3 else 1)) = true /\
  chkS the_prog TW 4 c (ser_rest c (if dbl then 3 else 1)) f = Some Done /\ (nest f <=? Dp)%nat = true /\ deps_ok f = true /\ subs_nodup f = true /\ nodupb (names f) = true /\
  lookup the_prog c "recordType" = Some (MAttr (LInt t)).
Proof.
  intros H. cbn [In sv_classes] in H. unfold sv_classes in H. cbn [In] in H.
  repeat match goal with H : _ \/ _ |- _ => destruct H as [H|H] end; try contradiction; injection H as <- <- <- <-; repeat split; vm_compute; reflexivity.
Qed.

Lemma sv_size c t dbl f l at_ W fp k s : In (c, (t, dbl, f)) sv_classes -> (4 <= k)%nat -> nth_error (heap s) l = Some (HInst c at_) ->
  rep the_prog (heap s) f (getA the_prog c at_) W fp -> marshalledSize k (VRef l) s = (Ok (VInt (sv_announced c W)), s).
Proof.
  intros H Hk Hl HR. do 4 (destruct k as [|k]; [lia|]). unfold sv_classes in H. cbn [In] in H.
  repeat match goal with H : _ \/ _ |- _ => destruct H as [H|H] end; try contradiction; injection H as <- <- <- <-.
  - change (sv_announced _ W) with 40. size_const.
  - change (sv_announced _ W) with 96. size_const.
  - change (sv_announced _ W) with (sizes_area W). eapply size_area; eauto.
  - change (sv_announced _ W) with 40. size_const.
Qed.

(** a record o of class c with fields W, whose recordType is the class's *)
Definition sv_record (h : list hobj) (c : string) (f : fmt) (o : val) (W : flds) : Prop :=
  contents the_prog h c f o = Some W /\ exists l at_, o = VRef l /\ nth_error h l = Some (HInst c at_) /\ assoc "recordType" at_ = None.

Theorem sv_writes n c t dbl f s o W : (fuel_ok <= n)%nat -> In (c, (t, dbl, f)) sv_classes -> sv_record (heap s) c f o W ->
  serialize n o s = oc (oseq (sv_head dbl (WInt t) (sv_announced c W)) (encode f W)) VNone s /\ marshalledSize n o s = (Ok (VInt (sv_announced c W)), s).
Proof.
  intros Hn Hc [HW (l & at_ & -> & Hl & Ht)]. destruct (sv_tables _ _ _ _ Hc) as (SH & CK & ND & DK & S1 & S2 & LT).
  destruct (contents_inv _ _ _ _ _ S1 S2 HW) as (l' & at' & fp & E & Hl' & HR). injection E as <-. rewrite Hl in Hl'. injection Hl' as <-.
  split; [|eapply sv_size; eauto; unfold fuel_ok, need, G, Dp in Hn; lia].
  assert (N : exists k, n = S (S (S (S (S (S (S (S k)))))))). { exists (n - 8)%nat. unfold fuel_ok, need, G, Dp in Hn. lia. }
  destruct N as (k & ->). eapply sv_serialize with (v := VInt t); [exact SH|exact Hl| |reflexivity| |].
  - unfold getA. rewrite LT, Ht. reflexivity.
  - intros k' s' Hk Hh. rewrite <- Hh in Hl, HR. eapply sv_size; eauto.
  - intros rho s' Hx Hh. rewrite <- Hh in Hl, HR. destruct (ser_part (S (S (S (S (S (S (S k))))))) c (ser_rest c (if dbl then 3 else 1)%nat) f) with (s := s') (rho := rho) (l := l) (at_ := at_) (W := W) (fp := fp) as (r' & _ & E); auto.
    + unfold fuel_ok, need, G, Dp in *. lia.
    + eapply deps_of_rep; eauto.
    + exists r'. exact E.
Qed.

(** bytes written beyond the announced size *)
Definition sv_excess (c : string) : Z :=
  if String.eqb c "HighFidelityHAVEQUICKRadio" then 2 else if String.eqb c "DirectedEnergyAreaAimpoint" then 12 else 8.

Lemma head_len dbl t m bs : sv_head dbl t m = (bs, None) -> length bs = (if dbl then 14 else 8)%nat.
Proof.
  unfold sv_head. intros H. apply oseq_ok in H as (a & b & E1 & E & ->). apply enc_val_length in E1.
  apply oseq_ok in E as (a2 & b2 & E2 & E & ->). apply enc_val_length in E2. rewrite !app_length, E1, E2. destruct dbl.
  - apply oseq_ok in E as (a3 & b3 & E3 & E4 & ->). apply enc_val_length in E3, E4. rewrite app_length, E3, E4. reflexivity.
  - unfold done in E. injection E as <-. reflexivity.
Qed.

Lemma sum_fixed f k l : fixed f = Some k -> sum (map (fun x => size f (as_obj x)) l) = (k * length l)%nat.
Proof. intros H. induction l as [|x l IH]; [cbn; lia|]. cbn [map length]. unfold sum in *. cbn [fold_right]. rewrite IH, (fixed_size f k _ H). lia. Qed.

Lemma sv_length c t dbl f W b1 b2 : In (c, (t, dbl, f)) sv_classes -> sv_head dbl (WInt t) (sv_announced c W) = (b1, None) -> encode f W = (b2, None) ->
  Z.of_nat (length (b1 ++ b2)) = sv_announced c W + sv_excess c.
Proof.
  intros H E1 E2. rewrite app_length, (head_len _ _ _ _ E1), (encode_size _ _ _ E2). clear E1 E2. unfold sv_classes in H. cbn [In] in H.
  repeat match goal with H : _ \/ _ |- _ => destruct H as [H|H] end; try contradiction; injection H as <- <- <- <-.
  - rewrite (fixed_size _ 34%nat) by reflexivity. reflexivity.
  - rewrite (fixed_size _ 90%nat) by reflexivity. reflexivity.
  - change (sv_announced _ W) with (sizes_area W). unfold sizes_area. unfold tail_DirectedEnergyAreaAimpoint, lay, fold_right.
    cbn [size]. rewrite (sum_fixed w_BeamAntennaPattern 40) by reflexivity. rewrite (sum_fixed w_DirectedEnergyTargetEnergyDeposition 12) by reflexivity.
    change (sv_excess _) with 12. change (width u16) with 2%nat. cbn [Nat.add]. lia.
  - rewrite (fixed_size _ 34%nat) by reflexivity. reflexivity.
Qed.

(** C30 fails for every instance of the four registered standard variable records *)
Theorem C30_standard_variable_refuted n c t dbl f s o W bs : (fuel_ok <= n)%nat -> In (c, (t, dbl, f)) sv_classes -> sv_record (heap s) c f o W ->
  serialize n o s = (Ok VNone, appended s bs) ->
  exists m, marshalledSize n o s = (Ok (VInt m), s) /\ Z.of_nat (length bs) = m + sv_excess c /\ 0 < sv_excess c.
Proof.
  intros Hn Hc HW E. destruct (sv_writes n c t dbl f s o W Hn Hc HW) as [E' Em]. exists (sv_announced c W). split; [exact Em|].
  split; [|unfold sv_excess; destruct (String.eqb _ _); [lia|]; destruct (String.eqb _ _); lia].
  rewrite E' in E. unfold oc in E. destruct (oseq _ _) as [b [e|]] eqn:Eo; cbn [fst snd] in E; [discriminate|]. unfold add_out, appended in E. injection E as E. apply app_inv_head in E. subst b.
  apply oseq_ok in Eo as (b1 & b2 & E1 & E2 & ->). eapply sv_length; eauto.
Qed.

(** *** UnknownStandardVariableRecord *)
Definition unknown_record (h : list hobj) (o : val) (t : Z) (d : list byte) : Prop :=
  exists l at_, o = VRef l /\ nth_error h l = Some (HInst "UnknownStandardVariableRecord" at_) /\ assoc "recordType" at_ = Some (VInt t) /\ assoc "data" at_ = Some (VBytes d).

Theorem unknown_writes n s o t d : (fuel_ok <= n)%nat -> unknown_record (heap s) o t d ->
  serialize n o s = oc (oseq (sv_head true (WInt t) (6 + Z.of_nat (length d))) (d, None)) VNone s /\ marshalledSize n o s = (Ok (VInt (6 + Z.of_nat (length d))), s).
Proof.
  intros Hn (l & at_ & -> & Hl & Ht & Hd). set (c := "UnknownStandardVariableRecord") in *.
  assert (Gd : getA the_prog c at_ "data" = Some (VBytes d)) by (apply getA_plain; [vm_compute; reflexivity|exact Hd]).
  assert (Gt : getA the_prog c at_ "recordType" = Some (VInt t)).
  { assert (L : match lookup the_prog c "recordType" with Some (MMeth _) => false | _ => true end = true) by (vm_compute; reflexivity).
    unfold getA. destruct (lookup the_prog c "recordType") as [[m|]|]; [discriminate| |]; now rewrite Ht. }
  assert (SZ : forall k s', (4 <= k)%nat -> heap s' = heap s -> marshalledSize k (VRef l) s' = (Ok (VInt (6 + Z.of_nat (length d))), s')).
  { intros k s' Hk Hh. destruct k as [|k]; [lia|]. rewrite <- Hh in Hl. erewrite size_run; [| |exact Hl]; [|vm_compute; reflexivity].
    pose proof (ev_attr k [("self", VRef l)] l c at_ _ _ s' eq_refl Hl Gd) as Ea.
    remember (self_ "data") as e. cbn [run_block exec eval eval_list]. unfold bind. unfold ret at 1. rewrite Ea. reflexivity. }
  split; [|apply SZ; [unfold fuel_ok, need, G, Dp in Hn; lia|reflexivity]].
  assert (N : exists k, n = S (S (S (S (S (S (S (S k)))))))). { exists (n - 8)%nat. unfold fuel_ok, need, G, Dp in Hn. lia. }
  destruct N as (k & ->).
  eapply (sv_serialize c true [Expr (Meth (Loc "outputStream") "write_bytes" [self_ "data"] [])]) with (v := VInt t); [vm_compute; reflexivity|exact Hl|exact Gt|reflexivity|exact SZ|].
  intros rho s' Hx Hh. rewrite <- Hh in Hl. exists rho. apply one_block. eapply ex_write_bytes; [lia|exact Hx|]. destruct Hx as [Hs _]. eapply ev_attr; eauto.
Qed.

Theorem C30_unknown_refuted n s o t d bs : (fuel_ok <= n)%nat -> unknown_record (heap s) o t d -> serialize n o s = (Ok VNone, appended s bs) ->
  exists m, marshalledSize n o s = (Ok (VInt m), s) /\ Z.of_nat (length bs) = m + 8.
Proof.
  intros Hn HW E. destruct (unknown_writes n s o t d Hn HW) as [E' Em]. eexists. split; [exact Em|].
  rewrite E' in E. unfold oc in E. destruct (oseq _ _) as [b [e|]] eqn:Eo; cbn [fst snd] in E; [discriminate|]. unfold add_out, appended in E. injection E as E. apply app_inv_head in E. subst b.
  apply oseq_ok in Eo as (b1 & b2 & E1 & E2 & ->). injection E2 as <-. apply head_len in E1. rewrite app_length, E1. lia.
Qed.

(** *** How they parse *)
Definition super_par (X D : string) : option meth :=
  match after X (mro the_prog D) with Some rest => match lookup_in the_prog rest "parse" with Some (MMeth m) => Some m | _ => None end | None => None end.
Definition sup_parse (X : string) : stmt := Expr (Super X "parse" [Loc "inputStream"; Loc "bytelength"] []).
Definition pbody_is (opt : bool) (m : meth) (ss : list stmt) : bool :=
  match is_par m with Some (true, o) => Bool.eqb o opt && is (list_eq_dec stmt_dec) (m_body m) ss | _ => false end.
Definition is_nonneg : list stmt := [Return (AndE (Builtin BIsInt [Loc "value"]) (Cmp CGe (Loc "value") (Lit (LInt 0))))].
Definition svp_shape (c : string) (rest : list stmt) : bool :=
  match lookup the_prog c "parse", super_par c c, super_par "StandardVariableRecord" c, lookup the_prog c "is_positive_int" with
  | Some (MMeth m), Some m1, Some m2, Some (MMeth p) =>
      pbody_is false m (sup_parse c :: rest) &&
      pbody_is false m1 [sup_parse "StandardVariableRecord"; If (NotE (Cmp CEq (Bin OMod (Loc "bytelength") (Lit (LInt 8))) (Lit (LInt 0)))) [Raise ValueError] []] &&
      pbody_is true m2 [If (AndE (Cmp CIsNot (Loc "bytelength") (Lit LNone)) (NotE (Meth (Loc "self") "is_positive_int" [Loc "bytelength"] []))) [Raise ValueError] []] &&
      is mkind_dec (m_kind p) KStatic && is (list_eq_dec (pair_dec string_dec (opt_dec dflt_dec))) (m_params p) [("value", None)] && is (list_eq_dec stmt_dec) (m_body p) is_nonneg
  | _, _, _, _ => false
  end.

Lemma pbody_inv opt m ss : pbody_is opt m ss = true -> is_par m = Some (true, opt) /\ m_body m = ss.
Proof.
  unfold pbody_is. destruct (is_par m) as [[[] o]|]; try discriminate. intros H. apply andb_prop in H as [H1 H2]. apply is_eq in H2. apply Bool.eqb_prop in H1. now subst.
Qed.

Lemma super_par_inv X D m : super_par X D = Some m -> exists rest, after X (mro the_prog D) = Some rest /\ lookup_in the_prog rest "parse" = Some (MMeth m).
Proof. unfold super_par. destruct (after X (mro the_prog D)) as [r|]; [|discriminate]. destruct (lookup_in _ _ _) as [[x|]|] eqn:E; try discriminate. intros [= ->]. eauto. Qed.

Lemma sup_par n X D m l at_ s z opt : nth_error (heap s) l = Some (HInst D at_) -> super_par X D = Some m -> is_par m = Some (true, opt) ->
  exec the_prog (run the_prog (S n)) (sup_parse X) (par_env l (Some (VInt z))) s =
  bind (run_env the_prog n m (par_env l (Some (VInt z)))) (fun _ => ret (par_env l (Some (VInt z)), None)) s.
Proof.
  intros Hl HL HI. destruct (super_par_inv _ _ _ HL) as (rest & A & B). pose proof (proj1 (is_par_inv _ _ _ HI)) as K.
  unfold sup_parse. cbn [exec eval par_env app assoc String.eqb Ascii.eqb Bool.eqb]. unfold bind at 1. unfold bind at 1. unfold resolve_super, bind at 1, hget. rewrite Hl, A, B, K.
  unfold ret at 1. cbn [eval_list eval assoc String.eqb Ascii.eqb Bool.eqb]. unfold bind at 1, ret at 1. unfold bind at 1, bind at 1, ret at 1. unfold bind at 1, ret at 1. unfold bind at 1, ret at 1. unfold ret at 1.
  cbn [apply app]. rewrite (run_par_len the_prog n m opt l (VInt z) s HI). reflexivity.
Qed.

Lemma sup_check c rest n l at_ s z : svp_shape c rest = true -> nth_error (heap s) l = Some (HInst c at_) -> 0 <= z ->
  exec the_prog (run the_prog (S (S (S n)))) (sup_parse c) (par_env l (Some (VInt z))) s =
  if z mod 8 =? 0 then (Ok (par_env l (Some (VInt z)), None), s) else (Exc ValueError, s).
Proof.
  intros SH Hl Hz. unfold svp_shape in SH.
  destruct (lookup the_prog c "parse") as [[m0|]|] eqn:L0; try discriminate. destruct (super_par c c) as [m1|] eqn:L1; try discriminate.
  destruct (super_par "StandardVariableRecord" c) as [m2|] eqn:L2; try discriminate. destruct (lookup the_prog c "is_positive_int") as [[p|]|] eqn:Lp; try discriminate.
  apply andb_prop in SH as [SH P3]. apply andb_prop in SH as [SH P2]. apply andb_prop in SH as [SH P1]. apply andb_prop in SH as [SH B2]. apply andb_prop in SH as [_ B1].
  apply is_eq in P1, P2, P3. apply pbody_inv in B1 as [I1 B1], B2 as [I2 B2].
  rewrite (sup_par _ _ _ _ _ _ _ _ _ Hl L1 I1). unfold run_env at 1. rewrite B1.
  assert (E2 : exec the_prog (run the_prog (S (S n))) (sup_parse "StandardVariableRecord") (par_env l (Some (VInt z))) s = (Ok (par_env l (Some (VInt z)), None), s)).
  { rewrite (sup_par _ _ _ _ _ _ _ _ _ Hl L2 I2). unfold run_env at 1. rewrite B2.
    assert (E3 : eval the_prog (run the_prog (S n)) (Meth (Loc "self") "is_positive_int" [Loc "bytelength"] []) (par_env l (Some (VInt z))) s = (Ok (VBool true), s)).
    { cbn [eval par_env app assoc String.eqb Ascii.eqb Bool.eqb]. unfold bind at 1, ret at 1. unfold bind at 1. unfold resolve, bind at 1, hget. rewrite Hl, Lp, P1. unfold ret at 1.
      cbn [eval_list eval assoc String.eqb Ascii.eqb Bool.eqb]. unfold bind at 1, bind at 1, ret at 1. unfold bind at 1, ret at 1. unfold ret at 1. cbn [apply app run]. rewrite P2, P3.
      unfold is_nonneg. cbn. unfold bind, ret. cbn. rewrite (proj2 (Z.leb_le 0 z) Hz). reflexivity. }
    remember (Meth (Loc "self") "is_positive_int" [Loc "bytelength"] []) as e. unfold bind at 1. unfold bind at 1. cbn [run_block exec eval par_env app assoc String.eqb Ascii.eqb Bool.eqb lit_val cmp_val].
    unfold bind, ret. cbn [cmp_val truth]. unfold par_env in E3. cbn [app] in E3. rewrite E3. reflexivity. }
  unfold bind at 1. unfold bind at 1. cbn [run_block]. unfold bind at 1. rewrite E2. cbn [snd fst exec eval par_env app assoc String.eqb Ascii.eqb Bool.eqb lit_val]. unfold bind, ret.
  cbn [binop_val as_int Z.eqb]. unfold ret. cbn [cmp_val val_eqb as_int]. destruct (z mod 8 =? 0); reflexivity.
Qed.

Definition par_rest (c : string) : list stmt := match lookup the_prog c "parse" with Some (MMeth m) => skipn 1 (m_body m) | _ => [] end.

Lemma svp_tables c t dbl f : In (c, (t, dbl, f)) sv_classes -> svp_shape c (par_rest c) = true /\
  (exists cm, chkP the_prog TR1 X1 NC 4 c true (par_rest c) f [] = Some (Done, cm)) /\
  nodupb (names f) && forallb (fun a => negb (mem a X1) && negb (String.eqb a "_struct")) (names f) = true /\ newb the_prog new_fuel_ c f = true /\ sound f = true.
Proof.
  intros H. unfold sv_classes in H. cbn [In] in H.
  repeat match goal with H : _ \/ _ |- _ => destruct H as [H|H] end; try contradiction; injection H as <- <- <- <-; (split; [vm_compute; reflexivity|]); (split; [eexists; vm_compute; reflexivity|]); repeat split; vm_compute; reflexivity.
Qed.

Lemma sv_new c t dbl f : In (c, (t, dbl, f)) sv_classes -> new_pure the_prog new_fuel_ c.
Proof.
  intros H i fu. unfold sv_classes in H. cbn [In] in H.
  repeat match goal with H : _ \/ _ |- _ => destruct H as [H|H] end; try contradiction; injection H as <- <- <- <-; vm_compute; reflexivity.
Qed.

(** o = c(); o.parse(inputStream, z) *)
Lemma sv_parse n c t dbl f l at_ fp z s : (fuel_ok <= n)%nat -> In (c, (t, dbl, f)) sv_classes -> 0 <= z -> nth_error (heap s) l = Some (HInst c at_) ->
  ready the_prog (heap s) f c at_ [] fp -> NoDup (l :: fp) ->
  if z mod 8 =? 0
  then match decode f [] [] (irest s) with
       | DOk W r => exists s' at' fp', call_method the_prog n (VRef l) "parse" [VIn; VInt z] s = (Ok VNone, s') /\ post the_prog X1 s l c at_ fp f W r s' at' fp'
       | DErr e => exists s', call_method the_prog n (VRef l) "parse" [VIn; VInt z] s = (Exc e, s')
       end
  else call_method the_prog n (VRef l) "parse" [VIn; VInt z] s = (Exc ValueError, s).
Proof.
  intros Hn Hc Hz Hl HR HN. destruct (svp_tables _ _ _ _ Hc) as (SH & (cm & CK) & Gd & _). destruct (sv_tables _ _ _ _ Hc) as (_ & _ & ND & _).
  assert (N : exists k, n = S (S (S (S k)))). { exists (n - 4)%nat. unfold fuel_ok, need, G, Dp in Hn. lia. } destruct N as (k & ->).
  pose proof SH as SH'. unfold svp_shape in SH. destruct (lookup the_prog c "parse") as [[m0|]|] eqn:L0; try discriminate. destruct (super_par c c) as [m1|] eqn:L1; try discriminate.
  destruct (super_par "StandardVariableRecord" c) as [m2|] eqn:L2; try discriminate. destruct (lookup the_prog c "is_positive_int") as [[p|]|] eqn:Lp; try discriminate.
  repeat (apply andb_prop in SH as [SH ?]). apply pbody_inv in SH as [I0 B0].
  pose proof (proj1 (is_par_inv _ _ _ I0)) as K.
  assert (E : call_method the_prog (S (S (S (S k)))) (VRef l) "parse" [VIn; VInt z] s = run_env the_prog (S (S (S k))) m0 (par_env l (Some (VInt z))) s).
  { unfold call_method, bind at 1, resolve, bind at 1, hget. rewrite Hl, L0, K. unfold ret at 1. cbn [apply app]. now rewrite (run_par_len the_prog _ _ _ _ _ _ I0). }
  rewrite E. unfold run_env. rewrite B0. unfold bind. cbn [run_block]. unfold bind. rewrite (sup_check _ _ _ _ _ _ _ SH' Hl Hz).
  destruct (z mod 8 =? 0); [|reflexivity]. cbn [snd fst]. fold (run_block (exec the_prog (run the_prog (S (S (S k)))))).
  assert (PO := par_part (S (S (S k))) c true (par_rest c) f [] cm ltac:(unfold fuel_ok, need, G, Dp in *; lia) CK ND Gd s (par_env l (Some (VInt z))) l at_ [] [] fp).
  specialize (PO ltac:(apply pctx_env; intros _; eexists; split; [reflexivity|right; eauto]) Hl HR HN ltac:(constructor)).
  rewrite dec2_decode. destruct (dec2 f [] [] (irest s)) as [[W C'] r|e]; cbn [dmap fst].
  - destruct PO as (rho' & s' & at' & fp' & PE & _ & _ & PP). exists s', at', fp'. rewrite PE. split; [reflexivity|exact PP].
  - destruct PO as (s' & PE). exists s'. now rewrite PE.
Qed.

(** *** C32: the registry *)
Definition registry : list (Z * string) :=
  [(3000, "HighFidelityHAVEQUICKRadio"); (4000, "DirectedEnergyPrecisionAimpoint"); (4001, "DirectedEnergyAreaAimpoint"); (4500, "DirectedEnergyDamage")].
(** issubclass(c, e) *)
Definition subclass (c e : string) : Prop := In e (mro the_prog c).
(** getStandardVariableClass(recordType, expectedType) *)
Definition lookup_sv (n : nat) (recordType expectedType : val) : M val :=
  bind (glob the_prog "getStandardVariableClass") (fun g => bind (callee_of the_prog g) (fun k => apply the_prog (run the_prog n) k [recordType; expectedType] [])).

Lemma lookup_sv_is n rt e s : lookup_sv n rt e s = (match getStandardVariableClass the_prog rt e with inl v => Ok v | inr x => Exc x end, s).
Proof.
  unfold lookup_sv. assert (E : glob the_prog "getStandardVariableClass" s = (Ok (VFun "getStandardVariableClass"), s)) by (unfold glob; replace (get_cls the_prog "getStandardVariableClass") with (@None cls) by (vm_compute; reflexivity); reflexivity).
  unfold bind. rewrite E. cbn [callee_of String.eqb Ascii.eqb Bool.eqb ret apply]. destruct (getStandardVariableClass the_prog rt e); reflexivity.
Qed.

Lemma subclass_dec c e : existsb (String.eqb e) (mro the_prog c) = true <-> subclass c e.
Proof.
  unfold subclass. rewrite existsb_exists. split; [intros (x & A & B); apply String.eqb_eq in B; now subst|]. intros H. exists e. split; [exact H|apply String.eqb_refl].
Qed.

Lemma zassoc_registry z c : zassoc z variableRecordClasses = Some c <-> In (z, c) registry.
Proof.
  unfold variableRecordClasses, registry. cbn [zassoc In].
  destruct (Z.eqb_spec z 3000) as [->|]; [split; [intros [= <-]; auto|intros [[= <-]|[[= ? ?]|[[= ? ?]|[[= ? ?]|[]]]]]; auto; congruence]|].
  destruct (Z.eqb_spec z 4000) as [->|]; [split; [intros [= <-]; auto|intros [[= ? ?]|[[= <-]|[[= ? ?]|[[= ? ?]|[]]]]]; auto; congruence]|].
  destruct (Z.eqb_spec z 4001) as [->|]; [split; [intros [= <-]; auto|intros [[= ? ?]|[[= ? ?]|[[= <-]|[[= ? ?]|[]]]]]; auto; congruence]|].
  destruct (Z.eqb_spec z 4500) as [->|]; [split; [intros [= <-]; auto|intros [[= ? ?]|[[= ? ?]|[[= ? ?]|[[= <-]|[]]]]]; auto; congruence]|].
  split; [discriminate|]. intros [[= ? ?]|[[= ? ?]|[[= ? ?]|[[= ? ?]|[]]]]]; congruence.
Qed.

(** a registered type gives its class if that is a subclass of the expected class, else TypeError *)
Theorem C32_registered n s z c e : In (z, c) registry ->
  (subclass c e -> lookup_sv n (VInt z) (VClass e) s = (Ok (VClass c), s)) /\ (~ subclass c e -> lookup_sv n (VInt z) (VClass e) s = (Exc TypeError, s)).
Proof.
  intros H. rewrite lookup_sv_is. unfold getStandardVariableClass. cbn [as_int]. rewrite (proj2 (zassoc_registry z c) H).
  assert (Hz : z <? 0 = false) by (unfold registry in H; cbn [In] in H; intuition (congruence || idtac); repeat match goal with H : (_, _) = (_, _) |- _ => injection H as <- <- end; reflexivity).
  rewrite Hz. rewrite <- subclass_dec. destruct (existsb _ _); split; intros; congruence.
Qed.

(** the classes it returns for registered types carry that type, and are standard variable records *)
Theorem C32_registered_types z c : In (z, c) registry -> subclass c "StandardVariableRecord" /\ forall n s, get_attr the_prog (run the_prog n) (VClass c) "recordType" s = (Ok (VInt z), s).
Proof.
  unfold registry. cbn [In]. intros H. repeat match goal with H : _ \/ _ |- _ => destruct H as [H|H] end; try contradiction; injection H as <- <-.
  all: split; [apply subclass_dec; vm_compute; reflexivity|]; intros n s; unfold get_attr.
  all: match goal with |- context [lookup the_prog ?c ?a] => let x := eval vm_compute in (lookup the_prog c a) in replace (lookup the_prog c a) with x by (vm_compute; reflexivity) end; reflexivity.
Qed.

(** any other type that is a non-negative integer gives a class whose instances carry that type *)
Theorem C32_unregistered n s z e : (fuel_ok <= n)%nat -> 0 <= z -> (forall c, ~ In (z, c) registry) ->
  (subclass "UnknownStandardVariableRecord" e ->
   exists k, lookup_sv n (VInt z) (VClass e) s = (Ok k, s) /\
     forall s1 d, exists o s2, bind (callee_of the_prog k) (fun c => apply the_prog (run the_prog n) c [VBytes d] []) s1 = (Ok o, s2) /\
       unknown_record (heap s2) o z d /\ get_attr the_prog (run the_prog n) o "recordType" s2 = (Ok (VInt z), s2)) /\
  (~ subclass "UnknownStandardVariableRecord" e -> lookup_sv n (VInt z) (VClass e) s = (Exc TypeError, s)).
Proof.
  intros Hn Hz Hr. rewrite lookup_sv_is. unfold getStandardVariableClass. cbn [as_int]. rewrite (proj2 (Z.ltb_ge z 0) Hz).
  assert (E : zassoc z variableRecordClasses = None). { destruct (zassoc z variableRecordClasses) as [c|] eqn:E; [|reflexivity]. apply zassoc_registry in E. now destruct (Hr c). }
  rewrite E. split; intros H.
  - apply subclass_dec in H. rewrite H. exists (VUnkSV z). split; [reflexivity|]. intros s1 d.
    set (at_ := [("recordType", VInt z); ("data", VBytes d)]).
    exists (VRef (length (heap s1))), (mkst (heap s1 ++ [HInst "UnknownStandardVariableRecord" at_]) (irest s1) (ifull s1) (out s1)).
    assert (Hg : nth_error (heap s1 ++ [HInst "UnknownStandardVariableRecord" at_]) (length (heap s1)) = Some (HInst "UnknownStandardVariableRecord" at_)) by (rewrite nth_error_app2, Nat.sub_diag by lia; reflexivity).
    assert (Hset : forall (h : list hobj) a b, set_nth (length h) b (h ++ [a]) = h ++ [b]) by (induction h; intros; cbn; congruence).
    split; [|split].
    + destruct n as [|n]; [unfold fuel_ok in Hn; lia|]. cbn [callee_of]. unfold bind at 1, ret at 1. cbn [apply].
      replace (is_abstract the_prog "UnknownStandardVariableRecord") with false by (vm_compute; reflexivity).
      unfold bind at 1, halloc.
      match goal with |- context [lookup the_prog ?c ?a] => let x := eval vm_compute in (lookup the_prog c a) in replace (lookup the_prog c a) with x by (vm_compute; reflexivity) end.
      cbn [run m_params m_body bind_args bind_pos bind_rest length Nat.sub firstn skipn combine app run_block exec eval assoc String.eqb Ascii.eqb Bool.eqb]. unfold bind, ret.
      assert (Hs : set_attr the_prog (VRef (length (heap s1))) "data" (VBytes d) {| heap := heap s1 ++ [HInst "UnknownStandardVariableRecord" [("recordType", VInt z)]]; irest := irest s1; ifull := ifull s1; out := out s1 |}
                  = (Ok tt, {| heap := heap s1 ++ [HInst "UnknownStandardVariableRecord" at_]; irest := irest s1; ifull := ifull s1; out := out s1 |})).
      { rewrite (set_attr_ok the_prog "UnknownStandardVariableRecord" "data" _ [("recordType", VInt z)]); [|vm_compute; reflexivity|cbn [heap]; rewrite nth_error_app2, Nat.sub_diag by lia; reflexivity].
        unfold obj_set. cbn [heap irest ifull out upd String.eqb Ascii.eqb Bool.eqb]. now rewrite Hset. }
      rewrite Hs. reflexivity.
    + exists (length (heap s1)), at_. repeat split; auto.
    + eapply get_attr_ga; [exact Hg|].
      assert (L : match lookup the_prog "UnknownStandardVariableRecord" "recordType" with Some (MMeth _) => false | _ => true end = true) by (vm_compute; reflexivity).
      unfold getA. destruct (lookup the_prog _ "recordType") as [[m|]|]; [discriminate| |]; reflexivity.
  - destruct (existsb _ _) eqn:Q; [|reflexivity]. now apply subclass_dec in Q.
Qed.

(** ValueError exactly for what is not a non-negative integer, whatever is expected *)
Theorem C32_value_error n s rt e : lookup_sv n rt (VClass e) s = (Exc ValueError, s) <-> ~ exists z, as_int rt = Some z /\ 0 <= z.
Proof.
  rewrite lookup_sv_is. unfold getStandardVariableClass. destruct (as_int rt) as [z|].
  - destruct (Z.ltb_spec z 0).
    + split; [|reflexivity]. intros _ (z' & [= <-] & H'). lia.
    + split; [|intros H'; destruct H'; eauto].
      destruct (zassoc z variableRecordClasses); [destruct (existsb _ _)|destruct (existsb _ _)]; discriminate.
  - split; [|reflexivity]. intros _ (z & H & _). discriminate.
Qed.

Example C32_cases : subclass "DirectedEnergyDamage" "DamageDescriptionRecord" /\ ~ subclass "HighFidelityHAVEQUICKRadio" "DamageDescriptionRecord" /\
  subclass "UnknownStandardVariableRecord" "StandardVariableRecord" /\ ~ subclass "UnknownStandardVariableRecord" "DamageDescriptionRecord" /\ (forall c, ~ In (77, c) registry).
Proof.
  repeat split; try (apply subclass_dec; vm_compute; reflexivity); try (rewrite <- subclass_dec; vm_compute; discriminate).
  intros c H. apply zassoc_registry in H. discriminate.
Qed.

(** *** C31: reading a record inside a PDU *)
(** parseStandardVariableRecord(inputStream, e) *)
Definition parse_sv (n : nat) (e : string) : M val := run the_prog n f_parseStandardVariableRecord [VIn; VClass e] [].

Lemma as_read n x r p rho s : (2 <= n)%nat -> rprim r = Some p -> assoc "inputStream" rho = Some VIn ->
  exec the_prog (run the_prog n) (Assign x (Meth (Loc "inputStream") r [] [])) rho s =
  match dec_val p (irest s) with DOk y t => (Ok (upd x (vof y) rho, None), set_in t s) | DErr e => (Exc e, set_in [] s) end.
Proof.
  intros Hn Hr Hi. cbn [exec eval eval_list]. rewrite Hi. unfold bind at 1. unfold bind at 1, ret at 1.
  destruct (read_ok the_prog in_cls r p n s Hr Hn) as (k & R1 & R2). unfold bind at 1. rewrite R1. unfold bind, ret at 1. cbn [apply app]. rewrite R2.
  destruct (dec_val p (irest s)); reflexivity.
Qed.

Lemma dec_be k z r : (0 < k)%nat -> in_range k false z -> dec_val (PInt k false) (be k z ++ r) = DOk (WInt z) r.
Proof. intros Hk H. rewrite dec_val_app by apply be_length. cbn [dec_prim]. now rewrite (be_back k false z Hk H). Qed.

(** what parseStandardVariableRecord does on a record of a registered type: type, 16-bit length, then the fields *)
Lemma parse_sv_holds n e c t dbl f s z r : (S fuel_ok <= n)%nat -> In (c, (t, dbl, f)) sv_classes -> subclass c e -> in_range 2 false z ->
  irest s = be 4 t ++ be 2 z ++ r ->
  if z mod 8 =? 0
  then match decode f [] [] r with
       | DOk W r' => exists o s' l fp, parse_sv n e s = (Ok o, s') /\ holds_at the_prog (heap s') c f o W l fp /\ (forall x, In x (l :: fp) -> (length (heap s) <= x)%nat) /\
           fr (fun _ => False) (heap s) (heap s') /\ irest s' = r' /\ ifull s' = ifull s /\ out s' = out s
       | DErr x => exists s', parse_sv n e s = (Exc x, s')
       end
  else exists s', parse_sv n e s = (Exc ValueError, s').
Proof.
  intros Hn Hc He Hz Hr. destruct n as [|n]; [lia|]. apply le_S_n in Hn.
  assert (Hf : (new_fuel_ <= n)%nat) by (unfold fuel_ok, need, G, Dp, new_fuel_ in *; lia).
  assert (H2 : (2 <= n)%nat) by (unfold fuel_ok, need, G, Dp in *; lia).
  assert (Ht : in_range 4 false t /\ In (t, c) registry).
  { unfold sv_classes in Hc. cbn [In] in Hc. repeat match goal with H : _ \/ _ |- _ => destruct H as [H|H] end; try contradiction; injection Hc as <- <- <- <-; (split; [unfold in_range; lia|]); cbn; tauto. }
  destruct Ht as [Ht Hreg]. destruct (svp_tables _ _ _ _ Hc) as (_ & _ & Gd & NB & SD). destruct (sv_tables _ _ _ _ Hc) as (_ & _ & _ & _ & S1 & S2 & _).
  set (s1 := set_in r s). set (rho1 := [("inputStream", VIn); ("expectedType", VClass e); ("recordType", VInt t); ("recordLength", VInt z); ("svClass", VClass c)]).
  destruct (new_ok_at n c f NB (sv_new _ _ _ _ Hc) Hf s1) as (s2 & l & at_ & fp & E1 & E2 & E3 & E4 & E5 & E6 & E7 & E8 & E9).
  pose proof (sv_parse n c t dbl f l at_ fp z s2 Hn Hc (proj1 Hz) E2 E3 E4) as PZ. rewrite E7 in PZ. change (irest s1) with r in PZ.
  (* the statements up to the call of parse *)
  assert (EX : parse_sv (S n) e s =
    bind (fun _ => match call_method the_prog n (VRef l) "parse" [VIn; VInt z] s2 with (Ok _, s') => (Ok (VRef l), s') | (Exc x, s') => (Exc x, s') end) ret s).
  { unfold parse_sv. cbn [run f_parseStandardVariableRecord m_params m_body bind_args bind_pos bind_rest length Nat.sub firstn skipn combine app].
    unfold bind at 1. cbn [run_block]. unfold bind at 1. rewrite (as_read n "recordType" "read_uint32" u32) by (auto || reflexivity).
    rewrite Hr. unfold u32. rewrite dec_be by (lia || exact Ht). cbn [fst snd vof upd String.eqb Ascii.eqb Bool.eqb].
    unfold bind at 1. rewrite (as_read n "recordLength" "read_uint16" u16) by (auto || reflexivity).
    change (irest (set_in (be 2 z ++ r) s)) with (be 2 z ++ r). unfold u16. rewrite dec_be by (lia || exact Hz). cbn [fst snd vof upd String.eqb Ascii.eqb Bool.eqb].
    change (set_in r (set_in (be 2 z ++ r) s)) with s1.
    (* lookup *)
    assert (EL : eval the_prog (run the_prog n) (CallV (Glob "getStandardVariableClass") [Loc "recordType"; Loc "expectedType"] [])
        [("inputStream", VIn); ("expectedType", VClass e); ("recordType", VInt t); ("recordLength", VInt z)] s1 = (Ok (VClass c), s1)).
    { pose proof (proj1 (C32_registered n s1 t c e Hreg) He) as Q. unfold lookup_sv in Q. cbn [eval eval_list]. unfold bind in *.
      destruct (glob the_prog "getStandardVariableClass" s1) as [[g|x] s']; [|discriminate Q]. destruct (callee_of the_prog g s') as [[k|x] s'']; [|discriminate Q]. exact Q. }
    remember (CallV (Glob "getStandardVariableClass") [Loc "recordType"; Loc "expectedType"] []) as e1.
    unfold bind at 1. cbn [exec]. unfold bind at 1. rewrite EL. unfold ret at 1. cbn [fst snd upd String.eqb Ascii.eqb Bool.eqb]. subst e1. clear EL.
    (* construction *)
    assert (EN : eval the_prog (run the_prog n) (CallV (Loc "svClass") [] [])
        [("inputStream", VIn); ("expectedType", VClass e); ("recordType", VInt t); ("recordLength", VInt z); ("svClass", VClass c)] s1 = (Ok (VRef l), s2)).
    { cbn [eval eval_list assoc String.eqb Ascii.eqb Bool.eqb callee_of]. unfold bind, ret. exact E1. }
    remember (CallV (Loc "svClass") [] []) as e1.
    unfold bind at 1. cbn [exec]. unfold bind at 1. rewrite EN. unfold ret at 1. cbn [fst snd upd String.eqb Ascii.eqb Bool.eqb]. subst e1. clear EN.
    (* parse *)
    unfold bind at 1. cbn [exec eval assoc String.eqb Ascii.eqb Bool.eqb]. unfold bind at 1. unfold bind at 1, ret at 1.
    unfold call_method. unfold bind, ret.
    destruct (resolve the_prog (VRef l) "parse" s2) as [[k|x] s']; [|reflexivity].
    cbn [eval_list eval assoc String.eqb Ascii.eqb Bool.eqb]. unfold bind, ret.
    destruct (apply the_prog (run the_prog n) k [VIn; VInt z] [] s') as [[v|x] s'']; reflexivity. }
  rewrite EX. unfold bind, ret. clear EX. destruct (z mod 8 =? 0).
  - destruct (decode f [] [] r) as [W r'|x] eqn:ED.
    + destruct PZ as (s' & at' & fp' & PE & PP). rewrite PE. exists (VRef l), s', l, fp'. destruct PP as [P1 P2 P3 P4 P5 _ P7 P8 P9]. split; [reflexivity|].
      split; [exists at'; auto|]. split.
      { intros x [<-|Hx]; [apply E5; now left|]. destruct (P4 x Hx) as [Hx'|Hx']; [apply E5; now right|]. destruct E6 as [E6 _]. change (heap s1) with (heap s) in E6. lia. }
      split; [|split; [exact P7|split; [rewrite P8; exact E8|rewrite P9; exact E9]]].
      eapply fr_trans; [exact E6|exact P5|]. intros x Hx [->|Hf']; [specialize (E5 l (or_introl eq_refl))|specialize (E5 x (or_intror Hf'))]; change (heap s1) with (heap s) in *; lia.
    + destruct PZ as (s' & PE). rewrite PE. eauto.
  - rewrite PZ. eauto.
Qed.

Theorem parse_sv_spec n e c t dbl f s z r : (S fuel_ok <= n)%nat -> In (c, (t, dbl, f)) sv_classes -> subclass c e -> in_range 2 false z ->
  irest s = be 4 t ++ be 2 z ++ r ->
  if z mod 8 =? 0
  then match decode f [] [] r with
       | DOk W r' => exists o s', parse_sv n e s = (Ok o, s') /\ contents the_prog (heap s') c f o = Some W /\ irest s' = r' /\ out s' = out s
       | DErr x => exists s', parse_sv n e s = (Exc x, s')
       end
  else exists s', parse_sv n e s = (Exc ValueError, s').
Proof.
  intros Hn Hc He Hz Hr. pose proof (parse_sv_holds n e c t dbl f s z r Hn Hc He Hz Hr) as H. destruct (z mod 8 =? 0); [|exact H].
  destruct (decode f [] [] r) as [W r'|x] eqn:ED; [|exact H]. destruct H as (o & s' & l & fp & A & B & _ & _ & C & _ & D). exists o, s'. split; [exact A|]. split; [|auto].
  destruct (sv_tables _ _ _ _ Hc) as (_ & _ & _ & _ & S1 & S2 & _). apply holds_contents; auto.
  - now exists l, fp.
  - eapply decode_shaped; eauto using oldshaped_nil.
  - eapply decode_names; eauto.
Qed.

(** a record in the standard's layout (one header, 16-bit length counting eight-byte words) is read, for every field value *)
Theorem C31_standard_layout_partial n e c t dbl f s z W bs rest : (S fuel_ok <= n)%nat -> In (c, (t, dbl, f)) sv_classes -> subclass c e -> in_range 2 false z -> z mod 8 = 0 ->
  value_of f W -> encode f W = (bs, None) -> irest s = be 4 t ++ be 2 z ++ bs ++ rest ->
  exists o s', parse_sv n e s = (Ok o, s') /\ contents the_prog (heap s') c f o = Some W /\ irest s' = rest.
Proof.
  intros Hn Hc He Hz H8 HV HE Hr. pose proof (parse_sv_spec n e c t dbl f s z (bs ++ rest) Hn Hc He Hz Hr) as Q. rewrite H8 in Q. cbn [Z.eqb] in Q.
  destruct (svp_tables _ _ _ _ Hc) as (_ & _ & _ & _ & SD). unfold sound in SD. apply andb_prop in SD as [SD _].
  destruct (roundtrip f W rest SD HV) as (b & E & D). rewrite HE in E. injection E as <-. rewrite D in Q. destruct Q as (o & s' & A & B & C & _). eauto.
Qed.

(** decoding a format without counted lists consumes its width *)
Lemma dec_list_len {A} (d : list byte -> dres A) k n : (forall bs x r, d bs = DOk x r -> length bs = (k + length r)%nat) ->
  forall bs l r, dec_list d n bs = DOk l r -> length bs = (k * n + length r)%nat /\ length l = n.
Proof.
  intros H. induction n as [|n IH]; intros bs l r; cbn [dec_list].
  - intros [= <- <-]. rewrite Nat.mul_0_r. auto.
  - unfold dbind, dmap. destruct (d bs) as [x r1|] eqn:E; [|discriminate]. destruct (dec_list d n r1) as [l' r'|] eqn:E2; [|discriminate]. intros [= <- <-].
    apply H in E. apply IH in E2 as [E2 E3]. cbn [length]. nia.
Qed.

Lemma dec_val_len p bs x r : dec_val p bs = DOk x r -> length bs = (width p + length r)%nat.
Proof. intros H. apply dec_val_inv in H as (c & -> & Hc & _). rewrite app_length. lia. Qed.

Ltac dcases := repeat match goal with
  | |- match match ?x with _ => _ end with _ => _ end = _ -> _ => destruct x eqn:?
  | |- match ?x with _ => _ end = _ -> _ => destruct x eqn:?
  | |- (if ?x then _ else _) = _ -> _ => destruct x eqn:?
  | |- DErr _ = _ -> _ => discriminate
  end.
Lemma decode_fixed f : forall k W0 C bs W r, fixed f = Some k -> decode f W0 C bs = DOk W r -> length bs = (k + length r)%nat.
Proof.
  induction f as [|a p f IH|a c sub IHs f IH|a p m f IH|a p f IH|a c sub IHs f IH|a p n f IH|p f IH|a n f IH
                 |a p b dv f IH|b f IH|a b d f IH|bf f IH|a f IH]; intros x W0 C bs W r H; cbn [fixed] in H; cbn [decode]; unfold dbind, dmap; try discriminate.
  1: injection H as <-; intros [= <- <-]; reflexivity.
  2: destruct (fixed sub) as [z|] eqn:Es; [|discriminate].
  all: destruct (fixed f) as [y|] eqn:Ef; cbn [option_map] in H; [injection H as <-|discriminate].
  all: dcases; try discriminate; intros Q; try (injection Q as <- <-);
    repeat match goal with
    | D : dec_val _ _ = DOk _ _ |- _ => apply dec_val_len in D
    | D : dec_list (dec_val ?p) ?n _ = DOk _ _ |- _ => destruct (dec_list_len (dec_val p) (width p) n (dec_val_len p) _ _ _ D); clear D
    | I : forall k W0 C bs W r, Some ?y = Some k -> decode ?g W0 C bs = DOk W r -> _, D : decode ?g _ _ _ = DOk _ _ |- _ => apply (I _ _ _ _ _ _ eq_refl) in D
    end; cbn [width] in *; try nia.
  rewrite skipn_length in *. apply Nat.leb_le in Heqb. lia.
Qed.

Lemma area_consumed bs W r : decode tail_DirectedEnergyAreaAimpoint [] [] bs = DOk W r -> length bs = (size tail_DirectedEnergyAreaAimpoint W + length r)%nat.
Proof.
  unfold tail_DirectedEnergyAreaAimpoint, lay, fold_right. cbn [decode]. unfold dbind, dmap.
  cbn [count cadd key_eqb String.eqb Ascii.eqb Bool.eqb].
  destruct (dec_val u16 bs) as [x0 r0|] eqn:D0; [|discriminate].
  destruct (dec_val u16 r0) as [x1 r1|] eqn:D1; [|discriminate]. destruct (wint x1) as [n1|] eqn:E1; [|discriminate].
  destruct (dec_val u16 r1) as [x2 r2|] eqn:D2; [|discriminate]. destruct (wint x2) as [n2|] eqn:E2; [|discriminate].
  destruct (dec_list (decode w_BeamAntennaPattern [] []) _ r2) as [l1 r3|] eqn:L1; [|discriminate].
  destruct (dec_list (decode w_DirectedEnergyTargetEnergyDeposition [] []) _ r3) as [l2 r4|] eqn:L2; [|discriminate].
  intros [= <- <-]. apply dec_val_len in D0, D1, D2.
  eapply dec_list_len in L1 as [L1 M1]; [|intros *; apply (decode_fixed w_BeamAntennaPattern 40 [] []); reflexivity].
  eapply dec_list_len in L2 as [L2 M2]; [|intros *; apply (decode_fixed w_DirectedEnergyTargetEnergyDeposition 12 [] []); reflexivity].
  cbn [size]. rewrite (sum_fixed w_BeamAntennaPattern 40) by reflexivity. rewrite (sum_fixed w_DirectedEnergyTargetEnergyDeposition 12) by reflexivity.
  rewrite <- M1 in L1. rewrite <- M2 in L2. clear M1 M2. unfold old_list, field. cbn [assoc String.eqb Ascii.eqb Bool.eqb]. rewrite ?app_length, ?map_length. cbn [width u16] in *. unfold old_list. cbn [length app]. cbn [field assoc]. cbn [length]. unfold flds in *. lia.
Qed.

Lemma sv_consumed c t dbl f bs W r : In (c, (t, dbl, f)) sv_classes -> decode f [] [] bs = DOk W r -> length bs = (size f W + length r)%nat.
Proof.
  intros H. unfold sv_classes in H. cbn [In] in H.
  repeat match goal with H : _ \/ _ |- _ => destruct H as [H|H] end; try contradiction; injection H as <- <- <- <-; try apply area_consumed;
    intros D; [rewrite (fixed_size _ 34%nat) by reflexivity|rewrite (fixed_size _ 90%nat) by reflexivity|rewrite (fixed_size _ 34%nat) by reflexivity];
    eapply decode_fixed; eauto; reflexivity.
Qed.

Lemma be_split m : be 4 m = be 2 (m / 65536) ++ be 2 m.
Proof.
  cbn [be app Z.of_nat]. rewrite !Z.div_div by (compute; congruence || reflexivity). reflexivity.
Qed.

Lemma enc_u32_inv z bs : enc_val u32 (WInt z) = (bs, None) -> bs = be 4 z /\ in_range 4 false z.
Proof.
  unfold enc_val, enc_prim, u32. cbn [wint]. destruct (_ && _) eqn:E; [|discriminate]. intros [= <-]. split; [reflexivity|]. now apply in_range_lohi.
Qed.

(** C31 fails for every record of the four classes: whatever was written, parseStandardVariableRecord does not hand it back *)
Theorem C31_record_refuted n e c t dbl f s o W bs s2 rest : (S fuel_ok <= n)%nat -> In (c, (t, dbl, f)) sv_classes -> subclass c e -> sv_record (heap s) c f o W ->
  serialize n o s = (Ok VNone, appended s bs) -> irest s2 = bs ++ rest ->
  ~ exists o' s', parse_sv n e s2 = (Ok o', s') /\ contents the_prog (heap s') c f o' = Some W /\ irest s' = rest.
Proof.
  intros Hn Hc He HW HS HR (o' & s' & E1 & E2 & E3).
  destruct (sv_writes n c t dbl f s o W) as [E' _]; [lia|assumption..|]. rewrite E' in HS. clear E'.
  unfold oc in HS. destruct (oseq _ _) as [b [x|]] eqn:Eo; cbn [fst snd] in HS; [discriminate|]. unfold add_out, appended in HS. injection HS as HS. apply app_inv_head in HS. subst b.
  apply oseq_ok in Eo as (b1 & b2 & H1 & H2 & ->). pose proof (head_len _ _ _ _ H1) as HL.
  unfold sv_head in H1. apply oseq_ok in H1 as (c1 & c2 & K1 & K2 & ->). apply oseq_ok in K2 as (c3 & c4 & K2 & K3 & ->).
  apply enc_u32_inv in K1 as [-> It]. apply enc_u32_inv in K2 as [-> Im]. rewrite (be_split (sv_announced c W)), <- !app_assoc in HR.
  assert (Iz : in_range 2 false (sv_announced c W / 65536)).
  { unfold in_range in *. change (2 ^ (8 * Z.of_nat 4)) with 4294967296 in *. change (2 ^ (8 * Z.of_nat 2)) with 65536 in *. Z.to_euclidean_division_equations; lia. }
  pose proof (parse_sv_spec n e c t dbl f s2 _ _ Hn Hc He Iz HR) as Q. destruct (_ mod 8 =? 0); [|destruct Q as (? & Q); congruence].
  destruct (decode f [] [] _) as [W' r'|x] eqn:ED; [|destruct Q as (? & Q); congruence].
  destruct Q as (o2 & s3 & Q1 & Q2 & Q3 & _). rewrite E1 in Q1. injection Q1 as <- <-. rewrite E2 in Q2. injection Q2 as <-. subst r'.
  apply (sv_consumed c t dbl) in ED; [|assumption]. apply encode_size in H2. rewrite E3 in ED. rewrite !app_length, !be_length in ED. rewrite !app_length, !be_length in HL. destruct dbl; lia.
Qed.

(** a record of an unregistered type: the PDU-specific expected classes make the reader raise TypeError whatever follows *)
Theorem C31_unregistered_refuted n e s t z r : (S fuel_ok <= n)%nat -> in_range 4 false t -> in_range 2 false z -> (forall c, ~ In (t, c) registry) ->
  In e ["DamageDescriptionRecord"; "VariableTransmitterParametersRecord"] -> irest s = be 4 t ++ be 2 z ++ r ->
  exists s', parse_sv n e s = (Exc TypeError, s').
Proof.
  intros Hn Ht Hz Hu He Hr. destruct n as [|n]; [lia|]. apply le_S_n in Hn. assert (H2 : (2 <= n)%nat) by (unfold fuel_ok, need, G, Dp in *; lia).
  set (s1 := set_in r s). exists s1.
  unfold parse_sv. cbn [run f_parseStandardVariableRecord m_params m_body bind_args bind_pos bind_rest length Nat.sub firstn skipn combine app].
  unfold bind at 1. cbn [run_block]. unfold bind at 1. rewrite (as_read n "recordType" "read_uint32" u32) by (auto || reflexivity).
  rewrite Hr. unfold u32. rewrite dec_be by (lia || exact Ht). cbn [fst snd vof upd String.eqb Ascii.eqb Bool.eqb].
  unfold bind at 1. rewrite (as_read n "recordLength" "read_uint16" u16) by (auto || reflexivity).
  change (irest (set_in (be 2 z ++ r) s)) with (be 2 z ++ r). unfold u16. rewrite dec_be by (lia || exact Hz). cbn [fst snd vof upd String.eqb Ascii.eqb Bool.eqb].
  change (set_in r (set_in (be 2 z ++ r) s)) with s1.
  assert (EL : eval the_prog (run the_prog n) (CallV (Glob "getStandardVariableClass") [Loc "recordType"; Loc "expectedType"] [])
        [("inputStream", VIn); ("expectedType", VClass e); ("recordType", VInt t); ("recordLength", VInt z)] s1 = (Exc TypeError, s1)).
  { pose proof (proj2 (C32_unregistered n s1 t e Hn ltac:(destruct Ht; lia) Hu)) as Q. unfold lookup_sv in Q. cbn [eval eval_list]. unfold bind in *.
    assert (N : ~ subclass "UnknownStandardVariableRecord" e). { destruct He as [<-|[<-|[]]]; rewrite <- subclass_dec; vm_compute; discriminate. }
    specialize (Q N). destruct (glob the_prog "getStandardVariableClass" s1) as [[g|x] s']; [|exact Q]. destruct (callee_of the_prog g s') as [[k|x] s'']; exact Q. }
  remember (CallV (Glob "getStandardVariableClass") [Loc "recordType"; Loc "expectedType"] []) as e1.
  unfold bind at 1. cbn [exec]. unfold bind at 1. rewrite EL. reflexivity.
Qed.

(** the list held by attribute a of an object *)
Definition list_attr (h : list hobj) (o : val) (a : string) : option (list val) :=
  match o with
  | VRef l => match nth_error h l with
              | Some (HInst _ at_) => match assoc a at_ with Some (VRef k) => match nth_error h k with Some (HList vs) => Some vs | _ => None end | _ => None end
              | _ => None end
  | _ => None end.

(** an EntityDamageStatusPdu holding one default DirectedEnergyDamage record: serialised and given to the factory it comes back with another record *)
Definition eds_case : res val * st :=
  bind (new the_prog 60 "DirectedEnergyDamage" []) (fun r => bind (halloc (HList [r])) (fun l => bind (new the_prog 60 "EntityDamageStatusPdu" [VNone; l]) (fun o => bind (serialize 60 o) (fun _ => ret o)))) st0.
Theorem C31_pdu_refuted : exists o s r W o' s' r' W', eds_case = (Ok o, s) /\ list_attr (heap s) o "damageDescriptions" = Some [r] /\
  contents the_prog (heap s) "DirectedEnergyDamage" tail_DirectedEnergyDamage r = Some W /\
  factory 60 [] (out s) = (Ok o', s') /\ list_attr (heap s') o' "damageDescriptions" = Some [r'] /\
  contents the_prog (heap s') "DirectedEnergyDamage" tail_DirectedEnergyDamage r' = Some W' /\ W <> W' /\ irest s' <> [].
Proof.
  do 8 eexists. split; [vm_compute; reflexivity|]. split; [vm_compute; reflexivity|]. split; [vm_compute; reflexivity|]. split; [vm_compute; reflexivity|].
  split; [vm_compute; reflexivity|]. split; [vm_compute; reflexivity|]. split; vm_compute; discriminate.
Qed.

(** *** Cases meeting the hypotheses *)
Definition made (c : string) (args : list val) : val * st := match new the_prog 60 c args st0 with (Ok o, s) => (o, s) | (Exc _, s) => (VNone, s) end.
Definition ser_case (x : val * st) : list byte := match serialize 60 (fst x) (snd x) with (Ok _, s) => out s | _ => [] end.

(** every registered record class has an instance to which C30_standard_variable_refuted and C31_record_refuted apply *)
Example sv_cases : Forall (fun x => let '(c, (t, dbl, f)) := x in exists o s W bs, new the_prog 60 c [] st0 = (Ok o, s) /\ sv_record (heap s) c f o W /\ serialize 60 o s = (Ok VNone, appended s bs) /\ bs <> []) sv_classes.
Proof.
  unfold sv_classes.
  repeat (constructor; [match goal with |- exists o s W bs, new _ _ ?c _ _ = _ /\ _ => exists (fst (made c [])), (snd (made c [])); eexists; exists (ser_case (made c [])) end;
    split; [vm_compute; reflexivity|]; split; [split; [vm_compute; reflexivity|]; do 2 eexists; split; [vm_compute; reflexivity|]; split; vm_compute; reflexivity|]; split; [vm_compute; reflexivity|vm_compute; discriminate]|]).
  constructor.
Qed.

Example C31_subclasses : subclass "DirectedEnergyDamage" "DamageDescriptionRecord" /\ subclass "HighFidelityHAVEQUICKRadio" "VariableTransmitterParametersRecord".
Proof. split; apply subclass_dec; vm_compute; reflexivity. Qed.

(** a record of the unregistered type 77, built from the class getStandardVariableClass returns *)
Definition unknown_case : res val * st :=
  bind (lookup_sv 60 (VInt 77) (VClass "StandardVariableRecord")) (fun k => bind (callee_of the_prog k) (fun c => apply the_prog (run the_prog 60) c [VBytes [x01; x02]] [])) st0.
Example C30_unknown_case : exists o s bs, unknown_case = (Ok o, s) /\ unknown_record (heap s) o 77 [x01; x02] /\ serialize 60 o s = (Ok VNone, appended s bs).
Proof.
  exists (match fst unknown_case with Ok o => o | _ => VNone end), (snd unknown_case), (match fst unknown_case with Ok o => out (snd (serialize 60 o (snd unknown_case))) | _ => [] end).
  split; [vm_compute; reflexivity|]. split; [|vm_compute; reflexivity]. do 2 eexists. split; [vm_compute; reflexivity|]. repeat split; vm_compute; reflexivity.
Qed.

(** a HAVE QUICK record in the standard's layout *)
Example C31_layout_case : exists W bs, value_of tail_HighFidelityHAVEQUICKRadio W /\ encode tail_HighFidelityHAVEQUICKRadio W = (bs, None) /\ length bs = 34%nat /\ field "wod6" W = Some (WInt 9).
Proof.
  exists (match decode tail_HighFidelityHAVEQUICKRadio [] [] (repeat x00 33 ++ [x09]) with DOk W _ => W | _ => [] end). eexists. split; [|vm_compute; repeat split].
  apply (decode_value_of _ (repeat x00 33 ++ [x09]) _ []); vm_compute; reflexivity.
Qed.

Definition all_PropSV := (C30_standard_variable_refuted, C30_unknown_refuted, C31_standard_layout_partial, C31_record_refuted, C31_unregistered_refuted, C31_pdu_refuted,
  C32_registered, C32_registered_types, C32_unregistered, C32_value_error).
Print Assumptions all_PropSV.
