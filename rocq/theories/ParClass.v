(** * Whole parse methods

    From the soundness of one step of the checker to parse methods, through super calls and
    embedded records. *)
From Coq Require Import ZArith String List Bool Lia.
From Coq Require Import Strings.Byte.
From Verif Require Import Lang Bytes Interp ProgBase Spec Codec Codec2 Rep Dec StreamLem SerSound ParSound ParStep.
Import ListNotations.
Open Scope string_scope. Open Scope Z_scope. Open Scope list_scope.

Section Par.
Variable P : prog.
Hypothesis HO : get_cls P "DataOutputStream" = Some c_DataOutputStream.
Hypothesis HI : get_cls P "DataInputStream" = Some c_DataInputStream.
Variable T : list (string * fmt).
Variables X NC : list string.
Hypothesis HX : ~ In "_struct" X.
Notation istream := (Loc "inputStream").
Notation par_ok := (par_ok P X).
Notation callp_ok := (callp_ok P X).
Notation new_ok := (new_ok P).
Notation good := (good X).
Notation stepP := (stepP P T X NC).
Notation chkP := (chkP P T X NC).
Notation chk_classP := (chk_classP P T X NC).

Lemma par_ok_fapp_good g1 g2 r f : f = fapp g1 (fapp g2 r) -> good f -> good (fapp g1 g2).
Proof. intros -> H. rewrite fapp_assoc in H. now apply good_app in H. Qed.

Lemma blockP_sound n d D bl sup : (2 <= n)%nat ->
  (forall Y given f cm r cm', (nest f <= d)%nat -> good f -> sup Y given f cm = Some (r, cm') -> (given = true -> bl = true) ->
     exists g, f = fapp g r /\ par_ok n D bl [Expr (Super Y "parse" (istream :: if given then [Loc "bytelength"] else []) [])] cm g cm') ->
  (forall c sub, assoc c T = Some sub -> (S (nest sub) <= d)%nat -> callp_ok n c sub) ->
  (forall c sub, assoc c T = Some sub -> mem c NC = true -> (S (nest sub) <= d)%nat -> new_ok n c sub) ->
  forall fu ss f cm r cm', (nest f <= d)%nat -> good f -> blockP fu (stepP sup D bl) ss f cm = Some (r, cm') ->
  exists g, f = fapp g r /\ par_ok n D bl ss cm g cm'.
Proof.
  intros Hn Hsup Hobj Hnew. induction fu as [|fu IH]; intros ss f cm r cm' Hd Hg H; destruct ss as [|c ss]; cbn [blockP] in H; try discriminate.
  - injection H as <- <-. exists Done. split; [reflexivity|apply par_ok_nil].
  - injection H as <- <-. exists Done. split; [reflexivity|apply par_ok_nil].
  - destruct (stepP sup D bl cm (firstn (take c f) (c :: ss)) f) as [[f' cm1]|] eqn:E; [|discriminate].
    eapply stepP_sound in E as (g1 & -> & O1); eauto.
    assert (Hd' := Hd). rewrite nest_fapp in Hd'. assert (Hg' := Hg). apply good_app in Hg' as (Hg1 & Hg2 & _).
    destruct (IH _ f' cm1 r cm' ltac:(lia) Hg2 H) as (g2 & -> & O2). exists (fapp g1 g2). split; [apply fapp_assoc|].
    rewrite <- (firstn_skipn (take c (fapp g1 (fapp g2 r))) (c :: ss)). eapply par_ok_app; eauto. eapply par_ok_fapp_good; eauto.
Qed.

Lemma is_par_inv m bl opt : is_par m = Some (bl, opt) -> m_kind m = KNormal /\
  ((bl = false /\ opt = true /\ m_params m = par_params) \/ (bl = true /\ opt = false /\ m_params m = par_params ++ [("bytelength", None)]) \/
   (bl = true /\ opt = true /\ exists l, m_params m = par_params ++ [("bytelength", Some (DLit l))] /\ len_ok l = true)).
Proof.
  unfold is_par. intros H. destruct (m_kind m); try discriminate. split; [reflexivity|].
  remember (m_params m) as ps eqn:Ep. clear Ep. destruct ps as [|p1 [|p2 [|[x [[l|k]|]] [|? ?]]]]; try discriminate.
  - destruct (is _ _ _) eqn:E in H; [|discriminate]. apply is_eq in E. injection H as <- <-. left. auto.
  - destruct (is _ _ _ && _) eqn:E in H; [|discriminate]. apply andb_prop in E as [E E2]. apply is_eq in E. injection H as <- <-. right. right. eauto.
  - destruct (is _ _ _) eqn:E in H; [|discriminate]. apply is_eq in E. injection H as <- <-. right. left. auto.
Qed.

Definition par_env (l : nat) (bv : option val) : env :=
  [("self", VRef l); ("inputStream", VIn)] ++ match bv with Some v => [("bytelength", v)] | None => [] end.

Definition len_val (v : val) : Prop := v = VNone \/ exists z, v = VInt z /\ 0 <= z.

Lemma pctx_env l bl bv : (bl = true -> exists v, bv = Some v /\ len_val v) -> pctx (par_env l bv) l bl.
Proof.
  intros H. unfold par_env. split; [reflexivity|]. split; [reflexivity|]. intros Hb. destruct (H Hb) as (v & -> & V). exists v. split; [reflexivity|exact V].
Qed.

Definition run_env n m rho s := bind (run_block (exec P (run P n)) (m_body m) rho) (fun p => ret match snd p with Some v => v | None => VNone end) s.

(** calling a parse method without bytelength, and with it *)
Lemma run_par n m bl l s : is_par m = Some (bl, true) ->
  exists bv, (bl = true -> exists v, bv = Some v /\ len_val v) /\ run P (S n) m [VRef l; VIn] [] s = run_env n m (par_env l bv) s.
Proof.
  intros H. apply is_par_inv in H as (K & [(-> & _ & Q)|[(_ & H & _)|(-> & _ & l0 & Q & L)]]); [|discriminate|].
  - exists None. split; [discriminate|]. cbn [run]. rewrite Q. reflexivity.
  - exists (Some (lit_val l0)). split.
    + intros _. exists (lit_val l0). split; [reflexivity|]. destruct l0; try discriminate; [left; reflexivity|]. cbn [len_ok] in L. apply Z.leb_le in L. right. exists z. auto.
    + cbn [run]. rewrite Q. reflexivity.
Qed.

Lemma run_par_len n m opt l v s : is_par m = Some (true, opt) -> run P (S n) m [VRef l; VIn; v] [] s = run_env n m (par_env l (Some v)) s.
Proof.
  intros H. apply is_par_inv in H as (K & [(H & _)|[(_ & -> & Q)|(_ & -> & l0 & Q & L)]]); [discriminate| |]; cbn [run]; rewrite Q; reflexivity.
Qed.

Lemma drop_local_env cm rho rho' ga C : inv (drop no_local cm) rho ga C -> inv (drop no_local cm) rho' ga C.
Proof.
  unfold inv. rewrite !Forall_forall. intros H e He. specialize (H e He). apply filter_In in He as [_ He]. destruct e; [discriminate|exact H|exact H].
Qed.

Lemma chkP_sound d : (forall c sub, assoc c T = Some sub -> (S (nest sub) <= d)%nat -> forall n, (need 0 d <= n)%nat -> callp_ok n c sub) ->
  (forall c sub, assoc c T = Some sub -> mem c NC = true -> (S (nest sub) <= d)%nat -> forall n, (need 0 d <= n)%nat -> new_ok n c sub) ->
  forall gas n D bl ss f cm r cm', (need gas d <= n)%nat -> (nest f <= d)%nat -> good f -> chkP gas D bl ss f cm = Some (r, cm') ->
  exists g, f = fapp g r /\ par_ok n D bl ss cm g cm'.
Proof.
  intros Hobj Hnew. induction gas as [|gas IH]; intros n D bl ss f cm r cm' Hn Hd Hg H; [discriminate|]. cbn [ParSound.chkP] in H.
  eapply blockP_sound in H; [exact H| | | | |exact Hd|exact Hg].
  - unfold need in Hn. lia.
  - clear f r cm cm' ss Hd Hg H. intros Y given f cm r cm' Hd Hg H Hgv. cbv beta in H. chk.
    match goal with H : locals_gone _ = _ |- _ => unfold locals_gone in H end. chk. subst.
    destruct n as [|n]; [unfold need in Hn; lia|].
    match goal with H : ParSound.chkP _ _ _ _ _ _ _ _ _ _ = _ |- _ => destruct (IH n D _ _ _ _ _ _ ltac:(unfold need in *; lia) Hd Hg H) as (g & -> & O) end.
    exists g. split; [reflexivity|].
    intros s rho lo at_ W0 C fp Hc Hl HR HN HI1.
    assert (K : m_kind m0 = KNormal) by (match goal with H : is_par m0 = _ |- _ => apply is_par_inv in H; apply H end).
    assert (RE : exists bv, (b = true -> exists v, bv = Some v /\ len_val v) /\
      eval P (run P (S n)) (Super Y "parse" (istream :: (if given then [Loc "bytelength"] else [])) []) rho s = run_env n m0 (par_env lo bv) s).
    { destruct Hc as (A & B & E). destruct given.
      - destruct (E (Hgv eq_refl)) as (v & V1 & V2). exists (Some v). split; [eauto|]. subst b.
        cbn [eval eval_list]. rewrite A, B, V1. unfold bind at 1, resolve_super. unfold bind at 1, hget. rewrite Hl.
        match goal with H : after _ _ = _ |- _ => rewrite H end. match goal with H : lookup_in _ _ _ = _ |- _ => rewrite H end. rewrite K.
        unfold bind, ret. cbn [apply app]. eapply run_par_len; eauto.
      - subst b0. edestruct (run_par n m0 b lo s) as (bv & B1 & B2); [eassumption|]. exists bv. split; [exact B1|].
        cbn [eval eval_list]. rewrite A, B. unfold bind at 1, resolve_super. unfold bind at 1, hget. rewrite Hl.
        match goal with H : after _ _ = _ |- _ => rewrite H end. match goal with H : lookup_in _ _ _ = _ |- _ => rewrite H end. rewrite K.
        unfold bind, ret. cbn [apply app]. exact B2. }
    destruct RE as (bv & Hbv & RE). specialize (O s (par_env lo bv) lo at_ W0 C fp (pctx_env _ _ _ Hbv) Hl HR HN).
    assert (HI2 : inv (drop no_local cm) (par_env lo bv) (getA P D at_) C) by (eapply drop_local_env, drop_ok; eauto).
    specialize (O HI2). unfold run_env, bind in RE.
    destruct (dec2 g W0 C (irest s)) as [[W C'] t|e].
    + destruct O as (rho' & s' & at' & fp' & O1 & O2 & O3 & O4). rewrite O1 in RE. exists rho, s', at', fp'.
      split; [eapply exec_expr; exact RE|]. split; [exact Hc|]. split; [|exact O4]. eapply drop_local_env, drop_ok; eauto.
    + destruct O as (s' & O1). rewrite O1 in RE. exists s'. eapply exec_expr_exc. exact RE.
  - intros c sub Hc Hs. eapply Hobj; eauto. unfold need in *. lia.
  - intros c sub Hc Hm Hs. eapply Hnew; eauto. unfold need in *. lia.
Qed.

(** ** Classes *)
Definition tab_okP : bool := forallb (fun p => chk_classP (fst p) (snd p) && nodupb (names (snd p)) &&
  forallb (fun a => negb (mem a X) && negb (String.eqb a "_struct")) (names (snd p))) T.
Hypothesis HT : tab_okP = true.
Hypothesis Hnew : forall c sub, assoc c T = Some sub -> mem c NC = true -> forall n, (need 0 (S (nest sub)) <= n)%nat -> new_ok n c sub.

Lemma tab_chkP c f : assoc c T = Some f -> chk_classP c f = true /\ good f.
Proof.
  intros H. apply assoc_In in H. unfold tab_okP in HT. rewrite forallb_forall in HT. specialize (HT _ H). cbn [fst snd] in HT.
  apply andb_prop in HT as [A B]. apply andb_prop in A as [A A']. split; [exact A|]. rewrite forallb_forall in B. split; [now apply nodupb_NoDup|]. split.
  - intros a Ha Hx. specialize (B a Ha). apply andb_prop in B as [B _]. apply mem_In in Hx. rewrite Hx in B. discriminate.
  - intros Ha. specialize (B _ Ha). rewrite String.eqb_refl, andb_false_r in B. discriminate.
Qed.

Lemma class_soundP d : forall c f, assoc c T = Some f -> (nest f <= d)%nat -> forall n, (S (need G d) <= n)%nat -> callp_ok n c f.
Proof.
  induction d as [|d IH]; intros c f Hc Hd n Hn.
  all: destruct (tab_chkP c f Hc) as [CK GK]; unfold ParSound.chk_classP in CK; destruct (lookup P c "parse") as [[m|]|] eqn:L; try discriminate.
  all: destruct (is_par m) as [[bl [|]]|] eqn:Q; try discriminate; destruct (chkP G c bl (m_body m) f []) as [[r cm']|] eqn:CK2; try discriminate; destruct r; try discriminate.
  all: destruct n as [|n]; [lia|].
  all: assert (K : m_kind m = KNormal) by (apply is_par_inv in Q; apply Q).
  1: destruct (chkP_sound 0 ltac:(intros; lia) ltac:(intros; lia) G n c bl (m_body m) f [] Done cm' ltac:(unfold need in *; lia) Hd GK CK2) as (g & E & O).
  2: assert (Ho : forall c sub, assoc c T = Some sub -> (S (nest sub) <= S d)%nat -> forall n, (need 0 (S d) <= n)%nat -> callp_ok n c sub)
       by (intros c' sub' Hc' Hd' n' Hn'; eapply IH; eauto; [lia|]; unfold need, G in *; lia).
  2: assert (Hw : forall c sub, assoc c T = Some sub -> mem c NC = true -> (S (nest sub) <= S d)%nat -> forall n, (need 0 (S d) <= n)%nat -> new_ok n c sub)
       by (intros c' sub' Hc' Hm' Hd' n' Hn'; eapply Hnew; eauto; unfold need, G in *; nia).
  2: destruct (chkP_sound (S d) Ho Hw G n c bl (m_body m) f [] Done cm' ltac:(unfold need in *; lia) Hd GK CK2) as (g & E & O).
  all: assert (E' : g = f) by (rewrite E; clear; induction g; cbn [fapp]; congruence); rewrite E' in O; clear E E' g.
  all: intros s l at_ W0 fp Hl HR HN; exists m; split; [exact L|]; split; [exact K|].
  all: destruct (run_par n m bl l s Q) as (bv & B1 & B2); rewrite B2; unfold run_env, bind.
  all: specialize (O s (par_env l bv) l at_ W0 [] fp (pctx_env _ _ _ B1) Hl HR HN ltac:(constructor)); rewrite dec2_decode.
  all: destruct (dec2 f W0 [] (irest s)) as [[W C'] t|e]; cbn [dmap fst].
  all: try (destruct O as (rho' & s' & at' & fp' & O1 & O2 & O3 & O4); rewrite O1; exists s', at', fp'; auto; fail).
  all: destruct O as (s' & O1); rewrite O1; exists s'; reflexivity.
Qed.

Theorem par_sound n c f o s W0 fp : nest_ok T = true -> (fuel_ok <= n)%nat -> assoc c T = Some f ->
  forall l at_, o = VRef l -> nth_error (heap s) l = Some (HInst c at_) -> ready P (heap s) f c at_ W0 fp -> NoDup (l :: fp) ->
  match decode f W0 [] (irest s) with
  | DOk W r => exists s' at' fp', call_method P n o "parse" [VIn] s = (Ok VNone, s') /\ post P X s l c at_ fp f W r s' at' fp'
  | DErr e => exists s', call_method P n o "parse" [VIn] s = (Exc e, s')
  end.
Proof.
  intros HN Hn Hc l at_ -> Hl HR HD. unfold nest_ok in HN. rewrite forallb_forall in HN.
  pose proof (HN _ (assoc_In _ _ _ Hc)) as Hd. apply Nat.leb_le in Hd. cbn [snd] in Hd.
  destruct (class_soundP Dp c f Hc Hd n Hn s l at_ W0 fp Hl HR HD) as (m & L & K & R).
  unfold call_method, bind, resolve. unfold bind, hget. rewrite Hl, L, K. unfold ret. cbn [apply app]. exact R.
Qed.

End Par.
