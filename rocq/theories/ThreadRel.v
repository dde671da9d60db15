(** * Renaming, for threads

    Ren.v once more for the interpreter of Threads.v: two trees that differ only in where the objects of the thread are do related operations, one by one. *)
From Coq Require Import ZArith String List Bool Lia.
From Coq Require Import Strings.Byte.
From Verif Require Import Lang Ind Bytes Interp Inv Shift Threads Ren.
Import ListNotations.
Open Scope string_scope. Open Scope list_scope. Open Scope nat_scope.

Inductive trel {A B} (R : list nat -> A -> B -> Prop) : list nat -> T A -> T B -> Prop :=
| tr_ret b a c : R b a c -> trel R b (TRet a) (TRet c)
| tr_exc b e : trel R b (TExc e) (TExc e)
| tr_op b (X Y : Set) (m : M X) (m' : M Y) (Q : list nat -> X -> Y -> Prop) k k' :
    sj b Q m m' -> (forall b' x y, ext b b' -> Q b' x y -> trel R b' (k x) (k' y)) -> trel R b (TOp m k) (TOp m' k').

Lemma tj_ret {A B} b (R : list nat -> A -> B -> Prop) a c : R b a c -> trel R b (retY a) (retY c).
Proof. apply tr_ret. Qed.
Lemma tj_raise {A B} b (R : list nat -> A -> B -> Prop) e : trel R b (TExc e) (TExc e).
Proof. apply tr_exc. Qed.
Lemma tj_prim {A B : Set} b (R : list nat -> A -> B -> Prop) m m' : sj b R m m' -> trel R b (prim m) (prim m').
Proof. intros H. eapply tr_op; [exact H|]. intros b' x y _ Hxy. now apply tr_ret. Qed.
Lemma tj_bind {A B C D} b (R : list nat -> A -> B -> Prop) (Q : list nat -> C -> D -> Prop) t t' k k' :
  trel R b t t' -> (forall b' a c, ext b b' -> R b' a c -> trel Q b' (k a) (k' c)) -> trel Q b (bindY t k) (bindY t' k').
Proof.
  intros H. revert k k'. induction H as [b a c H|b e|b X Y m m' Q1 k1 k1' H _ IH]; intros k k' K.
  - apply K; [apply ext_refl|exact H].
  - apply tr_exc.
  - eapply tr_op; [exact H|]. intros b' x y E Hxy. apply (IH b' x y E Hxy). intros b2 a c E2 H2. apply K; [eapply ext_trans; eauto|exact H2].
Qed.
Lemma tj_weak {A B} b (R Q : list nat -> A -> B -> Prop) t t' : trel R b t t' -> (forall b' a c, R b' a c -> Q b' a c) -> trel Q b t t'.
Proof. intros H K. induction H as [b a c H|b e|b X Y m m' Q1 k1 k1' H _ IH]; [apply tr_ret; auto|apply tr_exc|]. eapply tr_op; [exact H|exact IH]. Qed.
Lemma tj_hget_bind {A B} b (Q : list nat -> A -> B -> Prop) i j k k' : nth_error b i = Some j ->
  (forall b' o o', ext b b' -> orel b' o o' -> trel Q b' (k (Some o)) (k' (Some o'))) -> trel Q b (bindY (prim (hget i)) k) (bindY (prim (hget j)) k').
Proof.
  intros E K. eapply (tj_bind b oo); [|intros b1 o q E1 (x & y & -> & -> & H); now apply K]. apply tj_prim. intros s t S. exists b. split; [apply fr_refl|]. split; [exact S|].
  unfold hget. destruct (sim_obj _ _ _ S i j E) as (o & o' & E1 & E2 & H). cbn [fst]. rewrite E1, E2. exists o, o'. auto.
Qed.
Lemma tj_if {A B} b (R : list nat -> A -> B -> Prop) v w (x x' : T A) (y y' : T B) : vr b v w -> trel R b x y -> trel R b x' y' ->
  trel R b (bindY (is_true v) (fun t => if t then x else x')) (bindY (is_true w) (fun t => if t then y else y')).
Proof.
  intros Hv H H'. eapply tr_op with (Q := fun b' t t' => b' = b /\ t = t').
  - intros s t S. exists b. split; [apply fr_refl|]. split; [exact S|]. cbn [fst]. split; [reflexivity|]. exact (vr_truth b s t v w S Hv).
  - intros b' t t' _ [-> ->]. cbn [bindY]. destruct t'; assumption.
Qed.
Lemma tj_truth b v w : vr b v w -> trel (fun _ t t' => t = t') b (is_true v) (is_true w).
Proof. intros Hv. apply tj_prim. intros s t S. exists b. split; [apply fr_refl|]. split; [exact S|]. exact (vr_truth b s t v w S Hv). Qed.

Ltac atY := apply tj_ret, vr_atom; first [reflexivity | apply lit_atom].
Ltac goY := repeat first [ apply tj_raise | atY | match goal with |- trel _ _ (match ?x with _ => _ end) (match ?x with _ => _ end) => destruct x end ].

Section Prog.
Variable P : prog.
Hypothesis HP : no_shared_defaults P = true.

Section Call.
Variable call : meth -> list val -> list string -> T val.
Hypothesis Hcall : forall b m args args' kws, okm m -> vrs b args args' -> trel vr b (call m args kws) (call m args' kws).
Notation lk := (lk P HP).

Lemma tj_get_attr b v w a : vr b v w -> trel vr b (get_attrY P call v a) (get_attrY P call w a).
Proof.
  intros H. unfold get_attrY. destruct H as [i j E|vs ws H|x Hx]; [|goY|destruct x; try discriminate; try (goY; fail)].
  apply (tj_hget_bind b vr i j _ _ E). intros b1 o o' E1 [c a1 a2 Ho|vs ws Ho]; [|goY]. pose proof (er_assoc b1 a1 a2 a Ho) as A. destruct (lookup P c a) as [[m|l]|] eqn:L.
  - destruct (m_kind m); try (destruct (assoc a a1), (assoc a a2); try contradiction; [now apply tj_ret|goY]; fail). apply Hcall; [eapply lk; eauto|]. constructor; [constructor; eapply ext_nth; eauto|constructor].
  - destruct (assoc a a1), (assoc a a2); try contradiction; apply tj_ret; [exact A|apply vr_atom, lit_atom].
  - destruct (assoc a a1), (assoc a a2); try contradiction; [now apply tj_ret|goY].
Qed.
Lemma tj_native b v w m args args' : vr b v w -> vrs b args args' -> trel vr b (nativeY P call v m args) (nativeY P call w m args').
Proof.
  intros H Ha. assert (D : trel vr b (prim (native P (fun _ _ _ => raise Unsupported) v m args)) (prim (native P (fun _ _ _ => raise Unsupported) w m args'))) by (apply tj_prim, (sj_native P HP); [intros; apply sj_raise|exact H|exact Ha]).
  destruct H as [i j E|vs ws H|z Hz]; [exact D|exact D|]. destruct z; try discriminate; try exact D; destruct Ha as [|x y l0 l' Hx Hl]; try exact D; destruct Hl as [|x2 y2 l2 l' Hx2 Hl]; try exact D.
  - destruct Hx as [i j E|vs ws H|z Hz']; [exact D|exact D|]. destruct z; try discriminate; try exact D. cbn [nativeY]. goY.
  - destruct Hx as [i j E|vs ws H|z Hz']; try exact D. destruct z; exact D.
  - clear D. cbn [nativeY]. destruct (String.eqb m "parse"); [|goY]. eapply tj_bind; [apply tj_prim; now apply (sj_resolve P HP)|]. intros b1 c c' E1 Hc. destruct Hc as [k pre pre' Hk Hp|? ? ? ?|?|? ? ? ?|]; try apply tj_raise.
    eapply tj_bind; [apply Hcall; [exact Hk|]; apply Forall2_app; [exact Hp|]; constructor; [now apply vr_atom|constructor]|]. intros b2 r r' E2 Hr. destruct Hr as [i j E|vs ws H|z Hz']; [goY|goY|]. destruct z; try discriminate; goY.
  - clear D. cbn [nativeY]. destruct (String.eqb m "serialize"); [|goY]. eapply tj_bind; [apply tj_prim; now apply (sj_resolve P HP)|]. intros b1 c c' E1 Hc. destruct Hc as [k pre pre' Hk Hp|? ? ? ?|?|? ? ? ?|]; try apply tj_raise.
    eapply tj_bind; [apply Hcall; [exact Hk|]; apply Forall2_app; [exact Hp|]; constructor; [now apply vr_atom|constructor]|]. intros b2 r r' E2 Hr. goY.
Qed.
Lemma tj_apply b c c' args args' kws : cr b c c' -> vrs b args args' -> trel vr b (applyY P call c args kws) (applyY P call c' args' kws).
Proof.
  intros Hc Ha. assert (D : c = KGetSV -> c' = KGetSV -> trel vr b (prim (apply P (fun _ _ _ => raise Unsupported) c args kws)) (prim (apply P (fun _ _ _ => raise Unsupported) c' args' kws))) by (intros _ _; apply tj_prim, (sj_apply P HP); [intros; apply sj_raise|exact Hc|exact Ha]).
  destruct Hc as [m pre pre' Hm Hp|cn a a' He|fs|v w m Hv|]; cbn [applyY].
  - apply Hcall; [exact Hm|]. now apply Forall2_app.
  - destruct (is_abstract P cn); [goY|]. eapply tj_bind; [apply tj_prim, sj_halloc; constructor; exact He|]. intros b1 o o' E Ho. destruct (lookup P cn "__init__") as [[m|l]|] eqn:L; [|goY|].
    + eapply tj_bind; [apply Hcall; [eapply lk; eauto|constructor; [exact Ho|eapply vrs_ext; eauto]]|]. intros b2 r r' E2 _. apply tj_ret. eapply vr_ext; eauto.
    + destruct Ha; [now apply tj_ret|goY].
  - destruct kws; [|goY]. rewrite (vr_as_ints b args args' Ha). goY.
  - destruct kws; [|goY]. now apply tj_native.
  - now apply D.
Qed.
Lemma tj_eval_list es : Forall (fun e => forall b r q, er b r q -> trel vr b (evalY P call e r) (evalY P call e q)) es ->
  forall b r q, er b r q -> trel vrs b (eval_listY (evalY P call) es r) (eval_listY (evalY P call) es q).
Proof.
  induction 1 as [|e l He _ IH]; intros b r q H; cbn [eval_listY]; [apply tj_ret; constructor|]. eapply tj_bind; [apply He, H|]. intros b1 v w E1 Hv. eapply tj_bind; [apply IH; eapply er_ext; eauto|].
  intros b2 vs ws E2 Hvs. apply tj_ret. constructor; [eapply vr_ext; eauto|exact Hvs].
Qed.
Lemma tj_eval e : forall b r q, er b r q -> trel vr b (evalY P call e r) (evalY P call e q).
Proof.
  induction e using expr_ind'; intros bb r q HE; cbn [evalY].
  - apply tj_ret, vr_atom, lit_atom.
  - pose proof (er_assoc bb r q x HE) as A. destruct (assoc x r), (assoc x q); try contradiction; [now apply tj_ret|goY].
  - apply tj_prim, sj_glob.
  - eapply tj_bind; [apply IHe, HE|]. intros b1 v w E1 Hv. now apply tj_get_attr.
  - eapply tj_bind; [apply IHe1, HE|]. intros b1 v w E1 Hv. eapply tj_bind; [apply IHe2; eapply er_ext; eauto|]. intros b2 i j E2 Hi. apply tj_prim, sj_sub; [eapply vr_ext; eauto|exact Hi].
  - eapply tj_bind; [apply IHe, HE|]. intros b1 v w E1 Hv. eapply tj_bind; [apply tj_prim, (sj_callee_of P HP), Hv|]. intros b2 c c' E2 Hc. eapply tj_bind; [apply tj_eval_list; [eassumption|]; eapply er_ext; [|exact HE]; eapply ext_trans; eauto|].
    intros b3 vs ws E3 Hvs. apply tj_apply; [eapply cr_ext; eauto|exact Hvs].
  - eapply tj_bind; [apply IHe, HE|]. intros b1 v w E1 Hv. eapply tj_bind; [apply tj_prim, (sj_resolve P HP), Hv|]. intros b2 c c' E2 Hc. eapply tj_bind; [apply tj_eval_list; [eassumption|]; eapply er_ext; [|exact HE]; eapply ext_trans; eauto|].
    intros b3 vs ws E3 Hvs. apply tj_apply; [eapply cr_ext; eauto|exact Hvs].
  - pose proof (er_assoc bb r q "self" HE) as A. destruct (assoc "self" r) as [v|], (assoc "self" q) as [w|]; try contradiction; [|goY].
    eapply tj_bind; [apply tj_prim, (sj_resolve_super P HP), A|]. intros b1 o o' E1 Ho. eapply tj_bind; [apply tj_eval_list; [eassumption|]; eapply er_ext; eauto|]. intros b2 vs ws E2 Hvs.
    destruct Ho as [|k k' Hk]; [destruct Hvs; goY|]. apply tj_apply; [eapply cr_ext; eauto|exact Hvs].
  - eapply tj_bind; [apply tj_eval_list; eassumption|]. intros b1 vs ws E1 Hvs. now apply tj_prim, sj_builtin.
  - eapply tj_bind; [apply IHe, HE|]. intros b1 v w E1 Hv. now apply tj_prim, (sj_has_attr P).
  - eapply tj_bind; [apply tj_eval_list; eassumption|]. intros b1 vs ws E1 Hvs. apply tj_prim, sj_halloc. now constructor.
  - eapply tj_bind; [apply tj_eval_list; eassumption|]. intros b1 vs ws E1 Hvs. apply tj_ret. now constructor.
  - eapply tj_bind; [apply IHe1, HE|]. intros b1 v w E1 Hv. apply (tj_if b1 vr v w (retY v) _ (retY w)); [exact Hv|now apply tj_ret|]. apply IHe2. eapply er_ext; eauto.
  - eapply tj_bind; [apply IHe1, HE|]. intros b1 v w E1 Hv. apply (tj_if b1 vr v w _ (retY v) _ (retY w)); [exact Hv| |now apply tj_ret]. apply IHe2. eapply er_ext; eauto.
  - eapply tj_bind; [apply IHe, HE|]. intros b1 v w E1 Hv. eapply tj_bind; [apply tj_truth; exact Hv|]. intros b2 t t' _ ->. goY.
  - eapply tj_bind; [apply IHe1, HE|]. intros b1 v w E1 Hv. eapply tj_bind; [apply IHe2; eapply er_ext; eauto|]. intros b2 i j E2 Hi. apply tj_prim, sj_binop; [eapply vr_ext; eauto|exact Hi].
  - eapply tj_bind; [apply IHe1, HE|]. intros b1 v w E1 Hv. eapply tj_bind; [apply IHe2; eapply er_ext; eauto|]. intros b2 i j E2 Hi. apply tj_prim, sj_cmp; [eapply vr_ext; eauto|exact Hi].
  - eapply tj_bind; [apply IHe1, HE|]. intros b1 v w E1 Hv. apply tj_if; [exact Hv|apply IHe2; eapply er_ext; eauto|apply IHe3; eapply er_ext; eauto].
Qed.

Lemma tj_block l : Forall (fun c => forall b r q, er b r q -> trel rr b (execY P call c r) (execY P call c q)) l ->
  forall b r q, er b r q -> trel rr b (run_blockY (execY P call) l r) (run_blockY (execY P call) l q).
Proof.
  induction 1 as [|c l Hc _ IH]; intros b r q H; cbn [run_blockY]; [apply tj_ret; now split|]. eapply tj_bind; [apply Hc, H|]. intros b1 p p' E1 [A B]. 
  destruct (snd p) as [v|] eqn:Ep, (snd p') as [w|] eqn:Ep'; try contradiction; [|now apply IH]. apply tj_ret. split; [exact A|]. now rewrite Ep, Ep'.
Qed.
Lemma tj_for bd x : (forall b r q, er b r q -> trel rr b (bd r) (bd q)) -> forall b vs ws r q, vrs b vs ws -> er b r q -> trel rr b (for_loopY bd x vs r) (for_loopY bd x ws q).
Proof.
  intros Hb. assert (G : forall vs b ws r q, vrs b vs ws -> er b r q -> trel rr b (for_loopY bd x vs r) (for_loopY bd x ws q)); [|intros; eapply G; eauto].
  induction vs as [|v vs IH]; intros b ws r q H HE; inversion H as [|? w ? ws' Hv Hvs]; subst; cbn [for_loopY]; [apply tj_ret; now split|]. eapply tj_bind; [apply Hb, er_upd; eauto|]. intros b1 p p' E1 [A B].
  destruct (snd p) as [u|] eqn:Ep, (snd p') as [u'|] eqn:Ep'; try contradiction; [|apply IH; [eapply vrs_ext; eauto|exact A]]. apply tj_ret. split; [exact A|]. now rewrite Ep, Ep'.
Qed.
Lemma tj_exec c : forall b r q, er b r q -> trel rr b (execY P call c r) (execY P call c q).
Proof.
  induction c using stmt_ind'; intros bb r q HE; cbn [execY].
  - eapply tj_bind; [apply tj_eval, HE|]. intros b1 v w E1 Hv. apply tj_ret. split; [eapply er_ext; eauto|exact I].
  - eapply tj_bind; [apply tj_eval, HE|]. intros b1 v w E1 Hv. apply tj_ret. split; [apply er_upd; [eapply er_ext; eauto|exact Hv]|exact I].
  - eapply tj_bind; [apply tj_eval, HE|]. intros b1 v w E1 Hv. eapply tj_bind; [apply tj_eval; eapply er_ext; eauto|]. intros b2 ov ov' E2 Ho.
    eapply tj_bind; [apply tj_prim, (sj_set_attr P); [exact Ho|eapply vr_ext; eauto]|]. intros b3 ? ? E3 _. apply tj_ret. split; [|exact I]. eapply er_ext; [|exact HE]. eauto using ext_trans.
  - eapply tj_bind; [apply tj_eval, HE|]. intros b1 v w E1 Hv. eapply tj_bind; [apply tj_eval; eapply er_ext; eauto|]. intros b2 ov ov' E2 Ho.
    eapply tj_bind; [apply tj_eval; eapply er_ext; [|exact HE]; eauto using ext_trans|]. intros b3 iv iv' E3 Hi.
    eapply tj_bind; [apply tj_prim, sj_set_sub; [eapply vr_ext; eauto|exact Hi|eapply vr_ext; [|exact Hv]; eauto using ext_trans]|]. intros b4 ? ? E4 _. apply tj_ret. split; [|exact I]. eapply er_ext; [|exact HE]. eauto using ext_trans.
  - eapply tj_bind; [apply tj_eval, HE|]. intros b1 v w E1 Hv. apply tj_if; [exact Hv|..]; (apply tj_block; [assumption|eapply er_ext; eauto]).
  - eapply tj_bind; [apply tj_eval, HE|]. intros b1 v w E1 Hv. eapply tj_bind; [apply tj_prim, sj_iter, Hv|]. intros b2 vs ws E2 Hvs. apply tj_for; [|exact Hvs|eapply er_ext; [|exact HE]; eauto using ext_trans].
    intros b3 r3 q3 H3. apply tj_block; assumption.
  - eapply tj_bind; [apply tj_eval, HE|]. intros b1 v w E1 Hv. apply tj_ret. split; [eapply er_ext; eauto|exact Hv].
  - apply tj_raise.
  - eapply tj_bind; [apply tj_eval, HE|]. intros b1 v w E1 Hv. apply (tj_if b1 rr v w (retY (r, None)) (TExc AssertionError) (retY (q, None)) (TExc AssertionError)); [exact Hv|apply tj_ret; split; [eapply er_ext; eauto|exact I]|apply tj_raise].
  - apply tj_ret. now split.
Qed.
End Call.

Theorem tj_run n : forall b m args args' kws, okm m -> vrs b args args' -> trel vr b (runY P n m args kws) (runY P n m args' kws).
Proof.
  induction n as [|n IH]; intros b m args args' kws Hm Ha; cbn [runY]; [apply tj_raise|]. pose proof (er_bind b (m_params m) args args' kws Hm Ha) as B.
  destruct (bind_args (m_params m) args kws) as [r|], (bind_args (m_params m) args' kws) as [q|]; try contradiction; [|goY].
  eapply tj_bind; [apply tj_block; [|exact B]; apply Forall_forall; intros c _ b1 r1 q1 H1; apply tj_exec; [exact IH|exact H1]|]. intros b1 p p' E1 [_ H]. apply tj_ret. destruct (snd p), (snd p'); try contradiction; [exact H|now apply vr_atom].
Qed.
Theorem tj_call_method n b v w m args args' : vr b v w -> vrs b args args' -> trel vr b (call_methodY P n v m args) (call_methodY P n w m args').
Proof. intros H Ha. eapply tj_bind; [apply tj_prim, (sj_resolve P HP), H|]. intros b1 c c' E1 Hc. apply tj_apply; [apply tj_run|exact Hc|eapply vrs_ext; eauto]. Qed.
Theorem tj_new n b c args args' : vrs b args args' -> trel vr b (newY P n c args) (newY P n c args').
Proof. intros Ha. apply tj_apply; [apply tj_run|constructor; constructor|exact Ha]. Qed.
Theorem tj_getPdu table n b : trel vr b (getPduY P table n) (getPduY P table n).
Proof.
  eapply tj_bind; [apply tj_prim, sj_raw_seek|]. intros b1 ? ? E1 _. eapply tj_bind; [apply tj_call_method; [now apply vr_atom|constructor]|]. intros b2 t t' E2 Ht. eapply tj_bind; [apply tj_prim, sj_raw_seek|]. intros b3 ? ? E3 _.
  destruct Ht as [i j E|vs ws H|x Hx]; [goY|goY|]. destruct x; try discriminate; try apply tj_raise. destruct (zassoc z table) as [cn|]; [|goY].
  eapply tj_bind; [apply tj_new; constructor|]. intros b4 p p' E4 Hp. eapply tj_bind; [apply tj_call_method; [exact Hp|constructor; [now apply vr_atom|constructor]]|]. intros b5 ? ? E5 _. apply tj_ret. eapply vr_ext; eauto.
Qed.
End Prog.
