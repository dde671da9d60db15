(** * Effects: methods that only write to the output stream

    A syntactic check on method bodies, closed under the calls they make, that guarantees that
    no object is modified or created, nothing is read from the input and output is only appended to. *)
From Coq Require Import ZArith String List Bool Lia.
From Coq Require Import Strings.Byte.
From Verif Require Import Lang Ind Bytes Interp.
Import ListNotations.
Open Scope string_scope. Open Scope list_scope.

Definition mem (x : string) (l : list string) : bool := existsb (String.eqb x) l.

(** the only thing that may happen to the state *)
Definition grows (s s' : st) : Prop :=
  irest s' = irest s /\ ifull s' = ifull s /\
  heap s' = heap s /\ (exists bs, out s' = out s ++ bs).

Definition pureM {A} (m : M A) : Prop := forall s, grows s (snd (m s)).

Lemma grows_refl s : grows s s.
Proof. repeat split; auto; exists []; now rewrite app_nil_r. Qed.

Lemma grows_trans a b c : grows a b -> grows b c -> grows a c.
Proof.
  intros (A1 & A2 & A3 & (o1 & A4)) (B1 & B2 & B3 & (o2 & B4)).
  repeat split; try congruence. exists (o1 ++ o2). now rewrite B4, A4, app_assoc.
Qed.

Lemma pure_ret {A} (a : A) : pureM (ret a).
Proof. intros s. apply grows_refl. Qed.
Lemma pure_raise {A} e : pureM (@raise A e).
Proof. intros s. apply grows_refl. Qed.
Lemma pure_bind {A B} (m : M A) (k : A -> M B) : pureM m -> (forall a, pureM (k a)) -> pureM (bind m k).
Proof.
  intros Hm Hk s. unfold bind. specialize (Hm s). destruct (m s) as [[a|e] s']; simpl in *; [|exact Hm].
  eapply grows_trans; [exact Hm|apply Hk].
Qed.
(** like [pure_bind], knowing something about the intermediate result *)
Lemma pure_bindI {A B} (I : A -> Prop) (m : M A) (k : A -> M B) :
  pureM m -> (forall s a s', m s = (Ok a, s') -> I a) -> (forall a, I a -> pureM (k a)) -> pureM (bind m k).
Proof.
  intros Hm HI Hk s. unfold bind. specialize (Hm s). specialize (HI s).
  destruct (m s) as [[a|e] s']; simpl in *; [|exact Hm].
  eapply grows_trans; [exact Hm|apply Hk; eapply HI; reflexivity].
Qed.
Lemma pure_hget l : pureM (hget l).
Proof. intros s. apply grows_refl. Qed.
Lemma pure_raw_write b : pureM (raw_write b).
Proof. intros s. repeat split; auto; simpl. now exists b. Qed.
Lemma pure_if {A} (c : st -> bool) (a b : M A) : pureM a -> pureM b -> pureM (fun s => if c s then a s else b s).
Proof. intros Ha Hb s. destruct (c s); auto. Qed.

Ltac pstep := first [ apply pure_ret | apply pure_raise | apply pure_raw_write | apply pure_hget ].

Lemma pure_binop o a b : o <> OMul \/ as_int a <> None -> pureM (binop_val o a b).
Proof.
  intros H. assert (L : forall l, a = VRef l -> o <> OMul) by (intros l ->; destruct H as [H|H]; [exact H|now contradict H]). clear H.
  unfold binop_val. destruct (as_int a), (as_int b), o;
  repeat first [ pstep | apply pure_bind; [apply pure_hget|intros ?] | 
    match goal with |- pureM (match ?x with _ => _ end) => destruct x end
  | match goal with |- pureM (if ?x then _ else _) => destruct x end ].
  all: exfalso; eapply L; reflexivity.
Qed.

Ltac pcases := repeat first [ pstep
  | match goal with |- pureM (match ?x with _ => _ end) => destruct x end
  | match goal with |- pureM (if ?x then _ else _) => destruct x end ].

Lemma pure_cmp o a b : pureM (cmp_val o a b).
Proof. unfold cmp_val. pcases. Qed.

Lemma pure_iter v : pureM (iter_vals v).
Proof. unfold iter_vals. destruct v; try pstep. apply pure_bind; [pstep|intros ?; pcases]. Qed.

Lemma pure_sub v i : pureM (sub_val v i).
Proof. unfold sub_val, nth_val. destruct v; pcases. apply pure_bind; [pstep|intros ?; pcases]. Qed.

Local Opaque find_fcode fcodes.
Lemma pure_builtin b args : b <> BList -> pureM (builtin_val b args).
Proof.
  intros Hb. destruct b; try congruence; unfold builtin_val; pcases;
  try (apply pure_bind; [first [apply pure_hget | apply pure_iter]|intros ?; pcases]).
  all: intros s; simpl; try match goal with |- context [pack ?h ?c ?v] => destruct (pack h c v) end; apply grows_refl.
Qed.

Lemma len_int args s v s' : builtin_val BLen args s = (Ok v, s') -> as_int v <> None.
Proof.
  destruct args as [|x [|y r]]; simpl; try discriminate; destruct x; simpl; try discriminate; try (intros [= <- _]; discriminate).
  unfold bind, hget. destruct (nth_error (heap s) l) as [[|vs]|]; try discriminate. intros [= <- _]. discriminate.
Qed.

(** ** the syntactic check *)
Section Check.
Variable N : list string.       (* names of methods that may be called *)

Fixpoint pure_expr (e : expr) : bool :=
  match e with
  | Lit _ | Loc _ | Glob _ => true
  | Attr e _ => pure_expr e
  | Sub e i => pure_expr e && pure_expr i
  | CallV _ _ _ => false
  | Meth e m args _ => pure_expr e && mem m N && forallb pure_expr args
  | Super _ m args _ => mem m N && forallb pure_expr args
  | Builtin b args => match b with BList => false | _ => true end && forallb pure_expr args
  | HasAttr e _ => pure_expr e
  | ListE es => false
  | TupleE es => forallb pure_expr es
  | Bin o a b => match o, a with OMul, Builtin BLen _ => true | OMul, _ => false | _, _ => true end && (pure_expr a && pure_expr b)
  | OrE a b | AndE a b | Cmp _ a b => pure_expr a && pure_expr b
  | NotE a => pure_expr a
  | IfE c a b => pure_expr c && pure_expr a && pure_expr b
  end.

Fixpoint pure_stmt (c : stmt) : bool :=
  match c with
  | Expr e | Assign _ e | Return e | Assert e => pure_expr e
  | SetAttr _ _ _ | SetSub _ _ _ => false
  | If c a b => pure_expr c && forallb pure_stmt a && forallb pure_stmt b
  | For _ e b => pure_expr e && forallb pure_stmt b
  | Raise _ | Pass => true
  end.

Definition pure_meth (m : meth) : bool := forallb pure_stmt (m_body m).

(** methods with a name in N, and all properties, are pure *)
Definition pure_member (nm : string * member) : bool :=
  match snd nm with
  | MMeth m =>
      match m_kind m with
      | KProperty => pure_meth m
      | _ => if mem (fst nm) N then pure_meth m else true
      end
  | MAttr _ => true
  end.

Definition pure_prog (P : prog) : bool :=
  negb (mem "append" N) && negb (mem "read" N) && negb (mem "parse" N) && mem "write_bytes" N &&
  forallb (fun c => forallb pure_member (c_members (snd c))) (p_classes P).

Variable P : prog.
Hypothesis HP : pure_prog P = true.

Lemma assoc_in {A} x (l : list (string * A)) v : assoc x l = Some v -> In (x, v) l.
Proof.
  induction l as [|[y w] r IH]; simpl; [discriminate|].
  destruct (String.eqb_spec x y); [intros [= ->]; subst; auto|auto].
Qed.

Lemma lookup_in_pure cs m x : lookup_in P cs m = Some x -> pure_member (m, x) = true.
Proof.
  unfold pure_prog in HP. apply andb_true_iff in HP as [_ H]. rewrite forallb_forall in H.
  induction cs as [|c r IH]; simpl; [discriminate|].
  destruct (get_cls P c) as [k|] eqn:E; [|auto].
  destruct (assoc m (c_members k)) eqn:E2; [|auto].
  intros [= <-]. apply assoc_in in E, E2. specialize (H _ E). rewrite forallb_forall in H. exact (H _ E2).
Qed.

Lemma lookup_pure c m x : lookup P c m = Some x -> pure_member (m, x) = true.
Proof. apply lookup_in_pure. Qed.

Lemma names : mem "append" N = false /\ mem "read" N = false /\ mem "parse" N = false /\ mem "write_bytes" N = true.
Proof.
  unfold pure_prog in HP. rewrite !andb_true_iff, !negb_true_iff in HP. tauto.
Qed.

Section WithCall.
Variable call : meth -> list val -> list string -> M val.
Hypothesis Hcall : forall m args kws, pure_meth m = true -> pureM (call m args kws).

Lemma pure_get_attr v a : pureM (get_attr P call v a).
Proof.
  destruct v; simpl; pcases. apply pure_bind; [pstep|]. intros [[c at_|vs]|]; simpl; try pstep.
  destruct (lookup P c a) as [[m|li]|] eqn:E; simpl.
  2,3: pcases.
  - destruct (m_kind m) eqn:K; pcases. apply Hcall.
    apply lookup_pure in E. unfold pure_member in E. simpl in E. now rewrite K in E.
Qed.

Lemma pure_has_attr v a : pureM (has_attr P v a).
Proof. destruct v; simpl; pcases. apply pure_bind; [pstep|]. intros [[c at_|vs]|]; simpl; pcases. Qed.

Definition ok_callee (c : callee) : Prop :=
  match c with
  | KMeth m _ => pure_meth m = true
  | KNewBits _ => True
  | KNative v m => mem m N = true /\ match v with VRef _ => m = "append" | VRawIn => m = "read" | _ => True end
  | _ => False
  end.

Lemma meth_pure c m q : mem m N = true -> lookup P c m = Some (MMeth q) -> m_kind q <> KProperty -> pure_meth q = true.
Proof.
  intros Hm H K. apply lookup_pure in H. unfold pure_member in H. simpl in H. rewrite Hm in H.
  destruct (m_kind q); congruence.
Qed.

Lemma meth_pure' c m q : mem m N = true -> lookup P c m = Some (MMeth q) -> pure_meth q = true.
Proof.
  intros Hm H. apply lookup_pure in H. unfold pure_member in H. simpl in H. rewrite Hm in H.
  destruct (m_kind q); congruence.
Qed.

Lemma pure_resolve v m : pureM (resolve P v m).
Proof. destruct v; simpl; pcases. apply pure_bind; [pstep|]. intros ?; pcases. Qed.

Ltac okstep := intros s a s' H;
  repeat match type of H with
  | (match ?x with _ => _ end) _ = _ => destruct x eqn:?
  | (if ?x then _ else _) _ = _ => destruct x eqn:?
  end; try discriminate; try (injection H as <- <-); simpl; auto.

Lemma resolve_ok v m : mem m N = true -> forall s c s', resolve P v m s = (Ok c, s') -> ok_callee c.
Proof.
  intros Hm s c s'.
  assert (L : forall d q, lookup P d m = Some (MMeth q) -> pure_meth q = true) by (intros; eapply meth_pure'; eauto).
  destruct v; simpl.
  all: try (repeat match goal with |- (match ?x with _ => _ end) _ = _ -> _ => destruct x eqn:? end;
            repeat match goal with |- (if ?x then _ else _) _ = _ -> _ => destruct x eqn:? end;
            intros H; try discriminate; injection H as <- <-; simpl; eauto; fail).
  - (* VRef *)
    unfold bind, hget. destruct (nth_error (heap s) l) as [[d at_|vs]|]; simpl; try discriminate.
    + destruct (lookup P d m) as [[q|li]|] eqn:E; simpl.
      * destruct (m_kind q); intros H; try discriminate; injection H as <- <-; simpl; eauto.
      * destruct li; intros H; try discriminate; injection H as <- <-; exact I.
      * destruct (assoc m at_); discriminate.
    + destruct (String.eqb_spec m "append"); [|discriminate]. intros [= <- <-]. simpl. auto.
  - destruct (String.eqb_spec m "read"); [|discriminate]. intros [= <- <-]. simpl. auto.
Qed.

Lemma pure_native v m args : mem m N = true -> match v with VRef _ => m = "append" | VRawIn => m = "read" | _ => True end ->
  pureM (native P call v m args).
Proof.
  destruct names as (N1 & N2 & N3 & N4). intros Hm Hv.
  assert (E : String.eqb m "parse" = false) by (destruct (String.eqb_spec m "parse"); congruence).
  destruct v; try congruence; simpl; rewrite ?E; destruct args as [|x [|y r]]; simpl; try pstep; pcases.
  - eapply pure_bindI; [apply pure_resolve|apply (resolve_ok _ _ N4)|].
    intros c Hc. destruct c; pcases. apply pure_bind; [apply Hcall; exact Hc|intros; pstep].
Qed.

Lemma pure_apply c args kws : ok_callee c -> pureM (apply P call c args kws).
Proof.
  intros Hc. destruct c; simpl in *; try contradiction.
  - now apply Hcall.
  - pcases.
  - destruct kws; [|pstep]. now apply pure_native.
Qed.

Lemma pure_eval_list es rho :
  Forall (fun e => pure_expr e = true -> forall rho, pureM (eval P call e rho)) es -> forallb pure_expr es = true ->
  pureM (eval_list (eval P call) es rho).
Proof.
  induction 1 as [|e r He Hr IH]; simpl; [intros; pstep|].
  intros H. apply andb_true_iff in H as [H1 H2].
  apply pure_bind; [now apply He|intros v]. apply pure_bind; [now apply IH|intros; pstep].
Qed.

Lemma pure_eval e : pure_expr e = true -> forall rho, pureM (eval P call e rho).
Proof.
  induction e using expr_ind'; simpl; intros He rho; rewrite ?andb_true_iff in He.
  - pstep.
  - destruct (assoc x rho); pstep.
  - unfold glob. pcases.
  - apply pure_bind; [auto|intros; apply pure_get_attr].
  - apply pure_bind; [apply IHe1; tauto|intros]. apply pure_bind; [apply IHe2; tauto|intros; apply pure_sub].
  - discriminate.
  - destruct He as [[H1 H2] H3]. apply pure_bind; [auto|intros v].
    eapply pure_bindI; [apply pure_resolve|apply (resolve_ok _ _ H2)|]. intros c Hc.
    apply pure_bind; [now apply pure_eval_list|intros; now apply pure_apply].
  - destruct He as [H2 H3]. destruct (assoc "self" rho) as [v|]; [|pstep].
    apply (pure_bindI (fun o => match o with Some c => ok_callee c | None => True end)).
    + destruct v; simpl; pcases. apply pure_bind; [pstep|]. intros ?; pcases.
    + intros s o s'. destruct v; simpl; try discriminate. unfold bind, hget.
      destruct (nth_error (heap s) l) as [[d at_|vs]|]; simpl; try discriminate.
      destruct (after c (mro P d)) as [rest|]; [|discriminate].
      destruct (lookup_in P rest m) as [[q|li]|] eqn:E; simpl; try discriminate.
      * apply lookup_in_pure in E. unfold pure_member in E. simpl in E. rewrite H2 in E.
        destruct (m_kind q); intros Hq; try discriminate; injection Hq as <- <-; exact E.
      * destruct (String.eqb m "__init__"); [|discriminate]. intros [= <- <-]. exact I.
    + intros o Ho. apply pure_bind; [now apply pure_eval_list|intros vs].
      destruct o; [now apply pure_apply|pcases].
  - destruct He as [H1 H2]. apply pure_bind; [now apply pure_eval_list|intros; apply pure_builtin]. intros ->. discriminate.
  - apply pure_bind; [auto|intros; apply pure_has_attr].
  - discriminate.
  - apply pure_bind; [now apply pure_eval_list|intros; pstep].
  - apply pure_bind; [apply IHe1; tauto|intros]. apply (pure_if (fun s => truth (heap s) a) (ret a)); [pstep|apply IHe2; tauto].
  - apply pure_bind; [apply IHe1; tauto|intros]. apply (pure_if (fun s => truth (heap s) a) _ (ret a)); [apply IHe2; tauto|pstep].
  - apply pure_bind; [auto|intros a s]. apply grows_refl.
  - destruct He as (H0 & H1 & H2). apply (pure_bindI (fun v => o <> OMul \/ as_int v <> None)); [now apply IHe1| |].
    + intros s v s' E. destruct o; try (left; discriminate). right. destruct e1; try discriminate. destruct b; try discriminate.
      simpl in E. unfold bind in E. destruct (eval_list (eval P call) args rho s) as [[vs|] s1]; [|discriminate]. eapply len_int; eauto.
    + intros v Hv. apply pure_bind; [now apply IHe2|intros; now apply pure_binop].
  - apply pure_bind; [apply IHe1; tauto|intros]. apply pure_bind; [apply IHe2; tauto|intros; apply pure_cmp].
  - apply pure_bind; [apply IHe1; tauto|intros]. apply pure_if; [apply IHe2; tauto|apply IHe3; tauto].
Qed.

Lemma pure_block b :
  Forall (fun c => pure_stmt c = true -> forall rho, pureM (exec P call c rho)) b -> forallb pure_stmt b = true ->
  forall rho, pureM (run_block (exec P call) b rho).
Proof.
  induction 1 as [|c r Hc Hr IH]; simpl; intros H rho; [pstep|].
  apply andb_true_iff in H as [H1 H2]. apply pure_bind; [now apply Hc|]. intros [rho' o]. simpl.
  destruct o; [pstep|now apply IH].
Qed.

Lemma pure_for bd x : (forall rho, pureM (bd rho)) -> forall vs rho, pureM (for_loop bd x vs rho).
Proof.
  intros H. induction vs as [|v r IH]; intros rho; simpl; [pstep|].
  apply pure_bind; [apply H|]. intros [rho' o]. simpl. destruct o; [pstep|apply IH].
Qed.

Lemma pure_exec c : pure_stmt c = true -> forall rho, pureM (exec P call c rho).
Proof.
  induction c using stmt_ind'; simpl; intros Hc rho; rewrite ?andb_true_iff in Hc; try discriminate.
  - apply pure_bind; [now apply pure_eval|intros; pstep].
  - apply pure_bind; [now apply pure_eval|intros; pstep].
  - apply pure_bind; [apply pure_eval; tauto|intros v]. apply pure_if; apply pure_block; tauto.
  - apply pure_bind; [apply pure_eval; tauto|intros v]. apply pure_bind; [apply pure_iter|intros vs].
    apply pure_for. intros rho'. apply pure_block; tauto.
  - apply pure_bind; [now apply pure_eval|intros; pstep].
  - pstep.
  - apply pure_bind; [now apply pure_eval|intros v s]. destruct (truth (heap s) v); apply grows_refl.
  - pstep.
Qed.

End WithCall.

Theorem pure_run fuel : forall m args kws, pure_meth m = true -> pureM (run P fuel m args kws).
Proof.
  induction fuel as [|n IH]; intros m args kws Hm; simpl; [pstep|].
  destruct (bind_args (m_params m) args kws) as [rho|]; [|pstep].
  apply pure_bind; [|intros; pstep].
  apply pure_block; [|exact Hm]. apply Forall_forall. intros c _ Hc rho'. now apply pure_exec.
Qed.

Theorem pure_call_method fuel v m args : mem m N = true -> pureM (call_method P fuel v m args).
Proof.
  intros Hm. unfold call_method.
  eapply pure_bindI; [apply pure_resolve|apply (resolve_ok _ _ Hm)|]. intros c Hc.
  apply pure_apply; [|exact Hc]. intros. now apply pure_run.
Qed.

End Check.
