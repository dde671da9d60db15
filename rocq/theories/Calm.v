(** * Threads that leave objects alone

    [calm t]: no operation of the thread changes or creates an object (Pure.v, for every intermediate moment instead of for the whole call).
    [keep k t s]: started in state s, the thread never changes the first k objects, at any moment. *)
From Coq Require Import ZArith String List Bool Lia PeanoNat.
From Coq Require Import Strings.Byte.
From Verif Require Import Lang Ind Bytes Interp Pure Threads Shift Ren ThreadRel.
Import ListNotations.
Open Scope string_scope. Open Scope list_scope.

Lemma itp_bind {A B} (t : T A) (k : A -> T B) s : itp (bindY t k) s = match itp t s with (Ok a, s') => itp (k a) s' | (Exc e, s') => (Exc e, s') end.
Proof. revert s. induction t as [a|e|X m k0 IH]; intros s; [reflexivity..|]. change (itp (TOp m (fun x => bindY (k0 x) k)) s = match itp (TOp m k0) s with (Ok a, s') => itp (k a) s' | (Exc e, s') => (Exc e, s') end). cbn [itp]. destruct (m s) as [[x|e] s']; [apply IH|reflexivity]. Qed.
Lemma itp_prim {A : Set} (m : M A) s : itp (prim m) s = m s.
Proof. apply Threads.er_prim. Qed.

Fixpoint still {A} (t : T A) (s : st) : Prop :=
  match t with
  | TOp m k => heap (snd (m s)) = heap s /\ match m s with (Ok x, s') => still (k x) s' | _ => True end
  | _ => True
  end.
Definition calm {A} (t : T A) : Prop := forall s, still t s.

Lemma calm_ret {A} (a : A) : calm (retY a). Proof. now intros s. Qed.
Lemma calm_exc {A} e : calm (@TExc A e). Proof. now intros s. Qed.
Lemma calm_prim {A : Set} (m : M A) : pureM m -> calm (prim m).
Proof. intros H s. split; [apply H|]. now destruct (m s) as [[x|e] s']. Qed.
Lemma calm_bindI {A B} (I : A -> Prop) (t : T A) (k : A -> T B) : calm t -> (forall s a s', itp t s = (Ok a, s') -> I a) -> (forall a, I a -> calm (k a)) -> calm (bindY t k).
Proof.
  intros Ht HI Hk s. specialize (Ht s). specialize (HI s). revert s Ht HI. induction t as [a|e|X m k0 IH]; intros s Ht HI; [apply Hk; eapply HI; reflexivity|exact Ht|].
  change (heap (snd (m s)) = heap s /\ match m s with (Ok x, s') => still (bindY (k0 x) k) s' | _ => True end). destruct Ht as [H1 H2]. split; [exact H1|]. cbn [itp] in HI. destruct (m s) as [[x|e] s']; [|exact Logic.I]. now apply IH.
Qed.
Lemma calm_bind {A B} (t : T A) (k : A -> T B) : calm t -> (forall a, calm (k a)) -> calm (bindY t k).
Proof. intros H K. apply (calm_bindI (fun _ => True)); auto. Qed.
Lemma calm_is v : calm (is_true v).
Proof. apply calm_prim. intros s. apply grows_refl. Qed.

Local Arguments bindY : simpl never.
Local Arguments prim : simpl never.
Ltac cstep := first [ apply calm_ret | apply calm_exc ].
Ltac ccases := repeat first [ cstep
  | match goal with |- calm (match ?x with _ => _ end) => destruct x end
  | match goal with |- calm (if ?x then _ else _) => destruct x end ].

Section Check.
Variable N : list string.
Variable P : prog.
Hypothesis HP : pure_prog N P = true.
Section WithCall.
Variable call : meth -> list val -> list string -> T val.
Hypothesis Hcall : forall m args kws, pure_meth N m = true -> calm (call m args kws).
Let raising : forall (m : meth) (args : list val) (kws : list string), pure_meth N m = true -> pureM (@raise val Unsupported).
Proof. intros. apply pure_raise. Qed.

Lemma calm_get_attr v a : calm (get_attrY P call v a).
Proof.
  destruct v; simpl; ccases. apply calm_bind; [apply calm_prim, pure_hget|]. intros [[c at_|vs]|]; simpl; try cstep.
  destruct (lookup P c a) as [[m|li]|] eqn:E; simpl.
  2,3: ccases.
  - destruct (m_kind m) eqn:K; ccases. apply Hcall. apply (lookup_pure N P HP) in E. unfold pure_member in E. simpl in E. now rewrite K in E.
Qed.
Lemma calm_native v m args : mem m N = true -> match v with VRef _ => m = "append" | VRawIn => m = "read" | _ => True end -> calm (nativeY P call v m args).
Proof.
  destruct (names N P HP) as (N1 & N2 & N3 & N4). intros Hm Hv.
  assert (D : calm (prim (native P (fun _ _ _ => raise Unsupported) v m args))) by (apply calm_prim, (pure_native N P HP _ raising); assumption).
  assert (E : String.eqb m "parse" = false) by (destruct (String.eqb_spec m "parse"); congruence).
  destruct v; try exact D; destruct args as [|x [|y r]]; try exact D; try (destruct x; exact D).
  - destruct x; try exact D. cbn [nativeY]. ccases.
  - cbn [nativeY]. rewrite E. cstep.
  - cbn [nativeY]. destruct (String.eqb m "serialize"); [|cstep]. apply (calm_bindI (Pure.ok_callee N)); [apply calm_prim, pure_resolve| |].
    + intros s c s' H. rewrite itp_prim in H. exact (Pure.resolve_ok N P HP _ _ N4 _ _ _ H).
    + intros c Hc. destruct c; ccases. apply calm_bind; [apply Hcall; exact Hc|intros; cstep].
Qed.
Lemma calm_apply c args kws : Pure.ok_callee N c -> calm (applyY P call c args kws).
Proof.
  intros Hc. destruct c; simpl in *; try contradiction.
  - now apply Hcall.
  - ccases.
  - destruct kws; [|cstep]. now apply calm_native.
Qed.
Lemma calm_eval_list es rho :
  Forall (fun e => pure_expr N e = true -> forall rho, calm (evalY P call e rho)) es -> forallb (pure_expr N) es = true ->
  calm (eval_listY (evalY P call) es rho).
Proof.
  induction 1 as [|e r He Hr IH]; simpl; [intros; cstep|].
  intros H. apply andb_true_iff in H as [H1 H2].
  apply calm_bind; [now apply He|intros v]. apply calm_bind; [now apply IH|intros; cstep].
Qed.
Lemma calm_resolve_super v c m : calm (prim (resolve_super P v c m)).
Proof. apply calm_prim. destruct v; simpl; pcases. apply pure_bind; [pstep|]. intros ?; pcases. Qed.
Lemma calm_eval e : pure_expr N e = true -> forall rho, calm (evalY P call e rho).
Proof.
  induction e using expr_ind'; cbn [evalY]; intros He rho; cbn [pure_expr] in He; rewrite ?andb_true_iff in He.
  - cstep.
  - destruct (assoc x rho); cstep.
  - apply calm_prim. unfold glob. pcases.
  - apply calm_bind; [auto|intros; apply calm_get_attr].
  - apply calm_bind; [apply IHe1; tauto|intros]. apply calm_bind; [apply IHe2; tauto|intros; apply calm_prim, pure_sub].
  - discriminate.
  - destruct He as [[H1 H2] H3]. apply calm_bind; [auto|intros v].
    apply (calm_bindI (Pure.ok_callee N)); [apply calm_prim, pure_resolve|intros s c s' H0; rewrite itp_prim in H0; exact (Pure.resolve_ok N P HP _ _ H2 _ _ _ H0)|]. intros c Hc.
    apply calm_bind; [now apply calm_eval_list|intros; now apply calm_apply].
  - destruct He as [H2 H3]. destruct (assoc "self" rho) as [v|]; [|cstep].
    apply (calm_bindI (fun o => match o with Some c => Pure.ok_callee N c | None => True end)); [apply calm_resolve_super| |].
    + intros s o s'. rewrite itp_prim. destruct v; simpl; try discriminate. unfold bind, hget.
      destruct (nth_error (heap s) l) as [[d at_|vs]|]; simpl; try discriminate.
      destruct (after c (mro P d)) as [rest|]; [|discriminate].
      destruct (lookup_in P rest m) as [[q|li]|] eqn:E; simpl; try discriminate.
      * apply (lookup_in_pure N P HP) in E. unfold pure_member in E. simpl in E. rewrite H2 in E.
        destruct (m_kind q); intros Hq; try discriminate; injection Hq as <- <-; exact E.
      * destruct (String.eqb m "__init__"); [|discriminate]. intros [= <- <-]. exact I.
    + intros o Ho. apply calm_bind; [now apply calm_eval_list|intros vs].
      destruct o; [now apply calm_apply|ccases].
  - destruct He as [H1 H2]. apply calm_bind; [now apply calm_eval_list|intros; apply calm_prim, pure_builtin]. intros ->. discriminate.
  - apply calm_bind; [auto|intros; apply calm_prim, pure_has_attr].
  - discriminate.
  - apply calm_bind; [now apply calm_eval_list|intros; cstep].
  - apply calm_bind; [apply IHe1; tauto|intros a]. apply calm_bind; [apply calm_is|intros [|]]; [cstep|apply IHe2; tauto].
  - apply calm_bind; [apply IHe1; tauto|intros a]. apply calm_bind; [apply calm_is|intros [|]]; [apply IHe2; tauto|cstep].
  - apply calm_bind; [auto|intros a]. apply calm_bind; [apply calm_is|intros; cstep].
  - destruct He as (H0 & H1 & H2). apply (calm_bindI (fun v => o <> OMul \/ as_int v <> None)); [now apply IHe1| |].
    + intros s v s' E. destruct o; try (left; discriminate). right. destruct e1; try discriminate. destruct b; try discriminate.
      cbn [evalY] in E. rewrite itp_bind in E. destruct (itp (eval_listY (evalY P call) args rho) s) as [[vs|] s1]; [|discriminate]. rewrite itp_prim in E. eapply len_int; eauto.
    + intros v Hv. apply calm_bind; [now apply IHe2|intros; now apply calm_prim, pure_binop].
  - apply calm_bind; [apply IHe1; tauto|intros]. apply calm_bind; [apply IHe2; tauto|intros; apply calm_prim, pure_cmp].
  - apply calm_bind; [apply IHe1; tauto|intros a]. apply calm_bind; [apply calm_is|intros [|]]; [apply IHe2; tauto|apply IHe3; tauto].
Qed.
Lemma calm_block b :
  Forall (fun c => pure_stmt N c = true -> forall rho, calm (execY P call c rho)) b -> forallb (pure_stmt N) b = true ->
  forall rho, calm (run_blockY (execY P call) b rho).
Proof.
  induction 1 as [|c r Hc Hr IH]; simpl; intros H rho; [cstep|].
  apply andb_true_iff in H as [H1 H2]. apply calm_bind; [now apply Hc|]. intros [rho' o]. simpl.
  destruct o; [cstep|now apply IH].
Qed.
Lemma calm_for bd x : (forall rho, calm (bd rho)) -> forall vs rho, calm (for_loopY bd x vs rho).
Proof.
  intros H. induction vs as [|v r IH]; intros rho; simpl; [cstep|].
  apply calm_bind; [apply H|]. intros [rho' o]. simpl. destruct o; [cstep|apply IH].
Qed.
Lemma calm_exec c : pure_stmt N c = true -> forall rho, calm (execY P call c rho).
Proof.
  induction c using stmt_ind'; cbn [execY]; intros Hc rho; cbn [pure_stmt] in Hc; rewrite ?andb_true_iff in Hc; try discriminate.
  - apply calm_bind; [now apply calm_eval|intros; cstep].
  - apply calm_bind; [now apply calm_eval|intros; cstep].
  - apply calm_bind; [apply calm_eval; tauto|intros v]. apply calm_bind; [apply calm_is|intros [|]]; apply calm_block; tauto.
  - apply calm_bind; [apply calm_eval; tauto|intros v]. apply calm_bind; [apply calm_prim, pure_iter|intros vs].
    apply calm_for. intros rho'. apply calm_block; tauto.
  - apply calm_bind; [now apply calm_eval|intros; cstep].
  - cstep.
  - apply calm_bind; [now apply calm_eval|intros v]. apply calm_bind; [apply calm_is|intros [|]]; cstep.
  - cstep.
Qed.
End WithCall.
Theorem calm_run fuel : forall m args kws, pure_meth N m = true -> calm (runY P fuel m args kws).
Proof.
  induction fuel as [|n IH]; intros m args kws Hm; cbn [runY]; [cstep|].
  destruct (bind_args (m_params m) args kws) as [rho|]; [|cstep].
  apply calm_bind; [|intros; cstep].
  apply calm_block; [|exact Hm]. apply Forall_forall. intros c _ Hc rho'. now apply calm_exec.
Qed.
End Check.

(** ** Leaving the first objects alone *)
Section Keep.
Variable k : nat.
Definition fixes (h h' : list hobj) : Prop := forall j, (j < k)%nat -> nth_error h' j = nth_error h j.
Fixpoint keep {A} (t : T A) (s : st) : Prop :=
  match t with
  | TOp m f => fixes (heap s) (heap (snd (m s))) /\ match m s with (Ok x, s') => keep (f x) s' | _ => True end
  | _ => True
  end.
Lemma fixes_refl h : fixes h h. Proof. now intros j. Qed.
Lemma fixes_trans h1 h2 h3 : fixes h1 h2 -> fixes h2 h3 -> fixes h1 h3.
Proof. intros A B j Hj. now rewrite B, A. Qed.
Lemma fixes_len h h' : fixes h h' -> (k <= length h)%nat -> (k <= length h')%nat.
Proof.
  intros F L. destruct (Nat.le_gt_cases k (length h')) as [H|H]; [exact H|]. exfalso. specialize (F (length h') H). rewrite (proj2 (nth_error_None h' (length h'))) in F by lia. symmetry in F. apply nth_error_None in F. lia.
Qed.
Lemma keep_itp {A} (t : T A) : forall s, keep t s -> fixes (heap s) (heap (snd (itp t s))).
Proof. induction t as [a|e|X m f IH]; intros s H; [apply fixes_refl..|]. destruct H as [H1 H2]. cbn [itp]. destruct (m s) as [[x|e] s']; cbn [snd] in *; [|exact H1]. eapply fixes_trans; [exact H1|now apply IH]. Qed.
Lemma keep_bind {A B} (t : T A) (f : A -> T B) : forall s, keep t s -> (forall a s', itp t s = (Ok a, s') -> keep (f a) s') -> keep (bindY t f) s.
Proof.
  induction t as [a|e|X m g IH]; intros s H K; [now apply K|exact I|]. change (fixes (heap s) (heap (snd (m s))) /\ match m s with (Ok x, s') => keep (bindY (g x) f) s' | _ => True end).
  destruct H as [H1 H2]. split; [exact H1|]. cbn [itp] in K. destruct (m s) as [[x|e] s']; [|exact I]. now apply IH.
Qed.
Lemma keep_calm {A} (t : T A) : forall s, still t s -> keep t s.
Proof. induction t as [a|e|X m f IH]; intros s H; [exact I..|]. destruct H as [H1 H2]. split; [rewrite H1; apply fixes_refl|]. destruct (m s) as [[x|e] s']; [now apply IH|exact I]. Qed.
(** a thread that can name only other objects *)
Lemma keep_rel {A B} (R : list nat -> A -> B -> Prop) b t t' : trel R b t t' -> forall s s', sim b s s' -> (forall j, In j b -> (k <= j)%nat) -> (k <= length (heap s'))%nat -> keep t' s'.
Proof.
  induction 1 as [b a c H|b e|b X Y m m' Q f f' H _ IH]; intros s s' S D L; [exact I..|]. destruct (H s s' S) as (b' & F & S' & Q1). destruct F as (q & Eb & Lq & F).
  assert (F1 : fixes (heap s') (heap (snd (m' s')))) by (intros j Hj; apply F; [lia|]; intros Hb; apply D in Hb; lia).
  cbn [keep]. split; [exact F1|]. destruct (m s) as [[x|e] s1], (m' s') as [[y|e'] s1']; cbn [fst snd] in *; try contradiction; [|exact I].
  eapply (IH b' x y); [subst b'; eexists; reflexivity|exact Q1|exact S'| |eapply fixes_len; eauto]. subst b'. intros j Hj. apply in_app_or in Hj as [Hj|Hj]; [now apply D|]. apply in_seq in Hj. lia.
Qed.
End Keep.
