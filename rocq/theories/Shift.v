(** * Relocation: running code in a bigger heap

    If the objects a computation can name are moved to the end of a larger heap
    [h0 ++ _], the computation does the same thing there and leaves [h0] alone; what it
    writes is appended to whatever output [o0] there was, and does not depend on it.
    This is the basis of the isolation theorem (C24) and of "C() works in any heap" (C28). *)
From Coq Require Import ZArith String List Bool Lia.
From Coq Require Import Strings.Byte.
From Verif Require Import Lang Ind Bytes Interp.
Import ListNotations.
Open Scope string_scope. Open Scope list_scope.

Fixpoint shift (k : nat) (v : val) : val :=
  match v with
  | VRef l => VRef (k + l)
  | VTuple vs => VTuple (map (shift k) vs)
  | _ => v
  end.

Definition shift_env (k : nat) (e : env) : env := map (fun p => (fst p, shift k (snd p))) e.

Definition shift_obj (k : nat) (o : hobj) : hobj :=
  match o with
  | HInst c attrs => HInst c (shift_env k attrs)
  | HList vs => HList (map (shift k) vs)
  end.

(** put [h0] in front of the heap of [s] and [o0] in front of its output *)
Definition lift (h0 : list hobj) (o0 : list byte) (s : st) : st :=
  mkst (h0 ++ map (shift_obj (length h0)) (heap s)) (irest s) (ifull s) (o0 ++ out s).

Definition map_res {A B} (f : A -> B) (r : res A) : res B :=
  match r with Ok a => Ok (f a) | Exc e => Exc e end.

(** no parameter default is a shared mutable object *)
Definition nocell (m : meth) : bool :=
  forallb (fun p => match snd p with Some (DCell _) => false | _ => true end) (m_params m).
Definition nocell_member (x : member) : bool := match x with MMeth m => nocell m | _ => true end.
Definition no_shared_defaults (P : prog) : bool :=
  forallb (fun c => forallb (fun x => nocell_member (snd x)) (c_members (snd c))) (p_classes P)
  && forallb (fun f => nocell (snd f)) (p_funs P).

Section Shift.
Variable h0 : list hobj.
Variable o0 : list byte.
Notation k := (length h0).
Notation sh := (shift k).

Definition sim {A} (f : A -> A) (m m' : M A) : Prop :=
  forall s, m' (lift h0 o0 s) = (map_res f (fst (m s)), lift h0 o0 (snd (m s))).

Lemma sim_ret {A} (f : A -> A) a b : b = f a -> sim f (ret a) (ret b).
Proof. intros ->. intros s. reflexivity. Qed.

Lemma sim_raise {A} (f : A -> A) e : sim f (raise e) (raise e).
Proof. intros s. reflexivity. Qed.

Lemma sim_bind {A B} (f : A -> A) (g : B -> B) m m' kk kk' :
  sim f m m' -> (forall a, sim g (kk a) (kk' (f a))) -> sim g (bind m kk) (bind m' kk').
Proof.
  intros Hm Hk s. unfold bind. rewrite Hm.
  destruct (m s) as [[a|e] s']; simpl; [apply Hk|reflexivity].
Qed.

Lemma sim_ext {A} (f : A -> A) (m m' : M A) : (forall s, m' (lift h0 o0 s) = (map_res f (fst (m s)), lift h0 o0 (snd (m s)))) -> sim f m m'.
Proof. intros H. exact H. Qed.

(** ** data *)
Lemma assoc_map {A} (f : A -> A) x (l : list (string * A)) :
  assoc x (map (fun p => (fst p, f (snd p))) l) = option_map f (assoc x l).
Proof. induction l as [|[y v] r IH]; simpl; [reflexivity|]. destruct (String.eqb x y); simpl; auto. Qed.

Lemma assoc_shift x rho : assoc x (shift_env k rho) = option_map sh (assoc x rho).
Proof. apply (assoc_map sh). Qed.

Lemma upd_shift x v rho : upd x (sh v) (shift_env k rho) = shift_env k (upd x v rho).
Proof.
  induction rho as [|[y w] r IH]; simpl; [reflexivity|].
  destruct (String.eqb x y); simpl; [reflexivity|]. f_equal. exact IH.
Qed.

Lemma nth_lift s l :
  nth_error (heap (lift h0 o0 s)) (k + l) = option_map (shift_obj k) (nth_error (heap s) l).
Proof.
  unfold lift; simpl. rewrite nth_error_app2 by lia.
  replace (k + l - length h0)%nat with l by lia.
  apply nth_error_map.
Qed.

Lemma set_nth_map {A B} (f : A -> B) n x l : set_nth n (f x) (map f l) = map f (set_nth n x l).
Proof. revert n. induction l; destruct n; simpl; auto. f_equal. auto. Qed.

Lemma set_nth_app {A} n (x : A) l r : set_nth (length l + n) x (l ++ r) = l ++ set_nth n x r.
Proof. induction l; simpl; auto. f_equal. auto. Qed.

(** ** heap primitives *)
Lemma sim_hget l : forall s, hget (k + l) (lift h0 o0 s) = (Ok (option_map (shift_obj k) (nth_error (heap s) l)), lift h0 o0 s).
Proof. intros s. unfold hget. now rewrite nth_lift. Qed.

Lemma sim_hget_bind {B} (g : B -> B) l kk kk' :
  (forall o, sim g (kk o) (kk' (option_map (shift_obj k) o))) ->
  sim g (bind (hget l) kk) (bind (hget (k + l)) kk').
Proof. intros H s. unfold bind. rewrite sim_hget. simpl. apply H. Qed.

Lemma sim_hset l o : sim (fun x => x) (hset l o) (hset (k + l) (shift_obj k o)).
Proof.
  intros s. unfold hset, lift; simpl. do 3 f_equal.
  rewrite set_nth_app. f_equal. apply set_nth_map.
Qed.

Lemma sim_halloc o : sim sh (halloc o) (halloc (shift_obj k o)).
Proof.
  intros s. unfold halloc, lift; simpl. rewrite app_length, !map_length.
  f_equal. f_equal. now rewrite map_app, app_assoc.
Qed.

Lemma sim_raw_read n : sim sh (raw_read n) (raw_read n).
Proof. intros s. reflexivity. Qed.
Lemma sim_raw_write b : sim sh (raw_write b) (raw_write b).
Proof. intros s. unfold raw_write, lift; simpl. now rewrite app_assoc. Qed.
Lemma sim_raw_seek n : sim (fun x => x) (raw_seek n) (raw_seek n).
Proof. intros s. reflexivity. Qed.

Local Opaque lift find_fcode fcodes.

Lemma truth_shift s v : truth (heap (lift h0 o0 s)) (sh v) = truth (heap s) v.
Proof.
  destruct v; simpl; try reflexivity.
  - rewrite nth_lift. destruct (nth_error (heap s) l) as [[c a|vs]|]; simpl; try reflexivity.
    destruct vs; reflexivity.
  - destruct vs; reflexivity.
Qed.

Lemma as_int_shift v : as_int (sh v) = as_int v.
Proof. destruct v; reflexivity. Qed.

Lemma is_float_shift v : is_float (sh v) = is_float v.
Proof. destruct v; reflexivity. Qed.

Lemma lit_shift l : sh (lit_val l) = lit_val l.
Proof. destruct l; reflexivity. Qed.

Lemma as_ints_shift vs : as_ints (map sh vs) = as_ints vs.
Proof. induction vs as [|v r IH]; simpl; [reflexivity|]. destruct v; simpl; try reflexivity; now rewrite IH. Qed.

(** ** operators *)
Ltac simstep :=
  first [ apply sim_raise | apply sim_ret; simpl; try reflexivity | apply sim_halloc ].

Lemma repeat_list_map {A B} (f : A -> B) n l : repeat_list n (map f l) = map f (repeat_list n l).
Proof. induction n; simpl; auto. now rewrite map_app, IHn. Qed.

Lemma sim_binop o a b : sim sh (binop_val o a b) (binop_val o (sh a) (sh b)).
Proof.
  unfold binop_val. rewrite !as_int_shift, !is_float_shift.
  destruct (as_int a); destruct (as_int b);
  [ destruct o; try destruct (_ =? _)%Z; simstep | | | ].
  all: destruct o; try (destruct (is_float a || is_float b)%bool; simstep).
  all: destruct a; simpl; try (destruct (is_float _ || is_float b)%bool; simstep); try simstep.
  all: try (apply sim_hget_bind; intros [[c at_|vs]|]; simpl; try simstep).
  all: try (rewrite repeat_list_map; apply (sim_halloc (HList _))).
  all: destruct (is_float b); simstep.
Qed.

Lemma val_eqb_shift a b : val_eqb (sh a) (sh b) = val_eqb a b.
Proof.
  unfold val_eqb. rewrite !as_int_shift. destruct (as_int a), (as_int b); try reflexivity;
  destruct a, b; simpl; try reflexivity.
  all: f_equal; destruct (Nat.eqb_spec l l0), (Nat.eqb_spec (k + l) (k + l0)); try reflexivity; lia.
Qed.

Lemma val_in_shift a l : val_in (sh a) (map sh l) = val_in a l.
Proof. induction l; simpl; [reflexivity|]. rewrite val_eqb_shift, IHl. reflexivity. Qed.

Lemma sim_cmp o a b : sim sh (cmp_val o a b) (cmp_val o (sh a) (sh b)).
Proof.
  unfold cmp_val. rewrite !as_int_shift, !is_float_shift, !val_eqb_shift.
  destruct o.
  all: try (destruct (as_int a), (as_int b); try destruct (is_float a || is_float b)%bool; simstep).
  - destruct (val_eqb a b); simstep.
  - destruct (val_eqb a b); simstep.
  - destruct b; simpl; try simstep. destruct a; reflexivity.
  - destruct b; simpl; try simstep. destruct a; reflexivity.
  - destruct b; simpl; try simstep. rewrite val_in_shift. destruct (val_in a vs); simstep.
Qed.

Lemma sim_iter v : sim (map sh) (iter_vals v) (iter_vals (sh v)).
Proof.
  destruct v; simpl; try simstep.
  - rewrite map_map. reflexivity.
  - rewrite map_map. reflexivity.
  - apply sim_hget_bind; intros [[c at_|vs]|]; simpl; simstep.
  - rewrite map_map. reflexivity.
Qed.

Lemma sim_nth l i : sim sh (nth_val l i) (nth_val (map sh l) i).
Proof.
  unfold nth_val. rewrite map_length. destruct (py_index i (length l)); [|simstep].
  rewrite nth_error_map. destruct (nth_error l n); simpl; simstep.
Qed.

Lemma sim_sub v i : sim sh (sub_val v i) (sub_val (sh v) (sh i)).
Proof.
  destruct v; simpl; rewrite ?as_int_shift; try simstep.
  - destruct (as_int i); [|simstep].
    replace (map (fun c => VStr [c]) cs) with (map sh (map (fun c => VStr [c]) cs)) at 2
      by (rewrite map_map; reflexivity). apply sim_nth.
  - destruct (as_int i); [|simstep].
    replace (map (fun b => VInt (b2z b)) l) with (map sh (map (fun b => VInt (b2z b)) l)) at 2
      by (rewrite map_map; reflexivity). apply sim_nth.
  - apply sim_hget_bind; intros [[c at_|vs]|]; simpl; try simstep. destruct (as_int i); [|simstep]. apply sim_nth.
  - destruct (as_int i); [|simstep]. apply sim_nth.
Qed.

Lemma sim_set_sub v i x : sim (fun x => x) (set_sub v i x) (set_sub (sh v) (sh i) (sh x)).
Proof.
  destruct v; simpl; rewrite ?as_int_shift; try simstep.
  apply sim_hget_bind; intros [[c at_|vs]|]; simpl; try simstep. rewrite map_length.
  destruct (as_int i); [|simstep]. destruct (py_index z (length vs)); [|simstep].
  rewrite set_nth_map. apply (sim_hset l (HList _)).
Qed.

Lemma bytes_of_shift vs : bytes_of (map sh vs) = bytes_of vs.
Proof. induction vs; simpl; [reflexivity|]. rewrite as_int_shift, IHvs. reflexivity. Qed.

Lemma filter_truth_shift s vs :
  filter (truth (heap (lift h0 o0 s))) (map sh vs) = map sh (filter (truth (heap s)) vs).
Proof. induction vs; simpl; [reflexivity|]. rewrite truth_shift, IHvs. destruct (truth (heap s) a); reflexivity. Qed.

Lemma pack_shift s c v : pack (heap (lift h0 o0 s)) c (sh v) = pack (heap s) c v.
Proof.
  destruct c; simpl.
  - now rewrite truth_shift.
  - destruct v; reflexivity.
  - destruct v; reflexivity.
  - destruct v; reflexivity.
  - destruct v; reflexivity.
  - destruct v; reflexivity.
  - destruct v; reflexivity.
  - destruct v; reflexivity.
  - destruct v; reflexivity.
  - destruct v; reflexivity.
  - destruct v; reflexivity.
Qed.

Lemma sim_builtin b args : sim sh (builtin_val b args) (builtin_val b (map sh args)).
Proof.
  destruct b.
  - (* BLen *)
    destruct args as [|a [|a2 r]]; simpl; try simstep.
    + destruct a; simpl; try simstep.
      * apply sim_hget_bind; intros [[c at_|vs]|]; simpl; try simstep. now rewrite map_length.
      * now rewrite map_length.
    + destruct a; simpl; simstep.
  - destruct args as [|a [|a2 [|a3 r]]]; simpl; rewrite ?as_int_shift; try simstep.
    + destruct (as_int a); simstep.
    + destruct (as_int a), (as_int a2); simstep.
  - destruct args as [|a [|a2 r]]; simpl; try simstep; destruct a; simpl; simstep.
  - destruct args as [|a [|a2 r]]; simpl; try simstep; destruct a; simpl; try simstep;
    destruct (of_int _); simstep.
  - destruct args as [|a [|a2 r]]; simpl; try simstep; destruct a; simpl; simstep.
  - destruct args as [|a [|a2 r]]; simpl; try simstep.
    intros s. simpl. now rewrite truth_shift.
  - destruct args as [|a [|a2 r]]; simpl; try simstep; destruct a; simpl; try simstep;
    destruct cs as [|? [|? ?]]; simstep.
  - destruct args as [|a [|a2 r]]; simpl; rewrite ?as_int_shift; try simstep.
    destruct (as_int a); [|simstep]. destruct (_ && _)%bool; simstep.
  - destruct args as [|a [|a2 r]]; simpl; try simstep.
    eapply sim_bind; [apply sim_iter|]. intros vs. apply (sim_halloc (HList vs)).
  - destruct args as [|a [|a2 r]]; [simpl; simstep| |destruct a; simpl; simstep].
    assert (G : sim sh (vs <- iter_vals a ;; match bytes_of vs with inl l => ret (VBytes l) | inr e => raise e end)
                       (vs <- iter_vals (sh a) ;; match bytes_of vs with inl l => ret (VBytes l) | inr e => raise e end)).
    { eapply sim_bind; [apply sim_iter|]. intros vs. simpl. rewrite bytes_of_shift.
      destruct (bytes_of vs); simstep. }
    destruct a; simpl in *; try exact G; simstep.
  - destruct args as [|a [|a2 r]]; simpl; try simstep.
    eapply sim_bind; [apply sim_iter|]. intros vs s. simpl. now rewrite filter_truth_shift.
  - destruct args as [|a [|a2 r]]; simpl; rewrite ?as_int_shift; simstep.
  - destruct args as [|a [|a2 [|a3 r]]]; simpl; try simstep; destruct a; simpl; try simstep.
    destruct (find_fcode cs fcodes); [|simstep]. intros s. rewrite pack_shift.
    destruct (pack (heap s) f a2); reflexivity.
  - destruct args as [|a [|a2 [|a3 r]]]; simpl; try simstep; destruct a; simpl; try simstep;
    destruct a2; simpl; try simstep.
    destruct (find_fcode cs fcodes); [|simstep].
    unfold unpack. destruct (length l =? fwidth f)%nat; [|simstep]. destruct f; simstep.
Qed.

(** ** calls *)
Variable P : prog.
Hypothesis HP : no_shared_defaults P = true.

Definition ok_meth (m : meth) : Prop := nocell m = true.

Lemma members_ok c kk x : get_cls P c = Some kk -> forall n, assoc n (c_members kk) = Some x -> nocell_member x = true.
Proof.
  unfold get_cls. unfold no_shared_defaults in HP. apply andb_true_iff in HP. destruct HP as [H1 _].
  intros Hc n Hn.
  assert (G : forall l, forallb (fun c => forallb (fun x => nocell_member (snd x)) (c_members (snd c))) l = true ->
              assoc c l = Some kk -> forallb (fun x => nocell_member (snd x)) (c_members kk) = true).
  { induction l as [|[d q] r IH]; simpl; intros A B; [discriminate|].
    apply andb_true_iff in A as [A1 A2]. destruct (String.eqb c d); [injection B as <-; exact A1|auto]. }
  specialize (G _ H1 Hc). clear -G Hn.
  induction (c_members kk) as [|[d q] r IH]; simpl in *; [discriminate|].
  apply andb_true_iff in G as [A1 A2]. destruct (String.eqb n d); [injection Hn as <-; exact A1|auto].
Qed.

Lemma lookup_in_ok cs m x : lookup_in P cs m = Some x -> nocell_member x = true.
Proof.
  induction cs as [|c r IH]; simpl; [discriminate|].
  destruct (get_cls P c) eqn:E; [|auto].
  destruct (assoc m (c_members c0)) eqn:E2; [|auto].
  intros [= <-]. eapply members_ok; eauto.
Qed.

Lemma lookup_ok c m x : lookup P c m = Some x -> nocell_member x = true.
Proof. apply lookup_in_ok. Qed.

Lemma funs_ok f m : assoc f (p_funs P) = Some m -> ok_meth m.
Proof.
  unfold no_shared_defaults in HP. apply andb_true_iff in HP. destruct HP as [_ H].
  revert H. unfold ok_meth. generalize (p_funs P) as l. induction l as [|[g q] r IH]; simpl; [discriminate|].
  intros A B. apply andb_true_iff in A as [A1 A2]. destruct (String.eqb f g); [injection B as <-; exact A1|auto].
Qed.

Definition shift_callee (c : callee) : callee :=
  match c with
  | KMeth m pre => KMeth m (map sh pre)
  | KNew c attrs => KNew c (shift_env k attrs)
  | KNative v m => KNative (sh v) m
  | _ => c
  end.
Definition ok_callee (c : callee) : Prop := match c with KMeth m _ => ok_meth m | _ => True end.

(** like [sim], and the result satisfies an invariant *)
Definition simI {A} (I : A -> Prop) (f : A -> A) (m m' : M A) : Prop :=
  sim f m m' /\ (forall s a s', m s = (Ok a, s') -> I a).

Lemma simI_ret {A} (I : A -> Prop) f a b : b = f a -> I a -> simI I f (ret a) (ret b).
Proof. intros H1 H2. split; [now apply sim_ret|]. intros s x s' [= <- _]. exact H2. Qed.
Lemma simI_raise {A} (I : A -> Prop) f e : simI I f (raise e) (raise e).
Proof. split; [apply sim_raise|]. intros s a s'. discriminate. Qed.

Lemma sim_bindI {A B} (I : A -> Prop) (f : A -> A) (g : B -> B) m m' kk kk' :
  simI I f m m' -> (forall a, I a -> sim g (kk a) (kk' (f a))) -> sim g (bind m kk) (bind m' kk').
Proof.
  intros [Hm HI] Hk s. unfold bind. rewrite Hm.
  destruct (m s) as [[a|e] s'] eqn:E; simpl; [apply Hk; eapply HI; eauto|reflexivity].
Qed.

Lemma simI_hget_bind {B} (I : B -> Prop) (g : B -> B) l kk kk' :
  (forall o, simI I g (kk o) (kk' (option_map (shift_obj k) o))) ->
  simI I g (bind (hget l) kk) (bind (hget (k + l)) kk').
Proof.
  intros H. split; [apply sim_hget_bind; intros; apply H|].
  intros s a s'. unfold bind, hget. apply (proj2 (H (nth_error (heap s) l))).
Qed.

Lemma bind_pos_shift ps args :
  bind_pos ps (map sh args) = option_map (fun p => (shift_env k (fst p), snd p)) (bind_pos ps args).
Proof.
  revert ps. induction args as [|a r IH]; intros ps; [destruct ps; reflexivity|].
  destruct ps as [|[x d] qs]; [reflexivity|]. simpl. rewrite IH.
  destruct (bind_pos qs r) as [[e rest]|]; reflexivity.
Qed.

Lemma bind_pos_nocell ps args e rest :
  bind_pos ps args = Some (e, rest) ->
  forallb (fun p : string * option dflt => match snd p with Some (DCell _) => false | _ => true end) ps = true ->
  forallb (fun p : string * option dflt => match snd p with Some (DCell _) => false | _ => true end) rest = true.
Proof.
  revert ps e. induction args as [|a r IH]; intros ps e.
  - destruct ps; simpl; intros [= _ <-]; auto.
  - destruct ps as [|[x d] qs]; simpl; [discriminate|]. destruct (bind_pos qs r) as [[e' rest']|] eqn:E; [|discriminate].
    intros [= _ <-]. simpl. intros H. apply andb_true_iff in H as [_ H]. eapply IH; eauto.
Qed.

Lemma filter_shift_env (x : string) (kw : env) :
  filter (fun p => negb (String.eqb x (fst p))) (shift_env k kw) = shift_env k (filter (fun p => negb (String.eqb x (fst p))) kw).
Proof. induction kw as [|[y v] r IH]; simpl; [reflexivity|]. destruct (negb (String.eqb x y)); simpl; rewrite IH; reflexivity. Qed.

Lemma bind_rest_shift ps kw :
  forallb (fun p : string * option dflt => match snd p with Some (DCell _) => false | _ => true end) ps = true ->
  bind_rest ps (shift_env k kw) = option_map (shift_env k) (bind_rest ps kw).
Proof.
  revert kw. induction ps as [|[x d] qs IH]; intros kw; simpl.
  - intros _. destruct kw; reflexivity.
  - intros H. apply andb_true_iff in H as [H1 H2]. rewrite assoc_shift.
    destruct (assoc x kw); simpl.
    + rewrite filter_shift_env, IH by exact H2. destruct (bind_rest qs _); reflexivity.
    + destruct d as [[l|n]|]; try discriminate; [|reflexivity].
      rewrite IH by exact H2. destruct (bind_rest qs kw); simpl; [|reflexivity]. now rewrite lit_shift.
Qed.

Lemma combine_shift kws vs : combine kws (map sh vs) = shift_env k (combine kws vs).
Proof. revert vs. induction kws; intros [|v r]; simpl; try reflexivity. f_equal. apply IHkws. Qed.

Lemma bind_args_shift ps args kws :
  forallb (fun p : string * option dflt => match snd p with Some (DCell _) => false | _ => true end) ps = true ->
  bind_args ps (map sh args) kws = option_map (shift_env k) (bind_args ps args kws).
Proof.
  intros H. unfold bind_args. rewrite map_length, firstn_map, bind_pos_shift.
  destruct (bind_pos ps (firstn (length args - length kws) args)) as [[e rest]|] eqn:E; simpl; [|reflexivity].
  rewrite skipn_map, combine_shift, bind_rest_shift by (eapply bind_pos_nocell; eauto).
  destruct (bind_rest rest _); simpl; [|reflexivity]. unfold shift_env. now rewrite map_app.
Qed.

Section WithCall.
Variable call call' : meth -> list val -> list string -> M val.
Hypothesis Hcall : forall m args kws, ok_meth m -> sim sh (call m args kws) (call' m (map sh args) kws).

Lemma sim_get_attr v a : sim sh (get_attr P call v a) (get_attr P call' (sh v) a).
Proof.
  destruct v; simpl; try apply sim_raise.
  - apply sim_hget_bind; intros [[c at_|vs]|]; simpl; try simstep.
    destruct (lookup P c a) as [[m|li]|] eqn:E.
    + destruct (m_kind m).
      * rewrite assoc_shift. destruct (assoc a at_); simpl; simstep.
      * change [VRef (k + l)] with (map sh [VRef l]). apply Hcall. apply (lookup_ok _ _ _ E).
      * rewrite assoc_shift. destruct (assoc a at_); simpl; simstep.
    + rewrite assoc_shift. destruct (assoc a at_); simpl; simstep. now rewrite lit_shift.
    + rewrite assoc_shift. destruct (assoc a at_); simpl; simstep.
  - destruct (String.eqb a "stream"); simstep.
  - destruct (String.eqb a "stream"); simstep.
  - destruct (lookup P c a) as [[m|li]|]; simstep. now rewrite lit_shift.
  - destruct (bits_field a fs vs); simstep.
Qed.

Lemma sim_set_attr v a x : sim (fun x => x) (set_attr P v a x) (set_attr P (sh v) a (sh x)).
Proof.
  destruct v; simpl; try apply sim_raise.
  apply sim_hget_bind; intros [[c at_|vs]|]; simpl; try simstep.
  assert (G : sim (fun x => x) (hset l (HInst c (upd a x at_))) (hset (k + l) (HInst c (upd a (sh x) (shift_env k at_))))).
  { rewrite upd_shift. apply (sim_hset l (HInst c (upd a x at_))). }
  destruct (lookup P c a) as [[m|li]|]; try exact G.
  destruct (m_kind m); try exact G. simstep.
Qed.

Lemma sim_has_attr v a : sim sh (has_attr P v a) (has_attr P (sh v) a).
Proof.
  destruct v; simpl; try apply sim_raise.
  apply sim_hget_bind; intros [[c at_|vs]|]; simpl; try simstep.
  rewrite assoc_shift. destruct (lookup P c a); [reflexivity|]. destruct (assoc a at_); reflexivity.
Qed.

Ltac simIstep := first [ apply simI_raise | apply simI_ret; [reflexivity|simpl; exact I] ].

Lemma simI_resolve v m : simI ok_callee shift_callee (resolve P v m) (resolve P (sh v) m).
Proof.
  destruct v; simpl; try apply simI_raise.
  - destruct (String.eqb m "decode"); simIstep.
  - apply simI_hget_bind; intros [[c at_|vs]|]; simpl; try apply simI_raise.
    + destruct (lookup P c m) as [[q|li]|] eqn:E.
      * destruct (m_kind q); try apply simI_raise; (apply simI_ret; [reflexivity|apply (lookup_ok _ _ _ E)]).
      * destruct li; simIstep.
      * rewrite assoc_shift. destruct (assoc m at_); apply simI_raise.
    + destruct (String.eqb m "append"); simIstep.
  - destruct (lookup P "DataInputStream" m) as [[q|li]|] eqn:E; try apply simI_raise.
    apply simI_ret; [reflexivity|apply (lookup_ok _ _ _ E)].
  - destruct (lookup P "DataOutputStream" m) as [[q|li]|] eqn:E; try apply simI_raise.
    apply simI_ret; [reflexivity|apply (lookup_ok _ _ _ E)].
  - destruct (String.eqb m "read"); simIstep.
  - destruct (String.eqb m "write"); simIstep.
  - destruct (lookup P c m) as [[q|li]|] eqn:E; try apply simI_raise.
    apply simI_ret; [reflexivity|apply (lookup_ok _ _ _ E)].
  - destruct (_ || _)%bool; simIstep.
  - destruct (_ || _)%bool; simIstep.
Qed.

Lemma simI_resolve_super v c m :
  simI (fun o => match o with Some q => ok_callee q | None => True end) (option_map shift_callee)
       (resolve_super P v c m) (resolve_super P (sh v) c m).
Proof.
  destruct v; simpl; try apply simI_raise.
  apply simI_hget_bind; intros [[d at_|vs]|]; simpl; try apply simI_raise.
  destruct (after c (mro P d)) as [rest|]; [|apply simI_raise].
  destruct (lookup_in P rest m) as [[q|li]|] eqn:E; try apply simI_raise.
  - destruct (m_kind q); try apply simI_raise; (apply simI_ret; [reflexivity|apply (lookup_in_ok _ _ _ E)]).
  - destruct (String.eqb m "__init__"); simIstep.
Qed.

Lemma sim_native v m args : sim sh (native P call v m args) (native P call' (sh v) m (map sh args)).
Proof.
  destruct v; simpl; try (destruct args as [|x [|y r]]; simpl; apply sim_raise).
  - destruct args as [|x [|y r]]; simpl; try apply sim_raise.
    + destruct x; simpl; try apply sim_raise. destruct (utf8_decode l); simstep.
    + destruct x; simpl; apply sim_raise.
  - destruct args as [|x [|y r]]; simpl; try apply sim_raise.
    apply sim_hget_bind; intros [[d at_|vs]|]; simpl; try apply sim_raise.
    eapply (sim_bind (fun x => x)).
    + replace (map sh vs ++ [sh x]) with (map sh (vs ++ [x])) by (rewrite map_app; reflexivity).
      apply (sim_hset l (HList (vs ++ [x]))).
    + intros _. simstep.
  - destruct args as [|x [|y r]]; simpl; try apply sim_raise.
    destruct x; simpl; try apply sim_raise; apply sim_raw_read.
  - destruct args as [|x [|y r]]; simpl; try apply sim_raise; destruct x; simpl; try apply sim_raise.
    apply sim_raw_write.
  - destruct args as [|x [|y r]]; simpl; try apply sim_raise.
    + destruct (String.eqb m "marshalledSize"); simstep.
    + destruct (String.eqb m "parse"); [|apply sim_raise].
      eapply sim_bindI; [apply simI_resolve|]. intros q Hq. destruct q; simpl; try apply sim_raise.
      eapply sim_bind.
      * replace (map sh pre ++ [VInt (Z.of_nat (bits_size fs))]) with (map sh (pre ++ [VInt (Z.of_nat (bits_size fs))]))
          by (rewrite map_app; reflexivity). apply Hcall. exact Hq.
      * intros r. destruct r; simpl; try apply sim_raise. destruct (length l <? bits_size fs)%nat; simstep.
  - destruct args as [|x [|y r]]; simpl; try apply sim_raise.
    + destruct (String.eqb m "marshalledSize"); simstep.
    + destruct (String.eqb m "serialize"); [|apply sim_raise].
      eapply sim_bindI; [apply simI_resolve|]. intros q Hq. destruct q; simpl; try apply sim_raise.
      eapply sim_bind.
      * match goal with |- sim _ (call m0 (pre ++ [?b]) []) _ =>
          replace (map sh pre ++ [b]) with (map sh (pre ++ [b])) by (rewrite map_app; reflexivity) end.
        apply Hcall. exact Hq.
      * intros r. simstep.
Qed.

Lemma getSV_shift a b : getStandardVariableClass P (sh a) (sh b) = getStandardVariableClass P a b.
Proof. unfold getStandardVariableClass. rewrite as_int_shift. destruct (as_int a); [|reflexivity]. destruct b; reflexivity. Qed.

Lemma getSV_result a b v : getStandardVariableClass P a b = inl v -> sh v = v.
Proof.
  unfold getStandardVariableClass. destruct (as_int a); [|discriminate]. destruct (_ <? _)%Z; [discriminate|].
  destruct b; try discriminate. destruct (zassoc z variableRecordClasses); destruct (existsb _ _); try discriminate;
  intros [= <-]; reflexivity.
Qed.

Lemma sim_apply c args kws : ok_callee c -> sim sh (apply P call c args kws) (apply P call' (shift_callee c) (map sh args) kws).
Proof.
  intros Hc. destruct c; simpl.
  - rewrite <- map_app. apply Hcall. exact Hc.
  - destruct (is_abstract P c); [apply sim_raise|].
    eapply sim_bind; [apply (sim_halloc (HInst c attrs))|]. intros o.
    destruct (lookup P c "__init__") as [[q|li]|] eqn:E; try apply sim_raise.
    + eapply sim_bind.
      * change (sh o :: map sh args) with (map sh (o :: args)). apply Hcall. apply (lookup_ok _ _ _ E).
      * intros _. simstep.
    + destruct args; simpl; simstep.
  - destruct kws; [|apply sim_raise]. rewrite as_ints_shift. destruct (as_ints args); [|apply sim_raise].
    destruct (length fs <? length l)%nat; simstep.
  - destruct kws; [|apply sim_raise]. apply sim_native.
  - destruct args as [|a [|b [|c r]]]; simpl; try apply sim_raise.
    + destruct kws; [|apply sim_raise].
      change (VClass "StandardVariableRecord") with (sh (VClass "StandardVariableRecord")). rewrite getSV_shift.
      destruct (getStandardVariableClass P a _) eqn:E; simstep. symmetry. apply (getSV_result _ _ _ E).
    + destruct kws; [|apply sim_raise]. rewrite getSV_shift.
      destruct (getStandardVariableClass P a b) eqn:E; simstep. symmetry. apply (getSV_result _ _ _ E).
Qed.

Lemma simI_callee_of v : simI ok_callee shift_callee (callee_of P v) (callee_of P (sh v)).
Proof.
  destruct v; simpl; try apply simI_raise; try simIstep.
  destruct (String.eqb f "getStandardVariableClass"); [simIstep|].
  destruct (assoc f (p_funs P)) eqn:E; [|apply simI_raise].
  apply simI_ret; [reflexivity|]. apply (funs_ok _ _ E).
Qed.

Lemma sim_glob x : sim sh (glob P x) (glob P x).
Proof.
  unfold glob. destruct (get_cls P x); [simstep|]. destruct (String.eqb x "getStandardVariableClass"); [simstep|].
  destruct (assoc x (p_funs P)); simstep.
Qed.

Lemma sim_truth_if {B} (g : B -> B) v (a a' b b' : M B) :
  sim g a a' -> sim g b b' ->
  sim g (fun s => if truth (heap s) v then a s else b s) (fun s => if truth (heap s) (sh v) then a' s else b' s).
Proof. intros Ha Hb s. rewrite truth_shift. destruct (truth (heap s) v); [apply Ha|apply Hb]. Qed.

Lemma sim_eval_list es rho :
  Forall (fun e => forall rho, sim sh (eval P call e rho) (eval P call' e (shift_env k rho))) es ->
  sim (map sh) (eval_list (eval P call) es rho) (eval_list (eval P call') es (shift_env k rho)).
Proof.
  induction 1 as [|e r He Hr IH]; simpl; [simstep|].
  eapply sim_bind; [apply He|]. intros v. eapply sim_bind; [apply IH|]. intros vs. simstep.
Qed.

Lemma sim_eval e : forall rho, sim sh (eval P call e rho) (eval P call' e (shift_env k rho)).
Proof.
  induction e using expr_ind'; intros rho; simpl.
  - simstep. now rewrite lit_shift.
  - rewrite assoc_shift. destruct (assoc x rho); simpl; simstep.
  - apply sim_glob.
  - eapply sim_bind; [apply IHe|]. intros v. apply sim_get_attr.
  - eapply sim_bind; [apply IHe1|]. intros v. eapply sim_bind; [apply IHe2|]. intros j. apply sim_sub.
  - eapply sim_bind; [apply IHe|]. intros v. eapply sim_bindI; [apply simI_callee_of|]. intros c Hc.
    eapply sim_bind; [apply sim_eval_list; assumption|]. intros vs. apply sim_apply; exact Hc.
  - eapply sim_bind; [apply IHe|]. intros v. eapply sim_bindI; [apply simI_resolve|]. intros c Hc.
    eapply sim_bind; [apply sim_eval_list; assumption|]. intros vs. apply sim_apply; exact Hc.
  - rewrite assoc_shift. destruct (assoc "self" rho) as [v|]; simpl; [|apply sim_raise].
    eapply sim_bindI; [apply simI_resolve_super|]. intros o Ho.
    eapply sim_bind; [apply sim_eval_list; assumption|]. intros vs.
    destruct o; simpl; [apply sim_apply; exact Ho|]. destruct vs; simpl; simstep.
  - eapply sim_bind; [apply sim_eval_list; assumption|]. intros vs. apply sim_builtin.
  - eapply sim_bind; [apply IHe|]. intros v. apply sim_has_attr.
  - eapply sim_bind; [apply sim_eval_list; assumption|]. intros vs. apply (sim_halloc (HList vs)).
  - eapply sim_bind; [apply sim_eval_list; assumption|]. intros vs. simstep.
  - eapply sim_bind; [apply IHe1|]. intros v.
    apply (sim_truth_if sh v (ret v) (ret (sh v))); [simstep|apply IHe2].
  - eapply sim_bind; [apply IHe1|]. intros v.
    apply (sim_truth_if sh v _ _ (ret v) (ret (sh v))); [apply IHe2|simstep].
  - eapply sim_bind; [apply IHe|]. intros v s. rewrite truth_shift. reflexivity.
  - eapply sim_bind; [apply IHe1|]. intros v. eapply sim_bind; [apply IHe2|]. intros j. apply sim_binop.
  - eapply sim_bind; [apply IHe1|]. intros v. eapply sim_bind; [apply IHe2|]. intros j. apply sim_cmp.
  - eapply sim_bind; [apply IHe1|]. intros v. apply sim_truth_if; [apply IHe2|apply IHe3].
Qed.

Definition shift_R (p : R) : R := (shift_env k (fst p), option_map sh (snd p)).

Lemma sim_block b :
  Forall (fun c => forall rho, sim shift_R (exec P call c rho) (exec P call' c (shift_env k rho))) b ->
  forall rho, sim shift_R (run_block (exec P call) b rho) (run_block (exec P call') b (shift_env k rho)).
Proof.
  induction 1 as [|c r Hc Hr IH]; intros rho; simpl; [simstep|].
  eapply sim_bind; [apply Hc|]. intros [rho' o]. simpl. destruct o; simpl; [simstep|apply IH].
Qed.

Lemma sim_for (bd bd' : env -> M R) x :
  (forall rho, sim shift_R (bd rho) (bd' (shift_env k rho))) ->
  forall vs rho, sim shift_R (for_loop bd x vs rho) (for_loop bd' x (map sh vs) (shift_env k rho)).
Proof.
  intros H. induction vs as [|v r IH]; intros rho; simpl; [simstep|].
  eapply sim_bind; [rewrite upd_shift; apply H|]. intros [rho' o]. simpl. destruct o; simpl; [simstep|apply IH].
Qed.

Lemma sim_exec c : forall rho, sim shift_R (exec P call c rho) (exec P call' c (shift_env k rho)).
Proof.
  induction c using stmt_ind'; intros rho; simpl.
  - eapply sim_bind; [apply sim_eval|]. intros _. simstep.
  - eapply sim_bind; [apply sim_eval|]. intros v. simstep. now rewrite upd_shift.
  - eapply sim_bind; [apply sim_eval|]. intros v. eapply sim_bind; [apply sim_eval|]. intros ov.
    eapply sim_bind; [apply sim_set_attr|]. intros _. simstep.
  - eapply sim_bind; [apply sim_eval|]. intros v. eapply sim_bind; [apply sim_eval|]. intros ov.
    eapply sim_bind; [apply sim_eval|]. intros iv. eapply sim_bind; [apply sim_set_sub|]. intros _. simstep.
  - eapply sim_bind; [apply sim_eval|]. intros v. apply sim_truth_if; apply sim_block; assumption.
  - eapply sim_bind; [apply sim_eval|]. intros v. eapply sim_bind; [apply sim_iter|]. intros vs.
    apply sim_for. intros rho'. apply sim_block. assumption.
  - eapply sim_bind; [apply sim_eval|]. intros v. simstep.
  - apply sim_raise.
  - eapply sim_bind; [apply sim_eval|]. intros v s. rewrite truth_shift. destruct (truth (heap s) v); reflexivity.
  - simstep.
Qed.

End WithCall.

Theorem sim_run fuel : forall m args kws, ok_meth m ->
  sim sh (run P fuel m args kws) (run P fuel m (map sh args) kws).
Proof.
  induction fuel as [|n IH]; intros m args kws Hm; simpl; [apply sim_raise|].
  rewrite bind_args_shift by exact Hm. destruct (bind_args (m_params m) args kws) as [rho|]; simpl; [|apply sim_raise].
  eapply sim_bind.
  - apply sim_block. apply Forall_forall. intros c _ rho'. apply sim_exec. exact IH.
  - intros [rho' o]. simpl. apply sim_ret. destruct o; reflexivity.
Qed.

Theorem sim_call_method fuel v m args :
  sim sh (call_method P fuel v m args) (call_method P fuel (sh v) m (map sh args)).
Proof.
  unfold call_method. eapply sim_bindI; [apply simI_resolve|]. intros c Hc.
  apply sim_apply; [|exact Hc]. intros. now apply sim_run.
Qed.

Theorem sim_new fuel c args : sim sh (new P fuel c args) (new P fuel c (map sh args)).
Proof. apply (sim_apply (run P fuel) (run P fuel) (fun m a q H => sim_run fuel m a q H) (KNew c [])). exact I. Qed.

Theorem sim_getPdu table fuel : sim sh (getPdu P table fuel) (getPdu P table fuel).
Proof.
  unfold getPdu. eapply sim_bind; [apply sim_raw_seek|]. intros _.
  eapply sim_bind; [apply (sim_call_method fuel VIn "read_byte" [])|]. intros t.
  eapply sim_bind; [apply sim_raw_seek|]. intros _.
  destruct t; simpl; try apply sim_raise.
  destruct (zassoc z table) as [c|]; [|simstep].
  eapply sim_bind; [apply (sim_new fuel c [])|]. intros p.
  eapply sim_bind; [apply (sim_call_method fuel p "parse" [VIn])|]. intros _. simstep.
Qed.

End Shift.
