(** * Renaming: what a computation does depends only on the objects it can name

    If the objects a computation can name sit anywhere in a larger heap, at the places [b] (the i-th object of the small heap is the [nth i b]-th of the large one),
    then the computation does the same thing there, exceptions and output included, leaves all other objects alone and puts its new objects at the end.
    Shift.v is the case that they sit at the end.  This is the basis of the independence of users (C88). *)
From Coq Require Import ZArith String List Bool Lia.
From Coq Require Import Strings.Byte.
From Verif Require Import Lang Ind Bytes Interp Inv Shift.
Import ListNotations.
Open Scope string_scope. Open Scope list_scope. Open Scope nat_scope.

(** ** Related values, objects and states *)
Definition atom (v : val) : bool := match v with VRef _ | VTuple _ => false | _ => true end.
Inductive vr (b : list nat) : val -> val -> Prop :=
| vr_ref i j : nth_error b i = Some j -> vr b (VRef i) (VRef j)
| vr_tuple vs ws : Forall2 (vr b) vs ws -> vr b (VTuple vs) (VTuple ws)
| vr_atom v : atom v = true -> vr b v v.
Definition pr (b : list nat) (p q : string * val) : Prop := fst p = fst q /\ vr b (snd p) (snd q).
Definition er (b : list nat) : env -> env -> Prop := Forall2 (pr b).
Inductive orel (b : list nat) : hobj -> hobj -> Prop :=
| or_inst c at1 at2 : er b at1 at2 -> orel b (HInst c at1) (HInst c at2)
| or_list vs ws : Forall2 (vr b) vs ws -> orel b (HList vs) (HList ws).

Record sim (b : list nat) (s t : st) : Prop := mksim {
  sim_len : length (heap s) = length b;
  sim_nodup : NoDup b;
  sim_obj : forall i j, nth_error b i = Some j -> exists o o', nth_error (heap s) i = Some o /\ nth_error (heap t) j = Some o' /\ orel b o o';
  sim_rest : irest s = irest t;
  sim_full : ifull s = ifull t;
  sim_out : out s = out t
}.
(** from [t] to [t'] only objects in [b] changed, and the new objects [b'] adds are those at the end *)
Definition fr (b : list nat) (t : st) (b' : list nat) (t' : st) : Prop :=
  exists k, b' = b ++ seq (length (heap t)) k /\ length (heap t') = length (heap t) + k /\
    forall j, j < length (heap t) -> ~ In j b -> nth_error (heap t') j = nth_error (heap t) j.

Lemma fr_refl b t : fr b t b t.
Proof. exists 0. simpl. rewrite app_nil_r. repeat split; auto with arith. Qed.
Lemma fr_trans b t b1 t1 b2 t2 : fr b t b1 t1 -> fr b1 t1 b2 t2 -> fr b t b2 t2.
Proof.
  intros (k & -> & L & F) (k' & -> & L' & F'). exists (k + k'). split; [rewrite L, <- app_assoc; f_equal; symmetry; apply seq_app|]. split; [lia|].
  intros j Hj Hn. rewrite F'; [now apply F|lia|]. intros H. apply in_app_or in H as [H|H]; [auto|]. apply in_seq in H. lia.
Qed.

(** growing *)
Definition ext (b b' : list nat) : Prop := exists k, b' = b ++ k.
Lemma ext_refl b : ext b b. Proof. exists []. now rewrite app_nil_r. Qed.
Lemma ext_trans a b c : ext a b -> ext b c -> ext a c.
Proof. intros (k & ->) (k' & ->). exists (k ++ k'). now rewrite app_assoc. Qed.
Lemma fr_ext b t b' t' : fr b t b' t' -> ext b b'.
Proof. intros (k & -> & _). now exists (seq (length (heap t)) k). Qed.
Lemma ext_nth b b' i j : ext b b' -> nth_error b i = Some j -> nth_error b' i = Some j.
Proof. intros (k & ->) H. rewrite nth_error_app1; [exact H|]. apply nth_error_Some. congruence. Qed.
Fixpoint vr_ext b b' (E : ext b b') v w (H : vr b v w) {struct H} : vr b' v w :=
  match H with
  | vr_ref _ i j H => vr_ref b' i j (ext_nth b b' i j E H)
  | vr_tuple _ vs ws H => vr_tuple b' vs ws
      ((fix go vs ws (H : Forall2 (vr b) vs ws) {struct H} : Forall2 (vr b') vs ws :=
        match H with Forall2_nil _ => Forall2_nil _ | Forall2_cons x y Hx Hr => Forall2_cons x y (vr_ext b b' E x y Hx) (go _ _ Hr) end) vs ws H)
  | vr_atom _ v H => vr_atom b' v H
  end.
Lemma vrs_ext b b' vs ws : ext b b' -> Forall2 (vr b) vs ws -> Forall2 (vr b') vs ws.
Proof. intros E. induction 1; constructor; eauto using vr_ext. Qed.
Lemma er_ext b b' r q : ext b b' -> er b r q -> er b' r q.
Proof. intros E. induction 1 as [|x y l l' [H1 H2] H IH]; constructor; [split; eauto using vr_ext|exact IH]. Qed.
Lemma orel_ext b b' o q : ext b b' -> orel b o q -> orel b' o q.
Proof. intros E [c a1 a2 H|vs ws H]; constructor; eauto using er_ext, vrs_ext. Qed.

Lemma nodup_app {A} (l r : list A) : NoDup l -> NoDup r -> (forall x, In x l -> In x r -> False) -> NoDup (l ++ r).
Proof. intros H1 H2 D. induction H1 as [|a l Ha H1 IH]; simpl; [exact H2|]. constructor; [intros H; apply in_app_or in H as [H|H]; [auto|eapply D; [now left|exact H]]|]. apply IH. intros x Hx. apply D. now right. Qed.

Lemma f2_length {A B} (R : A -> B -> Prop) l l' : Forall2 R l l' -> length l = length l'.
Proof. induction 1; simpl; auto. Qed.

(** ** Related computations *)
Definition post {A B} b t (R : list nat -> A -> B -> Prop) (x : res A * st) (y : res B * st) : Prop :=
  exists b', fr b t b' (snd y) /\ sim b' (snd x) (snd y) /\
    match fst x, fst y with Ok a, Ok c => R b' a c | Exc e, Exc e' => e = e' | _, _ => False end.
Definition sj {A B} b (R : list nat -> A -> B -> Prop) (m : M A) (m' : M B) : Prop := forall s t, sim b s t -> post b t R (m s) (m' t).

Lemma sj_ret {A B} b (R : list nat -> A -> B -> Prop) a c : R b a c -> sj b R (ret a) (ret c).
Proof. intros H s t S. exists b. split; [apply fr_refl|]. split; [exact S|exact H]. Qed.
Lemma sj_raise {A B} b (R : list nat -> A -> B -> Prop) e : sj b R (raise e) (raise e).
Proof. intros s t S. exists b. split; [apply fr_refl|]. split; [exact S|reflexivity]. Qed.
Lemma sj_bind {A B C D} b (R : list nat -> A -> B -> Prop) (Q : list nat -> C -> D -> Prop) m m' k k' :
  sj b R m m' -> (forall b' a c, ext b b' -> R b' a c -> sj b' Q (k a) (k' c)) -> sj b Q (bind m k) (bind m' k').
Proof.
  intros H K s t S. unfold bind. destruct (H s t S) as (b1 & F & S1 & H1). destruct (m s) as [[a|e] s1], (m' t) as [[c|e'] t1]; cbn [fst snd] in *; try contradiction.
  - destruct (K b1 a c (fr_ext _ _ _ _ F) H1 s1 t1 S1) as (b2 & F2 & S2 & H2). exists b2. split; [eapply fr_trans; eauto|]. auto.
  - exists b1. auto.
Qed.
Lemma sj_weak {A B} b (R Q : list nat -> A -> B -> Prop) m m' : sj b R m m' -> (forall b' a c, R b' a c -> Q b' a c) -> sj b Q m m'.
Proof. intros H K s t S. destruct (H s t S) as (b1 & F & S1 & H1). exists b1. split; [exact F|]. split; [exact S1|]. destruct (fst (m s)), (fst (m' t)); auto. Qed.

Definition oo (b : list nat) (o q : option hobj) : Prop := exists x y, o = Some x /\ q = Some y /\ orel b x y.
Lemma sj_hget_bind {A B} b (Q : list nat -> A -> B -> Prop) i j k k' : nth_error b i = Some j ->
  (forall o o', orel b o o' -> sj b Q (k (Some o)) (k' (Some o'))) -> sj b Q (bind (hget i) k) (bind (hget j) k').
Proof.
  intros E K s t S. unfold bind, hget. destruct (sim_obj _ _ _ S i j E) as (o & o' & E1 & E2 & H). rewrite E1, E2. now apply K.
Qed.
Lemma sj_hset b i j o o' : nth_error b i = Some j -> orel b o o' -> sj b (fun _ _ _ => True) (hset i o) (hset j o').
Proof.
  intros E H s t S. exists b. unfold hset. cbn [fst snd]. split; [|split; [|exact I]].
  - exists 0. cbn [heap]. rewrite app_nil_r. split; [reflexivity|]. split; [rewrite set_nth_length; lia|]. intros l Hl Hn. apply set_nth_other. intros <-. apply Hn. eapply nth_error_In; eauto.
  - split; cbn [heap irest ifull out]; try apply S; [rewrite set_nth_length; apply S|].
    intros i' j' E'. destruct (sim_obj _ _ _ S i' j' E') as (x & y & E1 & E2 & Hxy). destruct (sim_obj _ _ _ S i j E) as (x0 & y0 & E3 & E4 & _).
    destruct (Nat.eq_dec i i') as [<-|Ne].
    + assert (j' = j) by congruence. subst j'. exists o, o'. split; [eapply set_nth_same; eauto|]. split; [eapply set_nth_same; eauto|exact H].
    + assert (j <> j') by (intros <-; apply Ne; eapply (proj1 (NoDup_nth_error b) (sim_nodup _ _ _ S)); [apply nth_error_Some; congruence|congruence]).
      exists x, y. rewrite !set_nth_other by auto. auto.
Qed.
Lemma sim_lt b s t j : sim b s t -> In j b -> j < length (heap t).
Proof. intros S H. apply In_nth_error in H as (i & E). destruct (sim_obj _ _ _ S i j E) as (o & o' & _ & E2 & _). apply nth_error_Some. congruence. Qed.
Lemma sj_halloc b o o' : orel b o o' -> sj b vr (halloc o) (halloc o').
Proof.
  intros H s t S. exists (b ++ [length (heap t)]). unfold halloc. cbn [fst snd]. assert (E : ext b (b ++ [length (heap t)])) by (eexists; reflexivity).
  split; [|split].
  - exists 1. cbn [heap seq]. split; [reflexivity|]. split; [rewrite app_length; reflexivity|]. intros j Hj _. now rewrite nth_error_app1.
  - pose proof (sim_len _ _ _ S) as L. split; cbn [heap irest ifull out]; try apply S.
    + rewrite !app_length. simpl. lia.
    + apply nodup_app; [apply S| |].
      * constructor; [intros []|constructor].
      * intros x Hx [<-|[]]. apply (sim_lt _ _ _ _ S) in Hx. lia.
    + intros i j Hij. destruct (Nat.lt_ge_cases i (length b)) as [Hi|Hi].
      * rewrite nth_error_app1 in Hij by exact Hi. destruct (sim_obj _ _ _ S i j Hij) as (x & y & E1 & E2 & Hxy). exists x, y.
        rewrite !nth_error_app1 by (apply nth_error_Some; congruence). split; [exact E1|]. split; [exact E2|]. eapply orel_ext; eauto.
      * rewrite nth_error_app2 in Hij by exact Hi. destruct (i - length b) as [|z] eqn:Ei; [|destruct z; discriminate]. injection Hij as <-. assert (i = length (heap s)) by lia. subst i.
        exists o, o'. rewrite !nth_error_app2, !Nat.sub_diag by lia. split; [reflexivity|]. split; [reflexivity|]. eapply orel_ext; eauto.
  - constructor. rewrite <- (sim_len _ _ _ S) || idtac. rewrite (sim_len _ _ _ S), nth_error_app2, Nat.sub_diag by lia. reflexivity.
Qed.

(** ** Pure operations *)
Lemma vr_as_int b v w : vr b v w -> as_int v = as_int w.
Proof. now intros []. Qed.
Lemma vr_is_float b v w : vr b v w -> is_float v = is_float w.
Proof. now intros []. Qed.
Lemma vr_as_ints b vs ws : Forall2 (vr b) vs ws -> as_ints vs = as_ints ws.
Proof. induction 1 as [|x y l l' H _ IH]; [reflexivity|]. destruct H; cbn [as_ints]; [reflexivity|reflexivity|]. now rewrite IH. Qed.
Lemma vr_truth b s t v w : sim b s t -> vr b v w -> truth (heap s) v = truth (heap t) w.
Proof.
  intros S [i j E|vs ws H|x Hx].
  - destruct (sim_obj _ _ _ S i j E) as (o & o' & E1 & E2 & Ho). cbn [truth]. rewrite E1, E2. destruct Ho as [c a1 a2 Ho|vs ws Ho]; [reflexivity|]. now destruct Ho.
  - now destruct H.
  - destruct x; reflexivity || discriminate.
Qed.
Lemma vr_pack b s t c v w : sim b s t -> vr b v w -> pack (heap s) c v = pack (heap t) c w.
Proof.
  intros S H. pose proof (vr_truth b s t v w S H) as T. destruct c; cbn [pack]; [now rewrite T|..]; destruct H as [i j E|vs ws H|x Hx]; reflexivity.
Qed.
Lemma vr_eqb b v w v' w' : NoDup b -> vr b v w -> vr b v' w' -> val_eqb v v' = val_eqb w w'.
Proof.
  intros N H H'. unfold val_eqb. rewrite (vr_as_int _ _ _ H), (vr_as_int _ _ _ H'). destruct H as [i j E|vs ws H|x Hx], H' as [i' j' E'|vs' ws' H'|x' Hx']; cbn [as_int]; try reflexivity; try (match goal with H : atom ?x = true |- _ => destruct x; reflexivity || discriminate end).
  - f_equal. destruct (Nat.eqb_spec i i') as [<-|Ne]; [replace j' with j by congruence; now rewrite Nat.eqb_refl|]. symmetry. apply Nat.eqb_neq. intros <-. apply Ne.
    eapply (proj1 (NoDup_nth_error b) N); [apply nth_error_Some; congruence|congruence].
Qed.
Lemma vr_in b v w vs ws : NoDup b -> vr b v w -> Forall2 (vr b) vs ws -> val_in v vs = val_in w ws.
Proof. intros N H. induction 1 as [|x y l l' Hx _ IH]; [reflexivity|]. cbn [val_in]. now rewrite (vr_eqb b v w x y N H Hx), IH. Qed.
Lemma vr_nth b vs ws k v : Forall2 (vr b) vs ws -> nth_error vs k = Some v -> exists w, nth_error ws k = Some w /\ vr b v w.
Proof. intros H. revert k. induction H as [|x y l l' Hx _ IH]; intros [|k]; simpl; try discriminate; [intros [= <-]; eauto|apply IH]. Qed.
Lemma vr_set b vs ws k v w : Forall2 (vr b) vs ws -> vr b v w -> Forall2 (vr b) (set_nth k v vs) (set_nth k w ws).
Proof. intros H Hv. revert k. induction H as [|x y l l' Hx Hl IH]; intros [|k]; simpl; constructor; auto. Qed.
Lemma vr_repeat b vs ws n : Forall2 (vr b) vs ws -> Forall2 (vr b) (repeat_list n vs) (repeat_list n ws).
Proof. intros H. induction n; simpl; [constructor|]. now apply Forall2_app. Qed.
Lemma vr_bytes b vs ws : Forall2 (vr b) vs ws -> bytes_of vs = bytes_of ws.
Proof. unfold bytes_of. induction 1 as [|x y l l' Hx _ IH]; [reflexivity|]. cbn [fold_right]. now rewrite (vr_as_int _ _ _ Hx), IH. Qed.
Lemma vr_filter b s t vs ws : sim b s t -> Forall2 (vr b) vs ws -> Forall2 (vr b) (filter (truth (heap s)) vs) (filter (truth (heap t)) ws).
Proof. intros S. induction 1 as [|x y l l' Hx _ IH]; [constructor|]. cbn [filter]. rewrite (vr_truth b s t x y S Hx). destruct (truth (heap t) y); [constructor; auto|exact IH]. Qed.
Lemma atoms b vs : forallb atom vs = true -> Forall2 (vr b) vs vs.
Proof. induction vs as [|v r IH]; simpl; [constructor|]. intros H. apply andb_prop in H as [A B]. constructor; [now apply vr_atom|auto]. Qed.
Lemma lit_atom l : atom (lit_val l) = true.
Proof. now destruct l. Qed.
Lemma er_assoc b r q x : er b r q -> match assoc x r, assoc x q with Some v, Some w => vr b v w | None, None => True | _, _ => False end.
Proof. induction 1 as [|[y v] [y' w] l l' [H1 H2] _ IH]; [exact I|]. cbn in H1, H2. subst y'. cbn [assoc]. destruct (String.eqb x y); auto. Qed.
Lemma er_upd b r q x v w : er b r q -> vr b v w -> er b (upd x v r) (upd x w q).
Proof.
  intros H Hv. induction H as [|[y v1] [y' w1] l l' [H1 H2] Hl IH]; [repeat constructor; exact Hv|]. cbn in H1, H2. subst y'. cbn [upd]. destruct (String.eqb x y); constructor; try (split; auto); auto.
Qed.
Ltac at_ := apply sj_ret, vr_atom; reflexivity.
Ltac go := repeat first [ apply sj_raise | at_ | match goal with |- sj _ _ (match ?x with _ => _ end) (match ?x with _ => _ end) => destruct x end ].

Lemma sj_binop b o v w v' w' : vr b v w -> vr b v' w' -> sj b vr (binop_val o v v') (binop_val o w w').
Proof.
  intros H H'. unfold binop_val. rewrite (vr_as_int _ _ _ H), (vr_as_int _ _ _ H'), (vr_is_float _ _ _ H), (vr_is_float _ _ _ H').
  destruct (as_int w); [destruct (as_int w')|]; try (go; fail).
  - destruct o; go. destruct H as [i j E|vs ws H|x Hx]; go. 
  - destruct o; try (go; fail). destruct H as [i j E|vs ws H|x Hx]; [|go|destruct x; try discriminate; go].
    destruct (as_int w'); [|go]. apply (sj_hget_bind b vr i j _ _ E). intros o o' [c a1 a2 Ho|vs ws Ho]; [go|]. apply sj_halloc. constructor. now apply vr_repeat.
Qed.
Lemma sj_cmp b o v w v' w' : vr b v w -> vr b v' w' -> sj b vr (cmp_val o v v') (cmp_val o w w').
Proof.
  intros H H' s t S. pose proof (vr_eqb b v w v' w' (sim_nodup _ _ _ S) H H') as E. revert s t S. change (sj b vr (cmp_val o v v') (cmp_val o w w')).
  unfold cmp_val. rewrite E, (vr_as_int _ _ _ H), (vr_as_int _ _ _ H'), (vr_is_float _ _ _ H), (vr_is_float _ _ _ H'). clear E.
  destruct o; try (go; fail).
  - destruct H' as [i j E|vs ws H'|x Hx]; [go|go|]. destruct x; try (go; fail). destruct H as [i j E|vs ws H|y Hy]; go.
  - destruct H' as [i j E|vs ws H'|x Hx]; [go|go|]. destruct x; try (go; fail). destruct H as [i j E|vs ws H|y Hy]; go.
  - destruct H' as [i j E|vs ws H'|x Hx]; [go| |]; [|destruct x; try discriminate; go]. intros s t S. rewrite (vr_in b v w vs ws (sim_nodup _ _ _ S) H H'). revert s t S. change (sj b vr (match val_in w ws with Some r => ret (VBool r) | None => raise Unsupported end) (match val_in w ws with Some r => ret (VBool r) | None => raise Unsupported end)). go.
Qed.
Definition vrs (b : list nat) : list val -> list val -> Prop := Forall2 (vr b).
Lemma atoms_int b (l : list Z) : vrs b (map VInt l) (map VInt l).
Proof. apply atoms. induction l; simpl; auto. Qed.
Lemma atoms_byte b (l : list byte) : vrs b (map (fun x => VInt (b2z x)) l) (map (fun x => VInt (b2z x)) l).
Proof. apply atoms. induction l; simpl; auto. Qed.
Lemma atoms_str b (l : list Z) : vrs b (map (fun x => VStr [x]) l) (map (fun x => VStr [x]) l).
Proof. apply atoms. induction l; simpl; auto. Qed.
Lemma sj_iter b v w : vr b v w -> sj b vrs (iter_vals v) (iter_vals w).
Proof.
  intros [i j E|vs ws H|x Hx]; cbn [iter_vals].
  - apply (sj_hget_bind b vrs i j _ _ E). intros o o' [c a1 a2 Ho|vs ws Ho]; [go|]. now apply sj_ret.
  - now apply sj_ret.
  - destruct x; try discriminate; try apply sj_raise; apply sj_ret; [apply atoms_str|apply atoms_byte|apply atoms_int].
Qed.
Lemma sj_nth b vs ws k : vrs b vs ws -> sj b vr (nth_val vs k) (nth_val ws k).
Proof.
  intros H. unfold nth_val. rewrite <- (f2_length _ _ _ H). destruct (py_index k (length vs)) as [q|]; [|go]. destruct (nth_error vs q) as [v|] eqn:E.
  - destruct (vr_nth b vs ws q v H E) as (w & -> & Hw). now apply sj_ret.
  - replace (nth_error ws q) with (@None val); [go|]. symmetry. apply nth_error_None. rewrite <- (f2_length _ _ _ H). now apply nth_error_None.
Qed.
Lemma sj_sub b v w i i' : vr b v w -> vr b i i' -> sj b vr (sub_val v i) (sub_val w i').
Proof.
  intros H H'. unfold sub_val. rewrite (vr_as_int _ _ _ H'). destruct H as [k j E|vs ws H|x Hx].
  - apply (sj_hget_bind b vr k j _ _ E). intros o o' [c a1 a2 Ho|vs ws Ho]; [go|]. destruct (as_int i'); [|go]. now apply sj_nth.
  - destruct (as_int i'); [|go]. now apply sj_nth.
  - destruct x; try discriminate; try (go; fail); (destruct (as_int i'); [|go]); apply sj_nth; [apply atoms_str|apply atoms_byte].
Qed.
Definition un (b : list nat) (x y : unit) : Prop := True.
Lemma sj_set_sub b v w i i' x x' : vr b v w -> vr b i i' -> vr b x x' -> sj b un (set_sub v i x) (set_sub w i' x').
Proof.
  intros H H' Hx. unfold set_sub. rewrite (vr_as_int _ _ _ H'). destruct H as [k j E|vs ws H|y Hy]; [|go|destruct y; try discriminate; go].
  apply (sj_hget_bind b un k j _ _ E). intros o o' [c a1 a2 Ho|vs ws Ho]; [go|]. destruct (as_int i') as [z|]; [|go]. rewrite <- (f2_length _ _ _ Ho). destruct (py_index z (length vs)); [|go].
  eapply sj_hset; [exact E|]. constructor. now apply vr_set.
Qed.
Lemma sj_state {A B} b (R : list nat -> A -> B -> Prop) (f : st -> res A) (g : st -> res B) :
  (forall s t, sim b s t -> match f s, g t with Ok a, Ok c => R b a c | Exc e, Exc e' => e = e' | _, _ => False end) -> sj b R (fun s => (f s, s)) (fun s => (g s, s)).
Proof. intros H s t S. exists b. split; [apply fr_refl|]. split; [exact S|]. cbn [fst]. now apply H. Qed.
Lemma sj_builtin b f vs ws : vrs b vs ws -> sj b vr (builtin_val f vs) (builtin_val f ws).
Proof.
  intros H. destruct H as [|v w l l' Hv Hl]; [destruct f; go|]. destruct Hl as [|v2 w2 l l' Hv2 Hl].
  - pose proof (vr_as_int _ _ _ Hv) as EI. destruct f; cbn [builtin_val].
    + destruct Hv as [i j E|vs ws H|x Hx]; [|rewrite (f2_length _ _ _ H); go|destruct x; try discriminate; go].
      apply (sj_hget_bind b vr i j _ _ E). intros o o' [c a1 a2 Ho|vs ws Ho]; [go|]. rewrite (f2_length _ _ _ Ho). go.
    + rewrite EI. go.
    + destruct Hv as [i j E|vs ws H|x Hx]; [go|go|destruct x; try discriminate; go].
    + destruct Hv as [i j E|vs ws H|x Hx]; [go|go|destruct x; try discriminate; go].
    + destruct Hv as [i j E|vs ws H|x Hx]; [go|go|destruct x; try discriminate; go].
    + apply (sj_state b vr (fun s => Ok (VBool (truth (heap s) v))) (fun s => Ok (VBool (truth (heap s) w)))). intros s t S. rewrite (vr_truth b s t v w S Hv). now apply vr_atom.
    + destruct Hv as [i j E|vs ws H|x Hx]; [go|go|destruct x; try discriminate; go].
    + rewrite EI. go.
    + eapply sj_bind; [now apply sj_iter|]. intros b' x y E Hx. apply sj_halloc. now constructor.
    + assert (G : forall v w, vr b v w -> sj b vr (vs <- iter_vals v ;; match bytes_of vs with inl l => ret (VBytes l) | inr e => raise e end) (vs <- iter_vals w ;; match bytes_of vs with inl l => ret (VBytes l) | inr e => raise e end)).
      { intros v0 w0 H0. eapply sj_bind; [now apply sj_iter|]. intros b' x y E Hx. rewrite (vr_bytes b' x y Hx). go. }
      destruct Hv as [i j E|vs ws H|x Hx]; [apply G; now constructor|apply G; now constructor|]. destruct x; try discriminate; try (go; fail); apply G; now constructor.
    + eapply sj_bind; [now apply sj_iter|]. intros b' x y E Hx. apply (sj_state b' vr (fun s => Ok (VTuple (filter (truth (heap s)) x))) (fun s => Ok (VTuple (filter (truth (heap s)) y)))).
      intros s t S. constructor. now apply vr_filter.
    + rewrite EI. go.
    + destruct Hv as [i j E|vs ws H|x Hx]; [go|go|destruct x; try discriminate; go].
    + destruct Hv as [i j E|vs ws H|x Hx]; [go|go|destruct x; try discriminate; go].
  - pose proof (vr_as_int _ _ _ Hv) as EI. pose proof (vr_as_int _ _ _ Hv2) as EI2. destruct Hl as [|v3 w3 l l' Hv3 Hl].
    + destruct f; cbn [builtin_val]; try (destruct Hv as [i j E|vs ws H|x Hx]; [go|go|destruct x; try discriminate; go]; fail); try (go; fail).
      * rewrite EI, EI2. go.
      * destruct Hv as [i j E|vs ws H|x Hx]; [go|go|destruct x; try discriminate; try (go; fail)]. destruct (find_fcode cs fcodes) as [c|]; [|go].
        intros s t S. rewrite (vr_pack b s t c v2 w2 S Hv2). destruct (pack (heap t) c w2); exists b; (split; [apply fr_refl|]); (split; [exact S|]); [now apply vr_atom|reflexivity].
      * destruct Hv as [i j E|vs ws H|x Hx]; [go|go|destruct x; try discriminate; try (go; fail)]. destruct Hv2 as [i j E|vs ws H|x Hx']; [go|go|destruct x; try discriminate; try (go; fail)].
        destruct (find_fcode cs fcodes) as [c|]; [|go]. destruct (unpack c l) as [v|] eqn:U; [|go]. apply sj_ret. constructor. constructor; [|constructor].
        apply vr_atom. unfold unpack in U. destruct (Nat.eqb _ _); [|discriminate]. injection U as <-. destruct c; reflexivity.
    + assert (G : forall x y z r, builtin_val f (x :: y :: z :: r) = raise TypeError).
      { intros x y z r. destruct f; try reflexivity; destruct x; try reflexivity; try (destruct cs as [|? [|? ?]]; reflexivity); destruct y; reflexivity. }
      rewrite !G. go.
Qed.

(** ** Programs *)
Section Prog.
Variable P : prog.
Hypothesis HP : no_shared_defaults P = true.
Definition okm (m : meth) : Prop := nocell m = true.
Inductive cr (b : list nat) : callee -> callee -> Prop :=
| cr_meth m pre pre' : okm m -> vrs b pre pre' -> cr b (KMeth m pre) (KMeth m pre')
| cr_new c a a' : er b a a' -> cr b (KNew c a) (KNew c a')
| cr_bits fs : cr b (KNewBits fs) (KNewBits fs)
| cr_native v w m : vr b v w -> cr b (KNative v m) (KNative w m)
| cr_sv : cr b KGetSV KGetSV.
Lemma cr_ext b b' c c' : ext b b' -> cr b c c' -> cr b' c c'.
Proof. intros E []; constructor; eauto using er_ext, vr_ext; try (eapply vrs_ext; eassumption). Qed.
Inductive ocr (b : list nat) : option callee -> option callee -> Prop :=
| ocr_none : ocr b None None
| ocr_some c c' : cr b c c' -> ocr b (Some c) (Some c').

Lemma er_pos b ps args args' : vrs b args args' ->
  match bind_pos ps args, bind_pos ps args' with Some (e, q), Some (e', q') => er b e e' /\ q = q' | None, None => True | _, _ => False end.
Proof.
  intros H. revert ps. induction H as [|x y l l' Hx _ IH]; intros ps; [destruct ps; (split; [constructor|reflexivity])|]. destruct ps as [|[z d] qs]; [exact I|]. cbn [bind_pos]. specialize (IH qs).
  destruct (bind_pos qs l) as [[e q]|], (bind_pos qs l') as [[e' q']|]; try contradiction; [|exact I]. destruct IH as [A ->]. split; [constructor; [split; auto|exact A]|reflexivity].
Qed.
Lemma er_filter b (f : string -> bool) e e' : er b e e' -> er b (filter (fun p => f (fst p)) e) (filter (fun p => f (fst p)) e').
Proof. induction 1 as [|[y v] [y' w] l l' [H1 H2] _ IH]; [constructor|]. cbn in H1, H2. subst y'. cbn [filter fst]. destruct (f y); [constructor; [split; auto|exact IH]|exact IH]. Qed.
Lemma er_rest b ps : forallb (fun p : string * option dflt => match snd p with Some (DCell _) => false | _ => true end) ps = true -> forall kw kw', er b kw kw' ->
  match bind_rest ps kw, bind_rest ps kw' with Some e, Some e' => er b e e' | None, None => True | _, _ => False end.
Proof.
  induction ps as [|[x d] qs IH]; intros Hc kw kw' H; cbn [bind_rest]; [destruct H; [constructor|exact I]|]. cbn [forallb snd] in Hc. apply andb_prop in Hc as [Hd Hc]. pose proof (er_assoc b kw kw' x H) as A.
  destruct (assoc x kw) as [v|], (assoc x kw') as [w|]; try contradiction.
  - specialize (IH Hc _ _ (er_filter b (fun y => negb (String.eqb x y)) kw kw' H)). cbv beta in IH. destruct (bind_rest qs _), (bind_rest qs _); try contradiction; [|exact I]. constructor; [split; auto|exact IH].
  - destruct d as [[l|n]|]; try discriminate; [|exact I]. specialize (IH Hc _ _ H). destruct (bind_rest qs kw), (bind_rest qs kw'); try contradiction; [|exact I]. constructor; [split; [reflexivity|apply vr_atom, lit_atom]|exact IH].
Qed.
Lemma f2_firstn {A B} (R : A -> B -> Prop) n l l' : Forall2 R l l' -> Forall2 R (firstn n l) (firstn n l').
Proof. intros H. revert n. induction H; intros [|n]; simpl; constructor; auto. Qed.
Lemma f2_skipn {A B} (R : A -> B -> Prop) n l l' : Forall2 R l l' -> Forall2 R (skipn n l) (skipn n l').
Proof. intros H. revert n. induction H; intros [|n]; simpl; try constructor; auto. Qed.
Lemma er_combine b kws vs ws : vrs b vs ws -> er b (combine kws vs) (combine kws ws).
Proof. intros H. revert kws. induction H as [|x y l l' Hx _ IH]; intros [|a r]; simpl; try constructor; [split; auto|apply IH]. Qed.
Lemma er_bind b ps args args' kws : forallb (fun p : string * option dflt => match snd p with Some (DCell _) => false | _ => true end) ps = true -> vrs b args args' ->
  match bind_args ps args kws, bind_args ps args' kws with Some e, Some e' => er b e e' | None, None => True | _, _ => False end.
Proof.
  intros Hc H. unfold bind_args. rewrite <- (f2_length _ _ _ H). set (n := length args - length kws). pose proof (er_pos b ps _ _ (f2_firstn _ n _ _ H)) as A.
  destruct (bind_pos ps (firstn n args)) as [[e q]|] eqn:E, (bind_pos ps (firstn n args')) as [[e' q']|]; try contradiction; [|exact I]. destruct A as [A <-].
  pose proof (er_rest b q (bind_pos_nocell _ _ _ _ E Hc) _ _ (er_combine b kws _ _ (f2_skipn _ n _ _ H))) as Q.
  destruct (bind_rest q (combine kws (skipn n args))), (bind_rest q (combine kws (skipn n args'))); try contradiction; [|exact I]. now apply Forall2_app.
Qed.

Section Call.
Variable call : meth -> list val -> list string -> M val.
Hypothesis Hcall : forall b m args args' kws, okm m -> vrs b args args' -> sj b vr (call m args kws) (call m args' kws).

Lemma lk c m k : lookup P c m = Some (MMeth k) -> okm k.
Proof. exact (lookup_ok P HP c m (MMeth k)). Qed.
Lemma sj_get_attr b v w a : vr b v w -> sj b vr (get_attr P call v a) (get_attr P call w a).
Proof.
  intros H. unfold get_attr. destruct H as [i j E|vs ws H|x Hx]; [|go|destruct x; try discriminate; try (go; fail)].
  - apply (sj_hget_bind b vr i j _ _ E). intros o o' [c a1 a2 Ho|vs ws Ho]; [|go]. pose proof (er_assoc b a1 a2 a Ho) as A. destruct (lookup P c a) as [[m|l]|] eqn:L.
    + destruct (m_kind m); try (destruct (assoc a a1), (assoc a a2); try contradiction; [now apply sj_ret|go]; fail). apply Hcall; [eapply lk; eauto|]. constructor; [now constructor|constructor].
    + destruct (assoc a a1), (assoc a a2); try contradiction; apply sj_ret; [exact A|apply vr_atom, lit_atom].
    + destruct (assoc a a1), (assoc a a2); try contradiction; [now apply sj_ret|go].
  - destruct (lookup P c a) as [[m|l]|]; [go| |go]. apply sj_ret, vr_atom, lit_atom.
Qed.
Lemma sj_set_attr b v w a x y : vr b v w -> vr b x y -> sj b un (set_attr P v a x) (set_attr P w a y).
Proof.
  intros H Hx. unfold set_attr. destruct H as [i j E|vs ws H|z Hz]; [|go|destruct z; try discriminate; go].
  apply (sj_hget_bind b un i j _ _ E). intros o o' [c a1 a2 Ho|vs ws Ho]; [|go].
  assert (G : sj b un (hset i (HInst c (upd a x a1))) (hset j (HInst c (upd a y a2)))) by (eapply sj_hset; [exact E|]; constructor; now apply er_upd).
  destruct (lookup P c a) as [[m|l]|]; [destruct (m_kind m)|..]; first [exact G|go].
Qed.
Lemma sj_has_attr b v w a : vr b v w -> sj b vr (has_attr P v a) (has_attr P w a).
Proof.
  intros H. unfold has_attr. destruct H as [i j E|vs ws H|z Hz]; [|go|destruct z; try discriminate; go].
  apply (sj_hget_bind b vr i j _ _ E). intros o o' [c a1 a2 Ho|vs ws Ho]; [|go]. pose proof (er_assoc b a1 a2 a Ho) as A. destruct (assoc a a1), (assoc a a2); try contradiction; destruct (lookup P c a); at_.
Qed.
Ltac kn := apply sj_ret; first [apply cr_bits | apply cr_sv | apply cr_native; constructor; solve [auto] | apply cr_native, vr_atom; reflexivity].
Ltac gk := repeat first [ apply sj_raise | kn | match goal with |- sj _ _ (match ?x with _ => _ end) (match ?x with _ => _ end) => destruct x end ].
Lemma sj_resolve b v w m : vr b v w -> sj b cr (resolve P v m) (resolve P w m).
Proof.
  intros H. destruct H as [i j E|vs ws H|z Hz]; cbn [resolve]; [|gk|destruct z; try discriminate; cbn [resolve]; try (gk; fail)].
  - apply (sj_hget_bind b cr i j _ _ E). intros o o' [c a1 a2 Ho|vs ws Ho].
    + pose proof (er_assoc b a1 a2 m Ho) as A. destruct (lookup P c m) as [[k|l]|] eqn:L.
      * destruct (m_kind k); try apply sj_raise; apply sj_ret; (constructor; [eapply lk; eauto|]); repeat constructor; exact E.
      * gk.
      * destruct (assoc m a1), (assoc m a2); try contradiction; gk.
    + destruct (String.eqb m "append"); [|gk]. apply sj_ret. constructor. now constructor.
  - destruct (lookup P "DataInputStream" m) as [[k|l]|] eqn:L; try apply sj_raise. apply sj_ret. constructor; [eapply lk; eauto|]. now repeat constructor.
  - destruct (lookup P "DataOutputStream" m) as [[k|l]|] eqn:L; try apply sj_raise. apply sj_ret. constructor; [eapply lk; eauto|]. now repeat constructor.
  - destruct (lookup P c m) as [[k|l]|] eqn:L; try apply sj_raise. apply sj_ret. constructor; [eapply lk; eauto|]. constructor.
Qed.
Lemma sj_resolve_super b v w c m : vr b v w -> sj b ocr (resolve_super P v c m) (resolve_super P w c m).
Proof.
  intros H. destruct H as [i j E|vs ws H|z Hz]; cbn [resolve_super]; [|go|destruct z; try discriminate; go].
  apply (sj_hget_bind b ocr i j _ _ E). intros o o' [d a1 a2 Ho|vs ws Ho]; [|go]. destruct (after c (mro P d)) as [rest|]; [|go]. destruct (lookup_in P rest m) as [[k|l]|] eqn:L; [|go|].
  - destruct (m_kind k); try apply sj_raise; apply sj_ret; constructor; (constructor; [exact (lookup_in_ok P HP _ _ _ L)|]); repeat constructor; exact E.
  - destruct (String.eqb m "__init__"); [|go]. apply sj_ret. constructor.
Qed.
Lemma sj_raw_read b n : sj b vr (raw_read n) (raw_read n).
Proof.
  intros s t S. unfold raw_read. pose proof S as [L N O R F U]. rewrite R. exists b. cbn [fst snd]. split; [exists 0; cbn [heap]; rewrite app_nil_r; repeat split; auto with arith|]. split; [|now apply vr_atom].
  split; cbn [heap irest ifull out]; auto.
Qed.
Lemma sj_raw_write b l : sj b vr (raw_write l) (raw_write l).
Proof.
  intros s t S. unfold raw_write. pose proof S as [L N O R F U]. exists b. cbn [fst snd]. split; [exists 0; cbn [heap]; rewrite app_nil_r; repeat split; auto with arith|]. split; [|now apply vr_atom].
  split; cbn [heap irest ifull out]; auto. now rewrite U.
Qed.
Lemma sj_raw_seek b n : sj b un (raw_seek n) (raw_seek n).
Proof.
  intros s t S. unfold raw_seek. pose proof S as [L N O R F U]. exists b. cbn [fst snd]. split; [exists 0; cbn [heap]; rewrite app_nil_r; repeat split; auto with arith|]. split; [|exact I].
  split; cbn [heap irest ifull out]; auto. now rewrite F.
Qed.
Lemma sj_native b v w m args args' : vr b v w -> vrs b args args' -> sj b vr (native P call v m args) (native P call w m args').
Proof.
  intros H Ha. destruct Ha as [|x y l l' Hx Hl]; [destruct H as [i j E|vs ws H|z Hz]; cbn [native]; [go|go|destruct z; try discriminate; cbn [native]; go]|]. destruct Hl as [|x2 y2 l l' Hx2 Hl].
  2: { destruct H as [i j E|vs ws H|z Hz]; cbn [native]; [go|go|]. destruct z; try discriminate; cbn [native]; try (go; fail); destruct Hx as [i j E|vs ws H|z Hz']; cbn [native]; try (go; fail); destruct z; try discriminate; go. }
  destruct H as [i j E|vs ws H|z Hz]; cbn [native]; [|go|].
  - apply (sj_hget_bind b vr i j _ _ E). intros o o' [d a1 a2 Ho|vs ws Ho]; [go|]. eapply sj_bind; [eapply sj_hset; [exact E|]|intros b' ? ? _ _; go]. constructor. apply Forall2_app; [exact Ho|]. now constructor.
  - pose proof (vr_as_int _ _ _ Hx) as EI. destruct z; try discriminate; cbn [native]; try (go; fail).
    + destruct Hx as [i j E|vs ws H|z Hz']; cbn [native]; [go|go|]. destruct z; try discriminate; go.
    + destruct Hx as [i j E|vs ws H|z Hz']; cbn [as_int]; [go|go|]. destruct z; try discriminate; cbn [as_int]; try apply sj_raise; apply sj_raw_read.
    + destruct Hx as [i j E|vs ws H|z Hz']; [go|go|]. destruct z; try discriminate; try apply sj_raise. apply sj_raw_write.
    + destruct (String.eqb m "parse"); [|go]. eapply sj_bind; [now apply sj_resolve|]. intros b1 c c' E1 Hc. destruct Hc as [k pre pre' Hk Hp|? ? ? ?|?|? ? ? ?|]; try apply sj_raise.
      eapply sj_bind; [apply Hcall; [exact Hk|]; apply Forall2_app; [exact Hp|]; constructor; [now apply vr_atom|constructor]|]. intros b2 r r' E2 Hr. destruct Hr as [i j E|vs ws H|z Hz']; [go|go|]. destruct z; try discriminate; go.
    + destruct (String.eqb m "serialize"); [|go]. eapply sj_bind; [now apply sj_resolve|]. intros b1 c c' E1 Hc. destruct Hc as [k pre pre' Hk Hp|? ? ? ?|?|? ? ? ?|]; try apply sj_raise.
      eapply sj_bind; [apply Hcall; [exact Hk|]; apply Forall2_app; [exact Hp|]; constructor; [now apply vr_atom|constructor]|]. intros b2 r r' E2 Hr. go.
Qed.
Lemma getSV_vr b x y z w : vr b x y -> vr b z w -> getStandardVariableClass P x z = getStandardVariableClass P y w.
Proof. intros H K. unfold getStandardVariableClass. rewrite (vr_as_int _ _ _ H). destruct K as [i j E|vs ws K|u Hu]; [|..]; reflexivity. Qed.
Lemma getSV_atom x y v : getStandardVariableClass P x y = inl v -> atom v = true.
Proof.
  unfold getStandardVariableClass. destruct (as_int x); [|discriminate]. destruct (_ <? _)%Z; [discriminate|]. destruct y; try discriminate.
  destruct (zassoc z variableRecordClasses); destruct (existsb _ _); try discriminate; intros [= <-]; reflexivity.
Qed.
Lemma sj_apply b c c' args args' kws : cr b c c' -> vrs b args args' -> sj b vr (apply P call c args kws) (apply P call c' args' kws).
Proof.
  intros Hc Ha. destruct Hc as [m pre pre' Hm Hp|cn a a' He|fs|v w m Hv|]; cbn [apply].
  - apply Hcall; [exact Hm|]. now apply Forall2_app.
  - destruct (is_abstract P cn); [go|]. eapply sj_bind; [apply sj_halloc; constructor; exact He|]. intros b1 o o' E Ho. destruct (lookup P cn "__init__") as [[m|l]|] eqn:L; [|go|].
    + eapply sj_bind; [apply Hcall; [eapply lk; eauto|constructor; [exact Ho|eapply vrs_ext; eauto]]|]. intros b2 r r' E2 _. apply sj_ret. eapply vr_ext; eauto.
    + destruct Ha; [now apply sj_ret|go].
  - destruct kws; [|go]. rewrite (vr_as_ints b args args' Ha). go.
  - destruct kws; [|go]. now apply sj_native.
  - destruct Ha as [|x y l l' Hx Hl]; [go|]. destruct Hl as [|x2 y2 l l' Hx2 Hl].
    + destruct kws; [|go]. rewrite (getSV_vr b x y _ _ Hx (vr_atom b (VClass "StandardVariableRecord") eq_refl)). destruct (getStandardVariableClass P y _) eqn:G; [|go]. apply sj_ret, vr_atom. eapply getSV_atom; eauto.
    + destruct Hl; [|go]. destruct kws; [|go]. rewrite (getSV_vr b x y _ _ Hx Hx2). destruct (getStandardVariableClass P y _) eqn:G; [|go]. apply sj_ret, vr_atom. eapply getSV_atom; eauto.
Qed.
Lemma sj_callee_of b v w : vr b v w -> sj b cr (callee_of P v) (callee_of P w).
Proof.
  intros [i j E|vs ws H|z Hz]; cbn [callee_of]; [go|go|]. destruct z; try discriminate; cbn [callee_of]; try apply sj_raise; try (apply sj_ret; repeat constructor; fail).
  destruct (String.eqb f "getStandardVariableClass"); [apply sj_ret; constructor|]. destruct (assoc f (p_funs P)) as [m|] eqn:E; [|go]. apply sj_ret. constructor; [eapply funs_ok; eauto|constructor].
Qed.
Lemma sj_glob b x : sj b vr (glob P x) (glob P x).
Proof. unfold glob. go. Qed.
Lemma sj_if {A B} b (R : list nat -> A -> B -> Prop) v w (x x' : M A) (y y' : M B) : vr b v w -> sj b R x y -> sj b R x' y' ->
  sj b R (fun s => if truth (heap s) v then x s else x' s) (fun s => if truth (heap s) w then y s else y' s).
Proof. intros Hv H H' s t S. rewrite (vr_truth b s t v w S Hv). destruct (truth (heap t) w); auto. Qed.

Lemma sj_eval_list es : Forall (fun e => forall b r q, er b r q -> sj b vr (eval P call e r) (eval P call e q)) es ->
  forall b r q, er b r q -> sj b vrs (eval_list (eval P call) es r) (eval_list (eval P call) es q).
Proof.
  induction 1 as [|e l He _ IH]; intros b r q H; cbn [eval_list]; [apply sj_ret; constructor|]. eapply sj_bind; [apply He, H|]. intros b1 v w E1 Hv. eapply sj_bind; [apply IH; eapply er_ext; eauto|].
  intros b2 vs ws E2 Hvs. apply sj_ret. constructor; [eapply vr_ext; eauto|exact Hvs].
Qed.
Lemma sj_eval e : forall b r q, er b r q -> sj b vr (eval P call e r) (eval P call e q).
Proof.
  induction e using expr_ind'; intros bb r q HE; cbn [eval].
  - apply sj_ret, vr_atom, lit_atom.
  - pose proof (er_assoc bb r q x HE) as A. destruct (assoc x r), (assoc x q); try contradiction; [now apply sj_ret|go].
  - apply sj_glob.
  - eapply sj_bind; [apply IHe, HE|]. intros b1 v w E1 Hv. now apply sj_get_attr.
  - eapply sj_bind; [apply IHe1, HE|]. intros b1 v w E1 Hv. eapply sj_bind; [apply IHe2; eapply er_ext; eauto|]. intros b2 i j E2 Hi. apply sj_sub; [eapply vr_ext; eauto|exact Hi].
  - eapply sj_bind; [apply IHe, HE|]. intros b1 v w E1 Hv. eapply sj_bind; [apply sj_callee_of, Hv|]. intros b2 c c' E2 Hc. eapply sj_bind; [apply sj_eval_list; [eassumption|]; eapply er_ext; [|exact HE]; eapply ext_trans; eauto|].
    intros b3 vs ws E3 Hvs. apply sj_apply; [eapply cr_ext; eauto|exact Hvs].
  - eapply sj_bind; [apply IHe, HE|]. intros b1 v w E1 Hv. eapply sj_bind; [apply sj_resolve, Hv|]. intros b2 c c' E2 Hc. eapply sj_bind; [apply sj_eval_list; [eassumption|]; eapply er_ext; [|exact HE]; eapply ext_trans; eauto|].
    intros b3 vs ws E3 Hvs. apply sj_apply; [eapply cr_ext; eauto|exact Hvs].
  - pose proof (er_assoc bb r q "self" HE) as A. destruct (assoc "self" r) as [v|], (assoc "self" q) as [w|]; try contradiction; [|go].
    eapply sj_bind; [apply sj_resolve_super, A|]. intros b1 o o' E1 Ho. eapply sj_bind; [apply sj_eval_list; [eassumption|]; eapply er_ext; eauto|]. intros b2 vs ws E2 Hvs.
    destruct Ho as [|k k' Hk]; [destruct Hvs; go|]. apply sj_apply; [eapply cr_ext; eauto|exact Hvs].
  - eapply sj_bind; [apply sj_eval_list; eassumption|]. intros b1 vs ws E1 Hvs. now apply sj_builtin.
  - eapply sj_bind; [apply IHe, HE|]. intros b1 v w E1 Hv. now apply sj_has_attr.
  - eapply sj_bind; [apply sj_eval_list; eassumption|]. intros b1 vs ws E1 Hvs. apply sj_halloc. now constructor.
  - eapply sj_bind; [apply sj_eval_list; eassumption|]. intros b1 vs ws E1 Hvs. apply sj_ret. now constructor.
  - eapply sj_bind; [apply IHe1, HE|]. intros b1 v w E1 Hv. apply (sj_if b1 vr v w (ret v) _ (ret w)); [exact Hv|now apply sj_ret|]. apply IHe2. eapply er_ext; eauto.
  - eapply sj_bind; [apply IHe1, HE|]. intros b1 v w E1 Hv. apply (sj_if b1 vr v w _ (ret v) _ (ret w)); [exact Hv| |now apply sj_ret]. apply IHe2. eapply er_ext; eauto.
  - eapply sj_bind; [apply IHe, HE|]. intros b1 v w E1 Hv. apply (sj_state b1 vr (fun s => Ok (VBool (negb (truth (heap s) v)))) (fun s => Ok (VBool (negb (truth (heap s) w))))).
    intros s t S. rewrite (vr_truth b1 s t v w S Hv). now apply vr_atom.
  - eapply sj_bind; [apply IHe1, HE|]. intros b1 v w E1 Hv. eapply sj_bind; [apply IHe2; eapply er_ext; eauto|]. intros b2 i j E2 Hi. apply sj_binop; [eapply vr_ext; eauto|exact Hi].
  - eapply sj_bind; [apply IHe1, HE|]. intros b1 v w E1 Hv. eapply sj_bind; [apply IHe2; eapply er_ext; eauto|]. intros b2 i j E2 Hi. apply sj_cmp; [eapply vr_ext; eauto|exact Hi].
  - eapply sj_bind; [apply IHe1, HE|]. intros b1 v w E1 Hv. apply sj_if; [exact Hv|apply IHe2; eapply er_ext; eauto|apply IHe3; eapply er_ext; eauto].
Qed.

Definition rr (b : list nat) (p q : R) : Prop := er b (fst p) (fst q) /\ match snd p, snd q with Some v, Some w => vr b v w | None, None => True | _, _ => False end.
Lemma sj_block l : Forall (fun c => forall b r q, er b r q -> sj b rr (exec P call c r) (exec P call c q)) l ->
  forall b r q, er b r q -> sj b rr (run_block (exec P call) l r) (run_block (exec P call) l q).
Proof.
  induction 1 as [|c l Hc _ IH]; intros b r q H; cbn [run_block]; [apply sj_ret; now split|]. eapply sj_bind; [apply Hc, H|]. intros b1 p p' E1 [A B]. 
  destruct (snd p) as [v|] eqn:Ep, (snd p') as [w|] eqn:Ep'; try contradiction; [|now apply IH]. apply sj_ret. split; [exact A|]. now rewrite Ep, Ep'.
Qed.
Lemma sj_for bd x : (forall b r q, er b r q -> sj b rr (bd r) (bd q)) -> forall b vs ws r q, vrs b vs ws -> er b r q -> sj b rr (for_loop bd x vs r) (for_loop bd x ws q).
Proof.
  intros Hb. assert (G : forall vs b ws r q, vrs b vs ws -> er b r q -> sj b rr (for_loop bd x vs r) (for_loop bd x ws q)); [|intros; eapply G; eauto].
  induction vs as [|v vs IH]; intros b ws r q H HE; inversion H as [|? w ? ws' Hv Hvs]; subst; cbn [for_loop]; [apply sj_ret; now split|]. eapply sj_bind; [apply Hb, er_upd; eauto|]. intros b1 p p' E1 [A B].
  destruct (snd p) as [u|] eqn:Ep, (snd p') as [u'|] eqn:Ep'; try contradiction; [|apply IH; [eapply vrs_ext; eauto|exact A]]. apply sj_ret. split; [exact A|]. now rewrite Ep, Ep'.
Qed.
Lemma sj_exec c : forall b r q, er b r q -> sj b rr (exec P call c r) (exec P call c q).
Proof.
  induction c using stmt_ind'; intros bb r q HE; cbn [exec].
  - eapply sj_bind; [apply sj_eval, HE|]. intros b1 v w E1 Hv. apply sj_ret. split; [eapply er_ext; eauto|exact I].
  - eapply sj_bind; [apply sj_eval, HE|]. intros b1 v w E1 Hv. apply sj_ret. split; [apply er_upd; [eapply er_ext; eauto|exact Hv]|exact I].
  - eapply sj_bind; [apply sj_eval, HE|]. intros b1 v w E1 Hv. eapply sj_bind; [apply sj_eval; eapply er_ext; eauto|]. intros b2 ov ov' E2 Ho.
    eapply sj_bind; [apply sj_set_attr; [exact Ho|eapply vr_ext; eauto]|]. intros b3 ? ? E3 _. apply sj_ret. split; [|exact I]. eapply er_ext; [|exact HE]. eauto using ext_trans.
  - eapply sj_bind; [apply sj_eval, HE|]. intros b1 v w E1 Hv. eapply sj_bind; [apply sj_eval; eapply er_ext; eauto|]. intros b2 ov ov' E2 Ho.
    eapply sj_bind; [apply sj_eval; eapply er_ext; [|exact HE]; eauto using ext_trans|]. intros b3 iv iv' E3 Hi.
    eapply sj_bind; [apply sj_set_sub; [eapply vr_ext; eauto|exact Hi|eapply vr_ext; [|exact Hv]; eauto using ext_trans]|]. intros b4 ? ? E4 _. apply sj_ret. split; [|exact I]. eapply er_ext; [|exact HE]. eauto using ext_trans.
  - eapply sj_bind; [apply sj_eval, HE|]. intros b1 v w E1 Hv. apply sj_if; [exact Hv|..]; (apply sj_block; [assumption|eapply er_ext; eauto]).
  - eapply sj_bind; [apply sj_eval, HE|]. intros b1 v w E1 Hv. eapply sj_bind; [apply sj_iter, Hv|]. intros b2 vs ws E2 Hvs. apply sj_for; [|exact Hvs|eapply er_ext; [|exact HE]; eauto using ext_trans].
    intros b3 r3 q3 H3. apply sj_block; assumption.
  - eapply sj_bind; [apply sj_eval, HE|]. intros b1 v w E1 Hv. apply sj_ret. split; [eapply er_ext; eauto|exact Hv].
  - apply sj_raise.
  - eapply sj_bind; [apply sj_eval, HE|]. intros b1 v w E1 Hv. apply (sj_if b1 rr v w (ret (r, None)) (raise AssertionError) (ret (q, None)) (raise AssertionError)); [exact Hv|apply sj_ret; split; [eapply er_ext; eauto|exact I]|apply sj_raise].
  - apply sj_ret. now split.
Qed.
End Call.

Theorem sj_run n : forall b m args args' kws, okm m -> vrs b args args' -> sj b vr (run P n m args kws) (run P n m args' kws).
Proof.
  induction n as [|n IH]; intros b m args args' kws Hm Ha; cbn [run]; [apply sj_raise|]. pose proof (er_bind b (m_params m) args args' kws Hm Ha) as B.
  destruct (bind_args (m_params m) args kws) as [r|], (bind_args (m_params m) args' kws) as [q|]; try contradiction; [|go].
  eapply sj_bind; [apply sj_block; [|exact B]; apply Forall_forall; intros c _ b1 r1 q1 H1; apply sj_exec; [exact IH|exact H1]|]. intros b1 p p' E1 [_ H]. apply sj_ret. destruct (snd p), (snd p'); try contradiction; [exact H|now apply vr_atom].
Qed.
Theorem sj_call_method n b v w m args args' : vr b v w -> vrs b args args' -> sj b vr (call_method P n v m args) (call_method P n w m args').
Proof. intros H Ha. eapply sj_bind; [apply sj_resolve, H|]. intros b1 c c' E1 Hc. apply sj_apply; [apply sj_run|exact Hc|eapply vrs_ext; eauto]. Qed.
Theorem sj_new n b c args args' : vrs b args args' -> sj b vr (new P n c args) (new P n c args').
Proof. intros Ha. apply sj_apply; [apply sj_run|constructor; constructor|exact Ha]. Qed.
Theorem sj_getPdu table n b : sj b vr (getPdu P table n) (getPdu P table n).
Proof.
  eapply sj_bind; [apply sj_raw_seek|]. intros b1 ? ? E1 _. eapply sj_bind; [apply sj_call_method; [now apply vr_atom|constructor]|]. intros b2 t t' E2 Ht. eapply sj_bind; [apply sj_raw_seek|]. intros b3 ? ? E3 _.
  destruct Ht as [i j E|vs ws H|x Hx]; [go|go|]. destruct x; try discriminate; try apply sj_raise. destruct (zassoc z table) as [cn|]; [|go].
  eapply sj_bind; [apply sj_new; constructor|]. intros b4 p p' E4 Hp. eapply sj_bind; [apply sj_call_method; [exact Hp|constructor; [now apply vr_atom|constructor]]|]. intros b5 ? ? E5 _. apply sj_ret. eapply vr_ext; eauto.
Qed.
End Prog.
