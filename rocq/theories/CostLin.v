(** * Checked code takes time linear in what it reads

    Soundness of the check of CostCheck.v: a function that passes it takes a number of steps that is at most a constant
    (depending on the program and on the call depth) times one plus the number of bytes it reads, however it ends, and so it adds at
    most that much to the heap.  No theorem of this file depends on the translated program. *)
From Coq Require Import ZArith String List Bool Lia PeanoNat.
From Coq Require Import Strings.Byte.
From Verif Require Import Lang Ind Bytes Interp Inv Cost CostCheck.
Import ListNotations.
Open Scope string_scope. Open Scope list_scope. Open Scope nat_scope.

Definition rl (s : st) : nat := length (irest s).
Definition b2n (b : bool) : nat := if b then 1 else 0.

(** [mt] run from [s] takes at most [k] steps per byte read (and [k] more), reads at least [u] bytes if it succeeds, and then [ok] holds *)
Definition bd {A} (k u : nat) (ok : A -> st -> Prop) (mt : MT A) (s : st) : Prop :=
  match mt s with
  | (t, (r, s')) =>
      evolves s s' /\ t <= k * (1 + (rl s - rl s')) /\ hsize (heap s') <= hsize (heap s) + t /\
      (forall a, r = Ok a -> ok a s' /\ u + rl s' <= rl s)
  end.

Lemma evolves_rl s s' : evolves s s' -> rl s' <= rl s.
Proof. intros (_ & (u & E) & _). unfold rl. rewrite E, app_length. lia. Qed.

Lemma bd_weak {A} k k' u u' (ok ok' : A -> st -> Prop) mt s : bd k u ok mt s -> k <= k' -> u' <= u -> (forall a s', evolves s s' -> ok a s' -> ok' a s') -> bd k' u' ok' mt s.
Proof.
  unfold bd. destruct (mt s) as [t [r s']]. intros (H1 & H2 & H3 & H4) Hk Hu Ho. split; [exact H1|]. split; [nia|]. split; [exact H3|].
  intros a E. destruct (H4 _ E). split; auto. lia.
Qed.
Lemma bd_ret {A} (a : A) (ok : A -> st -> Prop) s k : ok a s -> bd k 0 ok (retT a) s.
Proof. intros H. unfold bd, retT. split; [apply evolves_refl|]. split; [lia|]. split; [lia|]. intros b [= <-]. auto. Qed.
Lemma bd_tick {A} n k u (ok : A -> st -> Prop) mt s : bd k u ok mt s -> bd (n + k) u ok (tick n mt) s.
Proof. unfold bd, tick. destruct (mt s) as [t [r s']]. intros (H1 & H2 & H3 & H4). split; [exact H1|]. split; [nia|]. split; [lia|exact H4]. Qed.
Lemma bd_bind {A B} k1 k2 u1 u2 (ok1 : A -> st -> Prop) (ok2 : B -> st -> Prop) m f s :
  bd k1 u1 ok1 m s -> (forall a s', evolves s s' -> ok1 a s' -> u1 + rl s' <= rl s -> bd k2 u2 ok2 (f a) s') -> bd (k1 + k2) (u1 + u2) ok2 (bindT m f) s.
Proof.
  unfold bd at 1 3, bindT. destruct (m s) as [t [[a|e] s1]]; intros (H1 & H2 & H3 & H4) K.
  - destruct (H4 a eq_refl) as (O & U). specialize (K a s1 H1 O U). unfold bd in K. destruct (f a s1) as [t2 [r s2]]. destruct K as (K1 & K2 & K3 & K4).
    pose proof (evolves_rl _ _ H1). pose proof (evolves_rl _ _ K1). split; [|split; [|split; [lia|]]].
    + eapply evolves_trans; eauto.
    + enough (k1 * (1 + (rl s - rl s1)) <= k1 * (1 + (rl s - rl s2)) /\ k2 * (1 + (rl s1 - rl s2)) <= k2 * (1 + (rl s - rl s2))) by lia. split; apply Nat.mul_le_mono_l; lia.
    + intros b E. destruct (K4 _ E). split; auto. lia.
  - split; [exact H1|]. split; [nia|]. split; [exact H3|discriminate].
Qed.
Lemma bd_bind0 {A B} k1 k2 u u1 (ok1 : A -> st -> Prop) (ok2 : B -> st -> Prop) m f s :
  bd k1 u1 ok1 m s -> u <= u1 -> (forall a s', evolves s s' -> ok1 a s' -> u1 + rl s' <= rl s -> bd k2 0 ok2 (f a) s') -> bd (k1 + k2) u ok2 (bindT m f) s.
Proof. intros H U K. apply (bd_weak (k1 + k2) _ (u1 + 0) _ ok2); auto; [|lia]. eapply bd_bind; eauto. Qed.

Lemma bd_seq {A B} k1 k2 k u1 u2 u (ok1 : A -> st -> Prop) (ok2 : B -> st -> Prop) m f s :
  bd k1 u1 ok1 m s -> (forall a s', evolves s s' -> ok1 a s' -> u1 + rl s' <= rl s -> bd k2 u2 ok2 (f a) s') -> k1 + k2 <= k -> u <= u1 + u2 -> bd k u ok2 (bindT m f) s.
Proof. intros H F Hk Hu. apply (bd_weak (k1 + k2) _ (u1 + u2) _ ok2); auto. eapply bd_bind; eauto. Qed.
Lemma bd_tick1 {A} k k' u (ok : A -> st -> Prop) mt s : bd k u ok mt s -> 1 + k <= k' -> bd k' u ok (tick 1 mt) s.
Proof. intros H L. apply (bd_weak (1 + k) _ u _ ok); auto. now apply bd_tick. Qed.
Lemma bd_up {A} k u (ok : A -> st -> Prop) mt s : bd k 0 (fun a s' => ok a s' /\ u + rl s' <= rl s) mt s -> bd k u ok mt s.
Proof. unfold bd. destruct (mt s) as [t [r s']]. intros (H1 & H2 & H3 & H4). repeat (split; [assumption|]). intros a E. now destruct (H4 _ E). Qed.
Lemma bd_if {A} k u (ok : A -> st -> Prop) (c : st -> bool) a b s : (c s = true -> bd k u ok a s) -> (c s = false -> bd k u ok b s) -> bd k u ok (fun s => if c s then a s else b s) s.
Proof. intros HA HB. unfold bd in *. destruct (c s); [apply HA|apply HB]; reflexivity. Qed.

(** primitive operations *)
Definition gr {A} (g : nat) (m : M A) : Prop := forall s, hsize (heap (snd (m s))) <= hsize (heap s) + g.
Lemma bd_prim {A} g (m : M A) (ok : A -> st -> Prop) s : ev m -> gr g m -> (forall a s', m s = (Ok a, s') -> evolves s s' -> ok a s') -> bd (1 + g) 0 ok (prim m) s.
Proof.
  intros E G H. unfold bd, prim. specialize (E s). specialize (G s). specialize (H). destruct (m s) as [r s'] eqn:Em. simpl in *.
  pose proof (evolves_rl _ _ E). unfold rl in *. split; [exact E|]. split; [nia|]. split; [lia|]. intros a ->. split; auto.
Qed.
Lemma bd_prim_sure {A} g (m : M A) u (ok : A -> st -> Prop) s : ev m -> gr g m -> (forall a s', m s = (Ok a, s') -> evolves s s' -> ok a s' /\ u + rl s' <= rl s) -> bd (1 + g) u ok (prim m) s.
Proof.
  intros E G H. unfold bd, prim. specialize (E s). specialize (G s). specialize (H). destruct (m s) as [r s'] eqn:Em. simpl in *.
  pose proof (evolves_rl _ _ E). unfold rl in *. split; [exact E|]. split; [nia|]. split; [lia|]. intros a ->. now apply H.
Qed.
Lemma bd_raise {A} e u (ok : A -> st -> Prop) s : bd 1 u ok (prim (raise e)) s.
Proof. apply (bd_prim_sure 0); [apply ev_raise|intros ?; simpl; lia|intros ? ? H; discriminate]. Qed.

Lemma bd_exc {A} e k u (ok : A -> st -> Prop) s : 1 <= k -> bd k u ok (prim (raise e)) s.
Proof. intros. apply (bd_weak 1 _ u _ ok); auto. apply bd_raise. Qed.

Lemma gr_ret {A} (a : A) g : gr g (ret a). Proof. intros s; simpl; lia. Qed.
Lemma gr_raise {A} e g : gr g (@raise A e). Proof. intros s; simpl; lia. Qed.
Lemma gr_hget l g : gr g (hget l). Proof. intros s; simpl; lia. Qed.
Lemma gr_bind {A B} g (m : M A) (k : A -> M B) : gr 0 m -> (forall a, gr g (k a)) -> gr g (bind m k).
Proof. intros H K s. unfold bind. specialize (H s). destruct (m s) as [[a|e] s']; simpl in *; [|lia]. specialize (K a s'). lia. Qed.
Lemma hsize_app a b : hsize (a ++ b) = hsize a + hsize b. Proof. unfold hsize. rewrite map_app. apply list_sum_app. Qed.
Lemma gr_halloc o : gr (osize o) (halloc o). Proof. intros s. simpl. rewrite hsize_app. unfold hsize. simpl. lia. Qed.
Lemma hsize_set h l o o' : nth_error h l = Some o -> hsize (set_nth l o' h) + osize o = hsize h + osize o'.
Proof. revert l. induction h as [|x r IH]; intros [|l] H; try discriminate; simpl in *; [injection H as ->; unfold hsize; simpl; lia|]. specialize (IH _ H). unfold hsize in *. simpl. lia. Qed.
Lemma upd_length {A} x (v : A) l : length (upd x v l) <= S (length l).
Proof. induction l as [|[y w] r IH]; simpl; [lia|]. destruct (String.eqb x y); simpl; lia. Qed.

Ltac gst := first [ apply gr_ret | apply gr_raise | apply gr_hget ].
Ltac gcases := repeat first [ gst | match goal with |- gr _ (bind _ _) => apply gr_bind; [|intros ?] end
  | match goal with |- gr _ (match ?x with _ => _ end) => destruct x end
  | match goal with |- gr _ (if ?x then _ else _) => destruct x end ].

Lemma gr_iter v : gr 0 (iter_vals v). Proof. destruct v; simpl; gcases. Qed.
Lemma gr_sub v i : gr 0 (sub_val v i). Proof. unfold sub_val, nth_val. destruct v; gcases. Qed.
Lemma gr_cmp o a b : gr 0 (cmp_val o a b). Proof. unfold cmp_val. gcases. Qed.
Lemma gr_set_sub v i x : gr 0 (set_sub v i x).
Proof.
  destruct v; try (simpl; gst). intros s. simpl. unfold bind, hget, hset. destruct (nth_error (heap s) l) as [[|vs]|] eqn:E; simpl; try lia.
  destruct (as_int i); simpl; [|lia]. destruct (py_index z (length vs)); simpl; [|lia]. pose proof (hsize_set _ _ _ (HList (set_nth n x vs)) E) as H. simpl in H. rewrite set_nth_length in H. lia.
Qed.
Local Opaque find_fcode fcodes.
Lemma gr_builtin b args : match b with BList | BBytes | BFilterNone => False | _ => True end -> gr 0 (builtin_val b args).
Proof.
  intros N. destruct b; try contradiction; unfold builtin_val; gcases.
  all: intros s; simpl; try match goal with |- context [pack ?h ?c ?v] => destruct (pack h c v) end; simpl; lia.
Qed.
Lemma gr_binop o a b : (o = OMul -> forall l, a <> VRef l) -> gr 0 (binop_val o a b).
Proof.
  intros N. unfold binop_val. destruct o; gcases. exfalso. eapply N; eauto.
Qed.

Section Prog.
Variable P : prog.
Lemma gr_set_attr v a x : gr 1 (set_attr P v a x).
Proof.
  destruct v; try (simpl; gst). intros s. simpl. unfold bind, hget, hset. destruct (nth_error (heap s) l) as [[c at_|]|] eqn:E; simpl; try lia.
  assert (G : hsize (set_nth l (HInst c (upd a x at_)) (heap s)) <= hsize (heap s) + 1).
  { pose proof (hsize_set _ _ _ (HInst c (upd a x at_)) E) as H. simpl in H. pose proof (upd_length a x at_). lia. }
  destruct (lookup P c a) as [[m|]|]; [destruct (m_kind m)| |]; simpl; lia.
Qed.
Lemma gr_has_attr v a : gr 0 (has_attr P v a). Proof. destruct v; simpl; gcases. Qed.
Lemma gr_resolve v a : gr 0 (resolve P v a). Proof. destruct v; simpl; gcases. Qed.
Lemma gr_resolve_super v c a : gr 0 (resolve_super P v c a). Proof. destruct v; simpl; gcases. Qed.
Lemma gr_callee v : gr 0 (callee_of P v). Proof. destruct v; simpl; gcases. Qed.
Lemma gr_glob x : gr 0 (glob P x). Proof. unfold glob. gcases. Qed.
Lemma ev_callee v : ev (callee_of P v). Proof. unfold callee_of. ecases. Qed.
Lemma ev_glob x : ev (glob P x). Proof. unfold glob. ecases. Qed.
Lemma gr_raw_read n : gr 0 (raw_read n). Proof. intros s. simpl. lia. Qed.
Lemma gr_native v m args call : (forall k a b, gr 0 (call k a b)) -> gr 1 (native P call v m args).
Proof.
  intros C. assert (H01 : forall A (m : M A), gr 0 m -> gr 1 m) by (intros A m0 H s; specialize (H s); lia).
  destruct v; destruct args as [|x [|y r]]; try (simpl; gst); try (simpl; destruct x; gst).
  - simpl. destruct x; gcases.
  - intros s. simpl. unfold bind, hget, hset. destruct (nth_error (heap s) l) as [[|vs]|] eqn:E; simpl; try lia.
    pose proof (hsize_set _ _ _ (HList (vs ++ [x])) E) as H. simpl in H. rewrite app_length in H. simpl in H. lia.
  - apply H01. simpl. destruct x; try gst; try apply gr_raw_read; destruct (as_int _); first [gst|apply gr_raw_read].
  - simpl. destruct x; try gst. intros s. simpl. lia.
  - simpl. gcases.
  - simpl. destruct (String.eqb m "parse"); [|gst]. apply gr_bind; [apply gr_resolve|]. intros c. destruct c; try gst. apply gr_bind; [apply C|]. intros. gcases.
  - simpl. gcases.
  - simpl. destruct (String.eqb m "serialize"); [|gst]. apply gr_bind; [apply gr_resolve|]. intros c. destruct c; try gst. apply gr_bind; [apply C|]. intros. gcases.
Qed.

(** ** Names *)
Variable names slow reads : list string.
Variable D N : nat.
Hypothesis OK : ok_prog P names slow reads D N = true.
Notation okl := (okl P names slow reads D).
Notation okl1 := (okl1 P names slow reads D).
Notation usem := (usem P reads).

Lemma memb_In x l : memb x l = true <-> In x l.
Proof. unfold memb. rewrite existsb_exists. split; [intros (y & H & E); apply String.eqb_eq in E; now subst|intros H; exists x; split; auto; apply String.eqb_refl]. Qed.
Lemma assoc_in {A} x l (v : A) : assoc x l = Some v -> In (x, v) l.
Proof. induction l as [|[y w] r IH]; simpl; [discriminate|]. destruct (String.eqb x y) eqn:E; [apply String.eqb_eq in E; intros [= <-]; subst; auto|auto]. Qed.

Definition allm : list meth :=
  flat_map (fun p => flat_map (fun q => match snd q with MMeth m => [m] | _ => [] end) (c_members (snd p))) (p_classes P) ++ map snd (p_funs P).

Lemma ok_parts : memb "__init__" names = false /\ memb "serialize" names = false /\ memb "decode" names = false /\ memb "read_bytes" names = true /\
  (forall x, In x reads -> memb x native_names = false) /\
  (forall c k m x, In (c, k) (p_classes P) -> In (m, x) (c_members k) -> ok_member P names slow reads D N m x = true) /\
  (forall f m, In (f, m) (p_funs P) -> okl N m = true).
Proof.
  unfold ok_prog in OK. rewrite !andb_true_iff in OK. destruct OK as ((((((O1 & O2) & O3) & O4) & O5) & O6) & O7).
  apply negb_true_iff in O1, O2, O3. rewrite forallb_forall in O5, O6, O7. repeat split; auto.
  - intros x Hx. specialize (O5 _ Hx). now apply negb_true_iff in O5.
  - intros c k m x H1 H2. specialize (O6 _ H1). rewrite forallb_forall in O6. exact (O6 _ H2).
  - intros f m H. exact (O7 _ H).
Qed.
Lemma found cs m x : lookup_in P cs m = Some x -> ok_member P names slow reads D N m x = true /\ (forall k, x = MMeth k -> In k allm).
Proof.
  induction cs as [|c r IH]; simpl; [discriminate|]. unfold get_cls. destruct (assoc c (p_classes P)) as [k|] eqn:E; [|exact IH].
  destruct (assoc m (c_members k)) as [y|] eqn:F; [|exact IH]. intros [= ->]. apply assoc_in in E, F. split.
  - destruct ok_parts as (_ & _ & _ & _ & _ & O & _). eapply O; eauto.
  - intros k0 ->. apply in_or_app. left. apply in_flat_map. exists (c, k). split; [exact E|]. apply in_flat_map. exists (m, MMeth k0). split; [exact F|]. now left.
Qed.
Lemma fun_in f m : assoc f (p_funs P) = Some m -> In m allm /\ okl N m = true.
Proof.
  intros H. apply assoc_in in H. split; [apply in_or_app; right; apply in_map_iff; now exists (f, m)|]. destruct ok_parts as (_ & _ & _ & _ & _ & _ & O). eapply O; eauto.
Qed.

(** what is known about the variables *)
Definition isinst (v : val) (d : string) (s : st) : Prop := exists l at_, v = VRef l /\ nth_error (heap s) l = Some (HInst d at_).
Definition notprop (d a : string) : Prop := forall k, lookup P d a = Some (MMeth k) -> m_kind k <> KProperty.
Definition inv (c : ctx) (rho : env) (s : st) : Prop :=
  (forall x, In x (c_none c) -> assoc x rho = Some VNone) /\
  (forall a, In a (c_plain c) -> exists v d, assoc "self" rho = Some v /\ isinst v d s /\ notprop d a) /\
  (forall y d, In (y, d) (c_inst c) -> exists v, assoc y rho = Some v /\ isinst v d s).

Lemma isinst_ev v d s s' : evolves s s' -> isinst v d s -> isinst v d s'.
Proof.
  intros (_ & _ & _ & _ & H) (l & at_ & -> & E). destruct (H _ _ E) as (o' & E' & K). destruct o' as [d' at'|]; [|discriminate]. injection K as ->. now exists l, at'.
Qed.
Lemma isinst_fun v d d' s : isinst v d s -> isinst v d' s -> d = d'.
Proof. intros (l & at_ & -> & E) (l' & at' & [= <-] & E'). congruence. Qed.
Lemma inv_ev c rho s s' : evolves s s' -> inv c rho s -> inv c rho s'.
Proof.
  intros E (A & B & C). split; [exact A|]. split.
  - intros a Ha. destruct (B _ Ha) as (v & d & H1 & H2 & H3). exists v, d. repeat split; auto. eapply isinst_ev; eauto.
  - intros y d Hy. destruct (C _ _ Hy) as (v & H1 & H2). exists v. split; auto. eapply isinst_ev; eauto.
Qed.
Lemma inv0 rho s : inv c0 rho s. Proof. split; [|split]; intros; contradiction. Qed.

Definition callok (m : meth) (args : list val) (kws : list string) : Prop :=
  In m allm /\ ((exists n, okl n m = true) \/ (exists n, okl1 n m = true) /\ length args = 1 /\ kws = []).

Section WithCall.
Variable call : meth -> list val -> list string -> MT val.
Variable K : nat.
Hypothesis HC : forall m args kws s, callok m args kws -> bd K 0 (fun _ _ => True) (call m args kws) s.
Hypothesis HC1 : forall m args kws s j n, In m allm -> okl n m = true -> usem j m = true -> bd K 1 (fun _ _ => True) (call m args kws) s.

Lemma named cs m k : lookup_in P cs m = Some (MMeth k) -> memb m names = true -> In k allm /\ okl N k = true.
Proof.
  intros L M. destruct (found _ _ _ L) as (O & I). split; [now apply I|]. unfold ok_member in O. rewrite M in O. simpl in O. rewrite !andb_true_iff in O. tauto.
Qed.
Lemma inits cs k args : lookup_in P cs "__init__" = Some (MMeth k) -> length args = 1 -> callok k args [].
Proof.
  intros L A. destruct (found _ _ _ L) as (O & I). split; [now apply I|]. right. split; [|auto]. exists N. unfold ok_member in O. rewrite !andb_true_iff in O.
  destruct O as (_ & ((_ & O) & _)). rewrite String.eqb_refl in O. apply andb_true_iff in O. apply O.
Qed.
Lemma init_normal cs k : lookup_in P cs "__init__" = Some (MMeth k) -> m_kind k = KNormal.
Proof.
  intros L. destruct (found _ _ _ L) as (O & _). unfold ok_member in O. rewrite !andb_true_iff in O.
  destruct O as (_ & ((_ & O) & _)). rewrite String.eqb_refl in O. apply andb_true_iff in O as (_ & O). now destruct (m_kind k).
Qed.
Lemma props d a k : lookup P d a = Some (MMeth k) -> m_kind k = KProperty -> memb a slow = false -> callok k [VNone] [].
Proof.
  intros L Kk S. destruct (found _ _ _ L) as (O & I). split; [now apply I|]. left. exists N. unfold ok_member in O. rewrite Kk, S, !andb_true_iff in O. simpl in O. tauto.
Qed.
Lemma callok_any m a b kws n : In m allm -> okl n m = true -> callok m (a ++ b) kws.
Proof. intros I O. split; [exact I|]. left. eauto. Qed.

Lemma bd_get_attr v a s : memb a slow = false \/ (exists d, isinst v d s /\ notprop d a) -> bd (K + 2) 0 (fun _ _ => True) (get_attrT P call v a) s.
Proof.
  intros H. assert (R : forall e, bd (K + 2) 0 (fun _ _ => True) (@prim val (raise e)) s) by (intros; apply bd_exc; lia).
  destruct v; simpl; auto; try (destruct (String.eqb a "stream"); [now apply bd_ret|auto]).
  - apply (bd_weak (1 + (K + 1)) _ (0 + 0) _ (fun _ _ => True)); [|lia|lia|auto].
    eapply bd_bind; [apply (bd_prim 0) with (ok := fun o s' => s' = s /\ o = nth_error (heap s) l); [apply ev_hget|gst|]|].
    { unfold hget. intros o s' [= <- <-] _. auto. }
    intros o s' E (-> & ->) _. clear R. assert (R : forall e, bd (K + 1) 0 (fun _ _ => True) (@prim val (raise e)) s) by (intros; apply bd_exc; lia).
    destruct (nth_error (heap s) l) as [[d at_|]|] eqn:En; auto. destruct (lookup P d a) as [[k|]|] eqn:L; [|destruct (assoc a at_); now apply bd_ret|destruct (assoc a at_); [now apply bd_ret|auto]].
    destruct (m_kind k) eqn:Kk; try (destruct (assoc a at_); [now apply bd_ret|auto]).
    destruct H as [H|(d' & H1 & H2)].
    + eapply bd_weak; [apply HC|lia|lia|auto]. destruct (props _ _ _ L Kk H) as (I & [(n & On)|X]); split; auto; eauto.
    + exfalso. assert (Hd : isinst (VRef l) d s) by (now exists l, at_). rewrite (isinst_fun _ _ _ _ H1 Hd) in H2. exact (H2 _ L Kk).
  - destruct (lookup P c a) as [[k|]|]; auto. now apply bd_ret.
  - destruct (bits_field a fs vs); auto. now apply bd_ret.
Qed.

(** what a method name resolves to *)
Definition rescl (v : val) (m : string) (s : st) (c : callee) : Prop :=
  match c with
  | KMeth k pre => length pre <= 1 /\ (exists cs, lookup_in P cs m = Some (MMeth k)) /\ (forall d, isinst v d s -> lookup P d m = Some (MMeth k))
  | KNewBits fs => (exists cs, lookup_in P cs m = Some (MAttr (LBits fs))) /\ (forall d, isinst v d s -> lookup P d m = Some (MAttr (LBits fs)))
  | KNative v' m' => v' = v /\ m' = m /\ memb m native_names = true /\ (forall d, ~ isinst v d s) /\ ((exists l, v = VBytes l) -> m = "decode") /\ (m = "read" -> v = VRawIn)
  | _ => False
  end.
Lemma ninst v s : (forall l, v <> VRef l) -> forall d, ~ isinst v d s. Proof. intros H d (l & at_ & -> & _). now apply (H l). Qed.
Lemma resolve_spec v m s c s' : resolve P v m s = (Ok c, s') -> s' = s /\ rescl v m s c.
Proof.
  assert (NI : forall v, (forall l, v <> VRef l) -> forall k pre cs, length pre <= 1 -> lookup_in P cs m = Some (MMeth k) -> rescl v m s (KMeth k pre)).
  { intros w Hw k pre cs Hp L. split; [exact Hp|]. split; [eauto|]. intros d Hd. exfalso. eapply ninst; eauto. }
  destruct v; simpl; try discriminate.
  - destruct (String.eqb m "decode") eqn:E; [|discriminate]. apply String.eqb_eq in E. subst m. intros [= <- <-]. repeat split; auto; [now apply ninst|discriminate].
  - unfold bind, hget. destruct (nth_error (heap s) l) as [[d at_|vs]|] eqn:En; [|destruct (String.eqb m "append") eqn:E; [|discriminate]|discriminate].
    + assert (Hd : forall d', isinst (VRef l) d' s -> d' = d) by (intros d' (l' & at' & [= <-] & E'); congruence).
      destruct (lookup P d m) as [[k|li]|] eqn:L.
      * destruct (m_kind k); try discriminate; intros [= <- <-]; (split; [reflexivity|split; [simpl; lia|split; [exists (mro P d); exact L|intros d' H; now rewrite (Hd _ H)]]]).
      * destruct li; try discriminate. intros [= <- <-]. split; [reflexivity|split; [exists (mro P d); exact L|intros d' H; now rewrite (Hd _ H)]].
      * destruct (assoc m at_); discriminate.
    + apply String.eqb_eq in E. subst m. intros [= <- <-]. repeat split; auto; [|intros (? & ?); discriminate|discriminate]. intros d (l' & at' & [= <-] & E'). congruence.
  - destruct (lookup P "DataInputStream" m) as [[k|]|] eqn:L; try discriminate. intros [= <- <-]. split; [reflexivity|]. eapply NI; eauto. discriminate.
  - destruct (lookup P "DataOutputStream" m) as [[k|]|] eqn:L; try discriminate. intros [= <- <-]. split; [reflexivity|]. eapply NI; eauto. discriminate.
  - destruct (String.eqb m "read") eqn:E; [|discriminate]. apply String.eqb_eq in E. subst m. intros [= <- <-]. repeat split; auto; [now apply ninst|intros (? & ?); discriminate].
  - destruct (String.eqb m "write") eqn:E; [|discriminate]. apply String.eqb_eq in E. subst m. intros [= <- <-]. repeat split; auto; [now apply ninst|intros (? & ?); discriminate|discriminate].
  - destruct (lookup P c0 m) as [[k|]|] eqn:L; try discriminate. intros [= <- <-]. split; [reflexivity|]. eapply NI; eauto. discriminate.
  - destruct (String.eqb m "parse" || String.eqb m "marshalledSize") eqn:E; [|discriminate]. intros [= <- <-]. apply orb_true_iff in E as [E|E]; apply String.eqb_eq in E; subst m;
      (repeat split; auto; [now apply ninst|intros (? & ?); discriminate|discriminate]).
  - destruct (String.eqb m "serialize" || String.eqb m "marshalledSize") eqn:E; [|discriminate]. intros [= <- <-]. apply orb_true_iff in E as [E|E]; apply String.eqb_eq in E; subst m;
      (repeat split; auto; [now apply ninst|intros (? & ?); discriminate|discriminate]).
Qed.
Lemma bd_resolve v m s : bd 1 0 (fun c s' => s' = s /\ rescl v m s c) (prim (resolve P v m)) s.
Proof. apply (bd_prim 0); [apply ev_resolve|apply gr_resolve|]. intros a s' H _. now apply resolve_spec. Qed.

Lemma bd_native v m args s : memb m names = true -> (forall l, v <> VBytes l) ->
  bd (K + 4) 0 (fun r s' => v = VRawIn -> exists l, r = VBytes l /\ length l + rl s' <= rl s) (nativeT P call v m args) s.
Proof.
  intros M NB. destruct ok_parts as (_ & O2 & _ & O4 & _).
  assert (G : bd (K + 4) 0 (fun r s' => v = VRawIn -> exists l, r = VBytes l /\ length l + rl s' <= rl s) (prim (native P (fun _ _ _ => raise Unsupported) v m args)) s).
  { eapply bd_weak; [apply (bd_prim 1) with (ok := fun r s' => v = VRawIn -> exists l, r = VBytes l /\ length l + rl s' <= rl s)|lia|lia|auto].
    - apply ev_native. intros. apply ev_raise.
    - apply gr_native. intros. gst.
    - intros r s' H _ ->. revert H. destruct args as [|x [|y q]]; simpl; try discriminate.
      assert (R : forall n, raw_read n s = (Ok r, s') -> exists l, r = VBytes l /\ length l + rl s' <= rl s).
      { intros n. unfold raw_read. intros [= <- <-]. eexists. split; [reflexivity|]. unfold rl. cbn [irest]. rewrite <- app_length, firstn_skipn. lia. }
      destruct x; try (destruct (as_int _); [apply R|discriminate]). apply R. }
  destruct v; try exact G; try (destruct args as [|x [|y q]]; exact G).
  - now specialize (NB l).
  - destruct args as [|x [|y q]]; try exact G. simpl.
    destruct (String.eqb m "parse"); [|apply bd_exc; lia].
    apply (bd_weak (1 + (K + 3)) _ (0 + 0) _ (fun _ _ => True)); [|lia|lia|discriminate].
    eapply bd_bind; [apply bd_resolve|]. intros c s' E (-> & Hc) _.
    destruct c; try (apply bd_exc; lia).
    destruct Hc as (_ & (cs & L) & _). destruct (named _ _ _ L O4) as (I & Ok).
    apply (bd_weak (K + 1) _ (0 + 0) _ (fun _ _ => True)); [|lia|lia|auto].
    eapply bd_bind; [apply HC; eapply callok_any; eauto|]. intros r s2 _ _ _.
    destruct r; try (apply bd_exc; lia).
    destruct (length l <? bits_size fs); [apply bd_exc; lia|now apply bd_ret].
  - destruct args as [|x [|y q]]; try exact G. simpl. destruct (String.eqb m "serialize") eqn:E; [apply String.eqb_eq in E; subst m; congruence|].
    apply bd_exc; lia.
Qed.

Definition okc (c : callee) (args : list val) (kws : list string) : Prop :=
  match c with
  | KMeth m pre => callok m (pre ++ args) kws
  | KNew d attrs => length attrs <= 1 /\ forall m v, lookup P d "__init__" = Some (MMeth m) -> callok m (v :: args) kws
  | KNative v m => memb m names = true /\ (forall l, v <> VBytes l)
  | _ => True
  end.
Definition okr (c : callee) (s : st) (r : val) (s' : st) : Prop :=
  match c with
  | KNew d _ => isinst r d s'
  | KNative VRawIn _ => exists l, r = VBytes l /\ length l + rl s' <= rl s
  | _ => True
  end.
Lemma bd_apply c args kws s : okc c args kws -> bd (K + 5) 0 (okr c s) (applyT P call c args kws) s.
Proof.
  intros H. assert (R : forall e ok, bd (K + 5) 0 ok (@prim val (raise e)) s) by (intros; apply bd_exc; lia).
  destruct c; cbn [applyT].
  - eapply bd_weak; [apply HC, H|lia|lia|simpl; auto].
  - destruct H as (Ha & Hi). destruct (is_abstract P c); [apply R|].
    apply (bd_weak (3 + (K + 1)) _ (0 + 0) _ (okr (KNew c attrs) s)); [|lia|lia|auto].
    eapply bd_bind.
    { eapply bd_weak; [apply (bd_prim (1 + length attrs)) with (ok := fun o s' => isinst o c s')|lia|lia|intros a s' _ X; exact X]; [apply ev_halloc|exact (gr_halloc (HInst c attrs))|].
      unfold halloc. intros a s' [= <- <-] _. exists (length (heap s)), attrs. split; [reflexivity|]. simpl. rewrite nth_error_app2, Nat.sub_diag; auto. }
    cbn beta. intros o s1 E1 Ho _. destruct (lookup P c "__init__") as [[m|]|] eqn:L.
    + apply (bd_weak (K + 0) _ (0 + 0) _ (okr (KNew c attrs) s)); [|lia|lia|auto]. eapply bd_bind; [apply HC, Hi, eq_refl|]. intros x s2 E2 _ _. apply bd_ret. simpl. eapply isinst_ev; eauto.
    + apply bd_exc; lia.
    + destruct args; [now apply bd_ret|apply bd_exc; lia].
  - destruct kws; [|apply R]. destruct (as_ints args); [|apply R]. destruct (_ <? _); [apply R|now apply bd_ret].
  - destruct H as (H1 & H2). destruct kws; [|apply R]. eapply bd_weak; [apply bd_native; auto|lia|lia|]. intros a s' _ X. cbn beta in X. destruct v; simpl; auto.
  - eapply bd_weak; [apply (bd_prim 0) with (ok := fun _ _ => True)|lia|lia|simpl; auto]; [apply ev_apply; intros; apply ev_raise| |auto]. cbn [apply]. gcases.
Qed.

(** ** Expressions *)
Definition mulc (a b : expr) : nat := match a, b with ListE es, Lit (LInt n) => Z.to_nat n * length es | _, _ => 0 end.
Definition tupc (b : expr) : nat := match b with TupleE es => length es | _ => 0 end.
Fixpoint ce (e : expr) : nat :=
  match e with
  | Lit _ | Loc _ | Glob _ => 3
  | Attr e _ => ce e + K + 4
  | Sub e i => ce e + ce i + 3
  | CallV f args _ => ce f + list_sum (map ce args) + K + 9
  | Meth e _ args _ => ce e + list_sum (map ce args) + K + 9
  | Super _ _ args _ => list_sum (map ce args) + K + 9
  | Builtin _ args => list_sum (map ce args) + 3
  | HasAttr e _ => ce e + 3
  | ListE es | TupleE es => list_sum (map ce es) + length es + 4
  | OrE a b | AndE a b => ce a + ce b + 3
  | NotE a => ce a + 3
  | Bin _ a b => ce a + ce b + mulc a b + 4
  | Cmp _ a b => ce a + ce b + tupc b + 4
  | IfE t a b => ce t + ce a + ce b + 3
  end.

Variable init_any : string -> bool.
Hypothesis HI : forall g, init_any g = true -> forall i, get_cls P g <> None -> lookup P g "__init__" = Some (MMeth i) -> exists n, okl n i = true.
Variable U : meth -> bool.
Hypothesis HU : forall m, U m = true -> exists j, usem j m = true.
Notation cke := (cke names slow init_any).
Notation use := (use P reads U).

(** what the value of an expression is known to be *)
Definition okv (rho : env) (s : st) (e : expr) (v : val) (s' : st) : Prop :=
  match e with
  | Lit l => v = lit_val l /\ s' = s
  | Loc x => assoc x rho = Some v
  | Glob g => forall s0, glob P g s0 = (Ok v, s0)
  | CallV (Glob g) [] [] => get_cls P g <> None -> isinst v g s'
  | Meth _ m [_] [] => m = "read" -> exists l, v = VBytes l /\ length l + rl s' <= rl s
  | ListE es => exists l vs, v = VRef l /\ nth_error (heap s') l = Some (HList vs) /\ length vs = length es
  | TupleE es => exists vs, v = VTuple vs /\ length vs = length es
  | _ => True
  end.
Definition good (e : expr) : Prop := forall c rho s, cke c e = true -> inv c rho s -> bd (ce e) (b2n (use c e)) (okv rho s e) (evalT P call e rho) s.

Lemma bd_list es : Forall good es -> forall c rho s, forallb (cke c) es = true -> inv c rho s ->
  bd (list_sum (map ce es)) (b2n (existsb (use c) es)) (fun vs s' => length vs = length es) (eval_listT (evalT P call) es rho) s.
Proof.
  induction 1 as [|e r He Hr IH]; intros c rho s C I; simpl in *; [now apply bd_ret|]. apply andb_true_iff in C as (C1 & C2).
  apply (bd_weak (ce e + (list_sum (map ce r) + 0)) _ (b2n (use c e) + (b2n (existsb (use c) r) + 0)) _ (fun vs s' => length vs = S (length r))); [|lia|destruct (use c e), (existsb (use c) r); simpl; lia|auto].
  eapply bd_bind; [now apply He|]. intros v s1 E1 _ _. eapply bd_bind; [apply IH; [exact C2|eapply inv_ev; eauto]|]. intros vs s2 _ L _. apply bd_ret. simpl. now f_equal.
Qed.

Lemma fwidth_pos c : 1 <= fwidth c. Proof. destruct c; simpl; lia. Qed.
Lemma unpack_len c l v : unpack c l = inl v -> 1 <= length l.
Proof. unfold unpack. destruct (Nat.eqb (length l) (fwidth c)) eqn:E; [|intros; discriminate]. apply Nat.eqb_eq in E. rewrite E. intros _. apply fwidth_pos. Qed.

Lemma bd_prim_at {A} g (m : M A) (ok : A -> st -> Prop) s : ev m -> hsize (heap (snd (m s))) <= hsize (heap s) + g -> (forall a s', m s = (Ok a, s') -> evolves s s' -> ok a s') -> bd (1 + g) 0 ok (prim m) s.
Proof.
  intros E G H. unfold bd, prim. specialize (E s). destruct (m s) as [r s'] eqn:Em. simpl in *.
  pose proof (evolves_rl _ _ E). unfold rl in *. split; [exact E|]. split; [nia|]. split; [lia|]. intros a ->. split; auto.
Qed.
Lemma bd_apply_u b c args kws s : okc c args kws -> (b = true -> exists k pre j n, c = KMeth k pre /\ In k allm /\ okl n k = true /\ usem j k = true) ->
  bd (K + 5) (b2n b) (okr c s) (applyT P call c args kws) s.
Proof.
  intros O B. destruct b; [|now apply bd_apply]. destruct (B eq_refl) as (k & pre & j & n & -> & I & Ok & Us). simpl. eapply bd_weak; [eapply HC1; eauto|lia|simpl; lia|simpl; auto].
Qed.

Lemma callee_spec v s c s' : callee_of P v s = (Ok c, s') -> s' = s /\
  match c with
  | KNew d attrs => length attrs <= 1 /\ (v = VClass d \/ exists z, v = VUnkSV z)
  | KMeth m pre => pre = [] /\ exists f, v = VFun f /\ f <> "getStandardVariableClass" /\ assoc f (p_funs P) = Some m
  | KNewBits fs => v = VBitCls fs
  | KGetSV => v = VFun "getStandardVariableClass"
  | KNative _ _ => False
  end.
Proof.
  destruct v; simpl; try discriminate; try (intros [= <- <-]; simpl; split; auto; fail).
  - intros [= <- <-]. split; [reflexivity|]. split; [simpl; lia|]. right. eauto.
  - destruct (String.eqb f "getStandardVariableClass") eqn:E; [apply String.eqb_eq in E; subst f; intros [= <- <-]; auto|]. destruct (assoc f (p_funs P)) as [m|] eqn:F; [|discriminate]. intros [= <- <-].
    split; [reflexivity|]. split; [reflexivity|]. exists f. apply String.eqb_neq in E. auto.
Qed.
Lemma glob_spec g v : (forall s, glob P g s = (Ok v, s)) ->
  (get_cls P g <> None /\ v = VClass g) \/ (get_cls P g = None /\ v = VFun g /\ (g = "getStandardVariableClass" \/ assoc g (p_funs P) <> None)).
Proof.
  intros H. specialize (H (mkst [] [] [] [])). unfold glob in H. destruct (get_cls P g); [left; injection H as <-; split; [discriminate|auto]|]. right. split; [reflexivity|].
  destruct (String.eqb g "getStandardVariableClass") eqn:E; [injection H as <-; apply String.eqb_eq in E; auto|]. destruct (assoc g (p_funs P)); [|discriminate]. injection H as <-. split; auto. right. discriminate.
Qed.
Lemma super_spec v c m s o s' : resolve_super P v c m s = (Ok o, s') -> s' = s /\
  match o with
  | Some (KMeth k pre) => exists cs, lookup_in P cs m = Some (MMeth k) /\ (m_kind k = KNormal -> length pre = 1)
  | Some _ => False
  | None => True
  end.
Proof.
  destruct v; simpl; try discriminate. unfold bind, hget. destruct (nth_error (heap s) l) as [[d at_|]|]; try discriminate. destruct (after c (mro P d)) as [r|]; [|discriminate].
  destruct (lookup_in P r m) as [[k|]|] eqn:L; [|discriminate|destruct (String.eqb m "__init__"); [intros [= <- <-]; auto|discriminate]].
  destruct (m_kind k) eqn:Kk; try discriminate; intros [= <- <-]; (split; [reflexivity|]); exists r; (split; [exact L|]); intros X; first [reflexivity|congruence].
Qed.
Lemma b2n_or a b : b2n (a || b) <= b2n a + b2n b. Proof. destruct a, b; simpl; lia. Qed.
Lemma In_assoc_inst y (c : ctx) d : assoc y (c_inst c) = Some d -> In (y, d) (c_inst c). Proof. apply assoc_in. Qed.

Definition special (f : expr) : bool :=
  match f with
  | Glob g => match get_cls P g with Some _ => false | None => if String.eqb g "getStandardVariableClass" then false else match assoc g (p_funs P) with Some m => U m | None => true end end
  | _ => false
  end.

Lemma good_call f args kws : good f -> Forall good args -> good (CallV f args kws).
Proof.
  intros Hf Ha c rho s C I. cbn [CostCheck.cke] in C. rewrite !andb_true_iff in C. destruct C as ((C1 & C2) & C3). cbn [evalT ce].
  eapply bd_tick1 with (k := ce f + list_sum (map ce args) + K + 7); [|lia].
  eapply bd_seq with (k2 := list_sum (map ce args) + K + 7) (u2 := b2n (existsb (use c) args) + b2n (special f)); [apply (Hf c rho s); auto| |lia|].
  2:{ cbn [CostCheck.use]. fold (special f). pose proof (b2n_or (use c f || existsb (use c) args) (special f)). pose proof (b2n_or (use c f) (existsb (use c) args)). lia. }
  intros v s1 E1 Ov _. cbn beta. eapply bd_seq with (u1 := 0) (k1 := 1) (k2 := list_sum (map ce args) + K + 6) (u2 := b2n (existsb (use c) args) + b2n (special f)) (ok1 := fun cl s' => s' = s1 /\ callee_of P v s1 = (Ok cl, s1)); [|..|lia|lia].
  { apply (bd_prim 0); [apply ev_callee|apply gr_callee|]. intros cl s' H _. destruct (callee_spec _ _ _ _ H) as (-> & _). auto. }
  intros cl s' _ (-> & Hcl) _. eapply bd_seq with (k2 := K + 5) (u2 := b2n (special f)); [apply (bd_list args Ha c rho s1 C2); eapply inv_ev; eauto| |lia|lia].
  intros vs s2 E2 Lv _. cbn beta in Lv. apply callee_spec in Hcl as (_ & Hcl).
  assert (OC : okc cl vs kws).
  { destruct cl; simpl; auto.
    - destruct Hcl as (-> & fn & -> & _ & F). destruct (fun_in _ _ F). now apply (callok_any _ [] vs kws N).
    - destruct Hcl as (La & Hv). split; [exact La|]. intros m w L. apply orb_true_iff in C3 as [C3|C3].
      + apply andb_true_iff in C3 as (C3 & C4). destruct args; [|discriminate]. destruct kws; [|discriminate]. destruct vs; [|discriminate]. eapply inits; eauto.
      + destruct f; try discriminate. simpl in Ov. destruct (glob_spec _ _ Ov) as [(G1 & G2)|(G1 & G2 & _)]; [|destruct Hv as [Hv|(z & Hv)]; congruence].
        destruct Hv as [Hv|(z & Hv)]; [|congruence]. rewrite G2 in Hv; injection Hv as <-. destruct (HI _ C3 _ G1 L) as (n & On). destruct (found _ _ _ L) as (_ & Il). split; [now apply Il|]. left. eauto.
    }
  eapply bd_weak; [apply (bd_apply_u (special f) cl vs kws s2 OC)|lia|lia|].
  - intros Sp. unfold special in Sp. destruct f; try discriminate. simpl in Ov. destruct (glob_spec _ _ Ov) as [(G1 & G2)|(G1 & G2 & G3)]; [now destruct (get_cls P x)|]. rewrite G1 in Sp.
    destruct (String.eqb x "getStandardVariableClass") eqn:Ex; [discriminate|]. apply String.eqb_neq in Ex. destruct G3 as [G3|G3]; [contradiction|]. destruct (assoc x (p_funs P)) as [m|] eqn:F; [|contradiction].
    destruct cl; try contradiction.
    + destruct Hcl as (-> & fn & Hv & _ & F'). assert (fn = x) as -> by congruence. assert (m0 = m) as -> by congruence. destruct (fun_in _ _ F). destruct (HU _ Sp) as (j & Hj). exists m, [], j, N. auto.
    + destruct Hcl as (_ & [Hv|(z & Hv)]); congruence.
    + congruence.
    + congruence.
  - intros r s3 _ Hr. destruct f; simpl; auto. destruct args; [|exact Logic.I]. destruct kws; [|exact Logic.I]. intros G. simpl in Ov. destruct (glob_spec _ _ Ov) as [(_ & G2)|(G1 & _)]; [|contradiction]. subst v.
    destruct cl; try congruence; try contradiction.
    + destruct Hcl as (_ & fn & Hv & _). discriminate.
    + destruct Hcl as (_ & [[= ->]|(z & [=])]). exact Hr.
Qed.

Lemma good_meth e m args kws : good e -> Forall good args -> good (Meth e m args kws).
Proof.
  intros He Ha c rho s C I. cbn [CostCheck.cke] in C. rewrite !andb_true_iff in C. destruct C as ((C1 & C2) & C3). cbn [evalT ce].
  set (um := use_meth P reads U c e m). destruct ok_parts as (_ & O2 & O3 & O4 & O5 & _).
  eapply bd_tick1 with (k := ce e + list_sum (map ce args) + K + 7); [|lia].
  eapply bd_seq with (k2 := list_sum (map ce args) + K + 7) (u2 := b2n (existsb (use c) args) + b2n um); [apply (He c rho s); auto| |lia|].
  2:{ cbn [CostCheck.use]. fold um. pose proof (b2n_or (use c e || existsb (use c) args) um). pose proof (b2n_or (use c e) (existsb (use c) args)). lia. }
  intros v s1 E1 Ov _. cbn beta. eapply bd_seq with (u1 := 0) (k1 := 1) (k2 := list_sum (map ce args) + K + 6) (u2 := b2n (existsb (use c) args) + b2n um); [apply bd_resolve| |lia|lia].
  intros cl s' _ (-> & Hcl) _. assert (I1 : inv c rho s1) by (eapply inv_ev; eauto).
  eapply bd_seq with (k2 := K + 5) (u2 := b2n um); [apply (bd_list args Ha c rho s1 C2 I1)| |lia|lia].
  intros vs s2 E2 Lv _. cbn beta in Lv.
  assert (OC : okc cl vs kws).
  { destruct cl; simpl; auto.
    - destruct Hcl as (_ & (cs & L) & _). destruct (named _ _ _ L C3). now apply (callok_any _ pre vs kws N).
    - contradiction.
    - destruct Hcl as (-> & -> & _ & _ & B & _). split; [exact C3|]. intros l ->. rewrite (B (ex_intro _ l eq_refl)) in C3. congruence. }
  eapply bd_weak; [apply (bd_apply_u um cl vs kws s2 OC)|lia|lia|].
  - intros Um. unfold um, use_meth in Um. apply orb_true_iff in Um as [Um|Um].
    + destruct cl; try contradiction.
      * destruct Hcl as (_ & (cs & L) & _). destruct (named _ _ _ L C3). destruct (found _ _ _ L) as (O & _). exists m0, pre, D, N. repeat split; auto.
        unfold ok_member in O. rewrite Um, !andb_true_iff in O. simpl in O. tauto.
      * destruct Hcl as ((cs & L) & _). destruct (found _ _ _ L) as (O & _). unfold ok_member in O. rewrite Um, !andb_true_iff in O. destruct O; discriminate.
      * destruct Hcl as (-> & -> & B & _). apply memb_In in Um. rewrite (O5 _ Um) in B. discriminate.
    + destruct e; try discriminate. destruct (assoc x (c_inst c)) as [d|] eqn:Ad; [|discriminate]. destruct (lookup P d m) as [[k|]|] eqn:L; try discriminate.
      destruct I1 as (_ & _ & I3). destruct (I3 _ _ (In_assoc_inst _ _ _ Ad)) as (w & W1 & W2). simpl in Ov. assert (w = v) as -> by congruence.
      destruct cl; try contradiction.
      * destruct Hcl as (_ & _ & Hd). rewrite (Hd _ W2) in L. injection L as ->. destruct (named _ _ _ (Hd _ W2) C3). destruct (HU _ Um) as (j & Hj). exists k, pre, j, N. auto.
      * destruct Hcl as (_ & Hd). rewrite (Hd _ W2) in L. discriminate.
      * destruct Hcl as (-> & -> & _ & B & _). now destruct (B d).
  - intros r s3 _ Hr. simpl. destruct args as [|x [|? ?]]; auto. destruct kws; [|exact Logic.I]. intros ->.
    destruct cl; try contradiction.
    + destruct Hcl as (_ & (cs & L) & _). destruct (found _ _ _ L) as (O & _). discriminate.
    + destruct Hcl as ((cs & L) & _). destruct (found _ _ _ L) as (O & _). discriminate.
    + destruct Hcl as (-> & _ & _ & _ & _ & B). rewrite (B eq_refl) in Hr. destruct Hr as (l & -> & Hl). exists l. split; [reflexivity|]. pose proof (evolves_rl _ _ E1). pose proof (evolves_rl _ _ E2). lia.
Qed.

Lemma good_super d m args kws : Forall good args -> good (Super d m args kws).
Proof.
  intros Ha c rho s C I. cbn [CostCheck.cke] in C. rewrite !andb_true_iff in C. destruct C as (C2 & C3). cbn [evalT ce].
  eapply bd_tick1 with (k := list_sum (map ce args) + K + 7); [|lia].
  destruct (assoc "self" rho) as [self|]; [|apply bd_exc; lia].
  eapply bd_seq with (u1 := 0) (k1 := 1) (k2 := list_sum (map ce args) + K + 6) (u2 := b2n (existsb (use c) args)) (ok1 := fun o s' => s' = s /\ resolve_super P self d m s = (Ok o, s)); [| |lia|simpl; lia].
  { apply (bd_prim 0); [apply ev_resolve_super|apply gr_resolve_super|]. intros o s' H _. destruct (super_spec _ _ _ _ _ _ H) as (-> & _). auto. }
  intros o s' _ (-> & Ho) _. apply super_spec in Ho as (_ & Ho).
  eapply bd_seq with (k2 := K + 5) (u2 := 0); [apply (bd_list args Ha c rho s C2 I)| |lia|lia].
  intros vs s2 E2 Lv _. cbn beta in Lv. destruct o as [k|].
  - destruct k; try contradiction. destruct Ho as (cs & L & Kn). eapply bd_weak; [apply bd_apply|lia|lia|simpl; auto]. simpl.
    apply orb_true_iff in C3 as [C3|C3]; [destruct (named _ _ _ L C3); now apply (callok_any _ pre vs kws N)|].
    rewrite !andb_true_iff in C3. destruct C3 as ((C3 & C4) & C5). apply String.eqb_eq in C3. subst m. destruct args; [|discriminate]. destruct vs; [|discriminate]. destruct kws; [|discriminate].
    rewrite app_nil_r. eapply inits; eauto. apply Kn. eapply init_normal; eauto.
  - destruct vs; [now apply bd_ret|apply bd_exc; lia].
Qed.

Lemma good_builtin b args : Forall good args -> good (Builtin b args).
Proof.
  intros Ha c rho s C I. cbn [CostCheck.cke] in C. rewrite !andb_true_iff in C. destruct C as (C2 & C3). cbn [evalT ce].
  eapply bd_tick1 with (k := list_sum (map ce args) + 1); [|lia].
  assert (Bb : forall vs s' u ok, (forall a s2, builtin_val b vs s' = (Ok a, s2) -> evolves s' s2 -> ok a s2 /\ u + rl s2 <= rl s') -> bd 1 u ok (builtinT b vs) s').
  { intros vs s' u ok H. assert (Z : builtin_scan b vs s' = 0) by (destruct b; simpl in *; try discriminate; destruct vs as [|x [|y r]]; reflexivity).
    unfold bd, builtinT. rewrite Z. pose proof (bd_tick 0 1 u ok (prim (builtin_val b vs)) s') as T. unfold bd in T. apply T. apply (bd_prim_sure 0); [apply ev_builtin|apply gr_builtin; now destruct b|exact H]. }
  cbn [CostCheck.use]. destruct (existsb (use c) args) eqn:Eu.
  - eapply bd_seq with (k2 := 1) (u2 := 0); [apply (bd_list args Ha c rho s C2 I)| |lia|rewrite Eu; simpl; lia].
    intros vs s1 E1 Lv _. apply Bb. intros. split; [exact Logic.I|]. pose proof (evolves_rl _ _ H0). lia.
  - simpl orb. match goal with |- bd _ (b2n ?x) _ _ _ => destruct x eqn:Sp end.
    + destruct b; try discriminate. destruct args as [|[li| | | | | | | | | | | | | | | | |] [|[| | | | | |e r [|a [|? ?]] [|? ?]| | | | | | | | | | |] [|? ?]]]; try discriminate; destruct li; try discriminate.
      simpl in Sp. apply String.eqb_eq in Sp. subst r. inversion Ha as [|? ? H1 Ha']; subst. inversion Ha' as [|? ? H2 Ha'']; subst.
      cbn [forallb] in C2. rewrite !andb_true_iff in C2. destruct C2 as (C2 & C4 & _).
      cbn [eval_listT list_sum map fold_right]. apply bd_up.
      set (e2 := Meth e "read" [a] []) in *. set (e1 := Lit (LStr s0)) in *.
      change (list_sum [ce e1; ce e2]) with (ce e1 + (ce e2 + 0)).
      eapply bd_seq with (k1 := ce e1 + (ce e2 + 0)) (u1 := 0) (k2 := 1) (u2 := 0) (ok1 := fun vs s' => exists l, vs = [lit_val (LStr s0); VBytes l] /\ length l + rl s' <= rl s); [| |lia|lia].
      * eapply bd_seq with (k2 := ce e2 + 0) (u2 := 0); [apply (H1 c rho s C2 I)| |lia|lia]. intros v s1 E1 (Ov & Es) _. subst s1 v.
        eapply bd_seq with (k1 := ce e2 + 0) (u1 := 0) (k2 := 0) (u2 := 0) (ok1 := fun vs s' => exists l, vs = [VBytes l] /\ length l + rl s' <= rl s); [|intros vs s3 E3 (l & -> & Hl) _; apply bd_ret; exists l; auto|lia|lia].
        eapply bd_seq with (k2 := 0) (u2 := 0); [apply (H2 c rho s C4 I)| |lia|lia]. intros v s2 E2 Ov _. apply bd_seq with (k1 := 0) (k2 := 0) (u1 := 0) (u2 := 0) (ok1 := fun vs s' => vs = [] /\ s' = s2); [now apply bd_ret| |lia|lia].
        intros vs s3 _ (-> & ->) _. apply bd_ret. destruct (Ov eq_refl) as (l & -> & Hl). exists l. auto.
      * intros vs s1 E1 (l & -> & Hl) _. apply Bb. intros v s2 Hb E2. pose proof (evolves_rl _ _ E2). split; [split; [exact Logic.I|]|lia].
        cbn [lit_val builtin_val] in Hb. destruct (find_fcode (codes s0) fcodes) as [fc|]; [|discriminate]. destruct (unpack fc l) eqn:Eq; [|discriminate]. pose proof (unpack_len _ _ _ Eq). simpl b2n. lia.
    + eapply bd_seq with (k2 := 1) (u2 := 0); [apply (bd_list args Ha c rho s C2 I)| |lia|simpl; lia].
      intros vs s1 E1 Lv _. apply Bb. intros. split; [exact Logic.I|]. pose proof (evolves_rl _ _ H0). lia.
Qed.

Lemma repeat_len {A} n (l : list A) : length (repeat_list n l) = n * length l.
Proof. induction n; simpl; [reflexivity|]. rewrite app_length, IHn. reflexivity. Qed.
Lemma good_bin o a b : good a -> good b -> good (Bin o a b).
Proof.
  intros Ha Hb c rho s C I. cbn [CostCheck.cke] in C. rewrite !andb_true_iff in C. destruct C as ((C1 & C2) & C3). cbn [evalT ce].
  eapply bd_tick1 with (k := ce a + ce b + mulc a b + 2); [|lia]. cbn [CostCheck.use].
  eapply bd_seq with (k2 := ce b + mulc a b + 2) (u2 := b2n (use c b)); [apply (Ha c rho s C1 I)| |lia|apply b2n_or]. intros x s1 E1 Ox _.
  eapply bd_seq with (k2 := mulc a b + 2) (u2 := 0); [apply (Hb c rho s1 C2); eapply inv_ev; eauto| |lia|lia]. intros y s2 E2 Oy _.
  assert (Ok0 : (o = OMul -> forall l, x <> VRef l) -> bd (mulc a b + 2) 0 (okv rho s (Bin o a b)) (prim (binop_val o x y)) s2).
  { intros H. eapply bd_weak; [apply (bd_prim 0) with (ok := fun _ _ => True); [apply ev_binop|now apply gr_binop|auto]|lia|lia|simpl; auto]. }
  destruct o; try (apply Ok0; discriminate). unfold mulok in C3. destruct a; try discriminate.
  - apply Ok0. intros _ l'. destruct Ox as (-> & _). destruct l; discriminate.
  - destruct b; try discriminate. destruct l; try discriminate. destruct Oy as (-> & ->). destruct Ox as (l & vs & -> & Hl & Lv). simpl mulc.
    eapply bd_weak; [apply (bd_prim_at (1 + Z.to_nat z * length es)) with (ok := fun _ _ => True); [apply ev_binop| |auto]|lia|lia|simpl; auto].
    cbn [binop_val as_int lit_val]. unfold bind, hget. rewrite Hl. pose proof (gr_halloc (HList (repeat_list (Z.to_nat z) vs)) s1) as G. simpl osize in G. rewrite repeat_len, Lv in G. exact G.
Qed.
Lemma good_cmp o a b : good a -> good b -> good (Cmp o a b).
Proof.
  intros Ha Hb c rho s C I. cbn [CostCheck.cke] in C. rewrite !andb_true_iff in C. destruct C as ((C1 & C2) & C3). cbn [evalT ce].
  eapply bd_tick1 with (k := ce a + ce b + tupc b + 2); [|lia]. cbn [CostCheck.use].
  eapply bd_seq with (k2 := ce b + tupc b + 2) (u2 := b2n (use c b)); [apply (Ha c rho s C1 I)| |lia|apply b2n_or]. intros x s1 E1 Ox _.
  eapply bd_seq with (k2 := tupc b + 2) (u2 := 0); [apply (Hb c rho s1 C2); eapply inv_ev; eauto| |lia|lia]. intros y s2 E2 Oy _. unfold cmpT.
  eapply bd_weak; [apply bd_tick, (bd_prim 0) with (ok := fun _ _ => True); [apply ev_cmp|apply gr_cmp|auto]| |lia|simpl; auto].
  destruct o; try lia. destruct b; try discriminate. destruct Oy as (vs & -> & Lv). simpl. lia.
Qed.

Theorem good_all e : good e.
Proof.
  induction e using expr_ind'; [| | | | |now apply good_call|now apply good_meth|now apply good_super|now apply good_builtin| | | | | | |now apply good_bin|now apply good_cmp|];
    intros c rho s C I; cbn [CostCheck.cke] in C; cbn [evalT ce].
  - apply bd_tick1 with (k := 1); [|lia]. now apply bd_ret.
  - apply bd_tick1 with (k := 1); [|lia]. destruct (assoc x rho) eqn:E; [now apply bd_ret|apply bd_exc; lia].
  - apply bd_tick1 with (k := 1); [|lia]. apply (bd_prim 0); [apply ev_glob|apply gr_glob|]. intros v s' H _ s0. unfold glob in *. destruct (get_cls P x); [now injection H as <- <-|].
    destruct (String.eqb x "getStandardVariableClass"); [now injection H as <- <-|]. destruct (assoc x (p_funs P)); [now injection H as <- <-|discriminate].
  - apply andb_true_iff in C as (C1 & C2). apply bd_tick1 with (k := ce e + (K + 2)); [|lia].
    eapply bd_seq with (k2 := K + 2) (u2 := 0); [apply (IHe c rho s C1 I)| |lia|simpl; lia]. intros v s1 E1 Ov _.
    eapply bd_weak; [apply bd_get_attr|lia|lia|auto]. apply orb_true_iff in C2 as [C2|C2]; [left; now apply negb_true_iff|]. right. apply andb_true_iff in C2 as (C2 & C3).
    destruct e; try discriminate. unfold loc_in in C2. apply memb_In in C2. destruct C2 as [<-|[]]. apply memb_In in C3. pose proof (inv_ev _ _ _ _ E1 I) as (_ & I2 & _).
    destruct (I2 _ C3) as (w & d & W1 & W2 & W3). simpl in Ov. assert (w = v) as -> by congruence. eauto.
  - apply andb_true_iff in C as (C1 & C2). apply bd_tick1 with (k := ce e1 + (ce e2 + 1)); [|lia]. cbn [CostCheck.use].
    eapply bd_seq with (k2 := ce e2 + 1) (u2 := b2n (use c e2)); [apply (IHe1 c rho s C1 I)| |lia|apply b2n_or]. intros x s1 E1 Ox _.
    eapply bd_seq with (k2 := 1) (u2 := 0); [apply (IHe2 c rho s1 C2); eapply inv_ev; eauto| |lia|lia]. intros y s2 E2 Oy _.
    apply (bd_prim 0); [apply ev_sub|apply gr_sub|auto]. intros; exact Logic.I.
  - apply bd_tick1 with (k := ce e + 1); [|lia]. eapply bd_seq with (k2 := 1) (u2 := 0); [apply (IHe c rho s C I)| |lia|simpl; lia]. intros v s1 E1 Ov _.
    apply (bd_prim 0); [apply ev_has_attr|apply gr_has_attr|]. intros; exact Logic.I.
  - apply bd_tick1 with (k := list_sum (map ce es) + (length es + 2)); [|lia]. eapply bd_seq with (k2 := length es + 2) (u2 := 0); [apply (bd_list es H c rho s C I)| |lia|simpl; lia]. intros vs s1 E1 Lv _. cbn beta in Lv.
    eapply bd_weak; [apply (bd_prim (1 + length vs)) with (ok := okv rho s (ListE es)); [apply ev_halloc|exact (gr_halloc (HList vs))|]|lia|lia|auto].
    unfold halloc. intros v s' [= <- <-] _. exists (length (heap s1)), vs. split; [reflexivity|]. split; [|exact Lv]. simpl. rewrite nth_error_app2, Nat.sub_diag; auto.
  - apply bd_tick1 with (k := list_sum (map ce es) + 1); [|lia]. eapply bd_seq with (k2 := 1) (u2 := 0); [apply (bd_list es H c rho s C I)| |lia|simpl; lia]. intros vs s1 E1 Lv _. apply bd_ret. now exists vs.
  - apply andb_true_iff in C as (C1 & C2). apply bd_tick1 with (k := ce e1 + ce e2); [|lia]. eapply bd_seq with (k2 := ce e2) (u2 := 0); [apply (IHe1 c rho s C1 I)| |lia|simpl; lia]. intros v s1 E1 Ov _.
    apply (bd_if _ _ _ (fun s => truth (heap s) v) (retT v)); intros _; [now apply bd_ret|]. eapply bd_weak; [apply (IHe2 c rho s1 C2); eapply inv_ev; eauto|lia|lia|simpl; auto].
  - apply andb_true_iff in C as (C1 & C2). apply bd_tick1 with (k := ce e1 + ce e2); [|lia]. eapply bd_seq with (k2 := ce e2) (u2 := 0); [apply (IHe1 c rho s C1 I)| |lia|simpl; lia]. intros v s1 E1 Ov _.
    apply (bd_if _ _ _ (fun s => truth (heap s) v) _ (retT v)); intros _; [|now apply bd_ret]. eapply bd_weak; [apply (IHe2 c rho s1 C2); eapply inv_ev; eauto|lia|lia|simpl; auto].
  - apply bd_tick1 with (k := ce e + 1); [|lia]. eapply bd_seq with (k2 := 1) (u2 := 0); [apply (IHe c rho s C I)| |lia|simpl; lia]. intros v s1 E1 Ov _.
    exact (bd_ret (VBool (negb (truth (heap s1) v))) (fun _ _ => True) s1 1 Logic.I).
  - cbn [CostCheck.use]. destruct (loc_in (c_none c) e1) eqn:Ln.
    + destruct e1; try discriminate. apply memb_In in Ln. destruct I as (I1 & I'). pose proof (I1 _ Ln) as Hx. assert (I : inv c rho s) by (split; auto).
      apply bd_tick1 with (k := 1 + ce e3); [|cbn [ce]; lia]. eapply bd_seq with (k1 := 1) (u1 := 0) (k2 := ce e3) (u2 := b2n (use c e3)) (ok1 := fun v s' => v = VNone /\ s' = s); [| |lia|simpl; destruct (use c e2), (use c e3); simpl; lia].
      * cbn [evalT]. rewrite Hx. apply (bd_weak (1 + 0) _ 0 _ (fun v s' => v = VNone /\ s' = s)); auto. apply bd_tick. now apply bd_ret.
      * intros v s1 _ (-> & ->) _. apply bd_if; [discriminate|]. intros _. eapply bd_weak; [apply (IHe3 c rho s C I)|lia|lia|simpl; auto].
    + rewrite !andb_true_iff in C. destruct C as ((C1 & C2) & C3). apply bd_tick1 with (k := ce e1 + (ce e2 + ce e3)); [|lia].
      eapply bd_seq with (k2 := ce e2 + ce e3) (u2 := b2n (use c e2 && use c e3)); [apply (IHe1 c rho s C1 I)| |lia|apply b2n_or]. intros v s1 E1 Ov _.
      apply bd_if; intros _; (eapply bd_weak; [first [apply (IHe2 c rho s1 C2); eapply inv_ev; eauto|apply (IHe3 c rho s1 C3); eapply inv_ev; eauto]|lia|destruct (use c e2), (use c e3); simpl; lia|simpl; auto]).
Qed.
End WithCall.

(** ** Statements *)
Section Stmts.
Variable call : meth -> list val -> list string -> MT val.
Variable K : nat.
Hypothesis HC : forall m args kws s, callok m args kws -> bd K 0 (fun _ _ => True) (call m args kws) s.
Hypothesis HC1 : forall m args kws s j n, In m allm -> okl n m = true -> usem j m = true -> bd K 1 (fun _ _ => True) (call m args kws) s.
Variable init_any : string -> bool.
Hypothesis HI : forall g, init_any g = true -> forall i, get_cls P g <> None -> lookup P g "__init__" = Some (MMeth i) -> exists n, okl n i = true.
(** what the check took to read something *)
Variable V : meth -> bool.
Definition valid (U : meth -> bool) : Prop := forall m, U m = true -> exists j, usem j m = true.
Hypothesis HV : valid V.
Notation ce := (ce K).
Notation cke := (cke names slow init_any).
Notation use := (use P reads).
Fixpoint cs (st : stmt) : nat :=
  match st with
  | Expr e | Assign _ e | Return e | Assert e => ce e + 3
  | SetAttr o _ e => ce e + ce o + 4
  | SetSub o i e => ce e + ce o + ce i + 4
  | If t a b => ce t + list_sum (map cs a) + list_sum (map cs b) + 3
  | For _ e b => ce e + 2 * (list_sum (map cs b) + 1) + 4
  | Raise _ | Pass => 3
  end.
Notation uses := (uses P reads).
Notation cks := (cks P names slow reads init_any V).
Notation ckb := (ckb P names slow reads init_any V).
Notation useb := (useb P reads).
Definition ge U (HU : valid U) := good_all call K HC HC1 init_any HI U HU.

Lemma upd_eq {A} x (v : A) l : assoc x (upd x v l) = Some v.
Proof. induction l as [|[y w] r IH]; simpl; [now rewrite String.eqb_refl|]. destruct (String.eqb x y) eqn:E; simpl; rewrite E; auto. Qed.
Lemma upd_ne {A} x y (v : A) l : x <> y -> assoc y (upd x v l) = assoc y l.
Proof.
  intros N0. assert (E0 : String.eqb y x = false) by (apply String.eqb_neq; congruence). induction l as [|[z w] r IH]; simpl; [now rewrite E0|]. destruct (String.eqb x z) eqn:E; simpl.
  - apply String.eqb_eq in E. subst z. now rewrite E0.
  - now rewrite IH.
Qed.

Definition oks (c : ctx) (st : stmt) (p : R) (s' : Interp.st) : Prop :=
  (snd p = None -> inv (nx P c st) (fst p) s') /\ (noret st = true -> snd p = None).
Definition goods (st : stmt) : Prop := forall U (HU : valid U) c rho s, cks c st = true -> inv c rho s -> bd (cs st) (b2n (uses U c st)) (oks c st) (execT P call st rho) s.

Lemma bd_block l : Forall goods l -> forall U (HU : valid U) c rho s, ckb c l = true -> inv c rho s ->
  bd (list_sum (map cs l)) (b2n (useb U c l)) (fun p _ => forallb noret l = true -> snd p = None) (run_blockT (execT P call) l rho) s.
Proof.
  induction 1 as [|st r Hst Hr IH]; intros U HU c rho s C I; [now apply bd_ret|]. cbn [CostCheck.ckb CostCheck.ckb_] in C. unfold CostCheck.ckb in C. simpl in C. apply andb_true_iff in C as (C1 & C2).
  unfold CostCheck.useb. simpl run_blockT. cbn [map list_sum fold_right].
  assert (Eu : useb_ P (uses U) c (st :: r) = uses U c st || noret st && useb U (nx P c st) r) by reflexivity. rewrite Eu. clear Eu.
  eapply bd_seq with (k1 := cs st) (k2 := list_sum (map cs r)) (u1 := b2n (uses U c st)) (u2 := if uses U c st then 0 else b2n (noret st && useb U (nx P c st) r)); [apply (Hst U HU c rho s C1 I)| |apply le_n|destruct (uses U c st); simpl; lia].
  intros [rho' o] s1 E1 (O1 & O2) _. simpl in O1, O2. simpl snd. destruct o as [v|].
  - apply (bd_weak 0 _ 0 _ (fun p _ => forallb noret (st :: r) = true -> snd p = None)); [|lia| |auto].
    + apply bd_ret. simpl. intros Hn. apply andb_true_iff in Hn as (Hn & _). apply O2 in Hn. discriminate.
    + destruct (uses U c st); [lia|]. destruct (noret st) eqn:En; [specialize (O2 eq_refl); discriminate|simpl; lia].
  - simpl fst. eapply bd_weak; [apply (IH U HU (nx P c st) rho' s1 C2 (O1 eq_refl))|lia| |].
    + destruct (uses U c st); [lia|]. destruct (noret st); simpl; lia.
    + intros p s' _ X Hn. apply X. simpl in Hn. now apply andb_true_iff in Hn.
Qed.

Lemma bd_for body x k (ok : Prop) : (forall rho s, bd k 1 (fun p _ => ok -> snd p = None) (body rho) s) ->
  forall vs rho s, bd (2 * (k + 1)) 0 (fun p _ => ok -> snd p = None) (for_loopT body x vs rho) s.
Proof.
  intros H vs rho s. enough (E : match for_loopT body x vs rho s with
    | (t, (r, s')) => evolves s s' /\ t <= (k + 1) * (1 + 2 * (rl s - rl s')) /\ hsize (heap s') <= hsize (heap s) + t /\ (forall a, r = Ok a -> ok -> snd a = None) end).
  { unfold bd. destruct (for_loopT body x vs rho s) as [t [r s']]. destruct E as (E1 & E2 & E3 & E4). split; [exact E1|]. split; [nia|]. split; [exact E3|]. intros a Ea. split; [now apply E4|]. pose proof (evolves_rl _ _ E1). lia. }
  revert rho s. induction vs as [|v r IH]; intros rho s; simpl.
  - split; [apply evolves_refl|]. split; [lia|]. split; [lia|]. intros a [= <-]. auto.
  - unfold bindT, tick. specialize (H (upd x v rho) s). unfold bd in H. destruct (body (upd x v rho) s) as [t1 [[p|e] s1]]; destruct H as (A1 & A2 & A3 & A4).
    + destruct (A4 _ eq_refl) as (B1 & B2). destruct p as [rho' o]. simpl in *. pose proof (evolves_rl _ _ A1). destruct o as [w|].
      * simpl. split; [exact A1|]. split; [nia|]. split; [lia|]. intros a [= <-]. exact B1.
      * specialize (IH rho' s1). destruct (for_loopT body x r rho' s1) as [t2 [q s2]]. destruct IH as (D1 & D2 & D3 & D4). pose proof (evolves_rl _ _ D1).
        split; [eapply evolves_trans; eauto|]. split; [|split; [lia|exact D4]].
        enough (S t1 <= (k + 1) * (2 * (rl s - rl s1)) /\ (k + 1) * (2 * (rl s - rl s1)) + (k + 1) * (1 + 2 * (rl s1 - rl s2)) <= (k + 1) * (1 + 2 * (rl s - rl s2))) by lia.
        split; [nia|]. rewrite <- Nat.mul_add_distr_l. apply Nat.mul_le_mono_l. lia.
    + split; [exact A1|]. split; [nia|]. split; [lia|discriminate].
Qed.

Lemma inv_assign c x v e rho s : inv c rho s -> (forall g, e = CallV (Glob g) [] [] -> get_cls P g <> None -> isinst v g s) -> inv (nx P c (Assign x e)) (upd x v rho) s.
Proof.
  intros (I1 & I2 & I3) H. cbn [nx]. destruct (String.eqb x "self") eqn:Ex; [apply inv0|]. apply String.eqb_neq in Ex. split; [|split]; cbn [c_none c_plain c_inst].
  - intros y Hy. apply filter_In in Hy as (Hy & Hn). apply negb_true_iff, String.eqb_neq in Hn. rewrite upd_ne; auto.
  - intros a Ha. rewrite upd_ne; auto.
  - intros y d Hy. apply in_app_or in Hy as [Hy|Hy].
    + destruct e as [| | | | |f [|? ?] [|? ?]| | | | | | | | | | | |]; try contradiction; destruct f; try contradiction. destruct (get_cls P x0) eqn:G; [|contradiction]. destruct Hy as [[= <- <-]|[]].
      exists v. split; [apply upd_eq|]. apply (H x0); [reflexivity|congruence].
    + apply filter_In in Hy as (Hy & Hn). apply negb_true_iff, String.eqb_neq in Hn. rewrite upd_ne; auto.
Qed.
Lemma set_attr_plain v a x s u s' : set_attr P v a x s = (Ok u, s') -> exists d, isinst v d s /\ notprop d a.
Proof.
  destruct v; simpl; try discriminate. unfold bind, hget. destruct (nth_error (heap s) l) as [[d at_|]|] eqn:E; try discriminate. intros H. exists d. split; [now exists l, at_|].
  intros k L Kk. rewrite L, Kk in H. discriminate.
Qed.

Theorem goods_all st : goods st.
Proof.
  induction st using stmt_ind'; try rename c into t; intros U HU c rho s C I; cbn [CostCheck.cks] in C; cbn [execT cs].
  - apply bd_tick1 with (k := ce e + 0); [|lia]. eapply bd_seq with (u2 := 0); [apply (ge U HU e c rho s C I)| |apply le_n|simpl; lia]. intros v s1 E1 _ _. apply bd_ret. split; simpl; auto. intros _. eapply inv_ev; eauto.
  - apply bd_tick1 with (k := ce e + 0); [|lia]. eapply bd_seq with (u2 := 0); [apply (ge U HU e c rho s C I)| |apply le_n|simpl; lia]. intros v s1 E1 Ov _. apply bd_ret. split; [|auto]. intros _. cbn [fst].
    apply inv_assign; [eapply inv_ev; eauto|]. intros g ->. exact Ov.
  - apply andb_true_iff in C as (C1 & C2). apply bd_tick1 with (k := ce e + (ce o + (2 + 0))); [|lia]. cbn [CostCheck.uses].
    eapply bd_seq with (u2 := b2n (use U c o) + 0); [apply (ge U HU e c rho s C2 I)| |apply le_n|pose proof (b2n_or (use U c e) (use U c o)); lia]. intros v s1 E1 Ov _. pose proof (inv_ev _ _ _ _ E1 I) as I1.
    eapply bd_seq with (u2 := 0); [apply (ge U HU o c rho s1 C1 I1)| |apply le_n|lia]. intros ov s2 E2 Oo _. pose proof (inv_ev _ _ _ _ E2 I1) as I2.
    eapply bd_seq with (u1 := 0) (k1 := 2) (u2 := 0) (ok1 := fun _ s' => exists d, isinst ov d s' /\ notprop d a); [| |apply le_n|lia].
    + apply (bd_prim 1); [apply ev_set_attr|apply gr_set_attr|]. intros u s' H E. destruct (set_attr_plain _ _ _ _ _ _ H) as (d & Hd & Hn). exists d. split; [eapply isinst_ev; eauto|exact Hn].
    + intros u s3 E3 (d & Hd & Hn) _. apply bd_ret. split; [|auto]. intros _. cbn [fst nx]. pose proof (inv_ev _ _ _ _ E3 I2) as I3. destruct (loc_in ["self"] o) eqn:Lo; [|exact I3].
      destruct o; try discriminate. unfold loc_in in Lo. apply memb_In in Lo as [<-|[]]. destruct I3 as (J1 & J2 & J3). split; [exact J1|]. split; [|exact J3]. cbn [c_plain].
      intros b [<-|Hb]; [|now apply J2]. exists ov, d. auto.
  - rewrite !andb_true_iff in C. destruct C as ((C1 & C2) & C3). apply bd_tick1 with (k := ce e + (ce o + (ce i + (1 + 0)))); [|lia]. cbn [CostCheck.uses].
    eapply bd_seq with (u2 := b2n (use U c o) + b2n (use U c i)); [apply (ge U HU e c rho s C3 I)| |apply le_n|pose proof (b2n_or (use U c e || use U c o) (use U c i)); pose proof (b2n_or (use U c e) (use U c o)); lia]. intros v s1 E1 Ov _. pose proof (inv_ev _ _ _ _ E1 I) as I1.
    eapply bd_seq with (u2 := b2n (use U c i)); [apply (ge U HU o c rho s1 C1 I1)| |apply le_n|lia]. intros ov s2 E2 Oo _. pose proof (inv_ev _ _ _ _ E2 I1) as I2.
    eapply bd_seq with (u2 := 0); [apply (ge U HU i c rho s2 C2 I2)| |apply le_n|lia]. intros iv s3 E3 Oi _. pose proof (inv_ev _ _ _ _ E3 I2) as I3.
    eapply bd_seq with (u1 := 0) (k1 := 1) (u2 := 0) (ok1 := fun _ s' => True); [apply (bd_prim 0); [apply ev_set_sub|apply gr_set_sub|auto]| |apply le_n|lia].
    intros u s4 E4 _ _. apply bd_ret. split; [|auto]. intros _. eapply inv_ev; eauto.
  - rewrite !andb_true_iff in C. destruct C as ((C1 & C2) & C3). apply bd_tick1 with (k := ce t + (list_sum (map cs a) + list_sum (map cs b))); [|lia]. cbn [CostCheck.uses].
    eapply bd_seq with (u2 := b2n (useb U c a && useb U c b)); [apply (ge U HU t c rho s C1 I)| |apply le_n|apply b2n_or]. intros v s1 E1 Ov _. pose proof (inv_ev _ _ _ _ E1 I) as I1.
    apply bd_if; intros _.
    + eapply bd_weak; [apply (bd_block a H U HU c rho s1 C2 I1)|lia|destruct (useb U c a), (useb U c b); simpl; lia|]. intros p s' _ X. split; [intros _; apply inv0|]. cbn [noret]. intros Y. apply andb_true_iff in Y. now apply X.
    + eapply bd_weak; [apply (bd_block b H0 U HU c rho s1 C3 I1)|lia|destruct (useb U c a), (useb U c b); simpl; lia|]. intros p s' _ X. split; [intros _; apply inv0|]. cbn [noret]. intros Y. apply andb_true_iff in Y. now apply X.
  - rewrite !andb_true_iff in C. destruct C as ((C1 & C2) & C3). apply bd_tick1 with (k := ce e + (1 + 2 * (list_sum (map cs b) + 1))); [|lia]. cbn [CostCheck.uses].
    eapply bd_seq with (u2 := 0); [apply (ge U HU e c rho s C1 I)| |apply le_n|lia]. intros v s1 E1 Ov _.
    eapply bd_seq with (u1 := 0) (k1 := 1) (u2 := 0) (ok1 := fun _ s' => True); [apply (bd_prim 0); [apply ev_iter|apply gr_iter|auto]| |apply le_n|lia]. intros vs s2 E2 _ _.
    eapply bd_weak; [apply (bd_for (run_blockT (execT P call) b) x (list_sum (map cs b)) (forallb noret b = true))|lia|lia|].
    + intros rho' s'. eapply bd_weak; [apply (bd_block b H V HV CostCheck.c0 rho' s' C2 (inv0 _ _))|lia| |auto]. change (useb V CostCheck.c0 b = true) in C3. rewrite C3. apply le_n.
    + intros p s' _ X. split; [intros _; apply inv0|exact X].
  - apply bd_tick1 with (k := ce e + 0); [|lia]. eapply bd_seq with (u2 := 0); [apply (ge U HU e c rho s C I)| |apply le_n|simpl; lia]. intros v s1 E1 _ _. apply bd_ret. split; intros X; discriminate X.
  - apply bd_tick1 with (k := 1); [|lia]. apply bd_exc. lia.
  - apply bd_tick1 with (k := ce e + 1); [|lia]. eapply bd_seq with (u2 := 0); [apply (ge U HU e c rho s C I)| |apply le_n|simpl; lia]. intros v s1 E1 _ _.
    apply (bd_if _ _ _ (fun s => truth (heap s) v) (retT (rho, None)) (fun s => (0, (Exc AssertionError, s)))); intros _.
    + apply bd_ret. split; simpl; auto. intros _. eapply inv_ev; eauto.
    + unfold bd. split; [apply evolves_refl|]. split; [lia|]. split; [lia|discriminate].
  - apply bd_tick1 with (k := 1); [|lia]. apply bd_ret. split; auto.
Qed.
End Stmts.

(** ** Functions *)
Fixpoint KK (fuel : nat) : nat :=
  match fuel with
  | O => 2
  | S n => list_max (map (fun m => 3 + list_sum (map (cs (KK n)) (m_body m))) allm) + 2
  end.
Lemma list_max_in x l : In x l -> x <= list_max l.
Proof. intros H. pose proof (proj1 (list_max_le l (list_max l)) (Nat.le_refl _)) as F. rewrite Forall_forall in F. auto. Qed.

Lemma bind_rest_dflt ps e x d : bind_rest ps [] = Some e -> assoc x ps = Some (Some d) -> assoc x e = Some (dflt_val d).
Proof.
  revert e. induction ps as [|[y o] r IH]; intros e; simpl; [discriminate|]. destruct o as [dv|]; [|discriminate]. destruct (bind_rest r []) as [e'|]; [|discriminate]. intros [= <-]. simpl.
  destruct (String.eqb x y); [now intros [= ->]|]. auto.
Qed.
Lemma one_arg m v rho s : bind_args (m_params m) [v] [] = Some rho -> inv (mkctx (nones (m_params m)) [] []) rho s.
Proof.
  intros H. split; [|split]; cbn [c_none c_plain c_inst]; try (intros; contradiction). intros x Hx. unfold bind_args in H. simpl in H. destruct (m_params m) as [|[x0 o] r]; [discriminate|].
  simpl in H. replace (bind_pos r []) with (Some (@nil (string * val), r)) in H by now destruct r. destruct (bind_rest r []) as [e|] eqn:E; [|discriminate]. injection H as <-. simpl in Hx. apply filter_In in Hx as (_ & Hx). apply andb_true_iff in Hx as (H1 & H2). apply negb_true_iff in H1.
  simpl. rewrite H1. destruct (assoc x r) as [[[[]|]|]|] eqn:A; try discriminate. exact (bind_rest_dflt _ _ _ _ E A).
Qed.
Lemma init_okl n g : init_ok P (okl n) g = true -> forall i, get_cls P g <> None -> lookup P g "__init__" = Some (MMeth i) -> exists n, okl n i = true.
Proof. unfold init_ok. intros H i G L. destruct (get_cls P g); [|contradiction]. rewrite L in H. eauto. Qed.

Theorem bd_run fuel : 
  (forall m args kws s, callok m args kws -> bd (KK fuel) 0 (fun _ _ => True) (runT P fuel m args kws) s) /\
  (forall m args kws s j n, In m allm -> okl n m = true -> usem j m = true -> bd (KK fuel) 1 (fun _ _ => True) (runT P fuel m args kws) s).
Proof.
  induction fuel as [|f (IH0 & IH1)].
  { split; intros; (apply bd_tick1 with (k := 1); [apply bd_exc; lia|simpl; lia]). }
  assert (G : forall m args kws s c n u U rho, In m allm -> ckb P names slow reads (init_ok P (okl n)) (usem D) c (m_body m) = true -> valid U ->
    bind_args (m_params m) args kws = Some rho -> inv c rho s -> u <= b2n (useb P reads U c (m_body m)) -> bd (KK (S f)) u (fun _ _ => True) (runT P (S f) m args kws) s).
  { intros m args kws s c n u U rho I C HU B Iv Hu. cbn [runT]. rewrite B.
    assert (L : 3 + list_sum (map (cs (KK f)) (m_body m)) <= list_max (map (fun m => 3 + list_sum (map (cs (KK f)) (m_body m))) allm)) by (apply list_max_in, in_map_iff; eauto).
    apply bd_tick1 with (k := list_sum (map (cs (KK f)) (m_body m)) + 0); [|cbn [KK]; lia].
    eapply bd_seq with (u2 := 0); [|intros p s1 _ _ _; now apply bd_ret|apply le_n|rewrite Nat.add_0_r; exact Hu].
    eapply bd_weak; [eapply (bd_block (runT P f) (KK f) (init_ok P (okl n)) (usem D) (m_body m))|lia|apply le_n|]; auto.
    - apply Forall_forall. intros st _. apply goods_all; auto; [apply init_okl|now exists D].
    - intros ? ? _ _. exact Logic.I. }
  assert (Ty : forall m args kws s u, bind_args (m_params m) args kws = None -> bd (KK (S f)) u (fun _ _ => True) (runT P (S f) m args kws) s).
  { intros m args kws s u B. cbn [runT]. rewrite B. apply bd_tick1 with (k := 1); [apply bd_exc; lia|cbn [KK]; lia]. }
  split.
  - intros m args kws s (I & [(n & On)|((n & On) & La & ->)]).
    + destruct (bind_args (m_params m) args kws) as [rho|] eqn:B; [|now apply Ty]. destruct n; [discriminate|]. simpl in On. eapply (G m args kws s c0 n 0 (usem D)); eauto; [now exists D|apply inv0|lia].
    + destruct args as [|v [|? ?]]; try discriminate. destruct (bind_args (m_params m) [v] []) as [rho|] eqn:B; [|now apply Ty]. eapply (G m [v] [] s _ n 0 (usem D)); eauto; [now exists D|eapply one_arg; eauto|lia].
  - intros m args kws s j n I On Us. destruct (bind_args (m_params m) args kws) as [rho|] eqn:B; [|now apply Ty]. destruct n; [discriminate|]. simpl in On.
    destruct j; [discriminate|]. simpl in Us. eapply (G m args kws s c0 n 1 (usem j)); eauto; [now exists j|apply inv0|rewrite Us; apply le_n].
Qed.
End Prog.
