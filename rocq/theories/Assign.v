(** * Assigning to one attribute of an object, and what becomes of the bytes it serializes to: lemmas for PropAssign.v *)
From Coq Require Import ZArith String List Bool Lia.
From Coq Require Import Strings.Byte.
From Verif Require Import Lang Bytes Interp Shift Mono ProgBase ProgDis Prog Spec Codec Codec2 Rep Dec StreamLem SerSound ParSound ParStep ParClass NewSound Layouts Refine Api StreamApi Classes PropCodec CtorRun PropFactory PropOffsets.
Import ListNotations.
Open Scope string_scope. Open Scope Z_scope. Open Scope list_scope.

(** ** Where a layout uses an attribute *)
(** encoding or decoding f looks at attribute a; with cnt = false, looking at the number of its elements does not count *)
Fixpoint uses (cnt : bool) (a : string) (f : fmt) : bool :=
  match f with
  | Done => false
  | Prim b _ k | Mask b _ k | PList b _ k | Arr b _ _ k | NullL b k | Pad b k | Obj b _ _ k | OList b _ _ k => String.eqb a b || uses cnt a k
  | Cnt b _ _ k => (cnt && String.eqb a b) || uses cnt a k
  | VList b _ d _ k | Derive b d _ k => String.eqb a b || String.eqb a d || uses cnt a k
  | Bits bf k => mem a (bnames bf) || uses cnt a k
  | Zero _ k => uses cnt a k
  end.

(** the first scalar, record or list of f named a, what comes before it and what comes after *)
Inductive spot := SPrim (p : prim) | SObj (c : string) (sub : fmt) | SRecords (c : string) (sub : fmt) | SArr (p : prim) (n : nat) | SItems (p : prim).
Definition put_spot (a : string) (i : spot) (k : fmt) : fmt :=
  match i with SPrim p => Prim a p k | SObj c sub => Obj a c sub k | SRecords c sub => OList a c sub k | SArr p n => Arr a p n k | SItems p => PList a p k end.
Definition behind (g : fmt -> fmt) (r : option (fmt * spot * fmt)) : option (fmt * spot * fmt) :=
  match r with Some (f1, i, f2) => Some (g f1, i, f2) | None => None end.
Fixpoint cut (a : string) (f : fmt) : option (fmt * spot * fmt) :=
  match f with
  | Done => None
  | Prim b p k => if String.eqb a b then Some (Done, SPrim p, k) else behind (Prim b p) (cut a k)
  | Obj b c sub k => if String.eqb a b then Some (Done, SObj c sub, k) else behind (Obj b c sub) (cut a k)
  | OList b c sub k => if String.eqb a b then Some (Done, SRecords c sub, k) else behind (OList b c sub) (cut a k)
  | Arr b p n k => if String.eqb a b then Some (Done, SArr p n, k) else behind (Arr b p n) (cut a k)
  | PList b p k => if String.eqb a b then Some (Done, SItems p, k) else behind (PList b p) (cut a k)
  | Cnt b p m k => behind (Cnt b p m) (cut a k)
  | Zero p k => behind (Zero p) (cut a k)
  | Mask b n k => behind (Mask b n) (cut a k)
  | VList b p d dv k => behind (VList b p d dv) (cut a k)
  | Pad b k => behind (Pad b) (cut a k)
  | Derive b d z k => behind (Derive b d z) (cut a k)
  | Bits bf k => behind (Bits bf) (cut a k)
  | NullL b k => behind (NullL b) (cut a k)
  end.

Lemma cut_split a f : forall f1 i f2, cut a f = Some (f1, i, f2) -> f = fapp f1 (put_spot a i f2).
Proof.
  induction f; intros h1 i h2 H; cbn [cut] in H; try discriminate;
    try (destruct (String.eqb_spec a a0) as [->|]; [injection H as <- <- <-; reflexivity|]);
    match type of H with behind _ (cut a ?k) = _ => destruct (cut a k) as [[[g1 j] g2]|] eqn:E; cbn [behind] in H; [|discriminate] end;
    injection H as <- <- <-; cbn [fapp]; f_equal; eauto.
Qed.

(** the only use of a in f is this one (lists: besides their count) *)
Definition find_spot (a : string) (f : fmt) : option (fmt * spot * fmt) :=
  match cut a f with
  | Some (f1, i, f2) =>
      let cnt := match i with SPrim _ | SObj _ _ => true | _ => false end in
      if uses cnt a f1 || uses cnt a f2 then None else Some (f1, i, f2)
  | None => None
  end.
Definition counted (i : spot) : bool := match i with SPrim _ | SObj _ _ => true | _ => false end.
Lemma find_spot_inv a f f1 i f2 : find_spot a f = Some (f1, i, f2) -> f = fapp f1 (put_spot a i f2) /\ uses (counted i) a f1 = false /\ uses (counted i) a f2 = false.
Proof.
  unfold find_spot. destruct (cut a f) as [[[g1 j] g2]|] eqn:E; [|discriminate]. apply cut_split in E.
  destruct (uses _ a g1 || uses _ a g2) eqn:U; [discriminate|]. intros [= <- <- <-]. apply orb_false_iff in U as [U1 U2]. auto.
Qed.

(** ** Replacing a field *)
Fixpoint put (a : string) (x : wv) (W : flds) : flds :=
  match W with [] => [] | (b, y) :: r => if String.eqb a b then (b, x) :: r else (b, y) :: put a x r end.
Lemma field_put a x W y : field a W = Some y -> field a (put a x W) = Some x.
Proof. induction W as [|[b z] r IH]; cbn [field put]; [discriminate|]. destruct (String.eqb a b) eqn:E; cbn [field]; rewrite E; auto. Qed.
Lemma field_put_ne a b x W : b <> a -> field b (put a x W) = field b W.
Proof.
  intros N. induction W as [|[d z] r IH]; cbn [field put]; [reflexivity|].
  destruct (String.eqb_spec a d) as [->|]; cbn [field]; [|now rewrite IH]. destruct (String.eqb_spec b d); [contradiction|reflexivity].
Qed.
Lemma put_same a x W : field a W = Some x -> put a x W = W.
Proof. induction W as [|[b z] r IH]; cbn [field put]; [discriminate|]. destruct (String.eqb_spec a b) as [->|]; [now intros [= ->]|]. intros H. now rewrite IH. Qed.

Definition same_len (x y : option wv) : Prop :=
  match x, y with Some (WList l), Some (WList m) => length l = length m | _, _ => x = y end.
Lemma same_len_put a W l m : field a W = Some (WList l) -> length l = length m -> same_len (field a W) (field a (put a (WList m) W)).
Proof. intros H E. rewrite (field_put _ _ _ _ H), H. exact E. Qed.

Lemma enc_bits_ext W W' : forall bf, (forall b, In b (bnames bf) -> field b W' = field b W) -> enc_bits bf W' = enc_bits bf W.
Proof.
  induction bf as [|b r IH]; intros H; cbn [enc_bits]; [reflexivity|]. cbn [flat_map] in H.
  rewrite IH by (intros; apply H; apply in_or_app; auto). destruct (bf_attr b) as [a|]; [|reflexivity]. rewrite H by (apply in_or_app; left; now left). reflexivity.
Qed.

(** encoding f depends on the attributes f uses only *)
Lemma encode_frame cnt a f : forall W W', uses cnt a f = false -> (forall b, b <> a -> field b W' = field b W) -> (cnt = false -> same_len (field a W) (field a W')) ->
  encode f W' = encode f W.
Proof.
  induction f as [|b p k IH|b c sub IHs k IH|b p m k IH|b p k IH|b c sub IHs k IH|b p n k IH|p k IH|b n k IH
                 |b p d dv k IH|b k IH|b d z k IH|bf k IH|b k IH]; intros W W' U F C; cbn [uses encode] in *; try reflexivity;
    try (apply orb_false_iff in U as [U0 U]); try (apply orb_false_iff in U0 as [U0 U1]); try (rewrite (IH W W' U F C)); try reflexivity;
    try (apply String.eqb_neq in U0; rewrite (F b) by congruence); try reflexivity.
  - destruct (String.eqb_spec a b) as [<-|N].
    + rewrite andb_true_r in U0. specialize (C U0). unfold same_len in C. destruct (field a W) as [[]|], (field a W') as [[]|]; try discriminate; try reflexivity; now rewrite C.
    + rewrite (F b) by congruence. reflexivity.
  - apply String.eqb_neq in U1. rewrite (F d) by congruence. reflexivity.
  - rewrite enc_bits_ext with (W := W); [reflexivity|]. intros b Hb. apply F. intros ->. apply mem_In in Hb. congruence.
Qed.

Lemma names_uses cnt a f : uses cnt a f = false -> forall b, In b (names f) -> b <> a.
Proof.
  induction f; intros U e Hb; cbn [uses names] in *; try contradiction;
    try (apply orb_false_iff in U as [U0 U]); try (apply orb_false_iff in U0 as [U0 U1]); try (eapply IHf; eauto; fail); try (eapply IHf2; eauto; fail).
  all: try (destruct Hb as [<-|Hb]; [apply String.eqb_neq in U0; congruence|]); eauto.
  apply in_app_or in Hb as [Hb|Hb]; [|eauto]. intros ->. apply mem_In in Hb. congruence.
Qed.

(** ** Lists *)
Lemma enc_list_app {A} (e : A -> outcome) l m : enc_list e (l ++ m) = oseq (enc_list e l) (enc_list e m).
Proof. induction l as [|x l IH]; cbn [enc_list app]; [now rewrite oseq_done_l|]. rewrite IH. now rewrite oseq_assoc. Qed.
Lemma enc_idx_firstn e : forall n l, (n <= length l)%nat -> enc_idx e l n = enc_list e (firstn n l).
Proof. induction n as [|n IH]; intros [|x l] H; cbn [enc_idx firstn enc_list length] in *; try reflexivity; try lia. rewrite IH by lia. reflexivity. Qed.
Lemma enc_idx_app e x r : forall l n, (length l < n)%nat -> enc_idx e (l ++ x :: r) n = oseq (enc_list e l) (oseq (e x) (enc_idx e r (n - S (length l)))).
Proof.
  induction l as [|y l IH]; intros n H; cbn [length app] in *; (destruct n as [|n]; [lia|]); cbn [enc_idx enc_list].
  - rewrite oseq_done_l. cbn [Nat.sub]. now rewrite Nat.sub_0_r.
  - rewrite IH by lia. now rewrite oseq_assoc.
Qed.
Lemma set_nth_mid {A} (y : A) r x : forall l, set_nth (length l) y (l ++ x :: r) = l ++ y :: r.
Proof. induction l; cbn [length app set_nth]; congruence. Qed.
Lemma nth_split_at {A} (l : list A) i x : nth_error l i = Some x -> exists l1 l2, l = l1 ++ x :: l2 /\ length l1 = i.
Proof. apply nth_error_split. Qed.

Lemma Forall3_split {A B C} (R : A -> B -> C -> Prop) : forall l m n i x, Forall3 R l m n -> nth_error l i = Some x ->
  exists l1 l2 y m1 m2 z n1 n2, l = l1 ++ x :: l2 /\ m = m1 ++ y :: m2 /\ n = n1 ++ z :: n2 /\ length l1 = i /\ length m1 = i /\ R x y z /\ Forall3 R l1 m1 n1 /\ Forall3 R l2 m2 n2.
Proof.
  intros l m n i x F. revert i. induction F as [|a b c l m n H F IH]; intros [|i] E; cbn [nth_error] in E; try discriminate.
  - injection E as ->. exists [], l, b, [], m, c, [], n. repeat split; auto; constructor.
  - destruct (IH i E) as (l1 & l2 & y & m1 & m2 & z & n1 & n2 & -> & -> & -> & L1 & L2 & HR & F1 & F2).
    exists (a :: l1), l2, y, (b :: m1), m2, z, (c :: n1), n2. cbn [length app]. repeat split; auto; constructor; auto.
Qed.
Lemma Forall3_app {A B C} (R : A -> B -> C -> Prop) l1 m1 n1 l2 m2 n2 : Forall3 R l1 m1 n1 -> Forall3 R l2 m2 n2 -> Forall3 R (l1 ++ l2) (m1 ++ m2) (n1 ++ n2).
Proof. induction 1; intros H2; [exact H2|]. cbn [app]. constructor; auto. Qed.

Lemma Forall2_split {A B} (R : A -> B -> Prop) : forall l m i x, Forall2 R l m -> nth_error l i = Some x ->
  exists l1 l2 y m1 m2, l = l1 ++ x :: l2 /\ m = m1 ++ y :: m2 /\ length l1 = i /\ length m1 = i /\ R x y /\ Forall2 R l1 m1 /\ Forall2 R l2 m2.
Proof.
  intros l m i x F. revert i. induction F as [|a b l m H F IH]; intros [|i] E; cbn [nth_error] in E; try discriminate.
  - injection E as ->. exists [], l, b, [], m. repeat split; auto.
  - destruct (IH i E) as (l1 & l2 & y & m1 & m2 & -> & -> & L1 & L2 & HR & F1 & F2).
    exists (a :: l1), l2, y, (b :: m1), m2. cbn [length app]. repeat split; auto.
Qed.

Lemma fixed_list_length sub z : fixed sub = Some z -> forall l b, enc_list (fun x => encode sub (as_obj x)) l = (b, None) -> length b = (length l * z)%nat.
Proof.
  intros Hz. induction l as [|x l IH]; intros b E; cbn [enc_list] in E; [injection E as <-; reflexivity|].
  apply oseq_ok in E as (b1 & b2 & E1 & E2 & ->). rewrite app_length, (IH _ E2), (encode_size _ _ _ E1), (fixed_size _ _ _ Hz). cbn [length]. lia.
Qed.
Lemma val_list_length p : forall l b, enc_list (enc_val p) l = (b, None) -> length b = (length l * width p)%nat.
Proof.
  induction l as [|x l IH]; intros b E; cbn [enc_list] in E; [injection E as <-; reflexivity|].
  apply oseq_ok in E as (b1 & b2 & E1 & E2 & ->). rewrite app_length, (IH _ E2), (enc_val_length _ _ _ E1). cbn [length]. lia.
Qed.

(** ** Paths: o.a, o.a[i] *)
Inductive step := Attr (a : string) | Elem (a : string) (i : nat).
Fixpoint reach (n : nat) (o : val) (path : list step) : M val :=
  match path with
  | [] => ret o
  | Attr a :: r => bind (getattr n o a) (fun v => reach n v r)
  | Elem a i :: r => bind (getattr n o a) (fun l => bind (sub_val l (VInt (Z.of_nat i))) (fun v => reach n v r))
  end.

(** the left-hand side of an assignment, below an object: .a or .a[i] *)
Inductive target := TAttr (a : string) | TItem (a : string) (i : nat).
(** o.path.a = v or o.path.a[i] = v *)
Definition assign (n : nat) (o : val) (path : list step) (t : target) (v : val) : M unit :=
  bind (reach n o path) (fun u =>
    match t with
    | TAttr a => set_attr the_prog u a v
    | TItem a i => bind (getattr n u a) (fun l => set_sub l (VInt (Z.of_nat i)) v)
    end).

Definition oadd (x y : option nat) : option nat := match x, y with Some a, Some b => Some (a + b)%nat | _, _ => None end.
(** the wire type of the scalar a path leads to in a layout, and its offset where that does not depend on the values *)
Fixpoint type_at (f : fmt) (path : list step) (t : target) : option (prim * option nat) :=
  match path with
  | [] =>
      match t with
      | TAttr a => match find_spot a f with Some (f1, SPrim p, _) => Some (p, fixed f1) | _ => None end
      | TItem a i =>
          match find_spot a f with
          | Some (f1, SArr p n, _) => if (i <? n)%nat then Some (p, oadd (fixed f1) (Some (i * width p)%nat)) else None
          | Some (f1, SItems p, _) => Some (p, oadd (fixed f1) (Some (i * width p)%nat))
          | _ => None
          end
      end
  | Attr a :: r =>
      match find_spot a f with
      | Some (f1, SObj _ sub, _) => match type_at sub r t with Some (p, off) => Some (p, oadd (fixed f1) off) | None => None end
      | _ => None
      end
  | Elem a i :: r =>
      match find_spot a f with
      | Some (f1, SRecords _ sub, _) =>
          match type_at sub r t with Some (p, off) => Some (p, oadd (oadd (fixed f1) (option_map (Nat.mul i) (fixed sub))) off) | None => None end
      | _ => None
      end
  end.

(** as x varies, the encoding of W' x varies in one place only; W is W' x0 *)
Definition hole (f : fmt) (W : flds) (W' : wv -> flds) (p : prim) (off : option nat) : Prop :=
  exists A B x0, (forall x, encode f (W' x) = oseq A (oseq (enc_val p x) B)) /\ encode f W = oseq A (oseq (enc_val p x0) B) /\
    (forall k bs, off = Some k -> A = (bs, None) -> length bs = k).

Lemma fixed_out f W k bs : fixed f = Some k -> encode f W = (bs, None) -> length bs = k.
Proof. intros F E. rewrite (encode_size _ _ _ E). now apply fixed_size. Qed.

Lemma oadd_inv x y k : oadd x y = Some k -> exists a b, x = Some a /\ y = Some b /\ k = (a + b)%nat.
Proof. destruct x, y; try discriminate. intros [= <-]. eauto. Qed.

Lemma getA_upd c at_ a b v : b <> a -> getA the_prog c (upd a v at_) b = getA the_prog c at_ b.
Proof. intros N. unfold getA. rewrite !assoc_upd_ne by (now apply String.eqb_neq). reflexivity. Qed.
Lemma getA_upd_eq c at_ a v x : getA the_prog c at_ a = Some x -> getA the_prog c (upd a v at_) a = Some v.
Proof. unfold getA. rewrite assoc_upd_eq. destruct (lookup the_prog c a) as [[]|]; congruence. Qed.

(** frames for one part of a layout *)
Lemma rep_part cnt a f h h' ga ga' W y fp : uses cnt a f = false -> rep the_prog h f ga W fp -> (forall x, In x fp -> nth_error h' x = nth_error h x) ->
  (forall b, b <> a -> ga' b = ga b) -> rep the_prog h' f ga' (put a y W) fp.
Proof.
  intros U R Hh Hg. eapply rep_ext; [exact R|exact Hh| |].
  - intros b Hb. apply Hg. eapply names_uses; eauto.
  - intros b Hb. apply field_put_ne. eapply names_uses; eauto.
Qed.
Lemma encode_part cnt a f W y : uses cnt a f = false -> (cnt = false -> same_len (field a W) (field a (put a y W))) -> encode f (put a y W) = encode f W.
Proof. intros U C. eapply encode_frame; eauto. intros. now apply field_put_ne. Qed.

Lemma getattr_ok n s l c at_ a v : nth_error (heap s) l = Some (HInst c at_) -> getA the_prog c at_ a = Some v -> getattr n (VRef l) a s = (Ok v, s).
Proof. intros H G. unfold getattr. eapply get_attr_ga; eauto. Qed.

Definition result (s s1 : st) (l : nat) (c : string) (f : fmt) (W : flds) (fp : list nat) (p : prim) (off : option nat) (v : val) : Prop :=
  exists lu ob, In lu (l :: fp) /\ s1 = mkst (set_nth lu ob (heap s)) (irest s) (ifull s) (out s) /\
    exists W', hole f W W' p off /\ forall x, scal v = Some x -> exists at', nth_error (heap s1) l = Some (HInst c at') /\ rep the_prog (heap s1) f (getA the_prog c at') (W' x) fp.

Lemma lt_of {A} (h : list A) l x : nth_error h l = Some x -> (l < length h)%nat.
Proof. intros H. apply nth_error_Some. congruence. Qed.
Lemma py_index_nat i k : py_index (Z.of_nat i) k = if (i <? k)%nat then Some i else None.
Proof.
  unfold py_index. destruct (Nat.ltb_spec i k).
  - replace (0 <=? Z.of_nat i) with true by (symmetry; apply Z.leb_le; lia). replace (Z.of_nat i <? Z.of_nat k) with true by (symmetry; apply Z.ltb_lt; lia). cbn [andb]. now rewrite Nat2Z.id.
  - replace (Z.of_nat i <? Z.of_nat k) with false by (symmetry; apply Z.ltb_ge; lia). rewrite andb_false_r. replace (Z.of_nat i <? 0) with false by (symmetry; apply Z.ltb_ge; lia). reflexivity.
Qed.
Lemma sub_list s l vs i u s0 : nth_error (heap s) l = Some (HList vs) -> sub_val (VRef l) (VInt (Z.of_nat i)) s = (Ok u, s0) -> s0 = s /\ nth_error vs i = Some u.
Proof.
  intros H. unfold sub_val, bind, hget. rewrite H. cbn [as_int]. unfold nth_val. rewrite py_index_nat. destruct (i <? length vs)%nat; [|discriminate].
  destruct (nth_error vs i); [|discriminate]. unfold ret. intros [= -> ->]. auto.
Qed.
Lemma set_list s l vs i v s0 : nth_error (heap s) l = Some (HList vs) -> set_sub (VRef l) (VInt (Z.of_nat i)) v s = (Ok tt, s0) ->
  s0 = mkst (set_nth l (HList (set_nth i v vs)) (heap s)) (irest s) (ifull s) (out s) /\ (i < length vs)%nat.
Proof.
  intros H. unfold set_sub, bind, hget. rewrite H. cbn [as_int]. rewrite py_index_nat. destruct (Nat.ltb_spec i (length vs)); [|discriminate].
  unfold hset. intros [= <-]. auto.
Qed.

(** *** the assignment itself *)
Lemma assign_attr f a f1 p f2 s l c at_ W fp v s1 : find_spot a f = Some (f1, SPrim p, f2) -> nth_error (heap s) l = Some (HInst c at_) ->
  rep the_prog (heap s) f (getA the_prog c at_) W fp -> NoDup (l :: fp) -> set_attr the_prog (VRef l) a v s = (Ok tt, s1) ->
  result s s1 l c f W fp p (fixed f1) v.
Proof.
  intros HF Hl HR HN HS. apply find_spot_inv in HF as (-> & U1 & U2). cbn [counted put_spot] in *. apply rep_fapp in HR as (q1 & q2 & R1 & R2 & ->).
  cbn [rep] in R2. destruct R2 as [(v0 & x0 & G & Sc & Fd) R2].
  assert (E1 : s1 = mkst (set_nth l (HInst c (upd a v at_)) (heap s)) (irest s) (ifull s) (out s)).
  { unfold set_attr, bind, hget, hset in HS. rewrite Hl in HS. unfold getA in G. destruct (lookup the_prog c a) as [[m|]|]; [discriminate| |]; now injection HS as <-. }
  exists l, (HInst c (upd a v at_)). split; [now left|]. split; [exact E1|]. exists (fun x => put a x W). split.
  - exists (encode f1 W), (encode f2 W), x0. split; [|split].
    + intros x. rewrite encode_fapp. cbn [encode]. rewrite (field_put _ _ _ _ Fd), !(encode_part true) by (assumption || discriminate). reflexivity.
    + rewrite encode_fapp. cbn [encode]. now rewrite Fd.
    + intros k bs Hk Hb. eapply fixed_out; eauto.
  - intros x Hx. exists (upd a v at_). subst s1. cbn [heap]. split; [apply set_nth_eq; eapply lt_of; eauto|].
    assert (Hh : forall y, In y (q1 ++ q2) -> nth_error (set_nth l (HInst c (upd a v at_)) (heap s)) y = nth_error (heap s) y).
    { intros y Hy. apply set_nth_ne. intros <-. inversion HN; contradiction. }
    apply rep_fapp. exists q1, q2. split; [|split; [|reflexivity]].
    + eapply rep_part; eauto; [intros; apply Hh; apply in_or_app; auto|intros; now apply getA_upd].
    + cbn [rep]. split; [exists v, x; split; [eapply getA_upd_eq; eauto|split; [exact Hx|eapply field_put; eauto]]|].
      eapply rep_part; eauto; [intros; apply Hh; apply in_or_app; auto|intros; now apply getA_upd].
Qed.

Lemma NoDup_parts {A} (l : A) q1 x q2 : NoDup (l :: q1 ++ x :: q2) -> l <> x /\ ~ In x q1 /\ ~ In x q2 /\ ~ In l q1 /\ ~ In l q2.
Proof.
  intros H. inversion H as [|? ? N D]; subst. pose proof (NoDup_remove_2 _ _ _ D) as K. rewrite in_app_iff in *. cbn [In] in N. intuition congruence.
Qed.

Lemma assign_item f a f1 i p f2 s l c at_ W fp v s1 k : find_spot a f = Some (f1, i, f2) -> match i with SArr q n => q = p /\ (k < n)%nat | SItems q => q = p | _ => False end ->
  nth_error (heap s) l = Some (HInst c at_) -> rep the_prog (heap s) f (getA the_prog c at_) W fp -> NoDup (l :: fp) ->
  forall la, getA the_prog c at_ a = Some la -> set_sub la (VInt (Z.of_nat k)) v s = (Ok tt, s1) ->
  result s s1 l c f W fp p (oadd (fixed f1) (Some (k * width p)%nat)) v.
Proof.
  intros HF Hi Hl HR HN la Ga HS. apply find_spot_inv in HF as (-> & U1 & U2). apply rep_fapp in HR as (q1 & q2 & R1 & R2 & ->).
  assert (exists l' vs ws q, la = VRef l' /\ nth_error (heap s) l' = Some (HList vs) /\ field a W = Some (WList ws) /\ Forall2 (fun v x => scal v = Some x) vs ws /\
            rep the_prog (heap s) f2 (getA the_prog c at_) W q /\ q2 = l' :: q) as (l' & vs & ws & q & -> & H1 & H2 & H3 & H4 & ->).
  { destruct i; try contradiction; cbn [put_spot rep] in R2; destruct R2 as (l' & vs & ws & q & A1 & A2 & A3 & A4 & A5 & ->); exists l', vs, ws, q; repeat split; auto; congruence. }
  apply NoDup_parts in HN as (N1 & N2 & N3 & N4 & N5).
  destruct (set_list _ _ _ _ _ _ H1 HS) as [-> Hk].
  destruct (nth_error vs k) as [vk|] eqn:Ek; [|apply nth_error_None in Ek; lia].
  destruct (Forall2_split _ _ _ _ _ H3 Ek) as (vs1 & vs2 & x0 & ws1 & ws2 & -> & -> & L1 & L2 & Hx0 & F1 & F2). subst k. rewrite set_nth_mid.
  exists l'. eexists. split; [right; apply in_or_app; right; now left|]. split; [reflexivity|]. exists (fun x => put a (WList (ws1 ++ x :: ws2)) W).
  assert (C : forall x, false = false -> same_len (field a W) (field a (put a (WList (ws1 ++ x :: ws2)) W))).
  { intros x _. eapply same_len_put; eauto. rewrite !app_length. reflexivity. }
  assert (CI : counted i = false) by (destruct i; try contradiction; reflexivity). rewrite CI in *.
  split.
  - assert (exists B, forall x W0, field a W0 = Some (WList (ws1 ++ x :: ws2)) -> encode f2 W0 = encode f2 W ->
              encode (put_spot a i f2) W0 = oseq (enc_list (enc_val p) ws1) (oseq (enc_val p x) B)) as (B & HB).
    { destruct i as [| | |q0 n|q0]; try contradiction; cbn [put_spot encode].
      - destruct Hi as [-> Hn]. exists (oseq (enc_idx (enc_val p) ws2 (n - S (length ws1))) (encode f2 W)). intros x W0 E0 E2. rewrite E0, E2, enc_idx_app by lia. now rewrite !oseq_assoc.
      - subst q0. exists (oseq (enc_list (enc_val p) ws2) (encode f2 W)). intros x W0 E0 E2. rewrite E0, E2, enc_list_app. cbn [enc_list]. now rewrite !oseq_assoc. }
    exists (oseq (encode f1 W) (enc_list (enc_val p) ws1)), B, x0. split; [|split].
    + intros x. rewrite encode_fapp, (HB x); [|eapply field_put; eauto|eapply encode_part; eauto]. rewrite (encode_part false) by auto. now rewrite oseq_assoc.
    + rewrite encode_fapp, (HB x0) by auto. now rewrite oseq_assoc.
    + intros k0 bs Hk0 Hb. apply oadd_inv in Hk0 as (y & z & E1 & E2 & ->). injection E2 as <-. apply oseq_ok in Hb as (b1 & b2 & E3 & E4 & ->).
      rewrite app_length, (fixed_out _ _ _ _ E1 E3), (val_list_length _ _ _ E4). lia.
  - intros x Hx. exists at_. cbn [heap]. split; [rewrite set_nth_ne by congruence; exact Hl|].
    apply rep_fapp. exists q1, (l' :: q). split; [|split; [|reflexivity]].
    + eapply rep_part; eauto. intros y Hy. apply set_nth_ne. congruence.
    + assert (K : Forall2 (fun v x => scal v = Some x) (vs1 ++ v :: vs2) (ws1 ++ x :: ws2)) by (apply Forall2_app; [exact F1|constructor; assumption]).
      destruct i; try contradiction; cbn [put_spot rep]; exists l', (vs1 ++ v :: vs2), (ws1 ++ x :: ws2), q; (split; [exact Ga|]; split; [apply set_nth_eq; eapply lt_of; eauto|]; split; [eapply field_put; eauto|]; split; [exact K|]; split; [|reflexivity]);
        (eapply rep_part; eauto; intros y Hy; apply set_nth_ne; congruence).
Qed.

Lemma NoDup_app_parts {A} (q1 q2 : list A) : NoDup (q1 ++ q2) -> NoDup q1 /\ NoDup q2 /\ forall x, In x q1 -> ~ In x q2.
Proof.
  induction q1 as [|y q1 IH]; cbn [app]; intros H; [split; [constructor|split; [exact H|intros x []]]|].
  inversion H as [|? ? N D]; subst. destruct (IH D) as (A1 & A2 & A3). rewrite in_app_iff in N. split; [constructor; tauto|]. split; [exact A2|].
  intros x [<-|Hx]; [tauto|auto].
Qed.

Lemma assign_ind n t v : forall path f p off s l c at_ W fp s1, type_at f path t = Some (p, off) -> nth_error (heap s) l = Some (HInst c at_) ->
  rep the_prog (heap s) f (getA the_prog c at_) W fp -> NoDup (l :: fp) -> assign n (VRef l) path t v s = (Ok tt, s1) -> result s s1 l c f W fp p off v.
Proof.
  induction path as [|st path IH]; intros f p off s l c at_ W fp s1 HT Hl HR HN HA.
  - unfold assign in HA. cbn [reach] in HA. change (bind (ret (VRef l)) ?k s) with (k (VRef l) s) in HA. cbn beta in HA.
    destruct t as [a|a i]; cbn [type_at] in HT; destruct (find_spot a f) as [[[f1 j] f2]|] eqn:HF; try discriminate.
    + destruct j; try discriminate. injection HT as <- <-. eapply assign_attr; eauto.
    + destruct (getA the_prog c at_ a) as [la|] eqn:Ga.
      * unfold bind in HA. rewrite (getattr_ok n _ _ _ _ _ _ Hl Ga) in HA. destruct j as [| | |q m|q]; try discriminate.
        -- destruct (Nat.ltb_spec i m); [|discriminate]. injection HT as <- <-. eapply assign_item; eauto. cbn. auto.
        -- injection HT as <- <-. eapply assign_item; eauto. reflexivity.
      * exfalso. apply find_spot_inv in HF as (-> & _ & _). apply rep_fapp in HR as (q1 & q2 & _ & R2 & _). destruct j; try discriminate; cbn [put_spot rep] in R2; destruct R2 as (? & ? & ? & ? & ? & _); congruence.
  - destruct st as [a|a i]; cbn [type_at] in HT; destruct (find_spot a f) as [[[f1 j] f2]|] eqn:HF; try discriminate; destruct j as [|d sub|d sub| |]; try discriminate;
      destruct (type_at sub path t) as [[p' off']|] eqn:HT'; try discriminate; injection HT as <- <-; apply find_spot_inv in HF as (-> & U1 & U2); cbn [counted put_spot] in *;
      apply rep_fapp in HR as (q1 & q2 & R1 & R2 & ->); cbn [rep] in R2.
    + destruct R2 as (l' & at' & w & r1 & r2 & G & Hl' & Fd & Rs & R2 & ->).
      assert (HA' : assign n (VRef l') path t v s = (Ok tt, s1)).
      { unfold assign in *. cbn [reach] in HA. unfold bind in *. rewrite (getattr_ok n _ _ _ _ _ _ Hl G) in HA. exact HA. }
      inversion HN as [|? ? N0 D0]; subst. apply NoDup_app_parts in D0 as (D1 & D2 & D3). change (l' :: r1 ++ r2) with ((l' :: r1) ++ r2) in *. apply NoDup_app_parts in D2 as (D4 & D5 & D6).
      destruct (IH _ _ _ _ _ _ _ _ _ _ HT' Hl' Rs D4 HA') as (lu & ob & Hin & E1 & w' & (A & B & x0 & HC1 & HC2 & HC3) & HW).
      assert (Hq1 : forall x, In x q1 -> x <> lu) by (intros x Hx ->; apply (D3 _ Hx); apply in_or_app; now left).
      assert (Hr2 : forall x, In x r2 -> x <> lu) by (intros x Hx ->; exact (D6 _ Hin Hx)).
      assert (Hlu : l <> lu) by (intros ->; apply N0; apply in_or_app; right; apply in_or_app; now left).
      exists lu, ob. split; [right; apply in_or_app; right; apply in_or_app; now left|]. split; [exact E1|].
      exists (fun x => put a (WObj (w' x)) W). split.
      * exists (oseq (encode f1 W) A), (oseq B (encode f2 W)), x0. split; [|split].
        -- intros x. rewrite encode_fapp. cbn [encode]. rewrite (field_put _ _ _ _ Fd), !(encode_part true) by (assumption || discriminate). rewrite HC1. now rewrite !oseq_assoc.
        -- rewrite encode_fapp. cbn [encode]. rewrite Fd, HC2. now rewrite !oseq_assoc.
        -- intros k bs Hk Hb. apply oadd_inv in Hk as (y & z & E2 & E3 & ->). apply oseq_ok in Hb as (b1 & b2 & E4 & E5 & ->).
           now rewrite app_length, (fixed_out _ _ _ _ E2 E4), (HC3 _ _ E3 E5).
      * intros x Hx. destruct (HW x Hx) as (at2 & Hl2 & Rs2). exists at_. subst s1. cbn [heap] in *. split; [rewrite set_nth_ne by congruence; exact Hl|].
        apply rep_fapp. exists q1, ((l' :: r1) ++ r2). split; [|split; [|reflexivity]].
        -- eapply rep_part; eauto. intros y Hy. apply set_nth_ne. specialize (Hq1 y Hy). congruence.
        -- cbn [rep]. exists l', at2, (w' x), r1, r2. split; [exact G|]. split; [exact Hl2|]. split; [eapply field_put; eauto|]. split; [exact Rs2|]. split; [|reflexivity].
           eapply rep_part; eauto. intros y Hy. apply set_nth_ne. specialize (Hr2 y Hy). congruence.
    + destruct R2 as (ll & vs & ws & fps & r2 & G & Hll & Fd & F3 & R2 & ->).
      unfold assign in HA. cbn [reach] in HA. unfold bind in HA. rewrite (getattr_ok n _ _ _ _ _ _ Hl G) in HA.
      destruct (sub_val (VRef ll) (VInt (Z.of_nat i)) s) as [[u|] s0] eqn:HS; [|discriminate]. destruct (sub_list _ _ _ _ _ _ Hll HS) as [-> Hi].
      destruct (Forall3_split _ _ _ _ _ _ F3 Hi) as (vs1 & vs2 & y & ws1 & ws2 & q & fps1 & fps2 & -> & -> & -> & L1 & L2 & (l' & at' & w & r1 & -> & Hl' & -> & Rs & ->) & F1 & F2).
      assert (HA' : assign n (VRef l') path t v s = (Ok tt, s1)) by exact HA. clear HA.
      rewrite concat_app in *. cbn [concat] in *. inversion HN as [|? ? N0 D0]; subst. change (l' :: r1 ++ concat fps2) with ((l' :: r1) ++ concat fps2) in *.
      apply NoDup_app_parts in D0 as (D1 & D2 & D3). inversion D2 as [|? ? N1 D4]; subst. apply NoDup_app_parts in D4 as (D5 & D6 & D7). apply NoDup_app_parts in D5 as (D8 & D9 & D10).
      change (NoDup ((l' :: r1) ++ concat fps2)) in D9. apply NoDup_app_parts in D9 as (D11 & D12 & D13).
      destruct (IH _ _ _ _ _ _ _ _ _ _ HT' Hl' Rs D11 HA') as (lu & ob & Hin & E1 & w' & (A & B & x0 & HC1 & HC2 & HC3) & HW).
      assert (Hc : In lu (concat fps1 ++ (l' :: r1) ++ concat fps2)) by (apply in_or_app; right; apply in_or_app; now left).
      assert (Hq1 : forall x, In x q1 -> x <> lu) by (intros x Hx ->; apply (D3 _ Hx); right; apply in_or_app; now left).
      assert (Hr2 : forall x, In x r2 -> x <> lu) by (intros x Hx ->; exact (D7 _ Hc Hx)).
      assert (Hlu : l <> lu) by (intros ->; apply N0; apply in_or_app; right; right; apply in_or_app; now left).
      assert (Hlll : ll <> lu) by (intros ->; apply N1; apply in_or_app; now left).
      assert (Hf1 : forall x, In x (concat fps1) -> x <> lu) by (intros x Hx ->; apply (D10 _ Hx); change (In lu ((l' :: r1) ++ concat fps2)); apply in_or_app; now left).
      assert (Hf2 : forall x, In x (concat fps2) -> x <> lu) by (intros x Hx ->; exact (D13 _ Hin Hx)).
      exists lu, ob. split; [right; apply in_or_app; right; right; apply in_or_app; now left|]. split; [exact E1|].
      exists (fun x => put a (WList (ws1 ++ WObj (w' x) :: ws2)) W).
      assert (C : forall x, false = false -> same_len (field a W) (field a (put a (WList (ws1 ++ WObj (w' x) :: ws2)) W))).
      { intros x _. eapply same_len_put; eauto. rewrite !app_length. reflexivity. }
      split.
      * exists (oseq (encode f1 W) (oseq (enc_list (fun x => encode sub (as_obj x)) ws1) A)), (oseq B (oseq (enc_list (fun x => encode sub (as_obj x)) ws2) (encode f2 W))), x0. split; [|split].
        -- intros x. rewrite encode_fapp. cbn [encode]. rewrite (field_put _ _ _ _ Fd), !(encode_part false) by auto. rewrite enc_list_app. cbn [enc_list as_obj]. rewrite HC1. now rewrite !oseq_assoc.
        -- rewrite encode_fapp. cbn [encode]. rewrite Fd, enc_list_app. cbn [enc_list as_obj]. rewrite HC2. now rewrite !oseq_assoc.
        -- intros k bs Hk Hb. apply oadd_inv in Hk as (y & z & E2 & E3 & ->). apply oadd_inv in E2 as (y1 & y2 & E4 & E5 & ->). destruct (fixed sub) as [m|] eqn:Hm; [|discriminate]. injection E5 as <-.
           apply oseq_ok in Hb as (b1 & b2 & E6 & E7 & ->). apply oseq_ok in E7 as (b3 & b4 & E8 & E9 & ->).
           rewrite !app_length, (fixed_out _ _ _ _ E4 E6), (HC3 _ _ E3 E9), (fixed_list_length _ _ Hm _ _ E8). lia.
      * intros x Hx. destruct (HW x Hx) as (at2 & Hl2 & Rs2). exists at_. subst s1. cbn [heap] in *. split; [rewrite set_nth_ne by congruence; exact Hl|].
        apply rep_fapp. exists q1, (ll :: (concat fps1 ++ (l' :: r1) ++ concat fps2) ++ r2). split; [|split; [|reflexivity]].
        -- eapply rep_part; eauto. intros z Hz. apply set_nth_ne. specialize (Hq1 z Hz). congruence.
        -- cbn [rep]. exists ll, (vs1 ++ VRef l' :: vs2), (ws1 ++ WObj (w' x) :: ws2), (fps1 ++ (l' :: r1) :: fps2), r2.
           split; [exact G|]. split; [rewrite set_nth_ne by congruence; exact Hll|]. split; [eapply field_put; eauto|].
           assert (KF : forall vv wws ffs, (forall z, In z (concat ffs) -> z <> lu) -> Forall3 (elem_rep the_prog (heap s) d sub) vv wws ffs -> Forall3 (elem_rep the_prog (set_nth lu ob (heap s)) d sub) vv wws ffs).
           { intros vv wws ffs Hn. apply Forall3_impl. intros a1 b1 c1 Hc1 (l1 & a2 & w1 & p1 & -> & Hl1 & -> & Re & ->).
             assert (Hn1 : forall z, In z (l1 :: p1) -> z <> lu) by (intros z Hz; apply Hn; apply in_concat; eauto).
             exists l1, a2, w1, p1. split; [reflexivity|]. split; [rewrite set_nth_ne by (specialize (Hn1 l1 (or_introl eq_refl)); congruence); exact Hl1|]. split; [reflexivity|]. split; [|reflexivity].
             eapply rep_ext; eauto. intros z Hz. apply set_nth_ne. specialize (Hn1 z (or_intror Hz)). congruence. }
           split; [|split; [|now rewrite concat_app]].
           ++ apply Forall3_app; [exact (KF _ _ _ Hf1 F1)|]. constructor; [|exact (KF _ _ _ Hf2 F2)]. exists l', at2, (w' x), r1. auto.
           ++ eapply rep_part; eauto. intros z Hz. apply set_nth_ne. specialize (Hr2 z Hz). congruence.
Qed.

(** ** New objects *)
(** the objects and lists an object is made of *)
Fixpoint locs (h : list hobj) (f : fmt) (ga : string -> option val) : option (list nat) :=
  match f with
  | Done => Some []
  | Prim _ _ k | Mask _ _ k | Cnt _ _ _ k | Zero _ k | Pad _ k | Derive _ _ _ k | Bits _ k => locs h k ga
  | Obj a _ sub k =>
      match ga a with
      | Some (VRef l) =>
          match nth_error h l with
          | Some (HInst d at_) => match locs h sub (getA the_prog d at_), locs h k ga with Some p, Some q => Some (l :: p ++ q) | _, _ => None end
          | _ => None
          end
      | _ => None
      end
  | PList a _ k | Arr a _ _ k | VList a _ _ _ k | NullL a k =>
      match ga a with Some (VRef l) => match locs h k ga with Some q => Some (l :: q) | None => None end | _ => None end
  | OList a _ sub k =>
      match ga a with
      | Some (VRef l) =>
          match nth_error h l with
          | Some (HList []) => match locs h k ga with Some q => Some (l :: q) | None => None end
          | _ => None
          end
      | _ => None
      end
  end.
Lemma rep_locs h f : forall ga W fp fp', rep the_prog h f ga W fp -> locs h f ga = Some fp' -> fp = fp'.
Proof.
  induction f as [|b p k IH|b c sub IHs k IH|b p m k IH|b p k IH|b c sub IHs k IH|b p n k IH|p k IH|b n k IH
                 |b p d dv k IH|b k IH|b d z k IH|bf k IH|b k IH]; intros ga W fp fp' R H; cbn [rep locs] in *; try (eapply IH; eauto; fail).
  - congruence.
  - eapply IH; [exact (proj2 R)|exact H].
  - destruct R as (l & at_ & w & p1 & p2 & G & Hl & _ & R1 & R2 & ->). rewrite G, Hl in H. destruct (locs h sub _) eqn:E1; [|discriminate]. destruct (locs h k ga) eqn:E2; [|discriminate]. injection H as <-.
    now rewrite (IHs _ _ _ _ R1 E1), (IH _ _ _ _ R2 E2).
  - destruct R as (l & vs & ws & p2 & G & _ & _ & _ & R2 & ->). rewrite G in H. destruct (locs h k ga) eqn:E2; [|discriminate]. injection H as <-. now rewrite (IH _ _ _ _ R2 E2).
  - destruct R as (l & vs & ws & fps & p2 & G & Hl & _ & F & R2 & ->). rewrite G, Hl in H. destruct vs; [|discriminate]. inversion F; subst. cbn [concat app].
    destruct (locs h k ga) eqn:E2; [|discriminate]. injection H as <-. now rewrite (IH _ _ _ _ R2 E2).
  - destruct R as (l & vs & ws & p2 & G & _ & _ & _ & R2 & ->). rewrite G in H. destruct (locs h k ga) eqn:E2; [|discriminate]. injection H as <-. now rewrite (IH _ _ _ _ R2 E2).
  - eapply IH; [exact (proj2 R)|exact H].
  - destruct R as (l & vs & ws & p2 & G & _ & _ & _ & R2 & ->). rewrite G in H. destruct (locs h k ga) eqn:E2; [|discriminate]. injection H as <-. now rewrite (IH _ _ _ _ R2 E2).
  - eapply IH; [exact (proj2 R)|exact H].
  - destruct R as (l & p2 & G & _ & _ & R2 & ->). rewrite G in H. destruct (locs h k ga) eqn:E2; [|discriminate]. injection H as <-. now rewrite (IH _ _ _ _ R2 E2).
Qed.

Lemma scal_shift k v : scal (shift k v) = scal v. Proof. destruct v; reflexivity. Qed.
Lemma scali_shift k v : scali (shift k v) = scali v. Proof. destruct v; reflexivity. Qed.

Lemma rep_shift h0 h f : forall ga ga' W fp, rep the_prog h f ga W fp -> (forall a, ga' a = option_map (shift (length h0)) (ga a)) ->
  rep the_prog (h0 ++ map (shift_obj (length h0)) h) f ga' W (map (fun l => length h0 + l)%nat fp).
Proof.
  assert (SL : forall vs ws, Forall2 (fun v x => scal v = Some x) vs ws -> Forall2 (fun v x => scal v = Some x) (map (shift (length h0)) vs) ws).
  { intros vs ws F. induction F; constructor; auto. now rewrite scal_shift. }
  induction f as [|b p k IH|b c sub IHs k IH|b p m k IH|b p k IH|b c sub IHs k IH|b p n k IH|p k IH|b n k IH
                 |b p d dv k IH|b k IH|b d z k IH|bf k IH|b k IH]; intros ga ga' W fp R HG; cbn [rep] in *; try (eapply IH; eauto; fail).
  - now subst.
  - destruct R as [(v & x & G & Sc & Fd) R]. split; [exists (shift (length h0) v), x; rewrite HG, G, scal_shift; auto|eauto].
  - destruct R as (l & at_ & w & p1 & p2 & G & Hl & Fd & R1 & R2 & ->).
    exists (length h0 + l)%nat, (shift_env (length h0) at_), w, (map (fun l => length h0 + l)%nat p1), (map (fun l => length h0 + l)%nat p2).
    rewrite HG, G. split; [reflexivity|]. split; [now apply nth_shift with (o := HInst c at_)|]. split; [exact Fd|]. split; [eapply IHs; eauto; intros; apply getA_shift|].
    split; [eauto|]. cbn [map]. now rewrite map_app.
  - destruct R as (l & vs & ws & p2 & G & Hl & Fd & F & R2 & ->). exists (length h0 + l)%nat, (map (shift (length h0)) vs), ws, (map (fun l => length h0 + l)%nat p2).
    rewrite HG, G. split; [reflexivity|]. split; [now apply nth_shift with (o := HList vs)|]. split; [exact Fd|]. split; [auto|]. split; [eauto|reflexivity].
  - destruct R as (l & vs & ws & fps & p2 & G & Hl & Fd & F & R2 & ->).
    exists (length h0 + l)%nat, (map (shift (length h0)) vs), ws, (map (map (fun l => length h0 + l)%nat) fps), (map (fun l => length h0 + l)%nat p2).
    rewrite HG, G. split; [reflexivity|]. split; [now apply nth_shift with (o := HList vs)|]. split; [exact Fd|]. split; [|split; [eauto|cbn [map]; now rewrite map_app, concat_map]].
    clear - F IHs. induction F as [|v x q vs ws fps (l & at_ & w & q' & -> & Hl & -> & Re & ->) F IHF]; cbn [map]; constructor; [|exact IHF].
    exists (length h0 + l)%nat, (shift_env (length h0) at_), w, (map (fun l => length h0 + l)%nat q'). split; [reflexivity|]. split; [now apply nth_shift with (o := HInst c at_)|].
    split; [reflexivity|]. split; [eapply IHs; eauto; intros; apply getA_shift|reflexivity].
  - destruct R as (l & vs & ws & p2 & G & Hl & Fd & F & R2 & ->). exists (length h0 + l)%nat, (map (shift (length h0)) vs), ws, (map (fun l => length h0 + l)%nat p2).
    rewrite HG, G. split; [reflexivity|]. split; [now apply nth_shift with (o := HList vs)|]. split; [exact Fd|]. split; [auto|]. split; [eauto|reflexivity].
  - destruct R as [(v & x & G & Sc & Fd) R]. split; [exists (shift (length h0) v), x; rewrite HG, G, scal_shift; auto|eauto].
  - destruct R as (l & vs & ws & p2 & G & Hl & Fd & F & R2 & ->). exists (length h0 + l)%nat, (map (shift (length h0)) vs), ws, (map (fun l => length h0 + l)%nat p2).
    rewrite HG, G. split; [reflexivity|]. split; [now apply nth_shift with (o := HList vs)|]. split; [exact Fd|]. split; [auto|]. split; [eauto|reflexivity].
  - destruct R as [A R]. split; [|eauto]. revert A. apply Forall_impl. intros b0 A. destruct (bf_attr b0); [|exact I]. destruct A as (v & x & G & Sc & Fd).
    exists (shift (length h0) v), x. rewrite HG, G, scali_shift. auto.
  - destruct R as (l & p2 & G & Hl & Fd & R2 & ->). exists (length h0 + l)%nat, (map (fun l => length h0 + l)%nat p2).
    rewrite HG, G. split; [reflexivity|]. split; [now apply nth_shift with (o := HList [])|]. split; [exact Fd|]. split; [eauto|reflexivity].
Qed.

(** C() on an empty heap holds a record of layout f, and no object twice *)
Definition new_holdsb (c : string) (f : fmt) : bool :=
  match new_res the_prog new_fuel_ c with
  | Some (h, l) =>
      match nth_error h l with
      | Some (HInst c' at_) => String.eqb c' c && match read the_prog h f (getA the_prog c at_), locs h f (getA the_prog c at_) with Some _, Some fp => nodupn (l :: fp) | _, _ => false end
      | _ => false
      end
  | None => false
  end.
Definition not_readable_new : list string := ["AttachedParts"; "Environment"; "EnvironmentGeneral"; "SeparationVP"].
Lemma new_holdsb_all : forallb (fun p => match layout (fst p) with Some f => mem (fst p) not_readable_new || new_holdsb (fst p) f | None => true end) TW = true.
Proof. vm_compute. reflexivity. Qed.

Lemma new_holds n c f s : (new_fuel_ <= n)%nat -> layout c = Some f -> ~ In c not_readable_new ->
  exists o s' W, new the_prog n c [] s = (Ok o, s') /\ holds the_prog (heap s') c f o W /\ irest s' = irest s /\ ifull s' = ifull s /\ out s' = out s.
Proof.
  intros Hn L Hx. destruct (layout_inv _ _ L) as (L1 & L2 & HC). destruct (new_at_NC c f L2 HC s) as (h & l & at_ & fp & E & Er & El & _ & _).
  pose proof new_holdsb_all as K. rewrite forallb_forall in K. specialize (K _ (assoc_In _ _ _ L1)). cbn [fst] in K. rewrite L in K. apply orb_prop in K as [K|K]; [apply mem_In in K; contradiction|].
  unfold new_holdsb in K. rewrite Er, El, String.eqb_refl in K. cbn [andb] in K. destruct (read the_prog h f (getA the_prog c at_)) as [W|] eqn:ER; [|discriminate].
  destruct (locs h f (getA the_prog c at_)) as [q|] eqn:EL; [|discriminate]. apply nodupn_NoDup in K.
  destruct (tidy_inv _ _ _ tidyS L1) as [S1 S2]. destruct (read_rep the_prog f S1 S2 _ _ _ ER) as (q' & HR). specialize (HR W (fun _ _ => eq_refl)).
  rewrite (rep_locs _ _ _ _ _ _ HR EL) in HR. do 2 eexists. exists W. split; [eapply (new_fuel the_prog new_fuel_ n c []); [exact Hn|exact E|discriminate]|].
  cbn [heap irest ifull out]. split; [|auto]. exists (length (heap s) + l)%nat, (map (fun l => length (heap s) + l)%nat q), (shift_env (length (heap s)) at_).
  split; [reflexivity|]. split; [now apply nth_shift with (o := HInst c at_)|]. split; [eapply rep_shift; eauto; intros; apply getA_shift|].
  change (NoDup (map (fun l => length (heap s) + l)%nat (l :: q))). apply FinFun.Injective_map_NoDup; [|exact K]. intros x y Hxy. lia.
Qed.
