(** * C93: a series of assignments

    Property: after any series of assignments of representable values to attributes (of the object, of its records and of the elements of its lists) whose place in the datagram does not depend on the values,
    serialize writes what it wrote before with the bytes of these attributes replaced, and nothing else changed.  Different attributes have different bytes: so the order of assignments to different attributes
    does not matter, and of several assignments to one attribute only the last counts. *)
From Coq Require Import ZArith String List Bool Lia Permutation.
From Coq Require Import Strings.Byte.
From Verif Require Import Lang Bytes Interp Shift Mono ProgBase ProgDis Prog Spec Codec Codec2 Rep Dec StreamLem SerSound ParSound ParStep ParClass NewSound Layouts Refine Api StreamApi Classes PropCodec CtorRun PropFactory PropOffsets Assign PropAssign.
Import ListNotations.
Open Scope string_scope. Open Scope nat_scope. Open Scope list_scope.

(** ** Specification *)
(** bytes [new] in the place of those from offset k on *)
Definition patch (k : nat) (new bs : list byte) : list byte := firstn k bs ++ new ++ skipn (k + length new) bs.
(** o.path.a = v or o.path.a[i] = v *)
Definition assignment := (list step * target * val)%type.
Definition place (a : assignment) : list step * target := fst a.
Fixpoint assigns (n : nat) (o : val) (l : list assignment) : M unit :=
  match l with
  | [] => ret tt
  | (path, t, v) :: r => bind (assign n o path t v) (fun _ => assigns n o r)
  end.
(** the offset of the attribute and the bytes of the value: None if the offset depends on the values or the value is not one of the attribute's type *)
Definition change (f : fmt) (a : assignment) : option (nat * list byte) :=
  match a with
  | (path, t, v) =>
      match type_at f path t, scal v with
      | Some (p, Some k), Some x => match enc_prim p x with inl new => Some (k, new) | inr _ => None end
      | _, _ => None
      end
  end.
Fixpoint changed (f : fmt) (l : list assignment) (bs : list byte) : option (list byte) :=
  match l with
  | [] => Some bs
  | a :: r => match change f a with Some (k, new) => changed f r (patch k new bs) | None => None end
  end.

(** ** Different attributes have different bytes *)
Lemma fixed_fapp f g : fixed (fapp f g) = oadd (fixed f) (fixed g).
Proof.
  induction f; cbn [fapp fixed]; try (rewrite IHf; destruct (fixed f), (fixed g); cbn [oadd option_map]; try reflexivity; now rewrite Nat.add_assoc); try reflexivity; try exact IHf.
  - destruct (fixed g); reflexivity.
  - rewrite IHf2. destruct (fixed f1), (fixed f2), (fixed g); cbn [oadd option_map]; try reflexivity. now rewrite Nat.add_assoc.
Qed.

(** of two spots with different names, one is before the other *)
Lemma cut_order a b f : a <> b -> forall f1 i f2 g1 j g2, cut a f = Some (f1, i, f2) -> cut b f = Some (g1, j, g2) ->
  (exists m, g1 = fapp f1 (put_spot a i m)) \/ (exists m, f1 = fapp g1 (put_spot b j m)).
Proof.
  intros N. induction f; intros h1 i h2 g1 j g2 Ha Hb; cbn [cut] in Ha, Hb; try discriminate;
    repeat match type of Ha with (if String.eqb a ?x then _ else _) = _ => destruct (String.eqb_spec a x) end;
    repeat match type of Hb with (if String.eqb b ?x then _ else _) = _ => destruct (String.eqb_spec b x) end;
    try congruence;
    try (match type of Ha with behind _ (cut a ?k) = _ => destruct (cut a k) as [[[u1 u2] u3]|] eqn:Ka; cbn [behind] in Ha; [|discriminate] end);
    try (match type of Hb with behind _ (cut b ?k) = _ => destruct (cut b k) as [[[w1 w2] w3]|] eqn:Kb; cbn [behind] in Hb; [|discriminate] end);
    injection Ha as <- <- <-; injection Hb as <- <- <-;
    try (left; subst; eexists; reflexivity); try (right; subst; eexists; reflexivity);
    match goal with
    | IH : context [put_spot] |- _ => destruct (IH u1 u2 u3 w1 w2 w3 ltac:(first [reflexivity|exact Ka]) ltac:(first [reflexivity|exact Kb])) as [[m' ->]|[m' ->]]; [left|right]; exists m'; reflexivity
    end.
Qed.
Lemma find_cut a f r : find_spot a f = Some r -> cut a f = Some r.
Proof. unfold find_spot. destruct (cut a f) as [[[f1 i] f2]|]; [|discriminate]. destruct (_ || _); [discriminate|auto]. Qed.

(** the bytes of a spot *)
Definition extent (i : spot) : option nat :=
  match i with SPrim p => Some (width p) | SObj _ sub => fixed sub | SArr p n => Some (n * width p) | SRecords _ _ | SItems _ => None end.
Lemma fixed_spot a i m : fixed (put_spot a i m) = oadd (extent i) (fixed m).
Proof. destruct i; cbn [put_spot fixed extent]; destruct (fixed m); try reflexivity; destruct (fixed sub); reflexivity. Qed.

(** the name, and the offset below it, of the spot a path starts with *)
Definition head (path : list step) (t : target) : string :=
  match path with Attr a :: _ | Elem a _ :: _ => a | [] => match t with TAttr a | TItem a _ => a end end.
Lemma inside : forall path f t p k, type_at f path t = Some (p, Some k) ->
  exists f1 i f2 b d, cut (head path t) f = Some (f1, i, f2) /\ fixed f1 = Some b /\ k = b + d /\ (forall e, extent i = Some e -> d + width p <= e).
Proof.
  assert (W : forall f a f1 i f2 b e, cut a f = Some (f1, i, f2) -> fixed f1 = Some b -> extent i = Some e -> forall m, fixed f = Some m -> b + e <= m).
  { intros f a f1 i f2 b e H B E m F. apply cut_split in H. subst f. rewrite fixed_fapp, fixed_spot, B, E in F. destruct (fixed f2); [|discriminate]. cbn [oadd] in F. injection F as <-. lia. }
  induction path as [|st path IH]; intros f t p k H; cbn [type_at head] in H |- *.
  - destruct t as [a|a i]; destruct (find_spot a f) as [[[f1 j] f2]|] eqn:F; try discriminate; pose proof (find_cut _ _ _ F) as C.
    + destruct j; try discriminate. injection H as -> E. exists f1, (SPrim p), f2, k, 0. repeat split; auto. intros e [= <-]. lia.
    + destruct j as [| | |q n|q]; try discriminate.
      * destruct (Nat.ltb_spec i n) as [L|]; [|discriminate]. injection H as <- E. apply oadd_inv in E as (b & d & E1 & [= <-] & ->). exists f1, (SArr q n), f2, b, (i * width q). repeat split; auto. intros e [= <-]. nia.
      * injection H as <- E. apply oadd_inv in E as (b & d & E1 & [= <-] & ->). exists f1, (SItems q), f2, b, (i * width q). repeat split; auto. discriminate.
  - destruct st as [a|a i]; destruct (find_spot a f) as [[[f1 j] f2]|] eqn:F; try discriminate; pose proof (find_cut _ _ _ F) as C; destruct j as [|c sub|c sub| |]; try discriminate;
      destruct (type_at sub path t) as [[q off]|] eqn:T; try discriminate; injection H as -> E.
    + apply oadd_inv in E as (b & d & E1 & -> & ->). exists f1, (SObj c sub), f2, b, d. repeat split; auto. cbn [extent]. intros e E.
      destruct (IH _ _ _ _ T) as (g1 & j & g2 & b' & d' & C' & B' & -> & X). pose proof (cut_split _ _ _ _ _ C') as Es.
      destruct (extent j) as [ej|] eqn:Ej; [|subst sub; rewrite fixed_fapp, fixed_spot, Ej in E; destruct (fixed g1); discriminate].
      pose proof (W _ _ _ _ _ _ _ C' B' Ej _ E). specialize (X _ eq_refl). lia.
    + apply oadd_inv in E as (b & d & E1 & -> & ->). apply oadd_inv in E1 as (b1 & b2 & E1 & E2 & ->). exists f1, (SRecords c sub), f2, b1, (b2 + d). repeat split; auto; [lia|discriminate].
Qed.
(** ... and all of it is inside a record of fixed size *)
Lemma inside_fixed path f t p k m : type_at f path t = Some (p, Some k) -> fixed f = Some m -> k + width p <= m.
Proof.
  intros H F. destruct (inside _ _ _ _ _ H) as (f1 & i & f2 & b & d & C & B & -> & X). apply cut_split in C. subst f. rewrite fixed_fapp, fixed_spot, B in F. destruct (extent i) as [e|]; [|discriminate].
  specialize (X _ eq_refl). destruct (fixed f2); [|discriminate]. cbn [oadd] in F. injection F as <-. lia.
Qed.

Definition apart (k1 : nat) (p1 : prim) (k2 : nat) (p2 : prim) : Prop := k1 + width p1 <= k2 \/ k2 + width p2 <= k1.
Lemma apart_names path1 t1 path2 t2 f p1 k1 p2 k2 : head path1 t1 <> head path2 t2 -> type_at f path1 t1 = Some (p1, Some k1) -> type_at f path2 t2 = Some (p2, Some k2) -> apart k1 p1 k2 p2.
Proof.
  intros N H1 H2. destruct (inside _ _ _ _ _ H1) as (f1 & i & f2 & b & d & C & B & -> & X). destruct (inside _ _ _ _ _ H2) as (g1 & j & g2 & b' & d' & C' & B' & -> & X').
  destruct (cut_order _ _ _ N _ _ _ _ _ _ C C') as [[m ->]|[m ->]].
  - rewrite fixed_fapp, fixed_spot, B in B'. destruct (extent i) as [e|]; [|discriminate]. destruct (fixed m); [|discriminate]. cbn [oadd] in B'. injection B' as <-. specialize (X _ eq_refl). left. lia.
  - rewrite fixed_fapp, fixed_spot, B' in B. destruct (extent j) as [e|]; [|discriminate]. destruct (fixed m); [|discriminate]. cbn [oadd] in B. injection B as <-. specialize (X' _ eq_refl). right. lia.
Qed.

Theorem C93_apart : forall path1 path2 f t1 t2 p1 k1 p2 k2, (path1, t1) <> (path2, t2) -> type_at f path1 t1 = Some (p1, Some k1) -> type_at f path2 t2 = Some (p2, Some k2) -> apart k1 p1 k2 p2.
Proof.
  induction path1 as [|s1 path1 IH]; intros path2 f t1 t2 p1 k1 p2 k2 N H1 H2.
  - destruct (string_dec (head [] t1) (head path2 t2)) as [E|E]; [|exact (apart_names _ _ _ _ _ _ _ _ _ E H1 H2)]. cbn [head] in E.
    destruct path2 as [|[a|a i] path2]; cbn [head] in E; cbn [type_at] in H1, H2.
    + destruct t1 as [a|a i], t2 as [b|b j]; subst b; try congruence; destruct (find_spot a f) as [[[f1 [q|c sub|c sub|q n|q]] f2]|]; try discriminate.
      * destruct (i <? n); [|discriminate]. destruct (j <? n); [|discriminate]. injection H1 as <- E1. injection H2 as <- E2. apply oadd_inv in E1 as (u & w & U & [= <-] & ->). apply oadd_inv in E2 as (u' & w' & U' & [= <-] & ->).
        rewrite U in U'. injection U' as <-. assert (i <> j) by congruence. unfold apart. destruct (Nat.lt_total i j) as [|[|]]; [left; nia|lia|right; nia].
      * injection H1 as <- E1. injection H2 as <- E2. apply oadd_inv in E1 as (u & w & U & [= <-] & ->). apply oadd_inv in E2 as (u' & w' & U' & [= <-] & ->).
        rewrite U in U'. injection U' as <-. assert (i <> j) by congruence. unfold apart. destruct (Nat.lt_total i j) as [|[|]]; [left; nia|lia|right; nia].
    + destruct t1 as [b|b j]; subst b; destruct (find_spot a f) as [[[f1 [q|c sub|c sub|q n|q]] f2]|]; discriminate.
    + destruct t1 as [b|b j]; subst b; destruct (find_spot a f) as [[[f1 [q|c sub|c sub|q n|q]] f2]|]; discriminate.
  - destruct (string_dec (head (s1 :: path1) t1) (head path2 t2)) as [E|E]; [|exact (apart_names _ _ _ _ _ _ _ _ _ E H1 H2)]. cbn [head] in E.
    destruct path2 as [|s2 path2].
    + destruct s1 as [a|a i], t2 as [b|b j]; cbn [type_at] in H1, H2; cbn [head] in E; subst b; destruct (find_spot a f) as [[[f1 [q|c sub|c sub|q n|q]] f2]|]; discriminate.
    + destruct s1 as [a|a i], s2 as [b|b j]; cbn [type_at] in H1, H2; cbn [head] in E; subst b; destruct (find_spot a f) as [[[f1 [q|c sub|c sub|q n|q]] f2]|]; try discriminate;
        destruct (type_at sub path1 t1) as [[q1 o1]|] eqn:T1; try discriminate; destruct (type_at sub path2 t2) as [[q2 o2]|] eqn:T2; try discriminate; injection H1 as -> E1; injection H2 as -> E2.
      * apply oadd_inv in E1 as (u & w & U & -> & ->). apply oadd_inv in E2 as (u' & w' & U' & -> & ->). rewrite U in U'. injection U' as <-.
        assert (N' : (path1, t1) <> (path2, t2)) by congruence. destruct (IH _ _ _ _ _ _ _ _ N' T1 T2); [left|right]; lia.
      * apply oadd_inv in E1 as (u & w & U & -> & ->). apply oadd_inv in E2 as (u' & w' & U' & -> & ->). apply oadd_inv in U as (x & y & X & Y & ->). apply oadd_inv in U' as (x' & y' & X' & Y' & ->).
        rewrite X in X'. injection X' as <-. destruct (fixed sub) as [m|] eqn:M; [|discriminate]. cbn [option_map] in Y, Y'. injection Y as <-. injection Y' as <-.
        pose proof (inside_fixed _ _ _ _ _ _ T1 M). pose proof (inside_fixed _ _ _ _ _ _ T2 M). destruct (Nat.lt_total i j) as [L|[<-|L]].
        -- left. nia.
        -- assert (N' : (path1, t1) <> (path2, t2)) by congruence. destruct (IH _ _ _ _ _ _ _ _ N' T1 T2); [left|right]; lia.
        -- right. nia.
Qed.

(** ** Bytes *)
Lemma patch_mid before old after new : length new = length old -> patch (length before) new (before ++ old ++ after) = before ++ new ++ after.
Proof.
  intros E. unfold patch. rewrite firstn_app, Nat.sub_diag, firstn_O, app_nil_r, firstn_all. f_equal. f_equal. rewrite E.
  rewrite app_assoc, skipn_app, app_length. rewrite skipn_all2 by (rewrite app_length; lia). now rewrite Nat.sub_diag, skipn_O.
Qed.
Lemma patch_length k new bs : k + length new <= length bs -> length (patch k new bs) = length bs.
Proof. intros H. unfold patch. rewrite !app_length, firstn_length, skipn_length. lia. Qed.
(** a byte of a patched string *)
Lemma patch_nth k new bs i : k + length new <= length bs -> nth_error (patch k new bs) i = if (k <=? i) && (i <? k + length new) then nth_error new (i - k) else nth_error bs i.
Proof.
  intros H. unfold patch. assert (F : length (firstn k bs) = k) by (rewrite firstn_length; lia). destruct (Nat.leb_spec k i) as [L|L]; cbn [andb].
  - rewrite nth_error_app2, F by lia. destruct (Nat.ltb_spec i (k + length new)) as [M|M].
    + apply nth_error_app1. lia.
    + rewrite nth_error_app2 by lia. rewrite <- (firstn_skipn (k + length new) bs) at 2. rewrite nth_error_app2; rewrite firstn_length, Nat.min_l by lia; [f_equal; lia|lia].
  - rewrite nth_error_app1 by lia. rewrite <- (firstn_skipn k bs) at 2. rewrite nth_error_app1 by lia. reflexivity.
Qed.
Lemma nth_ext_error (l m : list byte) : (forall i, nth_error l i = nth_error m i) -> l = m.
Proof. revert m. induction l as [|x l IH]; intros [|y m] H; [reflexivity|discriminate (H 0)|discriminate (H 0)|]. pose proof (H 0) as E. injection E as ->. f_equal. apply IH. intros i. exact (H (S i)). Qed.
Lemma patch_swap k1 n1 k2 n2 bs : k1 + length n1 <= k2 \/ k2 + length n2 <= k1 -> k1 + length n1 <= length bs -> k2 + length n2 <= length bs -> patch k1 n1 (patch k2 n2 bs) = patch k2 n2 (patch k1 n1 bs).
Proof.
  intros D H1 H2. apply nth_ext_error. intros i. rewrite !patch_nth by (rewrite ?patch_length; lia).
  destruct (Nat.leb_spec k1 i), (Nat.ltb_spec i (k1 + length n1)), (Nat.leb_spec k2 i), (Nat.ltb_spec i (k2 + length n2)); cbn [andb]; try reflexivity; lia.
Qed.
Lemma patch_twice k n1 n2 bs : length n1 = length n2 -> k + length n1 <= length bs -> patch k n2 (patch k n1 bs) = patch k n2 bs.
Proof.
  intros E H. apply nth_ext_error. intros i. rewrite !patch_nth by (rewrite ?patch_length; lia). rewrite <- E.
  destruct ((k <=? i) && (i <? k + length n1)); reflexivity.
Qed.

(** the range of an assignment *)
Definition fits (f : fmt) (len : nat) (a : assignment) : Prop := exists k new, change f a = Some (k, new) /\ k + length new <= len.

Lemma change_inv f path t v k new : change f (path, t, v) = Some (k, new) -> exists p x, type_at f path t = Some (p, Some k) /\ scal v = Some x /\ enc_prim p x = inl new /\ length new = width p.
Proof.
  cbn [change]. destruct (type_at f path t) as [[p [k'|]]|]; try discriminate. destruct (scal v) as [x|]; [|discriminate]. destruct (enc_prim p x) as [b|] eqn:E; [|discriminate]. intros [= <- <-].
  exists p, x. repeat split; auto. eapply enc_prim_length; eauto.
Qed.

Lemma series n c f o : (fuel_ok <= n)%nat -> layout c = Some f -> forall l s bs s1 bs', unshared (heap s) c f o -> serialize n o s = (Ok VNone, appended s bs) ->
  assigns n o l s = (Ok tt, s1) -> changed f l bs = Some bs' ->
  Forall (fits f (length bs)) l /\ length bs' = length bs /\ out s1 = out s /\ irest s1 = irest s /\ unshared (heap s1) c f o /\ serialize n o s1 = (Ok VNone, appended s1 bs').
Proof.
  intros Hn L. induction l as [|[[path t] v] l IH]; intros s bs s1 bs' HU HS HA HC; cbn [assigns changed] in HA, HC.
  - unfold ret in HA. injection HA as <-. injection HC as <-. repeat split; auto.
  - destruct (change f (path, t, v)) as [[k new]|] eqn:Hc; [|discriminate]. unfold bind in HA. destruct (assign n o path t v s) as [[[]|e] s0] eqn:HA0; [|discriminate].
    destruct (change_inv _ _ _ _ _ _ Hc) as (p & x & HT & Hx & HE & HL).
    destruct (C63_assign n c f s o path t p (Some k) v x bs s0 Hn L HU HT Hx HS HA0) as (O1 & I1 & U1 & before & old & after & EB & EL & EK & RW).
    unfold rewritten in RW. rewrite HE in RW. destruct RW as [_ RW]. pose proof (EK _ eq_refl) as LB.
    assert (EP : patch k new bs = before ++ new ++ after) by (subst bs k; apply patch_mid; congruence).
    assert (FK : k + length new <= length bs) by (subst bs k; rewrite !app_length; lia).
    rewrite <- EP in RW. destruct (IH s0 _ s1 bs' U1 RW HA HC) as (F & LL & O2 & I2 & U2 & S2). rewrite (patch_length _ _ _ FK) in F, LL.
    repeat split; auto; [constructor; [now exists k, new|exact F]|congruence|congruence].
Qed.

(** ** C93 *)
(** after a series of assignments serialize appends the bytes it appended before with those of the attributes replaced *)
Theorem C93_series n c f o l s bs s1 bs' : (fuel_ok <= n)%nat -> layout c = Some f -> unshared (heap s) c f o -> serialize n o s = (Ok VNone, appended s bs) ->
  assigns n o l s = (Ok tt, s1) -> changed f l bs = Some bs' ->
  length bs' = length bs /\ out s1 = out s /\ irest s1 = irest s /\ unshared (heap s1) c f o /\ serialize n o s1 = (Ok VNone, appended s1 bs').
Proof. intros Hn L HU HS HA HC. apply (series n c f o Hn L l s bs s1 bs' HU HS HA HC). Qed.

Lemma changed_some f : forall l bs, Forall (fun a => change f a <> None) l -> exists bs', changed f l bs = Some bs'.
Proof.
  induction l as [|a l IH]; intros bs H; cbn [changed]; [eauto|]. inversion H as [|? ? H1 H2]; subst. destruct (change f a) as [[k new]|]; [apply IH; exact H2|contradiction].
Qed.
(** ** Assignments do not stand in each other's way *)
(** same classes, same lists, same references: the heaps differ in scalars only *)
Definition same_ob (a b : option hobj) : Prop :=
  match a, b with
  | Some (HInst c u), Some (HInst d w) => c = d /\ forall x r, getA the_prog c u x = Some (VRef r) <-> getA the_prog c w x = Some (VRef r)
  | Some (HList u), Some (HList w) => length u = length w /\ forall i r, nth_error u i = Some (VRef r) <-> nth_error w i = Some (VRef r)
  | _, _ => a = b
  end.
Definition same (h h1 : list hobj) : Prop := forall l, same_ob (nth_error h l) (nth_error h1 l).
Lemma same_ob_refl a : same_ob a a.
Proof. destruct a as [[c u|u]|]; cbn; try reflexivity; split; reflexivity. Qed.
Lemma same_ob_sym a b : same_ob a b -> same_ob b a.
Proof.
  destruct a as [[c u|u]|], b as [[d w|w]|]; cbn; try congruence; intros [E H]; (split; [congruence|]); subst; intros i r; symmetry; apply H.
Qed.
Lemma same_set h l ob ob1 : nth_error h l = Some ob -> same_ob (Some ob) (Some ob1) -> same h (set_nth l ob1 h).
Proof.
  intros H S k. destruct (Nat.eq_dec l k) as [<-|N]; [rewrite set_nth_eq by (eapply lt_of; eauto); now rewrite H|]. rewrite set_nth_ne by exact N. apply same_ob_refl.
Qed.
Lemma scal_ref v x r : scal v = Some x -> v <> VRef r.
Proof. intros H ->. discriminate. Qed.

Lemma step_same n t v x : scal v = Some x -> forall path f p off s l c at_ W fp s1, type_at f path t = Some (p, off) -> nth_error (heap s) l = Some (HInst c at_) ->
  rep the_prog (heap s) f (getA the_prog c at_) W fp -> assign n (VRef l) path t v s = (Ok tt, s1) -> same (heap s) (heap s1).
Proof.
  intros Hx. induction path as [|st path IH]; intros f p off s l c at_ W fp s1 HT Hl HR HA.
  - unfold assign in HA. cbn [reach] in HA. change (bind (ret (VRef l)) ?k s) with (k (VRef l) s) in HA. cbn beta in HA.
    destruct t as [a|a i]; cbn [type_at] in HT; destruct (find_spot a f) as [[[f1 j] f2]|] eqn:HF; try discriminate; apply find_spot_inv in HF as (-> & _ & _); apply rep_fapp in HR as (q1 & q2 & _ & R2 & _).
    + destruct j; try discriminate. cbn [put_spot rep] in R2. destruct R2 as [(v0 & x0 & G & Sc & _) _].
      assert (E1 : s1 = mkst (set_nth l (HInst c (upd a v at_)) (heap s)) (irest s) (ifull s) (out s)).
      { unfold set_attr, bind, hget, hset in HA. rewrite Hl in HA. unfold getA in G. destruct (lookup the_prog c a) as [[m|]|]; [discriminate| |]; now injection HA as <-. }
      subst s1. cbn [heap]. eapply same_set; [exact Hl|]. cbn. split; [reflexivity|]. intros b r. destruct (string_dec b a) as [->|N].
      * rewrite (getA_upd_eq _ _ _ _ _ G), G. split; intros [= E]; exfalso; [apply (scal_ref _ _ r Sc)|apply (scal_ref _ _ r Hx)]; exact E.
      * now rewrite getA_upd.
    + assert (exists l' vs ws, getA the_prog c at_ a = Some (VRef l') /\ nth_error (heap s) l' = Some (HList vs) /\ Forall2 (fun v x => scal v = Some x) vs ws) as (l' & vs & ws & G & H1 & H3).
      { destruct j; try discriminate; cbn [put_spot rep] in R2; destruct R2 as (l' & vs & ws & q & A1 & A2 & A3 & A4 & _); exists l', vs, ws; auto. }
      unfold bind in HA. rewrite (getattr_ok n _ _ _ _ _ _ Hl G) in HA. destruct (set_list _ _ _ _ _ _ H1 HA) as [-> Hk]. cbn [heap]. eapply same_set; [exact H1|]. cbn. rewrite set_nth_length. split; [reflexivity|].
      intros k r. destruct (Nat.eq_dec i k) as [<-|N]; [|now rewrite set_nth_ne]. rewrite set_nth_eq by exact Hk. split; intros [= E]; [|exfalso; exact (scal_ref _ _ r Hx E)].
      exfalso. destruct (Forall2_split _ _ _ _ _ H3 E) as (? & ? & x0 & ? & ? & _ & _ & _ & _ & K & _). discriminate.
  - destruct st as [a|a i]; cbn [type_at] in HT; destruct (find_spot a f) as [[[f1 j] f2]|] eqn:HF; try discriminate; destruct j as [|d sub|d sub| |]; try discriminate;
      destruct (type_at sub path t) as [[p' off']|] eqn:HT'; try discriminate; apply find_spot_inv in HF as (-> & _ & _); cbn [put_spot] in *; apply rep_fapp in HR as (q1 & q2 & _ & R2 & _); cbn [rep] in R2.
    + destruct R2 as (l' & at' & w & r1 & r2 & G & Hl' & _ & Rs & _). unfold assign in HA. cbn [reach] in HA. unfold bind in HA. rewrite (getattr_ok n _ _ _ _ _ _ Hl G) in HA. exact (IH _ _ _ _ _ _ _ _ _ _ HT' Hl' Rs HA).
    + destruct R2 as (ll & vs & ws & fps & r2 & G & Hll & _ & F3 & _). unfold assign in HA. cbn [reach] in HA. unfold bind in HA. rewrite (getattr_ok n _ _ _ _ _ _ Hl G) in HA.
      destruct (sub_val (VRef ll) (VInt (Z.of_nat i)) s) as [[u|] s0] eqn:HS; [|discriminate]. destruct (sub_list _ _ _ _ _ _ Hll HS) as [-> Hi].
      destruct (Forall3_split _ _ _ _ _ _ F3 Hi) as (vs1 & vs2 & y & ws1 & ws2 & q & fps1 & fps2 & _ & _ & _ & _ & _ & (l' & at' & w & r1 & -> & Hl' & _ & Rs & _) & _). exact (IH _ _ _ _ _ _ _ _ _ _ HT' Hl' Rs HA).
Qed.

Lemma same_ok n t v : forall path f p off s s1 l c at_ at1 W W1 fp fp1 s2, type_at f path t = Some (p, off) -> nth_error (heap s) l = Some (HInst c at_) -> nth_error (heap s1) l = Some (HInst c at1) ->
  rep the_prog (heap s) f (getA the_prog c at_) W fp -> rep the_prog (heap s1) f (getA the_prog c at1) W1 fp1 -> same (heap s) (heap s1) ->
  assign n (VRef l) path t v s = (Ok tt, s2) -> exists s3, assign n (VRef l) path t v s1 = (Ok tt, s3).
Proof.
  induction path as [|st path IH]; intros f p off s s1 l c at_ at1 W W1 fp fp1 s2 HT Hl Hl1 HR HR1 HS HA; pose proof (HS l) as Sl; rewrite Hl, Hl1 in Sl; cbn [same_ob] in Sl; destruct Sl as [_ Sl].
  - unfold assign in *. cbn [reach] in *. change (bind (ret (VRef l)) ?k s) with (k (VRef l) s) in HA. change (bind (ret (VRef l)) ?k s1) with (k (VRef l) s1). cbn beta in *.
    destruct t as [a|a i]; cbn [type_at] in HT; destruct (find_spot a f) as [[[f1 j] f2]|] eqn:HF; try discriminate; apply find_spot_inv in HF as (-> & _ & _);
      apply rep_fapp in HR as (q1 & q2 & _ & R2 & _); apply rep_fapp in HR1 as (u1 & u2 & _ & Q2 & _).
    + destruct j; try discriminate. cbn [put_spot rep] in Q2. destruct Q2 as [(v0 & x0 & G & _) _]. unfold set_attr, bind, hget, hset. rewrite Hl1. unfold getA in G. destruct (lookup the_prog c a) as [[m|]|]; [discriminate| |]; eauto.
    + assert (exists l' vs, getA the_prog c at_ a = Some (VRef l') /\ nth_error (heap s) l' = Some (HList vs)) as (l' & vs & G & H1).
      { destruct j; try discriminate; cbn [put_spot rep] in R2; destruct R2 as (l' & vs & ws & q & A1 & A2 & _); exists l', vs; auto. }
      unfold bind in *. rewrite (getattr_ok n _ _ _ _ _ _ Hl G) in HA. destruct (set_list _ _ _ _ _ _ H1 HA) as [_ Hk]. apply Sl in G. rewrite (getattr_ok n _ _ _ _ _ _ Hl1 G).
      pose proof (HS l') as S2. rewrite H1 in S2. destruct (nth_error (heap s1) l') as [[|vs1]|] eqn:H2; cbn in S2; try discriminate; try contradiction. destruct S2 as [S2 _].
      unfold set_sub, bind, hget. rewrite H2. cbn [as_int]. rewrite py_index_nat. destruct (Nat.ltb_spec i (length vs1)); [|lia]. unfold hset. eauto.
  - destruct st as [a|a i]; cbn [type_at] in HT; destruct (find_spot a f) as [[[f1 j] f2]|] eqn:HF; try discriminate; destruct j as [|d sub|d sub| |]; try discriminate;
      destruct (type_at sub path t) as [[p' off']|] eqn:HT'; try discriminate; apply find_spot_inv in HF as (-> & _ & _); cbn [put_spot] in *; apply rep_fapp in HR as (q1 & q2 & _ & R2 & _); apply rep_fapp in HR1 as (u1 & u2 & _ & Q2 & _); cbn [rep] in R2, Q2.
    + destruct R2 as (l' & at' & w & r1 & r2 & G & Hl' & _ & Rs & _). destruct Q2 as (l2 & at2 & w2 & r3 & r4 & G2 & Hl2 & _ & Rs2 & _).
      pose proof (proj1 (Sl _ _) G) as G'. rewrite G2 in G'. injection G' as ->. unfold assign in *. cbn [reach] in *. unfold bind in *. rewrite (getattr_ok n _ _ _ _ _ _ Hl G) in HA. rewrite (getattr_ok n _ _ _ _ _ _ Hl1 G2).
      exact (IH _ _ _ _ _ _ _ _ _ _ _ _ _ _ HT' Hl' Hl2 Rs Rs2 HS HA).
    + destruct R2 as (ll & vs & ws & fps & r2 & G & Hll & _ & F3 & _). destruct Q2 as (l2 & vs2 & ws2 & fps2 & r4 & G2 & Hll2 & _ & F4 & _).
      pose proof (proj1 (Sl _ _) G) as G'. rewrite G2 in G'. injection G' as ->. unfold assign in *. cbn [reach] in *. unfold bind in *. rewrite (getattr_ok n _ _ _ _ _ _ Hl G) in HA. rewrite (getattr_ok n _ _ _ _ _ _ Hl1 G2).
      destruct (sub_val (VRef ll) (VInt (Z.of_nat i)) s) as [[u|] s0] eqn:HV; [|discriminate]. destruct (sub_list _ _ _ _ _ _ Hll HV) as [-> Hi].
      destruct (Forall3_split _ _ _ _ _ _ F3 Hi) as (? & ? & ? & ? & ? & ? & ? & ? & _ & _ & _ & _ & _ & (l' & at' & w & r1 & -> & Hl' & _ & Rs & _) & _).
      pose proof (HS ll) as S2. rewrite Hll, Hll2 in S2. cbn in S2. destruct S2 as [S2 S3]. pose proof (proj1 (S3 _ _) Hi) as Hi2.
      destruct (Forall3_split _ _ _ _ _ _ F4 Hi2) as (? & ? & ? & ? & ? & ? & ? & ? & _ & _ & _ & _ & _ & (l3 & at3 & w3 & r3 & E3 & Hl3 & _ & Rs3 & _) & _). injection E3 as <-.
      assert (HV2 : sub_val (VRef ll) (VInt (Z.of_nat i)) s1 = (Ok (VRef l'), s1)).
      { unfold sub_val, bind, hget. rewrite Hll2. cbn [as_int]. unfold nth_val. rewrite py_index_nat. destruct (Nat.ltb_spec i (length vs2)) as [|K]; [|apply nth_error_None in K; congruence]. now rewrite Hi2. }
      rewrite HV2. exact (IH _ _ _ _ _ _ _ _ _ _ _ _ _ _ HT' Hl' Hl3 Rs Rs3 HS HA).
Qed.

(** an assignment on its own *)
Definition works (n : nat) (o : val) (s : st) (a : assignment) : Prop := exists s1, assigns n o [a] s = (Ok tt, s1).
Lemma works_assign n o s path t v : works n o s (path, t, v) <-> exists s1, assign n o path t v s = (Ok tt, s1).
Proof.
  unfold works. cbn [assigns]. unfold bind, ret. split; intros [s1 H].
  - destruct (assign n o path t v s) as [[[]|] s0]; [now exists s0|discriminate].
  - exists s1. now rewrite H.
Qed.
Lemma works_same n c f o s s1 a : unshared (heap s) c f o -> unshared (heap s1) c f o -> same (heap s) (heap s1) -> change f a <> None -> works n o s a -> works n o s1 a.
Proof.
  intros (W & l & fp & at_ & -> & Hl & HR & _) (W1 & l1 & fp1 & at1 & E1 & Hl1 & HR1 & _) HS HC. injection E1 as <-. destruct a as [[path t] v]. rewrite !works_assign. intros [s2 HA].
  destruct (change f (path, t, v)) as [[k new]|] eqn:Hc; [|contradiction]. destruct (change_inv _ _ _ _ _ _ Hc) as (p & x & HT & _).
  exact (same_ok n t v path f p (Some k) s s1 l c at_ at1 W W1 fp fp1 s2 HT Hl Hl1 HR HR1 HS HA).
Qed.
(** a series of assignments goes through exactly when each of them does on its own *)
Theorem C93_goes_through n c f o : (fuel_ok <= n)%nat -> layout c = Some f -> forall l s bs, unshared (heap s) c f o -> serialize n o s = (Ok VNone, appended s bs) -> Forall (fun a => change f a <> None) l ->
  ((exists s1, assigns n o l s = (Ok tt, s1)) <-> Forall (works n o s) l).
Proof.
  intros Hn L. induction l as [|a l IH]; intros s bs HU HS HF.
  - split; [constructor|]. intros _. now exists s.
  - inversion HF as [|? ? Ha Hl]; subst. destruct a as [[path t] v].
    assert (K : forall s1, assign n o path t v s = (Ok tt, s1) -> exists bs', unshared (heap s1) c f o /\ serialize n o s1 = (Ok VNone, appended s1 bs') /\ same (heap s) (heap s1)).
    { intros s1 HA. destruct (changed_some f [(path, t, v)] bs ltac:(now constructor)) as [bs' HC].
      assert (HA' : assigns n o [(path, t, v)] s = (Ok tt, s1)) by (cbn [assigns]; unfold bind; now rewrite HA).
      destruct (series n c f o Hn L _ s bs s1 bs' HU HS HA' HC) as (_ & _ & _ & _ & U & S1). exists bs'. split; [exact U|]. split; [exact S1|].
      destruct (change f (path, t, v)) as [[k new]|] eqn:Hc; [|contradiction]. destruct (change_inv _ _ _ _ _ _ Hc) as (p & x & HT & Hx & _).
      destruct HU as (W & lo & fp & at_ & -> & Hlo & HR & _). exact (step_same n t v x Hx path f p (Some k) s lo c at_ W fp s1 HT Hlo HR HA). }
    cbn [assigns]. unfold bind. split.
    + intros [s1 H]. destruct (assign n o path t v s) as [[[]|] s0] eqn:HA; [|discriminate]. destruct (K s0 eq_refl) as (bs' & U & S1 & SM). constructor; [apply works_assign; eauto|].
      assert (F : Forall (works n o s0) l) by (apply (IH s0 bs' U S1 Hl); eauto). rewrite Forall_forall in *. intros b Hb. apply (works_same n c f o s0 s b U HU); auto. intros k. apply same_ob_sym, SM.
    + intros F. inversion F as [|? ? F1 F2]; subst. apply works_assign in F1 as [s0 HA]. rewrite HA. destruct (K s0 HA) as (bs' & U & S1 & SM). apply (IH s0 bs' U S1 Hl).
      rewrite Forall_forall in *. intros b Hb. apply (works_same n c f o s s0 b HU U SM); auto.
Qed.

Lemma changed_perm f l l' : Permutation l l' -> NoDup (map place l) -> forall bs, Forall (fits f (length bs)) l -> changed f l bs = changed f l' bs.
Proof.
  intros HP. induction HP as [|a l l' HP IH|a b l|l l' l'' P1 IH1 P2 IH2]; intros ND bs F.
  - reflexivity.
  - cbn [changed]. inversion F as [|? ? (k & new & E & Hk) F']; subst. rewrite E. cbn [map] in ND. apply NoDup_cons_iff in ND as [_ ND]. apply IH; [exact ND|]. now rewrite patch_length.
  - cbn [changed]. inversion F as [|? ? (k & new & E & Hk) F']; subst. inversion F' as [|? ? (k' & new' & E' & Hk') F'']; subst. rewrite E, E'. f_equal.
    apply patch_swap; [|exact Hk'|exact Hk]. destruct a as [[pa ta] va], b as [[pb tb] vb]. destruct (change_inv _ _ _ _ _ _ E) as (p & x & HT & _ & _ & HL). destruct (change_inv _ _ _ _ _ _ E') as (p' & x' & HT' & _ & _ & HL').
    rewrite HL, HL'. assert (N : (pa, ta) <> (pb, tb)). { cbn [map place fst] in ND. apply NoDup_cons_iff in ND as [ND _]. intros [= -> ->]. apply ND. now left. }
    exact (C93_apart _ _ _ _ _ _ _ _ _ N HT' HT).
  - rewrite IH1 by auto. apply IH2.
    + eapply Permutation_NoDup; [apply Permutation_map; exact P1|exact ND].
    + eapply Permutation_Forall; [exact P1|exact F].
Qed.
(** the order of assignments to different attributes does not matter *)
Theorem C93_order n c f o l l' s bs s1 : (fuel_ok <= n)%nat -> layout c = Some f -> unshared (heap s) c f o -> serialize n o s = (Ok VNone, appended s bs) ->
  Forall (fun a => change f a <> None) l -> Permutation l l' -> NoDup (map place l) -> assigns n o l s = (Ok tt, s1) ->
  exists s2 bs', assigns n o l' s = (Ok tt, s2) /\ serialize n o s1 = (Ok VNone, appended s1 bs') /\ serialize n o s2 = (Ok VNone, appended s2 bs').
Proof.
  intros Hn L HU HS HF HP ND A1. assert (A2 : exists s2, assigns n o l' s = (Ok tt, s2)).
  { apply (C93_goes_through n c f o Hn L l' s bs HU HS (Permutation_Forall HP HF)). apply (Permutation_Forall HP). apply (C93_goes_through n c f o Hn L l s bs HU HS HF). eauto. }
  destruct A2 as [s2 A2]. destruct (changed_some f l bs HF) as [bs' HC]. exists s2, bs'. split; [exact A2|]. destruct (series n c f o Hn L l s bs s1 bs' HU HS A1 HC) as (F & _ & _ & _ & _ & S1).
  split; [exact S1|]. rewrite (changed_perm _ _ _ HP ND _ F) in HC. apply (series n c f o Hn L l' s bs s2 bs' HU HS A2 HC).
Qed.

Lemma changed_agree f k w : forall l b1 b2, length b1 = length b2 -> Forall (fits f (length b1)) l -> (forall i, i < k \/ k + w <= i -> nth_error b1 i = nth_error b2 i) ->
  (exists a new, In a l /\ change f a = Some (k, new) /\ length new = w) -> changed f l b1 = changed f l b2.
Proof.
  induction l as [|a l IH]; intros b1 b2 EL F H (a0 & new0 & HI & HC & HW); [contradiction|]. cbn [changed]. inversion F as [|? ? (k' & new' & E & Hk) F']; subst. rewrite E.
  assert (D : patch k' new' b1 = patch k' new' b2 \/ exists a new, In a l /\ change f a = Some (k, new) /\ length new = length new0).
  { destruct HI as [->|HI]; [left|right; eauto]. rewrite HC in E. injection E as <- <-. apply nth_ext_error. intros i. rewrite !patch_nth by lia.
    destruct (Nat.leb_spec k i), (Nat.ltb_spec i (k + length new0)); cbn [andb]; auto; apply H; lia. }
  destruct D as [->|D]; [reflexivity|]. apply IH; [rewrite !patch_length; lia|now rewrite patch_length| |exact D].
  intros i Hi. rewrite !patch_nth by lia. destruct (_ && _); auto.
Qed.
(** of several assignments to one attribute only the last counts *)
Theorem C93_last n c f o l1 path t v l2 s bs s1 : (fuel_ok <= n)%nat -> layout c = Some f -> unshared (heap s) c f o -> serialize n o s = (Ok VNone, appended s bs) ->
  Forall (fun a => change f a <> None) (l1 ++ (path, t, v) :: l2) -> In (path, t) (map place l2) ->
  assigns n o (l1 ++ (path, t, v) :: l2) s = (Ok tt, s1) ->
  exists s2 bs', assigns n o (l1 ++ l2) s = (Ok tt, s2) /\ serialize n o s1 = (Ok VNone, appended s1 bs') /\ serialize n o s2 = (Ok VNone, appended s2 bs').
Proof.
  intros Hn L HU HS HF HI A1. assert (A2 : exists s2, assigns n o (l1 ++ l2) s = (Ok tt, s2)).
  { assert (D : forall P : assignment -> Prop, Forall P (l1 ++ (path, t, v) :: l2) -> Forall P (l1 ++ l2)) by (intros P H; apply Forall_app in H as [X Y]; apply Forall_app; split; [exact X|now inversion Y]).
    apply (C93_goes_through n c f o Hn L _ s bs HU HS (D _ HF)). apply D. apply (C93_goes_through n c f o Hn L _ s bs HU HS HF). eauto. }
  destruct A2 as [s2 A2]. destruct (changed_some f _ bs HF) as [bs' HC]. exists s2, bs'. split; [exact A2|]. destruct (series n c f o Hn L _ s bs s1 bs' HU HS A1 HC) as (F & _ & _ & _ & _ & S1).
  split; [exact S1|]. assert (E : changed f (l1 ++ l2) bs = changed f (l1 ++ (path, t, v) :: l2) bs).
  { clear HC A1 A2 HS HU S1. revert bs F. induction l1 as [|a l1 IH]; intros bs F; cbn [app] in *.
    - cbn [changed]. inversion F as [|? ? (k & new & E & Hk) F']; subst. rewrite E. destruct (change_inv _ _ _ _ _ _ E) as (p & x & HT & _ & _ & HL).
      apply (changed_agree f k (length new)); [now rewrite patch_length|exact F'| |].
      + intros i Hi. rewrite patch_nth by lia. destruct (Nat.leb_spec k i), (Nat.ltb_spec i (k + length new)); cbn [andb]; auto; lia.
      + apply in_map_iff in HI as ([[pa ta] va] & EP & HI). cbn [place fst] in EP. injection EP as -> ->. rewrite Forall_forall in F'. destruct (F' _ HI) as (k' & new' & E' & _).
        destruct (change_inv _ _ _ _ _ _ E') as (p' & x' & HT' & _ & _ & HL'). rewrite HT in HT'. injection HT' as <- <-. exists (path, t, va), new'. repeat split; auto. congruence.
    - cbn [changed]. inversion F as [|? ? (k & new & E & Hk) F']; subst. rewrite E. apply IH; [now inversion HF|now rewrite patch_length]. }
  rewrite <- E in HC. apply (series n c f o Hn L _ s bs s2 bs' HU HS A2 HC).
Qed.

(** the Entity State PDU of [es_data]: variableParameters[1].variableParameterFields2, marking.characters[3] (twice) and capabilities *)
Definition es_o : val := Eval vm_compute in match fst (load the_prog 50 "EntityStatePdu" (mkst [] es_data es_data [])) with Ok o => o | _ => VNone end.
Definition es_st : st := Eval vm_compute in snd (load the_prog 50 "EntityStatePdu" (mkst [] es_data es_data [])).
Definition es_list : list assignment :=
  [([Attr "marking"], TItem "characters" 3, VInt 65); ([Elem "variableParameters" 1], TAttr "variableParameterFields2", VInt 7); ([Attr "marking"], TItem "characters" 3, VInt 66); ([], TAttr "capabilities", VInt 8)].
Definition es_list' : list assignment :=
  [([], TAttr "capabilities", VInt 8); ([Attr "marking"], TItem "characters" 3, VInt 66); ([Elem "variableParameters" 1], TAttr "variableParameterFields2", VInt 7)].
Example C93_case : exists bs bs' s1 s2, layout "EntityStatePdu" = Some w_EntityStatePdu /\ unshared (heap es_st) "EntityStatePdu" w_EntityStatePdu es_o /\
  serialize 50 es_o es_st = (Ok VNone, appended es_st bs) /\ bs = es_data /\ assigns 50 es_o es_list es_st = (Ok tt, s1) /\ assigns 50 es_o es_list' es_st = (Ok tt, s2) /\ changed w_EntityStatePdu es_list bs = Some bs' /\
  changed w_EntityStatePdu es_list' bs = Some bs' /\ bs' <> bs /\ serialize 50 es_o s1 = (Ok VNone, appended s1 bs') /\ serialize 50 es_o s2 = (Ok VNone, appended s2 bs') /\
  Permutation es_list' (tl es_list) /\ NoDup (map place es_list') /\ In ([Attr "marking"], TItem "characters" 3) (map place (tl es_list)).
Proof.
  exists es_data. do 3 eexists. split; [vm_compute; reflexivity|]. split.
  { apply (load_unshared 50 "EntityStatePdu" w_EntityStatePdu (mkst [] es_data es_data []) es_o es_st); [apply Nat.leb_le; vm_compute; reflexivity|vm_compute; reflexivity|vm_compute; reflexivity]. }
  split; [vm_compute; reflexivity|]. split; [reflexivity|]. split; [vm_compute; reflexivity|]. split; [vm_compute; reflexivity|]. split; [vm_compute; reflexivity|]. split; [vm_compute; reflexivity|].
  split; [vm_compute; discriminate|]. split; [vm_compute; reflexivity|]. split; [vm_compute; reflexivity|]. split; [|split; [repeat constructor; cbn; intuition discriminate|cbn; auto]].
  unfold es_list', es_list. cbn [tl]. eapply perm_trans; [apply perm_swap|]. eapply perm_trans; [apply perm_skip, perm_swap|]. apply perm_swap.
Qed.

Definition all_PropSeries := (C93_series, C93_apart, C93_goes_through, C93_order, C93_last).
Print Assumptions all_PropSeries.
