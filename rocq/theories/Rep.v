(** * Objects in the heap and the record values they hold *)
From Coq Require Import ZArith String List Bool Lia.
From Coq Require Import Strings.Byte.
From Verif Require Import Lang Bytes Interp Spec Codec Codec2.
Import ListNotations.
Open Scope string_scope. Open Scope Z_scope. Open Scope list_scope.

(** a Python scalar as a field value *)
Definition scal (v : val) : option wv :=
  match v with
  | VNone => Some WNone
  | VBool b => Some (WBool b)
  | VInt z => Some (WInt z)
  | VFloat x => Some (WFloat x)
  | VStr s => Some (WStr s)
  | VBytes b => Some (WBytes b)
  | _ => None
  end.

(** the same, for ints only (bool is an int) *)
Definition scali (v : val) : option wv :=
  match v with VBool b => Some (WBool b) | VInt z => Some (WInt z) | _ => None end.

Section Rep.
Variable P : prog.

(** o.a for an instance of class D with attributes [at]: its own, or the class's default *)
Definition getA (D : string) (at_ : env) (a : string) : option val :=
  match lookup P D a with
  | Some (MMeth _) => None
  | Some (MAttr l) => match assoc a at_ with Some x => Some x | None => Some (lit_val l) end
  | None => assoc a at_
  end.

(** ** Reading an object's contents, following a layout *)
Fixpoint scals (vs : list val) : option (list wv) :=
  match vs with
  | [] => Some []
  | v :: r => match scal v, scals r with Some x, Some l => Some (x :: l) | _, _ => None end
  end.

Fixpoint objs (rd : string -> env -> option flds) (c : string) (h : list hobj) (vs : list val) : option (list wv) :=
  match vs with
  | [] => Some []
  | VRef l :: r =>
      match nth_error h l with
      | Some (HInst d at_) =>
          if String.eqb c d then
            match rd d at_, objs rd c h r with Some w, Some ws => Some (WObj w :: ws) | _, _ => None end
          else None
      | _ => None
      end
  | _ :: _ => None
  end.

Definition get_list (h : list hobj) (v : option val) : option (list val) :=
  match v with
  | Some (VRef l) => match nth_error h l with Some (HList vs) => Some vs | _ => None end
  | _ => None
  end.

Definition cons_opt (a : string) (x : option wv) (r : option flds) : option flds :=
  match x, r with Some x, Some r => Some ((a, x) :: r) | _, _ => None end.

(** the fields [f] of an object whose attributes are given by [ga]; None if some attribute is
    missing or not of the kind the layout says (scalar, list, instance of the class) *)
Fixpoint read (h : list hobj) (f : fmt) (ga : string -> option val) : option flds :=
  match f with
  | Done => Some []
  | Prim a _ k | Mask a _ k =>
      cons_opt a (match ga a with Some v => scal v | None => None end) (read h k ga)
  | Obj a c sub k =>
      cons_opt a
        (match ga a with
         | Some (VRef l) =>
             match nth_error h l with
             | Some (HInst d at_) =>
                 if String.eqb c d then option_map WObj (read h sub (getA d at_)) else None
             | _ => None
             end
         | _ => None
         end) (read h k ga)
  | Cnt _ _ _ k | Zero _ k | Pad _ k | Derive _ _ _ k => read h k ga
  | PList a _ k | Arr a _ _ k | VList a _ _ _ k =>
      cons_opt a (match get_list h (ga a) with Some vs => option_map WList (scals vs) | None => None end) (read h k ga)
  | OList a c sub k =>
      cons_opt a (match get_list h (ga a) with
                  | Some vs => option_map WList (objs (fun d at_ => read h sub (getA d at_)) c h vs)
                  | None => None
                  end) (read h k ga)
  | Bits bf k =>
      (fix go bf :=
         match bf with
         | [] => read h k ga
         | b :: r =>
             match bf_attr b with
             | None => go r
             | Some a => cons_opt a (match ga a with Some v => scali v | None => None end) (go r)
             end
         end) bf
  | NullL a k =>
      cons_opt a (match get_list h (ga a) with Some [] => Some (WList []) | _ => None end) (read h k ga)
  end.

(** what the object [o] holds, as a record of layout f and class D *)
Definition contents (h : list hobj) (D : string) (f : fmt) (o : val) : option flds :=
  match o with
  | VRef l => match nth_error h l with
              | Some (HInst d at_) => if String.eqb D d then read h f (getA d at_) else None
              | _ => None
              end
  | _ => None
  end.

(** ** The same as a relation, with the heap locations involved *)
Inductive Forall3 {A B C} (R : A -> B -> C -> Prop) : list A -> list B -> list C -> Prop :=
| F3nil : Forall3 R [] [] []
| F3cons a b c l m n : R a b c -> Forall3 R l m n -> Forall3 R (a :: l) (b :: m) (c :: n).

Notation sc := (fun v x => scal v = Some x).

Fixpoint rep (h : list hobj) (f : fmt) (ga : string -> option val) (W : flds) (fp : list nat) : Prop :=
  match f with
  | Done => fp = []
  | Prim a _ k | Mask a _ k =>
      (exists v x, ga a = Some v /\ scal v = Some x /\ field a W = Some x) /\ rep h k ga W fp
  | Obj a c sub k =>
      exists l at_ w fp1 fp2, ga a = Some (VRef l) /\ nth_error h l = Some (HInst c at_) /\
        field a W = Some (WObj w) /\ rep h sub (getA c at_) w fp1 /\ rep h k ga W fp2 /\ fp = l :: fp1 ++ fp2
  | Cnt _ _ _ k | Zero _ k | Pad _ k | Derive _ _ _ k => rep h k ga W fp
  | PList a _ k | Arr a _ _ k | VList a _ _ _ k =>
      exists l vs ws fp2, ga a = Some (VRef l) /\ nth_error h l = Some (HList vs) /\
        field a W = Some (WList ws) /\ Forall2 sc vs ws /\ rep h k ga W fp2 /\ fp = l :: fp2
  | OList a c sub k =>
      exists l vs ws fps fp2, ga a = Some (VRef l) /\ nth_error h l = Some (HList vs) /\
        field a W = Some (WList ws) /\
        Forall3 (fun v x fp => exists l at_ w fp', v = VRef l /\ nth_error h l = Some (HInst c at_) /\
                   x = WObj w /\ rep h sub (getA c at_) w fp' /\ fp = l :: fp') vs ws fps /\
        rep h k ga W fp2 /\ fp = l :: concat fps ++ fp2
  | Bits bf k =>
      Forall (fun b => match bf_attr b with
                       | None => True
                       | Some a => exists v x, ga a = Some v /\ scali v = Some x /\ field a W = Some x
                       end) bf /\ rep h k ga W fp
  | NullL a k =>
      exists l fp2, ga a = Some (VRef l) /\ nth_error h l = Some (HList []) /\
        field a W = Some (WList []) /\ rep h k ga W fp2 /\ fp = l :: fp2
  end.

Definition elem_rep h c sub := (fun v x fp => exists l at_ w fp', v = VRef l /\ nth_error h l = Some (HInst c at_) /\
                   x = WObj w /\ rep h sub (getA c at_) w fp' /\ fp = l :: fp').

(** ** rep is about the locations fp, the attributes and the fields named by f only *)
Lemma Forall3_impl {A B C} (R Q : A -> B -> C -> Prop) l m n :
  (forall a b c, In c n -> R a b c -> Q a b c) -> Forall3 R l m n -> Forall3 Q l m n.
Proof. intros H F. induction F; constructor; [apply H; [left; reflexivity|assumption]|]. apply IHF. intros. apply H; [right|]; assumption. Qed.

Lemma rep_ext f : forall h h' ga ga' W W' fp,
  rep h f ga W fp ->
  (forall l, In l fp -> nth_error h' l = nth_error h l) ->
  (forall a, In a (Spec.names f) -> ga' a = ga a) ->
  (forall a, In a (Spec.names f) -> field a W' = field a W) ->
  rep h' f ga' W' fp.
Proof.
  induction f as [|a p k IH|a c sub IHs k IH|a p m k IH|a p k IH|a c sub IHs k IH|a p n k IH|p k IH|a n k IH
                 |a p b dv k IH|b k IH|a b d k IH|bf k IH|a k IH];
    intros h h' ga ga' W W' fp HR Hh Hg Hw; cbn [rep Spec.names] in *; try (eapply IH; eauto; fail).
  - assumption.
  - destruct HR as [(v & x & A & B & C) HR]. split; [exists v, x; rewrite Hg, Hw by (left; reflexivity); auto|].
    eapply IH; eauto; intros; [apply Hg|apply Hw]; right; assumption.
  - destruct HR as (l & at_ & w & fp1 & fp2 & A & B & C & D & E & ->).
    exists l, at_, w, fp1, fp2. rewrite Hg, Hw by (left; reflexivity). rewrite Hh by (left; reflexivity).
    repeat split; auto.
    + eapply IHs; eauto. intros. apply Hh. right. apply in_or_app. auto.
    + eapply IH; eauto; intros; [apply Hh; right; apply in_or_app; auto|apply Hg; right; assumption|apply Hw; right; assumption].
  - destruct HR as (l & vs & ws & fp2 & A & B & C & D & E & ->).
    exists l, vs, ws, fp2. rewrite Hg, Hw by (left; reflexivity). rewrite Hh by (left; reflexivity).
    repeat split; auto. eapply IH; eauto; intros; [apply Hh|apply Hg|apply Hw]; right; assumption.
  - destruct HR as (l & vs & ws & fps & fp2 & A & B & C & D & E & ->).
    exists l, vs, ws, fps, fp2. rewrite Hg, Hw by (left; reflexivity). rewrite Hh by (left; reflexivity).
    repeat split; auto.
    + apply Forall3_impl with (2 := D). intros v x q Hq (l' & at_ & w & fp' & E1 & E2 & E3 & E4 & E5).
      assert (Hin : forall y, In y q -> In y (concat fps)) by (intros y Hy; apply in_concat; eauto).
      exists l', at_, w, fp'. rewrite Hh by (right; apply in_or_app; left; apply Hin; rewrite E5; left; reflexivity).
      repeat split; auto. eapply IHs; eauto. intros y Hy. apply Hh. right. apply in_or_app. left. apply Hin. rewrite E5. right. exact Hy.
    + eapply IH; eauto; intros; [apply Hh; right; apply in_or_app; auto|apply Hg; right; assumption|apply Hw; right; assumption].
  - destruct HR as (l & vs & ws & fp2 & A & B & C & D & E & ->).
    exists l, vs, ws, fp2. rewrite Hg, Hw by (left; reflexivity). rewrite Hh by (left; reflexivity).
    repeat split; auto. eapply IH; eauto; intros; [apply Hh|apply Hg|apply Hw]; right; assumption.
  - destruct HR as [(v & x & A & B & C) HR]. split; [exists v, x; rewrite Hg, Hw by (left; reflexivity); auto|].
    eapply IH; eauto; intros; [apply Hg|apply Hw]; right; assumption.
  - destruct HR as (l & vs & ws & fp2 & A & B & C & D & E & ->).
    exists l, vs, ws, fp2. rewrite Hg, Hw by (left; reflexivity). rewrite Hh by (left; reflexivity).
    repeat split; auto. eapply IH; eauto; intros; [apply Hh|apply Hg|apply Hw]; right; assumption.
  - destruct HR as [A HR]. split.
    + rewrite Forall_forall in *. intros b Hb. specialize (A b Hb). destruct (bf_attr b) as [a|] eqn:E; [|exact I].
      destruct A as (v & x & A & B & C). exists v, x.
      assert (In a (bnames bf)) by (apply in_flat_map; exists b; rewrite E; simpl; auto).
      rewrite Hg, Hw by (apply in_or_app; auto). auto.
    + eapply IH; eauto; intros; [apply Hg|apply Hw]; apply in_or_app; auto.
  - destruct HR as (l & fp2 & A & B & C & E & ->).
    exists l, fp2. rewrite Hg, Hw by (left; reflexivity). rewrite Hh by (left; reflexivity).
    repeat split; auto. eapply IH; eauto; intros; [apply Hh|apply Hg|apply Hw]; right; assumption.
Qed.

Lemma names_fapp f g : Spec.names (fapp f g) = Spec.names f ++ Spec.names g.
Proof. induction f; simpl; try (f_equal; auto; fail); auto. now rewrite IHf, app_assoc. Qed.

Lemma rep_fapp f g : forall h ga W fp,
  rep h (fapp f g) ga W fp <-> exists fp1 fp2, rep h f ga W fp1 /\ rep h g ga W fp2 /\ fp = fp1 ++ fp2.
Proof.
  induction f as [|a p k IH|a c sub IHs k IH|a p m k IH|a p k IH|a c sub IHs k IH|a p n k IH|p k IH|a n k IH
                 |a p b dv k IH|b k IH|a b d k IH|bf k IH|a k IH];
    intros h ga W fp; cbn [fapp rep]; try apply IH.
  - split; [intros; exists [], fp; auto|]. intros (fp1 & fp2 & -> & H & ->). exact H.
  - rewrite IH. split; [intros (A & fp1 & fp2 & B & C & ->); exists fp1, fp2; auto|].
    intros (fp1 & fp2 & (A & B) & C & ->). split; [exact A|]. exists fp1, fp2. auto.
  - split.
    + intros (l & at_ & w & fp1 & fp2 & A & B & C & D & E & ->). apply IH in E as (q1 & q2 & E1 & E2 & ->).
      exists (l :: fp1 ++ q1), q2. repeat split; auto; [|simpl; now rewrite app_assoc].
      exists l, at_, w, fp1, q1. auto 10.
    + intros (q1 & q2 & (l & at_ & w & fp1 & fp2 & A & B & C & D & E & ->) & F & ->).
      exists l, at_, w, fp1, (fp2 ++ q2). repeat split; auto; [|simpl; now rewrite app_assoc]. apply IH. eauto.
  - split.
    + intros (l & vs & ws & fp2 & A & B & C & D & E & ->). apply IH in E as (q1 & q2 & E1 & E2 & ->).
      exists (l :: q1), q2. repeat split; auto. exists l, vs, ws, q1. auto 10.
    + intros (q1 & q2 & (l & vs & ws & fp2 & A & B & C & D & E & ->) & F & ->).
      exists l, vs, ws, (fp2 ++ q2). repeat split; auto. apply IH. eauto.
  - split.
    + intros (l & vs & ws & fps & fp2 & A & B & C & D & E & ->). apply IH in E as (q1 & q2 & E1 & E2 & ->).
      exists (l :: concat fps ++ q1), q2. repeat split; auto; [|simpl; now rewrite app_assoc]. exists l, vs, ws, fps, q1. auto 10.
    + intros (q1 & q2 & (l & vs & ws & fps & fp2 & A & B & C & D & E & ->) & F & ->).
      exists l, vs, ws, fps, (fp2 ++ q2). repeat split; auto; [|simpl; now rewrite app_assoc]. apply IH. eauto.
  - split.
    + intros (l & vs & ws & fp2 & A & B & C & D & E & ->). apply IH in E as (q1 & q2 & E1 & E2 & ->).
      exists (l :: q1), q2. repeat split; auto. exists l, vs, ws, q1. auto 10.
    + intros (q1 & q2 & (l & vs & ws & fp2 & A & B & C & D & E & ->) & F & ->).
      exists l, vs, ws, (fp2 ++ q2). repeat split; auto. apply IH. eauto.
  - rewrite IH. split; [intros (A & fp1 & fp2 & B & C & ->); exists fp1, fp2; auto|].
    intros (fp1 & fp2 & (A & B) & C & ->). split; [exact A|]. exists fp1, fp2. auto.
  - split.
    + intros (l & vs & ws & fp2 & A & B & C & D & E & ->). apply IH in E as (q1 & q2 & E1 & E2 & ->).
      exists (l :: q1), q2. repeat split; auto. exists l, vs, ws, q1. auto 10.
    + intros (q1 & q2 & (l & vs & ws & fp2 & A & B & C & D & E & ->) & F & ->).
      exists l, vs, ws, (fp2 ++ q2). repeat split; auto. apply IH. eauto.
  - rewrite IH. split; [intros (A & fp1 & fp2 & B & C & ->); exists fp1, fp2; auto|].
    intros (fp1 & fp2 & (A & B) & C & ->). split; [exact A|]. exists fp1, fp2. auto.
  - split.
    + intros (l & fp2 & A & B & C & E & ->). apply IH in E as (q1 & q2 & E1 & E2 & ->).
      exists (l :: q1), q2. repeat split; auto. exists l, q1. auto 10.
    + intros (q1 & q2 & (l & fp2 & A & B & C & E & ->) & F & ->).
      exists l, (fp2 ++ q2). repeat split; auto. apply IH. eauto.
Qed.

(** ** The two views agree *)
Lemma scals_F2 vs : forall ws, scals vs = Some ws <-> Forall2 sc vs ws.
Proof.
  induction vs as [|v r IH]; intros ws; simpl.
  - split; [intros [= <-]; constructor|]. intros H. inversion H. reflexivity.
  - split.
    + destruct (scal v) eqn:E; [|discriminate]. destruct (scals r) as [l|] eqn:E2; [|discriminate].
      intros [= <-]. constructor; [exact E|]. now apply IH.
    + intros H. inversion H; subst. rewrite H2. apply IH in H4. now rewrite H4.
Qed.

Lemma cons_opt_inv a x r W : cons_opt a x r = Some W -> exists y V, x = Some y /\ r = Some V /\ W = (a, y) :: V.
Proof. unfold cons_opt. destruct x, r; try discriminate. intros [= <-]. eauto. Qed.

Lemma get_list_inv h v vs : get_list h v = Some vs -> exists l, v = Some (VRef l) /\ nth_error h l = Some (HList vs).
Proof.
  unfold get_list. destruct v as [[]|]; try discriminate. destruct (nth_error h l) as [[]|] eqn:E; try discriminate.
  intros [= <-]. eauto.
Qed.

Lemma proj_cons a ns W : proj (a :: ns) W = match field a W with Some x => [(a, x)] | None => [] end ++ proj ns W.
Proof. reflexivity. Qed.

Lemma proj_rep f : forall h ga W fp, rep h f ga W fp -> forall a, In a (Spec.names f) -> exists x, field a W = Some x.
Proof.
  induction f as [|a p k IH|a c sub IHs k IH|a p m k IH|a p k IH|a c sub IHs k IH|a p n k IH|p k IH|a n k IH
                 |a p b dv k IH|b k IH|a b d k IH|bf k IH|a k IH];
    intros h ga W fp HR a' Ha; cbn [rep Spec.names] in *; try (eapply IH; eauto; fail).
  - destruct Ha.
  - destruct HR as [(v & x & A & B & C) HR]. destruct Ha as [->|Ha]; eauto.
  - destruct HR as (l & at_ & w & fp1 & fp2 & A & B & C & D & E & ->). destruct Ha as [->|Ha]; eauto.
  - destruct HR as (l & vs & ws & fp2 & A & B & C & D & E & ->). destruct Ha as [->|Ha]; eauto.
  - destruct HR as (l & vs & ws & fps & fp2 & A & B & C & D & E & ->). destruct Ha as [->|Ha]; eauto.
  - destruct HR as (l & vs & ws & fp2 & A & B & C & D & E & ->). destruct Ha as [->|Ha]; eauto.
  - destruct HR as [(v & x & A & B & C) HR]. destruct Ha as [->|Ha]; eauto.
  - destruct HR as (l & vs & ws & fp2 & A & B & C & D & E & ->). destruct Ha as [->|Ha]; eauto.
  - destruct HR as [A HR]. apply in_app_or in Ha as [Ha|Ha]; [|eauto]. apply in_flat_map in Ha as (b & Hb & Ha).
    rewrite Forall_forall in A. specialize (A b Hb). destruct (bf_attr b); [|destruct Ha]. destruct Ha as [->|[]].
    destruct A as (v & x & _ & _ & C). eauto.
  - destruct HR as (l & fp2 & A & B & C & E & ->). destruct Ha as [->|Ha]; eauto.
Qed.

(** sub-records hold exactly their layout's fields *)
Fixpoint shaped (f : fmt) (W : flds) : Prop :=
  match f with
  | Done => True
  | Obj a _ sub k => (exists w, field a W = Some (WObj w) /\ map fst w = Spec.names sub /\ shaped sub w) /\ shaped k W
  | OList a _ sub k =>
      (exists l, field a W = Some (WList l) /\ Forall (fun x => exists w, x = WObj w /\ map fst w = Spec.names sub /\ shaped sub w) l) /\ shaped k W
  | Prim _ _ k | Mask _ _ k | Cnt _ _ _ k | Zero _ k | Pad _ k | Derive _ _ _ k | PList _ _ k | Arr _ _ _ k
  | VList _ _ _ _ k | Bits _ k | NullL _ k => shaped k W
  end.

Fixpoint subs_nodup (f : fmt) : bool :=
  match f with
  | Done => true
  | Obj _ _ sub k | OList _ _ sub k => nodupb (Spec.names sub) && subs_nodup sub && subs_nodup k
  | Prim _ _ k | Mask _ _ k | Cnt _ _ _ k | Zero _ k | Pad _ k | Derive _ _ _ k | PList _ _ k | Arr _ _ _ k
  | VList _ _ _ _ k | Bits _ k | NullL _ k => subs_nodup k
  end.

Lemma rep_read f : subs_nodup f = true -> forall h ga W fp, rep h f ga W fp -> shaped f W ->
  read h f ga = Some (proj (Spec.names f) W).
Proof.
  induction f as [|a p k IH|a c sub IHs k IH|a p m k IH|a p k IH|a c sub IHs k IH|a p n k IH|p k IH|a n k IH
                 |a p b dv k IH|b k IH|a b d k IH|bf k IH|a k IH];
    intros HS h ga W fp HR HW; cbn [rep Spec.names shaped read subs_nodup] in *; try (eapply IH; eauto; fail);
    split_wf; rewrite ?proj_cons.
  - reflexivity.
  - destruct HR as [(v & x & A & B & C) HR]. rewrite A, B, C, (IH HS _ _ _ _ HR HW). reflexivity.
  - destruct HR as (l & at_ & w & fp1 & fp2 & A & B & C & D & E & ->). destruct HW as [(w' & C' & Hn & Hs) HW].
    assert (w' = w) by congruence. subst w'.
    rewrite A, B, C, String.eqb_refl, (IH H0 _ _ _ _ E HW), (IHs H1 _ _ _ _ D Hs). cbn [option_map cons_opt app].
    rewrite <- Hn, proj_id; [reflexivity|]. rewrite Hn. now apply nodupb_NoDup.
  - destruct HR as (l & vs & ws & fp2 & A & B & C & D & E & ->).
    rewrite (IH HS _ _ _ _ E HW), A. cbn [get_list]. rewrite B, C. apply scals_F2 in D. rewrite D. reflexivity.
  - destruct HR as (l & vs & ws & fps & fp2 & A & B & C & D & E & ->). destruct HW as [(ws' & C' & Hn) HW].
    assert (ws' = ws) by congruence. subst ws'.
    rewrite (IH H0 _ _ _ _ E HW), A. cbn [get_list]. rewrite B, C. fold (elem_rep h c sub) in D.
    enough (X : objs (fun d at_ => read h sub (getA d at_)) c h vs = Some ws) by (rewrite X; reflexivity).
    clear -D Hn IHs H H1. induction D as [|v x q vs ws fps (l & at_ & w & fp' & -> & B & -> & D' & ->) D IHD]; [reflexivity|].
    inversion Hn as [|? ? (w' & [= ->] & N1 & N2) Hn']; subst. cbn [objs]. rewrite B, String.eqb_refl, (IHs H1 _ _ _ _ D' N2), (IHD Hn').
    rewrite <- N1, proj_id; [reflexivity|]. rewrite N1. now apply nodupb_NoDup.
  - destruct HR as (l & vs & ws & fp2 & A & B & C & D & E & ->).
    rewrite (IH HS _ _ _ _ E HW), A. cbn [get_list]. rewrite B, C. apply scals_F2 in D. rewrite D. reflexivity.
  - destruct HR as [(v & x & A & B & C) HR]. rewrite A, B, C, (IH HS _ _ _ _ HR HW). reflexivity.
  - destruct HR as (l & vs & ws & fp2 & A & B & C & D & E & ->).
    rewrite (IH HS _ _ _ _ E HW), A. cbn [get_list]. rewrite B, C. apply scals_F2 in D. rewrite D. reflexivity.
  - destruct HR as [A HR]. rewrite proj_app. specialize (IH HS _ _ _ _ HR HW).
    induction bf as [|b r IHb]; [exact IH|]. inversion A as [|? ? Hb Hr]; subst. specialize (IHb Hr).
    cbn [flat_map]. rewrite proj_app. destruct (bf_attr b) as [a|].
    + destruct Hb as (v & x & E1 & E2 & E3). rewrite E1, E2, IHb. rewrite proj_cons, E3. reflexivity.
    + exact IHb.
  - destruct HR as (l & fp2 & A & B & C & E & ->).
    rewrite (IH HS _ _ _ _ E HW), A. cbn [get_list]. rewrite B, C. reflexivity.
Qed.

Lemma field_skip a b x (W : flds) : a <> b -> field a ((b, x) :: W) = field a W.
Proof. intros H. simpl. destruct (String.eqb_spec a b); [contradiction|reflexivity]. Qed.

Lemma read_names f : forall h ga W, read h f ga = Some W -> map fst W = Spec.names f.
Proof.
  induction f as [|a p k IH|a c sub IHs k IH|a p m k IH|a p k IH|a c sub IHs k IH|a p n k IH|p k IH|a n k IH
                 |a p b dv k IH|b k IH|a b d k IH|bf k IH|a k IH];
    intros h ga W HR; cbn [Spec.names read] in *; try (eapply IH; eauto; fail);
    try (apply cons_opt_inv in HR as (y & V & _ & E & ->); simpl; f_equal; eauto; fail).
  - injection HR as <-. reflexivity.
  - revert W HR. induction bf as [|b r IHb]; intros W HR; [eauto|]. cbn [flat_map]. destruct (bf_attr b).
    + apply cons_opt_inv in HR as (y & V & _ & E & ->). simpl. f_equal. auto.
    + simpl. auto.
Qed.

Lemma read_rep f : subs_nodup f = true -> nodupb (Spec.names f) = true -> forall h ga W, read h f ga = Some W ->
  exists fp, (forall Wf, (forall a, In a (Spec.names f) -> field a Wf = field a W) -> rep h f ga Wf fp).
Proof.
  induction f as [|a p k IH|a c sub IHs k IH|a p m k IH|a p k IH|a c sub IHs k IH|a p n k IH|p k IH|a n k IH
                 |a p b dv k IH|b k IH|a b d k IH|bf k IH|a k IH];
    intros HS HN h ga W HR; cbn [rep Spec.names read subs_nodup] in *; try (eapply IH; eauto; fail); split_wf;
    try (apply cons_opt_inv in HR as (y & V & HR & E & ->); apply nodupb_cons in HN as [HN1 HN2];
         assert (HV := read_names _ _ _ _ E); destruct (IH ltac:(assumption) HN2 _ _ _ E) as [fp Hfp]).
  - exists []. reflexivity.
  - exists fp. intros Wf Hf. destruct (front _ _ _ _ _ HV HN1 Hf) as [F1 F2]. split; [|auto].
    destruct (ga a) as [v|]; [|discriminate]. eauto.
  - destruct (ga a) as [[]|] eqn:Ega; try discriminate. destruct (nth_error h l) as [[d at_|]|] eqn:El; try discriminate.
    destruct (String.eqb_spec c d) as [<-|]; [|discriminate].
    destruct (read h sub (getA c at_)) as [w|] eqn:Ew; [|discriminate]. injection HR as <-.
    destruct (IHs ltac:(assumption) ltac:(assumption) _ _ _ Ew) as [fp1 Hfp1].
    exists (l :: fp1 ++ fp). intros Wf Hf. destruct (front _ _ _ _ _ HV HN1 Hf) as [F1 F2].
    exists l, at_, w, fp1, fp. auto 10.
  - destruct (get_list h (ga a)) as [vs|] eqn:G; [|discriminate]. apply get_list_inv in G as (l & G1 & G2).
    destruct (scals vs) as [ws|] eqn:S; [|discriminate]. injection HR as <-. apply scals_F2 in S.
    exists (l :: fp). intros Wf Hf. destruct (front _ _ _ _ _ HV HN1 Hf) as [F1 F2]. exists l, vs, ws, fp. auto 10.
  - destruct (get_list h (ga a)) as [vs|] eqn:G; [|discriminate]. apply get_list_inv in G as (l & G1 & G2).
    destruct (objs _ c h vs) as [ws|] eqn:S; [|discriminate]. injection HR as <-.
    assert (X : exists fps, Forall3 (elem_rep h c sub) vs ws fps).
    { clear -S IHs H H1. revert ws S. induction vs as [|v vs IHv]; intros ws S; cbn [objs] in S.
      - injection S as <-. exists []. constructor.
      - destruct v as [ | | | | | |l0| | | | | | | | | | | ]; try discriminate.
        destruct (nth_error h l0) as [[d at_|]|] eqn:El; try discriminate.
        destruct (String.eqb_spec c d) as [<-|]; [|discriminate].
        destruct (read h sub (getA c at_)) as [w|] eqn:Ew; [|discriminate].
        destruct (objs _ c h vs) as [ws'|]; [|discriminate]. injection S as <-.
        destruct (IHs ltac:(assumption) ltac:(assumption) _ _ _ Ew) as [fp1 Hfp1].
        destruct (IHv _ eq_refl) as [fps F]. exists ((l0 :: fp1) :: fps). constructor; [|exact F].
        exists l0, at_, w, fp1. auto 10. }
    destruct X as [fps F]. exists (l :: concat fps ++ fp). intros Wf Hf. destruct (front _ _ _ _ _ HV HN1 Hf) as [F1 F2].
    exists l, vs, ws, fps, fp. auto 10.
  - destruct (get_list h (ga a)) as [vs|] eqn:G; [|discriminate]. apply get_list_inv in G as (l & G1 & G2).
    destruct (scals vs) as [ws|] eqn:S; [|discriminate]. injection HR as <-. apply scals_F2 in S.
    exists (l :: fp). intros Wf Hf. destruct (front _ _ _ _ _ HV HN1 Hf) as [F1 F2]. exists l, vs, ws, fp. auto 10.
  - exists fp. intros Wf Hf. destruct (front _ _ _ _ _ HV HN1 Hf) as [F1 F2]. split; [|auto].
    destruct (ga a) as [v|]; [|discriminate]. eauto.
  - destruct (get_list h (ga a)) as [vs|] eqn:G; [|discriminate]. apply get_list_inv in G as (l & G1 & G2).
    destruct (scals vs) as [ws|] eqn:S; [|discriminate]. injection HR as <-. apply scals_F2 in S.
    exists (l :: fp). intros Wf Hf. destruct (front _ _ _ _ _ HV HN1 Hf) as [F1 F2]. exists l, vs, ws, fp. auto 10.
  - revert W HR. induction bf as [|b r IHb]; intros W HR.
    + destruct (IH HS HN _ _ _ HR) as [fp Hfp]. exists fp. intros Wf Hf. split; [constructor|auto].
    + cbn [flat_map] in HN |- *. destruct (bf_attr b) as [a|] eqn:Eb.
      * cbn [app] in HN. apply nodupb_cons in HN as [HN1 HN2].
        apply cons_opt_inv in HR as (y & V & E1 & E2 & ->).
        destruct (IHb HN2 _ E2) as [fp Hfp]. exists fp. intros Wf Hf.
        destruct (Hfp Wf) as [X Y].
        { intros a' Ha'. rewrite Hf by (right; exact Ha'). apply field_skip. intros ->. contradiction. }
        split; [|exact Y]. constructor; [|exact X]. rewrite Eb.
        destruct (ga a) as [v|]; [|discriminate]. exists v, y. repeat split; auto.
        rewrite Hf by (left; reflexivity). simpl. now rewrite String.eqb_refl.
      * destruct (IHb HN _ HR) as [fp Hfp]. exists fp. intros Wf Hf. destruct (Hfp Wf Hf) as [X Y].
        split; [|exact Y]. constructor; [|exact X]. now rewrite Eb.
  - destruct (get_list h (ga a)) as [[|]|] eqn:G; try discriminate. apply get_list_inv in G as (l & G1 & G2).
    injection HR as <-.
    exists (l :: fp). intros Wf Hf. destruct (front _ _ _ _ _ HV HN1 Hf) as [F1 F2]. exists l, fp. auto 10.
Qed.

Lemma read_shaped f : subs_nodup f = true -> nodupb (Spec.names f) = true -> forall h ga W, read h f ga = Some W ->
  forall Wf, (forall a, In a (Spec.names f) -> field a Wf = field a W) -> shaped f Wf.
Proof.
  induction f as [|a p k IH|a c sub IHs k IH|a p m k IH|a p k IH|a c sub IHs k IH|a p n k IH|p k IH|a n k IH
                 |a p b dv k IH|b k IH|a b d k IH|bf k IH|a k IH];
    intros HS HN h ga W HR Wf Hf; cbn [shaped Spec.names read subs_nodup] in *; try (eapply IH; eauto; fail); split_wf;
    try (apply cons_opt_inv in HR as (y & V & HR & E & ->); apply nodupb_cons in HN as [HN1 HN2];
         assert (HV := read_names _ _ _ _ E); destruct (front _ _ _ _ _ HV HN1 Hf) as [F1 F2]);
    try (eapply IH; eauto; fail).
  - exact I.
  - split; [|eapply IH; eauto].
    destruct (ga a) as [[]|] eqn:Ega; try discriminate. destruct (nth_error h l) as [[d at_|]|] eqn:El; try discriminate.
    destruct (String.eqb_spec c d) as [<-|]; [|discriminate].
    destruct (read h sub (getA c at_)) as [w|] eqn:Ew; [|discriminate]. injection HR as <-.
    exists w. repeat split; [exact F1|eapply read_names; eauto|]. eapply IHs; eauto.
  - split; [|eapply IH; eauto].
    destruct (get_list h (ga a)) as [vs|] eqn:G; [|discriminate].
    destruct (objs _ c h vs) as [ws|] eqn:S; [|discriminate]. injection HR as <-. exists ws. split; [exact F1|].
    clear -S IHs H H1. revert ws S. induction vs as [|v vs IHv]; intros ws S; cbn [objs] in S.
    + injection S as <-. constructor.
    + destruct v as [ | | | | | |l0| | | | | | | | | | | ]; try discriminate.
      destruct (nth_error h l0) as [[d at_|]|] eqn:El; try discriminate.
      destruct (String.eqb_spec c d) as [<-|]; [|discriminate].
      destruct (read h sub (getA c at_)) as [w|] eqn:Ew; [|discriminate].
      destruct (objs _ c h vs) as [ws'|]; [|discriminate]. injection S as <-. constructor; [|auto].
      exists w. repeat split; [eapply read_names; eauto|]. eapply IHs; eauto.
  - revert W HR Hf. induction bf as [|b r IHb]; intros W HR Hf; [eapply IH; eauto|].
    cbn [flat_map] in HN, Hf. destruct (bf_attr b) as [a|].
    + cbn [app] in HN. apply nodupb_cons in HN as [HN1 HN2]. apply cons_opt_inv in HR as (y & V & E1 & E2 & ->).
      apply (IHb HN2 V E2). intros a' Ha'. rewrite Hf by (right; exact Ha'). apply field_skip. intros ->. contradiction.
    + apply (IHb HN W HR Hf).
Qed.

End Rep.
