(** * Checking serialize methods against layouts

    [chkS] decides whether the statements of a serialize method write the fields of a layout;
    [ser_sound] shows that if it says yes, running the method on any object writes exactly the
    layout's encoding of the object's contents. *)
From Coq Require Import ZArith String List Bool Lia.
From Coq Require Import Strings.Byte.
From Verif Require Import Lang Bytes Interp ProgBase Spec Codec Codec2 Rep Dec StreamLem.
Import ListNotations.
Open Scope string_scope. Open Scope Z_scope. Open Scope list_scope.

(** ** Outcomes *)
Definition oc {A} (o : outcome) (a : A) (s : st) : res A * st :=
  (match snd o with None => Ok a | Some e => Exc e end, add_out (fst o) s).

Lemma oc_done {A} (a : A) s : oc done a s = (Ok a, s).
Proof. unfold oc, done. simpl. now rewrite add_out_nil. Qed.

Lemma oc_bind {A B} (m : M A) (k : A -> M B) s o1 o2 a b :
  m s = oc o1 a s -> (snd o1 = None -> k a (add_out (fst o1) s) = oc o2 b (add_out (fst o1) s)) ->
  bind m k s = oc (oseq o1 o2) b s.
Proof.
  intros H K. unfold bind. rewrite H. unfold oc, oseq. destruct o1 as [b1 [e|]]; simpl in *; [reflexivity|].
  rewrite K by reflexivity. unfold oc. simpl. now rewrite add_out_add.
Qed.

Lemma oc_fail {A} e (a : A) s : oc (fail e) a s = (Exc e, s).
Proof. unfold oc, fail. simpl. now rewrite add_out_nil. Qed.

Section Ser.
Variable P : prog.
Hypothesis HO : get_cls P "DataOutputStream" = Some c_DataOutputStream.
Hypothesis HI : get_cls P "DataInputStream" = Some c_DataInputStream.
Variable T : list (string * fmt).   (* the layouts of classes *)

Notation self_ a := (Attr (Loc "self") a).
Notation ostream := (Loc "outputStream").
Notation E_is := (is expr_dec).
Notation S_is := (is stmt_dec).

(** ** The checker *)
Definition len_prop (a : string) : member :=
  MMeth (mkmeth KProperty false [("self", None)] [Return (Builtin BLen [self_ a])]).

Definition len_prop_mul (a : string) (m : Z) : member :=
  MMeth (mkmeth KProperty false [("self", None)] [Return (Bin OMul (Builtin BLen [self_ a]) (Lit (LInt m)))]).

Definition is_len (D a : string) (m : Z) (e : expr) : bool :=
  E_is e (Builtin BLen [self_ a]) && (m =? 1)
  || match e with
     | Attr _ nm => E_is e (self_ nm) && (is (opt_dec member_dec) (lookup P D nm) (Some (len_prop a)) && (m =? 1)
                                          || is (opt_dec member_dec) (lookup P D nm) (Some (len_prop_mul a m)))
     | _ => false
     end
  || E_is e (Bin OMul (Builtin BLen [self_ a]) (Lit (LInt m))).

Definition pad_name := "datumPaddingSizeInBits".
Definition pad_meth (b : string) : member :=
  MMeth (mkmeth KNormal false [("self", None)]
    [Assign "padding" (Lit (LInt 0));
     Assign "remainder" (Bin OMod (self_ b) (Lit (LInt 64)));
     If (Cmp CNe (Loc "remainder") (Lit (LInt 0))) [Assign "padding" (Bin OSub (Lit (LInt 64)) (Loc "remainder"))] [];
     Return (Loc "padding")]).

Fixpoint bits_match (fs : list (string * Z)) (args : list expr) (bf : list bfield) : bool :=
  match fs, bf with
  | [], [] => match args with [] => true | _ => false end
  | (_, w) :: fs, b :: bf =>
      (w =? bf_width b) && (0 <? w) &&
      match args with
      | [] => is (opt_dec string_dec) (bf_attr b) None && bits_match fs [] bf
      | e :: r => match bf_attr b with
                  | Some a => (E_is e (self_ a) || E_is e (Builtin BInt [self_ a])) && bits_match fs r bf
                  | None => false
                  end
      end
  | _, _ => false
  end.

Definition local_ok (x : string) : bool := negb (String.eqb x "self") && negb (String.eqb x "outputStream").
Definition is_opt {A} (dec : forall x y : A, {x = y} + {x <> y}) (x : option A) (y : A) : bool := is (opt_dec dec) x (Some y).

(** one statement, against the head of the layout; gives what is left of the layout *)
Definition stepS (sup : string -> fmt -> option fmt) (D : string) (c : stmt) (f : fmt) : option fmt :=
  match c with
  | Pass => Some f
  | Expr (Super X m _ _) =>
      if S_is c (Expr (Super X "serialize" [ostream] [])) then sup X f else None
  | _ =>
    match f with
    | Prim a p k =>
        match c with
        | Expr (Meth _ w _ _) =>
            if is_opt prim_dec (wprim w) p && S_is c (Expr (Meth ostream w [self_ a] [])) then Some k else None
        | _ => None
        end
    | Cnt a p m k =>
        match c with
        | Expr (Meth _ w [e] _) =>
            if is_opt prim_dec (wprim w) p && S_is c (Expr (Meth ostream w [e] [])) && is_len D a m e then Some k else None
        | _ => None
        end
    | Obj a cl sub k =>
        if is_opt fmt_dec (assoc cl T) sub && S_is c (Expr (Meth (self_ a) "serialize" [ostream] [])) then Some k else None
    | OList a cl sub k =>
        match c with
        | For x _ _ =>
            if is_opt fmt_dec (assoc cl T) sub && local_ok x
               && S_is c (For x (self_ a) [Expr (Meth (Loc x) "serialize" [ostream] [])]) then Some k else None
        | _ => None
        end
    | PList a p k =>
        match c with
        | For x _ [Expr (Meth _ w _ _)] =>
            if is_opt prim_dec (wprim w) p && local_ok x
               && S_is c (For x (self_ a) [Expr (Meth ostream w [Loc x] [])]) then Some k else None
        | _ => None
        end
    | NullL a k =>
        match c with
        | For x e _ => if E_is e (self_ a) then Some k else None
        | _ => None
        end
    | Arr a p n k =>
        match c with
        | For x _ [Expr (Meth _ w _ _)] =>
            if is_opt prim_dec (wprim w) p && local_ok x
               && S_is c (For x (Builtin BRange [Lit (LInt 0); Lit (LInt (Z.of_nat n))])
                            [Expr (Meth ostream w [Sub (self_ a) (Loc x)] [])]) then Some k else None
        | _ => None
        end
    | VList a p b dv k =>
        match c with
        | For x _ [Expr (Meth _ w _ _)] =>
            if is_opt prim_dec (wprim w) p && local_ok x && (0 <? dv)
               && S_is c (For x (Builtin BRange [Bin OFloorDiv (self_ b) (Lit (LInt dv))])
                            [Expr (Meth ostream w [Sub (self_ a) (Loc x)] [])]) then Some k else None
        | _ => None
        end
    | Pad b k =>
        match c with
        | For x _ _ =>
            if local_ok x && is (opt_dec member_dec) (lookup P D pad_name) (Some (pad_meth b))
               && S_is c (For x (Builtin BRange [Bin OFloorDiv (Meth (Loc "self") pad_name [] []) (Lit (LInt 8))])
                            [Expr (Meth ostream "write_unsigned_byte" [Lit (LInt 0)] [])]) then Some k else None
        | _ => None
        end
    | Zero p k =>
        match c with
        | Expr (Meth _ w _ _) =>
            if is_opt prim_dec (wprim w) p && S_is c (Expr (Meth ostream w [Lit (LInt 0)] [])) then Some k else None
        | _ => None
        end
    | Mask a n k =>
        match c with
        | Expr (Meth _ w _ _) =>
            if is_opt prim_dec (wprim w) (PInt n false)
               && S_is c (Expr (Meth ostream w [Bin OBitAnd (self_ a) (Lit (LInt 1))] [])) then Some k else None
        | _ => None
        end
    | Bits bf k =>
        match c with
        | Expr (Meth (Meth _ _ args _) _ _ _) =>
            if S_is c (Expr (Meth (Meth (Loc "self") "_struct" args []) "serialize" [ostream] [])) then
              match lookup P D "_struct" with
              | Some (MAttr (LBits fs)) => if bits_match fs args bf then Some k else None
              | _ => None
              end
            else None
        | _ => None
        end
    | Done | Derive _ _ _ _ => None
    end
  end.

Fixpoint blockS (step : stmt -> fmt -> option fmt) (ss : list stmt) (f : fmt) : option fmt :=
  match ss with
  | [] => Some f
  | c :: r => match step c f with Some f' => blockS step r f' | None => None end
  end.

Definition ser_params : list (string * option dflt) := [("self", None); ("outputStream", None)].
Definition is_ser (m : meth) : bool :=
  is mkind_dec (m_kind m) KNormal && is (list_eq_dec (pair_dec string_dec (opt_dec dflt_dec))) (m_params m) ser_params.

Fixpoint chkS (gas : nat) (D : string) (ss : list stmt) (f : fmt) : option fmt :=
  match gas with
  | O => None
  | S g =>
      blockS (stepS (fun X f =>
        match after X (mro P D) with
        | Some rest =>
            match lookup_in P rest "serialize" with
            | Some (MMeth m) => if is_ser m then chkS g D (m_body m) f else None
            | _ => None
            end
        | None => None
        end) D) ss f
  end.

(** longest chain of super calls *)
Definition G : nat := 6.

(** class c's serialize writes layout f *)
Definition chk_class (c : string) (f : fmt) : bool :=
  match lookup P c "serialize" with
  | Some (MMeth m) => is_ser m && is (opt_dec fmt_dec) (chkS G c (m_body m) f) (Some Done)
  | _ => false
  end.

(** ** Counts and lengths refer to attributes of the same object *)
Fixpoint deps (h : list hobj) (f : fmt) (ga : string -> option val) (W : flds) : Prop :=
  match f with
  | Done => True
  | Cnt a _ _ k =>
      (exists l vs ws, ga a = Some (VRef l) /\ nth_error h l = Some (HList vs) /\ field a W = Some (WList ws) /\ length vs = length ws)
      /\ deps h k ga W
  | VList _ _ b _ k | Pad b k => (exists v x, ga b = Some v /\ scal v = Some x /\ field b W = Some x) /\ deps h k ga W
  | Prim _ _ k | Obj _ _ _ k | PList _ _ k | OList _ _ _ k | Arr _ _ _ k | Zero _ k | Mask _ _ k | Derive _ _ _ k
  | Bits _ k | NullL _ k => deps h k ga W
  end.

Lemma deps_fapp f g h ga W : deps h (fapp f g) ga W <-> deps h f ga W /\ deps h g ga W.
Proof. induction f; cbn [fapp deps]; try assumption; tauto. Qed.

Fixpoint prims (f : fmt) : list string :=
  match f with
  | Done => []
  | Prim a _ k => a :: prims k
  | Cnt _ _ _ k | VList _ _ _ _ k | Pad _ k | Obj _ _ _ k | PList _ _ k | OList _ _ _ k | Arr _ _ _ k | Zero _ k | Mask _ _ k
  | Derive _ _ _ k | Bits _ k | NullL _ k => prims k
  end.

(** every count is of a list of the layout, every length a scalar of the layout *)
Fixpoint deps_in (ls ps : list string) (f : fmt) : bool :=
  match f with
  | Done => true
  | Cnt a _ _ k => mem a ls && deps_in ls ps k
  | VList _ _ b _ k | Pad b k => mem b ps && deps_in ls ps k
  | Prim _ _ k | Obj _ _ _ k | PList _ _ k | OList _ _ _ k | Arr _ _ _ k | Zero _ k | Mask _ _ k | Derive _ _ _ k
  | Bits _ k | NullL _ k => deps_in ls ps k
  end.
Definition deps_ok (f : fmt) : bool := deps_in (lists f) (prims f) f.

Lemma Forall2_length {A B} (R : A -> B -> Prop) l m : Forall2 R l m -> length l = length m.
Proof. induction 1; simpl; congruence. Qed.

Lemma Forall3_length {A B C} (R : A -> B -> C -> Prop) l m n : Forall3 R l m n -> length l = length m.
Proof. induction 1; simpl; congruence. Qed.

Lemma rep_list f : forall h ga W fp a, rep P h f ga W fp -> In a (lists f) ->
  exists l vs ws, ga a = Some (VRef l) /\ nth_error h l = Some (HList vs) /\ field a W = Some (WList ws) /\ length vs = length ws.
Proof.
  induction f as [|a p k IH|a c sub IHs k IH|a p m k IH|a p k IH|a c sub IHs k IH|a p n k IH|p k IH|a n k IH
                 |a p b dv k IH|b k IH|a b d k IH|bf k IH|a k IH];
    intros h ga W fp a' HR Ha; cbn [rep lists] in *; try (eapply IH; eauto; fail).
  - destruct Ha.
  - eapply IH; [apply HR|exact Ha].
  - destruct HR as (l & at_ & w & fp1 & fp2 & A & B & C & D & E & ->). eauto.
  - destruct HR as (l & vs & ws & fp2 & A & B & C & D & E & ->). destruct Ha as [<-|Ha]; [|eauto].
    exists l, vs, ws. repeat split; auto. eapply Forall2_length; eauto.
  - destruct HR as (l & vs & ws & fps & fp2 & A & B & C & D & E & ->). destruct Ha as [<-|Ha]; [|eauto].
    exists l, vs, ws. repeat split; auto. eapply Forall3_length; eauto.
  - destruct HR as (l & vs & ws & fp2 & A & B & C & D & E & ->). eauto.
  - eapply IH; [apply HR|exact Ha].
  - destruct HR as (l & vs & ws & fp2 & A & B & C & D & E & ->). eauto.
  - eapply IH; [apply HR|exact Ha].
  - destruct HR as (l & fp2 & A & B & C & E & ->). destruct Ha as [<-|Ha]; [|eauto].
    exists l, [], []. auto.
Qed.

Lemma rep_prim f : forall h ga W fp a, rep P h f ga W fp -> In a (prims f) ->
  exists v x, ga a = Some v /\ scal v = Some x /\ field a W = Some x.
Proof.
  induction f as [|a p k IH|a c sub IHs k IH|a p m k IH|a p k IH|a c sub IHs k IH|a p n k IH|p k IH|a n k IH
                 |a p b dv k IH|b k IH|a b d k IH|bf k IH|a k IH];
    intros h ga W fp a' HR Ha; cbn [rep prims] in *; try (eapply IH; eauto; fail).
  - destruct Ha.
  - destruct Ha as [<-|Ha]; [apply HR|]. eapply IH; [apply HR|exact Ha].
  - destruct HR as (l & at_ & w & fp1 & fp2 & A & B & C & D & E & ->). eauto.
  - destruct HR as (l & vs & ws & fp2 & A & B & C & D & E & ->). eauto.
  - destruct HR as (l & vs & ws & fps & fp2 & A & B & C & D & E & ->). eauto.
  - destruct HR as (l & vs & ws & fp2 & A & B & C & D & E & ->). eauto.
  - eapply IH; [apply HR|exact Ha].
  - destruct HR as (l & vs & ws & fp2 & A & B & C & D & E & ->). eauto.
  - eapply IH; [apply HR|exact Ha].
  - destruct HR as (l & fp2 & A & B & C & E & ->). eauto.
Qed.

Lemma deps_of_rep F h ga W fp : rep P h F ga W fp -> deps_ok F = true -> deps h F ga W.
Proof.
  intros HR. unfold deps_ok.
  assert (L := fun a => rep_list F h ga W fp a HR). assert (Q := fun a => rep_prim F h ga W fp a HR).
  generalize (lists F) (prims F) L Q. clear. intros ls ps L Q.
  induction F; cbn [deps deps_in]; intros H; split_wf; auto; split; auto.
  all: match goal with H : mem _ _ = true |- _ => apply mem_In in H; auto end.
Qed.

(** ** Evaluation of the pieces *)
Lemma get_attr_ga call s l D at_ a v : nth_error (heap s) l = Some (HInst D at_) -> getA P D at_ a = Some v ->
  get_attr P call (VRef l) a s = (Ok v, s).
Proof.
  intros Hl Hg. unfold get_attr, bind, hget. rewrite Hl. unfold getA in Hg.
  destruct (lookup P D a) as [[m|li]|]; [discriminate| |].
  - destruct (assoc a at_); injection Hg as ->; reflexivity.
  - rewrite Hg. reflexivity.
Qed.

Definition ctx (rho : env) (l : nat) : Prop := assoc "self" rho = Some (VRef l) /\ assoc "outputStream" rho = Some VOut.

Lemma assoc_upd_eq {A} x (v : A) rho : assoc x (upd x v rho) = Some v.
Proof. induction rho as [|[y w] r IH]; simpl; [now rewrite String.eqb_refl|]. destruct (String.eqb_spec x y); simpl; [subst; now rewrite String.eqb_refl|]. destruct (String.eqb_spec x y); [contradiction|exact IH]. Qed.

Lemma assoc_upd_ne {A} x y (v : A) rho : x <> y -> assoc x (upd y v rho) = assoc x rho.
Proof.
  intros H. induction rho as [|[z w] r IH]; simpl.
  - destruct (String.eqb_spec x y); [contradiction|reflexivity].
  - destruct (String.eqb_spec y z); simpl.
    + subst. destruct (String.eqb_spec x z); [contradiction|reflexivity].
    + destruct (String.eqb x z); [reflexivity|exact IH].
Qed.

Lemma ctx_upd rho l x v : ctx rho l -> local_ok x = true -> ctx (upd x v rho) l.
Proof.
  intros [A B] H. unfold local_ok in H. apply andb_prop in H as [H1 H2].
  destruct (String.eqb_spec x "self") as [|N1]; [discriminate|]. destruct (String.eqb_spec x "outputStream") as [|N2]; [discriminate|].
  split; rewrite assoc_upd_ne; auto.
Qed.

Section Run.
Variable n : nat.
Notation call := (run P n).
Notation ev := (eval P call).
Notation ex := (exec P call).

Lemma ev_self rho l a v s D at_ : ctx rho l -> nth_error (heap s) l = Some (HInst D at_) -> getA P D at_ a = Some v ->
  ev (self_ a) rho s = (Ok v, s).
Proof. intros [A _] Hl Hg. cbn [eval]. rewrite A. unfold bind, ret at 1. eapply get_attr_ga; eauto. Qed.

Lemma ex_write w p e x v rho l s : (2 <= n)%nat -> wprim w = Some p -> ctx rho l ->
  ev e rho s = (Ok v, s) -> scal v = Some x ->
  ex (Expr (Meth ostream w [e] [])) rho s = oc (enc_val p x) (rho, None) s.
Proof.
  intros Hn Hw [_ Ho] He Hv. destruct (write_ok P HO w p n v x s Hw Hv Hn) as (k & A & B).
  cbn [exec eval]. rewrite Ho. unfold bind at 1, bind at 1, ret at 1. unfold bind at 1. rewrite A.
  cbn [eval_list]. unfold bind at 1. unfold bind at 1. rewrite He. unfold bind, ret. cbn [apply app]. rewrite B. unfold oc.
  destruct (snd (enc_val p x)); reflexivity.
Qed.

Definition val_out (r : res val * st) (o : outcome) (s : st) : Prop :=
  exists v, r = oc o v s.

Lemma ex_expr e rho s o : val_out (ev e rho s) o s -> ex (Expr e) rho s = oc o (rho, None) s.
Proof.
  intros [v H]. cbn [exec]. unfold bind. rewrite H. unfold oc. destruct (snd o); reflexivity.
Qed.

Lemma for_oc (h : list hobj) (I : env -> Prop) bd x vs os :
  Forall2 (fun v o => forall rho s, I rho -> heap s = h -> exists rho', I rho' /\ bd (upd x v rho) s = oc o (rho', None) s) vs os ->
  forall rho s, I rho -> heap s = h ->
  exists rho', I rho' /\ for_loop bd x vs rho s = oc (fold_right oseq done os) (rho', None) s.
Proof.
  induction 1 as [|v o vs os H F IH]; intros rho s HI' Hh; cbn [for_loop fold_right].
  - exists rho. split; [exact HI'|]. symmetry. apply oc_done.
  - destruct (H rho s HI' Hh) as (r1 & I1 & E1).
    destruct (IH r1 (add_out (fst o) s) I1) as (r2 & I2 & E2); [exact Hh|].
    exists r2. split; [exact I2|]. eapply oc_bind; [exact E1|]. intros _. exact E2.
Qed.

Lemma F2_map_r {A B C} (R : A -> C -> Prop) (g : B -> C) l m : Forall2 (fun a b => R a (g b)) l m -> Forall2 R l (map g m).
Proof. induction 1; simpl; constructor; auto. Qed.

Lemma fold_enc {A} (e : A -> outcome) l : fold_right oseq done (map e l) = enc_list e l.
Proof. induction l; simpl; congruence. Qed.

Definition at_idx (e : wv -> outcome) (l : list wv) (i : nat) : outcome :=
  match nth_error l i with Some x => e x | None => fail IndexError end.

Lemma fold_idx e m : forall l, fold_right oseq done (map (at_idx e l) (seq 0 m)) = enc_idx e l m.
Proof.
  induction m as [|m IH]; intros l; [reflexivity|]. cbn [seq map fold_right enc_idx]. destruct l as [|x r].
  - reflexivity.
  - unfold at_idx at 1. cbn [nth_error]. f_equal. rewrite <- seq_shift, map_map. exact (IH r).
Qed.

Lemma zseq_seq lo m : zseq lo m = map (fun i => lo + Z.of_nat i) (seq 0 m).
Proof.
  revert lo. induction m as [|m IH]; intros lo; [reflexivity|]. cbn [zseq seq map]. f_equal; [lia|].
  rewrite IH, <- seq_shift, map_map. apply map_ext. intros. lia.
Qed.

Lemma F2_seq {C} (R : val -> C -> Prop) (g : nat -> C) m :
  (forall i, (i < m)%nat -> R (VInt (Z.of_nat i)) (g i)) -> Forall2 R (map VInt (zseq 0 m)) (map g (seq 0 m)).
Proof.
  intros H. rewrite zseq_seq, map_map. assert (Hin : forall i, In i (seq 0 m) -> (i < m)%nat) by (intros i Hi; apply in_seq in Hi; lia).
  revert Hin. generalize (seq 0 m). intros q Hin. induction q as [|i q IH]; simpl; constructor.
  - apply H. apply Hin. left. reflexivity.
  - apply IH. intros j Hj. apply Hin. right. exact Hj.
Qed.

Lemma one_block bd c rho s o rho' : (bd c rho s = oc o (rho', None) s) ->
  run_block bd [c] rho s = oc o (rho', None) s.
Proof.
  intros H. cbn [run_block]. unfold bind. rewrite H. unfold oc. destruct (snd o); reflexivity.
Qed.

(** a subscript of a list attribute *)
Lemma ev_sub rho l s D at_ a la vs ws x i : ctx rho l -> assoc x rho = Some (VInt (Z.of_nat i)) ->
  nth_error (heap s) l = Some (HInst D at_) -> getA P D at_ a = Some (VRef la) -> nth_error (heap s) la = Some (HList vs) ->
  Forall2 (fun v x => scal v = Some x) vs ws ->
  match nth_error ws i with
  | Some y => exists v, ev (Sub (self_ a) (Loc x)) rho s = (Ok v, s) /\ scal v = Some y
  | None => ev (Sub (self_ a) (Loc x)) rho s = (Exc IndexError, s)
  end.
Proof.
  intros Hc Hx Hl Hg Hla F.
  assert (E : ev (Sub (self_ a) (Loc x)) rho s = nth_val vs (Z.of_nat i) s).
  { cbn [eval]. unfold bind at 1. pose proof (ev_self _ _ _ _ _ _ _ Hc Hl Hg) as E. cbn [eval] in E. rewrite E.
    rewrite Hx. unfold bind, ret. cbn [sub_val]. unfold bind, hget. rewrite Hla. reflexivity. }
  rewrite E. unfold nth_val, py_index. rewrite (proj2 (Z.leb_le 0 (Z.of_nat i))) by lia. cbn [andb].
  pose proof (Forall2_length _ _ _ F) as HL.
  destruct (Z.ltb_spec (Z.of_nat i) (Z.of_nat (length vs))).
  - rewrite Nat2Z.id.
    destruct (nth_error vs i) as [v|] eqn:Ev; [|apply nth_error_None in Ev; lia].
    destruct (nth_error ws i) as [y|] eqn:Ey; [|apply nth_error_None in Ey; lia].
    exists v. split; [reflexivity|]. clear -F Ev Ey. revert i Ev Ey. induction F; intros [|i] Ev Ey; simpl in *; try discriminate; [congruence|eauto].
  - destruct (nth_error ws i) as [y|] eqn:Ey; [|rewrite (proj2 (Z.ltb_ge (Z.of_nat i) 0)) by lia; reflexivity].
    assert (i < length ws)%nat by (apply nth_error_Some; congruence). lia.
Qed.

(** ** One statement *)
Definition ser_ok (D : string) (ss : list stmt) (g : fmt) : Prop :=
  forall s rho l at_ W fp, ctx rho l -> nth_error (heap s) l = Some (HInst D at_) ->
    rep P (heap s) g (getA P D at_) W fp -> deps (heap s) g (getA P D at_) W ->
    exists rho', ctx rho' l /\ run_block ex ss rho s = oc (encode g W) (rho', None) s.

Definition ser1_ok (D : string) (c : stmt) (g : fmt) : Prop :=
  forall s rho l at_ W fp, ctx rho l -> nth_error (heap s) l = Some (HInst D at_) ->
    rep P (heap s) g (getA P D at_) W fp -> deps (heap s) g (getA P D at_) W ->
    exists rho', ctx rho' l /\ ex c rho s = oc (encode g W) (rho', None) s.

(** calling serialize on an object of class c *)
Definition call_ok (c : string) (f : fmt) : Prop :=
  forall s l at_ W fp, nth_error (heap s) l = Some (HInst c at_) -> rep P (heap s) f (getA P c at_) W fp ->
    exists m, lookup P c "serialize" = Some (MMeth m) /\ m_kind m = KNormal /\
      run P n m [VRef l; VOut] [] s = oc (encode f W) VNone s.

Lemma oseq_enc_done (o : outcome) : oseq o done = o.
Proof. apply oseq_done_r. Qed.

Hypothesis Hn : (2 <= n)%nat.

Lemma ok_prim D a p w : wprim w = Some p -> ser1_ok D (Expr (Meth ostream w [self_ a] [])) (Prim a p Done).
Proof.
  intros Hw s rho l at_ W fp Hc Hl [(v & x & A & B & C) _] _. exists rho. split; [exact Hc|].
  cbn [encode]. rewrite C, oseq_done_r. eapply ex_write; eauto. eapply ev_self; eauto.
Qed.

Lemma ev_len D a m e s rho l at_ vs la : is_len D a m e = true -> ctx rho l -> nth_error (heap s) l = Some (HInst D at_) ->
  getA P D at_ a = Some (VRef la) -> nth_error (heap s) la = Some (HList vs) ->
  ev e rho s = (Ok (VInt (Z.of_nat (length vs) * m)), s).
Proof.
  intros H Hc Hl Hg Hla.
  assert (B : forall rho call, ctx rho l \/ assoc "self" rho = Some (VRef l) -> eval P call (Builtin BLen [self_ a]) rho s = (Ok (VInt (Z.of_nat (length vs))), s)).
  { intros rho0 call [[A _]|A]; cbn [eval eval_list]; rewrite A; unfold bind, ret;
    rewrite (get_attr_ga call _ _ _ _ _ _ Hl Hg); cbn [builtin_val]; unfold bind, hget; rewrite Hla; reflexivity. }
  unfold is_len in H. apply orb_prop in H as [H|H]; [apply orb_prop in H as [H|H]|].
  - apply andb_prop in H as [H H1]. apply is_eq in H as ->. apply Z.eqb_eq in H1 as ->. rewrite Z.mul_1_r. apply B. auto.
  - destruct e; try discriminate. apply andb_prop in H as [H H1]. apply is_eq in H. rewrite H. cbn [eval]. destruct Hc as [Hs _]. rewrite Hs.
    unfold bind at 1, ret at 1. unfold get_attr. unfold bind at 1, hget. rewrite Hl. destruct n as [|n']; [lia|].
    apply orb_prop in H1 as [H1|H1].
    + apply andb_prop in H1 as [H0 H1]. apply is_eq in H0. apply Z.eqb_eq in H1 as ->. rewrite Z.mul_1_r, H0. unfold len_prop. cbn [m_kind].
      cbn [run m_params m_body bind_args length Nat.sub firstn skipn bind_pos bind_rest combine app].
      cbn [run_block exec]. unfold bind at 1. unfold bind at 1. unfold bind at 1. rewrite B by (right; reflexivity). reflexivity.
    + apply is_eq in H1. rewrite H1. unfold len_prop_mul. cbn [m_kind].
      cbn [run m_params m_body bind_args length Nat.sub firstn skipn bind_pos bind_rest combine app].
      cbn [run_block exec]. remember (Builtin BLen [self_ a]) as e0 eqn:He0. cbn [eval]. unfold bind at 1. unfold bind at 1. unfold bind at 1. unfold bind at 1.
      rewrite B by (right; reflexivity). reflexivity.
  - apply is_eq in H as ->. cbn [eval]. unfold bind at 1. pose proof (B rho call (or_introl Hc)) as E. cbn [eval] in E. rewrite E. reflexivity.
Qed.

Lemma ok_cnt D a p m w e : wprim w = Some p -> is_len D a m e = true -> ser1_ok D (Expr (Meth ostream w [e] [])) (Cnt a p m Done).
Proof.
  intros Hw He s rho l at_ W fp Hc Hl _ [(la & vs & ws & A & B & C & D0) _]. exists rho. split; [exact Hc|].
  cbn [encode]. rewrite C, oseq_done_r, <- D0. eapply ex_write; eauto; [eapply ev_len; eauto|reflexivity].
Qed.

Lemma ok_obj D a c sub : call_ok c sub -> ser1_ok D (Expr (Meth (self_ a) "serialize" [ostream] [])) (Obj a c sub Done).
Proof.
  intros HC s rho l at_ W fp Hc Hl (l' & at' & w & fp1 & fp2 & A & B & C & E & _ & _) _. exists rho. split; [exact Hc|].
  cbn [encode]. rewrite C, oseq_done_r. apply ex_expr. exists VNone.
  destruct (HC s l' at' w fp1 B E) as (m & L & K & R).
  assert (Es := ev_self _ _ _ _ _ _ _ Hc Hl A). destruct Hc as [_ Ho].
  cbn [eval eval_list] in Es |- *. unfold bind at 1. rewrite Es. unfold bind at 1. unfold resolve, bind at 1, hget. rewrite B, L, K. unfold ret at 1.
  rewrite Ho. unfold bind, ret. cbn [apply app]. exact R.
Qed.

Lemma ok_olist D a c sub x : call_ok c sub -> local_ok x = true ->
  ser1_ok D (For x (self_ a) [Expr (Meth (Loc x) "serialize" [ostream] [])]) (OList a c sub Done).
Proof.
  intros HC Hx s rho l at_ W fp Hc Hl (la & vs & ws & fps & fp2 & A & B & C & E & _ & _) _.
  cbn [encode]. rewrite C, oseq_done_r. cbn [exec].
  assert (Es := ev_self _ _ _ _ _ _ _ Hc Hl A).
  rewrite <- fold_enc.
  destruct (for_oc (heap s) (fun r => ctx r l) (run_block ex [Expr (Meth (Loc x) "serialize" [ostream] [])]) x vs
              (map (fun x => encode sub (as_obj x)) ws)) with (rho := rho) (s := s) as (r' & I' & F); auto.
  - apply F2_map_r. clear B C. induction E as [|v y q vs ws fps (l' & at' & w & fp' & -> & B' & -> & E' & ->) E IH]; [constructor|constructor; [|exact IH]].
    intros rho' s' Hc' Hh. exists (upd x (VRef l') rho'). split; [now apply ctx_upd|]. apply one_block. apply ex_expr. exists VNone.
    rewrite <- Hh in B', E'. destruct (HC s' l' at' w fp' B' E') as (m & L & K & R).
    pose proof (ctx_upd _ _ x (VRef l') Hc' Hx) as [_ Ho].
    cbn [eval eval_list]. rewrite assoc_upd_eq. unfold bind at 1, ret at 1. unfold bind at 1. unfold resolve, bind at 1, hget. rewrite B', L, K. unfold ret at 1.
    rewrite Ho. unfold bind, ret. cbn [apply app as_obj]. exact R.
  - exists r'. split; [exact I'|]. unfold bind at 1. rewrite Es. unfold bind at 1. cbn [iter_vals]. unfold bind at 1, hget. rewrite B. unfold ret at 1. exact F.
Qed.

Lemma ok_plist D a p w x : wprim w = Some p -> local_ok x = true ->
  ser1_ok D (For x (self_ a) [Expr (Meth ostream w [Loc x] [])]) (PList a p Done).
Proof.
  intros Hw Hx s rho l at_ W fp Hc Hl (la & vs & ws & fp2 & A & B & C & E & _ & _) _.
  cbn [encode]. rewrite C, oseq_done_r. cbn [exec].
  assert (Es := ev_self _ _ _ _ _ _ _ Hc Hl A).
  rewrite <- fold_enc.
  destruct (for_oc (heap s) (fun r => ctx r l) (run_block ex [Expr (Meth ostream w [Loc x] [])]) x vs
              (map (enc_val p) ws)) with (rho := rho) (s := s) as (r' & I' & F); auto.
  - apply F2_map_r. clear B C. induction E as [|v y vs ws E' E IH]; [constructor|constructor; [|exact IH]].
    intros rho' s' Hc' Hh. exists (upd x v rho'). pose proof (ctx_upd _ _ x v Hc' Hx) as Hc2. split; [exact Hc2|].
    apply one_block. eapply ex_write; eauto. cbn [eval]. rewrite assoc_upd_eq. reflexivity.
  - exists r'. split; [exact I'|]. unfold bind at 1. rewrite Es. unfold bind at 1. cbn [iter_vals]. unfold bind at 1, hget. rewrite B. unfold ret at 1. exact F.
Qed.

Lemma ok_null D a x e body : e = self_ a -> ser1_ok D (For x e body) (NullL a Done).
Proof.
  intros -> s rho l at_ W fp Hc Hl (la & fp2 & A & B & C & _ & _) _. exists rho. split; [exact Hc|].
  cbn [encode]. rewrite C. cbn [exec]. assert (Es := ev_self _ _ _ _ _ _ _ Hc Hl A).
  unfold bind at 1. rewrite Es. unfold bind at 1. cbn [iter_vals]. unfold bind at 1, hget. rewrite B. unfold ret at 1. rewrite oc_done. reflexivity.
Qed.

(** writing list elements by index *)
Lemma write_idx D a p w x s rho l at_ la vs ws m : wprim w = Some p -> local_ok x = true ->
  ctx rho l -> nth_error (heap s) l = Some (HInst D at_) -> getA P D at_ a = Some (VRef la) -> nth_error (heap s) la = Some (HList vs) ->
  Forall2 (fun v x => scal v = Some x) vs ws ->
  exists rho', ctx rho' l /\
    for_loop (run_block ex [Expr (Meth ostream w [Sub (self_ a) (Loc x)] [])]) x (map VInt (zseq 0 m)) rho s
    = oc (enc_idx (enc_val p) ws m) (rho', None) s.
Proof.
  intros Hw Hx Hc Hl A B E. rewrite <- fold_idx.
  apply for_oc with (h := heap s) (I := fun r => ctx r l); auto.
  apply F2_seq. intros i Hi rho' s' Hc' Hh. pose proof (ctx_upd _ _ x (VInt (Z.of_nat i)) Hc' Hx) as Hc2.
  exists (upd x (VInt (Z.of_nat i)) rho'). split; [exact Hc2|]. apply one_block.
  rewrite <- Hh in Hl, B. pose proof (ev_sub _ _ s' D at_ a la vs ws x i Hc2 (assoc_upd_eq _ _ _) Hl A B E) as V.
  unfold at_idx. destruct (nth_error ws i) as [y|].
  - destruct V as (v & V1 & V2). eapply ex_write; eauto.
  - destruct (write_ok P HO w p n VNone WNone s' Hw eq_refl Hn) as (k & R & _). rewrite oc_fail.
    destruct Hc2 as [_ Ho]. remember (Sub (self_ a) (Loc x)) as e. cbn [exec eval]. rewrite Ho. unfold bind at 1, bind at 1, ret at 1. unfold bind at 1. rewrite R.
    cbn [eval_list]. unfold bind at 1. unfold bind at 1. rewrite V. reflexivity.
Qed.

Lemma ok_arr D a p m w x : wprim w = Some p -> local_ok x = true ->
  ser1_ok D (For x (Builtin BRange [Lit (LInt 0); Lit (LInt (Z.of_nat m))]) [Expr (Meth ostream w [Sub (self_ a) (Loc x)] [])]) (Arr a p m Done).
Proof.
  intros Hw Hx s rho l at_ W fp Hc Hl (la & vs & ws & fp2 & A & B & C & E & _ & _) _.
  destruct (write_idx D a p w x s rho l at_ la vs ws m Hw Hx Hc Hl A B E) as (r' & I' & F).
  exists r'. split; [exact I'|]. cbn [encode]. rewrite C, oseq_done_r, <- F.
  cbn [exec eval eval_list lit_val]. unfold bind, ret. cbn [builtin_val as_int]. unfold ret. cbn [iter_vals]. unfold ret.
  rewrite Z.sub_0_r, Nat2Z.id. reflexivity.
Qed.

Lemma scal_int v x : scal v = Some x -> as_int v = wint x.
Proof. destruct v; simpl; intros H; try discriminate; injection H as <-; reflexivity. Qed.

Lemma scal_not_int v x o b : scal v = Some x -> wint x = None ->
  forall s, binop_val o v (VInt b) s = oc (not_int x) VNone s.
Proof.
  intros H Hx s. unfold binop_val. rewrite (scal_int _ _ H), Hx. unfold not_int. rewrite oc_fail.
  destruct v; simpl in H; try discriminate; injection H as <-; destruct o; reflexivity.
Qed.

Lemma ok_vlist D a p b dv w x : wprim w = Some p -> local_ok x = true -> 0 < dv ->
  ser1_ok D (For x (Builtin BRange [Bin OFloorDiv (self_ b) (Lit (LInt dv))]) [Expr (Meth ostream w [Sub (self_ a) (Loc x)] [])]) (VList a p b dv Done).
Proof.
  intros Hw Hx Hdv s rho l at_ W fp Hc Hl (la & vs & ws & fp2 & A & B & C & E & _ & _) [(v & y & G1 & G2 & G3) _].
  assert (Es := ev_self _ _ _ _ _ _ _ Hc Hl G1). cbn [encode]. rewrite C, G3.
  destruct (wint y) as [z|] eqn:Ez.
  - destruct (write_idx D a p w x s rho l at_ la vs ws (Z.to_nat (z / dv)) Hw Hx Hc Hl A B E) as (r' & I' & F).
    exists r'. split; [exact I'|]. rewrite oseq_done_r, <- F. cbn [exec eval eval_list lit_val].
    cbn [eval] in Es. unfold bind at 1. unfold bind at 1. unfold bind at 1. unfold bind at 1. rewrite Es.
    unfold bind at 1, ret at 1. unfold binop_val. rewrite (scal_int _ _ G2), Ez. cbn [as_int].
    destruct (Z.eqb_spec dv 0); [lia|]. unfold bind, ret. cbn [builtin_val as_int]. unfold ret. cbn [iter_vals]. unfold ret. rewrite Z.sub_0_r. reflexivity.
  - exists rho. split; [exact Hc|]. cbn [exec eval eval_list lit_val].
    cbn [eval] in Es. unfold bind at 1. unfold bind at 1. unfold bind at 1. unfold bind at 1. rewrite Es.
    unfold bind at 1, ret at 1. rewrite (scal_not_int v y OFloorDiv dv G2 Ez). unfold not_int. rewrite !oc_fail. reflexivity.
Qed.

Lemma ok_zero D p w : wprim w = Some p -> ser1_ok D (Expr (Meth ostream w [Lit (LInt 0)] [])) (Zero p Done).
Proof.
  intros Hw s rho l at_ W fp Hc Hl _ _. exists rho. split; [exact Hc|]. cbn [encode]. rewrite oseq_done_r.
  eapply ex_write; eauto; reflexivity.
Qed.

Lemma ok_mask D a m w : wprim w = Some (PInt m false) ->
  ser1_ok D (Expr (Meth ostream w [Bin OBitAnd (self_ a) (Lit (LInt 1))] [])) (Mask a m Done).
Proof.
  intros Hw s rho l at_ W fp Hc Hl [(v & x & A & B & C) _] _. exists rho. split; [exact Hc|].
  assert (Es := ev_self _ _ _ _ _ _ _ Hc Hl A). cbn [encode]. rewrite C.
  assert (Eb : ev (Bin OBitAnd (self_ a) (Lit (LInt 1))) rho s = binop_val OBitAnd v (VInt 1) s).
  { cbn [eval lit_val] in Es |- *. unfold bind at 1. rewrite Es. reflexivity. }
  destruct (wint x) as [z|] eqn:Ez.
  - rewrite oseq_done_r. apply ex_write with (v := VInt (Z.land z 1)) (l := l); auto. rewrite Eb. unfold binop_val. rewrite (scal_int _ _ B), Ez. reflexivity.
  - rewrite (scal_not_int v x OBitAnd 1 B Ez) in Eb. unfold not_int in *. rewrite oc_fail in *.
    destruct (write_ok P HO w _ n VNone WNone s Hw eq_refl Hn) as (k & R & _).
    destruct Hc as [_ Ho]. remember (Bin OBitAnd (self_ a) (Lit (LInt 1))) as e. cbn [exec eval]. rewrite Ho. unfold bind at 1, bind at 1, ret at 1. unfold bind at 1. rewrite R.
    cbn [eval_list]. unfold bind at 1. unfold bind at 1. rewrite Eb. rewrite oc_fail. reflexivity.
Qed.

(** the padding loop *)
Lemma run_pad (m : meth) b s l D at_ v y : pad_meth b = MMeth m -> nth_error (heap s) l = Some (HInst D at_) -> getA P D at_ b = Some v -> scal v = Some y ->
  run P n m [VRef l] [] s = match wint y with Some z => (Ok (VInt (pad_bits z)), s) | None => oc (not_int y) VNone s end.
Proof.
  intros [= <-] Hl Hg Hv. destruct n as [|n']; [lia|]. cbn [run m_params m_body bind_args length Nat.sub firstn skipn bind_pos bind_rest combine app].
  cbn [run_block exec eval assoc upd String.eqb Ascii.eqb Bool.eqb lit_val].
  unfold bind, ret. cbn [fst snd assoc upd String.eqb Ascii.eqb Bool.eqb]. rewrite (get_attr_ga _ _ _ _ _ _ _ Hl Hg).
  destruct (wint y) as [z|] eqn:Ez.
  - unfold binop_val. rewrite (scal_int _ _ Hv), Ez. cbn [as_int]. cbn. unfold pad_bits. destruct (Z.eqb_spec (z mod 64) 0) as [E0|E0].
    + reflexivity.
    + cbn. reflexivity.
  - rewrite (scal_not_int v y OMod 64 Hv Ez). unfold not_int. rewrite !oc_fail. reflexivity.
Qed.

Lemma fold_zeros m : fold_right oseq done (map (fun _ => enc_val u8 (WInt 0)) (seq 0 m)) = (repeat x00 m, None).
Proof.
  generalize 0%nat. induction m as [|m IH]; intros i; [reflexivity|]. cbn [seq map fold_right]. rewrite IH. reflexivity.
Qed.

Lemma ok_pad D b x : local_ok x = true -> lookup P D pad_name = Some (pad_meth b) ->
  ser1_ok D (For x (Builtin BRange [Bin OFloorDiv (Meth (Loc "self") pad_name [] []) (Lit (LInt 8))])
               [Expr (Meth ostream "write_unsigned_byte" [Lit (LInt 0)] [])]) (Pad b Done).
Proof.
  intros Hx HL s rho l at_ W fp Hc Hl _ [(v & y & G1 & G2 & G3) _].
  destruct (pad_meth b) as [m|] eqn:Em; [|discriminate].
  assert (K : m_kind m = KNormal) by (injection Em as <-; reflexivity).
  assert (Ep : ev (Meth (Loc "self") pad_name [] []) rho s = match wint y with Some z => (Ok (VInt (pad_bits z)), s) | None => oc (not_int y) VNone s end).
  { rewrite <- (run_pad m b s l D at_ v y Em Hl G1 G2). cbn [eval eval_list]. destruct Hc as [Hs _]. rewrite Hs. unfold bind at 1, ret at 1.
    unfold bind at 1. unfold resolve. unfold bind at 1, hget. rewrite Hl, HL, K. unfold ret at 1. unfold bind, ret. cbn [apply app]. reflexivity. }
  cbn [encode]. rewrite G3. remember (Meth (Loc "self") pad_name [] []) as e eqn:He.
  destruct (wint y) as [z|] eqn:Ez.
  - assert (Hpb : 0 <= pad_bits z).
    { unfold pad_bits. destruct (_ =? _); [lia|]. pose proof (Z.mod_pos_bound z 64). lia. }
    destruct (for_oc (heap s) (fun r => ctx r l) (run_block ex [Expr (Meth ostream "write_unsigned_byte" [Lit (LInt 0)] [])]) x
                (map VInt (zseq 0 (pad_bytes z))) (map (fun _ => enc_val u8 (WInt 0)) (seq 0 (pad_bytes z)))) with (rho := rho) (s := s) as (r' & I' & F); auto.
    + apply F2_seq. intros i Hi rho' s' Hc' Hh. pose proof (ctx_upd _ _ x (VInt (Z.of_nat i)) Hc' Hx) as Hc2.
      eexists. split; [exact Hc2|]. apply one_block. eapply ex_write; eauto; reflexivity.
    + exists r'. split; [exact I'|]. rewrite oseq_done_r, <- fold_zeros, <- F.
      cbn [exec eval eval_list lit_val]. unfold bind at 1. unfold bind at 1. unfold bind at 1. unfold bind at 1. rewrite Ep.
      unfold bind, ret. cbn [binop_val as_int Z.eqb]. unfold ret. cbn [builtin_val as_int]. unfold ret. cbn [iter_vals]. unfold ret. rewrite Z.sub_0_r. reflexivity.
  - exists rho. split; [exact Hc|]. cbn [exec eval eval_list lit_val]. unfold bind at 1. unfold bind at 1. unfold bind at 1. unfold bind at 1. rewrite Ep.
    unfold not_int. rewrite !oc_fail. reflexivity.
Qed.

(** bit-packed words *)
Lemma bits_pack_range fs vs : Forall (fun f => 0 < snd f) fs -> 0 <= bits_pack fs vs < 2 ^ bits_total fs /\ 0 <= bits_total fs.
Proof.
  intros H. revert vs. induction H as [|[nm w] r Hw Hr IH]; intros vs.
  - cbn [bits_pack bits_total fold_right]. change (2 ^ 0) with 1. lia.
  - cbn [bits_pack]. change (bits_total ((nm, w) :: r)) with (w + bits_total r). destruct (IH (tl vs)) as [A B].
    cbn [snd] in Hw. rewrite Z.pow_add_r by lia. pose proof (Z.mod_pos_bound (hd 0 vs) (2 ^ w)).
    assert (0 < 2 ^ w) by (apply Z.pow_pos_nonneg; lia). assert (0 < 2 ^ bits_total r) by (apply Z.pow_pos_nonneg; lia). nia.
Qed.

Lemma bits_unpack_low r h u : Forall (fun f => 0 < snd f) r -> bits_unpack r (h * 2 ^ bits_total r + u) = bits_unpack r u.
Proof.
  intros H. revert h. induction H as [|[nm w] q Hw Hq IH]; intros h; [reflexivity|].
  cbn [bits_unpack]. change (bits_total ((nm, w) :: q)) with (w + bits_total q).
  destruct (bits_pack_range q [] Hq) as [_ B]. cbn [snd] in Hw.
  assert (0 < 2 ^ w) by (apply Z.pow_pos_nonneg; lia). assert (0 < 2 ^ bits_total q) by (apply Z.pow_pos_nonneg; lia).
  rewrite Z.pow_add_r by lia. f_equal.
  - replace (h * (2 ^ w * 2 ^ bits_total q) + u) with (u + (h * 2 ^ w) * 2 ^ bits_total q) by ring.
    rewrite Z.div_add by lia. rewrite Z.mod_add by lia. reflexivity.
  - replace (h * (2 ^ w * 2 ^ bits_total q) + u) with ((h * 2 ^ w) * 2 ^ bits_total q + u) by ring. apply IH.
Qed.

Lemma bits_repack fs vs : Forall (fun f => 0 < snd f) fs -> bits_pack fs (bits_unpack fs (bits_pack fs vs)) = bits_pack fs vs.
Proof.
  intros H. revert vs. induction H as [|[nm w] q Hw Hq IH]; intros vs; [reflexivity|].
  cbn [bits_pack bits_unpack hd tl]. destruct (bits_pack_range q (tl vs) Hq) as [A B]. cbn [snd] in Hw.
  assert (0 < 2 ^ w) by (apply Z.pow_pos_nonneg; lia). assert (0 < 2 ^ bits_total q) by (apply Z.pow_pos_nonneg; lia).
  rewrite bits_unpack_low by exact Hq. rewrite IH. f_equal. f_equal.
  rewrite Z.div_add_l by lia. rewrite (Z.div_small (bits_pack q (tl vs))) by lia. rewrite Z.add_0_r. rewrite !Z.mod_mod by lia. reflexivity.
Qed.

Lemma scali_int v x : scali v = Some x -> exists z, as_int v = Some z /\ wint x = Some z.
Proof. destruct v; simpl; intros H; try discriminate; injection H as <-; simpl; eauto. Qed.

Lemma bits_match_nil fs bf : bits_match fs [] bf = true ->
  Forall (fun f => 0 < snd f) fs /\ bits_tot bf = bits_total fs /\ forall W, enc_bits bf W = Some (bits_pack fs []).
Proof.
  revert bf. induction fs as [|[nm w] fs IH]; intros [|b bf] H; cbn [bits_match] in H; try discriminate.
  - repeat split. constructor.
  - apply andb_prop in H as [H H2]. apply andb_prop in H as [H0 H1]. apply andb_prop in H2 as [H2 H3].
    apply is_eq in H2. apply Z.eqb_eq in H0. apply Z.ltb_lt in H1. apply IH in H3 as (A & B & C).
    repeat split; [constructor; auto|cbn; unfold bits_tot in B; unfold bits_total in B; rewrite B; lia|].
    intros W. cbn [enc_bits bits_pack hd tl]. rewrite H2, C, B, H0. reflexivity.
Qed.

Lemma bits_args s rho l D at_ W : ctx rho l -> nth_error (heap s) l = Some (HInst D at_) ->
  forall fs args bf, bits_match fs args bf = true ->
  Forall (fun b => match bf_attr b with None => True | Some a => exists v x, getA P D at_ a = Some v /\ scali v = Some x /\ field a W = Some x end) bf ->
  Forall (fun f => 0 < snd f) fs /\ bits_tot bf = bits_total fs /\ (length args <= length fs)%nat /\
  exists vs zs, eval_list ev args rho s = (Ok vs, s) /\ as_ints vs = Some zs /\ length vs = length args /\ enc_bits bf W = Some (bits_pack fs zs).
Proof.
  intros Hc Hl. induction fs as [|[nm w] fs IH]; intros args [|b bf] H HF; cbn [bits_match] in H; try discriminate.
  - destruct args; [|discriminate]. repeat split; auto. exists [], []. auto.
  - apply andb_prop in H as [H H2]. apply andb_prop in H as [H0 H1]. apply Z.eqb_eq in H0. apply Z.ltb_lt in H1.
    inversion HF as [|? ? Hb HF']; subst.
    destruct args as [|e r].
    + apply andb_prop in H2 as [H2 H3]. apply is_eq in H2. apply bits_match_nil in H3 as (A & B & C).
      repeat split; [constructor; auto|cbn; unfold bits_tot in B; unfold bits_total in B; rewrite B; lia|simpl; lia|].
      exists [], []. repeat split. cbn [enc_bits bits_pack hd tl]. rewrite H2, C, B. reflexivity.
    + destruct (bf_attr b) as [a|] eqn:Ea; [|discriminate]. apply andb_prop in H2 as [H2 H3].
      destruct (IH r bf H3 HF') as (A & B & C & vs & zs & E1 & E2 & E3 & E4).
      destruct Hb as (v & x & G1 & G2 & G3). destruct (scali_int _ _ G2) as (z & Z1 & Z2).
      assert (Es := ev_self _ _ _ _ _ _ _ Hc Hl G1).
      repeat split; [constructor; auto|cbn; unfold bits_tot in B; unfold bits_total in B; rewrite B; lia|simpl; lia|].
      assert (X : exists v', ev e rho s = (Ok v', s) /\ as_int v' = Some z).
      { apply orb_prop in H2 as [H2|H2]; apply is_eq in H2 as ->.
        - eauto.
        - exists (VInt z). split; [|reflexivity]. cbn [eval eval_list] in Es |- *. unfold bind at 1. unfold bind at 1. rewrite Es.
          unfold bind, ret. destruct v; simpl in G2; try discriminate; simpl in Z1; injection Z1 as <-; reflexivity. }
      destruct X as (v' & X1 & X2). exists (v' :: vs), (z :: zs).
      repeat split.
      * cbn [eval_list]. unfold bind at 1. rewrite X1. unfold bind. rewrite E1. reflexivity.
      * destruct v'; simpl in X2; try discriminate; injection X2 as <-; cbn [as_ints]; now rewrite E2.
      * simpl. congruence.
      * cbn [enc_bits bits_pack hd tl]. rewrite Ea, G3, Z2, E4, B. reflexivity.
Qed.

Lemma as_ints_length vs : forall zs, as_ints vs = Some zs -> length zs = length vs.
Proof.
  induction vs as [|v r IH]; intros zs H; cbn [as_ints] in H; [injection H as <-; reflexivity|].
  destruct v; try discriminate; (destruct (as_ints r) as [t|]; [|discriminate]; injection H as <-; simpl; now rewrite (IH t)).
Qed.

Lemma ok_bits D fs args bf : lookup P D "_struct" = Some (MAttr (LBits fs)) -> bits_match fs args bf = true ->
  ser1_ok D (Expr (Meth (Meth (Loc "self") "_struct" args []) "serialize" [ostream] [])) (Bits bf Done).
Proof.
  intros HL HM s rho l at_ W fp Hc Hl [HF _] _. exists rho. split; [exact Hc|].
  destruct (bits_args s rho l D at_ W Hc Hl fs args bf HM HF) as (A & B & C & vs & zs & E1 & E2 & E3 & E4).
  cbn [encode]. rewrite E4, oseq_done_r. apply ex_expr. exists VNone.
  destruct Hc as [Hs Ho]. destruct (write_bytes_ok P HO n (be (bits_size fs) (bits_pack fs (bits_unpack fs (bits_pack fs zs)))) s ltac:(lia)) as (k & R1 & R2).
  cbn [eval]. rewrite Hs. unfold bind at 1. unfold bind at 1, ret at 1. unfold bind at 1. unfold resolve at 1. unfold bind at 1, hget. rewrite Hl, HL. unfold ret at 1.
  unfold bind at 1. rewrite E1. unfold apply at 1. rewrite E2.
  pose proof (as_ints_length _ _ E2) as E5. rewrite (proj2 (Nat.ltb_ge (length fs) (length zs))) by lia. unfold ret at 1.
  unfold bind at 1. cbn [resolve String.eqb Ascii.eqb Bool.eqb orb]. unfold ret at 1.
  cbn [eval_list eval]. rewrite Ho. unfold bind at 1. unfold bind at 1, ret at 1. unfold bind, ret. cbn [apply native String.eqb Ascii.eqb Bool.eqb]. unfold bind.
  rewrite R1. cbn [app]. rewrite R2. rewrite bits_repack by exact A. unfold bits_size, bits_bytes. rewrite B. reflexivity.
Qed.

End Run.

(** ** Soundness *)
Fixpoint nest (f : fmt) : nat :=
  match f with
  | Done => 0
  | Obj _ _ sub k | OList _ _ sub k => Nat.max (S (nest sub)) (nest k)
  | Prim _ _ k | Cnt _ _ _ k | PList _ _ k | Arr _ _ _ k | Zero _ k | Mask _ _ k | VList _ _ _ _ k | Pad _ k
  | Derive _ _ _ k | Bits _ k | NullL _ k => nest k
  end%nat.

Lemma nest_fapp f g : nest (fapp f g) = Nat.max (nest f) (nest g).
Proof. induction f; cbn [fapp nest]; try assumption; try rewrite IHf2; lia. Qed.

Lemma encode_fapp f g W : encode (fapp f g) W = oseq (encode f W) (encode g W).
Proof.
  induction f; cbn [fapp encode]; rewrite ?oseq_done_l; try reflexivity; try assumption;
    repeat match goal with
    | |- match ?x with _ => _ end = _ => destruct x
    | |- fail _ = _ => reflexivity | |- not_int _ = _ => reflexivity
    | H : encode (fapp _ _) W = _ |- _ => rewrite H; clear H
    end; rewrite ?oseq_assoc; reflexivity.
Qed.

Lemma ser_ok_nil n D : ser_ok n D [] Done.
Proof. intros s rho l at_ W fp Hc _ _ _. exists rho. split; [exact Hc|]. cbn [run_block encode]. now rewrite oc_done. Qed.

Lemma ser_ok_cons n D c ss g1 g2 : ser1_ok n D c g1 -> ser_ok n D ss g2 -> ser_ok n D (c :: ss) (fapp g1 g2).
Proof.
  intros H1 H2 s rho l at_ W fp Hc Hl HR HD. apply rep_fapp in HR as (fp1 & fp2 & R1 & R2 & ->). apply deps_fapp in HD as [D1 D2].
  destruct (H1 s rho l at_ W fp1 Hc Hl R1 D1) as (r1 & C1 & E1).
  destruct (H2 (add_out (fst (encode g1 W)) s) r1 l at_ W fp2 C1) as (r2 & C2 & E2); auto.
  exists r2. split; [exact C2|]. rewrite encode_fapp. cbn [run_block]. eapply oc_bind; [exact E1|]. intros _. exact E2.
Qed.

Definition need (gas d : nat) : nat := (gas + 3 + (G + 1) * d)%nat.

Lemma is_opt_eq {A} (dec : forall x y : A, {x = y} + {x <> y}) x y : is_opt dec x y = true -> x = Some y.
Proof. apply is_eq. Qed.

Ltac chk :=
  repeat match goal with
  | H : (if ?b then _ else None) = Some _ |- _ => destruct b eqn:?; [|discriminate H]
  | H : match ?x with _ => _ end = Some _ |- _ => destruct x eqn:?; try discriminate H
  | H : _ && _ = true |- _ => apply andb_prop in H as [? ?]
  | H : is_opt _ _ _ = true |- _ => apply is_opt_eq in H
  | H : is _ _ _ = true |- _ => apply is_eq in H
  | H : Some _ = Some _ |- _ => injection H as H
  | H : (_ <? _) = true |- _ => apply Z.ltb_lt in H
  end.

(** the classes of the table are checked and their layouts self-contained *)
Definition tab_okS : bool := forallb (fun p => chk_class (fst p) (snd p) && deps_ok (snd p)) T.
Hypothesis HT : tab_okS = true.

Lemma assoc_In {A} x (l : list (string * A)) v : assoc x l = Some v -> In (x, v) l.
Proof. induction l as [|[y w] r IH]; simpl; [discriminate|]. destruct (String.eqb_spec x y); [intros [= ->]; subst; auto|auto]. Qed.

Lemma tab_chk c f : assoc c T = Some f -> chk_class c f = true /\ deps_ok f = true.
Proof. intros H. apply assoc_In in H. unfold tab_okS in HT. rewrite forallb_forall in HT. specialize (HT _ H). now apply andb_prop in HT. Qed.

Section Step.
Variables (n d : nat).
Hypothesis Hn : (2 <= n)%nat.
Variable D : string.
Variable sup : string -> fmt -> option fmt.
Hypothesis Hsup : forall X f r, (nest f <= d)%nat -> sup X f = Some r ->
  exists g, f = fapp g r /\ ser1_ok n D (Expr (Super X "serialize" [ostream] [])) g.
Hypothesis Hobj : forall c sub, assoc c T = Some sub -> (S (nest sub) <= d)%nat -> call_ok n c sub.

Lemma stepS_sound c f r : (nest f <= d)%nat -> stepS sup D c f = Some r -> exists g, f = fapp g r /\ ser1_ok n D c g.
Proof.
  intros Hd H. unfold stepS in H.
  destruct c; try (exfalso; destruct f; try discriminate H; chk; discriminate).
  - (* Expr *)
    destruct e; try (exfalso; destruct f; try discriminate H; chk; discriminate).
    2: { chk. match goal with H : Expr (Super _ _ _ _) = _ |- _ => rewrite H end. eauto. }
    destruct f; try discriminate H; cbn [nest] in Hd; chk; try discriminate;
      match goal with H : Expr _ = _ |- _ => rewrite H end; subst.
    + exists (Prim a p Done). split; [reflexivity|]. now apply ok_prim.
    + exists (Obj a c f1 Done). split; [reflexivity|]. apply ok_obj. apply Hobj; [assumption|lia].
    + exists (Cnt a p m0 Done). split; [reflexivity|]. now apply ok_cnt.
    + exists (Zero p Done). split; [reflexivity|]. now apply ok_zero.
    + exists (Mask a n0 Done). split; [reflexivity|]. now apply ok_mask.
    + exists (Bits bf Done). split; [reflexivity|]. eapply ok_bits; eauto.
  - (* For *)
    destruct f; try discriminate H; cbn [nest] in Hd; chk; try discriminate;
      try match goal with H : For _ _ _ = _ |- _ => rewrite H end; subst.
    + exists (PList a p Done). split; [reflexivity|]. now apply ok_plist.
    + exists (OList a c f1 Done). split; [reflexivity|]. apply ok_olist; [apply Hobj; [assumption|lia]|assumption].
    + exists (Arr a p n0 Done). split; [reflexivity|]. now apply ok_arr.
    + exists (VList a p b dv Done). split; [reflexivity|]. now apply ok_vlist.
    + exists (Pad b Done). split; [reflexivity|]. now apply ok_pad.
    + exists (NullL a Done). split; [reflexivity|]. now apply ok_null.
  - (* Pass *)
    injection H as <-. exists Done. split; [reflexivity|]. intros s rho l at_ W fp Hc _ _ _. exists rho. split; [exact Hc|].
    cbn [exec encode]. now rewrite oc_done.
Qed.

Lemma blockS_sound ss : forall f r, (nest f <= d)%nat -> blockS (stepS sup D) ss f = Some r -> exists g, f = fapp g r /\ ser_ok n D ss g.
Proof.
  induction ss as [|c ss IH]; intros f r Hd H; cbn [blockS] in H.
  - injection H as <-. exists Done. split; [reflexivity|apply ser_ok_nil].
  - destruct (stepS sup D c f) as [f'|] eqn:E; [|discriminate].
    destruct (stepS_sound c f f' Hd E) as (g1 & -> & O1). rewrite nest_fapp in Hd.
    destruct (IH f' r ltac:(lia) H) as (g2 & -> & O2). exists (fapp g1 g2). split; [|now apply ser_ok_cons].
    clear. induction g1; cbn [fapp]; congruence.
Qed.
End Step.

Lemma is_ser_inv m : is_ser m = true -> m_kind m = KNormal /\ m_params m = ser_params.
Proof. unfold is_ser. intros H. apply andb_prop in H as [A B]. split; eapply is_eq; eauto. Qed.

Lemma run_ser n m l s : m_params m = ser_params ->
  run P (S n) m [VRef l; VOut] [] s =
  bind (run_block (exec P (run P n)) (m_body m) [("self", VRef l); ("outputStream", VOut)])
       (fun p => ret match snd p with Some v => v | None => VNone end) s.
Proof. intros H. cbn [run]. rewrite H. reflexivity. Qed.

Lemma chkS_sound d : (forall c sub, assoc c T = Some sub -> (S (nest sub) <= d)%nat -> forall n, (need 0 d <= n)%nat -> call_ok n c sub) ->
  forall gas n D ss f r, (need gas d <= n)%nat -> (nest f <= d)%nat -> chkS gas D ss f = Some r ->
  exists g, f = fapp g r /\ ser_ok n D ss g.
Proof.
  intros Hobj. induction gas as [|gas IH]; intros n D ss f r Hn Hd H; [discriminate|]. cbn [chkS] in H.
  eapply blockS_sound; [| | |exact Hd|exact H].
  - unfold need in Hn. lia.
  - clear f r Hd H. intros X f r Hd H. cbv beta in H. chk.
    match goal with H : is_ser _ = true |- _ => apply is_ser_inv in H as [K Q] end.
    destruct n as [|n]; [unfold need in Hn; lia|].
    destruct (IH n D _ _ _ ltac:(unfold need in *; lia) Hd H) as (g & -> & O). exists g. split; [reflexivity|].
    intros s rho l0 at_ W fp [Hs Ho] Hl HR HD. exists rho. split; [split; assumption|]. apply ex_expr. exists VNone.
    cbn [eval]. rewrite Hs. unfold bind at 1. unfold resolve_super. unfold bind at 1, hget. rewrite Hl.
    match goal with H : after _ _ = _ |- _ => rewrite H end. match goal with H : lookup_in _ _ _ = _ |- _ => rewrite H end.
    rewrite K. unfold ret at 1. cbn [eval_list eval]. rewrite Ho. unfold bind, ret. cbn [apply app]. rewrite run_ser by exact Q.
    destruct (O s [("self", VRef l0); ("outputStream", VOut)] l0 at_ W fp) as (r' & _ & E); auto; [split; reflexivity|].
    unfold bind. rewrite E. unfold oc. destruct (snd _); reflexivity.
  - intros c sub Hc Hs. eapply Hobj; eauto. unfold need in *. lia.
Qed.

Lemma class_sound d : forall c f, assoc c T = Some f -> (nest f <= d)%nat -> forall n, (S (need G d) <= n)%nat -> call_ok n c f.
Proof.
  induction d as [|d IH]; intros c f Hc Hd n Hn.
  all: destruct (tab_chk c f Hc) as [CK DK]; unfold chk_class in CK; destruct (lookup P c "serialize") as [[m|]|] eqn:L; try discriminate.
  all: apply andb_prop in CK as [CK1 CK2]; apply is_ser_inv in CK1 as [K Q]; apply is_eq in CK2.
  all: destruct n as [|n]; [lia|].
  - destruct (chkS_sound 0 ltac:(intros; lia) G n c (m_body m) f Done ltac:(unfold need in *; lia) Hd CK2) as (g & -> & O).
    intros s l at_ W fp Hl HR. exists m. repeat split; auto. rewrite run_ser by exact Q.
    assert (HD := deps_of_rep _ _ _ _ _ HR DK). apply deps_fapp in HD as [HD _]. apply rep_fapp in HR as (fp1 & fp2 & HR & _ & _).
    destruct (O s [("self", VRef l); ("outputStream", VOut)] l at_ W fp1) as (r' & _ & E); auto; [split; reflexivity|].
    unfold bind. rewrite E, encode_fapp. cbn [encode]. rewrite oseq_done_r. unfold oc. destruct (snd _); reflexivity.
  - destruct (chkS_sound (S d)) with (gas := G) (n := n) (D := c) (ss := m_body m) (f := f) (r := Done) as (g & -> & O); auto.
    { intros c' sub' Hc' Hd' n' Hn'. eapply IH; eauto; [lia|]. unfold need, G in *. lia. }
    { lia. }
    intros s l at_ W fp Hl HR. exists m. repeat split; auto. rewrite run_ser by exact Q.
    assert (HD := deps_of_rep _ _ _ _ _ HR DK). apply deps_fapp in HD as [HD _]. apply rep_fapp in HR as (fp1 & fp2 & HR & _ & _).
    destruct (O s [("self", VRef l); ("outputStream", VOut)] l at_ W fp1) as (r' & _ & E); auto; [split; reflexivity|].
    unfold bind. rewrite E, encode_fapp. cbn [encode]. rewrite oseq_done_r. unfold oc. destruct (snd _); reflexivity.
Qed.

(** the nesting of every layout of the table is at most [Dp] *)
Definition Dp : nat := 5.
Definition fuel_ok : nat := S (need G Dp).
Definition nest_ok : bool := forallb (fun p => Nat.leb (nest (snd p)) Dp) T.

Theorem ser_sound n c f o s W fp : nest_ok = true -> (fuel_ok <= n)%nat -> assoc c T = Some f ->
  forall l at_, o = VRef l -> nth_error (heap s) l = Some (HInst c at_) -> rep P (heap s) f (getA P c at_) W fp ->
  call_method P n o "serialize" [VOut] s = oc (encode f W) VNone s.
Proof.
  intros HN Hn Hc l at_ -> Hl HR. unfold nest_ok in HN. rewrite forallb_forall in HN.
  pose proof (HN _ (assoc_In _ _ _ Hc)) as Hd. apply Nat.leb_le in Hd. cbn [snd] in Hd.
  destruct (class_sound Dp c f Hc Hd n Hn s l at_ W fp Hl HR) as (m & L & K & R).
  unfold call_method, bind, resolve. unfold bind, hget. rewrite Hl, L, K. unfold ret. cbn [apply app]. exact R.
Qed.

End Ser.
