(** * Checking parse methods against layouts

    [chkP] decides whether the statements of a parse method read the fields of a layout;
    [par_sound] shows that if it says yes, running the method on any object that has the layout's
    lists and records makes it hold exactly what the layout decodes from the input. *)
From Coq Require Import ZArith String List Bool Lia.
From Coq Require Import Strings.Byte.
From Verif Require Import Lang Bytes Interp ProgBase Spec Codec Codec2 Rep Dec StreamLem SerSound.
Import ListNotations.
Open Scope string_scope. Open Scope Z_scope. Open Scope list_scope.

(** ** Decoding with the counts read so far as a result *)
Definition on1 {A B C} (g : A -> B) (x : A * C) : B * C := (g (fst x), snd x).

Fixpoint dec2 (f : fmt) (W0 : flds) (C : counts) (bs : list byte) : dres (flds * counts) :=
  match f with
  | Done => DOk ([], C) bs
  | Prim a p k =>
      dbind (dec_val p bs) (fun x r => dmap (on1 (cons (a, x))) (dec2 k W0 (cadd a x C) r))
  | Obj a _ sub k =>
      dbind (decode sub (old_obj a W0) [] bs) (fun w r => dmap (on1 (cons (a, WObj w))) (dec2 k W0 C r))
  | Cnt a p m k =>
      dbind (dec_val p bs) (fun x r =>
        match wint x with
        | Some z => dec2 k W0 ((CLen a, z / m) :: C) r
        | None => DErr TypeError
        end)
  | PList a p k =>
      match count (CLen a) C with
      | Some n =>
          dbind (dec_list (dec_val p) (Z.to_nat n) bs) (fun l r =>
            dmap (on1 (cons (a, WList (old_list a W0 ++ l)))) (dec2 k W0 C r))
      | None => DErr Unsupported
      end
  | OList a _ sub k =>
      match count (CLen a) C with
      | Some n =>
          dbind (dec_list (decode sub [] []) (Z.to_nat n) bs) (fun l r =>
            dmap (on1 (cons (a, WList (old_list a W0 ++ map WObj l)))) (dec2 k W0 C r))
      | None => DErr Unsupported
      end
  | Arr a p n k =>
      dbind (dec_list (dec_val p) n bs) (fun l r => dmap (on1 (cons (a, WList l))) (dec2 k W0 C r))
  | Zero p k => dbind (dec_val p bs) (fun _ r => dec2 k W0 C r)
  | Mask a n k =>
      dbind (dec_val (PInt n false) bs) (fun x r =>
        match wint x with
        | Some z => dmap (on1 (cons (a, WInt (Z.land z 1)))) (dec2 k W0 C r)
        | None => DErr TypeError
        end)
  | VList a p b dv k =>
      match count (CInt b) C with
      | Some z =>
          dbind (dec_list (dec_val p) (Z.to_nat (z / dv)) bs) (fun l r =>
            dmap (on1 (cons (a, WList (old_list a W0 ++ l)))) (dec2 k W0 C r))
      | None => DErr Unsupported
      end
  | Pad b k =>
      match count (CInt b) C with
      | Some z => dbind (dec_list (dec_val (PInt 1 false)) (pad_bytes z) bs) (fun _ r => dec2 k W0 C r)
      | None => DErr Unsupported
      end
  | Derive a b d k =>
      match count (CInt b) C with
      | Some z => dec2 k W0 ((CLen a, z - d) :: C) bs
      | None => DErr Unsupported
      end
  | Bits bf k =>
      if (bits_bytes bf <=? length bs)%nat
      then dmap (on1 (app (dec_bits bf (be_val (firstn (bits_bytes bf) bs))))) (dec2 k W0 C (skipn (bits_bytes bf) bs))
      else DErr ValueError
  | NullL a k =>
      match count (CLen a) C with
      | Some n => if n <=? 0 then dmap (on1 (cons (a, WList []))) (dec2 k W0 C bs) else DErr NameError
      | None => DErr Unsupported
      end
  end.

Lemma dmap_dbind {A B D} (g : B -> D) (d : dres A) (k : A -> list byte -> dres B) :
  dmap g (dbind d k) = dbind d (fun x r => dmap g (k x r)).
Proof. destruct d; reflexivity. Qed.
Lemma dbind_dmap {A B D} (g : A -> B) (d : dres A) (k : B -> list byte -> dres D) :
  dbind (dmap g d) k = dbind d (fun x r => k (g x) r).
Proof. destruct d; reflexivity. Qed.
Lemma dbind_ext {A B} (d : dres A) (k k' : A -> list byte -> dres B) :
  (forall x r, d = DOk x r -> k x r = k' x r) -> dbind d k = dbind d k'.
Proof. destruct d; simpl; auto. Qed.
Lemma dmap_dmap {A B D} (g : A -> B) (h : B -> D) (d : dres A) : dmap h (dmap g d) = dmap (fun x => h (g x)) d.
Proof. destruct d; reflexivity. Qed.
Lemma dmap_ext {A B} (g h : A -> B) (d : dres A) : (forall x, g x = h x) -> dmap g d = dmap h d.
Proof. destruct d; simpl; intros H; [now rewrite H|reflexivity]. Qed.

Lemma dec2_decode f : forall W0 C bs, decode f W0 C bs = dmap fst (dec2 f W0 C bs).
Proof.
  induction f; intros W0 C bs; cbn [decode dec2]; try reflexivity;
    repeat match goal with
    | |- match ?x with _ => _ end = _ => destruct x
    | |- DErr _ = _ => reflexivity
    end; rewrite ?dmap_dbind; try (apply dbind_ext; intros x r _); rewrite ?dmap_dmap; auto;
    try (rewrite IHf, ?dmap_dmap; apply dmap_ext; reflexivity);
    try (rewrite IHf2, ?dmap_dmap; apply dmap_ext; reflexivity).
  all: destruct (wint x); [|reflexivity]; rewrite IHf, ?dmap_dmap; try reflexivity.
Qed.

Definition cat2 (W1 : flds) (x : flds * counts) : flds * counts := on1 (app W1) x.

Lemma dec2_fapp f g : forall W0 C bs,
  dec2 (fapp f g) W0 C bs = dbind (dec2 f W0 C bs) (fun x r => dmap (cat2 (fst x)) (dec2 g W0 (snd x) r)).
Proof.
  induction f; intros W0 C bs; cbn [fapp dec2].
  1: { cbn [dbind fst snd]. destruct (dec2 g W0 C bs) as [[]|]; reflexivity. }
  all: repeat match goal with
    | |- match ?x with _ => _ end = _ => destruct x
    | |- DErr _ = _ => reflexivity
    end.
  all: try (destruct (dec_val _ _) as [x0 r0|]; [cbn [dbind]|reflexivity]).
  all: try (destruct (dec_list _ _ _) as [x0 r0|]; [cbn [dbind]|reflexivity]).
  all: try (destruct (decode _ _ _ _) as [x0 r0|]; [cbn [dbind]|reflexivity]).
  all: try match goal with |- context [wint ?x] => destruct (wint x); [|reflexivity] end.
  all: match goal with
       | IH : forall W0 C bs, dec2 (fapp ?f ?g) W0 C bs = _ |- context [dec2 (fapp ?f ?g) ?W ?C ?b] => rewrite (IH W C b); destruct (dec2 f W C b) as [[W1 C1] r1|]; [|reflexivity]
       end; cbn [dbind dmap on1 fst snd]; match goal with |- context [dec2 ?g ?W ?C ?b] => destruct (dec2 g W C b) as [[W2 C2] r2|] end; try reflexivity.
  cbn. unfold cat2, on1. cbn. now rewrite app_assoc.
Qed.

Lemma dec2_names f : forall W0 C bs W C' r, dec2 f W0 C bs = DOk (W, C') r -> map fst W = names f.
Proof.
  intros W0 C bs W C' r H. pose proof (dec2_decode f W0 C bs) as E. rewrite H in E. cbn [dmap fst] in E.
  revert E. clear. revert W0 C bs W r. induction f; intros W0 C bs W r E; cbn [decode names] in *.
  1: { injection E as <- _. reflexivity. }
  all: repeat match type of E with
       | match ?x with _ => _ end = _ => destruct x; try discriminate E
       end.
  all: repeat match type of E with
       | dbind ?d _ = _ => destruct d; [cbn [dbind] in E|discriminate E]
       | match wint ?x with _ => _ end = _ => destruct (wint x); [|discriminate E]
       end.
  all: try (eapply IHf; eassumption).
  all: match type of E with dmap _ ?d = _ => destruct d as [Wk rk|] eqn:Ek; [|discriminate E] end;
       cbn [dmap] in E; injection E as <- _; cbn [map fst]; rewrite ?map_app; f_equal; eauto.
  clear. generalize (be_val (firstn (bits_bytes bf) bs)). intros u. induction bf as [|b bf IH]; [reflexivity|]. cbn. destruct (bf_attr b); cbn; [f_equal|]; exact IH.
Qed.

(** ** Frames: the heap grows and changes at most at the locations in K *)
Definition fr (K : nat -> Prop) (h h' : list hobj) : Prop :=
  (length h <= length h')%nat /\ forall x, (x < length h)%nat -> ~ K x -> nth_error h' x = nth_error h x.

Lemma fr_refl K h : fr K h h.
Proof. split; auto. Qed.

Lemma fr_trans (K K' : nat -> Prop) h h1 h2 : fr K h h1 -> fr K' h1 h2 -> (forall x, (x < length h)%nat -> K' x -> K x) -> fr K h h2.
Proof.
  intros [A B] [C D] H. split; [lia|]. intros x Hx Hk. rewrite D; [|lia|intros Q; apply Hk; auto]. now apply B.
Qed.

Lemma fr_weak (K K' : nat -> Prop) h h' : fr K h h' -> (forall x, (x < length h)%nat -> K x -> K' x) -> fr K' h h'.
Proof. intros [A B] H. split; [exact A|]. intros x Hx Hk. apply B; [exact Hx|]. intros Q. apply Hk. auto. Qed.

Lemma set_nth_length {A} l (x : A) h : length (set_nth l x h) = length h.
Proof. revert l. induction h as [|y r IH]; intros [|l]; simpl; auto. Qed.
Lemma set_nth_eq {A} l (x : A) h : (l < length h)%nat -> nth_error (set_nth l x h) l = Some x.
Proof. revert l. induction h as [|y r IH]; intros [|l]; simpl; intros; try lia; [reflexivity|]. apply IH. lia. Qed.
Lemma set_nth_ne {A} l k (x : A) h : l <> k -> nth_error (set_nth l x h) k = nth_error h k.
Proof. revert l k. induction h as [|y r IH]; intros [|l] [|k] H; simpl; auto; try contradiction. Qed.

Lemma fr_set l o h : fr (eq l) h (set_nth l o h).
Proof. split; [now rewrite set_nth_length|]. intros x _ Hx. apply set_nth_ne. congruence. Qed.

Lemma fr_app K h h' : fr K h (h ++ h').
Proof. split; [rewrite app_length; lia|]. intros x Hx _. now apply nth_error_app1. Qed.

Lemma nth_lt {A} (h : list A) l o : nth_error h l = Some o -> (l < length h)%nat.
Proof. intros H. apply nth_error_Some. congruence. Qed.

(** ** Static knowledge about counts: [EL a x m]: local x holds m times the count of list a;
    [EA a b m]: attribute b does; [EB b]: integer field b has been read *)
Inductive cent := EL (a x : string) (m : Z) | EA (a b : string) (m : Z) | EB (b : string).
Definition cent_dec (x y : cent) : {x = y} + {x <> y}.
Proof. decide equality; try apply string_dec; apply Z.eq_dec. Defined.

Definition ok1 (rho : env) (ga : string -> option val) (C : counts) (e : cent) : Prop :=
  match e with
  | EL a x m => exists z, assoc x rho = Some (VInt z) /\ count (CLen a) C = Some (z / m)
  | EA a b m => exists z, ga b = Some (VInt z) /\ count (CLen a) C = Some (z / m)
  | EB b => exists z, ga b = Some (VInt z) /\ count (CInt b) C = Some z
  end.
Definition inv (cm : list cent) rho ga C : Prop := Forall (ok1 rho ga C) cm.

Definition no_loc (x : string) (e : cent) : bool := match e with EL _ y _ => negb (String.eqb y x) | _ => true end.
Definition no_attr (a : string) (e : cent) : bool := match e with EA _ b _ | EB b => negb (String.eqb b a) | EL _ _ _ => true end.
Definition no_len (a : string) (e : cent) : bool := match e with EL b _ _ | EA b _ _ => negb (String.eqb b a) | EB _ => true end.
Definition no_local (e : cent) : bool := match e with EL _ _ _ => false | _ => true end.
Definition drop (t : cent -> bool) (cm : list cent) : list cent := filter t cm.
Definition has (e : cent) (cm : list cent) : bool := existsb (is cent_dec e) cm.

Lemma has_ok e cm rho ga C : has e cm = true -> inv cm rho ga C -> ok1 rho ga C e.
Proof.
  intros H I. unfold has in H. apply existsb_exists in H as (y & Hy & E). apply is_eq in E. subst y.
  unfold inv in I. rewrite Forall_forall in I. auto.
Qed.

Lemma drop_ok t cm rho ga C rho' ga' C' : inv cm rho ga C ->
  (forall e, t e = true -> ok1 rho ga C e -> ok1 rho' ga' C' e) -> inv (drop t cm) rho' ga' C'.
Proof.
  intros I H. unfold inv, drop in *. rewrite Forall_forall in *. intros e He. apply filter_In in He as [He Ht]. auto.
Qed.

Lemma ok1_loc x v rho ga C e : no_loc x e = true -> ok1 rho ga C e -> ok1 (upd x v rho) ga C e.
Proof.
  intros Hn H. destruct e; cbn [no_loc ok1] in *; auto. destruct (String.eqb_spec x0 x); [discriminate|].
  now rewrite assoc_upd_ne.
Qed.

Lemma ok1_attr a rho ga ga' C e : no_attr a e = true -> (forall b, b <> a -> ga' b = ga b) -> ok1 rho ga C e -> ok1 rho ga' C e.
Proof.
  intros Hn Hg H. destruct e; cbn [no_attr ok1] in *; auto; (destruct (String.eqb_spec b a); [discriminate|]; rewrite Hg; auto).
Qed.

Lemma ok1_len a z rho ga C e : no_len a e = true -> ok1 rho ga C e -> ok1 rho ga ((CLen a, z) :: C) e.
Proof.
  intros Hn H. destruct e; cbn [no_len ok1 count key_eqb] in *; auto; (destruct (String.eqb_spec a0 a); [discriminate|]; auto).
Qed.

Lemma ok1_cadd a x rho ga C e : no_attr a e = true -> ok1 rho ga C e -> ok1 rho ga (cadd a x C) e.
Proof.
  intros Hn H. unfold cadd. destruct (wint x); [|exact H].
  destruct e; cbn [no_attr ok1 count key_eqb] in *; auto. destruct (String.eqb_spec b a); [discriminate|]; auto.
Qed.

Section Par.
Variable P : prog.
Hypothesis HO : get_cls P "DataOutputStream" = Some c_DataOutputStream.
Hypothesis HI : get_cls P "DataInputStream" = Some c_DataInputStream.
Variable T : list (string * fmt).   (* the layouts of classes *)
Variable X : list string.           (* attributes that parse sets although they are no field of the layout *)
Variable NC : list string.          (* classes whose constructor, called without arguments, is known: see [new_ok] *)

Notation self_ a := (Attr (Loc "self") a).
Notation istream := (Loc "inputStream").
Notation rd r := (Meth istream r [] []).
Notation E_is := (is expr_dec).
Notation S_is := (is stmt_dec).

(** ** The checker *)
Definition plain_attr (D a : string) : bool := match lookup P D a with Some (MMeth _) => false | _ => true end.
Definition local_okP (x : string) : bool :=
  negb (String.eqb x "self") && negb (String.eqb x "inputStream") && negb (String.eqb x "bytelength").

(** e is the number of elements of list a *)
Definition bound (cm : list cent) (a : string) (e : expr) : bool :=
  match e with
  | Loc x => has (EL a x 1) cm
  | Bin OFloorDiv (Loc x) (Lit (LInt m)) => has (EL a x m) cm && (0 <? m)
  | Attr (Loc s) b => String.eqb s "self" && has (EA a b 1) cm
  | _ => false
  end.

Fixpoint bits_matchP (D rb : string) (fs : list (string * Z)) (ss : list stmt) (bf : list bfield) : bool :=
  match fs, bf with
  | [], [] => match ss with [] => true | _ => false end
  | (nm, w) :: fs, b :: bf =>
      (w =? bf_width b) &&
      match bf_attr b with
      | None => bits_matchP D rb fs ss bf
      | Some a =>
          match ss with
          | [] => false
          | c :: r =>
              S_is c (SetAttr (Loc "self") a (if bf_flag b then Builtin BBool [Attr (Loc rb) nm] else Attr (Loc rb) nm))
              && plain_attr D a && bits_matchP D rb fs r bf
          end
      end
  | _, _ => false
  end.

(** class c, called without arguments, can be constructed: see [new_ok] below *)
Definition elem_loop (x y E a : string) (e : expr) : stmt :=
  For x (Builtin BRange [Lit (LInt 0); e])
    [Assign y (CallV (Glob E) [] []); Expr (Meth (Loc y) "parse" [istream] []); Expr (Meth (self_ a) "append" [Loc y] [])].
Definition val_loop (x y r a : string) (e : expr) : stmt :=
  For x (Builtin BRange [Lit (LInt 0); e]) [Assign y (rd r); Expr (Meth (self_ a) "append" [Loc y] [])].
Definition idx_loop (x y r a : string) (n : Z) : stmt :=
  For x (Builtin BRange [Lit (LInt 0); Lit (LInt n)]) [Assign y (rd r); SetSub (self_ a) (Loc x) (Loc y)].
Definition len_check : stmt :=
  If (AndE (Cmp CIsNot (Loc "bytelength") (Lit LNone)) (NotE (Meth (Loc "self") "is_positive_int" [Loc "bytelength"] []))) [Raise ValueError] [].
Definition pos_meth : member :=
  MMeth (mkmeth KStatic false [("value", None)]
    [Return (AndE (Builtin BIsInt [Loc "value"]) (Cmp CGe (Loc "value") (Lit (LInt 0))))]).

Definition undefined (g : string) : bool :=
  match get_cls P g with Some _ => false | None => negb (String.eqb g "getStandardVariableClass") && match assoc g (p_funs P) with Some _ => false | None => true end end.

(** some statements, against the head of the layout; gives what is left of the layout and the new counts *)
Definition stepP (sup : string -> bool -> fmt -> list cent -> option (fmt * list cent)) (D : string) (bl : bool)
    (cm : list cent) (ss : list stmt) (f : fmt) : option (fmt * list cent) :=
  match ss with
  | [Pass] => Some (f, cm)
  | [Expr (Super Y m args _)] =>
      if is (list_eq_dec stmt_dec) ss [Expr (Super Y "parse" [istream] [])] then sup Y false f cm
      else if bl && is (list_eq_dec stmt_dec) ss [Expr (Super Y "parse" [istream; Loc "bytelength"] [])] then sup Y true f cm
      else None
  | [If _ _ _] =>
      if bl && is (list_eq_dec stmt_dec) ss [len_check] && is (opt_dec member_dec) (lookup P D "is_positive_int") (Some pos_meth)
      then Some (f, cm) else None
  | _ =>
    match f with
    | Prim a p k =>
        match ss with
        | [SetAttr _ _ (Meth _ r _ _)] =>
            if is_opt prim_dec (rprim r) p && is (list_eq_dec stmt_dec) ss [SetAttr (Loc "self") a (rd r)] && plain_attr D a
            then Some (k, match p with PInt _ _ => [EB a] | _ => [] end ++ drop (no_attr a) cm) else None
        | _ => None
        end
    | Cnt a p m k =>
        match ss with
        | [Assign x (Meth _ r _ _)] =>
            if is_opt prim_dec (rprim r) p && is (list_eq_dec stmt_dec) ss [Assign x (rd r)] && local_okP x
               && match p with PInt _ _ => true | _ => false end
            then Some (k, EL a x m :: drop (fun e => no_loc x e && no_len a e) cm) else None
        | [SetAttr _ b (Meth _ r _ _)] =>
            if is_opt prim_dec (rprim r) p && is (list_eq_dec stmt_dec) ss [SetAttr (Loc "self") b (rd r)] && plain_attr D b && mem b X
               && match p with PInt _ _ => true | _ => false end
            then Some (k, EA a b m :: drop (fun e => no_attr b e && no_len a e) cm) else None
        | _ => None
        end
    | Obj a cl sub k =>
        if is_opt fmt_dec (assoc cl T) sub && is (list_eq_dec stmt_dec) ss [Expr (Meth (self_ a) "parse" [istream] [])]
        then Some (k, cm) else None
    | OList a cl sub k =>
        match ss with
        | [For x (Builtin _ [_; e]) (Assign y _ :: _)] =>
            if is_opt fmt_dec (assoc cl T) sub && local_okP x && local_okP y && bound cm a e
               && mem cl NC && match get_cls P cl with Some _ => true | None => false end
               && is (list_eq_dec stmt_dec) ss [elem_loop x y cl a e]
            then Some (k, drop (fun e => no_loc x e && no_loc y e) cm) else None
        | _ => None
        end
    | PList a p k =>
        match ss with
        | [For x (Builtin _ [_; e]) (Assign y (Meth _ r _ _) :: _)] =>
            if is_opt prim_dec (rprim r) p && local_okP x && local_okP y && bound cm a e
               && is (list_eq_dec stmt_dec) ss [val_loop x y r a e]
            then Some (k, drop (fun e => no_loc x e && no_loc y e) cm) else None
        | _ => None
        end
    | Derive a b d (PList a' p k) =>
        match ss with
        | [For x (Builtin _ [_; e]) (Assign y (Meth _ r _ _) :: _)] =>
            if String.eqb a a' && is_opt prim_dec (rprim r) p && local_okP x && local_okP y && has (EB b) cm
               && E_is e (Bin OSub (self_ b) (Lit (LInt d)))
               && is (list_eq_dec stmt_dec) ss [val_loop x y r a e]
            then Some (k, drop (fun e => no_loc x e && no_loc y e && no_len a e) cm) else None
        | _ => None
        end
    | NullL a k =>
        match ss with
        | [For x (Builtin _ [_; e]) (Assign y (CallV (Glob g) _ _) :: _)] =>
            if local_okP x && bound cm a e && undefined g
               && is (list_eq_dec stmt_dec) ss [elem_loop x y g a e]
            then Some (k, cm) else None
        | _ => None
        end
    | Arr a p n k =>
        match ss with
        | [SetAttr _ _ _; For x _ (Assign y (Meth _ r _ _) :: _)] =>
            if is_opt prim_dec (rprim r) p && local_okP x && local_okP y && negb (String.eqb x y) && plain_attr D a
               && is (list_eq_dec stmt_dec) ss
                    [SetAttr (Loc "self") a (Bin OMul (ListE [Lit (LInt 0)]) (Lit (LInt (Z.of_nat n)))); idx_loop x y r a (Z.of_nat n)]
            then Some (k, drop (fun e => no_loc x e && no_loc y e && no_attr a e) cm) else None
        | _ => None
        end
    | VList a p b dv k =>
        match ss with
        | [For x _ [Expr (Meth _ _ [Meth _ r _ _] _)]] =>
            if is_opt prim_dec (rprim r) p && local_okP x && has (EB b) cm && (0 <? dv)
               && is (list_eq_dec stmt_dec) ss
                    [For x (Builtin BRange [Bin OFloorDiv (self_ b) (Lit (LInt dv))]) [Expr (Meth (self_ a) "append" [rd r] [])]]
            then Some (k, drop (no_loc x) cm) else None
        | _ => None
        end
    | Pad b k =>
        match ss with
        | [For x _ _] =>
            if local_okP x && has (EB b) cm && is (opt_dec member_dec) (lookup P D pad_name) (Some (pad_meth b))
               && is (list_eq_dec stmt_dec) ss
                    [For x (Builtin BRange [Bin OFloorDiv (Meth (Loc "self") pad_name [] []) (Lit (LInt 8))]) [Expr (rd "read_unsigned_byte")]]
            then Some (k, drop (no_loc x) cm) else None
        | _ => None
        end
    | Zero p k =>
        match ss with
        | [Expr (Meth _ r _ _)] =>
            if is_opt prim_dec (rprim r) p && is (list_eq_dec stmt_dec) ss [Expr (rd r)] then Some (k, cm) else None
        | _ => None
        end
    | Mask a n k =>
        match ss with
        | [Assign x (Bin _ (Meth _ r _ _) _); _] =>
            if is_opt prim_dec (rprim r) (PInt n false) && local_okP x && plain_attr D a
               && is (list_eq_dec stmt_dec) ss [Assign x (Bin OBitAnd (rd r) (Lit (LInt 1))); SetAttr (Loc "self") a (Loc x)]
            then Some (k, drop (fun e => no_loc x e && no_attr a e) cm) else None
        | _ => None
        end
    | Bits bf k =>
        match ss with
        | Assign x e :: r =>
            if local_okP x && E_is e (Meth (self_ "_struct") "parse" [istream] []) then
              match lookup P D "_struct" with
              | Some (MAttr (LBits fs)) =>
                  if nodupb (map fst fs) && nodupb (names (Bits bf Done)) && bits_matchP D x fs r bf
                  then Some (k, drop (fun e => no_loc x e && forallb (fun a => no_attr a e) (names (Bits bf Done))) cm) else None
              | _ => None
              end
            else None
        | _ => None
        end
    | Done | Derive _ _ _ _ => None
    end
  end.

(** how many statements the head of the layout takes *)
Definition take (c : stmt) (f : fmt) : nat :=
  match c with
  | Pass | Expr (Super _ _ _ _) | If _ _ _ => 1
  | _ => match f with
         | Arr _ _ _ _ | Mask _ _ _ => 2
         | Bits bf _ => S (length (names (Bits bf Done)))
         | _ => 1
         end
  end.

Fixpoint blockP (fu : nat) (step : list cent -> list stmt -> fmt -> option (fmt * list cent)) (ss : list stmt) (f : fmt) (cm : list cent)
  : option (fmt * list cent) :=
  match ss with
  | [] => Some (f, cm)
  | c :: _ =>
      match fu with
      | O => None
      | S fu =>
          match step cm (firstn (take c f) ss) f with
          | Some (f', cm') => blockP fu step (skipn (take c f) ss) f' cm'
          | None => None
          end
      end
  end.

Definition par_params : list (string * option dflt) := [("self", None); ("inputStream", None)].
Definition len_ok (l : lit) : bool := match l with LNone => true | LInt z => 0 <=? z | _ => false end.
(** a parse method; does it take bytelength, and may it be left out? *)
Definition is_par (m : meth) : option (bool * bool) :=
  match m_kind m with
  | KNormal =>
      match m_params m with
      | [p1; p2] => if is (list_eq_dec (pair_dec string_dec (opt_dec dflt_dec))) (m_params m) par_params then Some (false, true) else None
      | [p1; p2; (x, None)] =>
          if is (list_eq_dec (pair_dec string_dec (opt_dec dflt_dec))) (m_params m) (par_params ++ [("bytelength", None)]) then Some (true, false) else None
      | [p1; p2; (x, Some (DLit l))] =>
          if is (list_eq_dec (pair_dec string_dec (opt_dec dflt_dec))) (m_params m) (par_params ++ [("bytelength", Some (DLit l))]) && len_ok l
          then Some (true, true) else None
      | _ => None
      end
  | _ => None
  end.

Definition locals_gone (x : option (fmt * list cent)) : option (fmt * list cent) :=
  match x with Some (f, cm) => Some (f, drop no_local cm) | None => None end.

Fixpoint chkP (gas : nat) (D : string) (bl : bool) (ss : list stmt) (f : fmt) (cm : list cent) : option (fmt * list cent) :=
  match gas with
  | O => None
  | S g =>
      blockP (length ss) (stepP (fun Y given f cm =>
        match after Y (mro P D) with
        | Some rest =>
            match lookup_in P rest "parse" with
            | Some (MMeth m) =>
                match is_par m with
                | Some (bl', opt) =>
                    if (if given then bl' else opt) then locals_gone (chkP g D bl' (m_body m) f (drop no_local cm)) else None
                | None => None
                end
            | _ => None
            end
        | None => None
        end) D bl) ss f cm
  end.

(** class c's parse reads layout f *)
Definition chk_classP (c : string) (f : fmt) : bool :=
  match lookup P c "parse" with
  | Some (MMeth m) =>
      match is_par m with
      | Some (bl, true) =>
          match chkP G c bl (m_body m) f [] with
          | Some (Done, _) => true
          | _ => false
          end
      | _ => false
      end
  | _ => false
  end.


(** ** Objects that can be parsed into *)
Notation sc := (fun v x => scal v = Some x).

(** the layout's lists and embedded records are there: [W0] says what they hold, [fp] where *)
Fixpoint ready (h : list hobj) (f : fmt) (D : string) (at_ : env) (W0 : flds) (fp : list nat) : Prop :=
  match f with
  | Done => fp = []
  | Prim _ _ k | Mask _ _ k | Cnt _ _ _ k | Zero _ k | Pad _ k | Derive _ _ _ k | Arr _ _ _ k => ready h k D at_ W0 fp
  | Obj a c sub k =>
      exists l at' fp1 fp2, getA P D at_ a = Some (VRef l) /\ nth_error h l = Some (HInst c at') /\
        ready h sub c at' (old_obj a W0) fp1 /\ ready h k D at_ W0 fp2 /\ fp = l :: fp1 ++ fp2
  | PList a _ k | VList a _ _ _ k =>
      exists l vs fp2, getA P D at_ a = Some (VRef l) /\ nth_error h l = Some (HList vs) /\
        Forall2 sc vs (old_list a W0) /\ ready h k D at_ W0 fp2 /\ fp = l :: fp2
  | OList a c sub k =>
      exists l vs fps fp2, getA P D at_ a = Some (VRef l) /\ nth_error h l = Some (HList vs) /\
        Forall3 (elem_rep P h c sub) vs (old_list a W0) fps /\ ready h k D at_ W0 fp2 /\ fp = l :: concat fps ++ fp2
  | Bits _ k => assoc "_struct" at_ = None /\ ready h k D at_ W0 fp
  | NullL a k =>
      exists l fp2, getA P D at_ a = Some (VRef l) /\ nth_error h l = Some (HList []) /\ ready h k D at_ W0 fp2 /\ fp = l :: fp2
  end.

Lemma getA_ext D at_ at' a : assoc a at' = assoc a at_ -> getA P D at' a = getA P D at_ a.
Proof. unfold getA. intros ->. reflexivity. Qed.

Lemma elem_rep_ext h h' c sub v x fp : elem_rep P h c sub v x fp -> (forall l, In l fp -> nth_error h' l = nth_error h l) -> elem_rep P h' c sub v x fp.
Proof.
  intros (l & at_ & w & fp' & -> & B & -> & R & ->) H. exists l, at_, w, fp'. repeat split; auto.
  - now rewrite H by (left; reflexivity).
  - eapply rep_ext; eauto. intros. apply H. now right.
Qed.

Lemma elems_ext h h' c sub vs ws fps : Forall3 (elem_rep P h c sub) vs ws fps -> (forall l, In l (concat fps) -> nth_error h' l = nth_error h l) ->
  Forall3 (elem_rep P h' c sub) vs ws fps.
Proof.
  intros F H. apply Forall3_impl with (2 := F). intros v x q Hq E. eapply elem_rep_ext; eauto. intros l Hl. apply H. apply in_concat. eauto.
Qed.

Ltac fmt_ind f := induction f as [|a p k IH|a c sub IHs k IH|a p m k IH|a p k IH|a c sub IHs k IH|a p n k IH|p k IH|a n k IH
                 |a p b dv k IH|b k IH|a b d k IH|bf k IH|a k IH].

Lemma ready_ext f : forall h h' D at_ at' W0 fp, ready h f D at_ W0 fp ->
  (forall l, In l fp -> nth_error h' l = nth_error h l) ->
  (forall a, In a (names f) \/ a = "_struct" -> assoc a at' = assoc a at_) ->
  ready h' f D at' W0 fp.
Proof.
  fmt_ind f; intros h h' D at_ at' W0 fp HR Hh Ha; cbn [ready names] in *; auto;
    try (eapply IH; eauto; intros x [Hx|Hx]; apply Ha; [left; right|right]; assumption).
  - destruct HR as (l & at1 & fp1 & fp2 & A & B & C & E & ->). exists l, at1, fp1, fp2. repeat split.
    + rewrite <- A. apply getA_ext. apply Ha. left. left. reflexivity.
    + now rewrite Hh by (left; reflexivity).
    + eapply IHs; eauto. intros. apply Hh. right. apply in_or_app. auto.
    + eapply IH; eauto; [intros; apply Hh; right; apply in_or_app; auto|]. intros x [Hx|Hx]; apply Ha; [left; right|right]; assumption.
  - eapply IH; eauto.
  - destruct HR as (l & vs & fp2 & A & B & C & E & ->). exists l, vs, fp2. repeat split; auto.
    + rewrite <- A. apply getA_ext. apply Ha. left. left. reflexivity.
    + now rewrite Hh by (left; reflexivity).
    + eapply IH; eauto; [intros; apply Hh; right; assumption|]. intros x [Hx|Hx]; apply Ha; [left; right|right]; assumption.
  - destruct HR as (l & vs & fps & fp2 & A & B & C & E & ->). exists l, vs, fps, fp2. repeat split; auto.
    + rewrite <- A. apply getA_ext. apply Ha. left. left. reflexivity.
    + now rewrite Hh by (left; reflexivity).
    + eapply elems_ext; eauto. intros. apply Hh. right. apply in_or_app. auto.
    + eapply IH; eauto; [intros; apply Hh; right; apply in_or_app; auto|]. intros x [Hx|Hx]; apply Ha; [left; right|right]; assumption.
  - eapply IH; eauto.
  - destruct HR as (l & vs & fp2 & A & B & C & E & ->). exists l, vs, fp2. repeat split; auto.
    + rewrite <- A. apply getA_ext. apply Ha. left. left. reflexivity.
    + now rewrite Hh by (left; reflexivity).
    + eapply IH; eauto; [intros; apply Hh; right; assumption|]. intros x [Hx|Hx]; apply Ha; [left; right|right]; assumption.
  - eapply IH; eauto.
  - eapply IH; eauto.
  - destruct HR as [A HR]. split; [rewrite <- A; apply Ha; auto|]. eapply IH; eauto. intros x [Hx|Hx]; apply Ha; [left; apply in_or_app; auto|auto].
  - destruct HR as (l & fp2 & A & B & E & ->). exists l, fp2. repeat split; auto.
    + rewrite <- A. apply getA_ext. apply Ha. left. left. reflexivity.
    + now rewrite Hh by (left; reflexivity).
    + eapply IH; eauto; [intros; apply Hh; right; assumption|]. intros x [Hx|Hx]; apply Ha; [left; right|right]; assumption.
Qed.

Lemma ready_fapp f g : forall h D at_ W0 fp,
  ready h (fapp f g) D at_ W0 fp <-> exists fp1 fp2, ready h f D at_ W0 fp1 /\ ready h g D at_ W0 fp2 /\ fp = fp1 ++ fp2.
Proof.
  fmt_ind f; intros h D at_ W0 fp; cbn [fapp ready]; try apply IH.
  - split; [intros; exists [], fp; auto|]. intros (fp1 & fp2 & -> & H & ->). exact H.
  - split.
    + intros (l & at1 & fp1 & fp2 & A & B & C & E & ->). apply IH in E as (q1 & q2 & E1 & E2 & ->).
      exists (l :: fp1 ++ q1), q2. repeat split; auto; [|simpl; now rewrite app_assoc]. exists l, at1, fp1, q1. auto 10.
    + intros (q1 & q2 & (l & at1 & fp1 & fp2 & A & B & C & E & ->) & F & ->).
      exists l, at1, fp1, (fp2 ++ q2). repeat split; auto; [|simpl; now rewrite app_assoc]. apply IH. eauto.
  - split.
    + intros (l & vs & fp2 & A & B & C & E & ->). apply IH in E as (q1 & q2 & E1 & E2 & ->).
      exists (l :: q1), q2. repeat split; auto. exists l, vs, q1. auto 10.
    + intros (q1 & q2 & (l & vs & fp2 & A & B & C & E & ->) & F & ->).
      exists l, vs, (fp2 ++ q2). repeat split; auto. apply IH. eauto.
  - split.
    + intros (l & vs & fps & fp2 & A & B & C & E & ->). apply IH in E as (q1 & q2 & E1 & E2 & ->).
      exists (l :: concat fps ++ q1), q2. repeat split; auto; [|simpl; now rewrite app_assoc]. exists l, vs, fps, q1. auto 10.
    + intros (q1 & q2 & (l & vs & fps & fp2 & A & B & C & E & ->) & F & ->).
      exists l, vs, fps, (fp2 ++ q2). repeat split; auto; [|simpl; now rewrite app_assoc]. apply IH. eauto.
  - split.
    + intros (l & vs & fp2 & A & B & C & E & ->). apply IH in E as (q1 & q2 & E1 & E2 & ->).
      exists (l :: q1), q2. repeat split; auto. exists l, vs, q1. auto 10.
    + intros (q1 & q2 & (l & vs & fp2 & A & B & C & E & ->) & F & ->).
      exists l, vs, (fp2 ++ q2). repeat split; auto. apply IH. eauto.
  - rewrite IH. split; [intros (A & fp1 & fp2 & B & C & ->); exists fp1, fp2; auto|].
    intros (fp1 & fp2 & (A & B) & C & ->). split; [exact A|]. exists fp1, fp2. auto.
  - split.
    + intros (l & fp2 & A & B & E & ->). apply IH in E as (q1 & q2 & E1 & E2 & ->).
      exists (l :: q1), q2. repeat split; auto. exists l, q1. auto 10.
    + intros (q1 & q2 & (l & fp2 & A & B & E & ->) & F & ->).
      exists l, (fp2 ++ q2). repeat split; auto. apply IH. eauto.
Qed.

Lemma rep_valid f : forall h ga W fp, rep P h f ga W fp -> forall x, In x fp -> (x < length h)%nat.
Proof.
  fmt_ind f; intros h ga W fp HR x Hx; cbn [rep] in HR; try (eapply IH; eauto; fail).
  - subst. destruct Hx.
  - destruct HR. eapply IH; eauto.
  - destruct HR as (l & at_ & w & fp1 & fp2 & A & B & C & D & E & ->). destruct Hx as [<-|Hx]; [eapply nth_lt; eauto|].
    apply in_app_or in Hx as [Hx|Hx]; [eapply IHs|eapply IH]; eauto.
  - destruct HR as (l & vs & ws & fp2 & A & B & C & D & E & ->). destruct Hx as [<-|Hx]; [eapply nth_lt; eauto|]. eapply IH; eauto.
  - destruct HR as (l & vs & ws & fps & fp2 & A & B & C & D & E & ->). destruct Hx as [<-|Hx]; [eapply nth_lt; eauto|].
    apply in_app_or in Hx as [Hx|Hx]; [|eapply IH; eauto]. clear - D Hx IHs. induction D; [destruct Hx|]. cbn [concat] in Hx.
    apply in_app_or in Hx as [Hx|Hx]; [|auto]. destruct H as (l' & at_ & w & fp' & -> & H1 & -> & H2 & ->).
    destruct Hx as [<-|Hx]; [eapply nth_lt; eauto|]. eapply IHs; eauto.
  - destruct HR as (l & vs & ws & fp2 & A & B & C & D & E & ->). destruct Hx as [<-|Hx]; [eapply nth_lt; eauto|]. eapply IH; eauto.
  - destruct HR. eapply IH; eauto.
  - destruct HR as (l & vs & ws & fp2 & A & B & C & D & E & ->). destruct Hx as [<-|Hx]; [eapply nth_lt; eauto|]. eapply IH; eauto.
  - destruct HR. eapply IH; eauto.
  - destruct HR as (l & fp2 & A & B & C & E & ->). destruct Hx as [<-|Hx]; [eapply nth_lt; eauto|]. eapply IH; eauto.
Qed.

Lemma elems_valid h c sub vs ws fps : Forall3 (elem_rep P h c sub) vs ws fps -> forall x, In x (concat fps) -> (x < length h)%nat.
Proof.
  intros D x Hx. induction D; [destruct Hx|]. cbn [concat] in Hx.
  apply in_app_or in Hx as [Hx|Hx]; [|auto]. destruct H as (l' & at_ & w & fp' & -> & H1 & -> & H2 & ->).
  destruct Hx as [<-|Hx]; [eapply nth_lt; eauto|]. eapply rep_valid; eauto.
Qed.

Lemma ready_valid f : forall h D at_ W0 fp, ready h f D at_ W0 fp -> forall x, In x fp -> (x < length h)%nat.
Proof.
  fmt_ind f; intros h D at_ W0 fp HR x Hx; cbn [ready] in HR; try (eapply IH; eauto; fail).
  - subst. destruct Hx.
  - destruct HR as (l & at1 & fp1 & fp2 & A & B & C & E & ->). destruct Hx as [<-|Hx]; [eapply nth_lt; eauto|].
    apply in_app_or in Hx as [Hx|Hx]; [eapply IHs|eapply IH]; eauto.
  - destruct HR as (l & vs & fp2 & A & B & C & E & ->). destruct Hx as [<-|Hx]; [eapply nth_lt; eauto|]. eapply IH; eauto.
  - destruct HR as (l & vs & fps & fp2 & A & B & C & E & ->). destruct Hx as [<-|Hx]; [eapply nth_lt; eauto|].
    apply in_app_or in Hx as [Hx|Hx]; [eapply elems_valid; eauto|eapply IH; eauto].
  - destruct HR as (l & vs & fp2 & A & B & C & E & ->). destruct Hx as [<-|Hx]; [eapply nth_lt; eauto|]. eapply IH; eauto.
  - destruct HR. eapply IH; eauto.
  - destruct HR as (l & fp2 & A & B & E & ->). destruct Hx as [<-|Hx]; [eapply nth_lt; eauto|]. eapply IH; eauto.
Qed.

(** ** What a parse step guarantees *)
Definition pctx (rho : env) (l : nat) (bl : bool) : Prop :=
  assoc "self" rho = Some (VRef l) /\ assoc "inputStream" rho = Some VIn /\
  (bl = true -> exists v, assoc "bytelength" rho = Some v /\ (v = VNone \/ exists z, v = VInt z /\ 0 <= z)).

Lemma pctx_upd rho l bl x v : pctx rho l bl -> local_okP x = true -> pctx (upd x v rho) l bl.
Proof.
  intros (A & B & C) H. unfold local_okP in H. apply andb_prop in H as [H H3]. apply andb_prop in H as [H1 H2].
  destruct (String.eqb_spec x "self") as [|N1]; [discriminate|]. destruct (String.eqb_spec x "inputStream") as [|N2]; [discriminate|].
  destruct (String.eqb_spec x "bytelength") as [|N3]; [discriminate|].
  repeat split; rewrite assoc_upd_ne; auto.
Qed.

(** parsing into the object at l changed s to s': the object now holds W *)
Record post (s : st) (l : nat) (D : string) (at_ : env) (fp : list nat) (g : fmt) (W : flds) (r : list byte)
            (s' : st) (at' : env) (fp' : list nat) : Prop := {
  p_obj : nth_error (heap s') l = Some (HInst D at');
  p_rep : rep P (heap s') g (getA P D at') W fp';
  p_nodup : NoDup (l :: fp');
  p_fresh : forall x, In x fp' -> In x fp \/ (length (heap s) <= x)%nat;
  p_fr : fr (fun x => x = l \/ In x fp) (heap s) (heap s');
  p_attrs : forall a, ~ In a (names g) -> ~ In a X -> assoc a at' = assoc a at_;
  p_irest : irest s' = r;
  p_ifull : ifull s' = ifull s;
  p_out : out s' = out s }.

Definition good (g : fmt) : Prop := NoDup (names g) /\ (forall a, In a (names g) -> ~ In a X) /\ ~ In "_struct" (names g).
Hypothesis HX : ~ In "_struct" X.

Lemma good_app f g : good (fapp f g) -> good f /\ good g /\ (forall a, In a (names f) -> ~ In a (names g)).
Proof.
  unfold good. rewrite names_fapp. intros (A & B & C). 
  assert (NA : NoDup (names f) /\ NoDup (names g) /\ (forall a, In a (names f) -> ~ In a (names g))).
  { clear B C. induction (names f) as [|a r IH]; cbn [app] in A; [repeat split; auto; constructor|].
    inversion A as [|? ? A1 A2]; subst. destruct (IH A2) as (B & C & D). repeat split; auto.
    - constructor; auto. intros H. apply A1. apply in_or_app. auto.
    - intros b [<-|Hb]; auto. intros H. apply A1. apply in_or_app. auto. }
  destruct NA as (N1 & N2 & N3). repeat split; auto.
  - intros a Ha. apply B. apply in_or_app. auto.
  - intros H. apply C. apply in_or_app. auto.
  - intros a Ha. apply B. apply in_or_app. auto.
  - intros H. apply C. apply in_or_app. auto.
Qed.

Section Run.
Variable n : nat.
Notation call := (run P n).
Notation ev := (eval P call).
Notation ex := (exec P call).

Definition par_ok (D : string) (bl : bool) (ss : list stmt) (cm : list cent) (g : fmt) (cm' : list cent) : Prop :=
  forall s rho l at_ W0 C fp, pctx rho l bl -> nth_error (heap s) l = Some (HInst D at_) ->
  ready (heap s) g D at_ W0 fp -> NoDup (l :: fp) -> inv cm rho (getA P D at_) C ->
  match dec2 g W0 C (irest s) with
  | DOk (W, C') r => exists rho' s' at' fp', run_block ex ss rho s = (Ok (rho', None), s') /\ pctx rho' l bl /\
      inv cm' rho' (getA P D at') C' /\ post s l D at_ fp g W r s' at' fp'
  | DErr e => exists s', run_block ex ss rho s = (Exc e, s')
  end.

Definition callp_ok (c : string) (f : fmt) : Prop :=
  forall s l at_ W0 fp, nth_error (heap s) l = Some (HInst c at_) -> ready (heap s) f c at_ W0 fp -> NoDup (l :: fp) ->
  exists m, lookup P c "parse" = Some (MMeth m) /\ m_kind m = KNormal /\
  match decode f W0 [] (irest s) with
  | DOk W r => exists s' at' fp', call m [VRef l; VIn] [] s = (Ok VNone, s') /\ post s l c at_ fp f W r s' at' fp'
  | DErr e => exists s', call m [VRef l; VIn] [] s = (Exc e, s')
  end.

(** C() gives a new object, of new parts only, that can be parsed into *)
Definition new_ok (c : string) (f : fmt) : Prop :=
  forall s, exists s' l at_ fp, apply P call (KNew c []) [] [] s = (Ok (VRef l), s') /\
    nth_error (heap s') l = Some (HInst c at_) /\ ready (heap s') f c at_ [] fp /\ NoDup (l :: fp) /\
    (forall x, In x (l :: fp) -> (length (heap s) <= x)%nat) /\ fr (fun _ => False) (heap s) (heap s') /\
    irest s' = irest s /\ ifull s' = ifull s /\ out s' = out s.

Lemma run_block_app (e : stmt -> env -> M R) ss1 ss2 rho s :
  run_block e (ss1 ++ ss2) rho s =
  match run_block e ss1 rho s with
  | (Ok (rho', None), s') => run_block e ss2 rho' s'
  | x => x
  end.
Proof.
  revert rho s. induction ss1 as [|c r IH]; intros rho s; cbn [app run_block]; [reflexivity|].
  unfold bind. destruct (e c rho s) as [[[rho1 [v|]]|] s1]; cbn [fst snd]; try reflexivity. apply IH.
Qed.

Lemma NoDup_app {A} (l m : list A) : NoDup l -> NoDup m -> (forall x, In x l -> ~ In x m) -> NoDup (l ++ m).
Proof.
  intros H. induction H as [|a r Ha Hr IH]; intros Hm Hd; [exact Hm|]. cbn [app]. constructor.
  - intros Hin. apply in_app_or in Hin as [Hin|Hin]; [auto|]. apply (Hd a); [left; reflexivity|exact Hin].
  - apply IH; [exact Hm|]. intros x Hx. apply Hd. now right.
Qed.

Lemma NoDup_app_inv {A} (l m : list A) : NoDup (l ++ m) -> NoDup l /\ NoDup m /\ (forall x, In x l -> ~ In x m).
Proof.
  induction l as [|a r IH]; cbn [app]; intros H; [repeat split; auto; constructor|].
  inversion H as [|? ? H1 H2]; subst. destruct (IH H2) as (A1 & A2 & A3). repeat split; auto.
  - constructor; auto. intros Hin. apply H1. apply in_or_app. auto.
  - intros x [<-|Hx] Hm; [apply H1; apply in_or_app; auto|]. eapply A3; eauto.
Qed.

Lemma field_notin a W : ~ In a (map fst W) -> field a W = None.
Proof. induction W as [|[b x] r IH]; cbn [map fst field]; intros H; [reflexivity|]. destruct (String.eqb_spec a b); [exfalso; apply H; left; auto|]. apply IH. intros Q. apply H. now right. Qed.
Lemma field_cat1 a W1 W2 : In a (map fst W1) -> field a (W1 ++ W2) = field a W1.
Proof. induction W1 as [|[b x] r IH]; cbn [map fst field app]; intros H; [destruct H|]. destruct (String.eqb_spec a b); [reflexivity|]. apply IH. destruct H; [congruence|assumption]. Qed.
Lemma field_cat2 a W1 W2 : ~ In a (map fst W1) -> field a (W1 ++ W2) = field a W2.
Proof. induction W1 as [|[b x] r IH]; cbn [map fst field app]; intros H; [reflexivity|]. destruct (String.eqb_spec a b); [exfalso; apply H; left; auto|]. apply IH. intros Q. apply H. now right. Qed.

Lemma par_ok_app D bl ss1 ss2 cm g1 cm1 g2 cm2 : good (fapp g1 g2) ->
  par_ok D bl ss1 cm g1 cm1 -> par_ok D bl ss2 cm1 g2 cm2 -> par_ok D bl (ss1 ++ ss2) cm (fapp g1 g2) cm2.
Proof.
  intros HG H1 H2 s rho l at_ W0 C fp Hc Hl HR HN HI1.
  apply good_app in HG as ((G1 & G2 & G3) & (G4 & G5 & G6) & G7).
  apply ready_fapp in HR as (fp1 & fp2 & R1 & R2 & ->).
  inversion HN as [|? ? N1 N2]; subst. apply NoDup_app_inv in N2 as (N2 & N3 & N4).
  assert (V1 := ready_valid _ _ _ _ _ _ R1). assert (V2 := ready_valid _ _ _ _ _ _ R2).
  specialize (H1 s rho l at_ W0 C fp1 Hc Hl R1). rewrite dec2_fapp.
  assert (HN1 : NoDup (l :: fp1)) by (constructor; [intros Q; apply N1; apply in_or_app; auto|assumption]).
  specialize (H1 HN1 HI1). destruct (dec2 g1 W0 C (irest s)) as [[W1 C1] r1|e] eqn:E1; cbn [dbind fst snd].
  2: { destruct H1 as (s' & H1). exists s'. rewrite run_block_app, H1. reflexivity. }
  destruct H1 as (rho1 & s1 & at1 & fp1' & X1 & Hc1 & I1 & Q1). destruct Q1 as [q1 q2 q3 q4 q5 q6 q7 q8 q9].
  assert (R2' : ready (heap s1) g2 D at1 W0 fp2).
  { eapply ready_ext; [exact R2| |].
    - intros x Hx. apply q5; [auto|]. intros [->|Q]; [apply N1; apply in_or_app; auto|]. eapply N4; eauto.
    - intros a [Ha| ->]; apply q6; auto. intros Q. eapply G7; eauto. }
  specialize (H2 s1 rho1 l at1 W0 C1 fp2 Hc1 q1 R2').
  assert (HN2 : NoDup (l :: fp2)) by (constructor; [intros Q; apply N1; apply in_or_app; auto|assumption]).
  specialize (H2 HN2 I1). rewrite q7 in H2. destruct (dec2 g2 W0 C1 r1) as [[W2 C2] r2|e] eqn:E2; cbn [dmap].
  2: { destruct H2 as (s' & H2). exists s'. rewrite run_block_app, X1. exact H2. }
  destruct H2 as (rho2 & s2 & at2 & fp2' & X2 & Hc2 & I2 & Q2). destruct Q2 as [u1 u2 u3 u4 u5 u6 u7 u8 u9].
  exists rho2, s2, at2, (fp1' ++ fp2'). split; [rewrite run_block_app, X1; exact X2|]. split; [exact Hc2|]. split; [exact I2|].
  unfold cat2, on1. cbn [fst snd].
  assert (NW1 := dec2_names _ _ _ _ _ _ _ E1). assert (V1' := rep_valid _ _ _ _ _ q2).
  assert (L1 := proj1 q5).
  assert (Dj : forall x, In x fp1' -> x <> l /\ ~ In x fp2).
  { intros x Hx. split; [intros ->; inversion q3; auto|]. intros Q. destruct (q4 x Hx) as [Q'|Q']; [eapply N4; eauto|]. pose proof (V2 x Q). lia. }
  constructor; auto.
  - apply rep_fapp. exists fp1', fp2'. repeat split.
    + eapply rep_ext; [exact q2| | |].
      * intros x Hx. apply u5; [auto|]. destruct (Dj x Hx). intros [->|Q]; auto.
      * intros a Ha. apply getA_ext. apply u6; [apply G7; assumption|auto].
      * intros a Ha. apply field_cat1. now rewrite NW1.
    + eapply rep_ext; [exact u2|auto|auto|]. intros a Ha. apply field_cat2. rewrite NW1. intros Q. eapply G7; eauto.
  - inversion q3; subst. inversion u3; subst. constructor.
    + intros Q. apply in_app_or in Q as [Q|Q]; auto.
    + apply NoDup_app; auto. intros x Hx Q. destruct (u4 x Q) as [Q'|Q']; [eapply Dj; eauto|]. pose proof (V1' x Hx). lia.
  - intros x Hx. apply in_app_or in Hx as [Hx|Hx].
    + destruct (q4 x Hx); [left; apply in_or_app; auto|auto].
    + destruct (u4 x Hx); [left; apply in_or_app; auto|]. right. lia.
  - eapply fr_trans; [eapply fr_weak; [exact q5|]|exact u5|].
    + intros x _ [->|Q]; [auto|]. right. apply in_or_app. auto.
    + intros x _ [->|Q]; [auto|]. right. apply in_or_app. auto.
  - intros a Ha Hx. rewrite names_fapp in Ha. rewrite u6; [apply q6|..]; auto; intros Q; apply Ha; apply in_or_app; auto.
  - congruence.
  - congruence.
Qed.

Lemma post_refl s l D at_ fp : nth_error (heap s) l = Some (HInst D at_) -> post s l D at_ fp Done [] (irest s) s at_ [].
Proof.
  intros Hl. constructor; auto.
  - reflexivity.
  - constructor; [auto|constructor].
  - intros x [].
  - apply fr_refl.
Qed.

Lemma par_ok_nil D bl cm : par_ok D bl [] cm Done cm.
Proof.
  intros s rho l at_ W0 C fp Hc Hl HR HN HI1. cbn [dec2]. exists rho, s, at_, []. split; [reflexivity|]. split; [exact Hc|]. split; [exact HI1|].
  now apply post_refl.
Qed.


(** ** Evaluation of the pieces *)
Lemma evP_self rho l bl a v s D at_ : pctx rho l bl -> nth_error (heap s) l = Some (HInst D at_) -> getA P D at_ a = Some v ->
  ev (self_ a) rho s = (Ok v, s).
Proof. intros [A _] Hl Hg. cbn [eval]. rewrite A. unfold bind, ret at 1. eapply get_attr_ga; eauto. Qed.

Hypothesis Hn : (2 <= n)%nat.

Lemma evP_read rho l bl r p s : pctx rho l bl -> rprim r = Some p ->
  ev (rd r) rho s = match dec_val p (irest s) with DOk x t => (Ok (vof x), set_in t s) | DErr e => (Exc e, set_in [] s) end.
Proof.
  intros (_ & A & _) Hr. cbn [eval eval_list]. rewrite A. unfold bind at 1, ret at 1.
  destruct (read_ok P HI r p n s Hr Hn) as (k & R1 & R2). unfold bind at 1. rewrite R1. unfold bind, ret at 1. cbn [apply app]. exact R2.
Qed.

Definition obj_set (l : nat) (o : hobj) (r : list byte) (s : st) : st := mkst (set_nth l o (heap s)) r (ifull s) (out s).

Lemma set_attr_ok D a l at_ v s : plain_attr D a = true -> nth_error (heap s) l = Some (HInst D at_) ->
  set_attr P (VRef l) a v s = (Ok tt, obj_set l (HInst D (upd a v at_)) (irest s) s).
Proof.
  intros Hp Hl. unfold set_attr, bind, hget. rewrite Hl. unfold plain_attr in Hp. destruct (lookup P D a) as [[m|]|]; [discriminate|reflexivity|reflexivity].
Qed.

Lemma getA_upd_eq D a v at_ : plain_attr D a = true -> getA P D (upd a v at_) a = Some v.
Proof. unfold plain_attr, getA. intros H. rewrite assoc_upd_eq. destruct (lookup P D a) as [[m|]|]; [discriminate|reflexivity|reflexivity]. Qed.
Lemma getA_upd_ne D a b v at_ : b <> a -> getA P D (upd a v at_) b = getA P D at_ b.
Proof. intros H. apply getA_ext. now apply assoc_upd_ne. Qed.

(** setting one attribute *)
Lemma post_set s l D at_ fp g W a v r s0 : nth_error (heap s) l = Some (HInst D at_) -> heap s0 = heap s -> ifull s0 = ifull s -> out s0 = out s ->
  (In a (names g) \/ In a X) ->
  (forall h, rep P h g (getA P D (upd a v at_)) W []) ->
  post s l D at_ fp g W r (obj_set l (HInst D (upd a v at_)) r s0) (upd a v at_) [].
Proof.
  intros Hl Hh Hi Ho Ha HR. constructor; cbn [obj_set heap irest ifull out]; auto; rewrite ?Hh; auto.
  - apply set_nth_eq. eapply nth_lt; eauto.
  - constructor; [auto|constructor].
  - intros x [].
  - eapply fr_weak; [apply fr_set|]. intros x _ ->. auto.
  - intros b H1 H2. apply assoc_upd_ne. intros ->. destruct Ha; auto.
Qed.

Lemma exec_set D rho l bl at_ s s' a e v : pctx rho l bl -> plain_attr D a = true -> ev e rho s = (Ok v, s') ->
  nth_error (heap s') l = Some (HInst D at_) ->
  run_block ex [SetAttr (Loc "self") a e] rho s = (Ok (rho, None), obj_set l (HInst D (upd a v at_)) (irest s') s').
Proof.
  intros (A & _) Hp He Hl. cbn [run_block exec]. unfold bind at 1. unfold bind at 1. rewrite He. cbn [eval]. rewrite A. unfold bind at 1, ret at 1.
  unfold bind at 1. rewrite (set_attr_ok _ _ _ _ _ _ Hp Hl). reflexivity.
Qed.

Lemma exec_set_exc e o a rho s x s' : ev e rho s = (Exc x, s') -> run_block ex [SetAttr o a e] rho s = (Exc x, s').
Proof. intros H. cbn [run_block exec]. unfold bind. rewrite H. reflexivity. Qed.

Lemma exec_assign e x rho s v s' : ev e rho s = (Ok v, s') -> run_block ex [Assign x e] rho s = (Ok (upd x v rho, None), s').
Proof. intros H. cbn [run_block exec]. unfold bind. rewrite H. reflexivity. Qed.
Lemma exec_assign_exc e x rho s v s' : ev e rho s = (Exc v, s') -> run_block ex [Assign x e] rho s = (Exc v, s').
Proof. intros H. cbn [run_block exec]. unfold bind. rewrite H. reflexivity. Qed.
Lemma exec_expr e rho s v s' : ev e rho s = (Ok v, s') -> run_block ex [Expr e] rho s = (Ok (rho, None), s').
Proof. intros H. cbn [run_block exec]. unfold bind. rewrite H. reflexivity. Qed.
Lemma exec_expr_exc e rho s v s' : ev e rho s = (Exc v, s') -> run_block ex [Expr e] rho s = (Exc v, s').
Proof. intros H. cbn [run_block exec]. unfold bind. rewrite H. reflexivity. Qed.

(** ** Scalars *)
Lemma par_prim D bl cm a p r : rprim r = Some p -> plain_attr D a = true ->
  par_ok D bl [SetAttr (Loc "self") a (rd r)] cm (Prim a p Done) (match p with PInt _ _ => [EB a] | _ => [] end ++ drop (no_attr a) cm).
Proof.
  intros Hr Hp s rho l at_ W0 C fp Hc Hl _ _ HI1. cbn [dec2]. pose proof (evP_read rho l bl r p s Hc Hr) as E.
  destruct (dec_val p (irest s)) as [x t|e] eqn:Ed; cbn [dbind dmap on1 fst snd].
  2: { eexists. eapply exec_set_exc; eauto. }
  assert (Hx := dec_val_num _ _ _ _ Ed).
  eexists rho, _, (upd a (vof x) at_), []. split; [eapply exec_set; eauto; exact Hl|]. split; [exact Hc|]. split.
  - apply Forall_app. split.
    + destruct p as [k sg| |]; constructor; [|constructor]. apply dec_val_int in Ed as [z ->]. cbn [ok1 vof cadd wint count key_eqb].
      exists z. rewrite getA_upd_eq by exact Hp. rewrite String.eqb_refl. auto.
    + eapply drop_ok; [exact HI1|]. intros e0 Ht Ho. apply ok1_cadd; [exact Ht|]. eapply ok1_attr; [exact Ht| |exact Ho].
      intros b Hb. now apply getA_upd_ne.
  - cbn [set_in irest]. apply post_set; auto.
    + left. left. reflexivity.
    + intros h. cbn [rep field]. split; [|reflexivity]. exists (vof x), x. rewrite getA_upd_eq by exact Hp. rewrite String.eqb_refl.
      repeat split. now apply scal_vof.
Qed.

Lemma post_in s l D at_ fp g W r s0 : nth_error (heap s) l = Some (HInst D at_) -> heap s0 = heap s -> ifull s0 = ifull s -> out s0 = out s ->
  (forall h, rep P h g (getA P D at_) W []) -> post s l D at_ fp g W r (set_in r s0) at_ [].
Proof.
  intros Hl Hh Hi Ho HR. constructor; cbn [set_in heap irest ifull out]; auto; rewrite ?Hh; auto.
  - constructor; [auto|constructor].
  - intros x [].
  - apply fr_refl.
Qed.

Lemma par_cnt D bl cm a p m x r k sg : rprim r = Some p -> local_okP x = true -> p = PInt k sg ->
  par_ok D bl [Assign x (rd r)] cm (Cnt a p m Done) (EL a x m :: drop (fun e => no_loc x e && no_len a e) cm).
Proof.
  intros Hr Hx Hp s rho l at_ W0 C fp Hc Hl _ _ HI1. cbn [dec2]. pose proof (evP_read rho l bl r p s Hc Hr) as E.
  destruct (dec_val p (irest s)) as [y t|e] eqn:Ed; cbn [dbind].
  2: { eexists. eapply exec_assign_exc; eauto. }
  subst p. apply dec_val_int in Ed as [z ->]. cbn [wint vof] in *.
  exists (upd x (VInt z) rho), (set_in t s), at_, []. split; [now apply exec_assign|]. split; [now apply pctx_upd|]. split.
  - constructor.
    + cbn [ok1 count key_eqb]. exists z. rewrite assoc_upd_eq, String.eqb_refl. auto.
    + eapply drop_ok; [exact HI1|]. intros e0 Ht Ho. apply andb_prop in Ht as [T1 T2]. apply ok1_len; [exact T2|]. now apply ok1_loc.
  - apply post_in; auto. reflexivity.
Qed.

Lemma par_cnt_attr D bl cm a p m b r k sg : rprim r = Some p -> plain_attr D b = true -> mem b X = true -> p = PInt k sg ->
  par_ok D bl [SetAttr (Loc "self") b (rd r)] cm (Cnt a p m Done) (EA a b m :: drop (fun e => no_attr b e && no_len a e) cm).
Proof.
  intros Hr Hb Hbx Hp s rho l at_ W0 C fp Hc Hl _ _ HI1. cbn [dec2]. pose proof (evP_read rho l bl r p s Hc Hr) as E.
  destruct (dec_val p (irest s)) as [y t|e] eqn:Ed; cbn [dbind].
  2: { eexists. eapply exec_set_exc; eauto. }
  subst p. apply dec_val_int in Ed as [z ->]. cbn [wint vof] in *.
  eexists rho, _, (upd b (VInt z) at_), []. split; [eapply exec_set; eauto; exact Hl|]. split; [exact Hc|]. split.
  - constructor.
    + cbn [ok1 count key_eqb]. exists z. rewrite getA_upd_eq by exact Hb. rewrite String.eqb_refl. auto.
    + eapply drop_ok; [exact HI1|]. intros e0 Ht Ho. apply andb_prop in Ht as [T1 T2]. apply ok1_len; [exact T2|].
      eapply ok1_attr; [exact T1| |exact Ho]. intros c Hc'. now apply getA_upd_ne.
  - cbn [set_in irest]. apply post_set; auto.
    + right. now apply mem_In.
    + reflexivity.
Qed.

Lemma par_zero D bl cm p r : rprim r = Some p -> par_ok D bl [Expr (rd r)] cm (Zero p Done) cm.
Proof.
  intros Hr s rho l at_ W0 C fp Hc Hl _ _ HI1. cbn [dec2]. pose proof (evP_read rho l bl r p s Hc Hr) as E.
  destruct (dec_val p (irest s)) as [y t|e] eqn:Ed; cbn [dbind].
  2: { eexists. eapply exec_expr_exc; eauto. }
  exists rho, (set_in t s), at_, []. split; [eapply exec_expr; eauto|]. split; [exact Hc|]. split; [exact HI1|].
  apply post_in; auto. reflexivity.
Qed.

Lemma par_mask D bl cm a k x r : rprim r = Some (PInt k false) -> local_okP x = true -> plain_attr D a = true ->
  par_ok D bl [Assign x (Bin OBitAnd (rd r) (Lit (LInt 1))); SetAttr (Loc "self") a (Loc x)] cm (Mask a k Done)
    (drop (fun e => no_loc x e && no_attr a e) cm).
Proof.
  intros Hr Hx Hp s rho l at_ W0 C fp Hc Hl _ _ HI1. cbn [dec2]. pose proof (evP_read rho l bl r _ s Hc Hr) as E.
  change ([Assign x (Bin OBitAnd (rd r) (Lit (LInt 1))); SetAttr (Loc "self") a (Loc x)]) with
    ([Assign x (Bin OBitAnd (rd r) (Lit (LInt 1)))] ++ [SetAttr (Loc "self") a (Loc x)]).
  rewrite run_block_app. destruct (dec_val (PInt k false) (irest s)) as [y t|e] eqn:Ed; cbn [dbind].
  2: { eexists. rewrite exec_assign_exc with (v := e) (s' := set_in [] s); [reflexivity|]. remember (rd r) as e0. cbn [eval]. unfold bind. now rewrite E. }
  apply dec_val_int in Ed as [z ->]. cbn [wint vof dmap on1 fst snd] in *.
  rewrite exec_assign with (v := VInt (Z.land z 1)) (s' := set_in t s).
  2: { remember (rd r) as e0. cbn [eval]. unfold bind. rewrite E. reflexivity. }
  set (rho' := upd x (VInt (Z.land z 1)) rho). assert (Hc' : pctx rho' l bl) by now apply pctx_upd.
  eexists rho', _, (upd a (VInt (Z.land z 1)) at_), []. split.
  { eapply exec_set with (s' := set_in t s); [exact Hc'|exact Hp| |exact Hl]. cbn [eval]. unfold rho'. rewrite assoc_upd_eq. reflexivity. }
  split; [exact Hc'|]. split.
  - eapply drop_ok; [exact HI1|]. intros e0 Ht Ho. apply andb_prop in Ht as [T1 T2].
    eapply ok1_attr; [exact T2| |apply ok1_loc; eauto]. intros c Hc0. now apply getA_upd_ne.
  - cbn [set_in irest]. apply post_set; auto.
    + left. left. reflexivity.
    + intros h. cbn [rep field]. split; [|reflexivity]. eexists _, _. rewrite getA_upd_eq by exact Hp. rewrite String.eqb_refl.
      repeat split.
Qed.

(** ** Embedded records *)
Lemma ev_parse e rho l bl s l' c at' m : pctx rho l bl -> ev e rho s = (Ok (VRef l'), s) -> nth_error (heap s) l' = Some (HInst c at') ->
  lookup P c "parse" = Some (MMeth m) -> m_kind m = KNormal ->
  ev (Meth e "parse" [istream] []) rho s = call m [VRef l'; VIn] [] s.
Proof.
  intros (_ & A & _) He Hl' L K. cbn [eval eval_list]. rewrite A. unfold bind at 1. rewrite He. unfold bind at 1. unfold resolve, bind at 1, hget. rewrite Hl', L, K.
  unfold bind, ret. reflexivity.
Qed.

Lemma par_obj D bl cm a c sub : callp_ok c sub -> par_ok D bl [Expr (Meth (self_ a) "parse" [istream] [])] cm (Obj a c sub Done) cm.
Proof.
  intros HC s rho l at_ W0 C fp Hc Hl (l' & at1 & fp1 & fp2 & A & B & E & E2 & ->) HN HI1. cbn [ready] in E2. subst fp2. rewrite app_nil_r in HN |- *.
  inversion HN as [|? ? N1 N2]; subst. cbn [dec2].
  assert (V := ready_valid _ _ _ _ _ _ E).
  destruct (HC s l' at1 (old_obj a W0) fp1 B E N2) as (m & L & K & Q).
  assert (Es := evP_self _ _ _ _ _ _ _ _ Hc Hl A). assert (Ep := ev_parse _ _ _ _ _ _ _ _ _ Hc Es B L K).
  destruct (decode sub (old_obj a W0) [] (irest s)) as [w r|e]; cbn [dbind dmap on1 fst snd].
  2: { destruct Q as (s' & Q). exists s'. eapply exec_expr_exc. rewrite Ep. exact Q. }
  destruct Q as (s' & at2 & fp' & Q & P1). rewrite Q in Ep. destruct P1 as [q1 q2 q3 q4 q5 q6 q7 q8 q9].
  exists rho, s', at_, (l' :: fp'). split; [eapply exec_expr; eauto|]. split; [exact Hc|]. split; [exact HI1|].
  assert (Nl : nth_error (heap s') l = Some (HInst D at_)).
  { rewrite <- Hl. apply q5; [eapply nth_lt; eauto|]. intros [->|H]; apply N1; [left; reflexivity|right; exact H]. }
  constructor; auto.
  - cbn [rep]. exists l', at2, w, fp', []. cbn [field]. rewrite String.eqb_refl. rewrite app_nil_r. auto 10.
  - constructor; [|exact q3]. intros [->|H].
    + apply N1. left. reflexivity.
    + destruct (q4 l H) as [H'|H']; [apply N1; right; exact H'|]. pose proof (nth_lt _ _ _ Hl). lia.
  - intros x [<-|Hx]; [left; left; reflexivity|]. destruct (q4 x Hx); [left; right; assumption|auto].
  - eapply fr_weak; [exact q5|]. intros x _ [->|H]; right; [left; reflexivity|right; exact H].
Qed.

(** ** Loops *)
Lemma for_dec {A} (d : list byte -> dres A) (Inv : env -> st -> list A -> Prop) bd x :
  (forall rho s acc, Inv rho s acc ->
     match d (irest s) with
     | DOk a r => exists rho' s', bd (upd x (VInt (Z.of_nat (length acc))) rho) s = (Ok (rho', None), s') /\ irest s' = r /\ Inv rho' s' (acc ++ [a])
     | DErr e => exists s', bd (upd x (VInt (Z.of_nat (length acc))) rho) s = (Exc e, s')
     end) ->
  forall m rho s acc, Inv rho s acc ->
  match dec_list d m (irest s) with
  | DOk l r => exists rho' s', for_loop bd x (map VInt (zseq (Z.of_nat (length acc)) m)) rho s = (Ok (rho', None), s') /\ irest s' = r /\ Inv rho' s' (acc ++ l)
  | DErr e => exists s', for_loop bd x (map VInt (zseq (Z.of_nat (length acc)) m)) rho s = (Exc e, s')
  end.
Proof.
  intros Hb. induction m as [|m IH]; intros rho s acc HI0; cbn [dec_list zseq map for_loop].
  - exists rho, s. rewrite app_nil_r. auto.
  - specialize (Hb rho s acc HI0). destruct (d (irest s)) as [a r|e]; cbn [dbind].
    2: { destruct Hb as (s' & Hb). exists s'. unfold bind. rewrite Hb. reflexivity. }
    destruct Hb as (rho1 & s1 & Hb & Hr & HI2). specialize (IH rho1 s1 (acc ++ [a]) HI2). rewrite Hr in IH.
    rewrite app_length in IH. cbn [length] in IH. rewrite Nat2Z.inj_add in IH. cbn [Z.of_nat Pos.of_succ_nat] in IH.
    destruct (dec_list d m r) as [l r'|e]; cbn [dmap].
    + destruct IH as (rho2 & s2 & IH & Hr2 & HI3). exists rho2, s2. unfold bind. rewrite Hb. cbn [fst snd]. rewrite <- app_assoc in HI3. auto.
    + destruct IH as (s' & IH). exists s'. unfold bind. rewrite Hb. exact IH.
Qed.

Lemma bound_ok cm a e rho l bl D at_ C s : bound cm a e = true -> inv cm rho (getA P D at_) C -> pctx rho l bl -> nth_error (heap s) l = Some (HInst D at_) ->
  exists z, ev e rho s = (Ok (VInt z), s) /\ count (CLen a) C = Some z.
Proof.
  intros Hb HI1 Hc Hl. unfold bound in Hb. destruct e; try discriminate.
  - apply has_ok with (1 := Hb) in HI1 as (z & A & B). exists z. cbn [eval]. rewrite A, B, Z.div_1_r. auto.
  - destruct e; try discriminate. apply andb_prop in Hb as [H1 H2]. apply String.eqb_eq in H1. subst x.
    apply has_ok with (1 := H2) in HI1 as (z & A & B). exists z. rewrite (evP_self _ _ _ _ _ _ _ _ Hc Hl A), B, Z.div_1_r. auto.
  - destruct o; try discriminate. destruct e1; try discriminate. destruct e2; try discriminate. destruct l0; try discriminate.
    apply andb_prop in Hb as [H1 H2]. apply Z.ltb_lt in H2. apply has_ok with (1 := H1) in HI1 as (y & A & B). exists (y / z). split; [|exact B].
    cbn [eval]. rewrite A. unfold bind, ret. cbn [lit_val binop_val as_int]. destruct (Z.eqb_spec z 0); [lia|reflexivity].
Qed.

Lemma range_for e z x body rho s : ev e rho s = (Ok (VInt z), s) ->
  run_block ex [For x (Builtin BRange [Lit (LInt 0); e]) body] rho s =
  for_loop (run_block ex body) x (map VInt (zseq 0 (Z.to_nat z))) rho s.
Proof.
  intros He.
  assert (ER : ev (Builtin BRange [Lit (LInt 0); e]) rho s = (Ok (VRange 0 z), s)).
  { cbn [eval eval_list lit_val]. unfold bind, ret. rewrite He. reflexivity. }
  remember (Builtin BRange [Lit (LInt 0); e]) as e0 eqn:Ee. cbn [run_block exec]. unfold bind. rewrite ER. cbn [iter_vals]. unfold ret.
  rewrite Z.sub_0_r. destruct (for_loop _ _ _ _ _) as [[[r [v|]]|] s']; reflexivity.
Qed.


Lemma ev_append rho l bl a D at_ la vs e v s s1 : pctx rho l bl -> nth_error (heap s) l = Some (HInst D at_) -> getA P D at_ a = Some (VRef la) ->
  nth_error (heap s) la = Some (HList vs) -> ev e rho s = (Ok v, s1) -> heap s1 = heap s ->
  ev (Meth (self_ a) "append" [e] []) rho s = (Ok VNone, obj_set la (HList (vs ++ [v])) (irest s1) s1).
Proof.
  intros Hc Hl Hg Hla He Hh. assert (Es := evP_self _ _ _ _ _ _ _ _ Hc Hl Hg).
  remember (self_ a) as e0 eqn:E0. cbn [eval eval_list]. unfold bind at 1. rewrite Es. unfold bind at 1. unfold resolve, bind at 1, hget. rewrite Hla.
  cbn [String.eqb Ascii.eqb Bool.eqb]. unfold ret at 1. unfold bind at 1. unfold bind at 1. rewrite He. unfold bind, ret. cbn [apply native].
  unfold bind, hget, hset, ret. rewrite Hh, Hla. unfold obj_set. now rewrite Hh.
Qed.

Lemma ev_append_exc rho l bl a D at_ la vs e x s s1 : pctx rho l bl -> nth_error (heap s) l = Some (HInst D at_) -> getA P D at_ a = Some (VRef la) ->
  nth_error (heap s) la = Some (HList vs) -> ev e rho s = (Exc x, s1) -> ev (Meth (self_ a) "append" [e] []) rho s = (Exc x, s1).
Proof.
  intros Hc Hl Hg Hla He. assert (Es := evP_self _ _ _ _ _ _ _ _ Hc Hl Hg).
  remember (self_ a) as e0 eqn:E0. cbn [eval eval_list]. unfold bind at 1. rewrite Es. unfold bind at 1. unfold resolve, bind at 1, hget. rewrite Hla.
  cbn [String.eqb Ascii.eqb Bool.eqb]. unfold ret at 1. unfold bind at 1. unfold bind at 1. rewrite He. reflexivity.
Qed.

(** loops that append scalars to the list at la *)
Section PL.
Variables (D : string) (at_ : env) (l la : nat) (p : prim) (x : string) (body : list stmt) (J : env -> Prop) (h0 : list hobj) (old : list wv).
Hypothesis HJx : forall rho v, J rho -> J (upd x v rho).
Hypothesis Hl0 : nth_error h0 l = Some (HInst D at_).
Hypothesis Hbody : forall rho s vs, J rho -> nth_error (heap s) l = Some (HInst D at_) -> nth_error (heap s) la = Some (HList vs) ->
  match dec_val p (irest s) with
  | DOk y t => exists rho', run_block ex body rho s = (Ok (rho', None), obj_set la (HList (vs ++ [vof y])) t s) /\ J rho'
  | DErr e => exists s', run_block ex body rho s = (Exc e, s')
  end.

Lemma plist_core rho s vs m : J rho -> heap s = h0 -> nth_error h0 la = Some (HList vs) -> Forall2 sc vs old ->
  match dec_list (dec_val p) m (irest s) with
  | DOk ys r => exists rho' s' vs', for_loop (run_block ex body) x (map VInt (zseq 0 m)) rho s = (Ok (rho', None), s') /\ J rho' /\
      irest s' = r /\ ifull s' = ifull s /\ out s' = out s /\ nth_error (heap s') la = Some (HList vs') /\ Forall2 sc vs' (old ++ ys) /\
      fr (eq la) h0 (heap s')
  | DErr e => exists s', for_loop (run_block ex body) x (map VInt (zseq 0 m)) rho s = (Exc e, s')
  end.
Proof.
  intros HJ Hh Hla HF.
  pose (Inv := fun (rho : env) (s1 : st) (acc : list wv) => J rho /\ ifull s1 = ifull s /\ out s1 = out s /\
    fr (eq la) h0 (heap s1) /\ exists vs', nth_error (heap s1) la = Some (HList vs') /\ Forall2 sc vs' (old ++ acc)).
  pose proof (for_dec (dec_val p) Inv (run_block ex body) x) as F.
  assert (S : forall rho s1 acc, Inv rho s1 acc ->
    match dec_val p (irest s1) with
    | DOk y r => exists rho' s', run_block ex body (upd x (VInt (Z.of_nat (length acc))) rho) s1 = (Ok (rho', None), s') /\ irest s' = r /\ Inv rho' s' (acc ++ [y])
    | DErr e => exists s', run_block ex body (upd x (VInt (Z.of_nat (length acc))) rho) s1 = (Exc e, s')
    end).
  { clear F. intros rho1 s1 acc (A1 & A2 & A3 & A4 & vs' & A5 & A6).
    assert (Hl1 : nth_error (heap s1) l = Some (HInst D at_)) by (rewrite <- Hl0; apply A4; [eapply nth_lt; eauto|congruence]).
    specialize (Hbody (upd x (VInt (Z.of_nat (length acc))) rho1) s1 vs' (HJx _ _ A1) Hl1 A5).
    destruct (dec_val p (irest s1)) as [y t|e] eqn:Ed; [|exact Hbody].
    destruct Hbody as (rho' & B1 & B2). exists rho', (obj_set la (HList (vs' ++ [vof y])) t s1). split; [exact B1|]. split; [reflexivity|].
    split; [exact B2|]. cbn [obj_set ifull out heap]. split; [exact A2|]. split; [exact A3|]. split.
    - eapply fr_trans; [exact A4|apply fr_set|]. intros z _ Hz. exact Hz.
    - exists (vs' ++ [vof y]). split; [apply set_nth_eq; eapply nth_lt; eauto|]. rewrite app_assoc. apply Forall2_app; [exact A6|].
      constructor; [|constructor]. apply scal_vof. eapply dec_val_num; eauto. }
  specialize (F S m rho s []). cbn [length Z.of_nat app] in F.
  assert (I0 : Inv rho s []).
  { split; [exact HJ|]. repeat split; auto; [rewrite Hh; auto|rewrite Hh; auto|]. exists vs. rewrite app_nil_r, Hh. auto. }
  specialize (F I0). destruct (dec_list (dec_val p) m (irest s)) as [ys r|e]; [|exact F].
  destruct F as (rho' & s' & F1 & F2 & A1 & A2 & A3 & A4 & vs' & A5 & A6). exists rho', s', vs'. repeat split; auto; apply A4.
Qed.
End PL.

Lemma post_list s l D at_ la a vs' ws g r s' : nth_error (heap s) l = Some (HInst D at_) -> getA P D at_ a = Some (VRef la) -> l <> la ->
  irest s' = r -> ifull s' = ifull s -> out s' = out s -> nth_error (heap s') la = Some (HList vs') -> fr (eq la) (heap s) (heap s') ->
  rep P (heap s') g (getA P D at_) [(a, WList ws)] [la] ->
  post s l D at_ [la] g [(a, WList ws)] r s' at_ [la].
Proof.
  intros Hl Hg Hne E1 E2 E3 Hla F HR. constructor; auto.
  - rewrite <- Hl. apply F; [eapply nth_lt; eauto|congruence].
  - constructor; [intros [H|[]]; congruence|]. constructor; [intros []|constructor].
  - eapply fr_weak; [exact F|]. intros x _ <-. right. left. reflexivity.
Qed.

Definition inv_drop_loc cm x y rho ga C : inv cm rho ga C -> inv (drop (fun e => no_loc x e && no_loc y e) cm) rho ga C.
Proof. intros H. eapply drop_ok; eauto. Qed.

Lemma inv_upd_loc t cm x v rho ga C : (forall e, t e = true -> no_loc x e = true) -> inv (drop t cm) rho ga C -> inv (drop t cm) (upd x v rho) ga C.
Proof.
  intros Ht H. unfold inv in *. rewrite Forall_forall in *. intros e He. apply ok1_loc; [|auto]. apply filter_In in He as [_ He]. auto.
Qed.

Lemma val_body D a bl at_ l la p y r rho s vs : rprim r = Some p -> local_okP y = true -> getA P D at_ a = Some (VRef la) ->
  pctx rho l bl -> nth_error (heap s) l = Some (HInst D at_) -> nth_error (heap s) la = Some (HList vs) ->
  match dec_val p (irest s) with
  | DOk w t => run_block ex [Assign y (rd r); Expr (Meth (self_ a) "append" [Loc y] [])] rho s =
               (Ok (upd y (vof w) rho, None), obj_set la (HList (vs ++ [vof w])) t s)
  | DErr e => exists s', run_block ex [Assign y (rd r); Expr (Meth (self_ a) "append" [Loc y] [])] rho s = (Exc e, s')
  end.
Proof.
  intros Hr Hy Hg Hc Hl Hla. pose proof (evP_read rho l bl r p s Hc Hr) as E.
  change ([Assign y (rd r); Expr (Meth (self_ a) "append" [Loc y] [])]) with ([Assign y (rd r)] ++ [Expr (Meth (self_ a) "append" [Loc y] [])]).
  rewrite run_block_app. destruct (dec_val p (irest s)) as [w t|e].
  - rewrite (exec_assign _ y _ _ _ _ E). assert (Hc' := pctx_upd _ _ _ y (vof w) Hc Hy).
    erewrite exec_expr; [reflexivity|]. change (obj_set la (HList (vs ++ [vof w])) t s) with (obj_set la (HList (vs ++ [vof w])) (irest (set_in t s)) (set_in t s)).
    eapply ev_append; eauto. cbn [eval]. rewrite assoc_upd_eq. reflexivity.
  - eexists. rewrite (exec_assign_exc _ y _ _ _ _ E). reflexivity.
Qed.

Lemma val_for D bl cm a p x y r e z s rho l at_ C la vs old : rprim r = Some p -> local_okP x = true -> local_okP y = true ->
  pctx rho l bl -> nth_error (heap s) l = Some (HInst D at_) -> getA P D at_ a = Some (VRef la) -> nth_error (heap s) la = Some (HList vs) ->
  Forall2 sc vs old -> inv cm rho (getA P D at_) C -> ev e rho s = (Ok (VInt z), s) ->
  match dec_list (dec_val p) (Z.to_nat z) (irest s) with
  | DOk ys t => exists rho' s' vs', run_block ex [val_loop x y r a e] rho s = (Ok (rho', None), s') /\ pctx rho' l bl /\
      inv (drop (fun e => no_loc x e && no_loc y e) cm) rho' (getA P D at_) C /\
      irest s' = t /\ ifull s' = ifull s /\ out s' = out s /\ nth_error (heap s') la = Some (HList vs') /\ Forall2 sc vs' (old ++ ys) /\
      fr (eq la) (heap s) (heap s')
  | DErr e' => exists s', run_block ex [val_loop x y r a e] rho s = (Exc e', s')
  end.
Proof.
  intros Hr Hx Hy Hc Hl A B E HI1 Ez. unfold val_loop. rewrite (range_for _ _ _ _ _ _ Ez).
  pose proof (plist_core D at_ l la p x [Assign y (rd r); Expr (Meth (self_ a) "append" [Loc y] [])]
    (fun rho => pctx rho l bl /\ inv (drop (fun e => no_loc x e && no_loc y e) cm) rho (getA P D at_) C) (heap s) old) as F.
  specialize (F ltac:(intros rho1 v [J1 J2]; split; [now apply pctx_upd|apply inv_upd_loc; auto; intros e0 He0; now apply andb_prop in He0]) Hl).
  assert (HB : forall rho s vs, pctx rho l bl /\ inv (drop (fun e => no_loc x e && no_loc y e) cm) rho (getA P D at_) C ->
    nth_error (heap s) l = Some (HInst D at_) -> nth_error (heap s) la = Some (HList vs) ->
    match dec_val p (irest s) with
    | DOk y0 t => exists rho', run_block ex [Assign y (rd r); Expr (Meth (self_ a) "append" [Loc y] [])] rho s = (Ok (rho', None), obj_set la (HList (vs ++ [vof y0])) t s) /\
        pctx rho' l bl /\ inv (drop (fun e => no_loc x e && no_loc y e) cm) rho' (getA P D at_) C
    | DErr e => exists s', run_block ex [Assign y (rd r); Expr (Meth (self_ a) "append" [Loc y] [])] rho s = (Exc e, s')
    end).
  { intros rho1 s1 vs1 [J1 J2] L1 L2. pose proof (val_body D a bl at_ l la p y r rho1 s1 vs1 Hr Hy A J1 L1 L2) as V.
    destruct (dec_val p (irest s1)) as [w t|e1]; [|exact V]. exists (upd y (vof w) rho1). split; [exact V|]. split; [now apply pctx_upd|].
    apply inv_upd_loc; auto. intros e0 He0. now apply andb_prop in He0. }
  specialize (F HB rho s vs (Z.to_nat z)). specialize (F ltac:(split; [exact Hc|now apply inv_drop_loc]) eq_refl B E).
  destruct (dec_list (dec_val p) (Z.to_nat z) (irest s)) as [ys t|e1]; [|exact F].
  destruct F as (rho' & s' & vs' & F1 & [J1 J2] & F2 & F3 & F4 & F5 & F6 & F7).
  exists rho', s', vs'. auto 12.
Qed.

Lemma nodup2 (l la : nat) : NoDup [l; la] -> l <> la.
Proof. intros HN ->. inversion HN as [|? ? N1 N2]. apply N1. left. reflexivity. Qed.

Lemma par_plist D bl cm a p x y r e : rprim r = Some p -> local_okP x = true -> local_okP y = true -> bound cm a e = true ->
  par_ok D bl [val_loop x y r a e] cm (PList a p Done) (drop (fun e => no_loc x e && no_loc y e) cm).
Proof.
  intros Hr Hx Hy Hb s rho l at_ W0 C fp Hc Hl (la & vs & fp2 & A & B & E & E2 & ->) HN HI1. cbn [ready] in E2. subst fp2.
  destruct (bound_ok cm a e rho l bl D at_ C s Hb HI1 Hc Hl) as (z & Ez & Cz). cbn [dec2]. rewrite Cz.
  pose proof (val_for D bl cm a p x y r e z s rho l at_ C la vs _ Hr Hx Hy Hc Hl A B E HI1 Ez) as F.
  destruct (dec_list (dec_val p) (Z.to_nat z) (irest s)) as [ys t|e1]; cbn [dbind dmap on1 fst snd]; [|exact F].
  destruct F as (rho' & s' & vs' & F1 & J1 & J2 & F2 & F3 & F4 & F5 & F6 & F7). apply nodup2 in HN.
  exists rho', s', at_, [la]. split; [exact F1|]. split; [exact J1|]. split; [exact J2|]. eapply post_list; eauto.
  cbn [rep field]. rewrite String.eqb_refl. exists la, vs', (old_list a W0 ++ ys), []. auto 10.
Qed.

Lemma has_EB b cm rho ga C : has (EB b) cm = true -> inv cm rho ga C -> exists z, ga b = Some (VInt z) /\ count (CInt b) C = Some z.
Proof. intros H HI1. apply has_ok with (1 := H) in HI1. exact HI1. Qed.

Lemma par_derive D bl cm a b d p x y r : rprim r = Some p -> local_okP x = true -> local_okP y = true -> has (EB b) cm = true ->
  par_ok D bl [val_loop x y r a (Bin OSub (self_ b) (Lit (LInt d)))] cm (Derive a b d (PList a p Done))
    (drop (fun e => no_loc x e && no_loc y e && no_len a e) cm).
Proof.
  intros Hr Hx Hy Hb s rho l at_ W0 C fp Hc Hl (la & vs & fp2 & A & B & E & E2 & ->) HN HI1. cbn [ready] in E2. subst fp2.
  destruct (has_EB _ _ _ _ _ Hb HI1) as (z & Gz & Cz). cbn [dec2]. rewrite Cz.
  assert (Cl : count (CLen a) ((CLen a, z - d) :: C) = Some (z - d)).
  { unfold count. cbn. rewrite String.eqb_refl. reflexivity. }
  rewrite Cl.
  assert (Ez : ev (Bin OSub (self_ b) (Lit (LInt d))) rho s = (Ok (VInt (z - d)), s)).
  { assert (Es := evP_self _ _ _ _ _ _ _ _ Hc Hl Gz). remember (self_ b) as e0. cbn [eval lit_val]. unfold bind, ret. rewrite Es. reflexivity. }
  pose proof (val_for D bl cm a p x y r _ (z - d) s rho l at_ C la vs _ Hr Hx Hy Hc Hl A B E HI1 Ez) as F.
  destruct (dec_list (dec_val p) (Z.to_nat (z - d)) (irest s)) as [ys t|e1]; cbn [dbind dmap on1 fst snd]; [|exact F].
  destruct F as (rho' & s' & vs' & F1 & J1 & J2 & F2 & F3 & F4 & F5 & F6 & F7). apply nodup2 in HN.
  exists rho', s', at_, [la]. split; [exact F1|]. split; [exact J1|]. split.
  - unfold inv in *. rewrite Forall_forall in *. intros e0 He0. apply filter_In in He0 as [H1 H2]. apply andb_prop in H2 as [H2 H3].
    apply ok1_len; [exact H3|]. apply J2. apply filter_In. auto.
  - eapply post_list; eauto. cbn [rep field]. rewrite String.eqb_refl. exists la, vs', (old_list a W0 ++ ys), []. auto 10.
Qed.

Lemma range_for1 e z x body rho s : ev e rho s = (Ok (VInt z), s) ->
  run_block ex [For x (Builtin BRange [e]) body] rho s =
  for_loop (run_block ex body) x (map VInt (zseq 0 (Z.to_nat z))) rho s.
Proof.
  intros He.
  assert (ER : ev (Builtin BRange [e]) rho s = (Ok (VRange 0 z), s)).
  { cbn [eval eval_list]. unfold bind, ret. rewrite He. reflexivity. }
  remember (Builtin BRange [e]) as e0 eqn:Ee. cbn [run_block exec]. unfold bind. rewrite ER. cbn [iter_vals]. unfold ret.
  rewrite Z.sub_0_r. destruct (for_loop _ _ _ _ _) as [[[r [v|]]|] s']; reflexivity.
Qed.

Lemma ev_div e z d rho s : ev e rho s = (Ok (VInt z), s) -> 0 < d -> ev (Bin OFloorDiv e (Lit (LInt d))) rho s = (Ok (VInt (z / d)), s).
Proof. intros He Hd. cbn [eval lit_val]. unfold bind, ret. rewrite He. cbn [binop_val as_int]. destruct (Z.eqb_spec d 0); [lia|reflexivity]. Qed.

Lemma par_vlist D bl cm a p b dv x r : rprim r = Some p -> local_okP x = true -> has (EB b) cm = true -> 0 < dv ->
  par_ok D bl [For x (Builtin BRange [Bin OFloorDiv (self_ b) (Lit (LInt dv))]) [Expr (Meth (self_ a) "append" [rd r] [])]] cm
    (VList a p b dv Done) (drop (no_loc x) cm).
Proof.
  intros Hr Hx Hb Hd s rho l at_ W0 C fp Hc Hl (la & vs & fp2 & A & B & E & E2 & ->) HN HI1. cbn [ready] in E2. subst fp2.
  destruct (has_EB _ _ _ _ _ Hb HI1) as (z & Gz & Cz). cbn [dec2]. rewrite Cz.
  rewrite (range_for1 _ _ _ _ _ _ (ev_div _ _ _ _ _ (evP_self _ _ _ _ _ _ _ _ Hc Hl Gz) Hd)).
  pose proof (plist_core D at_ l la p x [Expr (Meth (self_ a) "append" [rd r] [])]
    (fun rho => pctx rho l bl /\ inv (drop (no_loc x) cm) rho (getA P D at_) C) (heap s) (old_list a W0)) as F.
  specialize (F ltac:(intros rho1 v [J1 J2]; split; [now apply pctx_upd|apply inv_upd_loc; auto]) Hl).
  assert (HB : forall rho s vs, pctx rho l bl /\ inv (drop (no_loc x) cm) rho (getA P D at_) C ->
    nth_error (heap s) l = Some (HInst D at_) -> nth_error (heap s) la = Some (HList vs) ->
    match dec_val p (irest s) with
    | DOk y0 t => exists rho', run_block ex [Expr (Meth (self_ a) "append" [rd r] [])] rho s = (Ok (rho', None), obj_set la (HList (vs ++ [vof y0])) t s) /\
        pctx rho' l bl /\ inv (drop (no_loc x) cm) rho' (getA P D at_) C
    | DErr e => exists s', run_block ex [Expr (Meth (self_ a) "append" [rd r] [])] rho s = (Exc e, s')
    end).
  { intros rho1 s1 vs1 [J1 J2] L1 L2. pose proof (evP_read rho1 l bl r p s1 J1 Hr) as ER.
    destruct (dec_val p (irest s1)) as [w t|e1].
    - exists rho1. split; [|auto]. eapply exec_expr.
      change (obj_set la (HList (vs1 ++ [vof w])) t s1) with (obj_set la (HList (vs1 ++ [vof w])) (irest (set_in t s1)) (set_in t s1)).
      eapply ev_append; eauto.
    - eexists. eapply exec_expr_exc. eapply ev_append_exc; eauto. }
  specialize (F HB rho s vs (Z.to_nat (z / dv))). specialize (F ltac:(split; [exact Hc|eapply drop_ok; eauto]) eq_refl B E).
  destruct (dec_list (dec_val p) (Z.to_nat (z / dv)) (irest s)) as [ys t|e1]; cbn [dbind dmap on1 fst snd]; [|exact F].
  destruct F as (rho' & s' & vs' & F1 & [J1 J2] & F2 & F3 & F4 & F5 & F6 & F7). apply nodup2 in HN.
  exists rho', s', at_, [la]. split; [exact F1|]. split; [exact J1|]. split; [exact J2|]. eapply post_list; eauto.
  cbn [rep field]. rewrite String.eqb_refl. exists la, vs', (old_list a W0 ++ ys), []. auto 10.
Qed.

Lemma par_null D bl cm a x y g e : bound cm a e = true -> undefined g = true ->
  par_ok D bl [elem_loop x y g a e] cm (NullL a Done) cm.
Proof.
  intros Hb Hu s rho l at_ W0 C fp Hc Hl (la & fp2 & A & B & E2 & ->) HN HI1. cbn [ready] in E2. subst fp2.
  destruct (bound_ok cm a e rho l bl D at_ C s Hb HI1 Hc Hl) as (z & Ez & Cz). cbn [dec2]. rewrite Cz.
  unfold elem_loop. rewrite (range_for _ _ _ _ _ _ Ez).
  destruct (Z.leb_spec z 0) as [Hz|Hz].
  - replace (Z.to_nat z) with 0%nat by lia. cbn [zseq map for_loop dmap on1 fst snd]. exists rho, s, at_, [la].
    split; [reflexivity|]. split; [exact Hc|]. split; [exact HI1|]. apply nodup2 in HN. eapply post_list; eauto.
    + apply fr_refl.
    + cbn [rep field]. rewrite String.eqb_refl. exists la, []. auto 10.
  - destruct (Z.to_nat z) as [|m] eqn:Em; [lia|]. cbn [zseq map for_loop]. eexists. unfold bind at 1.
    change (Assign y (CallV (Glob g) [] []) :: ?r) with ([Assign y (CallV (Glob g) [] [])] ++ r).
    rewrite run_block_app. erewrite exec_assign_exc; [reflexivity|].
    unfold undefined in Hu. cbn [eval]. unfold bind, glob. destruct (get_cls P g); [discriminate|].
    apply andb_prop in Hu as [U1 U2]. destruct (String.eqb g _); [discriminate|]. destruct (assoc g (p_funs P)); [discriminate|]. reflexivity.
Qed.

Lemma elem_rep_in h c sub vs ws fps v x fp : Forall3 (elem_rep P h c sub) vs ws fps -> elem_rep P h c sub v x fp ->
  Forall3 (elem_rep P h c sub) (vs ++ [v]) (ws ++ [x]) (fps ++ [fp]).
Proof. intros F H. induction F; cbn [app]; constructor; auto. constructor. Qed.

Lemma par_olist D bl cm a c sub x y e : callp_ok c sub -> new_ok c sub -> get_cls P c <> None ->
  local_okP x = true -> local_okP y = true -> bound cm a e = true ->
  par_ok D bl [elem_loop x y c a e] cm (OList a c sub Done) (drop (fun e => no_loc x e && no_loc y e) cm).
Proof.
  intros HC HNew Hcls Hx Hy Hb s rho l at_ W0 C fp Hc Hl (la & vs & fps & fp2 & A & B & E & E2 & ->) HN HI1. cbn [ready] in E2. subst fp2.
  destruct (bound_ok cm a e rho l bl D at_ C s Hb HI1 Hc Hl) as (z & Ez & Cz). cbn [dec2]. rewrite Cz.
  unfold elem_loop. rewrite (range_for _ _ _ _ _ _ Ez). rewrite app_nil_r in HN |- *.
  set (cm' := drop (fun e => no_loc x e && no_loc y e) cm).
  set (body := [Assign y (CallV (Glob c) [] []); Expr (Meth (Loc y) "parse" [istream] []); Expr (Meth (self_ a) "append" [Loc y] [])]).
  pose (Inv := fun (rho : env) (s1 : st) (acc : list flds) => pctx rho l bl /\ inv cm' rho (getA P D at_) C /\ ifull s1 = ifull s /\ out s1 = out s /\
    fr (fun x => x = la) (heap s) (heap s1) /\ exists vs' fps', nth_error (heap s1) la = Some (HList vs') /\
      Forall3 (elem_rep P (heap s1) c sub) vs' (old_list a W0 ++ map WObj acc) fps' /\ NoDup (l :: la :: concat fps') /\
      (forall x, In x (concat fps') -> In x (concat fps) \/ (length (heap s) <= x)%nat)).
  assert (S : forall rho s1 acc, Inv rho s1 acc ->
    match decode sub [] [] (irest s1) with
    | DOk w r => exists rho' s', run_block ex body (upd x (VInt (Z.of_nat (length acc))) rho) s1 = (Ok (rho', None), s') /\ irest s' = r /\ Inv rho' s' (acc ++ [w])
    | DErr e => exists s', run_block ex body (upd x (VInt (Z.of_nat (length acc))) rho) s1 = (Exc e, s')
    end).
  { intros rho1 s1 acc (J1 & J2 & A2 & A3 & A4 & vs1 & fps1 & A5 & A6 & A7 & A8).
    apply pctx_upd with (x := x) (v := VInt (Z.of_nat (length acc))) in J1; [|exact Hx].
    assert (J3 : inv cm' (upd x (VInt (Z.of_nat (length acc))) rho1) (getA P D at_) C).
    { apply inv_upd_loc; auto. intros e0 He0. now apply andb_prop in He0. }
    clear J2. revert J1 J3. generalize (upd x (VInt (Z.of_nat (length acc))) rho1). clear rho1. intros rho1 J1 J2.
    assert (Hl1 : nth_error (heap s1) l = Some (HInst D at_)).
    { rewrite <- Hl. apply A4; [eapply nth_lt; eauto|]. intros ->. inversion A7 as [|? ? N1 N2]. apply N1. left. reflexivity. }
    destruct (HNew s1) as (s2 & l2 & at2 & fp2 & B1 & B2 & B3 & B4 & B5 & B6 & B7 & B8 & B9).
    assert (Enew : ev (CallV (Glob c) [] []) rho1 s1 = (Ok (VRef l2), s2)).
    { cbn [eval eval_list]. unfold glob. destruct (get_cls P c); [|congruence]. unfold bind, ret. cbn [callee_of]. exact B1. }
    assert (J1' := pctx_upd _ _ _ y (VRef l2) J1 Hy).
    assert (J2' : inv cm' (upd y (VRef l2) rho1) (getA P D at_) C).
    { apply inv_upd_loc; auto. intros e0 He0. now apply andb_prop in He0. }
    assert (Ey : forall s', ev (Loc y) (upd y (VRef l2) rho1) s' = (Ok (VRef l2), s')).
    { intros s'. cbn [eval]. rewrite assoc_upd_eq. reflexivity. }
    destruct (HC s2 l2 at2 [] fp2 B2 B3 B4) as (m & L & K & Q). rewrite B7 in Q.
    assert (Ep := ev_parse _ _ _ _ s2 _ _ _ _ J1' (Ey s2) B2 L K).
    unfold body. change (Assign y (CallV (Glob c) [] []) :: Expr (Meth (Loc y) "parse" [istream] []) :: ?r) with
      ([Assign y (CallV (Glob c) [] [])] ++ [Expr (Meth (Loc y) "parse" [istream] [])] ++ r).
    rewrite run_block_app, (exec_assign _ y _ _ _ _ Enew). cbv beta iota. rewrite run_block_app.
    destruct (decode sub [] [] (irest s1)) as [w t|e1].
    2: { destruct Q as (s3 & Q). rewrite Q in Ep. exists s3. erewrite exec_expr_exc; [reflexivity|exact Ep]. }
    destruct Q as (s3 & at3 & fp3 & Q & [q1 q2 q3 q4 q5 q6 q7 q8 q9]). rewrite Q in Ep. rewrite (exec_expr _ _ _ _ _ Ep). cbv beta iota.
    assert (F13 : fr (fun _ => False) (heap s1) (heap s3)).
    { eapply fr_trans; [exact B6|exact q5|]. intros q Hq [->|Hq2].
      - specialize (B5 l2 ltac:(left; reflexivity)). lia.
      - specialize (B5 q ltac:(right; exact Hq2)). lia. }
    assert (V := elems_valid _ _ _ _ _ _ A6). pose proof (nth_lt _ _ _ A5) as Va. pose proof (nth_lt _ _ _ Hl1) as Vl.
    assert (Hla3 : nth_error (heap s3) la = Some (HList vs1)) by (rewrite <- A5; apply F13; [exact Va|auto]).
    assert (Hl3 : nth_error (heap s3) l = Some (HInst D at_)) by (rewrite <- Hl1; apply F13; [exact Vl|auto]).
    assert (Fr3 : forall q, In q (l2 :: fp3) -> (length (heap s1) <= q)%nat).
    { intros q [<-|Hq]; [apply B5; left; reflexivity|]. destruct (q4 q Hq) as [Hq'|Hq']; [apply B5; right; exact Hq'|]. destruct B6 as [B6 _]. lia. }
    exists (upd y (VRef l2) rho1), (obj_set la (HList (vs1 ++ [VRef l2])) t s3).
    split.
    { erewrite exec_expr; [reflexivity|]. rewrite <- q7. eapply ev_append; eauto. }
    split; [reflexivity|]. split; [exact J1'|]. split; [exact J2'|]. cbn [obj_set ifull out heap].
    split; [congruence|]. split; [congruence|].
    destruct A4 as [A4 A4'].
    assert (F03 : fr (fun x => x = la) (heap s) (heap s3)).
    { eapply fr_trans; [split; [exact A4|exact A4']|exact F13|]. intros q _ []. }
    split.
    { eapply fr_trans; [exact F03|apply fr_set|]. intros q _ Hq. auto. }
    exists (vs1 ++ [VRef l2]), (fps1 ++ [l2 :: fp3]).
    split; [apply set_nth_eq; eapply nth_lt; eauto|]. rewrite map_app, app_assoc. split.
    - apply elem_rep_in.
      + eapply elems_ext; [exact A6|]. intros q Hq. rewrite set_nth_ne.
        * apply F13; auto.
        * intros <-. inversion A7 as [|? ? N1 N2]; subst. inversion N2 as [|? ? N3 N4]; subst. auto.
      + exists l2, at3, w, fp3. assert (Hd : forall q, In q (l2 :: fp3) -> la <> q) by (intros q Hq <-; specialize (Fr3 _ Hq); lia).
        split; [reflexivity|]. split; [rewrite set_nth_ne; [exact q1|apply Hd; left; reflexivity]|]. split; [reflexivity|]. split; [|reflexivity].
        eapply rep_ext; [exact q2| | |]; auto. intros q Hq. apply set_nth_ne, Hd. right. exact Hq.
    - rewrite concat_app. cbn [concat]. rewrite app_nil_r. split.
      + change (NoDup ((l :: la :: concat fps1) ++ (l2 :: fp3))). apply NoDup_app; [exact A7|exact q3|].
        intros q Hq Hq2. specialize (Fr3 _ Hq2). destruct Hq as [<-|[<-|Hq]]; [lia|lia|]. specialize (V _ Hq). lia.
      + intros q Hq. apply in_app_or in Hq as [Hq|Hq]; [auto|]. right. specialize (Fr3 _ Hq). lia. }
  pose proof (for_dec (decode sub [] []) Inv (run_block ex body) x S (Z.to_nat z) rho s []) as F. cbn [length Z.of_nat app] in F.
  assert (I0 : Inv rho s []).
  { split; [exact Hc|]. split; [now apply inv_drop_loc|]. split; [reflexivity|]. split; [reflexivity|]. split; [apply fr_refl|].
    exists vs, fps. cbn [map]. rewrite app_nil_r. auto. }
  specialize (F I0). destruct (dec_list (decode sub [] []) (Z.to_nat z) (irest s)) as [ys t|e1]; cbn [dbind dmap on1 fst snd]; [|exact F].
  destruct F as (rho' & s' & F1 & F2 & J1 & J2 & A2 & A3 & A4 & vs1 & fps1 & A5 & A6 & A7 & A8).
  exists rho', s', at_, (la :: concat fps1). split; [exact F1|]. split; [exact J1|]. split; [exact J2|].
  constructor; auto.
  - rewrite <- Hl. apply A4; [eapply nth_lt; eauto|]. intros ->. inversion A7 as [|? ? N1 N2]. apply N1. left. reflexivity.
  - cbn [rep field]. rewrite String.eqb_refl. exists la, vs1, (old_list a W0 ++ map WObj ys), fps1, []. rewrite app_nil_r. auto 10.
  - intros q [<-|Hq]; [left; left; reflexivity|]. destruct (A8 q Hq); [left; right; assumption|auto].
  - eapply fr_weak; [exact A4|]. intros q _ ->. right. left. reflexivity.
Qed.


(** ** Arrays of fixed length *)
Lemma repeat_list_one {A} (v : A) k : repeat_list k [v] = repeat v k.
Proof. induction k; cbn [repeat_list repeat app]; congruence. Qed.

Lemma set_nth_app {A} (u w : list A) v y : set_nth (length u) y (u ++ v :: w) = u ++ y :: w.
Proof. induction u as [|a u IH]; cbn [length app set_nth]; congruence. Qed.

Lemma arr_loop D bl a p x y r l la at_ C cm' : rprim r = Some p -> local_okP x = true -> local_okP y = true -> x <> y ->
  (forall rho v, inv cm' rho (getA P D at_) C -> inv cm' (upd x v rho) (getA P D at_) C) ->
  (forall rho v, inv cm' rho (getA P D at_) C -> inv cm' (upd y v rho) (getA P D at_) C) ->
  getA P D at_ a = Some (VRef la) -> l <> la ->
  forall m rho s acc vs, pctx rho l bl -> inv cm' rho (getA P D at_) C ->
  nth_error (heap s) l = Some (HInst D at_) -> nth_error (heap s) la = Some (HList (vs ++ repeat (VInt 0) m)) -> Forall2 sc vs acc ->
  match dec_list (dec_val p) m (irest s) with
  | DOk ys t => exists rho' s' vs', for_loop (run_block ex [Assign y (rd r); SetSub (self_ a) (Loc x) (Loc y)]) x
        (map VInt (zseq (Z.of_nat (length vs)) m)) rho s = (Ok (rho', None), s') /\ pctx rho' l bl /\ inv cm' rho' (getA P D at_) C /\
      irest s' = t /\ ifull s' = ifull s /\ out s' = out s /\ nth_error (heap s') la = Some (HList vs') /\ Forall2 sc vs' (acc ++ ys) /\
      fr (eq la) (heap s) (heap s')
  | DErr e' => exists s', for_loop (run_block ex [Assign y (rd r); SetSub (self_ a) (Loc x) (Loc y)]) x
        (map VInt (zseq (Z.of_nat (length vs)) m)) rho s = (Exc e', s')
  end.
Proof.
  intros Hr Hx Hy Hxy Ix Iy Hg Hne. induction m as [|m IH]; intros rho s acc vs Hc HI1 Hl Hla HF; cbn [dec_list zseq map for_loop].
  - exists rho, s, vs. cbn [repeat] in Hla. rewrite app_nil_r in *. repeat split; auto; apply Hc.
  - apply pctx_upd with (x := x) (v := VInt (Z.of_nat (length vs))) in Hc; [|exact Hx].
    apply Ix with (v := VInt (Z.of_nat (length vs))) in HI1.
    assert (Ax : assoc x (upd x (VInt (Z.of_nat (length vs))) rho) = Some (VInt (Z.of_nat (length vs)))) by apply assoc_upd_eq.
    revert Hc HI1 Ax. generalize (upd x (VInt (Z.of_nat (length vs))) rho). clear rho. intros rho Hc HI1 Ax.
    pose proof (evP_read rho l bl r p s Hc Hr) as E.
    change ([Assign y (rd r); SetSub (self_ a) (Loc x) (Loc y)]) with ([Assign y (rd r)] ++ [SetSub (self_ a) (Loc x) (Loc y)]).
    destruct (dec_val p (irest s)) as [w t|e] eqn:Ed; cbn [dbind].
    2: { eexists. unfold bind at 1. rewrite run_block_app, (exec_assign_exc _ y _ _ _ _ E). reflexivity. }
    assert (Hc' := pctx_upd _ _ _ y (vof w) Hc Hy). assert (HI2 := Iy _ (vof w) HI1).
    set (s1 := obj_set la (HList ((vs ++ [vof w]) ++ repeat (VInt 0) m)) t s).
    assert (EB : run_block ex ([Assign y (rd r)] ++ [SetSub (self_ a) (Loc x) (Loc y)]) rho s = (Ok (upd y (vof w) rho, None), s1)).
    { rewrite run_block_app, (exec_assign _ y _ _ _ _ E). cbv beta iota.
      assert (Es : ev (self_ a) (upd y (vof w) rho) (set_in t s) = (Ok (VRef la), set_in t s)) by (eapply evP_self; eauto).
      remember (self_ a) as e0. cbn [run_block exec eval]. rewrite assoc_upd_eq. rewrite assoc_upd_ne by congruence. rewrite Ax.
      unfold bind, ret. rewrite Es. cbn [set_sub]. unfold bind, hget. cbn [set_in heap]. rewrite Hla. cbn [as_int]. unfold py_index.
      rewrite app_length. cbn [repeat length].
      replace ((0 <=? Z.of_nat (length vs)) && (Z.of_nat (length vs) <? Z.of_nat (length vs + S (length (repeat (VInt 0) m))))) with true.
      2: { symmetry. apply andb_true_intro. split; [apply Z.leb_le; lia|apply Z.ltb_lt; lia]. }
      rewrite Nat2Z.id, set_nth_app. unfold hset. cbn [set_in heap irest ifull out]. unfold s1, obj_set. rewrite <- app_assoc. reflexivity. }
    specialize (IH (upd y (vof w) rho) s1 (acc ++ [w]) (vs ++ [vof w]) Hc' HI2).
    assert (Hla1 : nth_error (heap s1) la = Some (HList ((vs ++ [vof w]) ++ repeat (VInt 0) m))) by (apply set_nth_eq; eapply nth_lt; eauto).
    assert (Hl1 : nth_error (heap s1) l = Some (HInst D at_)) by (unfold s1; cbn [obj_set heap]; rewrite set_nth_ne by congruence; exact Hl).
    assert (HF1 : Forall2 sc (vs ++ [vof w]) (acc ++ [w])).
    { apply Forall2_app; [exact HF|]. constructor; [|constructor]. apply scal_vof. eapply dec_val_num; eauto. }
    specialize (IH Hl1 Hla1 HF1). rewrite app_length in IH. cbn [length] in IH. rewrite Nat2Z.inj_add in IH. change (Z.of_nat 1) with 1 in IH.
    change (irest s1) with t in IH.
    destruct (dec_list (dec_val p) m t) as [ys t'|e]; cbn [dmap].
    + destruct IH as (rho' & s' & vs' & I1 & I2 & I3 & I4 & I5 & I6 & I7 & I8 & I9). exists rho', s', vs'. unfold bind at 1. rewrite EB.
      cbn [fst snd]. split; [exact I1|]. rewrite <- app_assoc in I8. repeat split; auto; try apply I2; try apply I9.
      * destruct I9 as [I9 _]. unfold s1 in I9. cbn [obj_set heap] in I9. rewrite set_nth_length in I9. exact I9.
      * intros q Hq Hne2. destruct I9 as [_ I9]. rewrite I9; [unfold s1; cbn [obj_set heap]; apply set_nth_ne; congruence| |exact Hne2].
        unfold s1. cbn [obj_set heap]. rewrite set_nth_length. exact Hq.
    + destruct IH as (s' & IH). exists s'. unfold bind at 1. rewrite EB. exact IH.
Qed.

Lemma par_arr D bl cm a p k x y r : rprim r = Some p -> local_okP x = true -> local_okP y = true -> x <> y -> plain_attr D a = true ->
  par_ok D bl [SetAttr (Loc "self") a (Bin OMul (ListE [Lit (LInt 0)]) (Lit (LInt (Z.of_nat k)))); idx_loop x y r a (Z.of_nat k)] cm
    (Arr a p k Done) (drop (fun e => no_loc x e && no_loc y e && no_attr a e) cm).
Proof.
  intros Hr Hx Hy Hxy Ha s rho l at_ W0 C fp Hc Hl E2 HN HI1. cbn [ready] in E2. subst fp. cbn [dec2].
  set (h1 := heap s ++ [HList [VInt 0]]). set (la := length h1). set (s2 := mkst (h1 ++ [HList (repeat (VInt 0) k)]) (irest s) (ifull s) (out s)).
  assert (EL : ev (Bin OMul (ListE [Lit (LInt 0)]) (Lit (LInt (Z.of_nat k)))) rho s = (Ok (VRef la), s2)).
  { cbn [eval eval_list lit_val]. unfold bind, ret, halloc. cbn [binop_val as_int heap irest ifull out]. unfold bind, hget. cbn [heap].
    rewrite nth_error_app2, Nat.sub_diag by lia. cbn [nth_error]. unfold halloc. cbn [heap irest ifull out]. rewrite Nat2Z.id, repeat_list_one. reflexivity. }
  pose proof (nth_lt _ _ _ Hl) as Vl.
  assert (Hl2 : nth_error (heap s2) l = Some (HInst D at_)).
  { unfold s2, h1. cbn [heap]. rewrite <- app_assoc, nth_error_app1 by exact Vl. exact Hl. }
  assert (Hne : l <> la) by (unfold la, h1; rewrite app_length; lia).
  set (at2 := upd a (VRef la) at_). set (s3 := obj_set l (HInst D at2) (irest s) s2).
  change ([?c; ?d]) with ([c] ++ [d]). rewrite run_block_app.
  rewrite (exec_set D rho l bl at_ s s2 a _ (VRef la) Hc Ha EL Hl2).
  unfold idx_loop. cbv beta iota. rewrite range_for with (z := Z.of_nat k) by reflexivity. rewrite Nat2Z.id.
  set (cm' := drop (fun e => no_loc x e && no_loc y e && no_attr a e) cm).
  assert (G2 : getA P D at2 a = Some (VRef la)) by now apply getA_upd_eq.
  assert (Hl3 : nth_error (heap s3) l = Some (HInst D at2)) by (apply set_nth_eq; eapply nth_lt; eauto).
  assert (Hla3 : nth_error (heap s3) la = Some (HList ([] ++ repeat (VInt 0) k))).
  { unfold s3. cbn [obj_set heap]. rewrite set_nth_ne by congruence. unfold s2. cbn [heap]. rewrite nth_error_app2, Nat.sub_diag by (unfold la; lia). reflexivity. }
  pose proof (arr_loop D bl a p x y r l la at2 C cm' Hr Hx Hy Hxy) as F.
  specialize (F ltac:(intros rho1 v J; apply inv_upd_loc; auto; intros e0 He0; apply andb_prop in He0 as [He0 _]; now apply andb_prop in He0)).
  specialize (F ltac:(intros rho1 v J; apply inv_upd_loc; auto; intros e0 He0; apply andb_prop in He0 as [He0 _]; now apply andb_prop in He0) G2 Hne).
  specialize (F k rho s3 [] [] Hc).
  assert (HI2 : inv cm' rho (getA P D at2) C).
  { eapply drop_ok; [exact HI1|]. intros e0 He0 H0. apply andb_prop in He0 as [_ He0]. eapply ok1_attr; [exact He0| |exact H0].
    intros b Hb. now apply getA_upd_ne. }
  specialize (F HI2 Hl3 Hla3 ltac:(constructor)). cbn [length Z.of_nat app] in F. change (irest s3) with (irest s) in F.
  assert (E3 : obj_set l (HInst D (upd a (VRef la) at_)) (irest s2) s2 = s3) by reflexivity. rewrite E3.
  destruct (dec_list (dec_val p) k (irest s)) as [ys t|e]; cbn [dbind dmap on1 fst snd]; [|exact F].
  destruct F as (rho' & s' & vs' & I1 & I2 & I3 & I4 & I5 & I6 & I7 & I8 & I9). exists rho', s', at2, [la].
  split; [exact I1|]. split; [exact I2|]. split; [exact I3|].
  assert (LL : length (heap s3) = S (S (length (heap s)))).
  { unfold s3, s2, h1. cbn [obj_set heap]. rewrite set_nth_length, !app_length. cbn [length]. lia. }
  constructor; auto.
  - rewrite <- Hl3. apply I9; [lia|congruence].
  - cbn [rep field]. rewrite String.eqb_refl. exists la, vs', ys, []. auto 10.
  - constructor; [intros [H|[]]; congruence|]. constructor; [intros []|constructor].
  - intros q [<-|[]]. right. unfold la, h1. rewrite app_length. lia.
  - destruct I9 as [J1 J2]. split; [lia|]. intros q Hq Hnq. rewrite J2; [|lia|unfold la, h1; rewrite app_length; cbn [length]; lia].
    unfold s3, s2, h1. cbn [obj_set heap]. rewrite set_nth_ne by (intros ->; apply Hnq; auto). rewrite <- app_assoc, nth_error_app1 by exact Hq. reflexivity.
  - intros b Hb _. unfold at2. apply assoc_upd_ne. intros ->. apply Hb. left. reflexivity.
Qed.

(** ** Padding after variable-length data *)
Lemma par_pad D bl cm b x : local_okP x = true -> has (EB b) cm = true -> lookup P D pad_name = Some (pad_meth b) ->
  par_ok D bl [For x (Builtin BRange [Bin OFloorDiv (Meth (Loc "self") pad_name [] []) (Lit (LInt 8))]) [Expr (rd "read_unsigned_byte")]] cm
    (Pad b Done) (drop (no_loc x) cm).
Proof.
  intros Hx Hb Hlk s rho l at_ W0 C fp Hc Hl E2 HN HI1. cbn [ready] in E2. subst fp.
  destruct (has_EB _ _ _ _ _ Hb HI1) as (z & Gz & Cz). cbn [dec2]. rewrite Cz.
  assert (EP : ev (Meth (Loc "self") pad_name [] []) rho s = (Ok (VInt (pad_bits z)), s)).
  { cbn [eval eval_list]. destruct Hc as (A & _). rewrite A. unfold bind, ret, resolve. unfold bind, hget. rewrite Hl, Hlk. unfold pad_meth. cbn [m_kind].
    unfold ret. cbn [apply app]. erewrite run_pad; [|lia|reflexivity|exact Hl|exact Gz|reflexivity]. reflexivity. }
  rewrite (range_for1 _ _ _ _ _ _ (ev_div _ _ 8 _ _ EP eq_refl)). fold (pad_bytes z).
  pose (Inv := fun (rho : env) (s1 : st) (acc : list wv) => pctx rho l bl /\ inv (drop (no_loc x) cm) rho (getA P D at_) C /\
    heap s1 = heap s /\ ifull s1 = ifull s /\ out s1 = out s).
  assert (S : forall rho s1 acc, Inv rho s1 acc ->
    match dec_val (PInt 1 false) (irest s1) with
    | DOk w r => exists rho' s', run_block ex [Expr (rd "read_unsigned_byte")] (upd x (VInt (Z.of_nat (length acc))) rho) s1 = (Ok (rho', None), s') /\ irest s' = r /\ Inv rho' s' (acc ++ [w])
    | DErr e => exists s', run_block ex [Expr (rd "read_unsigned_byte")] (upd x (VInt (Z.of_nat (length acc))) rho) s1 = (Exc e, s')
    end).
  { intros rho1 s1 acc (J1 & J2 & J3 & J4 & J5).
    apply pctx_upd with (x := x) (v := VInt (Z.of_nat (length acc))) in J1; [|exact Hx].
    apply inv_upd_loc with (x := x) (v := VInt (Z.of_nat (length acc))) in J2; [|auto].
    pose proof (evP_read _ l bl "read_unsigned_byte" (PInt 1 false) s1 J1 eq_refl) as E.
    destruct (dec_val (PInt 1 false) (irest s1)) as [w t|e].
    - do 2 eexists. split; [eapply exec_expr; exact E|]. split; [reflexivity|]. repeat split; auto; apply J1.
    - eexists. eapply exec_expr_exc. exact E. }
  pose proof (for_dec _ Inv _ x S (pad_bytes z) rho s []) as F. cbn [length Z.of_nat app] in F.
  specialize (F ltac:(split; [exact Hc|]; split; [eapply drop_ok; eauto|auto])).
  destruct (dec_list (dec_val (PInt 1 false)) (pad_bytes z) (irest s)) as [ys t|e]; cbn [dbind]; [|exact F].
  destruct F as (rho' & s' & F1 & F2 & J1 & J2 & J3 & J4 & J5). exists rho', s', at_, []. split; [exact F1|]. split; [exact J1|]. split; [exact J2|].
  rewrite <- F2. constructor; auto; try (rewrite J3; auto; apply fr_refl); try reflexivity; intros q [].
Qed.


(** ** Bit fields *)
Notation battrs := (flat_map (fun b : bfield => match bf_attr b with Some a => [a] | None => [] end)).

Fixpoint agree (FS : list (string * Z)) (ZS : list Z) (u : Z) (fs : list (string * Z)) : Prop :=
  match fs with
  | [] => True
  | (nm, w) :: r => bits_field nm FS ZS = Some ((u / 2 ^ bits_total r) mod 2 ^ w) /\ agree FS ZS u r
  end.

Lemma bits_field_agree u fs : nodupb (map fst fs) = true -> agree fs (bits_unpack fs u) u fs.
Proof.
  enough (A : forall r FS ZS, nodupb (map fst r) = true -> (forall nm, In nm (map fst r) -> bits_field nm FS ZS = bits_field nm r (bits_unpack r u)) -> agree FS ZS u r).
  { intros H. apply A; auto. }
  induction r as [|[nm w] r IH]; intros FS ZS H E; [exact I|]. cbn [map fst nodupb] in H. apply andb_prop in H as [H1 H2]. split.
  - rewrite E by (left; reflexivity). cbn [bits_field bits_unpack hd]. rewrite String.eqb_refl. reflexivity.
  - apply IH; [exact H2|]. intros b Hb. rewrite E by (right; exact Hb). cbn [bits_field bits_unpack tl].
    destruct (String.eqb_spec b nm) as [->|]; [|reflexivity]. exfalso. apply mem_In in Hb. rewrite Hb in H1. discriminate.
Qed.

Lemma dec_bits_names bf u : map fst (dec_bits bf u) = battrs bf.
Proof. induction bf as [|b r IH]; cbn [dec_bits flat_map]; [reflexivity|]. destruct (bf_attr b); cbn [map fst app]; congruence. Qed.

Lemma bits_sets D bl x FS ZS u rho l : pctx rho l bl -> assoc x rho = Some (VBitInst FS ZS) ->
  forall fs r bf, bits_matchP D x fs r bf = true -> agree FS ZS u fs -> nodupb (battrs bf) = true ->
  forall s at_, nth_error (heap s) l = Some (HInst D at_) ->
  exists s' at', run_block ex r rho s = (Ok (rho, None), s') /\ nth_error (heap s') l = Some (HInst D at') /\
    irest s' = irest s /\ ifull s' = ifull s /\ out s' = out s /\ fr (eq l) (heap s) (heap s') /\
    (forall a, ~ In a (battrs bf) -> assoc a at' = assoc a at_) /\
    bits_tot bf = bits_total fs /\
    Forall (fun b => match bf_attr b with
                     | None => True
                     | Some a => exists v y, getA P D at' a = Some v /\ scali v = Some y /\ field a (dec_bits bf u) = Some y
                     end) bf.
Proof.
  intros Hc Ax. induction fs as [|[nm w] fs IH]; intros r [|b bf] H Ag Hd s at_ Hl; cbn [bits_matchP] in H; try discriminate.
  - destruct r; [|discriminate]. exists s, at_. cbn [run_block]. unfold ret. repeat split; auto.
  - apply andb_prop in H as [Hw H]. apply Z.eqb_eq in Hw. destruct Ag as [Ag1 Ag2]. cbn [flat_map] in Hd.
    destruct (bf_attr b) as [a|] eqn:Eb.
    + destruct r as [|c r]; [discriminate|]. apply andb_prop in H as [H H3]. apply andb_prop in H as [H1 H2]. apply is_eq in H1. subst c.
      cbn [app nodupb] in Hd. apply andb_prop in Hd as [Hd1 Hd2].
      set (zv := (u / 2 ^ bits_total fs) mod 2 ^ w).
      assert (EV : ev (if bf_flag b then Builtin BBool [Attr (Loc x) nm] else Attr (Loc x) nm) rho s =
                   (Ok (if bf_flag b then VBool (negb (zv =? 0)) else VInt zv), s)).
      { destruct (bf_flag b); cbn [eval eval_list]; rewrite Ax; unfold bind, ret; cbn [get_attr]; rewrite Ag1; unfold ret; reflexivity. }
      assert (RB := exec_set D rho l bl at_ s s a _ _ Hc H2 EV Hl).
      set (at1 := upd a (if bf_flag b then VBool (negb (zv =? 0)) else VInt zv) at_) in *.
      set (s1 := obj_set l (HInst D at1) (irest s) s) in *.
      assert (Hl1 : nth_error (heap s1) l = Some (HInst D at1)) by (apply set_nth_eq; eapply nth_lt; eauto).
      destruct (IH r bf H3 Ag2 Hd2 s1 at1 Hl1) as (s' & at' & R1 & R2 & R3 & R4 & R5 & R6 & R7 & R8 & R9).
      assert (Na : ~ In a (battrs bf)) by (intros Hin; apply mem_In in Hin; rewrite Hin in Hd1; discriminate).
      exists s', at'. split.
      { change (?c :: r) with ([c] ++ r). rewrite run_block_app, RB. exact R1. }
      split; [exact R2|]. split; [exact R3|]. split; [exact R4|]. split; [exact R5|]. split.
      { eapply fr_trans; [apply fr_set|exact R6|]. auto. }
      split.
      { intros q Hq. rewrite R7 by (intros Hi; apply Hq; apply in_or_app; right; exact Hi). unfold at1. apply assoc_upd_ne.
        intros ->. apply Hq. cbn [flat_map]. rewrite Eb. left. reflexivity. }
      split.
      { change (bits_tot (b :: bf)) with (bf_width b + bits_tot bf). change (bits_total ((nm, w) :: fs)) with (w + bits_total fs). lia. }
      cbn [dec_bits]. rewrite Eb. constructor.
      * rewrite Eb. cbn [field]. rewrite String.eqb_refl. rewrite (getA_ext D at1 at' a) by (apply R7; exact Na). unfold at1.
        rewrite getA_upd_eq by exact H2. rewrite R8, <- Hw. fold zv. destruct (bf_flag b); do 2 eexists; (split; [reflexivity|split; reflexivity]).
      * eapply Forall_impl; [|apply Forall_and; [exact R9|apply Forall_forall; intros q Hq; exact Hq]].
        intros q [Q1 Q2]. destruct (bf_attr q) as [a'|] eqn:Eq; [|exact I]. destruct Q1 as (v & y & Q3 & Q4 & Q5). exists v, y. split; [exact Q3|]. split; [exact Q4|].
        cbn [field]. destruct (String.eqb_spec a' a) as [->|]; [|exact Q5]. exfalso. apply Na. apply in_flat_map. exists q. rewrite Eq. split; [exact Q2|left; reflexivity].
    + destruct (IH r bf H Ag2 Hd s at_ Hl) as (s' & at' & R1 & R2 & R3 & R4 & R5 & R6 & R7 & R8 & R9).
      exists s', at'. repeat split; auto; try apply R6.
      * intros q Hq. apply R7. cbn [flat_map] in Hq. rewrite Eb in Hq. exact Hq.
      * change (bits_tot (b :: bf)) with (bf_width b + bits_tot bf). change (bits_total ((nm, w) :: fs)) with (w + bits_total fs). lia.
      * cbn [dec_bits]. rewrite Eb. constructor; [rewrite Eb; exact I|exact R9].
Qed.

Lemma bits_tot_match D x fs r bf : bits_matchP D x fs r bf = true -> bits_tot bf = bits_total fs.
Proof.
  revert r bf. induction fs as [|[nm w] fs IH]; intros r [|b bf] H; cbn [bits_matchP] in H; try discriminate; [reflexivity|].
  apply andb_prop in H as [Hw H]. apply Z.eqb_eq in Hw.
  change (bits_tot (b :: bf)) with (bf_width b + bits_tot bf). change (bits_total ((nm, w) :: fs)) with (w + bits_total fs). f_equal; [lia|].
  destruct (bf_attr b); [|eauto]. destruct r; [discriminate|]. apply andb_prop in H as [_ H]. eauto.
Qed.

Lemma par_bits D bl cm x fs r bf : local_okP x = true -> lookup P D "_struct" = Some (MAttr (LBits fs)) ->
  nodupb (map fst fs) = true -> nodupb (names (Bits bf Done)) = true -> bits_matchP D x fs r bf = true ->
  par_ok D bl (Assign x (Meth (self_ "_struct") "parse" [istream] []) :: r) cm (Bits bf Done)
    (drop (fun e => no_loc x e && forallb (fun a => no_attr a e) (names (Bits bf Done))) cm).
Proof.
  intros Hx Hlk Hd1 Hd2 Hm s rho l at_ W0 C fp Hc Hl [Hst E2] HN HI1. cbn [ready] in E2. subst fp.
  cbn [names] in Hd2 |- *. rewrite app_nil_r in *. pose proof (bits_tot_match _ _ _ _ _ Hm) as Ht.
  assert (Hsz : bits_size fs = bits_bytes bf) by (unfold bits_size, bits_bytes; rewrite Ht; reflexivity).
  assert (Gs : getA P D at_ "_struct" = Some (VBitCls fs)) by (unfold getA; rewrite Hlk, Hst; reflexivity).
  destruct (read_bytes_ok P HI n (bits_size fs) s ltac:(lia)) as (k & K1 & K2).
  set (u := be_val (firstn (bits_bytes bf) (irest s))).
  assert (EV : ev (Meth (self_ "_struct") "parse" [istream] []) rho s =
    if (bits_bytes bf <=? length (irest s))%nat then (Ok (VBitInst fs (bits_unpack fs u)), set_in (skipn (bits_bytes bf) (irest s)) s)
    else (Exc ValueError, set_in (skipn (bits_bytes bf) (irest s)) s)).
  { assert (Es := evP_self _ _ _ _ _ _ _ _ Hc Hl Gs). destruct Hc as (_ & A & _). remember (self_ "_struct") as e0.
    cbn [eval eval_list]. rewrite A. unfold bind at 1. rewrite Es. unfold bind at 1. cbn [resolve String.eqb Ascii.eqb Bool.eqb orb]. unfold ret at 1.
    unfold bind at 1. unfold bind at 1. unfold ret at 1. unfold bind at 1. unfold ret at 1. unfold ret at 1. cbn [apply native String.eqb Ascii.eqb Bool.eqb].
    unfold bind at 1. rewrite K1. unfold bind at 1. cbn [app]. rewrite K2. rewrite firstn_length, Hsz.
    destruct (Nat.leb_spec (bits_bytes bf) (length (irest s))) as [Hle|Hle].
    - rewrite Nat.min_l by lia. rewrite Nat.ltb_irrefl. unfold ret. rewrite firstn_firstn, Nat.min_id. reflexivity.
    - rewrite Nat.min_r by lia. destruct (Nat.ltb_spec (length (irest s)) (bits_bytes bf)); [reflexivity|lia]. }
  cbn [dec2]. change (Assign x ?e :: r) with ([Assign x e] ++ r). rewrite run_block_app.
  destruct (bits_bytes bf <=? length (irest s))%nat.
  2: { eexists. rewrite (exec_assign_exc _ x _ _ _ _ EV). reflexivity. }
  rewrite (exec_assign _ x _ _ _ _ EV). cbv beta iota. cbn [dmap on1 fst snd]. rewrite app_nil_r. fold u.
  assert (Hc' := pctx_upd _ _ _ x (VBitInst fs (bits_unpack fs u)) Hc Hx).
  destruct (bits_sets D bl x fs (bits_unpack fs u) u _ l Hc' (assoc_upd_eq _ _ _) fs r bf Hm (bits_field_agree u fs Hd1) Hd2
    (set_in (skipn (bits_bytes bf) (irest s)) s) at_ Hl) as (s' & at' & R1 & R2 & R3 & R4 & R5 & R6 & R7 & R8 & R9).
  exists (upd x (VBitInst fs (bits_unpack fs u)) rho), s', at', []. split; [exact R1|]. split; [exact Hc'|]. split.
  - eapply drop_ok; [exact HI1|]. intros e0 He0 H0. apply andb_prop in He0 as [H1 H2]. apply ok1_loc; [exact H1|].
    rewrite forallb_forall in H2. clear -H0 H2 R7.
    destruct e0 as [a0 x0 m0|a0 b0 m0|b0]; cbn [ok1] in *; auto.
    + destruct H0 as (z & A & B). exists z. split; [|exact B]. rewrite <- A. apply getA_ext, R7. intros Hi. specialize (H2 _ Hi). cbn in H2. rewrite String.eqb_refl in H2. discriminate.
    + destruct H0 as (z & A & B). exists z. split; [|exact B]. rewrite <- A. apply getA_ext, R7. intros Hi. specialize (H2 _ Hi). cbn in H2. rewrite String.eqb_refl in H2. discriminate.
  - constructor; auto.
    + cbn [rep]. auto.
    + eapply fr_weak; [exact R6|]. intros q _ <-. auto.
    + intros q Hq _. apply R7. cbn [names] in Hq. rewrite app_nil_r in Hq. exact Hq.
Qed.

(** ** The check on bytelength *)
Lemma par_len D cm : lookup P D "is_positive_int" = Some pos_meth -> par_ok D true [len_check] cm Done cm.
Proof.
  intros Hlk s rho l at_ W0 C fp Hc Hl E2 HN HI1. cbn [ready] in E2. subst fp. cbn [dec2].
  exists rho, s, at_, []. split; [|split; [exact Hc|split; [exact HI1|now apply post_refl]]].
  destruct Hc as (A & _ & B). destruct (B eq_refl) as (v & V1 & V2).
  unfold len_check. destruct V2 as [->|(z & -> & Hz)].
  - cbn [run_block exec eval lit_val]. rewrite V1. unfold bind, ret. reflexivity.
  - assert (EM : ev (Meth (Loc "self") "is_positive_int" [Loc "bytelength"] []) rho s = (Ok (VBool true), s)).
    { cbn [eval eval_list]. rewrite A, V1. unfold bind, ret, resolve. unfold bind, hget. rewrite Hl, Hlk. unfold pos_meth. cbn [m_kind]. unfold ret. cbn [apply app].
      destruct n as [|n']; [lia|]. cbn [run m_params m_body bind_args length Nat.sub firstn skipn bind_pos bind_rest combine app]. cbn.
      unfold bind, ret. cbn. destruct (Z.leb_spec 0 z); [reflexivity|lia]. }
    remember (Meth (Loc "self") "is_positive_int" [Loc "bytelength"] []) as e0. cbn [run_block exec eval lit_val]. rewrite V1. unfold bind, ret.
    cbn. rewrite EM. reflexivity.
Qed.

End Run.
End Par.
