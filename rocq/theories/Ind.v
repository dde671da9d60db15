(** * Induction principles for the nested syntax *)
From Coq Require Import List String.
From Verif Require Import Lang.
Import ListNotations.

(** induction over nested expressions *)
Lemma expr_ind' (Q : expr -> Prop)
  (H1 : forall l, Q (Lit l)) (H2 : forall x, Q (Loc x)) (H3 : forall x, Q (Glob x))
  (H4 : forall e a, Q e -> Q (Attr e a)) (H5 : forall e i, Q e -> Q i -> Q (Sub e i))
  (H6 : forall f args kws, Q f -> Forall Q args -> Q (CallV f args kws))
  (H7 : forall e m args kws, Q e -> Forall Q args -> Q (Meth e m args kws))
  (H8 : forall c m args kws, Forall Q args -> Q (Super c m args kws))
  (H9 : forall b args, Forall Q args -> Q (Builtin b args))
  (H10 : forall e a, Q e -> Q (HasAttr e a))
  (H11 : forall es, Forall Q es -> Q (ListE es)) (H12 : forall es, Forall Q es -> Q (TupleE es))
  (H13 : forall a b, Q a -> Q b -> Q (OrE a b)) (H14 : forall a b, Q a -> Q b -> Q (AndE a b))
  (H15 : forall a, Q a -> Q (NotE a)) (H16 : forall o a b, Q a -> Q b -> Q (Bin o a b))
  (H17 : forall o a b, Q a -> Q b -> Q (Cmp o a b)) (H18 : forall c a b, Q c -> Q a -> Q b -> Q (IfE c a b)) :
  forall e, Q e.
Proof.
  fix IH 1. intros e.
  pose (go := fix go (l : list expr) : Forall Q l :=
          match l with [] => Forall_nil Q | x :: r => Forall_cons x (IH x) (go r) end).
  destruct e;
  [ apply H1 | apply H2 | apply H3 | apply H4 | apply H5 | apply H6 | apply H7 | apply H8 | apply H9 | apply H10
  | apply H11 | apply H12 | apply H13 | apply H14 | apply H15 | apply H16 | apply H17 | apply H18 ];
  first [apply IH | apply go].
Qed.

Lemma stmt_ind' (Q : stmt -> Prop)
  (H1 : forall e, Q (Expr e)) (H2 : forall x e, Q (Assign x e)) (H3 : forall o a e, Q (SetAttr o a e))
  (H4 : forall o i e, Q (SetSub o i e)) (H5 : forall c a b, Forall Q a -> Forall Q b -> Q (If c a b))
  (H6 : forall x e b, Forall Q b -> Q (For x e b)) (H7 : forall e, Q (Return e)) (H8 : forall x, Q (Raise x))
  (H9 : forall e, Q (Assert e)) (H10 : Q Pass) : forall s, Q s.
Proof.
  fix IH 1. intros s.
  pose (go := fix go (l : list stmt) : Forall Q l :=
          match l with [] => Forall_nil Q | x :: r => Forall_cons x (IH x) (go r) end).
  destruct s;
  [apply H1|apply H2|apply H3|apply H4|apply H5|apply H6|apply H7|apply H8|apply H9|apply H10]; apply go.
Qed.
