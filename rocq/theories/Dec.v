(** * Decidable equality of syntax and layouts *)
From Coq Require Import ZArith String List Bool.
From Coq Require Import Strings.Byte.
From Verif Require Import Lang Spec.
Import ListNotations.

Definition byte_dec (x y : byte) : {x = y} + {x <> y}.
Proof.
  destruct (Byte.eqb x y) eqn:E.
  - left. apply Byte.byte_dec_bl. exact E.
  - right. intros ->. rewrite Byte.byte_dec_lb in E by reflexivity. discriminate.
Defined.

Definition pair_dec {A B} (da : forall x y : A, {x = y} + {x <> y}) (db : forall x y : B, {x = y} + {x <> y}) :
  forall x y : A * B, {x = y} + {x <> y}.
Proof. decide equality. Defined.

Definition opt_dec {A} (da : forall x y : A, {x = y} + {x <> y}) : forall x y : option A, {x = y} + {x <> y}.
Proof. decide equality. Defined.

Definition lit_dec (x y : lit) : {x = y} + {x <> y}.
Proof.
  decide equality; try apply Z.eq_dec; try apply bool_dec; try apply string_dec;
    apply list_eq_dec; [apply byte_dec|apply pair_dec; [apply string_dec|apply Z.eq_dec]].
Defined.

Definition binop_dec (x y : binop) : {x = y} + {x <> y}. Proof. decide equality. Defined.
Definition cmpop_dec (x y : cmpop) : {x = y} + {x <> y}. Proof. decide equality. Defined.
Definition builtin_dec (x y : builtin) : {x = y} + {x <> y}. Proof. decide equality. Defined.
Definition exn_dec (x y : exn) : {x = y} + {x <> y}. Proof. decide equality. Defined.
Definition mkind_dec (x y : mkind) : {x = y} + {x <> y}. Proof. decide equality. Defined.

Fixpoint expr_dec (x y : expr) {struct x} : {x = y} + {x <> y}.
Proof.
  decide equality; solve
    [ apply lit_dec | apply string_dec | apply binop_dec | apply cmpop_dec | apply builtin_dec
    | apply (list_eq_dec string_dec) | apply (list_eq_dec expr_dec) ].
Defined.

Fixpoint stmt_dec (x y : stmt) {struct x} : {x = y} + {x <> y}.
Proof.
  decide equality; solve [ apply expr_dec | apply string_dec | apply exn_dec | apply (list_eq_dec stmt_dec) ].
Defined.

Definition dflt_dec (x y : dflt) : {x = y} + {x <> y}.
Proof. decide equality; [apply lit_dec|apply Nat.eq_dec]. Defined.

Definition meth_dec (x y : meth) : {x = y} + {x <> y}.
Proof.
  decide equality; try apply (list_eq_dec stmt_dec); try apply bool_dec; try apply mkind_dec.
  apply (list_eq_dec (pair_dec string_dec (opt_dec dflt_dec))).
Defined.

Definition member_dec (x y : member) : {x = y} + {x <> y}.
Proof. decide equality; [apply meth_dec|apply lit_dec]. Defined.

Definition prim_dec (x y : prim) : {x = y} + {x <> y}.
Proof. decide equality; [apply bool_dec|apply Nat.eq_dec]. Defined.

Definition bfield_dec (x y : bfield) : {x = y} + {x <> y}.
Proof. decide equality; [apply bool_dec|apply Z.eq_dec|apply (opt_dec string_dec)]. Defined.

Fixpoint fmt_dec (x y : fmt) {struct x} : {x = y} + {x <> y}.
Proof.
  decide equality; solve
    [ apply string_dec | apply prim_dec | apply Z.eq_dec | apply Nat.eq_dec | apply (list_eq_dec bfield_dec) ].
Defined.

(** as booleans *)
Definition is {A} (dec : forall x y : A, {x = y} + {x <> y}) (x y : A) : bool := if dec x y then true else false.
Lemma is_eq {A} (dec : forall x y : A, {x = y} + {x <> y}) x y : is dec x y = true -> x = y.
Proof. unfold is. destruct (dec x y); [auto|discriminate]. Qed.
