(** * The program: all translated classes *)
From Coq Require Import ZArith String List Bool.
From Verif Require Import Lang Bytes Interp ProgBase ProgDis.
Import ListNotations.
Open Scope string_scope.

Definition the_prog : prog :=
  mkprog (ProgBase_classes ++ ProgDis_classes) [("parseStandardVariableRecord", f_parseStandardVariableRecord)].
