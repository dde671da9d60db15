(** * The parse checker is sound *)
From Coq Require Import ZArith String List Bool Lia.
From Coq Require Import Strings.Byte.
From Verif Require Import Lang Bytes Interp ProgBase Spec Codec Codec2 Rep Dec StreamLem SerSound ParSound.
Import ListNotations.
Open Scope string_scope. Open Scope Z_scope. Open Scope list_scope.

Ltac chk :=
  repeat match goal with
  | H : (if ?b then _ else None) = Some _ |- _ => destruct b eqn:?; [|discriminate H]
  | H : match ?x with _ => _ end = Some _ |- _ => destruct x eqn:?; try discriminate H
  | H : _ && _ = true |- _ => apply andb_prop in H as [? ?]
  | H : is_opt _ _ _ = true |- _ => apply is_opt_eq in H
  | H : is _ _ _ = true |- _ => apply is_eq in H
  | H : Some _ = Some _ |- _ => injection H as H
  | H : (_ <? _) = true |- _ => apply Z.ltb_lt in H
  end.

Lemma fapp_assoc f g k : fapp f (fapp g k) = fapp (fapp f g) k.
Proof. induction f; cbn [fapp]; congruence. Qed.

Section Par.
Variable P : prog.
Hypothesis HO : get_cls P "DataOutputStream" = Some c_DataOutputStream.
Hypothesis HI : get_cls P "DataInputStream" = Some c_DataInputStream.
Variable T : list (string * fmt).
Variables X NC : list string.
Hypothesis HX : ~ In "_struct" X.
Notation istream := (Loc "inputStream").
Notation par_ok := (par_ok P X).
Notation callp_ok := (callp_ok P X).
Notation new_ok := (new_ok P).
Notation good := (good X).
Notation stepP := (stepP P T X NC).
Notation chkP := (chkP P T X NC).

Section Step.
Variables (n d : nat).
Hypothesis Hn : (2 <= n)%nat.
Variables (D : string) (bl : bool).
Variable sup : string -> bool -> fmt -> list cent -> option (fmt * list cent).
Hypothesis Hsup : forall Y given f cm r cm', (nest f <= d)%nat -> good f -> sup Y given f cm = Some (r, cm') -> (given = true -> bl = true) ->
  exists g, f = fapp g r /\ par_ok n D bl [Expr (Super Y "parse" (istream :: if given then [Loc "bytelength"] else []) [])] cm g cm'.
Hypothesis Hobj : forall c sub, assoc c T = Some sub -> (S (nest sub) <= d)%nat -> callp_ok n c sub.
Hypothesis Hnew : forall c sub, assoc c T = Some sub -> mem c NC = true -> (S (nest sub) <= d)%nat -> new_ok n c sub.

Ltac side := eauto; try lia; try congruence.
Ltac use_eq := match goal with H : ?x :: _ = _ |- _ => rewrite H end.

Lemma stepP_sound cm ss f r cm' : (nest f <= d)%nat -> good f -> stepP sup D bl cm ss f = Some (r, cm') -> exists g, f = fapp g r /\ par_ok n D bl ss cm g cm'.
Proof.
  intros Hd Hg H. unfold ParSound.stepP in H.
  assert (HP : ss = [Pass] -> Some (f, cm) = Some (r, cm') -> exists g, f = fapp g r /\ par_ok n D bl ss cm g cm').
  { intros -> [= <- <-]. exists Done. split; [reflexivity|]. intros s rho l at_ W0 C fp Hc Hl HR HN HI1. cbn [ready] in HR. subst fp.
    cbn [dec2]. exists rho, s, at_, []. split; [reflexivity|]. split; [exact Hc|]. split; [exact HI1|]. now apply post_refl. }
  assert (HS : forall Y m args kws, ss = [Expr (Super Y m args kws)] ->
    (if is (list_eq_dec stmt_dec) ss [Expr (Super Y "parse" [istream] [])] then sup Y false f cm
      else if bl && is (list_eq_dec stmt_dec) ss [Expr (Super Y "parse" [istream; Loc "bytelength"] [])] then sup Y true f cm
      else None) = Some (r, cm') -> exists g, f = fapp g r /\ par_ok n D bl ss cm g cm').
  { intros Y m args kws E H0. destruct (is (list_eq_dec stmt_dec) ss [Expr (Super Y "parse" [istream] [])]) eqn:E1.
    - apply is_eq in E1. destruct (Hsup _ _ _ _ _ _ Hd Hg H0 ltac:(discriminate)) as (g & G1 & G2). exists g. rewrite E1. auto.
    - destruct bl; [|discriminate]. cbn [andb] in H0.
      destruct (is (list_eq_dec stmt_dec) ss [Expr (Super Y "parse" [istream; Loc "bytelength"] [])]) eqn:E2; [|discriminate].
      apply is_eq in E2. destruct (Hsup _ _ _ _ _ _ Hd Hg H0 ltac:(auto)) as (g & G1 & G2). exists g. rewrite E2. auto. }
  assert (HIf : (if bl && is (list_eq_dec stmt_dec) ss [len_check] && is (opt_dec member_dec) (lookup P D "is_positive_int") (Some pos_meth)
      then Some (f, cm) else None) = Some (r, cm') -> exists g, f = fapp g r /\ par_ok n D bl ss cm g cm').
  { intros H0. clear H HP HS. destruct bl; [|discriminate]. cbn [andb] in H0. chk. subst. exists Done. split; [reflexivity|]. eapply par_len; side. }
  destruct ss as [|c ss0]; [clear HP HS HIf; destruct f; try discriminate H; chk; discriminate|].
  destruct c.
  all: try (clear HP HS HIf; exfalso; destruct f; try discriminate H; chk; discriminate).
  - (* Expr *)
    destruct ss0; [|clear HP HS HIf; exfalso; destruct e; destruct f; try discriminate H; chk; discriminate].
    destruct e; try (clear HP HS HIf; exfalso; destruct f; try discriminate H; chk; discriminate).
    2: { eapply HS; [reflexivity|exact H]. }
    clear HP HS HIf. destruct f; try discriminate H; cbn [nest] in Hd; chk; try discriminate; subst.
    + exists (Obj a c f1 Done). use_eq. split; [reflexivity|]. eapply par_obj; side. apply Hobj; [assumption|lia].
    + exists (Zero p Done). use_eq. split; [reflexivity|]. eapply par_zero; side.
  - (* Assign *)
    clear HP HS HIf. destruct f; try (destruct ss0; discriminate H); cbn [nest] in Hd.
    all: try (exfalso; chk; discriminate).
    + chk; subst; try discriminate. use_eq. eexists (Cnt a _ m Done). split; [reflexivity|]. destruct p; try discriminate. eapply par_cnt; side.
    + chk; subst; try discriminate. use_eq. exists (Mask a n0 Done). split; [reflexivity|]. eapply par_mask; side.
    + chk; subst; try discriminate. exists (Bits bf Done). split; [reflexivity|]. eapply par_bits; side.
  - (* SetAttr *)
    clear HP HS HIf. destruct f; try (destruct ss0; discriminate H); cbn [nest] in Hd.
    all: try (exfalso; chk; discriminate).
    + exists (Prim a0 p Done). chk; subst; try discriminate; use_eq; (split; [reflexivity|]); eapply par_prim; side.
    + chk; subst; try discriminate. use_eq. eexists (Cnt a0 _ m Done). split; [reflexivity|]. destruct p; try discriminate. eapply par_cnt_attr; side.
    + chk; subst; try discriminate. use_eq. exists (Arr a0 p n0 Done). split; [reflexivity|]. eapply par_arr; side.
      intros ->. match goal with H : negb (String.eqb ?x ?x) = true |- _ => rewrite String.eqb_refl in H; discriminate end.
  - (* If *)
    destruct ss0; [apply HIf; exact H|]. clear HP HS HIf. exfalso; destruct f; try discriminate H; chk; discriminate.
  - (* For *)
    destruct ss0; [|clear HP HS HIf; exfalso; destruct f; try discriminate H; chk; discriminate].
    clear HP HS HIf. destruct f; try discriminate H; cbn [nest] in Hd.
    all: try (exfalso; chk; discriminate).
    + chk; subst; try discriminate. use_eq. exists (PList a p Done). split; [reflexivity|]. eapply par_plist; side.
    + chk; subst; try discriminate. use_eq. exists (OList a c f1 Done). split; [reflexivity|]. eapply par_olist; side.
      * apply Hobj; [assumption|lia].
      * apply Hnew; [assumption|assumption|lia].
      * intros E. rewrite E in *. discriminate.
    + chk; subst; try discriminate. use_eq. exists (VList a p b dv Done). split; [reflexivity|]. eapply par_vlist; side.
    + chk; subst; try discriminate. use_eq. exists (Pad b Done). split; [reflexivity|]. eapply par_pad; side.
    + chk; subst; try discriminate. use_eq. exists (Derive a b d0 (PList a p Done)).
      match goal with H : String.eqb _ _ = true |- _ => apply String.eqb_eq in H; subst end.
      split; [reflexivity|]. eapply par_derive; side.
    + chk; subst; try discriminate. use_eq. exists (NullL a Done). split; [reflexivity|]. eapply par_null; side.
  - (* Pass *)
    destruct ss0; [apply HP; [reflexivity|exact H]|]. clear HP HS HIf. exfalso; destruct f; try discriminate H; chk; discriminate.
Qed.
End Step.
End Par.
