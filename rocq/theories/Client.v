(** * Lemmas for PropClient.v: objects of which no part is shared, side by side in one heap *)
From Coq Require Import ZArith String List Bool Lia Permutation.
From Coq Require Import Strings.Byte.
From Verif Require Import Lang Bytes Interp Shift Mono ProgBase ProgDis Prog Spec Codec Codec2 Rep Dec StreamLem SerSound ParSound ParStep ParClass NewSound Layouts Refine Api StreamApi Classes PropCodec CtorRun PropFactory PropOffsets Assign PropAssign Append PropAppend Rewrite PropRewrite.
Import ListNotations.
Open Scope string_scope. Open Scope Z_scope. Open Scope list_scope.

(** what an object holds can be read, and depends on its own heap locations only *)
Lemma rep_reads f : forall h ga W fp, rep the_prog h f ga W fp -> exists V, forall h', (forall z, In z fp -> nth_error h' z = nth_error h z) -> read the_prog h' f ga = Some V.
Proof.
  induction f as [|a p k IH|a c sub IHs k IH|a p m k IH|a p k IH|a c sub IHs k IH|a p n k IH|p k IH|a n k IH
                 |a p b dv k IH|b k IH|a b d k IH|bf k IH|a k IH];
    intros h ga W fp HR; cbn [rep read] in *; try (eapply IH; eauto; fail).
  - exists []. auto.
  - destruct HR as [(v & x & A & B & C) HR]. destruct (IH _ _ _ _ HR) as (V & HV). eexists. intros h' Hh. rewrite A, B, (HV _ Hh). reflexivity.
  - destruct HR as (l & at_ & w & fp1 & fp2 & A & B & C & D & E & ->). destruct (IH _ _ _ _ E) as (V & HV). destruct (IHs _ _ _ _ D) as (V1 & HV1). eexists. intros h' Hh.
    rewrite A, Hh, B, String.eqb_refl, (HV h'), (HV1 h'); [reflexivity| | |now left]; intros z Hz; apply Hh; right; apply in_or_app; auto.
  - destruct HR as (l & vs & ws & fp2 & A & B & C & D & E & ->). destruct (IH _ _ _ _ E) as (V & HV). apply scals_F2 in D. eexists. intros h' Hh.
    rewrite A, (HV h') by (intros z Hz; apply Hh; now right). cbn [get_list]. rewrite Hh, B, D by now left. reflexivity.
  - destruct HR as (l & vs & ws & fps & fp2 & A & B & C & D & E & ->). destruct (IH _ _ _ _ E) as (V & HV).
    assert (exists os, forall h', (forall z, In z (concat fps) -> nth_error h' z = nth_error h z) -> objs (fun d at_ => read the_prog h' sub (getA the_prog d at_)) c h' vs = Some os) as (os & Ho).
    { clear -D IHs. induction D as [|u x q vs ws fps (l & at_ & w & fp' & -> & Hl & -> & R & ->) _ (os & IH)]; [exists []; reflexivity|]. destruct (IHs _ _ _ _ R) as (V1 & HV1).
      eexists. intros h' Hh. cbn [objs]. rewrite Hh, Hl, String.eqb_refl, HV1, (IH h'); [reflexivity| | |cbn; now left]; intros z Hz; apply Hh; cbn [concat]; apply in_or_app; [right; exact Hz|left; now right]. }
    eexists. intros h' Hh. rewrite A, (HV h') by (intros z Hz; apply Hh; right; apply in_or_app; now right). cbn [get_list]. rewrite Hh, B, (Ho h'); [reflexivity| |now left].
    intros z Hz. apply Hh. right. apply in_or_app. now left.
  - destruct HR as (l & vs & ws & fp2 & A & B & C & D & E & ->). destruct (IH _ _ _ _ E) as (V & HV). apply scals_F2 in D. eexists. intros h' Hh.
    rewrite A, (HV h') by (intros z Hz; apply Hh; now right). cbn [get_list]. rewrite Hh, B, D by now left. reflexivity.
  - destruct HR as [(v & x & A & B & C) HR]. destruct (IH _ _ _ _ HR) as (V & HV). eexists. intros h' Hh. rewrite A, B, (HV _ Hh). reflexivity.
  - destruct HR as (l & vs & ws & fp2 & A & B & C & D & E & ->). destruct (IH _ _ _ _ E) as (V & HV). apply scals_F2 in D. eexists. intros h' Hh.
    rewrite A, (HV h') by (intros z Hz; apply Hh; now right). cbn [get_list]. rewrite Hh, B, D by now left. reflexivity.
  - destruct HR as [HB HR]. destruct (IH _ _ _ _ HR) as (V & HV). induction HB as [|b bf Hb _ (V' & IHb)]; [exists V; exact HV|].
    destruct (bf_attr b) as [a|] eqn:Ea; [|exists V'; exact IHb]. destruct Hb as (v & x & A & B & C). eexists. intros h' Hh. rewrite A, B, (IHb _ Hh). reflexivity.
  - destruct HR as (l & fp2 & A & B & C & E & ->). destruct (IH _ _ _ _ E) as (V & HV). eexists. intros h' Hh.
    rewrite A, (HV h') by (intros z Hz; apply Hh; now right). cbn [get_list]. rewrite Hh, B by now left. reflexivity.
Qed.
