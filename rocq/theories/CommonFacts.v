(** Facts about the shared text functions of Common.v. *)
From Coq Require Import String List NArith Arith Bool Lia.
From Verif Require Import Common.
Import ListNotations.

Lemma eqb_list_spec a : forall b, eqb_list a b = true <-> a = b.
Proof.
  induction a as [|x a IH]; destruct b as [|y b]; cbn; split; intros H; try congruence; try discriminate.
  - apply andb_true_iff in H. destruct H as [H1 H2]. apply N.eqb_eq in H1. apply IH in H2. congruence.
  - inversion H; subst. rewrite N.eqb_refl. cbn. now apply IH.
Qed.
Lemma eqb_list_refl a : eqb_list a a = true.
Proof. now apply eqb_list_spec. Qed.
Lemma starts_with_spec p : forall s, starts_with p s = true <-> exists t, s = p ++ t.
Proof.
  induction p as [|x p IH]; intros s; cbn.
  - split; eauto.
  - destruct s as [|y s]; split; intros H; try discriminate.
    + destruct H as (t & H). discriminate.
    + apply andb_true_iff in H. destruct H as [H1 H2]. apply N.eqb_eq in H1. apply IH in H2.
      destruct H2 as (t & ->). subst. eauto.
    + destruct H as (t & H). inversion H; subst. rewrite N.eqb_refl. cbn. apply IH. eauto.
Qed.
Lemma contains_spec p s : contains p s = true <-> exists a b, s = a ++ p ++ b.
Proof.
  induction s as [|x s IH]; cbn.
  - rewrite orb_false_r. split.
    + intros H. apply starts_with_spec in H. destruct H as (t & H). exists [], t. exact H.
    + intros (a & b & H). destruct a; [|discriminate]. apply starts_with_spec. exists b. exact H.
  - rewrite orb_true_iff. split.
    + intros [H|H].
      * apply starts_with_spec in H. destruct H as (t & H). exists [], t. exact H.
      * apply IH in H. destruct H as (a & b & ->). exists (x :: a), b. reflexivity.
    + intros (a & b & H). destruct a as [|y a].
      * left. apply starts_with_spec. exists b. exact H.
      * right. cbn in H. inversion H; subst. apply IH. eauto.
Qed.
