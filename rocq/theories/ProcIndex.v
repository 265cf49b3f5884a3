(** From the invariants to the positional specification. *)
From Coq Require Import String List NArith Arith Bool Lia Sorting ZifyBool ZifyN ZifyNat.
From Verif Require Import Common CommonFacts ProcModel ProcSpec ProcWalk ProcInv ProcMain.
Import ListNotations.
Open Scope nat_scope.

Lemma mem_set_spec t l : mem_set t l = true <-> In t l.
Proof.
  unfold mem_set. rewrite existsb_exists. split.
  - intros (x & Hx & E). apply eqb_list_spec in E. now subst.
  - intros H. exists t. split; [assumption|apply eqb_list_refl].
Qed.

Lemma nth_error_split_app {A} (l : list A) i x : nth_error l i = Some x -> l = firstn i l ++ x :: skipn (S i) l.
Proof.
  revert i. induction l as [|y l IH]; intros [|i] H; cbn in *; try discriminate.
  - now injection H as ->.
  - f_equal. auto.
Qed.

Lemma firstn_map' {A B} (f : A -> B) l n : map f (firstn n l) = firstn n (map f l).
Proof. revert n. induction l; intros [|n]; cbn; congruence. Qed.
Lemma skipn_map' {A B} (f : A -> B) l n : map f (skipn n l) = skipn n (map f l).
Proof. revert n. induction l; intros [|n]; cbn; congruence. Qed.
Lemma skipn_app_exact {A} (a b : list A) n : length a = n -> skipn n (a ++ b) = b.
Proof. intros <-. rewrite skipn_app, skipn_all, Nat.sub_diag. reflexivity. Qed.
Lemma firstn_app_exact {A} (a b : list A) n : length a = n -> firstn n (a ++ b) = a.
Proof. intros <-. rewrite firstn_app, firstn_all, Nat.sub_diag. cbn. apply app_nil_r. Qed.

Section Index.
Context {D : Type}.
Variable above : D -> bool.
Variable tok : bytes -> bytes.
Variable dist : bytes -> D.
Notation annot := (annot tok dist).
Notation seen_after := (seen_after tok).
Notation actx := (@actx D).

Lemma seen_after_in l : forall known t,
  In t (seen_after known l) <-> In t known \/ exists x, In x l /\ tok (fst x) = t.
Proof.
  induction l as [|[b nr] l IH]; intros known t; cbn.
  - firstorder.
  - destruct (mem_set (tok b) known) eqn:E.
    + rewrite IH. split; [firstorder|]. intros [H|(x & [<-|H] & Hx)]; [auto| |eauto].
      left. cbn in Hx. subst. now apply mem_set_spec.
    + rewrite IH. cbn. split.
      * intros [[H|H]|(x & H & Hx)]; [right; exists (b, nr); auto|auto|eauto].
      * intros [H|(x & [<-|H] & Hx)]; [auto|auto|eauto].
Qed.

Lemma annot_nth known lines i b nr : nth_error lines i = Some (b, nr) ->
  nth_error (annot known lines) i =
  Some (mkE b nr (if mem_set (tok b) (seen_after known (firstn i lines)) then None else Some (dist (tok b)))).
Proof.
  intros H. pose proof (nth_error_split_app _ _ _ H) as E.
  assert (Hl : length (firstn i lines) = i).
  { apply firstn_length_le. apply Nat.lt_le_incl. apply nth_error_Some. congruence. }
  rewrite E at 1. rewrite annot_app, nth_error_app2 by (rewrite annot_length; lia).
  rewrite annot_length, Hl, Nat.sub_diag. cbn [ProcMain.annot].
  destruct (mem_set (tok b) (seen_after known (firstn i lines))); reflexivity.
Qed.

Lemma annot_texts known lines : map etext (annot known lines) = map fst lines.
Proof.
  revert known. induction lines as [|[b nr] l IH]; intros known; cbn; [reflexivity|].
  destruct (mem_set (tok b) known); cbn; now rewrite IH.
Qed.

Lemma first_seen_iff known lines i b nr : nth_error lines i = Some (b, nr) ->
  (first_seen tok known lines i <-> mem_set (tok b) (seen_after known (firstn i lines)) = false).
Proof.
  intros H. rewrite <- not_true_iff_false, mem_set_spec, seen_after_in. unfold first_seen. split.
  - intros (b0 & nr0 & H0 & Hk & Hn) [K|((b1 & nr1) & K & Kt)].
    + rewrite H in H0. injection H0 as <- <-. auto.
    + rewrite H in H0. injection H0 as <- <-. cbn in Kt.
      apply In_nth_error in K. destruct K as (j & K).
      assert (Hj : j < i).
      { assert (j < length (firstn i lines)) by (apply nth_error_Some; congruence).
        rewrite firstn_length in *. lia. }
      apply (Hn j b1 nr1 Hj); [|exact Kt].
      rewrite <- (firstn_skipn i lines). rewrite nth_error_app1; [exact K|]. apply nth_error_Some. congruence.
  - intros Hno. exists b, nr. split; [assumption|]. split; [tauto|]. intros j b' nr' Hj Hj' Ht.
    apply Hno. right. exists (b', nr'). split; [|exact Ht].
    apply (nth_error_In _ j). rewrite <- (firstn_skipn i lines) in Hj'.
    rewrite nth_error_app1 in Hj'; [exact Hj'|]. rewrite firstn_length.
    assert (i < length lines) by (apply nth_error_Some; congruence). lia.
Qed.

Lemma reported_iff known lines i :
  reported above tok dist known lines i <->
  exists e, nth_error (annot known lines) i = Some e /\ rep above e = true.
Proof.
  unfold reported. split.
  - intros (Hf & b & nr & H & Ha). apply (first_seen_iff known lines i b nr H) in Hf.
    rewrite (annot_nth known _ _ _ _ H), Hf. eexists. split; [reflexivity|]. exact Ha.
  - intros (e & He & Hr). destruct (nth_error lines i) as [[b nr]|] eqn:H.
    + rewrite (annot_nth known _ _ _ _ H) in He. injection He as <-. unfold rep in Hr. cbn in Hr.
      destruct (mem_set (tok b) (seen_after known (firstn i lines))) eqn:E; [discriminate|].
      split; [now apply (first_seen_iff known lines i b nr H)|]. eauto.
    + apply nth_error_None in H. assert (nth_error (annot known lines) i = None); [|congruence].
      apply nth_error_None. now rewrite annot_length.
Qed.

Lemma rpos_enumerates known lines : enumerates above tok dist known lines (rpos above (annot known lines)).
Proof.
  split.
  - unfold rpos. generalize (length (annot known lines)) 0. intros n.
    induction n as [|n IH]; intros k; cbn [seq filter]; [constructor|].
    destruct (match nth_error (annot known lines) k with Some e => rep above e | None => false end); [|apply IH].
    constructor; [apply IH|]. apply Forall_forall. intros x Hx. apply filter_In in Hx.
    destruct Hx as [Hx _]. apply in_seq in Hx. lia.
  - intros i. rewrite reported_iff. unfold rpos. rewrite filter_In, in_seq. split.
    + intros [_ H]. destruct (nth_error (annot known lines) i) as [e|]; [|discriminate]. eauto.
    + intros (e & He & Hr). rewrite He. split; [|exact Hr].
      assert (i < length (annot known lines)) by (apply nth_error_Some; congruence). lia.
Qed.

Lemma ctx_ok_spec known lines i c : ctx_ok above (annot known lines) i c ->
  describes tok dist lines c i /\ neighbours above tok dist known lines c i.
Proof.
  intros (p & x & q & EL & Hi & Hr & (M1 & M2 & M3) & (p0 & p1 & Ep & Hb & Hbl & Hbn) & q0 & q1 & Eq & Ha & Hal & Han).
  assert (Hx : nth_error (annot known lines) i = Some x).
  { rewrite EL, nth_error_app2, Hi, Nat.sub_diag by lia. reflexivity. }
  destruct (nth_error lines i) as [[b nr]|] eqn:H.
  2:{ exfalso. apply nth_error_None in H. assert (K : nth_error (annot known lines) i = None); [|congruence].
      apply nth_error_None. now rewrite annot_length. }
  rewrite (annot_nth known _ _ _ _ H) in Hx. injection Hx as Hx.
  assert (Hnb : length (before c) = length p1) by (rewrite Hb; apply map_length).
  assert (Hna : length (after c) = length q0) by (rewrite Ha; apply map_length).
  assert (Hip : i = length p0 + length p1) by (rewrite <- Hi, Ep, app_length; reflexivity).
  pose proof (annot_texts known lines) as Ht. rewrite EL, Ep, Eq in Ht.
  split.
  - unfold describes. rewrite H, M1, M2, <- Hx. cbn. split; [reflexivity|].
    rewrite <- Hx in M3. cbn in M3.
    destruct (mem_set (tok b) (seen_after known (firstn i lines))); [discriminate|]. congruence.
  - unfold neighbours. rewrite Hnb, Hna. csplit; try lia.
    + rewrite Hb. replace (i - length p1) with (length p0) by lia.
      rewrite firstn_map', skipn_map', <- Ht, <- !app_assoc, map_app.
      rewrite skipn_app_exact by now rewrite map_length. rewrite map_app.
      now rewrite firstn_app_exact by now rewrite map_length.
    + rewrite Ha. rewrite firstn_map', skipn_map', <- Ht, <- !app_assoc.
      replace (i + 1) with (length (p0 ++ p1 ++ [x])) by (rewrite !app_length; cbn; lia).
      replace (p0 ++ p1 ++ x :: q0 ++ q1) with ((p0 ++ p1 ++ [x]) ++ q0 ++ q1)
        by (rewrite <- !app_assoc; reflexivity).
      rewrite map_app. rewrite skipn_app_exact by now rewrite map_length. rewrite map_app.
      now rewrite firstn_app_exact by now rewrite map_length.
    + intros j Hj Hrep. apply reported_iff in Hrep. destruct Hrep as (e & He & Her).
      assert (Hn : nrep above e); [|unfold nrep in Hn; congruence].
      rewrite EL, Ep, Eq in He. destruct Hj as [Hj|Hj].
      * rewrite <- app_assoc, nth_error_app2 in He by lia.
        rewrite nth_error_app1 in He by lia. apply nth_error_In in He.
        rewrite Forall_forall in Hbn. auto.
      * rewrite nth_error_app2 in He by (rewrite app_length; lia). rewrite app_length in He.
        destruct (j - (length p0 + length p1)) as [|m] eqn:Em; [lia|]. cbn [nth_error] in He.
        rewrite nth_error_app1 in He by lia. apply nth_error_In in He.
        rewrite Forall_forall in Han. auto.
Qed.
End Index.
