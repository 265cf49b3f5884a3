(** Proofs about the rendered lines. *)
From Coq Require Import String List NArith Arith Bool Lia ZifyBool ZifyN ZifyNat.
From Verif Require Import Common CommonFacts ProcModel ProcSpec ProcInv ReportModel ReportSpec.
Import ListNotations.
Open Scope N_scope.

Section Render.
Context {D : Type}.
Notation actx := (@actx D).

(** Where the anomaly and its contexts are in the stream. *)
Definition located (lines : list (bytes * N)) (c : actx) (i : nat) : Prop :=
  exists pre a b post, lines = pre ++ a ++ (aline c, apos c) :: b ++ post /\
    length (pre ++ a) = i /\ before c = map fst a /\ after c = map fst b.
Lemma located_shown lines c i : located lines c i ->
  exists a b, shown lines c i = a ++ (aline c, apos c) :: b /\ before c = map fst a /\ after c = map fst b.
Proof.
  intros (pre & a & b & post & -> & <- & Hb & Ha). exists a, b. split; [|auto].
  unfold shown. rewrite Hb, Ha, !map_length, app_length.
  replace (length pre + length a - length a)%nat with (length pre) by lia.
  rewrite skipn_app, skipn_all, Nat.sub_diag. cbn [app skipn].
  replace (a ++ (aline c, apos c) :: b ++ post) with ((a ++ (aline c, apos c) :: b) ++ post) by (rewrite <- app_assoc; reflexivity).
  rewrite firstn_app. rewrite app_length. cbn [length].
  replace (length a + 1 + length b - (length a + S (length b)))%nat with 0%nat by lia.
  rewrite firstn_all2 by (rewrite app_length; cbn; lia). apply app_nil_r.
Qed.
Lemma split_at {A} (l : list A) n : exists a b, l = a ++ b /\ a = firstn n l /\ b = skipn n l.
Proof. exists (firstn n l), (skipn n l). split; [symmetry; apply firstn_skipn|auto]. Qed.
Lemma neighbours_located above tok dist known lines c i :
  describes tok dist lines c i -> neighbours above tok dist known lines c i -> located lines c i.
Proof.
  intros [H1 _] ((_ & _ & Hi) & Hb & Ha & _).
  exists (firstn (i - length (before c)) lines), (firstn (length (before c)) (skipn (i - length (before c)) lines)),
    (firstn (length (after c)) (skipn (i + 1) lines)), (skipn (length (after c)) (skipn (i + 1) lines)).
  rewrite firstn_skipn. assert (L : (i < length lines)%nat) by (apply nth_error_Some; congruence).
  assert (S1 : skipn i lines = (aline c, apos c) :: skipn (i + 1) lines).
  { clear - H1. rewrite Nat.add_1_r. revert lines H1. induction i as [|i IH]; intros [|x l] H1; try discriminate; cbn in *; [congruence|]. now apply IH. }
  csplit; auto.
  - rewrite <- S1. rewrite <- (firstn_skipn (i - length (before c)) lines) at 1. f_equal.
    rewrite <- (firstn_skipn (length (before c)) (skipn (i - length (before c)) lines)) at 1. f_equal.
    clear - Hi. revert i Hi. intros i Hi. set (n := length (before c)) in *.
    replace i with (n + (i - n))%nat at 2 by lia. generalize (i - n)%nat. intros k. revert lines. induction k as [|k IH]; intros lines.
    + now rewrite Nat.add_0_r.
    + rewrite Nat.add_succ_r. destruct lines; [now rewrite !skipn_nil|]. cbn [skipn]. apply IH.
  - rewrite app_length, !firstn_length, skipn_length. lia.
Qed.

Lemma consecutive_nth l : forall n0 b0 k b n, consecutive l -> nth_error l 0 = Some (b0, n0) -> nth_error l k = Some (b, n) -> n = n0 + N.of_nat k.
Proof.
  induction l as [|[b1 n1] l IH]; intros n0 b0 k b n Hc H0 Hk; [discriminate|]. cbn in H0. injection H0 as -> ->.
  destruct k as [|k]; cbn in Hk; [injection Hk as _ <-; lia|].
  destruct l as [|[b2 n2] l]; [destruct k; discriminate|]. destruct Hc as [-> Hc].
  rewrite (IH (n0 + 1) b2 k b n Hc eq_refl Hk). lia.
Qed.

Lemma shown_numbers a x b (n0 : N) : consecutive (a ++ x :: b) ->
  (forall k y, nth_error a k = Some y -> snd y + N.of_nat (length a) = snd x + N.of_nat k) /\
  (forall k y, nth_error b k = Some y -> snd y = snd x + 1 + N.of_nat k).
Proof.
  intros H. assert (E : exists b0 n1, nth_error (a ++ x :: b) 0 = Some (b0, n1)) by (destruct a as [|[? ?] ?]; [destruct x|]; cbn; eauto).
  destruct E as (b0 & n1 & E).
  assert (Ex : snd x = n1 + N.of_nat (length a)).
  { destruct x as [bx nx]. apply (consecutive_nth _ n1 b0 (length a) bx nx H E). rewrite nth_error_app2, Nat.sub_diag by lia. reflexivity. }
  split; intros k [by_ ny] Hk; cbn [snd].
  - assert (Hn : nth_error (a ++ x :: b) k = Some (by_, ny)) by (rewrite nth_error_app1; [exact Hk|apply nth_error_Some; congruence]).
    pose proof (consecutive_nth _ n1 b0 k by_ ny H E Hn). lia.
  - assert (Hn : nth_error (a ++ x :: b) (length a + S k) = Some (by_, ny)).
    { rewrite nth_error_app2 by lia. replace (length a + S k - length a)%nat with (S k) by lia. exact Hk. }
    pose proof (consecutive_nth _ n1 b0 _ by_ ny H E Hn). lia.
Qed.

Lemma render_context_nth xs : forall pos k x, nth_error xs k = Some x ->
  nth_error (render_context (D := D) pos xs) k = Some (Ctx (wrap (pos + 1 + N.of_nat k)) x).
Proof.
  induction xs as [|y xs IH]; intros pos [|k] x H; cbn [nth_error render_context] in *; try discriminate.
  - injection H as ->. now rewrite N.add_0_r.
  - rewrite (IH _ _ _ H). replace (pos + 1 + 1 + N.of_nat k) with (pos + 1 + N.of_nat (S k)) by lia. reflexivity.
Qed.
Lemma render_context_length xs : forall pos, length (render_context (D := D) pos xs) = length xs.
Proof. induction xs as [|y xs IH]; intros pos; cbn; auto. Qed.
Lemma print_context_nth xs : forall pos k x, nth_error xs k = Some x ->
  nth_error (print_context (D := D) pos xs) k = Some (Ctx (pos + N.of_nat k) x).
Proof.
  induction xs as [|y xs IH]; intros pos [|k] x H; cbn [nth_error print_context] in *; try discriminate.
  - injection H as ->. now rewrite N.add_0_r.
  - rewrite (IH _ _ _ H). replace (pos + 1 + N.of_nat k) with (pos + N.of_nat (S k)) by lia. reflexivity.
Qed.
Lemma print_context_length xs : forall pos, length (print_context (D := D) pos xs) = length xs.
Proof. induction xs as [|y xs IH]; intros pos; cbn; auto. Qed.

(** A block from its three parts. *)
Lemma block_parts shift lines (c : actx) i a b (ra rb : list (@rline D)) : shown lines c i = a ++ (aline c, apos c) :: b ->
  before c = map fst a -> after c = map fst b -> length ra = length a -> length rb = length b ->
  (forall k x r, nth_error a k = Some x -> nth_error ra k = Some r -> exists n, r = Ctx n (fst x) /\ n + shift = snd x) ->
  (forall k x r, nth_error b k = Some x -> nth_error rb k = Some r -> exists n, r = Ctx n (fst x) /\ n + shift = snd x) ->
  block shift lines c i (ra ++ [Anom (distance c) (apos c) (aline c)] ++ rb).
Proof.
  intros Es Hb Ha La Lb Pa Pb. unfold block. rewrite Es. split; [rewrite !app_length; cbn; lia|].
  intros k x r Hx Hr. unfold row_shows. assert (Lbef : length (before c) = length a) by now rewrite Hb, map_length. rewrite Lbef.
  destruct (lt_eq_lt_dec k (length a)) as [[Hk| ->]|Hk].
  - rewrite nth_error_app1 in Hx by lia. rewrite nth_error_app1 in Hr by lia.
    replace (Nat.eqb k (length a)) with false by (symmetry; apply Nat.eqb_neq; lia). eauto.
  - rewrite Nat.eqb_refl. rewrite nth_error_app2, Nat.sub_diag in Hx by lia. rewrite nth_error_app2 in Hr by lia.
    replace (length a - length ra)%nat with 0%nat in Hr by lia. cbn in Hx, Hr. injection Hx as <-. injection Hr as <-. reflexivity.
  - replace (Nat.eqb k (length a)) with false by (symmetry; apply Nat.eqb_neq; lia).
    rewrite nth_error_app2 in Hx by lia. rewrite nth_error_app2 in Hr by lia.
    destruct (k - length a)%nat as [|j] eqn:E; [lia|]. cbn in Hx.
    replace (k - length ra)%nat with (S j) in Hr by lia. cbn in Hr. eauto.
Qed.

(** Numbered lines, from 1 on, within [usize]. *)
Definition numbered (l : list (bytes * N)) : Prop := consecutive l /\ Forall (fun x => 1 <= snd x < 2 ^ 64) l.

Lemma first_last lines c i : located lines c i -> numbered (shown lines c i) ->
  1 + N.of_nat (length (before c)) <= apos c /\
  apos c + N.of_nat (length (after c)) < 2 ^ 64 /\
  first_number lines c i = Some (apos c - N.of_nat (length (before c))) /\
  last_number lines c i = Some (apos c + N.of_nat (length (after c))).
Proof.
  intros Hl [Hc Hr]. destruct (located_shown lines c i Hl) as (a & b & Es & Hb & Ha).
  unfold first_number, last_number. rewrite Es in *. rewrite Hb, Ha, !map_length.
  destruct (shown_numbers a (aline c, apos c) b 0 Hc) as [Na Nb]. cbn [snd] in *.
  rewrite Forall_forall in Hr.
  assert (Rx : 1 <= apos c < 2 ^ 64) by (apply (Hr (aline c, apos c)); apply in_or_app; right; now left).
  assert (Fst : 1 + N.of_nat (length a) <= apos c /\ option_map snd (hd_error (a ++ (aline c, apos c) :: b)) = Some (apos c - N.of_nat (length a))).
  { destruct a as [|y a']; [cbn; split; [lia|f_equal; lia]|]. specialize (Na 0%nat y eq_refl).
    assert (Ry : 1 <= snd y) by (apply (Hr y); now left). cbn [app hd_error option_map length] in *. split; [lia|f_equal; lia]. }
  assert (Lst : apos c + N.of_nat (length b) < 2 ^ 64 /\ option_map snd (hd_error (rev (a ++ (aline c, apos c) :: b))) = Some (apos c + N.of_nat (length b))).
  { rewrite rev_app_distr. cbn [rev]. destruct b as [|z b' _] using rev_ind.
    - cbn. split; [lia|f_equal; lia].
    - rewrite rev_app_distr. cbn. rewrite app_length in *. cbn [length] in *.
      specialize (Nb (length b') z). rewrite nth_error_app2, Nat.sub_diag in Nb by lia. specialize (Nb eq_refl).
      assert (Rz : snd z < 2 ^ 64) by (apply (Hr z); apply in_or_app; right; right; apply in_or_app; right; now left).
      split; [lia|f_equal; lia]. }
  destruct Fst, Lst. auto.
Qed.

Definition rows_of (c : actx) : list rline :=
  render_context (apos c - 1 - N.of_nat (length (before c))) (before c) ++ [Anom (distance c) (apos c) (aline c)] ++ render_context (apos c) (after c).
Definition live_rows_of (c : actx) : list rline :=
  print_context (apos c - 1 - N.of_nat (length (before c))) (before c) ++ [Anom (distance c) (apos c) (aline c)] ++ print_context (apos c) (after c).

Lemma rows_block lines c i : located lines c i -> numbered (shown lines c i) -> block 0 lines c i (rows_of c) /\ block 1 lines c i (live_rows_of c).
Proof.
  intros Hl Hn. destruct (first_last lines c i Hl Hn) as (H1 & H2 & _ & _). destruct Hn as [Hc _].
  destruct (located_shown lines c i Hl) as (a & b & Es & Hb & Ha). rewrite Es in Hc.
  destruct (shown_numbers a (aline c, apos c) b 0 Hc) as [Na Nb]. cbn [snd] in *.
  assert (La : length (before c) = length a) by now rewrite Hb, map_length.
  assert (Lb : length (after c) = length b) by now rewrite Ha, map_length.
  split; apply (block_parts _ lines c i a b); auto; try (now rewrite render_context_length); try (now rewrite print_context_length).
  - intros k x r Hx. rewrite (render_context_nth _ _ k (fst x)) by (rewrite Hb; now apply map_nth_error). intros [= <-].
    eexists. split; [reflexivity|]. specialize (Na k x Hx). assert (k < length a)%nat by (apply nth_error_Some; congruence).
    unfold wrap. rewrite N.mod_small; lia.
  - intros k x r Hx. rewrite (render_context_nth _ _ k (fst x)) by (rewrite Ha; now apply map_nth_error). intros [= <-].
    eexists. split; [reflexivity|]. specialize (Nb k x Hx). assert (k < length b)%nat by (apply nth_error_Some; congruence).
    unfold wrap. rewrite N.mod_small; lia.
  - intros k x r Hx. rewrite (print_context_nth _ _ k (fst x)) by (rewrite Hb; now apply map_nth_error). intros [= <-].
    eexists. split; [reflexivity|]. specialize (Na k x Hx). assert (k < length a)%nat by (apply nth_error_Some; congruence). lia.
  - intros k x r Hx. rewrite (print_context_nth _ _ k (fst x)) by (rewrite Ha; now apply map_nth_error). intros [= <-].
    eexists. split; [reflexivity|]. specialize (Nb k x Hx). assert (k < length b)%nat by (apply nth_error_Some; congruence). lia.
Qed.

Lemma starting_pos_ok checks (c : actx) : 1 + N.of_nat (length (before c)) <= apos c ->
  starting_pos checks c = Some (apos c - 1 - N.of_nat (length (before c))).
Proof.
  intros H. unfold starting_pos, usize_sub. replace (1 <=? apos c) with true by lia.
  replace (N.of_nat (length (before c)) <=? apos c - 1) with true by lia. reflexivity.
Qed.

Lemma render_page checks lines cs : forall idxs, Forall2 (located lines) cs idxs ->
  Forall2 (fun c i => numbered (shown lines c i)) cs idxs ->
  exists out, page 0 lines (combine cs idxs) out /\
    forall last, render_lines checks last cs =
      Some (match last, cs with
            | Some p, c :: _ => if p =? apos c - 1 - N.of_nat (length (before c)) then [] else [Hr]
            | _, _ => []
            end ++ out).
Proof.
  induction cs as [|c cs IH]; intros idxs Hl Hn; inversion Hl as [|? i ? is Hl1 Hl2]; subst; inversion Hn as [|? ? ? ? Hn1 Hn2]; subst.
  - exists []. split; [constructor|]. intros [p|]; reflexivity.
  - destruct (IH _ Hl2 Hn2) as (out & P & R). destruct (first_last lines c i Hl1 Hn1) as (B1 & B2 & B3 & B4).
    destruct (rows_block lines c i Hl1 Hn1) as [Bk _].
    destruct cs as [|c' cs].
    + inversion Hl2; subst. exists (rows_of c). split; [now constructor|]. intros last. cbn [render_lines]. rewrite (starting_pos_ok checks c B1).
      cbn [combine] in P. inversion P; subst. unfold rows_of. cbn [app]. rewrite !app_nil_r. destruct last; reflexivity.
    + inversion Hl2 as [|? i' ? is' Hl3 Hl4]; subst. inversion Hn2 as [|? ? ? ? Hn3 Hn4]; subst.
      destruct (first_last lines c' i' Hl3 Hn3) as (C1 & C2 & C3 & C4).
      exists (rows_of c ++ (if (apos c' - N.of_nat (length (before c')) =? apos c + N.of_nat (length (after c)) + 1) then [] else [Hr]) ++ out). split.
      * cbn [combine] in P |- *. econstructor; eauto.
      * intros last. set (T := c' :: cs) in *. cbn [render_lines]. rewrite (starting_pos_ok checks c B1), R. subst T.
        unfold wrap. rewrite (N.mod_small _ _ B2). unfold rows_of.
        replace (apos c + N.of_nat (length (after c)) =? apos c' - 1 - N.of_nat (length (before c')))
          with (apos c' - N.of_nat (length (before c')) =? apos c + N.of_nat (length (after c)) + 1) by lia.
        rewrite <- !app_assoc. destruct last; reflexivity.
Qed.

Lemma live_page lines cs : forall idxs, Forall2 (located lines) cs idxs ->
  Forall2 (fun c i => numbered (shown lines c i)) cs idxs ->
  exists out, page 1 lines (combine cs idxs) out /\
    forall last, print_anomalies last cs =
      match last, cs with
      | Some p, c :: _ => if p =? apos c - 1 - N.of_nat (length (before c)) then [] else [Hr]
      | _, _ => []
      end ++ out.
Proof.
  induction cs as [|c cs IH]; intros idxs Hl Hn; inversion Hl as [|? i ? is Hl1 Hl2]; subst; inversion Hn as [|? ? ? ? Hn1 Hn2]; subst.
  - exists []. split; [constructor|]. intros [p|]; reflexivity.
  - destruct (IH _ Hl2 Hn2) as (out & P & R). destruct (first_last lines c i Hl1 Hn1) as (B1 & B2 & B3 & B4).
    destruct (rows_block lines c i Hl1 Hn1) as [_ Bk].
    assert (St : (if 1 + N.of_nat (length (before c)) <? apos c then apos c - (1 + N.of_nat (length (before c))) else 0) = apos c - (1 + N.of_nat (length (before c)))).
    { destruct (1 + N.of_nat (length (before c)) <? apos c) eqn:E; lia. }
    assert (St' : apos c - (1 + N.of_nat (length (before c))) = apos c - 1 - N.of_nat (length (before c))) by lia.
    destruct cs as [|c' cs].
    + inversion Hl2; subst. exists (live_rows_of c). split; [now constructor|]. intros last. cbn [print_anomalies print_anomaly]. unfold print_anomaly. rewrite St, St'.
      cbn [combine] in P. inversion P; subst. unfold live_rows_of. cbn [app]. rewrite !app_nil_r. destruct last; reflexivity.
    + inversion Hl2 as [|? i' ? is' Hl3 Hl4]; subst. inversion Hn2 as [|? ? ? ? Hn3 Hn4]; subst.
      destruct (first_last lines c' i' Hl3 Hn3) as (C1 & C2 & C3 & C4).
      exists (live_rows_of c ++ (if (apos c' - N.of_nat (length (before c')) =? apos c + N.of_nat (length (after c)) + 1) then [] else [Hr]) ++ out). split.
      * cbn [combine] in P |- *. econstructor; eauto.
      * intros last. set (T := c' :: cs) in *. cbn [print_anomalies]. unfold print_anomaly. rewrite St, St', R. subst T. unfold live_rows_of.
        replace (apos c + N.of_nat (length (after c)) =? apos c' - 1 - N.of_nat (length (before c')))
          with (apos c' - N.of_nat (length (before c')) =? apos c + N.of_nat (length (after c)) + 1) by lia.
        rewrite <- !app_assoc. destruct last; reflexivity.
Qed.
End Render.
