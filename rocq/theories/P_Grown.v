(** A log that has grown gives the findings that it gave before, and findings in what is new: C102. *)
From Coq Require Import String List NArith Arith Bool Lia Sorting.
From Verif Require Import Common ProcModel ProcSpec ProcStopSpec ProcExactSpec ProcExact P_ProcExact ProcRefute P_Proc ReportModel.
Import ListNotations.
Open Scope nat_scope.
Ltac csplit := repeat match goal with |- _ /\ _ => split end.

Section Grown.
Context {D : Type}.
Variable above : D -> bool.
Variable tok : bytes -> bytes.
Variable dist : bytes -> D.
Notation actx := (@actx D).

(** The finding with more lines behind it *)
Definition continued (c : actx) (x : list bytes) : actx := mkCtx (before c) (after c ++ x) (distance c) (apos c) (aline c).
(** The findings [l'] are the findings [l], where lines may have been added behind the last one, and findings on lines of [more]. *)
Definition grown (l l' : list actx) (more : list (bytes * N)) : Prop :=
  exists new, Forall (fun c => In (aline c, apos c) more) new /\
    ((l = [] /\ l' = new) \/ exists old c x, l = old ++ [c] /\ l' = old ++ continued c x :: new).

(** ** Proofs *)
Section Lines.
Variable known : list bytes.
Variables lines more : list (bytes * N).
Let all := lines ++ more.
Let n := length lines.
Lemma exists_last_or {A} (l : list A) : l = [] \/ exists old c, l = old ++ [c].
Proof. destruct l as [|x l]; [now left|]. right. destruct (@exists_last _ (x :: l)) as (o & c & E); [discriminate|]. eauto. Qed.
Lemma firstn_all_lines i : i <= n -> firstn i all = firstn i lines.
Proof. intros H. unfold all. rewrite firstn_app. fold n. replace (i - n) with 0 by lia. cbn. apply app_nil_r. Qed.
Lemma nth_all_lines i : i < n -> nth_error all i = nth_error lines i.
Proof. intros H. now apply nth_error_app1. Qed.
Lemma new_at_all i : i < n -> new_at tok known all i = new_at tok known lines i.
Proof. intros H. unfold new_at. now rewrite nth_all_lines, firstn_all_lines by lia. Qed.
Lemma find_ext {A} (f g : A -> bool) l : (forall x, In x l -> f x = g x) -> find f l = find g l.
Proof. induction l as [|x l IH]; intros H; [reflexivity|]. cbn. rewrite (H x (or_introl eq_refl)), IH; auto. intros; apply H; now right. Qed.
Lemma behind_all k : k <= n -> behind_new tok known all k = behind_new tok known lines k.
Proof. intros H. unfold behind_new. rewrite (find_ext _ (new_at tok known lines)); [reflexivity|]. intros x Hx. apply in_rev, in_seq in Hx. apply new_at_all. lia. Qed.
Lemma batch_all i : i <= n -> batch_start above tok dist known all i = batch_start above tok dist known lines i.
Proof. intros H. unfold batch_start. now rewrite firstn_all_lines. Qed.
Lemma batch_le l i : batch_start above tok dist known l i <= i.
Proof. unfold batch_start. lia. Qed.
Lemma texts_all a b : b <= n -> texts all a b = texts lines a b.
Proof.
  intros H. unfold texts, all. f_equal. destruct (Nat.le_gt_cases a n) as [Ha|Ha]; [|now replace (b - a) with 0 by lia].
  rewrite skipn_app. fold n. replace (a - n) with 0 by lia. cbn [skipn]. rewrite firstn_app, skipn_length. fold n. replace (b - a - (n - a)) with 0 by lia. cbn. apply app_nil_r.
Qed.
Lemma start_all prev i : i <= n -> context_start above tok dist known all prev i = context_start above tok dist known lines prev i.
Proof.
  intros H. unfold context_start. rewrite batch_all by exact H. pose proof (batch_le lines i). destruct prev; [|reflexivity]. now rewrite behind_all by lia.
Qed.
Lemma reported_all i : i < n -> reported above tok dist known all i <-> reported above tok dist known lines i.
Proof.
  intros H. unfold reported, first_seen. rewrite nth_all_lines by exact H. split; intros ((b & nr & E & K & F) & X); (split; [|exact X]); exists b, nr; csplit; auto; intros j b' nr' Hj Ej; apply (F j b' nr' Hj).
  - now rewrite nth_all_lines by lia.
  - now rewrite nth_all_lines in Ej by lia.
Qed.
Lemma reported_lt l i : reported above tok dist known l i -> i < length l.
Proof. intros ((b & nr & E & _) & _). apply nth_error_Some. congruence. Qed.
Lemma pace_size s b : size (pace_line above tok dist s b) = (size s + 1)%N \/ size (pace_line above tok dist s b) = 0%N.
Proof. unfold pace_line. cbv zeta. destruct (batch_ends _ _); cbn; auto. Qed.
Lemma pace_sizes xs s : let z := N.to_nat (size (fold_left (pace_line above tok dist) xs s)) in z = N.to_nat (size s) + length xs \/ z < length xs.
Proof.
  induction xs as [|b xs IH] using rev_ind; [left; cbn; lia|]. cbn zeta in *. rewrite fold_left_app, app_length. cbn [fold_left length]. destruct (pace_size (fold_left (pace_line above tok dist) xs s) b) as [E|E]; rewrite E; [|right; lia].
  destruct IH; lia.
Qed.
Lemma batch_more : batch_start above tok dist known all (length all) = batch_start above tok dist known lines n \/ n < batch_start above tok dist known all (length all).
Proof.
  unfold batch_start. rewrite firstn_all. unfold n at 1 2. rewrite firstn_all. fold n. unfold all. rewrite map_app, fold_left_app, app_length. fold n.
  pose proof (pace_sizes (map fst more) (fold_left (pace_line above tok dist) (map fst lines) (pace_new known))) as H. cbn zeta in H. rewrite map_length in H. destruct H; [left|right]; lia.
Qed.
Lemma searched_le l : searched above tok dist known l <= length l.
Proof. unfold searched. cbv zeta. pose proof (batch_le l (length l)). destruct (_ <? _); lia. Qed.
Lemma searched_more : searched above tok dist known lines <= searched above tok dist known all.
Proof.
  unfold searched. cbv zeta. fold n. assert (L : n <= length all) by (unfold all; rewrite app_length; fold n; lia). pose proof (batch_le lines n) as Bn.
  destruct batch_more as [E|E].
  - rewrite E. destruct (C12_behind_new tok known all n) as (A1 & A2 & A3). destruct (C12_behind_new tok known all (length all)) as (B1 & B2 & B3).
    assert (M : behind_new tok known all n <= behind_new tok known all (length all)).
    { destruct (behind_new tok known all n) as [|i] eqn:Ei; [lia|]. destruct (Nat.le_gt_cases (S i) (behind_new tok known all (length all))); [assumption|]. destruct (B2 i); [lia|]. now apply A3. }
    rewrite behind_all in M by lia. destruct (Nat.ltb_spec (batch_start above tok dist known lines n) (behind_new tok known lines n)), (Nat.ltb_spec (batch_start above tok dist known lines n) (behind_new tok known all (length all))); lia.
  - destruct (Nat.ltb (batch_start above tok dist known lines n) _); destruct (Nat.ltb (batch_start above tok dist known all (length all)) _); lia.
Qed.
Lemma positions_more ps ps' : StronglySorted lt ps -> StronglySorted lt ps' -> (forall i, In i ps -> i < n) -> (forall i, i < n -> (In i ps' <-> In i ps)) -> exists rest, ps' = ps ++ rest /\ forall i, In i rest -> n <= i.
Proof.
  intros S. revert ps'. induction S as [|a ps S IH F]; intros ps' S' L E.
  - exists ps'. split; [reflexivity|]. intros i Hi. destruct (Nat.le_gt_cases n i) as [H|H]; [exact H|]. now apply (E i H) in Hi.
  - assert (La : a < n) by (apply L; now left). assert (Ia : In a ps') by (apply E; [exact La|now left]). destruct S' as [|b ps' S' F']; [destruct Ia|]. rewrite Forall_forall in F, F'.
    assert (Hba : b <= a) by (destruct Ia as [->|Ia]; [lia|apply F' in Ia; lia]). assert (Ib : In b (a :: ps)) by (apply E; [lia|now left]). assert (a = b) by (destruct Ib as [->|Ib]; [lia|apply F in Ib; lia]). subst b.
    destruct (IH ps' S') as (rest & -> & R); [intros; apply L; now right| |exists rest; now split]. intros i Hi. split; intros I.
    + assert (X : In i (a :: ps)) by (apply E; [exact Hi|now right]). destruct X as [->|X]; [|exact X]. apply F' in I. lia.
    + assert (X : In i (a :: ps')) by (apply E; [exact Hi|now right]). destruct X as [->|X]; [|exact X]. apply F in I. lia.
Qed.
Lemma texts_prefix l a b b' : b <= b' -> exists x, texts l a b' = texts l a b ++ x.
Proof.
  intros H. unfold texts. exists (map fst (firstn (b' - a - (b - a)) (skipn (b - a) (skipn a l)))). rewrite <- map_app. f_equal. set (k := skipn a l). rewrite <- (firstn_skipn (b - a) (firstn (b' - a) k)). rewrite firstn_firstn, skipn_firstn_comm. f_equal. f_equal. lia.
Qed.
Lemma ctx_eq (c c' : actx) : before c = before c' -> after c = after c' -> distance c = distance c' -> apos c = apos c' -> aline c = aline c' -> c = c'.
Proof. destruct c, c'. cbn. intros; subst. reflexivity. Qed.
Lemma nth_eq {A} (l : list A) : forall l', length l = length l' -> (forall j x x', nth_error l j = Some x -> nth_error l' j = Some x' -> x = x') -> l = l'.
Proof.
  induction l as [|x l IH]; intros [|x' l'] E H; try discriminate; [reflexivity|]. rewrite (H 0 x x' eq_refl eq_refl). f_equal. apply IH; [now injection E|]. intros j y y' Hy Hy'. exact (H (S j) y y' Hy Hy').
Qed.
Lemma f2_nth {A B} (P : A -> B -> Prop) l l' : Forall2 P l l' -> forall j x y, nth_error l j = Some x -> nth_error l' j = Some y -> P x y.
Proof. induction 1; intros [|j] a b Ha Hb; cbn in *; try discriminate; [congruence|eauto]. Qed.
Lemma f2_length {A B} (P : A -> B -> Prop) l l' : Forall2 P l l' -> length l = length l'.
Proof. induction 1; cbn; congruence. Qed.

Lemma grown_core l l' ps ps' : enumerates above tok dist known lines ps -> Forall2 (describes tok dist lines) l ps -> exact_contexts above tok dist known lines l ps ->
  enumerates above tok dist known all ps' -> Forall2 (describes tok dist all) l' ps' -> exact_contexts above tok dist known all l' ps' -> grown l l' more.
Proof.
  intros (Sp & En) Ds Ex (S' & En') Ds' Ex'. destruct (positions_more ps ps' Sp S') as (rest & Eps & Rest).
  { intros i Hi. apply En in Hi. exact (reported_lt lines i Hi). }
  { intros i Hi. rewrite En, En'. now apply reported_all. }
  subst ps'. apply Forall2_app_inv_r in Ds'. destruct Ds' as (kept & new & Dk & Dn & ->). pose proof (f2_length _ _ _ Ds) as L1. pose proof (f2_length _ _ _ Dk) as L2.
  exists new. split.
  { apply Forall_forall. intros c Hc. apply In_nth_error in Hc. destruct Hc as (j & Hj). destruct (nth_error rest j) as [i|] eqn:Ei; [|apply nth_error_None in Ei; rewrite <- (f2_length _ _ _ Dn) in Ei; assert (j < length new) by (apply nth_error_Some; congruence); lia].
    destruct (f2_nth _ _ _ Dn j c i Hj Ei) as (N1 & _). unfold all in N1. rewrite nth_error_app2 in N1 by (apply nth_error_In, Rest in Ei; exact Ei). now apply nth_error_In in N1. }
  (* the findings that are kept, one by one *)
  assert (K : forall j c c' i, nth_error l j = Some c -> nth_error kept j = Some c' -> nth_error ps j = Some i -> i < n /\ before c' = before c /\ aline c' = aline c /\ apos c' = apos c /\ distance c' = distance c /\
     after c = texts lines (i + 1) (context_end above tok dist known lines (nth_error ps (S j)) i) /\ after c' = texts all (i + 1) (context_end above tok dist known all (nth_error (ps ++ rest) (S j)) i)).
  { intros j c c' i Hc Hc' Hi. assert (Li : i < n) by (apply nth_error_In, En in Hi; exact (reported_lt lines i Hi)). assert (Lj : j < length ps) by (apply nth_error_Some; congruence).
    destruct (f2_nth _ _ _ Ds j c i Hc Hi) as (N1 & N2). destruct (f2_nth _ _ _ Dk j c' i Hc' Hi) as (N3 & N4). rewrite nth_all_lines in N3 by exact Li. rewrite N1 in N3. injection N3 as E1 E2.
    destruct (Ex j c i Hc Hi) as (X1 & X2). destruct (Ex' j c' i) as (Y1 & Y2); [rewrite nth_error_app1 by lia; exact Hc'|rewrite nth_error_app1 by lia; exact Hi|]. csplit; auto; [|congruence].
    rewrite X1, Y1. rewrite start_all by lia. rewrite texts_all by lia. destruct j as [|j']; [reflexivity|]. now rewrite nth_error_app1 by lia. }
  destruct (exists_last_or l) as [->|(old & c & ->)].
  - left. split; [reflexivity|]. assert (kept = []) as -> by (apply length_zero_iff_nil; cbn in L1; lia). reflexivity.
  - right. destruct (exists_last_or kept) as [->|(old' & c' & ->)]; [rewrite app_length in L1; cbn in *; lia|]. rewrite !app_length in *. cbn [length] in *. exists old, c.
    assert (old' = old) as ->.
    { symmetry. apply nth_eq; [lia|]. intros j x x' Hx Hx'. assert (Lj : j < length old) by (apply nth_error_Some; congruence). destruct (nth_error ps j) as [i|] eqn:Ei; [|apply nth_error_None in Ei; lia].
      destruct (K j x x' i) as (K1 & K2 & K3 & K4 & K5 & K6 & K7); auto; [rewrite nth_error_app1 by lia; exact Hx|rewrite nth_error_app1 by lia; exact Hx'|]. apply ctx_eq; auto. rewrite K6, K7. rewrite nth_error_app1 by lia.
      destruct (nth_error ps (S j)) as [k|] eqn:Ek; [|apply nth_error_None in Ek; lia]. unfold context_end. assert (k < n) by (apply nth_error_In, En in Ek; exact (reported_lt lines k Ek)). now rewrite texts_all by lia. }
    destruct (nth_error ps (length old)) as [i|] eqn:Ei; [|apply nth_error_None in Ei; lia].
    destruct (K (length old) c c' i) as (K1 & K2 & K3 & K4 & K5 & K6 & K7); auto; [now rewrite nth_error_app2, Nat.sub_diag by lia|now rewrite nth_error_app2, Nat.sub_diag by lia|].
    assert (Enone : nth_error ps (S (length old)) = None) by (apply nth_error_None; lia). rewrite Enone in K6. set (e := context_end above tok dist known lines None i) in *. set (e' := context_end above tok dist known all _ i) in K7.
    assert (Le : e <= n) by (unfold e, context_end; pose proof (searched_le lines); unfold n in *; lia).
    assert (Lee : e <= e').
    { unfold e, e', context_end. pose proof searched_more. pose proof (searched_le lines). unfold n in *. destruct (nth_error (ps ++ rest) _) as [k|] eqn:Ek; [|lia]. rewrite nth_error_app2 in Ek by lia. apply nth_error_In, Rest in Ek. lia. }
    destruct (texts_prefix all (i + 1) e e' Lee) as (x & Hx). exists x. split; [reflexivity|]. rewrite <- app_assoc. cbn [app]. f_equal. f_equal. apply ctx_eq; cbn; auto. rewrite K7, Hx, texts_all, <- K6 by lia. reflexivity.
Qed.

Variable search : list bytes -> list D.
Hypothesis pw : pointwise search dist.
Hypothesis valid : all_valid all.
Hypothesis plain : no_marker all.
Lemma grown_ok : exists l l' p p', process_all above tok search (ok_items lines) known = (l, PSEnd, p) /\ process_all above tok search (ok_items all) known = (l', PSEnd, p') /\ grown l l' more.
Proof.
  assert (valid1 : all_valid lines) by (unfold all_valid, all in *; rewrite Forall_app in valid; tauto).
  assert (plain1 : no_marker lines) by (unfold no_marker, all in *; rewrite Forall_app in plain; tauto).
  destruct (C12_exact D above tok search dist known lines pw valid1 plain1) as (l & p & ps & E & En & Ds & Ex). destruct (C12_exact D above tok search dist known all pw valid plain) as (l' & p' & ps' & E' & En' & Ds' & Ex').
  exists l, l', p, p'. csplit; auto. now apply (grown_core l l' ps ps').
Qed.
End Lines.
End Grown.

Section Statements.
Context {D : Type}.
Variable above : D -> bool.
Variable tok : bytes -> bytes.
Variable search : list bytes -> list D.
Variable dist : bytes -> D.
(** C102: the findings in a log are the first ones in any log that it has grown to, but that lines may follow the last one. *)
Theorem C102_grown known lines more : pointwise search dist -> all_valid (lines ++ more) -> no_marker (lines ++ more) ->
  exists l l' p p', process_all above tok search (ok_items lines) known = (l, PSEnd, p) /\ process_all above tok search (ok_items (lines ++ more)) known = (l', PSEnd, p') /\ grown l l' more.
Proof. intros. now apply grown_ok with (dist := dist). Qed.

Lemma context_app pos xs ys : exists rows : list (@rline D), print_context pos (xs ++ ys) = print_context pos xs ++ rows.
Proof. revert pos. induction xs as [|x xs IH]; intros pos; [eexists; reflexivity|]. cbn. destruct (IH (pos + 1)%N) as (rows & E). exists rows. now rewrite E. Qed.
(** C102: what is shown of a log is the beginning of what is shown of the log that it has grown to. *)
Theorem C102_shown known lines more : pointwise search dist -> all_valid (lines ++ more) -> no_marker (lines ++ more) ->
  exists l l' p p' rows, process_all above tok search (ok_items lines) known = (l, PSEnd, p) /\ process_all above tok search (ok_items (lines ++ more)) known = (l', PSEnd, p') /\
    print_anomalies None l' = print_anomalies None l ++ rows.
Proof.
  intros H1 H2 H3. destruct (C102_grown known lines more H1 H2 H3) as (l & l' & p & p' & E & E' & new & _ & G). exists l, l', p, p'. destruct G as [(-> & ->)|(old & c & x & -> & ->)].
  - exists (print_anomalies None new). csplit; auto.
  - assert (X : forall last, exists rows, print_anomalies last (continued c x :: new) = print_anomalies last [c] ++ rows).
    { intros last. cbn [print_anomalies]. unfold print_anomaly, continued. cbn [before after distance apos aline]. cbv zeta. destruct (context_app (apos c) (after c) x) as (rows & R). exists (rows ++ print_anomalies (Some (apos c + N.of_nat (length (after c ++ x)))%N) new). rewrite R. repeat rewrite <- app_assoc. rewrite app_nil_l. reflexivity. }
    revert X E E'. generalize (continued c x :: new). intros ys X E E'.
    assert (Y : exists rows, print_anomalies None (old ++ ys) = print_anomalies None (old ++ [c]) ++ rows).
    { clear E E'. revert X. generalize (@None N). induction old as [|o old IH]; intros last X; [apply X|]. cbn [app print_anomalies]. destruct (print_anomaly last o) as [out q]. destruct (IH (Some q) X) as (rows & R). exists rows. now rewrite R, app_assoc. }
    destruct Y as (rows & R). exists rows. csplit; auto.
Qed.
End Statements.

(** A log whose last finding gets more lines, and that has a new finding. *)
Definition grown_more : list (bytes * N) := [(lit "x", 8%N); (lit "E3", 9%N)].
Example C102_example : pointwise search_e dist_e /\ all_valid (ex_lines ++ grown_more) /\ no_marker (ex_lines ++ grown_more).
Proof. split; [exact search_e_pointwise|]. split; vm_compute; repeat constructor. Qed.
Example C102_example_findings :
  let found lines := map (fun c => (apos c, before c, after c)) (fst (fst (process_all idb tok_id search_e (ok_items lines) [lit "x"]))) in
  found ex_lines = [(3%N, [lit "a"; lit "b"], [lit "x"; lit "E1"]); (6%N, [], [lit "a"])] /\
  found (ex_lines ++ grown_more) = [(3%N, [lit "a"; lit "b"], [lit "x"; lit "E1"]); (6%N, [], [lit "a"; lit "x"]); (9%N, [], [])].
Proof. split; vm_compute; reflexivity. Qed.

Print Assumptions C102_grown.
Print Assumptions C102_shown.
