(** Properties C01-C09: the line iterator. *)
From Coq Require Import String List NArith Bool Lia Sorted.
From Verif Require Import Common IterModel IterSpec IterProofs IterSafety IterMain IterLex IterRefute.
Import ListNotations.
Open Scope N_scope.

(** ** C01 *)
Theorem C01_split_exact : forall ovf json chunks,
  read_sizes chunks -> no_long_pending json chunks ->
  all_lines ovf json (map Data chunks) =
  (filter deliverable (segments json (concat chunks)), SEnd).
Proof.
  intros ovf json chunks H1 H2.
  rewrite <- deliver_segments, <- (app_nil_r (map Data chunks)).
  exact (all_lines_correct ovf json chunks [] I H1 H2).
Qed.

Theorem C01_reads_do_not_matter : forall ovf json chunks1 chunks2,
  read_sizes chunks1 -> read_sizes chunks2 -> concat chunks1 = concat chunks2 ->
  Forall (fun x => N.of_nat (length (fst x)) <= 5999) (segments json (concat chunks1)) ->
  all_lines ovf json (map Data chunks1) = all_lines ovf json (map Data chunks2).
Proof.
  intros ovf json c1 c2 H1 H2 E H.
  rewrite C01_split_exact by auto using short_no_long_pending.
  rewrite C01_split_exact, E; [reflexivity|assumption|].
  apply short_no_long_pending. now rewrite <- E.
Qed.

(** The specification itself neither loses nor invents bytes: the segments and
    separators, put together again, are the stream. *)
Theorem C01_nothing_lost : forall json s,
  exists seps, length seps = length (finished json s) /\ Forall (separator json) seps /\
    s = interleave (map fst (finished json s)) seps ++ pending json s.
Proof.
  intros json s. destruct (lex_pieces s (lex0 json)) as (seps & H1 & H2 & H3); [discriminate|].
  exists seps. split; [exact H1|]. split; [|exact H3]. destruct json; exact H2.
Qed.

(** A separator straddling two reads. *)
Definition ex_chunks : list bytes :=
  [lit "ab\"; lit "ncd" ++ [10]; [10] ++ lit "e"; lit "f"].
Example C01_example_hyps : read_sizes ex_chunks /\ no_long_pending false ex_chunks.
Proof.
  split; [|apply check_pending_sound; vm_compute; reflexivity].
  unfold read_sizes, ex_chunks.
  repeat (apply Forall_cons; [split; vm_compute; discriminate|]). constructor.
Qed.
Example C01_example_result :
  all_lines true false (map Data ex_chunks) = ([(lit "ab", 1); (lit "cd", 1); (lit "ef", 3)], SEnd).
Proof. vm_compute. reflexivity. Qed.

(** ** C02 *)
Theorem C02_line_length : forall ovf json r0 s r l n s' r',
  reachable ovf json r0 s r -> next ovf s r = (OLine l n, s', r') ->
  1 <= N.of_nat (length l) <= 6000.
Proof.
  intros ovf json r0 s r l n s' r' H E.
  exact (proj1 (next_line _ _ _ _ _ _ _ (proj1 (reachable_OK _ _ _ _ _ H)) E)).
Qed.

(** ** C03 *)
(** [OFuel]/[SFuel] would be a call or a loop that does not end. *)
Theorem C03_calls_return : forall ovf json r0 s r o s' r',
  reachable ovf json r0 s r -> next ovf s r = (o, s', r') -> o <> OFuel.
Proof.
  intros ovf json r0 s r o s' r' H E ->.
  pose proof (proj1 (reachable_OK _ _ _ _ _ H)) as HO.
  destruct (next_OK _ _ _ _ _ _ HO E ltac:(discriminate)) as (_ & H2 & _). now apply H2.
Qed.

Theorem C03_iteration_ends : forall ovf json r0, snd (all_lines ovf json r0) <> SFuel.
Proof. exact all_lines_total. Qed.

Theorem C03_none_is_final : forall ovf json r0 s r s' n,
  reachable ovf json r0 s r -> next ovf s r = (ONone, s', []) ->
  calls ovf n s' [] = repeat ONone n.
Proof.
  intros ovf json r0 s r s' n H E. apply calls_finished.
  exact (none_finished _ _ _ _ _ (proj1 (reachable_OK _ _ _ _ _ H)) E eq_refl).
Qed.

Example C03_example : exists s', next false (new false) [] = (ONone, s', []).
Proof. eexists. vm_compute. reflexivity. Qed.

(** ** C04 ([peak] is the largest length the buffer ever had) *)
Theorem C04_buffer_bounded : forall ovf json r0 s r,
  reachable ovf json r0 s r -> N.of_nat (length (buf s)) <= 6000 + 8192 /\ peak s <= 6000 + 8192.
Proof. exact reachable_buffer. Qed.

(** ** C05 *)
Theorem C05_numbers_non_decreasing : forall ovf json r0 n,
  StronglySorted N.le (numbers (calls ovf n (new json) r0)).
Proof. intros ovf json r0 n. exact (proj1 (calls_sorted ovf n (new json) r0 (OK_new json))). Qed.

Theorem C05_numbers_bounded : forall ovf json r0 s r l n s' r',
  reachable ovf json r0 s r -> next ovf s r = (OLine l n, s', r') ->
  1 <= n /\ n + newlines (stream r') <= 1 + newlines (stream r0).
Proof.
  intros ovf json r0 s r l n s' r' H E.
  destruct (reachable_OK _ _ _ _ _ H) as [HO HK].
  destruct (next_line _ _ _ _ _ _ _ HO E) as (_ & H1 & _ & _ & H2).
  rewrite !rd_newlines_stream in *. split; [assumption|]. lia.
Qed.

Theorem C05_numbers_exact : forall ovf json chunks l n,
  read_sizes chunks -> no_long_pending json chunks -> no_escaped_newline (concat chunks) ->
  In (l, n) (fst (all_lines ovf json (map Data chunks))) ->
  exists p t, concat chunks = p ++ l ++ t /\ n = 1 + newlines p /\ newlines l = 0.
Proof.
  intros ovf json chunks l n H1 H2 H3 Hin. rewrite C01_split_exact in Hin by assumption.
  cbn [fst] in Hin. apply filter_In in Hin. destruct Hin as [Hin _].
  exact (segments_numbers json _ _ _ H3 Hin).
Qed.

Example C05_example_hyps :
  read_sizes [lit "a\nb" ++ [10; 10] ++ lit "c"] /\
  no_escaped_newline (lit "a\nb" ++ [10; 10] ++ lit "c").
Proof.
  split.
  - repeat constructor; vm_compute; discriminate.
  - intros p t E. do 7 (destruct p as [|? p]; [inversion E; try reflexivity|inversion E; subst]).
    destruct p; discriminate.
Qed.

(** A line ending in a backslash shifts the later numbers. *)
Theorem C05_numbers_exact_refuted :
  exists chunks l n,
    read_sizes chunks /\ no_long_pending false chunks /\
    In (l, n) (fst (all_lines false false (map Data chunks))) /\
    ~ exists p t, concat chunks = p ++ l ++ t /\ n = 1 + newlines p.
Proof.
  exists [lit "a\" ++ [10] ++ lit "b" ++ [10] ++ lit "c"], (lit "c"), 2.
  split; [repeat constructor; vm_compute; discriminate|].
  split; [apply check_pending_sound; vm_compute; reflexivity|].
  split; [vm_compute; auto|].
  intros (p & t & E & Hn). cbn in E, Hn.
  do 5 (destruct p as [|? p]; [discriminate|inversion E; subst; clear E; rename H1 into E]).
  destruct p as [|? p]; [|destruct p; discriminate]. cbn in Hn. discriminate.
Qed.

(** ** C06 *)
(** Full claim: [read_sizes chunks] alone implies the conclusion of C01.  Proved only
    when the end of the long line is in the buffer (no long pending bytes). *)
Theorem C06_long_lines_dropped_partial : forall ovf json chunks x,
  read_sizes chunks -> no_long_pending json chunks ->
  In x (segments json (concat chunks)) -> fst x <> [] ->
  (N.of_nat (length (fst x)) <= 6000 -> In x (fst (all_lines ovf json (map Data chunks)))) /\
  (6000 < N.of_nat (length (fst x)) -> ~ In x (fst (all_lines ovf json (map Data chunks)))).
Proof.
  intros ovf json chunks x H1 H2 Hin Hne. rewrite C01_split_exact by assumption.
  cbn [fst]. rewrite filter_In. unfold deliverable.
  destruct (fst x) as [|z zs]; [congruence|]. split; intros H.
  - split; [assumption|]. now apply N.leb_le.
  - intros [_ H']. apply N.leb_le in H'. lia.
Qed.

(** A short line is lost because it follows an over-long one. *)
Theorem C06_lines_lost_refuted :
  exists chunks, read_sizes chunks /\
    In (lit "lost", 2) (segments false (concat chunks)) /\
    all_lines false false (map Data chunks) = ([(lit "kept", 2)], SEnd).
Proof. exists lost_chunks. split; [exact lost_sizes|]. split; [exact lost_segments|exact lost_run]. Qed.

(** Bytes that are not in the stream (padding) are delivered as log content. *)
Theorem C06_padding_refuted :
  exists chunks l n, read_sizes chunks /\ ~ In 0 (concat chunks) /\
    In (l, n) (fst (all_lines false false (map Data chunks))) /\ In 0 l.
Proof.
  exists padding_chunks, (lit "abc" ++ zeros 5188), 2.
  split; [exact padding_sizes|]. split; [exact padding_no_zero|].
  rewrite padding_run. split; [left; reflexivity|]. apply in_or_app. right.
  unfold zeros. replace (N.to_nat 5188) with (S (N.to_nat 5187)) by lia. now left.
Qed.

(** ** C07 *)
Theorem C07_lines_before_error : forall ovf json chunks e rest,
  read_sizes chunks -> no_long_pending json chunks ->
  all_lines ovf json (map Data chunks ++ Fail e :: rest) =
  (filter deliverable (finished json (concat chunks)), SErr e).
Proof.
  intros ovf json chunks e rest H1 H2. rewrite <- deliver_finished.
  exact (all_lines_correct ovf json chunks (Fail e :: rest) I H1 H2).
Qed.

Example C07_example :
  all_lines true false [Data (lit "ab" ++ [10] ++ lit "c"); Data (lit "d\nef"); Fail 5; Data (lit "x")]
  = ([(lit "ab", 1); (lit "cd", 2)], SErr 5).
Proof. vm_compute. reflexivity. Qed.

(** ** C08 *)
Theorem C08_no_panic_without_overflow_checks : forall json r0 s r o s' r',
  reachable false json r0 s r -> next false s r = (o, s', r') -> o <> OPanic.
Proof.
  intros json r0 s r o s' r' H E ->.
  pose proof (next_panic _ _ _ _ _ (proj1 (reachable_OK _ _ _ _ _ H)) E). discriminate.
Qed.

(** With overflow checks: as long as nothing has to be drained. *)
Theorem C08_no_panic_with_overflow_checks_partial : forall json chunks,
  read_sizes chunks -> no_long_pending json chunks ->
  snd (all_lines true json (map Data chunks)) <> SPanic.
Proof. intros json chunks H1 H2. rewrite C01_split_exact by assumption. discriminate. Qed.

Theorem C08_overflow_panic_refuted :
  exists chunks, read_sizes chunks /\ snd (all_lines true false (map Data chunks)) = SPanic.
Proof. exists panic_chunks. split; [exact panic_sizes|]. now rewrite panic_run. Qed.

(** ** C09 *)
Theorem C09_strings_not_split : forall ovf chunks a body t,
  read_sizes chunks -> no_long_pending true chunks ->
  concat chunks = a ++ 34 :: body ++ 34 :: t ->
  in_quotes a = false -> escapes_next a = false -> string_body body = true ->
  exists seg n, In (seg, n) (segments true (concat chunks)) /\ infix (34 :: body ++ [34]) seg /\
    (N.of_nat (length seg) <= 6000 -> In (seg, n) (fst (all_lines ovf true (map Data chunks)))).
Proof.
  intros ovf chunks a body t H1 H2 E Hq He Hb.
  destruct (segments_string true _ _ _ _ eq_refl E Hq He Hb) as (seg & n & Hin & Hf).
  exists seg, n. split; [assumption|]. split; [assumption|]. intros Hl.
  apply (C06_long_lines_dropped_partial ovf true chunks (seg, n)); auto.
  cbn. destruct Hf as (x & y & ->). destruct x; discriminate.
Qed.

Theorem C09_json_separators_split : forall ovf chunks l n,
  read_sizes chunks -> no_long_pending true chunks ->
  In (l, n) (fst (all_lines ovf true (map Data chunks))) ->
  exists p t, concat chunks = p ++ l ++ t /\
    forall x c y, l = x ++ c :: y ->
      (c = 10 -> escapes_next (p ++ x) = true) /\
      (In c [44; 91; 93; 123; 125] -> in_quotes (p ++ x) = true \/ escapes_next (p ++ x) = true).
Proof.
  intros ovf chunks l n H1 H2 Hin. rewrite C01_split_exact in Hin by assumption.
  cbn [fst] in Hin. apply filter_In in Hin. destruct Hin as [Hin _].
  destruct (segments_no_sep true _ _ _ Hin) as (p & t & E & H).
  exists p, t. split; [assumption|]. intros x c y El. destruct (H x c y El) as [A B]. auto.
Qed.

Example C09_example :
  let s := lit "{""k"": ""a,[b]\\\""c"", z" in
  in_quotes (lit "{""k"": ") = false /\ escapes_next (lit "{""k"": ") = false /\
  string_body (lit "a,[b]\\\""c") = true /\
  all_lines true true [Data s] = ([(lit """k"": ""a,[b]\\\""c""", 1); (lit " z", 1)], SEnd).
Proof. vm_compute. auto. Qed.

Print Assumptions C01_split_exact.
Print Assumptions C01_reads_do_not_matter.
Print Assumptions C01_nothing_lost.
Print Assumptions C02_line_length.
Print Assumptions C03_calls_return.
Print Assumptions C03_iteration_ends.
Print Assumptions C03_none_is_final.
Print Assumptions C04_buffer_bounded.
Print Assumptions C05_numbers_non_decreasing.
Print Assumptions C05_numbers_bounded.
Print Assumptions C05_numbers_exact.
Print Assumptions C05_numbers_exact_refuted.
Print Assumptions C06_long_lines_dropped_partial.
Print Assumptions C06_lines_lost_refuted.
Print Assumptions C06_padding_refuted.
Print Assumptions C07_lines_before_error.
Print Assumptions C08_no_panic_without_overflow_checks.
Print Assumptions C08_no_panic_with_overflow_checks_partial.
Print Assumptions C08_overflow_panic_refuted.
Print Assumptions C09_strings_not_split.
Print Assumptions C09_json_separators_split.
