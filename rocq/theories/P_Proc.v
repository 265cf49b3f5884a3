(** Properties C10-C18: the anomaly processor and the trainer. *)
From Coq Require Import String List NArith Arith Bool Lia Sorting.
From Verif Require Import Common CommonFacts IterModel IterSpec P_Iter
  ProcModel ProcSpec ProcStopSpec ProcWalk ProcInv ProcMain ProcIndex ProcResult ProcSafe ProcMore ProcRefute
  ProcStop ProcStopSmall.
Import ListNotations.
Open Scope nat_scope.

(** The marker line. *)
Theorem marker_meaning : forall b,
  is_marker b = true <-> exists pre suf, b = pre ++ lit "TASK [log-classify" ++ suf.
Proof. intros b. unfold is_marker. rewrite contains_spec. reflexivity. Qed.

(** ** C10, C11 *)
(** [above]: is the distance more than the threshold?  [tok]: the tokenizer.
    [search]/[dist]: the index, which answers each target by its distance. *)
Theorem C10_exact_detection : forall D (above : D -> bool) tok search dist known lines,
  pointwise search dist -> all_valid lines -> no_marker lines ->
  exists anomalies final positions,
    process_all above tok search (ok_items lines) known = (anomalies, PSEnd, final) /\
    enumerates above tok dist known lines positions /\
    Forall2 (describes tok dist lines) anomalies positions.
Proof.
  intros D above tok search dist known lines Hs Hv Hm.
  destruct (process_all_about above tok search dist known Hs lines Hv Hm) as (cs & p' & E & idxs & H1 & H2 & H3).
  exists cs, p', idxs. auto.
Qed.

Theorem C11_contexts_are_neighbours : forall D (above : D -> bool) tok search dist known lines,
  pointwise search dist -> all_valid lines -> no_marker lines ->
  exists anomalies final positions,
    process_all above tok search (ok_items lines) known = (anomalies, PSEnd, final) /\
    enumerates above tok dist known lines positions /\
    Forall2 (describes tok dist lines) anomalies positions /\
    Forall2 (neighbours above tok dist known lines) anomalies positions.
Proof.
  intros D above tok search dist known lines Hs Hv Hm.
  destruct (process_all_about above tok search dist known Hs lines Hv Hm) as (cs & p' & E & idxs & H1 & H2 & H3).
  exists cs, p', idxs. auto.
Qed.

(** With markers in the stream, everything holds of the lines read (a prefix that ends at the
    end of the stream or at a marker), as if the markers were not there; and the counters
    (C15) and the skip set (C17) are exact. *)
Theorem C10_C11_C15_C17_any_stream : forall D (above : D -> bool) tok search dist known lines,
  pointwise search dist -> all_valid lines ->
  exists k anomalies final positions,
    process_all above tok search (ok_items lines) known = (anomalies, PSEnd, final) /\
    k <= length lines /\
    (k = length lines \/ exists b nr, k > 0 /\ nth_error lines (k - 1) = Some (b, nr) /\ is_marker b = true) /\
    src final = ok_items (skipn k lines) /\
    (let read := without_markers (firstn k lines) in
     enumerates above tok dist known read positions /\
     Forall2 (describes tok dist read) anomalies positions /\
     Forall2 (neighbours above tok dist known read) anomalies positions /\
     forall t, In t (skip final) <-> In t known \/ exists x, In x read /\ tok (fst x) = t) /\
    line_count final = N.of_nat k /\ byte_count final = total_bytes (firstn k lines).
Proof.
  intros D above tok search dist known lines Hs Hv.
  destruct (process_all_about_markers above tok search dist known Hs lines Hv)
    as (k & cs & p' & E & H1 & H2 & H3 & (idxs & H4 & H5 & H6) & H7 & H8 & H9).
  exists k, cs, p', idxs. cbn zeta. csplit; auto.
Qed.

(** From the bytes of a file: the reads of the source do not matter, every deliverable
    segment is a line of the stream. *)
Definition items_of (r : list (bytes * N) * stop) : list item :=
  ok_items (fst r) ++ match snd r with SErr e => [IErr e] | _ => [] end.
Theorem C10_from_bytes : forall D (above : D -> bool) tok search dist known ovf json chunks,
  read_sizes chunks -> no_long_pending json chunks ->
  let lines := filter deliverable (segments json (concat chunks)) in
  pointwise search dist -> all_valid lines -> no_marker lines ->
  exists anomalies final positions,
    process_all above tok search (items_of (all_lines ovf json (map Data chunks))) known = (anomalies, PSEnd, final) /\
    enumerates above tok dist known lines positions /\
    Forall2 (describes tok dist lines) anomalies positions /\
    Forall2 (neighbours above tok dist known lines) anomalies positions.
Proof.
  intros D above tok search dist known ovf json chunks H1 H2 lines Hs Hv Hm.
  rewrite (C01_split_exact ovf json chunks H1 H2). unfold items_of. cbn [fst snd]. rewrite app_nil_r. fold lines.
  apply C11_contexts_are_neighbours; assumption.
Qed.

(** A case: 'x' is known, E1 twice, E2; the second E1 is context of E2. *)
Definition ex_lines : list (bytes * N) :=
  [(lit "a", 1%N); (lit "b", 2%N); (lit "E1", 3%N); (lit "x", 4%N); (lit "E1", 5%N); (lit "E2", 6%N); (lit "a", 7%N)].
Example C10_example_hyps : pointwise search_e dist_e /\ all_valid ex_lines /\ no_marker ex_lines.
Proof. split; [exact search_e_pointwise|]. split; repeat constructor. Qed.
Example C10_example_positions : enumerates idb tok_id dist_e [lit "x"] ex_lines [2; 5].
Proof.
  destruct (C10_exact_detection bool idb tok_id search_e dist_e [lit "x"] ex_lines)
    as (cs & p' & idxs & E & He & Hd); try apply C10_example_hyps.
  assert (Hc : length cs = 2 /\ map (fun c => aline c) cs = [lit "E1"; lit "E2"] /\ map (fun c => apos c) cs = [3%N; 6%N]).
  { assert (E' : fst (fst (process_all idb tok_id search_e (ok_items ex_lines) [lit "x"])) = cs) by now rewrite E.
    subst cs. vm_compute. auto. }
  clear E. destruct Hc as (Hl & H1 & H2). destruct cs as [|c1 [|c2 [|]]]; try discriminate.
  inversion Hd as [|? i1 ? l1 [Hd1 _] Hd2]; subst. inversion Hd2 as [|? i2 ? l2 [Hd3 _] Hd4]; subst.
  inversion Hd4; subst. cbn in H1, H2. injection H1 as E1 E2. injection H2 as E3 E4.
  rewrite E1, E3 in Hd1. rewrite E2, E4 in Hd3.
  assert (i1 = 2) by (do 7 (destruct i1 as [|i1]; [discriminate Hd1 || reflexivity|]); destruct i1; discriminate Hd1).
  assert (i2 = 5) by (do 7 (destruct i2 as [|i2]; [discriminate Hd3 || reflexivity|]); destruct i2; discriminate Hd3).
  subst. exact He.
Qed.
Example C10_example_result :
  map (fun c => (before c, aline c, after c))
    (fst (fst (process_all idb tok_id search_e (ok_items ex_lines) [lit "x"]))) =
  [([lit "a"; lit "b"], lit "E1", [lit "x"; lit "E1"]); ([], lit "E2", [lit "a"])].
Proof. vm_compute. reflexivity. Qed.

(** ** C12 *)
(** Up to 511 new lines and 5120 lines in all: the stream is one batch. *)
Theorem C12_single_batch : forall D (above : D -> bool) tok search dist known lines,
  pointwise search dist -> all_valid lines -> no_marker lines ->
  length (firsts known (map (fun x => tok (fst x)) lines)) < N.to_nat 512 ->
  length lines <= N.to_nat 5120 ->
  exists anomalies final positions,
    process_all above tok search (ok_items lines) known = (anomalies, PSEnd, final) /\
    enumerates above tok dist known lines positions /\
    Forall2 (describes tok dist lines) anomalies positions /\
    before_maximal (combine anomalies positions) /\ after_maximal (combine anomalies positions) /\
    last_after_maximal lines (combine anomalies positions) /\
    disjoint_contexts (combine anomalies positions).
Proof.
  intros D above tok search dist known lines Hs Hv Hm Hn Hl.
  destruct (single_batch above tok search dist known Hs lines Hv Hm Hn Hl)
    as (cs & p' & idxs & E & H1 & _ & H2 & H3 & H4 & H5 & H6).
  exists cs, p', idxs. csplit; auto.
Qed.

(** Any number of batches. *)
Theorem C12_across_batches : forall D (above : D -> bool) tok search dist known lines,
  pointwise search dist -> all_valid lines -> no_marker lines ->
  exists anomalies final positions,
    process_all above tok search (ok_items lines) known = (anomalies, PSEnd, final) /\
    enumerates above tok dist known lines positions /\
    Forall2 (describes tok dist lines) anomalies positions /\
    before_maximal (combine anomalies positions) /\ after_maximal (combine anomalies positions) /\
    last_after_known tok known lines (combine anomalies positions) /\
    (length lines <= N.to_nat 5120 -> disjoint_contexts (combine anomalies positions)).
Proof.
  intros D above tok search dist known lines Hs Hv Hm.
  destruct (process_all_contexts above tok search dist known Hs lines Hv Hm)
    as (cs & p' & idxs & E & H1 & _ & H2 & H3 & H4 & H5 & H6).
  exists cs, p', idxs. csplit; auto.
Qed.

Example C12_example_hyps :
  length (firsts [lit "x"] (map (fun x => tok_id (fst x)) ex_lines)) < N.to_nat 512 /\ length ex_lines <= N.to_nat 5120.
Proof. split; [change (length _) with 4|change (length _) with 7]; lia. Qed.

(** The after context of the last anomaly is lost when its batch was full and only known
    lines follow: the anomaly is followed by three lines but shows none. *)
Theorem C12_last_after_refuted :
  exists lines, all_valid lines /\ no_marker lines /\ pointwise search_e dist_e /\
  exists c final, process_all idb tok_id search_e (ok_items lines) [] = ([c], PSEnd, final) /\
    forall positions, Forall2 (describes tok_id dist_e lines) [c] positions ->
      enumerates idb tok_id dist_e [] lines positions ->
      ~ last_after_maximal lines (combine [c] positions).
Proof.
  exists lost_lines. split; [exact lost_valid|]. split; [exact lost_no_marker|]. split; [exact search_e_pointwise|].
  destruct lost_result as (c & p' & E & Hc). exists c, p'. split; [exact E|].
  intros positions Hd He. inversion Hd as [|? i ? l [Hi _] Hl]; subst. inversion Hl; subst.
  cbn [combine]. intros H. destruct (H [] (c, i) eq_refl) as [K|K]; cbn [fst] in K.
  - rewrite Hc in K. discriminate.
  - unfold stop_of in K. cbn [fst snd] in K. rewrite Hc in K. cbn [length] in K.
    apply (lost_not_last i); [|clear - K; lia].
    apply (proj2 He). left. reflexivity.
Qed.

(** Two contexts share lines when the duplicate limit ends a batch. *)
Theorem C12_disjoint_refuted :
  exists lines known, all_valid lines /\ no_marker lines /\ pointwise search_e dist_e /\
  exists c1 c2 final, process_all idb tok_id search_e (ok_items lines) known = ([c1; c2], PSEnd, final) /\
    forall positions, Forall2 (describes tok_id dist_e lines) [c1; c2] positions ->
      enumerates idb tok_id dist_e known lines positions ->
      ~ disjoint_contexts (combine [c1; c2] positions).
Proof.
  exists overlap_lines, [lit "a"]. split; [exact overlap_valid|]. split; [exact overlap_no_marker|].
  split; [exact search_e_pointwise|].
  destruct overlap_result as (c1 & c2 & p' & E & H1 & H2). exists c1, c2, p'. split; [exact E|].
  intros positions Hd He. inversion Hd as [|? i ? l [Hi _] Hl]; subst. inversion Hl as [|? j ? l' [Hj _] Hl']; subst.
  inversion Hl'; subst. cbn [combine]. intros H.
  specialize (H [] (c1, i) [] (c2, j) [] eq_refl). unfold stop_of, start_of in H. cbn [fst snd] in H.
  rewrite H1, H2 in H. cbn [length] in H.
  destruct (overlap_close i j) as (Ki & Kj); [| |clear - H Ki Kj; lia].
  - apply (proj2 He). left. reflexivity.
  - destruct He as [Hs He]. split.
    + apply He. right. left. reflexivity.
    + inversion Hs as [|? ? _ Hf]; subst. inversion Hf; subst. assumption.
Qed.

(** ** C13 *)
(** For any sources and states reached by any number of calls, and any search function. *)
Theorem C13_never_panics : forall D (above : D -> bool) tok search items known calls,
  fst (pnext above tok search (after_calls above tok search calls (proc_new items known))) <> PPanic.
Proof. intros. apply never_panics. Qed.

(** ** C14 *)
(** Exactly the first [lines_read] lines are read, for every stream; and what is reported is
    what is to be reported of these lines. *)
Theorem C14_exact : forall D (above : D -> bool) tok search dist known lines,
  pointwise search dist -> all_valid lines ->
  let k := lines_read above tok dist (pace_new known) lines in
  exists anomalies final positions,
    process_all above tok search (ok_items lines) known = (anomalies, PSEnd, final) /\
    k <= length lines /\ src final = ok_items (skipn k lines) /\
    (let read := without_markers (firstn k lines) in
     enumerates above tok dist known read positions /\
     Forall2 (describes tok dist read) anomalies positions /\
     Forall2 (neighbours above tok dist known read) anomalies positions) /\
    line_count final = N.of_nat k.
Proof.
  intros D above tok search dist known lines Hs Hv k.
  destruct (C10_C11_C15_C17_any_stream D above tok search dist known lines Hs Hv)
    as (k' & cs & p' & idxs & E & H1 & _ & H3 & (H4 & H5 & H6 & _) & H7 & _).
  pose proof (lines_read_le above tok dist lines (pace_new known)) as Hk. fold k in Hk.
  pose proof (process_stop above tok search dist Hs known lines cs p' Hv E) as Hp. fold k in Hp.
  assert (k' = k) as ->.
  { rewrite H3 in Hp. apply (f_equal (@length item)) in Hp. unfold ok_items in Hp. rewrite !map_length, !skipn_length in Hp. lia. }
  exists cs, p', idxs. cbn zeta. csplit; auto.
Qed.

(** In a stream of up to 511 new lines and 5120 lines in all, reading ends exactly at the first
    marker with no line to report between it and the marker before it (or the start). *)
Theorem C14_single_batch : forall D (above : D -> bool) tok search dist known lines,
  pointwise search dist -> all_valid lines ->
  length (firsts known (map (fun x => tok (fst x)) (without_markers lines))) < N.to_nat 512 ->
  length lines <= N.to_nat 5120 ->
  exists k anomalies final,
    process_all above tok search (ok_items lines) known = (anomalies, PSEnd, final) /\
    src final = ok_items (skipn k lines) /\ line_count final = N.of_nat k /\
    (forall j, quiet_at above tok dist known lines j -> k <= S j) /\
    (k = length lines \/ exists j, k = S j /\ quiet_at above tok dist known lines j).
Proof.
  intros D above tok search dist known lines Hs Hv Hf Hl.
  destruct (C14_exact D above tok search dist known lines Hs Hv) as (cs & p' & idxs & E & H1 & H2 & _ & H3).
  destruct (small_stop above tok dist known lines [] [] (pace_new known) (inv_start above tok dist known) Hf Hl) as (K1 & K2).
  cbn [app length Nat.add] in K1, K2.
  exists (lines_read above tok dist (pace_new known) lines), cs, p'. csplit; auto. intros j Hj. apply K1; [lia|exact Hj].
Qed.

(** Two markers: the first is passed, E1 waits before it; the second ends the reading. *)
Definition two_markers : list (bytes * N) :=
  [(lit "E1", 1%N); (lit "TASK [log-classify : a]", 2%N); (lit "x", 3%N); (lit "TASK [log-classify : b]", 4%N); (lit "E2", 5%N)].
Example C14_example_read : lines_read idb tok_id dist_e (pace_new []) two_markers = 4.
Proof. vm_compute. reflexivity. Qed.
Example C14_example_quiet : quiet_at idb tok_id dist_e [] two_markers 3 /\ ~ quiet_at idb tok_id dist_e [] two_markers 1.
Proof.
  assert (Hsmall : length (firsts [] (map (fun x => tok_id (fst x)) (without_markers two_markers))) < N.to_nat 512 /\
    length two_markers <= N.to_nat 5120) by (split; [change (length _) with 3|change (length _) with 5]; lia).
  destruct Hsmall as [Hf Hl].
  destruct (small_stop idb tok_id dist_e [] two_markers [] [] (pace_new []) (inv_start idb tok_id dist_e []) Hf Hl) as (K1 & K2).
  cbn [app length Nat.add] in K1, K2. rewrite C14_example_read in K1, K2. split.
  - destruct K2 as [K2|(j & K2 & K3)]; [discriminate|]. injection K2 as <-. exact K3.
  - intros K. apply K1 in K; lia.
Qed.

(** For streams of any length: nothing is read behind the first marker when nothing is to be
    reported before it. *)
Theorem C14_first_marker : forall D (above : D -> bool) tok search dist known lines marker rest,
  pointwise search dist -> all_valid (lines ++ [marker]) -> no_marker lines -> is_marker (fst marker) = true ->
  (forall i, ~ reported above tok dist known lines i) ->
  exists final, process_all above tok search (ok_items (lines ++ [marker]) ++ rest) known = ([], PSEnd, final) /\
    src final = rest.
Proof. intros. eapply first_marker; eauto. Qed.

(** Nothing behind [m2] is read when nothing between it and the previous marker is reported. *)
Theorem C14_quiet_section : forall D (above : D -> bool) tok search dist known A m1 B m2 C,
  pointwise search dist -> all_valid (A ++ m1 :: B ++ m2 :: C) -> no_marker B ->
  is_marker (fst m1) = true -> is_marker (fst m2) = true ->
  (forall i, length (without_markers A) <= i -> ~ reported above tok dist known (without_markers A ++ B) i) ->
  exists anomalies final unread,
    process_all above tok search (ok_items (A ++ m1 :: B ++ m2 :: C)) known = (anomalies, PSEnd, final) /\
    src final = ok_items (unread ++ C).
Proof. intros. eapply quiet_marker; eauto. Qed.

(** The wider statement, no line behind a marker is ever reported, does not hold: *)
Definition marker_line : bytes * N := (lit "TASK [log-classify : run]", 2%N).
Theorem C14_stops_at_marker_refuted :
  exists before_marker after_marker, all_valid (before_marker ++ marker_line :: after_marker) /\
    is_marker (fst marker_line) = true /\
    exists anomalies final c b nr,
      process_all idb tok_id search_e (ok_items (before_marker ++ marker_line :: after_marker)) [] = (anomalies, PSEnd, final) /\
      In c anomalies /\ In (b, nr) after_marker /\ aline c = b /\ apos c = nr.
Proof.
  exists [(lit "E1", 1%N)], [(lit "E2", 3%N)]. split; [repeat constructor|]. split; [reflexivity|].
  eexists _, _, _, _, _. split; [vm_compute; reflexivity|]. split; [right; left; reflexivity|].
  split; [left; reflexivity|]. split; reflexivity.
Qed.

Definition quiet_lines : list (bytes * N) := [(lit "a", 1%N)].
Example C14_example_hyps : all_valid (quiet_lines ++ [marker_line]) /\ no_marker quiet_lines /\
  forall i, ~ reported idb tok_id dist_e [] quiet_lines i.
Proof.
  split; [repeat constructor|]. split; [repeat constructor|].
  intros [|i] (_ & b & nr & Hn & Ha); [|destruct i; discriminate].
  cbn in Hn. injection Hn as <- <-. discriminate.
Qed.

(** ** C15 *)
Theorem C15_counters : forall D (above : D -> bool) tok search dist known lines,
  pointwise search dist -> all_valid lines -> no_marker lines ->
  exists anomalies final,
    process_all above tok search (ok_items lines) known = (anomalies, PSEnd, final) /\
    line_count final = N.of_nat (length lines) /\ byte_count final = total_bytes lines.
Proof.
  intros D above tok search dist known lines Hs Hv Hm.
  destruct (C10_C11_C15_C17_any_stream D above tok search dist known lines Hs Hv)
    as (k & cs & p' & idxs & E & H1 & H2 & H3 & _ & H5 & H6).
  exists cs, p'. split; [exact E|].
  assert (k = length lines) as ->.
  { destruct H2 as [?|(b & nr & Hk & Hn & Hmk)]; [assumption|]. exfalso. apply nth_error_In in Hn.
    unfold no_marker in Hm. rewrite Forall_forall in Hm. specialize (Hm _ Hn). cbn [fst] in Hm. congruence. }
  rewrite firstn_all in H6. auto.
Qed.

Theorem C15_trainer_counters : forall tok sources,
  let t := train_sources tok sources trainer_new in
  let lines := concat (map good_prefix sources) in
  tline_count t = N.of_nat (length lines) /\ tbyte_count t = total_bytes lines.
Proof.
  intros tok sources. destruct (train_inv tok sources [] trainer_new (tinv_new tok)) as (_ & _ & H). exact H.
Qed.

(** ** C16 *)
(** The error is returned, and what was yielded before is a prefix of what any continuation
    of the good lines yields. *)
Theorem C16_prefix_before_failure : forall D (above : D -> bool) tok search dist known pre bad rest e,
  pointwise search dist -> all_valid pre -> no_marker pre -> failing bad e ->
  exists anomalies final,
    process_all above tok search (ok_items pre ++ bad :: rest) known = (anomalies, PSErr e, final) /\
    src final = rest /\ line_count final = N.of_nat (length pre) /\ byte_count final = total_bytes pre /\
    (forall t, In t (skip final) <-> In t known \/ exists x, In x pre /\ tok (fst x) = t) /\
    forall continuation, exists more stop2 final2,
      process_all above tok search (ok_items pre ++ continuation) known = (anomalies ++ more, stop2, final2).
Proof. intros. eapply failing_source; eauto. Qed.

Theorem C16_nothing_lost_refuted :
  exists pre bad, all_valid pre /\ no_marker pre /\ failing bad (Some 5%N) /\
    reported idb tok_id dist_e [] pre 0 /\
    exists final, process_all idb tok_id search_e (ok_items pre ++ [bad]) [] = ([], PSErr (Some 5%N), final).
Proof.
  exists [(lit "E1", 1%N)], (IErr 5). split; [repeat constructor|]. split; [repeat constructor|]. split; [reflexivity|].
  split.
  - split; [|eexists _, _; split; reflexivity].
    exists (lit "E1"), 1%N. split; [reflexivity|]. split; [intros []|]. intros j b' nr' Hj. lia.
  - eexists. vm_compute. reflexivity.
Qed.

Example C16_example : failing (IErr 5) (Some 5%N) /\ failing (ILine [255%N] 3%N) None.
Proof. repeat split. Qed.

(** ** C17 *)
Theorem C17_skip_set : forall D (above : D -> bool) tok search dist known lines,
  pointwise search dist -> all_valid lines -> no_marker lines ->
  exists anomalies final,
    process_all above tok search (ok_items lines) known = (anomalies, PSEnd, final) /\
    forall t, In t (skip final) <-> In t known \/ exists x, In x lines /\ tok (fst x) = t.
Proof.
  intros D above tok search dist known lines Hs Hv Hm.
  destruct (C10_C11_C15_C17_any_stream D above tok search dist known lines Hs Hv)
    as (k & cs & p' & idxs & E & H1 & H2 & H3 & H4 & H5 & H6).
  exists cs, p'. split; [exact E|].
  assert (k = length lines) as ->.
  { destruct H2 as [?|(b & nr & Hk & Hn & Hmk)]; [assumption|]. exfalso. apply nth_error_In in Hn.
    unfold no_marker in Hm. rewrite Forall_forall in Hm. specialize (Hm _ Hn). cbn [fst] in Hm. congruence. }
  cbn zeta in H4. rewrite firstn_all, without_markers_id in H4 by exact Hm. apply H4.
Qed.

(** A second source processed with the same set does not repeat a line of the first, even
    when the first failed. *)
Theorem C17_second_source : forall D (above : D -> bool) tok search dist known lines1 fail1 lines2,
  pointwise search dist -> all_valid lines1 -> no_marker lines1 -> all_valid lines2 -> no_marker lines2 ->
  fail1 = [] \/ (exists bad rest e, fail1 = bad :: rest /\ failing bad e) ->
  let '(_, _, final1) := process_all above tok search (ok_items lines1 ++ fail1) known in
  exists anomalies final2,
    process_all above tok search (ok_items lines2) (skip final1) = (anomalies, PSEnd, final2) /\
    forall c x, In c anomalies -> In x lines1 -> tok (aline c) <> tok (fst x).
Proof.
  intros D above tok search dist known l1 f1 l2 Hs Hv1 Hm1 Hv2 Hm2 Hf.
  assert (Hk : forall cs st p1, process_all above tok search (ok_items l1 ++ f1) known = (cs, st, p1) ->
    forall x, In x l1 -> In (tok (fst x)) (skip p1)).
  { intros cs st p1 E x Hx. destruct Hf as [->|(bad & rest & e & -> & Hf)].
    - rewrite app_nil_r in E. destruct (C17_skip_set D above tok search dist known l1 Hs Hv1 Hm1) as (cs' & p' & E' & H).
      rewrite E in E'. injection E' as -> -> ->. apply H. eauto.
    - destruct (C16_prefix_before_failure D above tok search dist known l1 bad rest e Hs Hv1 Hm1 Hf)
        as (cs' & p' & E' & _ & _ & _ & H & _). rewrite E in E'. injection E' as -> -> ->. apply H. eauto. }
  destruct (process_all above tok search (ok_items l1 ++ f1) known) as [[cs st] p1]. specialize (Hk _ _ _ eq_refl).
  destruct (C10_exact_detection D above tok search dist (skip p1) l2 Hs Hv2 Hm2) as (cs2 & p2 & idxs & E & He & Hd).
  exists cs2, p2. split; [exact E|]. intros c x Hc Hx Etok.
  assert (Hex : exists i, In i idxs /\ describes tok dist l2 c i).
  { clear - Hd Hc. induction Hd as [|c' i cs' is H _ IH]; [destruct Hc|]. destruct Hc as [->|Hc].
    - exists i. split; [left; reflexivity|exact H].
    - destruct (IH Hc) as (j & Hj & Hj2). exists j. split; [right; exact Hj|exact Hj2]. }
  destruct Hex as (i & Hi & Hd1 & _). apply (proj2 He) in Hi. destruct Hi as [(b & nr & Hb & Hn & _) _].
  rewrite Hd1 in Hb. injection Hb as <- <-. apply Hn. rewrite Etok. apply Hk. exact Hx.
Qed.

(** ** C18 *)
Theorem C18_trained_exactly_once : forall tok sources,
  let batches := added (train_sources tok sources trainer_new) in
  let lines := concat (map good_prefix sources) in
  concat batches = firsts [] (map (fun x => tok (fst x)) lines) /\
  exists full last, batches = full ++ last /\ Forall (fun b => length b = N.to_nat 512) full /\
    (last = [] \/ exists b, last = [b] /\ 0 < length b < N.to_nat 512).
Proof.
  intros tok sources. destruct (train_inv tok sources [] trainer_new (tinv_new tok)) as (H1 & H2 & _).
  cbn [app] in H1. auto.
Qed.

(** [firsts] is what it should be: no duplicates, all elements, in order of first occurrence. *)
Theorem C18_firsts_meaning : forall seen l,
  NoDup (firsts seen l) /\
  (forall t, In t (firsts seen l) <-> In t l /\ ~ In t seen) /\
  (forall l1 t l2, l = l1 ++ t :: l2 -> ~ In t l1 -> ~ In t seen ->
     exists l3, firsts seen l = firsts seen l1 ++ t :: l3).
Proof. exact firsts_meaning. Qed.

Example C18_example : train_sources tok_id
  [[ILine (lit "a") 1; ILine (lit "b") 2; IErr 0; ILine (lit "z") 3]; [ILine (lit "b") 1; ILine (lit "c") 2]] trainer_new
  = mkTrainer [[lit "a"; lit "b"; lit "c"]] [lit "c"; lit "b"; lit "a"] [lit "a"; lit "b"; lit "c"] 4 4.
Proof. reflexivity. Qed.

Print Assumptions marker_meaning.
Print Assumptions C10_exact_detection.
Print Assumptions C10_C11_C15_C17_any_stream.
Print Assumptions C10_from_bytes.
Print Assumptions C11_contexts_are_neighbours.
Print Assumptions C12_single_batch.
Print Assumptions C12_across_batches.
Print Assumptions C12_last_after_refuted.
Print Assumptions C12_disjoint_refuted.
Print Assumptions C13_never_panics.
Print Assumptions C14_exact.
Print Assumptions C14_single_batch.
Print Assumptions C14_first_marker.
Print Assumptions C14_quiet_section.
Print Assumptions C14_stops_at_marker_refuted.
Print Assumptions C15_counters.
Print Assumptions C15_trainer_counters.
Print Assumptions C16_prefix_before_failure.
Print Assumptions C16_nothing_lost_refuted.
Print Assumptions C17_skip_set.
Print Assumptions C17_second_source.
Print Assumptions C18_trained_exactly_once.
Print Assumptions C18_firsts_meaning.
