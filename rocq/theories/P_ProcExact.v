(** Property C12: the exact contexts of every anomaly, for streams of any number of batches. *)
From Coq Require Import String List NArith Arith Bool Lia Sorting.
From Verif Require Import Common CommonFacts ProcModel ProcSpec ProcStopSpec ProcExactSpec
  ProcWalk ProcInv ProcMain ProcIndex ProcResult ProcRefute ProcStop ProcExact P_Proc.
Import ListNotations.
Open Scope nat_scope.

(** Which lines every context holds, as a function of the stream alone. *)
Theorem C12_exact : forall D (above : D -> bool) tok search dist known lines,
  pointwise search dist -> all_valid lines -> no_marker lines ->
  exists anomalies final positions,
    process_all above tok search (ok_items lines) known = (anomalies, PSEnd, final) /\
    enumerates above tok dist known lines positions /\
    Forall2 (describes tok dist lines) anomalies positions /\
    exact_contexts above tok dist known lines anomalies positions.
Proof.
  intros D above tok search dist known lines Hs Hv Hm.
  destruct (process_exact above tok search dist Hs known lines Hv Hm) as (cs & p' & idxs & H1 & H2 & H3 & H4).
  exists cs, p', idxs. csplit; assumption.
Qed.

(** What [new_at] and [behind_new] mean. *)
Theorem C12_new_at : forall (tok : bytes -> bytes) known lines i,
  new_at tok known lines i = true <-> first_seen tok known lines i.
Proof.
  intros tok known lines i. destruct (nth_error lines i) as [[b nr]|] eqn:E.
  - rewrite (first_seen_iff (fun _ : unit => true) tok (fun _ => tt) known lines i b nr E).
    unfold new_at. rewrite E, negb_true_iff, <- !not_true_iff_false, !mem_set_spec, seen_after_in, in_app_iff, in_map_iff. firstorder.
  - unfold new_at, first_seen. rewrite E. split; [discriminate|]. intros (b & nr & H & _). discriminate.
Qed.
Theorem C12_behind_new : forall (tok : bytes -> bytes) known lines n,
  behind_new tok known lines n <= n /\
  (forall i, behind_new tok known lines n <= i < n -> ~ first_seen tok known lines i) /\
  (forall i, behind_new tok known lines n = S i -> first_seen tok known lines i).
Proof.
  intros tok known lines n. unfold behind_new. pose proof (find_rev_seq (new_at tok known lines) n) as F. destruct (find _ _) as [i|].
  - destruct F as (F1 & F2 & F3). split; [lia|]. split.
    + intros k Hk Hf. apply C12_new_at in Hf. rewrite F3 in Hf by lia. discriminate.
    + intros k Hk. injection Hk as <-. now apply C12_new_at.
  - split; [lia|]. split; [|discriminate]. intros k Hk Hf. apply C12_new_at in Hf. rewrite F in Hf by lia. discriminate.
Qed.

(** The only lines that can be in two contexts: lines of an earlier batch behind which no new
    line follows in that batch. *)
Theorem C12_shared_lines : forall D (above : D -> bool) tok dist known lines j i p,
  p < context_end above tok dist known lines (Some i) j ->
  context_start above tok dist known lines (Some j) i <= p ->
  p < batch_start above tok dist known lines i /\
  forall q, p <= q < batch_start above tok dist known lines i -> ~ first_seen tok known lines q.
Proof.
  intros D above tok dist known lines j i p H1 H2. unfold context_end in H1. unfold context_start in H2.
  set (s := batch_start above tok dist known lines i) in *. cbn zeta in H2.
  destruct (Nat.ltb_spec s (Nat.min (j + 4) i)) as [H|H]; [lia|].
  destruct (C12_behind_new tok known lines s) as (B1 & B2 & _).
  split; [lia|]. intros q Hq. apply B2. lia.
Qed.

(** A stream of several batches, two of whose contexts share lines. *)
Example C12_exact_hyps : pointwise search_e dist_e /\ all_valid overlap_lines /\ no_marker overlap_lines.
Proof. split; [exact search_e_pointwise|]. split; [exact overlap_valid|exact overlap_no_marker]. Qed.
(** The contexts of a small stream: anomalies at 2 and 5. *)
Example C12_exact_example :
  let start := context_start idb tok_id dist_e [lit "x"] ex_lines in
  let stop := context_end idb tok_id dist_e [lit "x"] ex_lines in
  (start None 2, stop (Some 5) 2, start (Some 2) 5, stop None 5) = (0, 5, 5, 7).
Proof. vm_compute. reflexivity. Qed.

Print Assumptions C12_exact.
Print Assumptions C12_new_at.
Print Assumptions C12_behind_new.
Print Assumptions C12_shared_lines.
