(** Properties C06-C08 for every sequence of reads, also when over-long lines are skipped. *)
From Coq Require Import String List NArith Bool Lia.
From Verif Require Import Common IterModel IterSpec IterProofs IterSafety IterMain IterRefute IterReadSpec
  IterReadProofs.
Import ListNotations.
Open Scope N_scope.

(** ** C06 *)
(** Whatever the reads are and however they end, the iteration yields what the reading
    machine of IterReadSpec yields. *)
Theorem C06_exact : forall ovf json chunks e after, read_sizes chunks ->
  all_lines ovf json (answers chunks e after) = expected ovf json chunks e.
Proof. intros. now apply all_lines_exact. Qed.

(** Everything finished before the first over-long pending bytes is delivered, whatever
    follows. *)
Theorem C06_before_long_line : forall ovf json before later e after,
  read_sizes (before ++ later) -> no_long_pending json before ->
  exists more, fst (all_lines ovf json (answers (before ++ later) e after)) =
    filter deliverable (finished json (concat before)) ++ more.
Proof.
  intros ovf json before later e after Hs Hb. rewrite C06_exact by assumption.
  unfold expected. rewrite reads_app.
  destruct (reads_bounded ovf before (lex0 json) Hb) as (h & ->).
  destruct (reads ovf h later) as [l o]. apply finish_prefix.
Qed.

(** Apart from NUL bytes, every delivered line is a piece of the stream; the pieces are
    in the order of the stream and do not overlap. *)
Theorem C06_only_nul_invented : forall ovf json chunks e after, read_sizes chunks ->
  in_order (map without_nul (map fst (fst (all_lines ovf json (answers chunks e after)))))
           (without_nul (concat chunks)).
Proof.
  intros ovf json chunks e after Hs. rewrite C06_exact by assumption.
  apply (reads_in_order without_nul eq_refl (fun a b => filter_app _ a b) ovf e chunks
    (Collecting (lex0 json))).
  apply Forall_forall. intros d _. apply without_nul_padded.
Qed.

(** When every read fills the buffer, nothing at all is invented. *)
Theorem C06_full_reads_invent_nothing : forall ovf json chunks e after,
  Forall (fun d => N.of_nat (length d) = 8192) chunks ->
  in_order (map fst (fst (all_lines ovf json (answers chunks e after)))) (concat chunks).
Proof.
  intros ovf json chunks e after H.
  assert (Hs : read_sizes chunks).
  { eapply Forall_impl; [|exact H]. cbv beta. intros d ->. lia. }
  rewrite C06_exact by assumption.
  pose proof (reads_in_order (fun x => x) eq_refl (fun a b => eq_refl) ovf e chunks
    (Collecting (lex0 json))) as Ho.
  rewrite map_id in Ho. apply Ho.
  eapply Forall_impl; [|exact H]. exact padded_full.
Qed.

(** Non-triviality: an over-long line that ends in the second of two full reads.  Lines
    before it are delivered, those behind it in the second read are not, and the line
    that straddles the second and third read is delivered without its beginning. *)
Definition as_ : bytes := repeat 97 (N.to_nat 8188).
Definition bs_ : bytes := repeat 98 (N.to_nat 5000).
Definition cs_ : bytes := repeat 99 (N.to_nat 3185).
Definition truncated_chunks : list bytes :=
  [lit "one" ++ 10 :: as_;
   lit "a" ++ 10 :: lit "two" ++ 10 :: bs_ ++ 10 :: cs_;
   lit "three" ++ 10 :: lit "four"].

Lemma truncated_sizes : read_sizes truncated_chunks.
Proof.
  unfold read_sizes, truncated_chunks.
  repeat constructor; repeat (rewrite app_length; cbn [length]);
    unfold as_, bs_, cs_; rewrite ?repeat_length; cbn [lit length map list_ascii_of_string]; lia.
Qed.

Lemma lex_line l : Forall plain l -> forall cu n s,
  lex (mkLex None false cu n) (l ++ 10 :: s) =
  ((cu ++ l, n) :: fst (lex (mkLex None false [] (n + 1)) s), snd (lex (mkLex None false [] (n + 1)) s)).
Proof.
  intros H cu n s. rewrite lex_plain by assumption. cbn [lex]. unfold feed at 1. cbn [esc js cur nr].
  change (10 =? 92) with false. change (10 =? 10) with true. cbv iota.
  destruct (lex _ s). reflexivity.
Qed.
Lemma lex_open l : Forall plain l -> forall cu n,
  lex (mkLex None false cu n) l = ([], mkLex None false (cu ++ l) n).
Proof. intros H cu n. rewrite <- (app_nil_r l) at 1. rewrite lex_plain by assumption. reflexivity. Qed.
Lemma first_sep_line l : Forall plain l -> forall cu n s,
  first_sep (mkLex None false cu n) (l ++ 10 :: s) = (mkLex None false [] (n + 1), Some s).
Proof.
  induction 1 as [|c l [H1 H2] _ IH]; intros cu n s; cbn [app first_sep]; unfold feed; cbn [esc js cur nr].
  - reflexivity.
  - apply N.eqb_neq in H1. apply N.eqb_neq in H2. rewrite H1, H2. apply IH.
Qed.

Ltac plain_tac := first [apply plain_repeat; split; discriminate | repeat constructor; discriminate].

Theorem C06_truncated_refuted :
  In (cs_ ++ lit "three", 5) (segments false (concat truncated_chunks)) /\
  all_lines false false (answers truncated_chunks Ends []) =
    ([(lit "one", 1); (lit "three", 3); (lit "four", 4)], SEnd).
Proof.
  assert (Pa : Forall plain as_) by plain_tac.
  assert (Pb : Forall plain bs_) by plain_tac.
  assert (Pc : Forall plain cs_) by plain_tac.
  assert (La : blen as_ = 8188) by apply blen_repeat.
  assert (Lb : blen bs_ = 5000) by apply blen_repeat.
  assert (Lc : blen cs_ = 3185) by apply blen_repeat.
  assert (Sz : blen (lit "a" ++ 10 :: lit "two" ++ 10 :: bs_ ++ 10 :: cs_) = 8192).
  { rewrite !blen_app, !blen_cons, !blen_app, !blen_cons, !blen_app, !blen_cons, Lb, Lc. reflexivity. }
  split.
  - unfold segments, truncated_chunks, lex0. cbn [concat]. rewrite app_nil_r.
    repeat (rewrite <- app_assoc || rewrite <- app_comm_cons).
    rewrite lex_line by plain_tac.
    rewrite (lex_plain as_), lex_line by first [assumption|plain_tac].
    rewrite lex_line by plain_tac. rewrite lex_line by assumption.
    rewrite (lex_plain cs_), lex_line by first [assumption|plain_tac].
    rewrite lex_open by plain_tac. cbn [fst snd app In]. 
    change (1 + 1 + 1 + 1 + 1) with 5. auto 8.
  - rewrite C06_exact by exact truncated_sizes.
    unfold expected, truncated_chunks, lex0. cbn [reads andb read_step]. unfold collect_bytes at 1.
    rewrite lex_line by plain_tac. rewrite lex_open by assumption. cbn [fst snd app cur].
    change (N.of_nat (length as_)) with (blen as_). rewrite La.
    change (8188 <=? 6000) with false. cbv iota.
    change (filter deliverable [(lit "one", 1)]) with [(lit "one", 1)].
    unfold forget at 1. cbn [js esc nr read_step].
    rewrite padded_full by exact Sz.
    rewrite first_sep_line by plain_tac.
    match goal with |- context [N.of_nat ?x =? 8192] => change (N.of_nat x) with
      (blen (lit "a" ++ 10 :: lit "two" ++ 10 :: bs_ ++ 10 :: cs_)) end.
    rewrite Sz. change (8192 =? 8192) with true. cbv iota.
    vm_compute. reflexivity.
Qed.

Example C06_full_reads_example :
  Forall (fun d => N.of_nat (length d) = 8192) (firstn 2 truncated_chunks).
Proof.
  cbn [firstn truncated_chunks].
  repeat constructor; repeat (rewrite app_length; cbn [length]);
    unfold as_, bs_, cs_; rewrite ?repeat_length; cbn [lit length map list_ascii_of_string]; lia.
Qed.

Example C06_before_long_line_example :
  no_long_pending false (firstn 1 truncated_chunks) /\
  filter deliverable (finished false (concat (firstn 1 truncated_chunks))) = [(lit "one", 1)].
Proof.
  split.
  - intros before after E Ha. cbn [firstn truncated_chunks] in E.
    destruct before as [|d before]; [cbn; discriminate|].
    destruct before; [|destruct before; discriminate]. cbn [app] in E.
    destruct after; [congruence|discriminate].
  - unfold finished, lex0. cbn [firstn truncated_chunks concat]. rewrite app_nil_r.
    rewrite lex_line by plain_tac. rewrite lex_open by plain_tac. reflexivity.
Qed.

(** ** C08 *)
(** With overflow checks the iteration panics exactly when an over-long line is being
    skipped and a read starts between the backslash and the n of a separator. *)
Theorem C08_panic_exactly : forall json chunks e after, read_sizes chunks ->
  (snd (all_lines true json (answers chunks e after)) = SPanic <->
   exists before d later, chunks = before ++ d :: later /\ cuts_escape json before d).
Proof.
  intros json chunks e after Hs. rewrite C06_exact by assumption.
  unfold expected, cuts_escape. rewrite finish_panic, reads_panic.
  split.
  - intros (before & d & later & l & h & E & Hr & Hc). exists before, d, later. eauto 6.
  - intros (before & d & later & E & l & h & Hr & Hc). exists before, d, later, l, h. auto.
Qed.

Definition cut_chunks : list bytes := [as_ ++ [92]; lit "nb" ++ [10]].
Example C08_panic_exactly_example : read_sizes cut_chunks /\
  cuts_escape false (firstn 1 cut_chunks) (lit "nb" ++ [10]).
Proof.
  split.
  - unfold read_sizes, cut_chunks.
    repeat constructor; rewrite ?app_length; unfold as_; rewrite ?repeat_length;
      cbn [lit length map list_ascii_of_string]; lia.
  - unfold cuts_escape, lex0. cbn [firstn cut_chunks reads andb read_step]. unfold collect_bytes.
    rewrite lex_plain by plain_tac. cbn [lex]. unfold feed. cbn [esc js cur nr].
    change (92 =? 92) with true. cbv iota. cbn [cur app].
    match goal with |- context [N.of_nat ?x <=? 6000] =>
      replace (N.of_nat x <=? 6000) with false end.
    2:{ symmetry. apply N.leb_gt. rewrite app_length. unfold as_. rewrite repeat_length. cbn [length]. lia. }
    eexists. eexists. split; [reflexivity|]. reflexivity.
Qed.

(** Where it does not panic, a build with overflow checks delivers the same lines. *)
Theorem C08_checks_do_not_matter : forall json chunks e after, read_sizes chunks ->
  snd (all_lines true json (answers chunks e after)) <> SPanic ->
  all_lines true json (answers chunks e after) = all_lines false json (answers chunks e after).
Proof.
  intros json chunks e after Hs. rewrite !C06_exact by assumption. unfold expected.
  generalize (Collecting (lex0 json)). intros h Hn. f_equal. revert h Hn.
  clear Hs. induction chunks as [|d chunks IH]; intros h Hn; [reflexivity|].
  rewrite finish_panic in Hn. cbn [reads andb] in *.
  destruct (cut_escape h d); [exfalso; now apply Hn|].
  destruct (read_step h d) as [l h1]. specialize (IH h1). rewrite finish_panic in IH.
  destruct (reads true h1 chunks) as [l' o]. cbn [snd] in *. rewrite <- (IH Hn). reflexivity.
Qed.

Print Assumptions C06_exact.
Print Assumptions C06_before_long_line.
Print Assumptions C06_only_nul_invented.
Print Assumptions C06_full_reads_invent_nothing.
Print Assumptions C06_truncated_refuted.
Print Assumptions C08_panic_exactly.
Print Assumptions C08_checks_do_not_matter.
