(** Properties C26-C32 and C55: the tokenizer.  [word_char] is any set of word characters
    (the \b and \w of the regular expressions).  A text is a list of Unicode code points. *)
From Coq Require Import String List Arith NArith Bool Lia.
From Verif Require Import Common CommonFacts Regex RegexFacts TokModel TokSpec TokRe TokNoise TokWords TokWord TokLine.
Import ListNotations.
Open Scope N_scope.

(** The matcher used by the model accepts exactly the language of the expression. *)
Theorem regex_matcher_correct : forall word_char r w, matchb word_char r w = true <-> lang word_char r w.
Proof. intros. apply matchb_ok. Qed.

(** ** C26 *)
(** [None] is the recursion running out of its budget. *)
Theorem C26_total_and_linear : forall word_char line,
  exists out, process word_char line = Some out /\ utf8_len out <= 14 * utf8_len line + 10.
Proof. apply process_total. Qed.
(** The nesting of calls on a word is at most its number of characters plus one. *)
Theorem C26_recursion_depth : forall word_char fuel w, (length w < fuel)%nat ->
  do_process word_char fuel w <> None /\ do_process word_char fuel w = do_process word_char (S (length w)) w.
Proof.
  intros wc fuel w H. split; [|apply do_process_fuel; lia]. destruct (do_process_tok wc fuel w H) as (o & a & E & _). rewrite E. discriminate.
Qed.

(** ** C27 *)
(** [word_text w t]: tokenizing the word [w] on its own appends [t], or [t] and a space. *)
Theorem C27_word_by_word : forall word_char line t ws,
  trimmed_of t line -> ~ dropped word_char line -> splits t ws ->
  exists texts out, Forall2 (word_text word_char) ws texts /\ Forall clean texts /\
    process word_char line = Some out /\ trimmed_of out (join_space (filter nonempty texts)).
Proof.
  intros wc line t ws Ht Hd Hs. destruct (process_kept wc line Hd) as (ts & out & H & E & ->).
  rewrite (trimmed_unique _ _ Ht), (splits_words _ _ Hs) in H. exists ts, (trim (join_space (filter nonempty ts))).
  split; [exact H|]. split; [|split; [exact E|apply trim_ok]].
  clear - H. induction H as [|w x ws ts (o & a & _ & _ & C) _ IH]; constructor; auto.
Qed.
Theorem C27_words_unique : forall t ws ws', splits t ws -> splits t ws' -> ws = ws'.
Proof. intros t ws ws' H H'. apply splits_words in H, H'. congruence. Qed.
Theorem C27_words_exist : forall t, exists ws, splits t ws.
Proof. intros t. exists (words t). apply words_splits. Qed.
Theorem C27_text_unique : forall word_char w t t', word_text word_char w t -> word_text word_char w t' -> t = t'.
Proof. apply word_text_fun. Qed.
Theorem C27_equal_words_equal_lines : forall word_char l1 l2 t1 t2 ws1 ws2,
  trimmed_of t1 l1 -> trimmed_of t2 l2 -> splits t1 ws1 -> splits t2 ws2 ->
  ~ dropped word_char l1 -> ~ dropped word_char l2 ->
  Forall2 (fun w1 w2 => do_process word_char (S (length w1)) w1 = do_process word_char (S (length w2)) w2) ws1 ws2 ->
  process word_char l1 = process word_char l2.
Proof.
  intros wc l1 l2 t1 t2 ws1 ws2 H1 H2 S1 S2 D1 D2 F.
  destruct (process_kept wc l1 D1) as (x1 & o1 & X1 & -> & ->). destruct (process_kept wc l2 D2) as (x2 & o2 & X2 & -> & ->).
  rewrite (trimmed_unique _ _ H1), (splits_words _ _ S1) in X1. rewrite (trimmed_unique _ _ H2), (splits_words _ _ S2) in X2.
  replace x2 with x1; [reflexivity|]. apply (Forall2_fun wc ws1); [exact X1|]. clear - F X2. revert x2 X2.
  induction F as [|w1 w2 ws1 ws2 E _ IH]; intros x2 X2; inversion X2 as [|? t ? ? Ht Hts]; subst; constructor; [|now apply IH].
  destruct Ht as (o & a & Eo & R). exists o, a. now rewrite E.
Qed.

(** ** C28 *)
Theorem C28_one_token_each : forall word_char a core t,
  surrounded core a -> recognised word_char core t -> do_process word_char (S (length a)) a = Some (t, true).
Proof.
  intros wc a core t Hs Hr. cbn [do_process]. rewrite (tq_surrounded core a Hs). apply parse_literal_ok in Hr. now rewrite Hr.
Qed.
Theorem C28_volatile_words_erased : forall word_char pre post a b core_a core_b t,
  ends_blank pre -> starts_blank post -> plain_word a -> plain_word b ->
  surrounded core_a a -> surrounded core_b b -> recognised word_char core_a t -> recognised word_char core_b t ->
  ~ dropped word_char (pre ++ a ++ post) -> ~ dropped word_char (pre ++ b ++ post) ->
  process word_char (pre ++ a ++ post) = process word_char (pre ++ b ++ post).
Proof.
  intros wc pre post a b ca cb t Hp Hq Pa Pb Sa Sb Ra Rb Da Db. destruct (process_alone wc pre post Hp Hq) as (xs & ys & H).
  destruct (process_total wc (pre ++ a ++ post)) as (oa & Ea & _). destruct (process_total wc (pre ++ b ++ post)) as (ob & Eb & _).
  rewrite Ea, Eb. f_equal. rewrite (H a t oa), (H b t ob); auto; eapply literal_text; eauto.
Qed.
(** The classes are disjoint as [recognised] takes the first. *)
Theorem C28_one_class : forall word_char w t t', recognised word_char w t -> recognised word_char w t' -> t = t'.
Proof. intros wc w t t' H H'. apply parse_literal_ok in H, H'. congruence. Qed.

(** ** C29 *)
Theorem C29_no_digit_survives : forall word_char line out,
  process word_char line = Some out -> exists n, digits_of out = concat (repeat (lit "64") n).
Proof. intros wc line out H. exact (process_digits wc line out H). Qed.

(** ** C30 *)
Theorem C30_errors_amplified : forall word_char line t ws w core out,
  trimmed_of t line -> splits t ws -> In w ws -> ~ dropped word_char line ->
  surrounded core w -> error_word core -> process word_char line = Some out ->
  exists a b, out = a ++ amplified core ++ b /\ ends_blank a /\ starts_blank b.
Proof.
  intros wc line t ws w core out Ht Hs Hw Hd Hsu He Ho. apply (error_amplified wc line w core out); auto.
  now rewrite (trimmed_unique _ _ Ht), (splits_words _ _ Hs).
Qed.

(** ** C31 *)
(** The texts for a word made of an identifying key, whose own text is [key_text], and any value. *)
Definition value_free (key_text : list N) : list (list N) :=
  [ key_text ++ lit "%EQ %VALUE_ID";
    lit "%DATE"; lit "%HASH"; lit "%ID"; lit "%COOKIE"; lit "%UID"; lit "%URL"; lit "%PATH"; lit "%REF"; lit "%BASE64"; lit "%ODD"; [] ].
Theorem C31_value_not_copied : forall word_char key, identifying_key key ->
  exists key_text, (exists added, do_process word_char (S (length key)) key = Some (key_text, added)) /\
  forall sep value, sep = 61 \/ sep = 58 ->
  exists text pids added, do_process word_char (S (length (key ++ [sep] ++ value))) (key ++ [sep] ++ value) =
      Some (text ++ concat (repeat (lit "%PID") pids), added) /\ In text (value_free key_text).
Proof.
  intros wc key Hk. destruct (do_process_tok wc (S (length key)) key ltac:(lia)) as (ok & ak & Ek & _). exists ok. split; [eauto|].
  intros sep value Hs. destruct (do_process_tok wc (S (length (key ++ [sep] ++ value))) (key ++ [sep] ++ value) ltac:(lia)) as (o & a & E & _).
  destruct (key_value_texts wc key sep ok ak Hk Hs Ek (length value) value (le_n _) o a E) as (t & m & Ht & ->). exists t, m, a. split; [exact E|exact Ht].
Qed.
(** In a line: all that may depend on the value is which of these texts appears, and the number of %PID. *)
Theorem C31_value_not_copied_line : forall word_char pre post key, identifying_key key -> ends_blank pre -> starts_blank post ->
  exists before after key_text, forall sep value out, sep = 61 \/ sep = 58 -> plain_word (key ++ [sep] ++ value) ->
  ~ dropped word_char (pre ++ (key ++ [sep] ++ value) ++ post) -> process word_char (pre ++ (key ++ [sep] ++ value) ++ post) = Some out ->
  exists text pids, In text (value_free key_text) /\
    trimmed_of out (join_space (filter nonempty (before ++ [text ++ concat (repeat (lit "%PID") pids)] ++ after))).
Proof.
  intros wc pre post key Hk Hp Hq. destruct (process_alone wc pre post Hp Hq) as (xs & ys & H).
  destruct (C31_value_not_copied wc key Hk) as (kt & _ & HV). exists xs, ys, kt. intros sep value out Hs Hpl Hd Ho.
  destruct (HV sep value Hs) as (text & pids & added & E & Hin). exists text, pids. split; [exact Hin|].
  destruct (word_piece wc _ (plain_no_space _ Hpl)) as (t & Ht & _).
  assert (t = text ++ concat (repeat (lit "%PID") pids)) as <-.
  { destruct Ht as (o & a & Eo & Ho' & _). rewrite E in Eo. injection Eo as <- _. destruct Ho' as [->|X]; [reflexivity|]. exfalso.
    destruct pids as [|n].
    - cbn [repeat concat] in X. rewrite app_nil_r in X. destruct Hin as [<-|Hin].
      + change (lit "%EQ %VALUE_ID") with (lit "%EQ %VALUE_I" ++ [68]) in X. rewrite app_assoc in X. apply app_inj_tail in X. destruct X; discriminate.
      + assert (L : last text 0 <> 32); [|apply L; rewrite X; apply last_last].
        clear X. cbn [In] in Hin. repeat (destruct Hin as [<-|Hin]; [vm_compute; discriminate|]). destruct Hin.
    - assert (L : exists p, concat (repeat (lit "%PID") (S n)) = p ++ [68]).
      { clear. induction n as [|n (p & IH)]; [exists (lit "%PI"); reflexivity|]. exists (lit "%PID" ++ p). cbn [repeat concat] in IH |- *. rewrite IH. now rewrite <- app_assoc. }
      destruct L as (p & L). rewrite L, app_assoc in X. apply app_inj_tail in X. destruct X; discriminate. }
  rewrite (H _ _ _ Hpl Ht Hd Ho). apply trim_ok.
Qed.

(** ** C32 *)
Theorem C32_filter_exact : forall word_char line,
  process word_char line = Some (lit "%GL_FILTER") <-> dropped word_char line.
Proof. intros. split; [apply process_not_filter|apply process_dropped]. Qed.
Theorem C32_surrounding_space_irrelevant : forall word_char a line b,
  Forall white a -> Forall white b -> process word_char (a ++ line ++ b) = process word_char line.
Proof. apply process_trim. Qed.

(** ** C55 *)
Theorem C55_numbers_collapse : forall word_char w s, Forall identifier_char w -> (4 <= length w <= 31)%nat ->
  (forall t, ~ recognised word_char w t) -> ~ error_word w -> collapsed w s ->
  word_text word_char w (if (3 <? length s)%nat then s else []).
Proof. intros. now apply identifier_text. Qed.
Theorem C55_collapse_unique : forall w, exists s, collapsed w s /\ forall s', collapsed w s' -> s' = s.
Proof.
  intros w. destruct (collapsed_exists w) as (s & H). exists s. split; [exact H|]. intros s' H'. apply collapsed_ok in H, H'. congruence.
Qed.
Theorem C55_same_line_up_to_numbers : forall word_char pre post a b s,
  ends_blank pre -> starts_blank post -> collapsed a s -> collapsed b s ->
  (forall w, In w [a; b] -> Forall identifier_char w /\ (4 <= length w <= 31)%nat /\ (forall t, ~ recognised word_char w t) /\ ~ error_word w /\
     ~ dropped word_char (pre ++ w ++ post)) ->
  process word_char (pre ++ a ++ post) = process word_char (pre ++ b ++ post).
Proof.
  intros wc pre post a b s Hp Hq Ca Cb H.
  destruct (H a) as (Ia & La & Ra & Ea & Da); [now left|]. destruct (H b) as (Ib & Lb & Rb & Eb & Db); [right; now left|]. clear H.
  assert (PW : forall w, Forall identifier_char w -> (4 <= length w)%nat -> plain_word w).
  { intros w Hw Hl. rewrite Forall_forall in Hw. split; [intros ->; cbn in Hl; lia|]. split.
    - intros u Hu (x & y & E). apply sep_unit_cases in Hu. destruct Hu as [(c & -> & Hc)|(c & d & -> & Hc)].
      + assert (Hin : In c w) by (rewrite E; apply in_or_app; right; now left). apply Hw, identifier_range in Hin.
        unfold is_blank in Hc. apply orb_prop in Hc. destruct Hc as [Hc|Hc]; apply N.eqb_eq in Hc; subst; lia.
      + assert (Hin : In c w) by (rewrite E; apply in_or_app; right; now left). apply Hw, identifier_range in Hin.
        unfold is_escape in Hc. apply andb_prop in Hc. destruct Hc as [Hc _]. apply N.eqb_eq in Hc. lia.
    - intros c Hc Hwh. apply Hw, identifier_range in Hc. unfold white, between in Hwh. lia. }
  destruct (process_alone wc pre post Hp Hq) as (xs & ys & H).
  destruct (process_total wc (pre ++ a ++ post)) as (oa & Eoa & _). destruct (process_total wc (pre ++ b ++ post)) as (ob & Eob & _).
  rewrite Eoa, Eob. f_equal.
  rewrite (H a (if (3 <? length s)%nat then s else []) oa), (H b (if (3 <? length s)%nat then s else []) ob); auto; try (apply PW; auto; lia); apply identifier_text; auto.
Qed.
(** Words of at most three bytes that nothing recognises disappear. *)
Theorem C55_short_words_dropped : forall word_char w, utf8_len w <= 3 -> surrounded w w ->
  (forall t, ~ recognised word_char w t) -> ~ error_word w -> word_text word_char w [].
Proof. intros. now apply short_text. Qed.

(** ** Examples *)
Definition ascii_word (c : N) : bool :=
  (48 <=? c) && (c <=? 57) || (65 <=? c) && (c <=? 90) || (97 <=? c) && (c <=? 122) || (c =? 95).
Lemma not_dropped line : global_filter ascii_word (trim line) = false -> ~ dropped ascii_word line.
Proof. intros H D. apply (dropped_iff ascii_word line (trim line) (trim_ok line)) in D. congruence. Qed.
Lemma not_recognised w : parse_literal ascii_word w = None -> forall t, ~ recognised ascii_word w t.
Proof. intros H t R. apply parse_literal_ok in R. congruence. Qed.
Example kept_example : ~ dropped ascii_word (lit "open file host1 failed") /\ splits (lit "open file host1 failed") (map lit ["open"; "file"; "host1"; "failed"]%string).
Proof.
  split; [apply not_dropped; vm_compute; reflexivity|].
  replace (map lit ["open"; "file"; "host1"; "failed"]%string) with (words (lit "open file host1 failed")) by (vm_compute; reflexivity). apply words_splits.
Qed.
Example kept_output : process ascii_word (lit "open file host1 failed") = Some (lit "open file hostN failed failed%A failed%B failed%C failed%D").
Proof. vm_compute. reflexivity. Qed.
Example volatile_example : surrounded (lit "monday") (lit "u'monday',") /\ recognised ascii_word (lit "monday") (lit "%DATE") /\
  recognised ascii_word (lit "March") (lit "%DATE") /\ plain_word (lit "u'monday',") /\ ends_blank (lit "on ") /\ starts_blank (lit " at home") /\
  ~ dropped ascii_word (lit "on " ++ lit "u'monday'," ++ lit " at home").
Proof.
  split; [|split; [|split; [|split; [|split; [|split]]]]].
  - split; [exists (lit "u'"), [], (lit "',"); split; [reflexivity|split; [right; now left|split; [constructor|split; [|split]]]]|split; [discriminate|split]].
    + apply Forall_forall; intros c Hc; vm_compute in Hc |- *; intuition.
    + intros (r & E). discriminate.
    + intros (r & E). discriminate.
    + intros c r [= <- _]. vm_compute. intuition discriminate.
    + intros c r E. change (lit "monday") with (lit "monda" ++ [121]) in E. apply app_inj_tail in E. destruct E as [_ <-]. vm_compute. intuition discriminate.
  - apply parse_literal_ok. vm_compute. reflexivity.
  - apply parse_literal_ok. vm_compute. reflexivity.
  - split; [discriminate|]. split.
    + intros u Hu (x & y & E). assert (W : words (lit "u'monday',") = [lit "u'monday',"]) by (vm_compute; reflexivity).
      pose proof (words_splits (lit "u'monday',")) as S. rewrite W in S. inversion S as [w Hn|]; [now apply (Hn u Hu); exists x, y|].
      match goal with H : splits _ [] |- _ => inversion H end.
    + intros c Hc Hw. unfold white, between in Hw. vm_compute in Hc. intuition (subst; lia).
  - right. exists (lit "on"), 32. split; [reflexivity|now left].
  - right. exists 32, (lit "at home"). split; [reflexivity|now left].
  - apply not_dropped. vm_compute. reflexivity.
Qed.
Example error_example : error_word (lit "FAILED") /\ amplified (lit "Err") = lit "Err Err%A Err%B Err%C Err%D".
Proof. split; [vm_compute; auto 20|reflexivity]. Qed.
Example key_example : identifying_key (lit "user_id") /\
  process ascii_word (lit "my user_id=alice ok") = process ascii_word (lit "my user_id=bob ok") /\
  process ascii_word (lit "my user_id=alice ok") = Some (lit "user_id%EQ %VALUE_ID").
Proof.
  split; [|split; vm_compute; reflexivity]. split; [exists 117, (lit "ser_id"); split; [reflexivity|left; left; unfold lower_letter, between; lia]|]. split.
  - apply Forall_forall. intros c Hc H. vm_compute in Hc, H. intuition (subst; discriminate).
  - exists (lit "user_"), (lit "id"), []. split; [reflexivity|]. now left.
Qed.
Example filter_example : dropped ascii_word (lit " word ") /\ process ascii_word (lit " word ") = Some (lit "%GL_FILTER").
Proof.
  split; [|vm_compute; reflexivity]. exists (lit "word"). split.
  - replace (lit "word") with (trim (lit " word ")) by (vm_compute; reflexivity). apply trim_ok.
  - left. intros c Hc Hw. unfold white, between in Hw. vm_compute in Hc. intuition (subst; lia).
Qed.
Example number_example : collapsed (lit "v1.22.x_7") (lit "vN.x_N") /\ Forall identifier_char (lit "v1.22.x_7") /\
  (forall t, ~ recognised ascii_word (lit "v1.22.x_7") t) /\ ~ error_word (lit "v1.22.x_7") /\
  do_process ascii_word 10 (lit "v1.22.x_7") = Some (lit "vN.x_N", true).
Proof.
  split; [|split; [|split; [|split]]].
  - destruct (collapsed_exists (lit "v1.22.x_7")) as (s & H). pose proof (collapsed_ok _ _ H) as E. vm_compute in E. subst s. exact H.
  - apply Forall_forall. intros c Hc. unfold identifier_char, alnum, letter, lower_letter, upper_letter, digit, between, one_of. cbn in Hc |- *. lia.
  - apply not_recognised. vm_compute. reflexivity.
  - intros H. vm_compute in H. intuition discriminate.
  - vm_compute. reflexivity.
Qed.

Print Assumptions regex_matcher_correct.
Print Assumptions C26_total_and_linear.
Print Assumptions C26_recursion_depth.
Print Assumptions C27_word_by_word.
Print Assumptions C27_words_unique.
Print Assumptions C27_words_exist.
Print Assumptions C27_text_unique.
Print Assumptions C27_equal_words_equal_lines.
Print Assumptions C28_one_token_each.
Print Assumptions C28_volatile_words_erased.
Print Assumptions C28_one_class.
Print Assumptions C29_no_digit_survives.
Print Assumptions C30_errors_amplified.
Print Assumptions C31_value_not_copied.
Print Assumptions C31_value_not_copied_line.
Print Assumptions C32_filter_exact.
Print Assumptions C32_surrounding_space_irrelevant.
Print Assumptions C55_numbers_collapse.
Print Assumptions C55_collapse_unique.
Print Assumptions C55_same_line_up_to_numbers.
Print Assumptions C55_short_words_dropped.
