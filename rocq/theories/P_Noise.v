(** Properties C60 and C61 (with the real index): the whole program, from baseline lines to
    the report, with the modelled tokenizer and the single precision index. *)
From Coq Require Import String List NArith Arith Bool Lia Permutation Reals ZifyBool ZifyN ZifyNat.
From Verif Require Import Common CommonFacts IterModel ProcModel ProcSpec ProcInv ProcResult ProcRefute P_Proc IndexModel IndexSpec P_Index
  TokModel TokSpec TokRe TokNoise TokWords TokWord TokLine P_Tok FilesModel FilesSpec FilesSources ReportModel ReportSpec ReportProofs ReportMore P_Report P_Compare P_Complete.
Import ListNotations.
Open Scope N_scope.

(** model.rs:566-571: ChunkIndex::tokenize, on the utf-8 bytes of a line.  (The
    lines are valid, and C26 rules out [None].) *)
Definition real_tok (word_char : N -> bool) (b : bytes) : bytes :=
  match utf8_decode b with
  | Some t => match process word_char t with Some o => utf8_encode o | None => [] end
  | None => []
  end.

(** Two lines that differ in volatile words of one class, in numbers inside identifiers, in
    white space at the ends, or in several of these. *)
Inductive same_up_to_noise (word_char : N -> bool) : list N -> list N -> Prop :=
| NoiseRefl l : same_up_to_noise word_char l l
| NoiseTrans l1 l2 l3 : same_up_to_noise word_char l1 l2 -> same_up_to_noise word_char l2 l3 -> same_up_to_noise word_char l1 l3
| NoiseBlanks a l b : Forall white a -> Forall white b -> same_up_to_noise word_char (a ++ l ++ b) l
| NoiseBlanks' a l b : Forall white a -> Forall white b -> same_up_to_noise word_char l (a ++ l ++ b)
| NoiseWord pre post a b core_a core_b t :
    ends_blank pre -> starts_blank post -> plain_word a -> plain_word b ->
    surrounded core_a a -> surrounded core_b b -> recognised word_char core_a t -> recognised word_char core_b t ->
    ~ dropped word_char (pre ++ a ++ post) -> ~ dropped word_char (pre ++ b ++ post) ->
    same_up_to_noise word_char (pre ++ a ++ post) (pre ++ b ++ post)
| NoiseNumbers pre post a b s :
    ends_blank pre -> starts_blank post -> collapsed a s -> collapsed b s ->
    (forall w, In w [a; b] -> Forall identifier_char w /\ (4 <= length w <= 31)%nat /\ (forall t, ~ recognised word_char w t) /\ ~ error_word w /\
       ~ dropped word_char (pre ++ w ++ post)) ->
    same_up_to_noise word_char (pre ++ a ++ post) (pre ++ b ++ post).

Lemma noise_process word_char l1 l2 : same_up_to_noise word_char l1 l2 -> process word_char l1 = process word_char l2.
Proof.
  induction 1 as [l|l1 l2 l3 _ IH1 _ IH2|a l b Ha Hb|a l b Ha Hb|pre post a b ca cb t H1 H2 H3 H4 H5 H6 H7 H8 H9 H10|pre post a b s H1 H2 H3 H4 H5].
  - reflexivity.
  - congruence.
  - now apply C32_surrounding_space_irrelevant.
  - symmetry. now apply C32_surrounding_space_irrelevant.
  - eapply C28_volatile_words_erased; eauto.
  - eapply C55_same_line_up_to_numbers; eauto.
Qed.

Section Noise.
Context (hash : bytes -> N) (fused : bool) (word_char : N -> bool)
  (open : source -> res (bool -> list item)) (err_text : option N -> text)
  (drain drain2 : list (text * list source) -> list (text * list source)).

(** ** C60 *)
Theorem C60_noise_not_reported : forall baselines target m r,
  (forall l, Permutation (drain l) l) -> (forall l, Permutation (drain2 l) l) ->
  model_train (real_tok word_char) open drain baselines = Val m ->
  model_report above_threshold (real_tok word_char) (real_search hash fused) open err_text drain2 m target = Val r ->
  exists contents, Forall2 (fun items l => get_sources items = Val l) baselines contents /\
    forall lr c x t t', In lr (log_reports r) -> In c (lr_anomalies lr) -> baseline_line open (concat contents) (lr_index lr) x ->
      utf8_decode (fst x) = Some t -> utf8_decode (aline c) = Some t' -> ~ same_up_to_noise word_char t t'.
Proof.
  intros baselines target m r Hd Hd2 Ht Hr.
  destruct (C56_known_content_not_reported hash fused _ _ _ _ _ _ _ _ _ Hd Hd2 Ht Hr) as (contents & C1 & K).
  exists contents. split; [exact C1|]. intros lr c x t t' Hl Hc Hx Et Et' N. destruct (K lr c Hl Hc) as [K1 _].
  apply (K1 x Hx). unfold real_tok. rewrite Et, Et', (noise_process _ _ _ N). reflexivity.
Qed.

(** ** C61 *)
(** A line that shares no word with the lines of its index, not even up to collisions of
    hashes, is in the report, up to its tokenized form. *)
Theorem C61_nothing_shared_is_reported : forall m target sources r s n ix lines x,
  (forall l, Permutation (drain l) l) -> NoDup (map fst m) -> get_sources target = Val sources ->
  model_report above_threshold (real_tok word_char) (real_search hash fused) open err_text drain m target = Val r ->
  In s sources -> source_name s = Some n -> has_index m n ix -> readable open s lines -> In x lines ->
  (forall s', In s' sources -> source_name s' = Some n -> exists lines', readable open s' lines') ->
  (forall b, In b (concat (ix_batches ix)) -> ~ share_bucket hash b (real_tok word_char (fst x))) ->
  exists lr c, In lr (log_reports r) /\ lr_index lr = n /\ In c (lr_anomalies lr) /\
    real_tok word_char (aline c) = real_tok word_char (fst x).
Proof.
  intros m target sources r s n ix lines x Hd Hm Hsrc H Hs Hn Hix Hr Hx Hall Hno.
  apply (C61_novel_lines_represented above_threshold (real_tok word_char) (real_search hash fused) (real_dist hash fused) open err_text drain
           m target sources r s n ix lines x); auto.
  - apply real_pointwise.
  - destruct (C22_nothing_shared hash fused (ix_batches ix) (real_tok word_char (fst x)) Hno) as [E A].
    unfold hashing_search in E. rewrite (search_pointwise hash fused _ [_]) in E. cbn [map] in E. injection E as E. unfold real_dist. rewrite E. exact A.
Qed.
End Noise.

(** ** Example *)
(** Words of letters. *)
Definition letters (w : list N) : bool := forallb (fun c => (65 <=? c) && (c <=? 122) && negb ((91 <=? c) && (c <=? 96))) w.
Lemma letters_char w c : letters w = true -> In c w -> 65 <= c <= 90 \/ 97 <= c <= 122.
Proof. unfold letters. rewrite forallb_forall. intros H Hc. apply H in Hc. lia. Qed.
Lemma letters_plain w : letters w = true -> w <> [] -> words w = [w] -> plain_word w.
Proof.
  intros H Hne W. split; [exact Hne|]. split.
  - intros u Hu (x & y & E). pose proof (words_splits w) as S. rewrite W in S. inversion S as [w0 Hn|]; [now apply (Hn u Hu); exists x, y|].
    match goal with H : splits _ [] |- _ => inversion H end.
  - intros c Hc Hw. pose proof (letters_char w c H Hc). unfold white, between in Hw. lia.
Qed.
Lemma letters_surrounded w : letters w = true -> w <> [] -> surrounded w w.
Proof.
  intros H Hne.
  assert (P : forall c, In c w -> ~ punct c).
  { intros c Hc Hp. pose proof (letters_char w c H Hc). unfold punct, one_of in Hp. vm_compute in Hp. intuition lia. }
  split; [|split; [exact Hne|split]].
  - exists [], [], []. rewrite app_nil_r. cbn [app]. csplit; auto; try (now left).
    + intros (r & ->). assert (K : 34 < 65) by lia. pose proof (letters_char _ 34 H) as L. cbn in L. specialize (L (or_intror (or_introl eq_refl))). lia.
    + intros (r & ->). pose proof (letters_char _ 39 H) as L. cbn in L. specialize (L (or_intror (or_introl eq_refl))). lia.
  - intros c r ->. apply P. now left.
  - intros c r ->. apply P. apply in_or_app. right. now left.
Qed.
(** A line with another day and another number is not reported, a new line is. *)
Definition noise_files := files
  [ (lit "old/app.log", Val [lit "on monday run host12 again"]); (lit "old/db.log", Val [lit "open the base"]);
    (lit "new/app.log", Val [lit "on March run host7 again "; lit "nothing like that"]) ].
Example C60_example : same_up_to_noise ascii_word (lit "on monday run host12 again") (lit "on March run host7 again ").
Proof.
  apply (NoiseTrans _ _ (lit "on March run host12 again")).
  - change (lit "on monday run host12 again") with (lit "on " ++ lit "monday" ++ lit " run host12 again").
    change (lit "on March run host12 again") with (lit "on " ++ lit "March" ++ lit " run host12 again").
    apply (NoiseWord _ _ _ _ _ (lit "monday") (lit "March") (lit "%DATE")).
    + right. exists (lit "on"), 32. auto.
    + right. exists 32, (lit "run host12 again"). auto.
    + apply letters_plain; [reflexivity|discriminate|vm_compute; reflexivity].
    + apply letters_plain; [reflexivity|discriminate|vm_compute; reflexivity].
    + apply letters_surrounded; [reflexivity|discriminate].
    + apply letters_surrounded; [reflexivity|discriminate].
    + apply parse_literal_ok. vm_compute. reflexivity.
    + apply parse_literal_ok. vm_compute. reflexivity.
    + apply not_dropped. vm_compute. reflexivity.
    + apply not_dropped. vm_compute. reflexivity.
  - apply (NoiseTrans _ _ (lit "on March run host7 again")).
    + change (lit "on March run host12 again") with (lit "on March run " ++ lit "host12" ++ lit " again").
      change (lit "on March run host7 again") with (lit "on March run " ++ lit "host7" ++ lit " again").
      assert (C : forall w, remove_numbers w = lit "hostN" -> collapsed w (lit "hostN")).
      { intros w E. destruct (collapsed_exists w) as (s & H). pose proof (collapsed_ok _ _ H) as K. congruence. }
      apply (NoiseNumbers _ _ _ _ _ (lit "hostN")); try (apply C; vm_compute; reflexivity).
      * right. exists (lit "on March run"), 32. auto.
      * right. exists 32, (lit "again"). auto.
      * intros w Hw. assert (K : w = lit "host12" \/ w = lit "host7") by (destruct Hw as [<-|[<-|[]]]; auto). clear Hw.
        split; [|split; [|split; [|split]]].
        -- apply Forall_forall. intros c Hc. unfold identifier_char, alnum, letter, lower_letter, upper_letter, digit, between, one_of.
           destruct K as [->| ->]; cbn in Hc |- *; lia.
        -- destruct K as [->| ->]; cbn; lia.
        -- destruct K as [->| ->]; apply not_recognised; vm_compute; reflexivity.
        -- destruct K as [->| ->]; intros H; vm_compute in H; intuition discriminate.
        -- destruct K as [->| ->]; apply not_dropped; vm_compute; reflexivity.
    + replace (lit "on March run host7 again ") with ([] ++ lit "on March run host7 again" ++ [32]) by reflexivity.
      apply NoiseBlanks'; [constructor|]. constructor; [|constructor]. unfold white, between. lia.
Qed.
Example C60_example_report : exists m r,
  model_train (real_tok ascii_word) noise_files id_drain [ex_baseline] = Val m /\
  model_report above_threshold (real_tok ascii_word) (real_search byte_hash false) noise_files error_e id_drain m [src_e "new/app.log"] = Val r /\
  map (fun lr => map (fun c => aline c) (lr_anomalies lr)) (log_reports r) = [[lit "nothing like that"]].
Proof. eexists _, _. split; [vm_compute; reflexivity|]. split; [vm_compute; reflexivity|]. vm_compute. reflexivity. Qed.

Print Assumptions C60_noise_not_reported.
Print Assumptions C61_nothing_shared_is_reported.
