(** A log that has grown is compared again, from the command line to the standard output: C102. *)
From Coq Require Import String List NArith ZArith PeanoNat Bool Lia Permutation.
From Verif Require Import Common CommonFacts IterModel IterSpec IterMain P_Iter ProcModel ProcSpec ProcStopSpec ProcExactSpec P_Proc P_ProcExact TokSpec TokRe P_Tok ProcRefute FilesModel FilesSpec FilesSources CliModel IndexModel IndexSpec P_Index
  MatModel ReportModel ReportSpec ReportProofs ReportMore P_Report P_Compare P_Noise CacheSpec StoreModel StoreSpec StoreProofs P_Store MatSpec MatProofs P_Mat HtmlModel ShownModel RenderModel OutModel P_Out SavedModel P_Saved MainModel MainSpec P_Main DiffSpec IterLex P_Diff P_Grown.
From Verif Require P_Cache P_Html P_Page.
Import ListNotations.
Open Scope string_scope.
Open Scope list_scope.
Open Scope N_scope.
Ltac csplit := repeat match goal with |- _ /\ _ => split end.

(** ** Bytes that end with a line *)
Lemma lex_app s : forall L x, lex L (s ++ x) = let (l, L') := lex L s in let (l', L'') := lex L' x in (l ++ l', L'').
Proof.
  induction s as [|c s IH]; intros L x; cbn [app lex]; [destruct (lex L x); reflexivity|]. destruct (feed L c) as [[y|] L1]; rewrite IH; destruct (lex L1 s) as [l L2]; destruct (lex L2 x) as [l' L3]; reflexivity.
Qed.
Lemma segments_more json s x : pending json s = [] -> exists more, segments json (s ++ x) = segments json s ++ more.
Proof.
  unfold pending, segments. rewrite lex_app. destruct (lex (lex0 json) s) as [l L]. cbn [snd]. intros ->. destruct (lex L x) as [l' L']. exists (l' ++ match IterSpec.cur L' with [] => [] | _ :: _ => [(IterSpec.cur L', nr L')] end). now rewrite app_nil_r, <- app_assoc.
Qed.
(** The bytes end with a newline that is not behind an odd number of backslashes. *)
Definition ends_with_line (s : bytes) : Prop := exists p, s = p ++ [10] /\ escapes_next p = false.
Lemma ends_pending json s : ends_with_line s -> pending json s = [].
Proof.
  intros (p & -> & E). rewrite <- (at_esc json p) in E. unfold pending. rewrite lex_app. destruct (lex (lex0 json) p) as [l L]. cbn [snd] in E. cbn [lex]. unfold feed. rewrite E. reflexivity.
Qed.
Lemma lines_more json s x : ends_with_line s -> exists more, lines_of_log json (s ++ x) = lines_of_log json s ++ more.
Proof. intros E. destruct (segments_more json s x (ends_pending json s E)) as (more & M). unfold lines_of_log. rewrite M, filter_app. eauto. Qed.

(** Not so for a last line that is not finished. *)
Theorem C102_unfinished_refuted : exists s x, (forall p, s <> p ++ [10]) /\ forall more, lines_of_log false (s ++ x) <> lines_of_log false s ++ more.
Proof.
  exists (lit "disk"), (lit " failure"). split.
  - intros p E. apply (f_equal (fun l => last l 0)) in E. rewrite last_last in E. discriminate.
  - intros more. replace (lines_of_log false (lit "disk" ++ lit " failure")) with [(lit "disk failure", 1)] by (vm_compute; reflexivity). replace (lines_of_log false (lit "disk")) with [(lit "disk", 1)] by (vm_compute; reflexivity). discriminate.
Qed.

(** ** Text *)
Section Text.
Variable up : N -> bool.
Lemma context_more xs ys : forall n, exists t, context_text n (xs ++ ys) = context_text n xs ++ t.
Proof. induction xs as [|x xs IH]; intros n; [eexists; reflexivity|]. cbn [app context_text]. destruct (IH (n + 1)) as (t & E). exists t. rewrite E. now rewrite <- !app_assoc. Qed.
Lemma continued_text c x : exists t, anomaly_text up (continued c x) = anomaly_text up c ++ t.
Proof. unfold anomaly_text, continued, first_number. cbn [before after distance apos aline]. destruct (context_more (after c) x (apos c)) as (t & E). exists t. rewrite E. now rewrite <- !app_assoc. Qed.
Lemma next_more old c x new : forall last, exists t, next_text up last (old ++ continued c x :: new) = next_text up last (old ++ [c]) ++ t.
Proof.
  induction old as [|o old IH]; intros last; cbn [app next_text].
  - destruct (continued_text c x) as (t & E). rewrite E. change (first_number (continued c x)) with (first_number c). exists (t ++ next_text up (end_number (continued c x)) new). now rewrite app_nil_r, <- !app_assoc.
  - destruct (IH (end_number o)) as (t & E). exists t. rewrite E. now rewrite <- !app_assoc.
Qed.
Lemma grown_text l l' more : grown l l' more -> exists t, diff_text up l' = diff_text up l ++ t.
Proof.
  intros (new & _ & [(-> & ->)|(old & c & x & -> & ->)]); [eexists; reflexivity|]. destruct old as [|o old]; cbn [app diff_text].
  - destruct (continued_text c x) as (t & E). rewrite E. exists (t ++ next_text up (end_number (continued c x)) new). cbn [next_text]. now rewrite app_nil_r, <- app_assoc.
  - destruct (next_more old c x new (end_number o)) as (t & E). exists t. rewrite E. now rewrite app_assoc.
Qed.
Lemma grown_found {D} (l l' : list (@actx D)) more c : grown l l' more -> In c l -> exists c', In c' l' /\ distance c' = distance c /\ apos c' = apos c /\ aline c' = aline c.
Proof.
  intros (new & _ & [(-> & _)|(old & d & x & -> & ->)]) H; [destruct H|]. apply in_app_or in H. destruct H as [H|[->|[]]].
  - exists c. csplit; auto. apply in_or_app. now left.
  - exists (continued c x). csplit; auto. apply in_or_app. right. now left.
Qed.
Lemma grown_new {D} (l l' : list (@actx D)) more c' : grown l l' more -> In c' l' -> (exists c, In c l /\ distance c' = distance c /\ apos c' = apos c /\ aline c' = aline c) \/ In (aline c', apos c') more.
Proof.
  intros (new & N & G) H. rewrite Forall_forall in N. destruct G as [(-> & ->)|(old & d & x & -> & ->)]; [right; now apply N|]. apply in_app_or in H. destruct H as [H|[<-|H]].
  - left. exists c'. csplit; auto. apply in_or_app. now left.
  - left. exists d. csplit; auto. apply in_or_app. right. now left.
  - right. now apply N.
Qed.
End Text.

Section Diff.
Variables (hash : bytes -> N) (fused checked : bool) (word_char : N -> bool).
Variable enc_write : list bytes -> bytes -> bytes.
Variable enc_finish : list bytes -> bytes.
Variable gunzip : bytes -> bytes * bool.
Context {Date : Type}.
Variable show_date : Date -> bytes.
Variable parse_date : bytes -> option Date.
Variable url_text : bytes -> option bytes.
Variables (up : N -> bool) (has_year : Z -> bool) (write : bytes -> bytes) (checks : bool) (fixed_parts : fixed).
Notation build := (@StoreModel.build Date).
Variable kind_of : text -> path_kind.
Variable parse_url : text -> option text.
Variable has_authority : text -> bool.
Variable from_zuul_url : text -> option (res (content build)).
Variable discover : content build -> res (list (content build)).
Variable discovery : content build -> list bytes.
Variable tree : bytes -> FilesModel.node.
Variable crawl : text -> res (list text).
(** What the logs are before and after the log has grown. *)
Variables open open' : source -> res (bool -> list item).
Variable err_text : option N -> text.
Variable tty : bool.
Variable show_path : bytes -> bytes.
Variable cache : bool.
Notation tok := (real_tok word_char).
Notation get_content := (from_input kind_of parse_url has_authority from_zuul_url).
Notation main_with open := (main hash fused checked tok enc_write enc_finish gunzip show_date parse_date url_text up has_year write checks fixed_parts get_content discover discovery tree crawl open err_text tty show_path cache).
Notation names := (names kind_of parse_url has_authority (fun u => match from_zuul_url u with Some _ => true | None => false end)).

(** C102: the log [b] is compared with [a] when it has the bytes [B], and again when it has the bytes [B ++ X].
    What was found is found again, what is found besides is on new lines, and in a file or a pipe the text that was
    written is the beginning of the text that is written now. *)
Theorem C102_diff : forall a b sa sb A B X ja jb s out o s' s1 out1 o1 s1', names a sa -> names b sb -> ~ excluded sa -> ~ excluded sb -> json_named sa ja -> json_named sb jb ->
  has_bytes open sa A -> has_bytes open' sa A -> has_bytes open sb B -> has_bytes open' sb (B ++ X) -> plain_log ja A -> plain_log jb B -> plain_log jb (B ++ X) -> ends_with_line B ->
  main_with open None None (CmdDiff [a] b) s out o s' -> main_with open' None None (CmdDiff [a] b) s1 out1 o1 s1' ->
  exists more, lines_of_log jb (B ++ X) = lines_of_log jb B ++ more /\
    (forall d n x, In (Printed (Anom d n x)) (findings out) -> In (Printed (Anom d n x)) (findings out1)) /\
    (forall d n x, In (Printed (Anom d n x)) (findings out1) -> In (Printed (Anom d n x)) (findings out) \/ In (x, n) more) /\
    (tty = false -> exists before later, written up (printed out) = Some before /\ written up (printed out1) = Some (before ++ later)).
Proof.
  intros a b sa sb A B X ja jb s out o s' s1 out1 o1 s1' Na Nb Ea Eb Ja Jb Ha Ha' Hb Hb' Pa Pb Pb' En H H'.
  destruct (C90_diff hash fused checked word_char enc_write enc_finish gunzip show_date parse_date url_text up has_year write checks fixed_parts kind_of parse_url has_authority from_zuul_url discover discovery tree crawl open err_text tty show_path cache
    a b sa sb A B ja jb s out o s' Na Nb Ea Eb Ja Jb Ha Hb Pa Pb H) as (_ & _ & ps & cs & E1 & E2 & E3 & _ & E4 & _ & E5).
  destruct (C90_diff hash fused checked word_char enc_write enc_finish gunzip show_date parse_date url_text up has_year write checks fixed_parts kind_of parse_url has_authority from_zuul_url discover discovery tree crawl open' err_text tty show_path cache
    a b sa sb A (B ++ X) ja jb s1 out1 o1 s1' Na Nb Ea Eb Ja Jb Ha' Hb' Pa Pb' H') as (_ & _ & ps' & cs' & F1 & F2 & F3 & _ & F4 & _ & F5).
  destruct (lines_more jb B X En) as (more & M). exists more. split; [exact M|]. rewrite M in F1, F2, F3.
  pose proof (grown_core above_threshold tok _ [] (lines_of_log jb B) more cs cs' ps ps' E1 E2 E3 F1 F2 F3) as G. csplit.
  - intros d n x I. apply E4 in I. destruct I as (c & I & -> & -> & ->). apply F4. destruct (grown_found _ _ _ c G I) as (c' & I' & D1 & D2 & D3). exists c'. csplit; auto.
  - intros d n x I. apply F4 in I. destruct I as (c & I & -> & -> & ->). destruct (grown_new _ _ _ c G I) as [(c' & I' & D1 & D2 & D3)|I']; [left|right; exact I']. apply E4. exists c'. csplit; auto.
  - intros T. destruct (grown_text up _ _ _ G) as (t & Et). exists (diff_text up cs), t. split; [now apply E5|]. rewrite <- Et. now apply F5.
Qed.
End Diff.

(** ** A case that meets the hypotheses *)
(** The log of C90_example before its last line was written *)
Definition short_log := lit "service started in 7 seconds" ++ [10; 10] ++ lit "disk failure detected" ++ [10].
Definition short_logs (s : source) : res (bool -> list item) :=
  match s with Local _ p => if eqb_list p (lit "old.log") then read_file old_log else read_file short_log | Remote _ _ => Fail (lit "no network") end.
Definition short_main := MainModel.main byte_hash false true (real_tok ascii_word) P_Cache.toy_write P_Cache.toy_finish P_Cache.toy_gunzip (fun d : bytes => d) toy_url toy_url P_Page.ex_up P_Page.ex_years P_Html.verbatim true P_Html.ex_fixed
  diff_kind (fun _ => Fail (lit "no baseline")) (fun _ => []) runs (fun _ => Fail (lit "no network")) short_logs error_e false (fun p => p) false.
Example C102_example_logs : has_bytes short_logs diff_source old_log /\ has_bytes short_logs (Local 0 (lit "new.log")) short_log /\ plain_log false short_log /\ ends_with_line short_log /\ new_log = short_log ++ lit "all is well" ++ [10].
Proof.
  csplit.
  - exists false, [old_log]. csplit; [repeat constructor; vm_compute; discriminate|reflexivity|]. eexists. split; [reflexivity|]. intros []; vm_compute; reflexivity.
  - exists false, [short_log]. csplit; [repeat constructor; vm_compute; discriminate|reflexivity|]. eexists. split; [reflexivity|]. intros []; vm_compute; reflexivity.
  - unfold plain_log. replace (lines_of_log false short_log) with [(lit "service started in 7 seconds", 1); (lit "disk failure detected", 3)] by (vm_compute; reflexivity).
    replace (segments false short_log) with [(lit "service started in 7 seconds", 1); ([], 2); (lit "disk failure detected", 3)] by (vm_compute; reflexivity). plain_lines_tac.
  - exists (lit "service started in 7 seconds" ++ [10; 10] ++ lit "disk failure detected"). split; reflexivity.
  - reflexivity.
Qed.
Definition short_rows : list (@out_line F) := [Printed (Ctx 1 (lit "service started in 7 seconds")); Printed (Anom f_one 3 (lit "disk failure detected"))].
Lemma short_pieces : live_pieces (real_tok ascii_word) (loaded_search byte_hash false) short_logs error_e (mode false) (loaded_indexes diff_model) (CFile (Local 0 (lit "new.log")) : content (@StoreModel.build bytes)) [Val (Local 0 (lit "new.log"))] = Val (map Row short_rows).
Proof.
  rewrite (pieces_same (real_tok ascii_word) _ (real_search byte_hash false) short_logs error_e (mode false) (loaded_indexes diff_model) diff_trained).
  - vm_compute. reflexivity.
  - apply (stored_answers byte_hash false diff_times).
    + rewrite diff_is_trained. repeat constructor; cbn [In]; intuition discriminate.
    + reflexivity.
    + destruct diff_rust as (_ & _ & _ & _ & R). eapply Forall_impl; [|exact R]. now intros e [].
Qed.
Example C102_example_run : exists out, short_main None None (CmdDiff [lit "old.log"] (lit "new.log")) no_disk out Success no_disk /\
  written P_Page.ex_up (printed out) = Some (lit "   1 | service started in 7 seconds" ++ [10] ++ lit "99 3 | disk failure detected" ++ [10]).
Proof.
  exists (map Out (map Row short_rows)). split; [|vm_compute; reflexivity].
  replace (map Out (map Row short_rows)) with (([] ++ map Out (map Row short_rows) ++ []) ++ []) by (now rewrite !app_nil_r).
  apply Main with (o := Success). cbn [run CliModel.process map]. constructor. change (diff_kind (input_from_string (lit "new.log"))) with (Val (CFile (Local 0 (lit "new.log")) : content (@StoreModel.build bytes))). cbn [try get_contents].
  constructor. change (diff_kind (input_from_string (lit "old.log"))) with (Val (CFile diff_source : content (@StoreModel.build bytes))). cbn [try].
  econstructor.
  - replace (@nil said) with (train_says (real_tok ascii_word) short_logs error_e false [(lit "old.log", [diff_source])]) by (vm_compute; reflexivity).
    eapply Trained with (m := diff_trained) (times := diff_times); [vm_compute; reflexivity|reflexivity|vm_compute; reflexivity|reflexivity|exact diff_rust].
  - cbn [try keep_model inspect]. apply DoesLive with (r := Val tt); [|constructor]. apply LivePrinted. exact short_pieces.
Qed.
Print Assumptions C102_unfinished_refuted.
Print Assumptions C102_diff.
