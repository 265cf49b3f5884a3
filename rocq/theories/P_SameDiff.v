(** Two logs of the same tokenized lines are compared with a third, from the command line to the standard output: C101. *)
From Coq Require Import String List NArith ZArith PeanoNat Bool Lia Permutation.
From Verif Require Import Common CommonFacts IterModel IterSpec IterMain P_Iter ProcModel ProcSpec ProcStopSpec ProcExactSpec P_Proc P_ProcExact TokSpec TokRe P_Tok ProcRefute FilesModel FilesSpec FilesSources CliModel IndexModel IndexSpec P_Index
  MatModel ReportModel ReportSpec ReportProofs ReportMore P_Report P_Compare P_Noise CacheSpec StoreModel StoreSpec StoreProofs P_Store MatSpec MatProofs P_Mat HtmlModel ShownModel RenderModel OutModel P_Out SavedModel P_Saved MainModel MainSpec P_Main DiffSpec P_Diff.
From Verif Require P_Cache P_Html P_Page.
Import ListNotations.
Open Scope string_scope.
Open Scope list_scope.
Open Scope N_scope.
Ltac csplit := repeat match goal with |- _ /\ _ => split end.

(** Line by line the same number and the same tokenized form *)
Definition same_lines (tok : bytes -> bytes) (l l' : list (bytes * N)) : Prop := Forall2 (fun x y => snd x = snd y /\ tok (fst x) = tok (fst y)) l l'.
Lemma same_lines_sym tok l l' : same_lines tok l l' -> same_lines tok l' l.
Proof. induction 1 as [|x y l l' (A & B) _ IH]; constructor; auto. Qed.
Lemma same_lines_nth tok l l' : same_lines tok l l' -> forall i b n, nth_error l i = Some (b, n) -> exists b', nth_error l' i = Some (b', n) /\ tok b' = tok b.
Proof. induction 1 as [|[x k] [y k'] l l' (A & B) _ IH]; intros [|i] b n E; cbn in *; try discriminate; [injection E as -> ->; subst; eauto|eauto]. Qed.
Lemma same_reported {D} (above : D -> bool) tok dist l l' i : same_lines tok l l' -> reported above tok dist [] l i -> reported above tok dist [] l' i.
Proof.
  intros S ((b & n & E & _ & F) & (b1 & n1 & E1 & A)). rewrite E in E1. injection E1 as <- <-. destruct (same_lines_nth tok l l' S i b n E) as (b' & E' & T). split.
  - exists b', n. csplit; auto. intros j x k Hj Ej. destruct (same_lines_nth tok l' l (same_lines_sym _ _ _ S) j x k Ej) as (x' & Ex & Tx). rewrite T, <- Tx. exact (F j x' k Hj Ex).
  - exists b', n. split; [exact E'|]. now rewrite T.
Qed.

Section Diff.
Variables (hash : bytes -> N) (fused checked : bool) (word_char : N -> bool).
Variable enc_write : list bytes -> bytes -> bytes.
Variable enc_finish : list bytes -> bytes.
Variable gunzip : bytes -> bytes * bool.
Context {Date : Type}.
Variable show_date : Date -> bytes.
Variable parse_date : bytes -> option Date.
Variable url_text : bytes -> option bytes.
Variables (up : N -> bool) (has_year : Z -> bool) (write : bytes -> bytes) (checks : bool) (fixed_parts : fixed).
Notation build := (@StoreModel.build Date).
Variable kind_of : text -> path_kind.
Variable parse_url : text -> option text.
Variable has_authority : text -> bool.
Variable from_zuul_url : text -> option (res (content build)).
Variable discover : content build -> res (list (content build)).
Variable discovery : content build -> list bytes.
Variable tree : bytes -> FilesModel.node.
Variable crawl : text -> res (list text).
(** What the logs are in one world and in another *)
Variables open open' : source -> res (bool -> list item).
Variable err_text : option N -> text.
Variable tty : bool.
Variable show_path : bytes -> bytes.
Variable cache : bool.
Notation tok := (real_tok word_char).
Notation get_content := (from_input kind_of parse_url has_authority from_zuul_url).
Notation main_with open := (main hash fused checked tok enc_write enc_finish gunzip show_date parse_date url_text up has_year write checks fixed_parts get_content discover discovery tree crawl open err_text tty show_path cache).
Notation names := (names kind_of parse_url has_authority (fun u => match from_zuul_url u with Some _ => true | None => false end)).

(** One direction; the other one is the same. *)
Lemma same_found : forall a b sa sb A B B' ja jb s out o s' s1 out1 o1 s1', names a sa -> names b sb -> ~ excluded sa -> ~ excluded sb -> json_named sa ja -> json_named sb jb ->
  has_bytes open sa A -> has_bytes open' sa A -> has_bytes open sb B -> has_bytes open' sb B' -> plain_log ja A -> plain_log jb B -> plain_log jb B' ->
  same_lines tok (lines_of_log jb B) (lines_of_log jb B') ->
  main_with open None None (CmdDiff [a] b) s out o s' -> main_with open' None None (CmdDiff [a] b) s1 out1 o1 s1' ->
  forall d n x, In (Printed (Anom d n x)) (findings out) -> exists x', In (Printed (Anom d n x')) (findings out1) /\ tok x' = tok x.
Proof.
  intros a b sa sb A B B' ja jb s out o s' s1 out1 o1 s1' Na Nb Ea Eb Ja Jb Ha Ha' Hb Hb' Pa Pb Pb' Sl H H' d n x I.
  destruct (C90_diff hash fused checked word_char enc_write enc_finish gunzip show_date parse_date url_text up has_year write checks fixed_parts kind_of parse_url has_authority from_zuul_url discover discovery tree crawl open err_text tty show_path cache
    a b sa sb A B ja jb s out o s' Na Nb Ea Eb Ja Jb Ha Hb Pa Pb H) as (_ & _ & ps & cs & E1 & E2 & _ & _ & E4 & _ & _).
  destruct (C90_diff hash fused checked word_char enc_write enc_finish gunzip show_date parse_date url_text up has_year write checks fixed_parts kind_of parse_url has_authority from_zuul_url discover discovery tree crawl open' err_text tty show_path cache
    a b sa sb A B' ja jb s1 out1 o1 s1' Na Nb Ea Eb Ja Jb Ha' Hb' Pa Pb' H') as (_ & _ & ps' & cs' & F1 & F2 & _ & _ & F4 & _ & _).
  apply E4 in I. destruct I as (c & I & -> & -> & ->). destruct (forall2_in_l _ _ _ _ E2 I) as (i & Ii & D1 & D2). apply (proj2 E1) in Ii. apply (same_reported _ _ _ _ _ _ Sl) in Ii. apply (proj2 F1) in Ii.
  destruct (forall2_in_r _ _ _ _ F2 Ii) as (c' & I' & G1 & G2). destruct (same_lines_nth _ _ _ Sl i _ _ D1) as (b' & N1 & N2). rewrite G1 in N1. injection N1 as N3 N4.
  exists (aline c'). split; [|congruence]. apply F4. exists c'. csplit; auto. rewrite G2, D2. now rewrite N3, N2.
Qed.
End Diff.

Section Both.
Variables (hash : bytes -> N) (fused checked : bool) (word_char : N -> bool).
Variable enc_write : list bytes -> bytes -> bytes.
Variable enc_finish : list bytes -> bytes.
Variable gunzip : bytes -> bytes * bool.
Context {Date : Type}.
Variable show_date : Date -> bytes.
Variable parse_date : bytes -> option Date.
Variable url_text : bytes -> option bytes.
Variables (up : N -> bool) (has_year : Z -> bool) (write : bytes -> bytes) (checks : bool) (fixed_parts : fixed).
Notation build := (@StoreModel.build Date).
Variable kind_of : text -> path_kind.
Variable parse_url : text -> option text.
Variable has_authority : text -> bool.
Variable from_zuul_url : text -> option (res (content build)).
Variable discover : content build -> res (list (content build)).
Variable discovery : content build -> list bytes.
Variable tree : bytes -> FilesModel.node.
Variable crawl : text -> res (list text).
(** What the logs are in one world and in another *)
Variables open open' : source -> res (bool -> list item).
Variable err_text : option N -> text.
Variable tty : bool.
Variable show_path : bytes -> bytes.
Variable cache : bool.
Notation tok := (real_tok word_char).
Notation get_content := (from_input kind_of parse_url has_authority from_zuul_url).
Notation main_with open := (main hash fused checked tok enc_write enc_finish gunzip show_date parse_date url_text up has_year write checks fixed_parts get_content discover discovery tree crawl open err_text tty show_path cache).
Notation names := (names kind_of parse_url has_authority (fun u => match from_zuul_url u with Some _ => true | None => false end)).

(** C101: a log is compared with [a] when it has the bytes [B], and when it has other bytes whose lines have the same
    numbers and tokenized forms: the same line numbers are found, with the same distances and tokenized lines. *)
Theorem C101_diff : forall a b sa sb A B B' ja jb s out o s' s1 out1 o1 s1', names a sa -> names b sb -> ~ excluded sa -> ~ excluded sb -> json_named sa ja -> json_named sb jb ->
  has_bytes open sa A -> has_bytes open' sa A -> has_bytes open sb B -> has_bytes open' sb B' -> plain_log ja A -> plain_log jb B -> plain_log jb B' ->
  same_lines tok (lines_of_log jb B) (lines_of_log jb B') ->
  main_with open None None (CmdDiff [a] b) s out o s' -> main_with open' None None (CmdDiff [a] b) s1 out1 o1 s1' ->
  forall d n t, (exists x, In (Printed (Anom d n x)) (findings out) /\ tok x = t) <-> (exists x, In (Printed (Anom d n x)) (findings out1) /\ tok x = t).
Proof.
  intros a b sa sb A B B' ja jb s out o s' s1 out1 o1 s1' Na Nb Ea Eb Ja Jb Ha Ha' Hb Hb' Pa Pb Pb' Sl H H' d n t. split; intros (x & I & <-).
  - eapply (same_found hash fused checked word_char enc_write enc_finish gunzip show_date parse_date url_text up has_year write checks fixed_parts kind_of parse_url has_authority from_zuul_url discover discovery tree crawl open open' err_text tty show_path cache a b sa sb A B B' ja jb); eassumption.
  - eapply (same_found hash fused checked word_char enc_write enc_finish gunzip show_date parse_date url_text up has_year write checks fixed_parts kind_of parse_url has_authority from_zuul_url discover discovery tree crawl open' open err_text tty show_path cache a b sa sb A B' B ja jb); try eassumption. now apply same_lines_sym.
Qed.
End Both.

(** The log of C90_example on another day: the example has another number of seconds. *)
Definition other_log := lit "service started in 90 seconds" ++ [10; 10] ++ lit "disk  failure detected" ++ [10] ++ lit "all is well" ++ [10].
Example C101_example_lines : same_lines (real_tok ascii_word) (lines_of_log false new_log) (lines_of_log false other_log).
Proof.
  rewrite new_lines. replace (lines_of_log false other_log) with [(lit "service started in 90 seconds", 1); (lit "disk  failure detected", 3); (lit "all is well", 4)] by (vm_compute; reflexivity).
  repeat constructor; cbn [fst]; vm_compute; reflexivity.
Qed.
Definition other_logs (s : source) : res (bool -> list item) :=
  match s with Local _ p => if eqb_list p (lit "old.log") then read_file old_log else read_file other_log | Remote _ _ => Fail (lit "no network") end.
Definition other_main := MainModel.main byte_hash false true (real_tok ascii_word) P_Cache.toy_write P_Cache.toy_finish P_Cache.toy_gunzip (fun d : bytes => d) toy_url toy_url P_Page.ex_up P_Page.ex_years P_Html.verbatim true P_Html.ex_fixed
  diff_kind (fun _ => Fail (lit "no baseline")) (fun _ => []) runs (fun _ => Fail (lit "no network")) other_logs error_e false (fun p => p) false.
Example C101_example_logs : has_bytes other_logs diff_source old_log /\ has_bytes other_logs (Local 0 (lit "new.log")) other_log /\ plain_log false other_log.
Proof.
  csplit.
  - exists false, [old_log]. csplit; [repeat constructor; vm_compute; discriminate|reflexivity|]. eexists. split; [reflexivity|]. intros []; vm_compute; reflexivity.
  - exists false, [other_log]. csplit; [repeat constructor; vm_compute; discriminate|reflexivity|]. eexists. split; [reflexivity|]. intros []; vm_compute; reflexivity.
  - unfold plain_log. replace (lines_of_log false other_log) with [(lit "service started in 90 seconds", 1); (lit "disk  failure detected", 3); (lit "all is well", 4)] by (vm_compute; reflexivity).
    replace (segments false other_log) with [(lit "service started in 90 seconds", 1); ([], 2); (lit "disk  failure detected", 3); (lit "all is well", 4)] by (vm_compute; reflexivity). plain_lines_tac.
Qed.
Definition other_rows : list (@out_line F) := [Printed (Ctx 1 (lit "service started in 90 seconds")); Printed (Anom f_one 3 (lit "disk  failure detected")); Printed (Ctx 3 (lit "all is well"))].
Lemma other_pieces : live_pieces (real_tok ascii_word) (loaded_search byte_hash false) other_logs error_e (mode false) (loaded_indexes diff_model) (CFile (Local 0 (lit "new.log")) : content (@StoreModel.build bytes)) [Val (Local 0 (lit "new.log"))] = Val (map Row other_rows).
Proof.
  rewrite (pieces_same (real_tok ascii_word) _ (real_search byte_hash false) other_logs error_e (mode false) (loaded_indexes diff_model) diff_trained).
  - vm_compute. reflexivity.
  - apply (stored_answers byte_hash false diff_times).
    + rewrite diff_is_trained. repeat constructor; cbn [In]; intuition discriminate.
    + reflexivity.
    + destruct diff_rust as (_ & _ & _ & _ & R). eapply Forall_impl; [|exact R]. now intros e [].
Qed.
Example C101_example_run : exists out, other_main None None (CmdDiff [lit "old.log"] (lit "new.log")) no_disk out Success no_disk /\
  written P_Page.ex_up (printed out) = Some (lit "   1 | service started in 90 seconds" ++ [10] ++ lit "99 3 | disk  failure detected" ++ [10] ++ lit "   3 | all is well" ++ [10]).
Proof.
  exists (map Out (map Row other_rows)). split; [|vm_compute; reflexivity].
  replace (map Out (map Row other_rows)) with (([] ++ map Out (map Row other_rows) ++ []) ++ []) by (now rewrite !app_nil_r).
  apply Main with (o := Success). cbn [run CliModel.process map]. constructor. change (diff_kind (input_from_string (lit "new.log"))) with (Val (CFile (Local 0 (lit "new.log")) : content (@StoreModel.build bytes))). cbn [try get_contents].
  constructor. change (diff_kind (input_from_string (lit "old.log"))) with (Val (CFile diff_source : content (@StoreModel.build bytes))). cbn [try].
  econstructor.
  - replace (@nil said) with (train_says (real_tok ascii_word) other_logs error_e false [(lit "old.log", [diff_source])]) by (vm_compute; reflexivity).
    eapply Trained with (m := diff_trained) (times := diff_times); [vm_compute; reflexivity|reflexivity|vm_compute; reflexivity|reflexivity|exact diff_rust].
  - cbn [try keep_model inspect]. apply DoesLive with (r := Val tt); [|constructor]. apply LivePrinted. exact other_pieces.
Qed.
Print Assumptions C101_diff.
