(** A comparison of two logs, from the command line to the page: C92. *)
From Coq Require Import String List NArith ZArith PeanoNat Bool Lia Permutation.
From Verif Require Import Common CommonFacts IterModel IterSpec IterMain P_Iter ProcModel ProcSpec ProcStopSpec ProcExactSpec P_Proc P_ProcExact TokSpec TokRe P_Tok ProcRefute FilesModel FilesSpec FilesSources CliModel IndexModel IndexSpec P_Index
  MatModel ReportModel ReportSpec ReportProofs ReportMore P_Report P_Compare P_Noise CacheSpec StoreModel StoreSpec StoreProofs P_Store MatSpec MatProofs P_Mat HtmlModel HtmlSpec HtmlReportSpec HtmlPage ShownModel ShownSpec ShownProofs P_Shown PageSpec RenderModel OutModel P_Out SavedModel P_Saved MainModel MainSpec P_Main DiffSpec P_Diff DiffPageSpec.
From Verif Require P_Cache P_Html P_Page P_Form.
Import ListNotations.
Open Scope string_scope.
Open Scope list_scope.
Open Scope N_scope.
Ltac csplit := repeat match goal with |- _ /\ _ => split end.

(** ** The lines of the page *)
Lemma context_lines {D} xs : forall n, n + N.of_nat (length xs) < 2 ^ 64 -> render_context (D := D) n xs = numbered_from (n + 1) xs.
Proof.
  induction xs as [|x xs IH]; intros n L; [reflexivity|]. cbn [render_context numbered_from length] in *. rewrite IH by lia.
  unfold wrap. rewrite N.mod_small by lia. reflexivity.
Qed.
Lemma filter_numbered {D} xs : forall n, filter is_line (numbered_from (D := D) n xs) = numbered_from n xs.
Proof. induction xs as [|x xs IH]; intros n; [reflexivity|]. cbn [numbered_from filter is_line]. now rewrite IH. Qed.
Lemma lines_rows {D} checks (cs : list (@actx D)) : Forall countable cs -> forall last,
  exists lines, render_lines checks last cs = Some lines /\ filter is_line lines = page_rows cs.
Proof.
  induction 1 as [|c cs [H1 H2] _ IH]; intros last; [now exists []|]. cbn [render_lines].
  assert (S : starting_pos checks c = Some (apos c - 1 - N.of_nat (length (ProcModel.before c)))).
  { unfold starting_pos, usize_sub. rewrite (proj2 (N.leb_le 1 (apos c))) by lia. now rewrite (proj2 (N.leb_le _ (apos c - 1))) by lia. }
  rewrite S. destruct (IH (Some (wrap (apos c + N.of_nat (length (ProcModel.after c)))))) as (out & -> & F).
  eexists. split; [reflexivity|]. rewrite !filter_app. cbn [filter is_line]. rewrite F. unfold page_rows. cbn [flat_map].
  rewrite !context_lines, !filter_numbered by lia.
  assert (Hs : filter is_line match last with Some p => if p =? apos c - 1 - N.of_nat (length (ProcModel.before c)) then [] else [@Hr D] | None => [] end = [])
    by (destruct last as [p|]; [destruct (p =? _)|]; reflexivity).
  rewrite Hs. unfold anomaly_rows. cbn [app]. replace (apos c - 1 - N.of_nat (length (ProcModel.before c)) + 1) with (apos c - N.of_nat (length (ProcModel.before c))) by lia.
  rewrite <- !app_assoc. reflexivity.
Qed.

(** ** Line numbers *)
Lemma lex_numbers B : ~ In 92 B -> forall cur0 nr0,
  (forall i x k, nth_error (fst (lex (mkLex None false cur0 nr0) B)) i = Some (x, k) -> k = nr0 + N.of_nat i) /\
  exists cur1, snd (lex (mkLex None false cur0 nr0) B) = mkLex None false cur1 (nr0 + N.of_nat (length (fst (lex (mkLex None false cur0 nr0) B)))) /\
  (length (fst (lex (mkLex None false cur0 nr0) B)) <= length B)%nat.
Proof.
  induction B as [|c B IH]; intros H cur0 nr0.
  - cbn. split; [intros [|i] x k E; discriminate|]. exists cur0. split; [f_equal; lia|lia].
  - cbn [lex]. unfold feed. cbn [IterSpec.esc IterSpec.js IterSpec.cur IterSpec.nr]. rewrite (proj2 (N.eqb_neq c 92)) by (intros ->; apply H; now left).
    assert (H' : ~ In 92 B) by (intros h; apply H; now right).
    destruct (c =? 10).
    + destruct (IH H' [] (nr0 + 1)) as (A1 & cur1 & A2 & A3). destruct (lex _ B) as [l L]. cbn [fst snd] in *. split.
      * intros [|i] x k E; cbn [nth_error] in E; [injection E as <- <-; lia|]. rewrite (A1 _ _ _ E). lia.
      * exists cur1. cbn [length]. split; [rewrite A2; f_equal; lia|lia].
    + destruct (IH H' (cur0 ++ [c]) nr0) as (A1 & cur1 & A2 & A3). split; [exact A1|]. exists cur1. split; [exact A2|]. etransitivity; [exact A3|]. cbn [length]. lia.
Qed.
Lemma segments_numbers_from B i x k : ~ In 92 B -> nth_error (segments false B) i = Some (x, k) -> k = 1 + N.of_nat i /\ (i <= length B)%nat.
Proof.
  intros H. unfold segments, lex0. destruct (lex_numbers B H [] 1) as (A1 & cur1 & A2 & A3). destruct (lex _ B) as [l L]. cbn [fst snd] in *. subst L. cbn [IterSpec.cur IterSpec.nr]. intros E.
  destruct (Nat.lt_ge_cases i (length l)) as [Li|Li].
  - rewrite nth_error_app1 in E by exact Li. split; [now apply A1 in E|lia].
  - rewrite nth_error_app2 in E by exact Li. destruct cur1 as [|c0 cur1]; [destruct (i - length l)%nat; discriminate|].
    destruct (i - length l)%nat as [|j] eqn:Ej; cbn [nth_error] in E; [|destruct j; discriminate]. injection E as <- <-. assert (i = length l) as -> by lia. split; [reflexivity|exact A3].
Qed.
Lemma nth_filter {X} (f : X -> bool) l : forall i x, nth_error (filter f l) i = Some x -> exists j, (i <= j)%nat /\ nth_error l j = Some x.
Proof.
  induction l as [|y l IH]; intros i x E; [destruct i; discriminate|]. cbn [filter] in E. destruct (f y).
  - destruct i as [|i]; cbn [nth_error] in E; [exists 0%nat; now split|]. destruct (IH _ _ E) as (j & L & Ej). exists (S j). split; [lia|exact Ej].
  - destruct (IH _ _ E) as (j & L & Ej). exists (S j). split; [lia|exact Ej].
Qed.
Lemma filter_shorter {X} (f : X -> bool) l : (length (filter f l) <= length l)%nat.
Proof. induction l as [|y l IH]; cbn [filter length]; [lia|]. destruct (f y); cbn [length]; lia. Qed.
Lemma segments_length B : ~ In 92 B -> (length (segments false B) <= length B + 1)%nat.
Proof.
  intros H. unfold segments, lex0. destruct (lex_numbers B H [] 1) as (_ & cur1 & A2 & A3). destruct (lex _ B) as [l L]. cbn [fst snd] in *. subst L. cbn [IterSpec.cur]. rewrite app_length. destruct cur1; cbn [length]; lia.
Qed.
Lemma plain_countable {D} (above : D -> bool) tok dist known B cs positions : ~ In 92 B -> N.of_nat (length B) < 2 ^ 62 ->
  Forall2 (describes tok dist (lines_of_log false B)) cs positions -> exact_contexts above tok dist known (lines_of_log false B) cs positions -> Forall countable cs.
Proof.
  intros H Lb Hd He. apply Forall_forall. intros c Hc. apply In_nth_error in Hc. destruct Hc as (k & Hk).
  assert (Hp : exists i, nth_error positions k = Some i /\ describes tok dist (lines_of_log false B) c i).
  { clear He. revert k Hk. induction Hd as [|c' i' cs ps D1 _ IH]; intros [|k] Hk; try discriminate; cbn [nth_error] in *; [injection Hk as <-; eauto|auto]. }
  destruct Hp as (i & Hi & [Hn _]). specialize (He k c i Hk Hi). destruct He as [E1 E2].
  destruct (nth_filter _ _ _ _ Hn) as (j & Lj & Ej). apply (segments_numbers_from B j _ _ H) in Ej. destruct Ej as [Ek Lj2].
  assert (Lf : (length (lines_of_log false B) <= length (segments false B))%nat) by apply filter_shorter. pose proof (segments_length B H) as Ls.
  apply (f_equal (@length bytes)) in E1, E2. unfold texts in E1, E2. rewrite map_length, firstn_length in E1, E2. rewrite skipn_length in E1, E2. unfold countable. rewrite Ek. unfold bytes in *. change (2 ^ 62) with 4611686018427387904 in Lb. change (2 ^ 64) with 18446744073709551616. split; lia.
Qed.

Section Page.
Variables (hash : bytes -> N) (fused checked : bool) (word_char : N -> bool).
Variable enc_write : list bytes -> bytes -> bytes.
Variable enc_finish : list bytes -> bytes.
Variable gunzip : bytes -> bytes * bool.
Context {Date : Type}.
Variable show_date : Date -> bytes.
Variable parse_date : bytes -> option Date.
Variable url_text : bytes -> option bytes.
Variables (up : N -> bool) (has_year : Z -> bool) (write : bytes -> bytes) (checks : bool) (fixed_parts : fixed).
Notation build := (@StoreModel.build Date).
Variable kind_of : text -> path_kind.
Variable parse_url : text -> option text.
Variable has_authority : text -> bool.
Variable from_zuul_url : text -> option (res (content build)).
Variable discover : content build -> res (list (content build)).
Variable discovery : content build -> list bytes.
Variable tree : bytes -> FilesModel.node.
Variable crawl : text -> res (list text).
Variable open : source -> res (bool -> list item).
Variable err_text : option N -> text.
Variable tty : bool.
Variable show_path : bytes -> bytes.
Variable cache : bool.
Notation tok := (real_tok word_char).
Notation get_content := (from_input kind_of parse_url has_authority from_zuul_url).
Notation listing := (@MainModel.listing Date tree crawl).
Notation main := (main hash fused checked tok enc_write enc_finish gunzip show_date parse_date url_text up has_year write checks fixed_parts get_content discover discovery tree crawl open err_text tty show_path cache).
Notation names := (names kind_of parse_url has_authority (fun u => match from_zuul_url u with Some _ => true | None => false end)).
Notation away := (away hash fused word_char).

Theorem C92_page : forall a b sa sb A B ja jb file s out s', names a sa -> names b sb -> ~ excluded sa -> ~ excluded sb -> json_named sa ja -> json_named sb jb ->
  has_bytes open sa A -> has_bytes open sb B -> plain_log ja A -> plain_log jb B ->
  main (Some file) None (CmdDiff [a] b) s out Success s' ->
  exists positions cs page (r : @StoreModel.report Date) sm,
    enumerates above_threshold tok (away ja A) [] (lines_of_log jb B) positions /\
    Forall2 (describes tok (away ja A) (lines_of_log jb B)) cs positions /\
    exact_contexts above_threshold tok (away ja A) [] (lines_of_log jb B) cs positions /\
    s' file = Some page /\
    log_reports (report_of r) = match cs with [] => [] | _ :: _ => [mkLog (N.of_nat (length (lines_of_log jb B))) (total_bytes (lines_of_log jb B)) cs sb (index_name (full_name sb))] end /\
    index_reports (report_of r) = match cs with [] => [] | _ :: _ => [(index_name (full_name sb), [sa])] end /\
    index_errors (report_of r) = [] /\ read_errors (report_of r) = [] /\
    summary_of up has_year r = Some sm /\
    s_target sm = log_title sb /\ s_baselines sm = log_title sa /\
    (exists share l n, s_result sm = share ++ lit "% reduction (from " ++ l ++ lit " to " ++ n ++ lit ")" /\ decimal (N.of_nat (length (lines_of_log jb B))) l /\ decimal (N.of_nat (length cs)) n) /\
    (PageSpec.readable write fixed_parts sm (report_of r) ->
      elements (lit "title") page = [([], write (lit "Logreduce of " ++ log_title sb))] /\
      elements (lit "td") page = map (fun t => ([], write t)) [lit "Target"; s_target sm; lit "Baselines"; s_baselines sm; lit "Created at"; s_created sm; lit "Run time"; s_time sm; lit "Result"; s_result sm] /\
      (Forall countable cs -> Forall2 (line_element write percent colour) (page_rows cs) (elements (lit "pre") page))).
Proof.
  intros a b sa sb A B ja jb file s out s' Na Nb Ea Eb Ja Jb Ha Hb Pa Pb H.
  destruct (train_one word_char kind_of parse_url has_authority from_zuul_url tree crawl open a sa A ja Na Ea Ja Ha Pa) as (n & ix & T & G & K).
  destruct (C88_report _ _ _ _ _ _ _ _ _ _ _ _ _ _ _ _ _ _ _ _ _ _ _ _ _ _ _ _ _ _ _ _ _ (AnalysesDiff [a] b) H) as (c & b1 & m & drain & found & r & page & Ec & U & Dp & Lr & Mo & Re & Fp & _).
  rewrite (names_content _ _ _ _ _ _ Nb) in Ec. injection Ec as <-.
  inversion U as [? ? X|? ? ? _ X|is l b' m' _ X Fl Tr]; subst; try discriminate. injection X as <-. inversion Fl as [|? c' ? l' F1 F2]; subst. inversion F2; subst. rewrite (names_content _ _ _ _ _ _ Na) in F1. injection F1 as <-.
  apply (trained_answers hash fused) in Tr. destruct Tr as (drain' & tm & Dp' & Tm & Bm & An).
  assert (tm = [(n, ix)]) as -> by (unfold model_train in Tm; cbn [map] in Tm, G; rewrite G in Tm; rewrite (T (drain' [(n, [sa])]) (Dp' _)) in Tm; congruence).
  unfold SavedModel.loaded_report in Lr. rewrite (model_report_same above_threshold tok (loaded_search hash fused) (real_search hash fused) open err_text drain _ _ (listing (CFile sb)) An) in Lr.
  assert (Hm : NoDup (map fst [(n, ix)])) by (repeat constructor; intros []).
  pose proof (fun lr c => C78_report hash fused tok open err_text drain [(n, ix)] (listing (CFile sb)) found lr c Dp Hm Lr) as Rng.
  destruct (plain_items _ _ _ _ Hb Pb) as (items & O & I). pose proof (names_relative _ _ _ _ _ _ Nb) as R. pose proof (json_is _ _ _ R eq_refl Jb) as J.
  set (lines := lines_of_log jb B) in *.
  assert (Pw : pointwise (real_search hash fused (ix_batches ix)) (away ja A)).
  { intros ts. unfold real_search. rewrite (C20_training_order_irrelevant hash fused (ix_batches ix) [map (fun x => tok (fst x)) (lines_of_log ja A)]); [apply (real_pointwise hash fused)|].
    intros t. rewrite K. cbn [concat]. rewrite app_nil_r. rewrite (proj1 (proj2 (C18_firsts_meaning _ _)) t). cbn [In]. intuition. }
  destruct (C12_exact _ above_threshold tok (real_search hash fused (ix_batches ix)) (away ja A) [] lines Pw) as (cs & final & positions & E1 & E2 & E3 & E4); [apply Pb|now apply plain_markers|].
  destruct (C15_counters _ above_threshold tok (real_search hash fused (ix_batches ix)) (away ja A) [] lines Pw) as (cs' & final' & E1' & C1 & C2); [apply Pb|now apply plain_markers|].
  rewrite E1 in E1'. injection E1' as <- <-.
  assert (Gp : get_processor open sb = Val (ok_items lines)) by (unfold get_processor; now rewrite R, O, J, I).
  assert (Gi : get_index [(n, ix)] (index_name (full_name sb)) = Some ix) by (unfold get_index, lookup_or_single; cbn [hm_get map snd]; now destruct (eqb_list _ _)).
  assert (Gg : group_sources [listing (CFile sb)] = Val [(index_name (full_name sb), [sb])]).
  { unfold group_sources. cbn [group_sources_go]. rewrite (file_sources tree crawl sb Eb). cbn [group_all]. rewrite R. reflexivity. }
  assert (Is : ix_sources ix = [sa]).
  { specialize (T [(n, [sa])] (Permutation_refl _)). cbn [train_all] in T. destruct (index_train tok open [sa]) as [ix'|e|] eqn:Ei; try discriminate. injection T as ->.
    apply index_train_ok in Ei. apply Ei. }
  unfold model_report in Lr. rewrite Gg in Lr. pose proof (Dp [(index_name (full_name sb), [sb])]) as Pd. apply Permutation_sym, Permutation_length_1_inv in Pd. rewrite Pd in Lr.
  cbn [report_all] in Lr. rewrite Gi in Lr. cbn [report_group] in Lr. rewrite Gp, E1 in Lr. cbn [stop_error] in Lr. injection Lr as Lr.
  destruct Mo as (M1 & M2 & M3 & M4 & M5 & M6 & M7 & M8).
  assert (Q : log_reports found = match cs with [] => [] | _ :: _ => [mkLog (N.of_nat (length lines)) (total_bytes lines) cs sb (index_name (full_name sb))] end /\
    index_reports found = match cs with [] => [] | _ :: _ => [(index_name (full_name sb), [sa])] end /\ index_errors found = [] /\ read_errors found = [] /\
    total_line_count found = N.of_nat (length lines) /\ total_anomaly_count found = N.of_nat (length cs)).
  { rewrite <- Lr. unfold add_anomalies, report_new. cbn [log_reports index_reports index_errors read_errors total_line_count total_anomaly_count app hm_get].
    rewrite C1, C2, Is. destruct cs; csplit; reflexivity. }
  destruct Q as (Q1 & Q2 & Q3 & Q4 & Q5 & Q6). rewrite Q1 in M3. rewrite Q2 in M4. rewrite Q3 in M5. rewrite Q4 in M6. rewrite Q5 in M7. rewrite Q6 in M8.
  assert (M4' : index_reports (report_of r) = match cs with [] => [] | _ :: _ => [(index_name (full_name sb), [sa])] end).
  { destruct cs; [now apply Permutation_sym, Permutation_nil in M4|now apply Permutation_sym, Permutation_length_1_inv in M4]. }
  unfold render_saved in Re. destruct (summary_of up has_year r) as [sm|] eqn:Es; [|discriminate].
  destruct (render write percent colour checks fixed_parts sm (report_of r)) as [pg|] eqn:Er; [|discriminate]. injection Re as ->.
  pose proof (names_relative _ _ _ _ _ _ Na) as Ra.
  assert (Sm : s_target sm = log_title sb /\ s_baselines sm = log_title sa /\ s_result sm = result_text up (N.of_nat (length lines)) (N.of_nat (length cs))).
  { unfold summary_of in Es. rewrite M1, M2, Bm in Es. cbn [content_text all_texts] in Es. unfold source_text in Es. rewrite R, Ra in Es. cbn [option_map] in Es.
    destruct (render_time has_year (StoreModel.r_created r)); [|discriminate]. injection Es as <-. cbn [s_target s_baselines s_result join_text]. rewrite M7, M8.
    unfold log_title. destruct sa, sb; csplit; rewrite <- ?app_assoc; reflexivity. }
  destruct Sm as (S1 & S2 & S3).
  exists positions, cs, page, r, sm. csplit; auto.
  - exists (fmt_float up 2 2 (reduction (N.of_nat (length lines)) (N.of_nat (length cs)))), (fmt (N.of_nat (length lines))), (fmt (N.of_nat (length cs))). csplit; auto using fmt_decimal.
  - intros Rd. csplit.
    + rewrite <- S1. eapply P_Form.C85_title; eauto.
    + exact (P_Page.C77_table _ percent colour write checks fixed_parts sm (report_of r) page Rd Er).
    + intros Cn. destruct (P_Page.C78_lines _ percent colour write checks fixed_parts sm (report_of r) page Rd) as (parts & P1 & P2); [|exact Er|].
      * intros lr c Hl Hc. rewrite M3 in Hl. rewrite <- Q1 in Hl. destruct (Rng lr c Hl Hc) as (X1 & X2 & X3). destruct (C78_anomaly _ X1 X2 X3) as (_ & (_ & X4) & _). lia.
      * rewrite P1. rewrite M3 in P2. destruct cs as [|c cs].
        -- inversion P2; subst. constructor.
        -- inversion P2 as [|? part ? ? (ls & L1 & L2) P3]; subst. inversion P3; subst. cbn [concat]. rewrite app_nil_r. cbn [lr_anomalies] in L1.
           destruct (lines_rows checks (c :: cs) Cn None) as (ls' & L1' & L3). rewrite L1 in L1'. injection L1' as <-. now rewrite <- L3.
Qed.

(** For two files of plain text and a library that escapes what it writes: the page has the lines, with
    the right numbers, and no other ones. *)
Theorem C92_plain : forall a b sa sb A B ja file s out s', names a sa -> names b sb -> ~ excluded sa -> ~ excluded sb -> json_named sa ja -> json_named sb false ->
  has_bytes open sa A -> has_bytes open sb B -> plain_log ja A -> plain_log false B ->
  ~ In 92 B -> N.of_nat (length B) < 2 ^ 62 ->
  (forall t, harmless (write t)) -> clean_fixed (fun _ => True) fixed_parts ->
  quotable (utf8_encode (full_name sa)) -> quotable (utf8_encode (full_name sb)) -> quotable (utf8_encode (index_name (full_name sb))) ->
  main (Some file) None (CmdDiff [a] b) s out Success s' ->
  exists positions cs page,
    enumerates above_threshold tok (away ja A) [] (lines_of_log false B) positions /\
    Forall2 (describes tok (away ja A) (lines_of_log false B)) cs positions /\
    exact_contexts above_threshold tok (away ja A) [] (lines_of_log false B) cs positions /\
    s' file = Some page /\ Forall2 (line_element write percent colour) (page_rows cs) (elements (lit "pre") page).
Proof.
  intros a b sa sb A B ja file s out s' Na Nb Ea Eb Ja Jb Ha Hb Pa Pb Hbs Lb W Wf Qa Qb Qn H.
  destruct (C92_page a b sa sb A B ja false file s out s' Na Nb Ea Eb Ja Jb Ha Hb Pa Pb H) as (positions & cs & page & r & sm & E1 & E2 & E3 & E4 & E5 & E6 & _ & _ & _ & _ & _ & _ & E7).
  exists positions, cs, page. csplit; auto. apply E7; [|eapply plain_countable; eauto].
  right. csplit; auto. split.
  - rewrite E5. destruct cs as [|c cs]; [constructor|]. constructor; [|constructor]. unfold clean_log. cbn [lr_source lr_index lr_anomalies]. csplit; auto.
    apply Forall_forall. intros x _. unfold clean_context. csplit; auto; apply Forall_forall; auto.
  - rewrite E6. destruct cs as [|c cs]; [constructor|]. constructor; [|constructor]. cbn [snd]. constructor; [|constructor]. split; [destruct sa; exact Qa|exact I].
Qed.
End Page.

(** ** A case that meets the hypotheses *)
Definition new_source := Local 0 (lit "new.log").
Definition diff_report : @StoreModel.report bytes := StoreModel.mkReport (1680000000%Z, 5) (3, 250000000) (CFile new_source) [CFile diff_source]
  [StoreModel.mkLogReport (0, 1000000) 3 60 [StoreModel.mkContext [lit "service started in 7 seconds"] (StoreModel.mkAnomaly 1065353216 3 (lit "disk failure detected")) [lit "all is well"]] new_source (lit "new.log")]
  [(lit "new.log", StoreModel.mkIndexReport (1, 0) [diff_source])] [] [] 3 1.
Lemma diff_reported : report_all above_threshold (real_tok ascii_word) (loaded_search byte_hash false) two_logs error_e (loaded_indexes diff_model) [(lit "new.log", [new_source])] report_new =
  Val (report_of diff_report).
Proof.
  rewrite (report_all_same above_threshold (real_tok ascii_word) _ (real_search byte_hash false) two_logs error_e (loaded_indexes diff_model) diff_trained).
  - vm_compute. reflexivity.
  - apply (stored_answers byte_hash false diff_times).
    + rewrite diff_is_trained. repeat constructor; cbn [In]; intuition discriminate.
    + reflexivity.
    + destruct diff_rust as (_ & _ & _ & _ & R). eapply Forall_impl; [|exact R]. now intros e [].
Qed.
Example C92_example : exists out s' page, diff_main (Some (lit "r.html")) None (CmdDiff [lit "old.log"] (lit "new.log")) no_disk out Success s' /\
  s' (lit "r.html") = Some page /\
  map snd (elements (lit "pre") page) = [lit "      2 | service started in 7 seconds"; lit "99    3 | disk failure detected"; lit "      4 | all is well"].
Proof.
  destruct (render_saved P_Page.ex_up P_Page.ex_years P_Html.verbatim true P_Html.ex_fixed diff_report) as [page| |] eqn:Ep; [|exfalso; vm_compute in Ep; discriminate|exfalso; vm_compute in Ep; discriminate].
  eexists _, _, page. split; [|split].
  - apply Main with (o := Success). cbn [run CliModel.process map]. constructor. change (diff_kind (input_from_string (lit "new.log"))) with (Val (CFile new_source : content (@StoreModel.build bytes))). cbn [try get_contents].
    constructor. change (diff_kind (input_from_string (lit "old.log"))) with (Val (CFile diff_source : content (@StoreModel.build bytes))). cbn [try].
    econstructor.
    + eapply Trained with (m := diff_trained) (times := diff_times); [vm_compute; reflexivity|reflexivity|vm_compute; reflexivity|reflexivity|exact diff_rust].
    + cbn [try keep_model inspect]. econstructor.
      * eapply Reported with (r := diff_report) (groups' := [(lit "new.log", [new_source])]).
        -- vm_compute. reflexivity.
        -- reflexivity.
        -- exact diff_reported.
        -- unfold made_of. csplit; reflexivity.
      * cbn [try]. constructor. rewrite Ep. cbn [try]. apply DoesCreate. apply DoesWrite with (ok := true) (b := page); [now constructor|]. constructor.
  - apply update_same.
  - vm_compute in Ep. injection Ep as <-. vm_compute. reflexivity.
Qed.

Print Assumptions C92_page.
Print Assumptions C92_plain.
