(** A comparison of runs, from the command line to the page: C94. *)
From Coq Require Import String List NArith ZArith PeanoNat Bool Lia Permutation.
From Verif Require Import Common CommonFacts IterModel IterSpec IterMain P_Iter ProcModel ProcSpec ProcStopSpec ProcExactSpec P_Proc P_ProcExact TokSpec TokRe P_Tok ProcRefute FilesModel FilesSpec FilesSources CliModel IndexModel IndexSpec P_Index
  MatModel ReportModel ReportSpec ReportProofs ReportMore P_Report P_Compare P_Noise CacheSpec StoreModel StoreSpec StoreProofs P_Store MatSpec MatProofs P_Mat HtmlModel HtmlSpec HtmlReportSpec HtmlPage ShownModel ShownSpec ShownProofs P_Shown PageSpec RenderModel OutModel P_Out SavedModel P_Saved MainModel MainSpec P_Main SummarySpec P_Summary DiffSpec P_Diff DiffPageSpec P_DiffPage RunsSpec P_Runs RunsPageSpec.
From Verif Require P_Cache P_Html P_Page P_Form.
Import ListNotations.
Open Scope string_scope.
Open Scope list_scope.
Open Scope N_scope.
Ltac csplit := repeat match goal with |- _ /\ _ => split end.

(** ** The page of a report *)
Lemma countable_rows checks (write : bytes -> bytes) (lr : @ReportModel.log_report F) item : Forall countable (lr_anomalies lr) -> shows_log write percent checks lr item -> log_section write percent lr item.
Proof.
  intros C (name & lines & R & L & N & S). exists name. destruct (lines_rows checks _ C None) as (lines' & L' & E). rewrite L in L'. injection L' as <-. rewrite <- E. csplit; auto. now apply below_relative.
Qed.
Lemma forall2_weaken {A B} (P Q : A -> B -> Prop) l l' : (forall a b, In a l -> P a b -> Q a b) -> Forall2 P l l' -> Forall2 Q l l'.
Proof. intros H F. revert H. induction F as [|a b l l' X _ IH]; intros H; constructor; [apply H; [now left|exact X]|apply IH; intros; apply H; auto; now right]. Qed.
Lemma page_sections write checks f s (r : @ReportModel.report F) page : PageSpec.readable write f s r -> (forall lr, In lr (log_reports r) -> Forall countable (lr_anomalies lr)) ->
  render write percent colour checks f s r = Some page -> Forall2 (log_section write percent) (log_reports r) (view_of page).
Proof.
  intros Hc Cn Ep. assert (V : Forall2 (shows_log write percent checks) (log_reports r) (view_of page)).
  { destruct Hc as [(W & Hf1 & Hf2 & Hf3)|(W & Hf1 & Hf2)]; [|eapply (P_Html.C70_page_escaped _ percent colour write checks f s r); eauto].
    eapply P_Html.Forall2_impl; [apply P_Html.shown_shows|]. eapply (page_view write percent colour harmless) with (r := r); eauto using no60_harmless, harmless_app. intros t. now rewrite W. }
  eapply forall2_weaken; [|exact V]. intros lr item I. now apply countable_rows, Cn.
Qed.
Lemma page_lines write checks f s (r : @ReportModel.report F) page : PageSpec.readable write f s r -> (forall lr, In lr (log_reports r) -> Forall countable (lr_anomalies lr)) ->
  (forall lr c, In lr (log_reports r) -> In c (lr_anomalies lr) -> colour (ProcModel.distance c) < 256) ->
  render write percent colour checks f s r = Some page -> Forall2 (line_element write percent colour) (flat_map (fun lr => page_rows (lr_anomalies lr)) (log_reports r)) (elements (lit "pre") page).
Proof.
  intros Hc Cn Cl Ep. destruct (P_Page.C78_lines _ percent colour write checks f s r page Hc Cl Ep) as (parts & -> & P2). clear - Cn P2. revert Cn. induction P2 as [|lr part l parts (ls & L1 & L2) _ IH]; intros Cn; cbn [flat_map concat]; [constructor|].
  apply Forall2_app; [|apply IH; intros x Hx; apply Cn; now right]. destruct (lines_rows checks _ (Cn lr (or_introl eq_refl)) None) as (ls' & L1' & L3). rewrite L1 in L1'. injection L1' as <-. now rewrite <- L3.
Qed.

(** ** The report of a model *)
Section Runs.
Variables (hash : bytes -> N) (fused checked : bool) (word_char : N -> bool).
Variable enc_write : list bytes -> bytes -> bytes.
Variable enc_finish : list bytes -> bytes.
Variable gunzip : bytes -> bytes * bool.
Context {Date : Type}.
Variable show_date : Date -> bytes.
Variable parse_date : bytes -> option Date.
Variable url_text : bytes -> option bytes.
Variables (up : N -> bool) (has_year : Z -> bool) (write : bytes -> bytes) (checks : bool) (fixed_parts : fixed).
Notation build := (@StoreModel.build Date).
Variable kind_of : text -> path_kind.
Variable parse_url : text -> option text.
Variable has_authority : text -> bool.
Variable from_zuul_url : text -> option (res (content build)).
Variable zuul_baselines : build -> res (list (content build)).
Variable zuul_says : build -> list bytes.
Variable tree : bytes -> FilesModel.node.
Variable crawl : text -> res (list text).
Variable open : source -> res (bool -> list item).
Variable err_text : option N -> text.
Variable tty : bool.
Variable show_path : bytes -> bytes.
Variable cache : bool.
Notation tok := (real_tok word_char).
Notation get_content := (from_input kind_of parse_url has_authority from_zuul_url).
Notation discover := (discover_baselines kind_of zuul_baselines).
Notation listing := (@MainModel.listing Date tree crawl).
Notation trains := (trains hash checked tok show_date parse_date url_text tree crawl open err_text tty).
Notation main := (main hash fused checked tok enc_write enc_finish gunzip show_date parse_date url_text up has_year write checks fixed_parts get_content discover (discovery_of zuul_says) tree crawl open err_text tty show_path cache).
Notation is_build := (fun u => match from_zuul_url u with Some _ => true | None => false end).
Notation build_logs := (fun u address => exists b, from_zuul_url u = Some (Val (CZuul b)) /\ StoreModel.b_log_url b = address).
Notation baseline_logs := (fun u address => exists b b', from_zuul_url u = Some (Val (CZuul b)) /\ zuul_baselines b = Val [CZuul b'] /\ StoreModel.b_log_url b' = address).
Notation compares := (RunsSpec.compares kind_of parse_url has_authority is_build build_logs baseline_logs tree crawl).
Notation run_dist := (run_dist hash fused).

Section Logs.
Variables (name_of : source -> text) (json_of : source -> bool) (bytes_of : source -> bytes).
Notation log s := (is_log open s (name_of s) (json_of s) (bytes_of s)).
Notation lines_in := (fun x => lines_of_log (json_of x) (bytes_of x)).
Notation known := (known_lines tok lines_in).
Notation found_in := (found_in tok run_dist lines_in).
Notation comes_to := (comes_to tok run_dist name_of lines_in).
Notation said_logs := (said_logs lines_in).
Notation said_lines := (said_lines lines_in).
Variable baselines : list source.

Lemma group_found base ix n : (forall t, In t (concat (ix_batches ix)) <-> In t (known base)) -> ix_sources ix = base ->
  forall l earlier skipped r, (forall s, In s l -> log s) -> (forall t, In t skipped <-> In t (known earlier)) ->
  exists found r', report_group above_threshold tok (real_search hash fused) open err_text ix n l skipped r = Val r' /\ found_in base earlier l found /\
    let x := ((n, l), Compared base found) in
    log_reports r' = log_reports r ++ said_logs x /\
    index_reports r' = (if existsb some_found found then match hm_get n (index_reports r) with Some _ => index_reports r | None => index_reports r ++ [(n, base)] end else index_reports r) /\
    index_errors r' = index_errors r /\ read_errors r' = read_errors r /\
    total_line_count r' = total_line_count r + said_lines x /\ total_anomaly_count r' = total_anomaly_count r + said_anomalies x.
Proof.
  intros K Ks. induction l as [|s l IH]; intros earlier skipped r H Hk; cbn [report_group].
  - exists [], r. cbn [said_logs RunsPageSpec.said_logs RunsPageSpec.said_lines said_anomalies snd filter map existsb fold_right]. rewrite app_nil_r, !N.add_0_r. csplit; auto. constructor.
  - destruct (is_log_facts _ _ _ _ _ (H s (or_introl eq_refl))) as (_ & J & (rel & R & Er) & items & O & I).
    assert (Gp : get_processor open s = Val (ok_items (lines_in s))) by (unfold get_processor; now rewrite R, O, J, I).
    assert (Pw : pointwise (real_search hash fused (ix_batches ix)) (run_dist (known base))).
    { intros ts. unfold real_search. rewrite (C20_training_order_irrelevant hash fused (ix_batches ix) [known base]); [apply (real_pointwise hash fused)|]. intros t. rewrite K. cbn [concat]. now rewrite app_nil_r. }
    destruct (H s (or_introl eq_refl)) as (_ & _ & Pl). assert (Vl : all_valid (lines_in s)) by apply Pl. assert (Mk : no_marker (lines_in s)) by now apply plain_markers.
    destruct (C12_exact _ above_threshold tok (real_search hash fused (ix_batches ix)) (run_dist (known base)) skipped (lines_in s) Pw Vl Mk) as (cs & final & positions & E1 & E2 & E3 & E4).
    destruct (C15_counters _ above_threshold tok (real_search hash fused (ix_batches ix)) (run_dist (known base)) skipped (lines_in s) Pw Vl Mk) as (cs' & final' & E5 & C1 & C2).
    destruct (C17_skip_set _ above_threshold tok (real_search hash fused (ix_batches ix)) (run_dist (known base)) skipped (lines_in s) Pw Vl Mk) as (cs'' & final'' & E6 & Sk).
    rewrite E1 in E5, E6. injection E5 as <- <-. injection E6 as <- <-.
    rewrite Gp, E1. cbn [stop_error]. cbv zeta.
    destruct (IH (earlier ++ [s]) (skip final) (add_anomalies r ix n s cs (line_count final) (byte_count final))) as (found & r' & G1 & G2 & G3 & G4 & G5 & G6 & G7 & G8).
    { intros x Hx. apply H. now right. }
    { intros t. rewrite Sk, Hk. unfold known_lines. rewrite flat_map_app, in_app_iff. cbn [flat_map]. rewrite app_nil_r, in_map_iff. split; (intros [X|(x & X1 & X2)]; [now left|right; eauto]). }
    exists ((s, cs) :: found), r'. csplit; [exact G1|econstructor; eauto| | | | | |].
    + rewrite G3. unfold add_anomalies, RunsPageSpec.said_logs. cbn [snd fst filter some_found]. rewrite C1, C2. destruct cs; cbn [log_reports map fst snd]; [reflexivity|]. now rewrite <- app_assoc.
    + rewrite G4. cbn [existsb some_found snd]. unfold add_anomalies. destruct cs as [|c cs]; cbn [index_reports orb]; [reflexivity|]. rewrite Ks. destruct (hm_get n (index_reports r)) as [v|] eqn:Eg; [rewrite Eg; now destruct (existsb _ _)|].
      destruct (hm_get n (index_reports r ++ [(n, base)])) eqn:Eg'; [now destruct (existsb _ _)|]. now apply hm_get_snoc in Eg'.
    + rewrite G5. unfold add_anomalies. now destruct cs.
    + rewrite G6. unfold add_anomalies. now destruct cs.
    + rewrite G7. unfold RunsPageSpec.said_lines. cbn [snd fold_right fst]. unfold add_anomalies. destruct cs; cbn [total_line_count]; rewrite C1; lia.
    + rewrite G8. unfold said_anomalies. cbn [snd fold_right fst]. unfold add_anomalies. destruct cs; cbn [total_anomaly_count length]; lia.
Qed.
Lemma groups_found (m : list (text * index_of)) : (forall s, match get_index m (name_of s) with
             | Some ix => exists l, compared_with name_of baselines s l /\ ix_sources ix = l /\ forall t, In t (concat (ix_batches ix)) <-> In t (known l)
             | None => not_compared name_of baselines s
             end) ->
  forall groups r, NoDup (map fst groups) -> (forall n l, In (n, l) groups -> l <> [] /\ (forall s, In s l -> log s /\ name_of s = n) /\ hm_get n (index_reports r) = None) ->
  exists results r', map fst results = groups /\ report_all above_threshold tok (real_search hash fused) open err_text m groups r = Val r' /\
    Forall (fun x => comes_to baselines (snd (fst x)) (snd x)) results /\
    log_reports r' = log_reports r ++ flat_map said_logs results /\ index_reports r' = index_reports r ++ flat_map said_indexes results /\
    index_errors r' = index_errors r ++ flat_map said_errors results /\ read_errors r' = read_errors r /\
    total_line_count r' = total_line_count r + total said_lines results /\ total_anomaly_count r' = total_anomaly_count r + total said_anomalies results.
Proof.
  intros L. induction groups as [|[n l] groups IH]; intros r Nd H; cbn [report_all].
  - exists [], r. cbn [map flat_map total fold_right]. rewrite !app_nil_r, !N.add_0_r. csplit; auto.
  - inversion Nd as [|? ? Ni Nd']; subst. cbn [fst] in Ni. destruct (H n l (or_introl eq_refl)) as (Ne & Hl & Hg).
    assert (Ls : exists s0, In s0 l) by (destruct l as [|s0 l]; [congruence|exists s0; now left]). destruct Ls as (s0 & Hs0). pose proof (L s0) as L0. rewrite (proj2 (Hl s0 Hs0)) in L0.
    assert (Same : forall s, In s l -> name_of s = name_of s0) by (intros s Hs; now rewrite (proj2 (Hl s Hs)), (proj2 (Hl s0 Hs0))).
    assert (CW : forall b s, In s l -> compared_with name_of baselines s0 b -> compared_with name_of baselines s b).
    { intros b s Hs [b' S E|k E A N']; [apply SameName|apply OnlyName with (n := k)]; try (rewrite (Same s Hs)); auto. }
    assert (NC : forall s, In s l -> not_compared name_of baselines s0 -> not_compared name_of baselines s).
    { intros s Hs [A B]. split; [|exact B]. now rewrite (Same s Hs). }
    destruct (get_index m n) as [ix|].
    + destruct L0 as (base & C & Ks & K). destruct (group_found base ix n K Ks l [] [] r) as (found & r1 & G1 & G2 & G3 & G4 & G5 & G6 & G7 & G8); [intros s Hs; now apply Hl|reflexivity|].
      rewrite G1. rewrite Hg in G4. destruct (IH r1 Nd') as (results & r' & I1 & I2 & I3 & I4 & I5 & I6 & I7 & I8 & I9).
      { intros n' l' Hi. destruct (H n' l' (or_intror Hi)) as (X1 & X2 & X3). csplit; auto. rewrite G4. destruct (existsb some_found found); [|exact X3].
        apply hm_get_none. intros v X. apply in_app_or in X. destruct X as [X|[X|[]]]; [now apply (proj1 (hm_get_none _ _) X3) in X|]. injection X as -> _. apply Ni. now apply (in_map fst) in Hi. }
      exists (((n, l), Compared base found) :: results), r'. cbn [map fst flat_map]. csplit; [now f_equal|exact I2|constructor; [|exact I3]; cbn [fst snd]; constructor; auto; intros s Hs; now apply CW| | | | | |].
      * now rewrite I4, G3, <- app_assoc.
      * rewrite I5, G4. unfold said_indexes at 2. cbn [snd fst]. destruct (existsb some_found found); [now rewrite <- app_assoc|reflexivity].
      * now rewrite I6, G5.
      * congruence.
      * rewrite I8, G7. unfold total. cbn [fold_right]. lia.
      * rewrite I9, G8. unfold total. cbn [fold_right]. lia.
    + destruct (IH (ReportModel.mkReport (log_reports r) (index_reports r) (index_errors r ++ [l]) (read_errors r) (total_line_count r) (total_anomaly_count r)) Nd') as (results & r' & I1 & I2 & I3 & I4 & I5 & I6 & I7 & I8 & I9).
      { intros n' l' Hi. now apply (H n' l' (or_intror Hi)). }
      exists (((n, l), NothingToCompare) :: results), r'. cbn [log_reports index_reports index_errors read_errors total_line_count total_anomaly_count] in *. cbn [map fst flat_map].
      csplit; [now f_equal|exact I2|constructor; [|exact I3]; cbn [fst snd]; constructor; auto|exact I4|exact I5| |exact I7|exact I8|exact I9].
      now rewrite I6, <- app_assoc.
Qed.
End Logs.

(** The links *)
Lemma index_names (results : list ((text * list source) * outcome)) n : In n (map fst (flat_map said_indexes results)) -> In n (map fst (map fst results)).
Proof.
  induction results as [|x results IH]; [intros []|]. cbn [flat_map map]. rewrite map_app, in_app_iff. intros [X|X]; [left|right; now apply IH].
  unfold said_indexes in X. destruct (snd x) as [|base found]; [destruct X|]. destruct (existsb some_found found); [|destruct X]. destruct X as [<-|[]]. reflexivity.
Qed.
Lemma index_nodup (results : list ((text * list source) * outcome)) : NoDup (map fst (map fst results)) -> NoDup (map fst (flat_map said_indexes results)).
Proof.
  induction results as [|x results IH]; cbn [flat_map map]; [constructor|]. intros H. inversion H as [|? ? Ni Nd]; subst. specialize (IH Nd). rewrite map_app.
  unfold said_indexes at 1. destruct (snd x) as [|base found]; [exact IH|]. destruct (existsb some_found found); [|exact IH]. cbn [map app fst]. constructor; [|exact IH]. intros X. now apply Ni, index_names.
Qed.
Lemma find_named {V} (l : list (text * V)) n v : NoDup (map fst l) -> In (n, v) l -> option_map snd (find (fun x => eqb_list (fst x) n) l) = Some v.
Proof.
  induction l as [|[k w] l IH]; [intros _ []|]. cbn [map fst find]. intros H I. inversion H as [|? ? Ni Nd]; subst. destruct (eqb_list k n) eqn:E.
  - apply eqb_list_spec in E. subst k. destruct I as [I|I]; [injection I as <-; reflexivity|]. exfalso. apply Ni. now apply (in_map fst) in I.
  - destruct I as [I|I]; [injection I as -> _; rewrite eqb_list_refl in E; discriminate|now apply IH].
Qed.
Lemma links_found lines_in (r : @ReportModel.report F) (results : list ((text * list source) * outcome)) : NoDup (map fst (map fst results)) -> Permutation (index_reports r) (flat_map said_indexes results) ->
  flat_map (log_links write r) (flat_map (said_logs lines_in) results) = flat_map (said_links write) results.
Proof.
  intros Nd P. apply index_nodup in Nd. assert (Nd' : NoDup (map fst (index_reports r))) by (eapply Permutation_NoDup; [apply Permutation_map, Permutation_sym, P|exact Nd]).
  assert (S : forall x base found y, In x results -> snd x = Compared base found -> In y (filter some_found found) -> sources_of r (fst (fst x)) = Some base).
  { intros x base found y Hx E Hy. apply filter_In in Hy. apply find_named; [exact Nd'|]. eapply Permutation_in; [apply Permutation_sym, P|]. apply in_flat_map. exists x. split; [exact Hx|].
    unfold said_indexes. rewrite E. assert (X : existsb some_found found = true) by (apply existsb_exists; exists y; exact Hy). rewrite X. now left. }
  clear Nd Nd' P. induction results as [|x results IH]; [reflexivity|]. cbn [flat_map]. etransitivity; [apply flat_map_app|]. f_equal; [|apply IH; intros; eapply S; eauto; now right].
  unfold said_logs, said_links. destruct (snd x) as [|base found] eqn:E; [reflexivity|]. specialize (fun y => S x base found y (or_introl eq_refl) E).
  induction (filter some_found found) as [|y l IHl]; [reflexivity|]. cbn [map flat_map]. f_equal; [|apply IHl; intros z Hz; apply (S z); now right].
  unfold log_links. cbn [lr_index lr_source]. now rewrite (S y (or_introl eq_refl)).
Qed.

Notation log_lines json_of bytes_of := (fun x => lines_of_log (json_of x) (bytes_of x)).
Theorem C94_page : forall cmd ls targets name_of json_of bytes_of file s out s', compares cmd ls targets ->
  (forall x, In x (concat ls ++ targets) -> is_log open x (name_of x) (json_of x) (bytes_of x)) ->
  (forall x y, In x (concat ls) -> In y (concat ls) -> name_of x = name_of y -> json_of x = json_of y) ->
  main (Some file) None cmd s out Success s' ->
  exists results (r : @StoreModel.report Date) sm page,
    by_name name_of targets (map fst results) /\
    Forall (fun x => comes_to tok run_dist name_of (log_lines json_of bytes_of) (concat ls) (snd (fst x)) (snd x)) results /\
    s' file = Some page /\ render_saved up has_year write checks fixed_parts r = Val page /\
    log_reports (report_of r) = flat_map (said_logs (log_lines json_of bytes_of)) results /\
    Permutation (index_reports (report_of r)) (flat_map said_indexes results) /\
    index_errors (report_of r) = flat_map said_errors results /\ read_errors (report_of r) = [] /\
    summary_of up has_year r = Some sm /\
    (exists baselines i c cs names, analyses cmd baselines i /\ get_content i = Val c /\ called c (s_target sm) /\
      baselines_are get_content discover baselines c cs /\ Forall2 called cs names /\ listed names (s_baselines sm)) /\
    (1 <= total (said_lines (log_lines json_of bytes_of)) results < 2 ^ 64 ->
      called_result (total (said_lines (log_lines json_of bytes_of)) results) (total said_anomalies results) (s_result sm)) /\
    (PageSpec.readable write fixed_parts sm (report_of r) ->
      elements (lit "title") page = [([], write (lit "Logreduce of " ++ s_target sm))] /\
      elements (lit "td") page = map (fun t => ([], write t)) [lit "Target"; s_target sm; lit "Baselines"; s_baselines sm; lit "Created at"; s_created sm; lit "Run time"; s_time sm; lit "Result"; s_result sm] /\
      elements (lit "a") page = page_links write ++ flat_map (said_links write) results /\
      ((forall lr, In lr (log_reports (report_of r)) -> Forall countable (lr_anomalies lr)) ->
        Forall2 (log_section write percent) (log_reports (report_of r)) (view_of page) /\
        Forall2 (line_element write percent colour) (flat_map (fun lr => page_rows (lr_anomalies lr)) (log_reports (report_of r))) (elements (lit "pre") page))).
Proof.
  intros cmd ls targets name_of json_of bytes_of file s out s' Hc0 Hl Hj H.
  assert (Lb : forall x, In x (concat ls) -> is_log open x (name_of x) (json_of x) (bytes_of x)) by (intros x Hx; apply Hl, in_or_app; now left).
  assert (Lt : forall x, In x targets -> is_log open x (name_of x) (json_of x) (bytes_of x)) by (intros x Hx; apply Hl, in_or_app; now right).
  destruct (runs_content kind_of parse_url has_authority from_zuul_url zuul_baselines zuul_says tree crawl _ _ _ Hc0) as (bi & i & ct & cb & Ai & Ct & St & (xt & Xt) & Cb & Sb & _).
  assert (Rel : forall x, In x (concat ls ++ targets) -> get_relative x <> None) by (intros x Hx; destruct (is_log_facts _ _ _ _ _ (Hl x Hx)) as (_ & _ & (rel & R & _) & _); rewrite R; discriminate).
  destruct (group_sources_val _ _ Sb) as (groups & G). { intros x Hx. apply Rel, in_or_app. now left. }
  assert (Gr : grouping source_name groups (concat ls)).
  { destruct (group_sources_ok _ _ G) as (ls' & S' & Gr). replace (concat ls) with (concat ls'); [exact Gr|]. f_equal. clear - Sb S'. revert ls' S'. induction Sb as [|i l cs ls E _ IH]; intros ls' S'; inversion S' as [|? l' ? ls'' E' S'']; subst; [reflexivity|]. rewrite E in E'. injection E' as <-. f_equal. now apply IH. }
  pose proof (grouping_groups _ _ _ _ _ Lb _ Gr) as Ok.
  destruct (C88_report _ _ _ _ _ _ _ _ _ _ _ _ _ _ _ _ _ _ _ _ _ _ _ _ _ _ _ _ _ _ _ _ _ Ai H) as (c & b1 & m & drain & found & r & page & Ec & U & Dp & Lr & Mo & Re & Fp & _).
  rewrite Ct in Ec. injection Ec as <-.
  assert (Ub : exists b3, trains cb b3 (Val m)).
  { inversion U as [? ? X|l b3 m' _ X Fl Tn|is l b3 m' _ X Fl Tn]; subst; try discriminate; (assert (l = cb) by (eapply (baselines_one kind_of parse_url has_authority from_zuul_url zuul_baselines); eassumption)); subst l; eauto. }
  destruct Ub as (b3 & Tr).
  apply (trained_answers hash fused) in Tr. destruct Tr as (drain' & tm & Dp' & Tm & Bm & An).
  destruct (C40_trained_names tok open drain' _ tm Dp' Tm) as (_ & _ & Nm & _).
  unfold model_train in Tm. rewrite G in Tm.
  assert (Lk := lookup_logs hash word_char gunzip parse_date url_text up write kind_of parse_url has_authority from_zuul_url tree crawl open show_path name_of json_of bytes_of (concat ls) Lb Hj (drain' groups) tm). specialize (Lk ltac:(eapply Permutation_NoDup; [apply Permutation_map, Permutation_sym, Dp'|apply Gr])).
  specialize (Lk ltac:(intros g; rewrite <- Ok; split; apply Permutation_in; [apply Dp'|apply Permutation_sym, Dp']) Tm).
  unfold SavedModel.loaded_report in Lr. rewrite (model_report_same above_threshold tok (loaded_search hash fused) (real_search hash fused) open err_text drain _ _ (listing ct) An) in Lr.
  pose proof (fun lr c => C78_report hash fused tok open err_text drain tm (listing ct) found lr c Dp Nm Lr) as Rng.
  pose proof (C77_anomalies_are_lines _ above_threshold tok (real_search hash fused) (real_dist hash fused) open err_text drain tm (listing ct) found (real_pointwise hash fused) Dp Nm Lr) as Le.
  unfold model_report in Lr. destruct (group_sources [listing ct]) as [gt|e|] eqn:Gt; try discriminate.
  assert (Grt : grouping source_name gt targets).
  { destruct (group_sources_ok _ _ Gt) as (lt & F & Grt). inversion F as [|? l1 ? l2 F1 F2]; subst. inversion F2; subst. rewrite St in F1. injection F1 as <-. cbn [concat] in Grt. now rewrite app_nil_r in Grt. }
  pose proof (grouping_groups _ _ _ _ _ Lt _ Grt) as Okt.
  assert (Ndt : NoDup (map fst (drain gt))) by (eapply Permutation_NoDup; [apply Permutation_map, Permutation_sym, Dp|apply Grt]).
  assert (Okd : forall g, In g (drain gt) <-> group_ok name_of targets g) by (intros g; rewrite <- Okt; split; apply Permutation_in; [apply Dp|apply Permutation_sym, Dp]).
  destruct (groups_found name_of json_of bytes_of (concat ls) tm Lk (drain gt) report_new Ndt) as (results & r' & I1 & I2 & I3 & I4 & I5 & I6 & I7 & I8 & I9).
  { intros n l Hg. apply Okd in Hg. destruct Hg as [A B]. cbn [fst snd] in *. csplit; [exact A| |reflexivity]. intros x Hx. apply (ReportMore.selected_in _ _ _ x B) in Hx. destruct Hx as [X1 X2]. split; [now apply Lt|exact X2]. }
  rewrite I2 in Lr. injection Lr as ->. cbn [report_new log_reports index_reports index_errors read_errors total_line_count total_anomaly_count app] in *. rewrite N.add_0_l in I8, I9.
  destruct Mo as (M1 & M2 & M3 & M4 & M5 & M6 & M7 & M8). rewrite I4 in M3. rewrite I5 in M4. rewrite I6 in M5. rewrite I7 in M6. rewrite I8 in M7, Le. rewrite I9 in M8, Le.
  pose proof Re as Re'. unfold render_saved in Re. destruct (summary_of up has_year r) as [sm|] eqn:Es; [|discriminate].
  destruct (render write percent colour checks fixed_parts sm (report_of r)) as [pg|] eqn:Er; [|discriminate]. injection Re as ->.
  destruct (C77_summary _ _ _ _ _ Es) as (S1 & S2 & _ & _ & S5). rewrite M1 in S1. rewrite M2, Bm in S2. rewrite M7, M8 in S5.
  assert (Ndr : NoDup (map fst (map fst results))) by (rewrite I1; exact Ndt).
  exists results, r, sm, page. csplit; auto.
  - split; [exact Ndr|]. intros n l. rewrite I1. apply Okd.
  - destruct S2 as (names & N1 & N2). exists bi, i, ct, cb, names. csplit; auto.
  - intros Rd. csplit.
    + eapply P_Form.C85_title; eauto.
    + exact (P_Page.C77_table _ percent colour write checks fixed_parts sm (report_of r) page Rd Er).
    + rewrite (P_Page.C79_links _ percent colour write checks fixed_parts sm (report_of r) page Rd Er). f_equal. rewrite M3. now apply links_found.
    + intros Cn. split; [eapply page_sections; eauto|]. eapply page_lines; eauto. intros lr c Hr Hc. rewrite M3, <- I4 in Hr. destruct (Rng lr c Hr Hc) as (X1 & X2 & X3). destruct (C78_anomaly _ X1 X2 X3) as (_ & (_ & X4) & _). lia.
Qed.

(** ** What it means *)
Lemma found_entry tk dist lines_in base earlier l found s cs : RunsPageSpec.found_in tk dist lines_in base earlier l found -> In (s, cs) found ->
  exists seen known positions, In s l /\ (forall e, In e seen -> In e earlier \/ In e l) /\ (forall t, In t known <-> In t (known_lines tk lines_in seen)) /\
    enumerates above_threshold tk (dist (known_lines tk lines_in base)) known (lines_in s) positions /\
    Forall2 (describes tk (dist (known_lines tk lines_in base)) (lines_in s)) cs positions /\
    exact_contexts above_threshold tk (dist (known_lines tk lines_in base)) known (lines_in s) cs positions.
Proof.
  induction 1 as [|earlier s' l known positions cs' found K E1 E2 E3 _ IH]; [intros []|]. intros [X|X].
  - injection X as -> ->. exists earlier, known, positions. csplit; auto. now left.
  - destruct (IH X) as (seen & kn & ps & A & B & C). exists seen, kn, ps. csplit; try apply C; [now right|]. intros e He. apply B in He. rewrite in_app_iff in He. cbn [In] in *. intuition.
Qed.
Definition entry_of (name_of : source -> text) lines_in (baselines targets : list source) (lr : @ReportModel.log_report F) : Prop := exists base seen known positions,
  In (lr_source lr) targets /\ lr_index lr = name_of (lr_source lr) /\ compared_with name_of baselines (lr_source lr) base /\
  (forall e, In e seen -> In e targets /\ name_of e = name_of (lr_source lr)) /\ (forall t, In t known <-> In t (known_lines tok lines_in seen)) /\
  enumerates above_threshold tok (run_dist (known_lines tok lines_in base)) known (lines_in (lr_source lr)) positions /\
  Forall2 (describes tok (run_dist (known_lines tok lines_in base)) (lines_in (lr_source lr))) (lr_anomalies lr) positions /\
  exact_contexts above_threshold tok (run_dist (known_lines tok lines_in base)) known (lines_in (lr_source lr)) (lr_anomalies lr) positions.
Lemma said_entry name_of lines_in baselines targets results lr : by_name name_of targets (map fst results) ->
  Forall (fun x => comes_to tok run_dist name_of lines_in baselines (snd (fst x)) (snd x)) results ->
  In lr (flat_map (said_logs lines_in) results) -> entry_of name_of lines_in baselines targets lr /\
    lr_lines lr = N.of_nat (length (lines_in (lr_source lr))) /\ lr_anomalies lr <> [].
Proof.
  intros [_ B] C I. apply in_flat_map in I. destruct I as ([[n l] o] & Hx & I). rewrite Forall_forall in C. specialize (C _ Hx). cbn [fst snd] in C. unfold said_logs in I. cbn [fst snd] in I. destruct o as [|base found]; [destruct I|].
  apply in_map_iff in I. destruct I as ([s cs] & <- & I). apply filter_In in I. destruct I as [I1 I2]. cbn [lr_source lr_index lr_anomalies lr_lines fst snd].
  assert (G : In (n, l) (map fst results)) by (apply in_map_iff; eexists; split; [|exact Hx]; reflexivity). apply B in G. destruct G as [_ G].
  assert (Sel : forall e, In e l -> In e targets /\ name_of e = n) by (intros e He; now apply (ReportMore.selected_in _ _ _ e G)).
  inversion C as [|? ? C1 C2]; subst. destruct (found_entry _ _ _ _ _ _ _ _ _ C2 I1) as (seen & kn & ps & A1 & A2 & A3 & A4 & A5 & A6). csplit; [|reflexivity|destruct cs; [discriminate|discriminate]].
  destruct (Sel s A1) as [S1 S2]. exists base, seen, kn, ps. cbn [lr_source lr_index lr_anomalies]. csplit; auto.
  intros e He. destruct (A2 e He) as [[]|X]. destruct (Sel e X) as [X1 X2]. split; [exact X1|congruence].
Qed.
Lemma base_in name_of baselines x base b : compared_with name_of baselines x base -> In b base -> In b baselines.
Proof. intros [l S _|n _ _ _] I; [now apply (ReportMore.selected_in _ _ _ b S) in I|exact I]. Qed.
Lemma said_base (name_of : source -> text) lines_in baselines targets results n base b : by_name name_of targets (map fst results) ->
  Forall (fun x => comes_to tok run_dist name_of lines_in baselines (snd (fst x)) (snd x)) results ->
  In (n, base) (flat_map said_indexes results) -> In b base -> In b baselines.
Proof.
  intros [_ B] C I Ib. apply in_flat_map in I. destruct I as ([[n' l] o] & Hx & I). rewrite Forall_forall in C. specialize (C _ Hx). cbn [fst snd] in C. unfold said_indexes in I. cbn [fst snd] in I. destruct o as [|base' found]; [destruct I|].
  destruct (existsb some_found found); [|destruct I]. destruct I as [I|[]]. injection I as -> ->.
  assert (G : In (n, l) (map fst results)) by (apply in_map_iff; eexists; split; [|exact Hx]; reflexivity). apply B in G. destruct G as [Ne _]. destruct l as [|s l]; [congruence|].
  inversion C as [|? ? C1 _]; subst. eapply base_in; [apply (C1 s); now left|exact Ib].
Qed.

(** For logs of plain text and a library that escapes what it writes: the page has a section for each log
    with anomalies, with its lines and their numbers, and no other sections and lines. *)
Theorem C94_plain : forall cmd ls targets name_of json_of bytes_of file s out s', compares cmd ls targets ->
  (forall x, In x (concat ls ++ targets) -> is_log open x (name_of x) (json_of x) (bytes_of x)) ->
  (forall x y, In x (concat ls) -> In y (concat ls) -> name_of x = name_of y -> json_of x = json_of y) ->
  (forall x, In x targets -> json_of x = false /\ ~ In 92 (bytes_of x) /\ N.of_nat (length (bytes_of x)) < 2 ^ 62) ->
  (forall t, harmless (write t)) -> clean_fixed (fun _ => True) fixed_parts ->
  (forall x, In x (concat ls ++ targets) -> quotable (utf8_encode (full_name x)) /\ quotable (utf8_encode (name_of x))) ->
  main (Some file) None cmd s out Success s' ->
  exists results page,
    by_name name_of targets (map fst results) /\
    Forall (fun x => comes_to tok run_dist name_of (log_lines json_of bytes_of) (concat ls) (snd (fst x)) (snd x)) results /\
    s' file = Some page /\
    elements (lit "a") page = page_links write ++ flat_map (said_links write) results /\
    Forall2 (log_section write percent) (flat_map (said_logs (log_lines json_of bytes_of)) results) (view_of page) /\
    Forall2 (line_element write percent colour) (flat_map (fun lr => page_rows (lr_anomalies lr)) (flat_map (said_logs (log_lines json_of bytes_of)) results)) (elements (lit "pre") page).
Proof.
  intros cmd ls targets name_of json_of bytes_of file s out s' Hc0 Hl Hj Hp W Wf Q H.
  destruct (C94_page _ _ _ _ _ _ _ _ _ _ Hc0 Hl Hj H) as (results & r & sm & page & E1 & E2 & E3 & _ & E4 & E5 & _ & _ & _ & _ & _ & E6).
  assert (En : forall lr, In lr (log_reports (report_of r)) -> entry_of name_of (log_lines json_of bytes_of) (concat ls) targets lr) by (intros lr Hr; rewrite E4 in Hr; eapply said_entry; eassumption).
  destruct E6 as (_ & _ & E6 & E7).
  { right. csplit; auto. split; apply Forall_forall.
    - intros lr Hr. destruct (En lr Hr) as (base & seen & kn & ps & A1 & A2 & _). destruct (Q (lr_source lr)) as [Q1 Q2]; [apply in_or_app; now right|]. unfold clean_log. rewrite A2. csplit; auto.
      apply Forall_forall. intros c _. unfold clean_context. csplit; auto; apply Forall_forall; auto.
    - intros [n base] Hi. apply Forall_forall. intros b Hb. cbn [snd] in Hb. assert (Ib : In b (concat ls)) by (eapply said_base; [exact E1|exact E2| |exact Hb]; eapply Permutation_in; [exact E5|exact Hi]).
      destruct (Q b) as [Q1 _]; [apply in_or_app; now left|]. split; [now destruct b|exact I]. }
  destruct E7 as [E7 E8].
  { intros lr Hr. destruct (En lr Hr) as (base & seen & kn & ps & A1 & _ & _ & _ & _ & _ & A6 & A7). destruct (Hp _ A1) as (P1 & P2 & P3). rewrite P1 in A6, A7. eapply plain_countable; eauto. }
  rewrite E4 in E7, E8. exists results, page. csplit; auto.
Qed.
(** What is on the page is a line of a log of the target, and no line of the logs that it is compared with
    has its tokenized form. *)
Theorem C94_known : forall cmd ls targets name_of json_of bytes_of file s out s', compares cmd ls targets ->
  (forall x, In x (concat ls ++ targets) -> is_log open x (name_of x) (json_of x) (bytes_of x)) ->
  (forall x y, In x (concat ls) -> In y (concat ls) -> name_of x = name_of y -> json_of x = json_of y) ->
  main (Some file) None cmd s out Success s' ->
  exists (r : @StoreModel.report Date) page, s' file = Some page /\ render_saved up has_year write checks fixed_parts r = Val page /\
  forall lr c, In lr (log_reports (report_of r)) -> In c (lr_anomalies lr) ->
    In (lr_source lr) targets /\ lr_index lr = name_of (lr_source lr) /\ In (aline c, apos c) (lines_of_log (json_of (lr_source lr)) (bytes_of (lr_source lr))) /\
    exists base, compared_with name_of (concat ls) (lr_source lr) base /\
    forall b y, In b base -> In y (lines_of_log (json_of b) (bytes_of b)) -> tok (fst y) <> tok (aline c).
Proof.
  intros cmd ls targets name_of json_of bytes_of file s out s' Hc0 Hl Hj H.
  destruct (C94_page _ _ _ _ _ _ _ _ _ _ Hc0 Hl Hj H) as (results & r & sm & page & E1 & E2 & E3 & Er & E4 & _). exists r, page. csplit; auto. intros lr c Hr Hc. rewrite E4 in Hr.
  destruct (said_entry _ _ _ _ _ _ E1 E2 Hr) as [(base & seen & kn & ps & A1 & A2 & A3 & A4 & A5 & A6 & A7 & A8) _]. destruct (forall2_in_l _ _ _ _ A7 Hc) as (i & Ii & D1 & D2).
  csplit; auto; [eapply nth_error_In; exact D1|]. exists base. split; [exact A3|].
  intros b y Hb Hy Et. apply (proj2 A6) in Ii. destruct Ii as [_ (b' & nr & B1 & B2)]. rewrite D1 in B1. injection B1 as <- <-. unfold P_Runs.run_dist in B2. rewrite real_known in B2; [discriminate|].
  cbn [concat]. rewrite app_nil_r, <- Et. apply in_flat_map. exists b. split; [exact Hb|]. now apply (in_map (fun x => tok (fst x))).
Qed.
(** If each log of the target has a log of its name in a baseline with the tokenized forms of all its
    lines, the page has no log and no line. *)
Theorem C94_nothing : forall cmd ls targets name_of json_of bytes_of file s out s', compares cmd ls targets ->
  (forall x, In x (concat ls ++ targets) -> is_log open x (name_of x) (json_of x) (bytes_of x)) ->
  (forall x y, In x (concat ls) -> In y (concat ls) -> name_of x = name_of y -> json_of x = json_of y) ->
  (forall x, In x targets -> exists b, In b (concat ls) /\ name_of b = name_of x /\ forall y, In y (lines_of_log (json_of x) (bytes_of x)) -> exists z, In z (lines_of_log (json_of b) (bytes_of b)) /\ tok (fst z) = tok (fst y)) ->
  (forall t, harmless (write t)) -> clean_fixed (fun _ => True) fixed_parts ->
  main (Some file) None cmd s out Success s' ->
  exists (r : @StoreModel.report Date) page, s' file = Some page /\ render_saved up has_year write checks fixed_parts r = Val page /\
    log_reports (report_of r) = [] /\ index_reports (report_of r) = [] /\ index_errors (report_of r) = [] /\ read_errors (report_of r) = [] /\
    view_of page = [] /\ elements (lit "pre") page = [] /\ elements (lit "a") page = page_links write.
Proof.
  intros cmd ls targets name_of json_of bytes_of file s out s' Hc0 Hl Hj Hk W Wf H.
  destruct (C94_page _ _ _ _ _ _ _ _ _ _ Hc0 Hl Hj H) as (results & r & sm & page & E1 & E2 & E3 & Er & E4 & E5 & E6 & E7 & _ & _ & _ & E8).
  assert (Z : forall x, In x results -> exists base found, snd x = Compared base found /\ filter some_found found = [] /\ existsb some_found found = false).
  { intros [[n l] o] Hx. rewrite Forall_forall in E2. pose proof (E2 _ Hx) as C. cbn [fst snd] in *. destruct E1 as [_ B].
    assert (G : In (n, l) (map fst results)) by (apply in_map_iff; eexists; split; [|exact Hx]; reflexivity). apply B in G. destruct G as [Ne G].
    assert (Sel : forall e, In e l -> In e targets /\ name_of e = n) by (intros e He; now apply (ReportMore.selected_in _ _ _ e G)).
    destruct C as [N|base found C1 C2].
    - exfalso. destruct l as [|x l]; [congruence|]. destruct (N x (or_introl eq_refl)) as [N1 _]. destruct (Hk x) as (b & B1 & B2 & _); [now apply Sel; left|]. now apply (N1 b).
    - exists base, found. assert (P : forall y, In y found -> some_found y = false).
      { intros [x cs] Hy. destruct (found_entry _ _ _ _ _ _ _ _ _ C2 Hy) as (seen & kn & ps & A1 & _ & _ & A4 & A5 & _). destruct cs as [|c cs]; [reflexivity|exfalso].
        destruct (forall2_in_l _ _ _ _ A5 (or_introl eq_refl)) as (i & Ii & D1 & D2). destruct (Sel x A1) as [X1 X2]. destruct (Hk x X1) as (b & B1 & B2 & B3). destruct (B3 _ (nth_error_In _ _ D1)) as (z & Z1 & Z2).
        apply (proj2 A4) in Ii. destruct Ii as [_ (b' & nr & N1 & N2)]. rewrite D1 in N1. injection N1 as <- <-. unfold P_Runs.run_dist in N2. rewrite real_known in N2; [discriminate|].
        cbn [concat]. rewrite app_nil_r. cbn [fst] in Z2. rewrite <- Z2. apply in_flat_map. exists b. split; [|now apply (in_map (fun x => tok (fst x)))].
        destruct (C1 x A1) as [l' S _|k _ A N]; [now apply (ReportMore.selected_in _ _ _ b S)|exact B1]. }
      split; [reflexivity|]. clear - P. induction found as [|y found IH]; [split; reflexivity|]. cbn [filter existsb]. rewrite (P y (or_introl eq_refl)). apply IH. intros z Hz. apply P. now right. }
  assert (Zf : forall (A : Type) (f : (text * list source) * outcome -> list A), (forall x, In x results -> f x = []) -> flat_map f results = []).
  { intros A f Hf. clear - Hf. induction results as [|x l IH]; [reflexivity|]. cbn [flat_map]. rewrite (Hf x (or_introl eq_refl)), IH; [reflexivity|]. intros y Hy. apply Hf. now right. }
  rewrite Zf in E4 by (intros x Hx; destruct (Z x Hx) as (base & found & X1 & X2 & X3); unfold said_logs; now rewrite X1, X2).
  rewrite Zf in E5 by (intros x Hx; destruct (Z x Hx) as (base & found & X1 & X2 & X3); unfold said_indexes; now rewrite X1, X3).
  rewrite Zf in E6 by (intros x Hx; destruct (Z x Hx) as (base & found & X1 & X2 & X3); unfold said_errors; now rewrite X1).
  apply Permutation_sym, Permutation_nil in E5.
  destruct E8 as (_ & _ & E8 & E9). { right. csplit; auto. split; rewrite ?E4, ?E5; constructor. }
  destruct E9 as [E9 E10]. { rewrite E4. intros lr []. }
  rewrite E4 in E9, E10. cbn [flat_map] in E10. inversion E9. inversion E10. rewrite Zf, app_nil_r in E8 by (intros x Hx; destruct (Z x Hx) as (base & found & X1 & X2 & X3); unfold said_links; now rewrite X1, X2).
  exists r, page. csplit; auto.
Qed.
(** A line of a log that has no word of the logs that it is compared with, not even up to collisions of
    hashes, is on the page, or a line of the same tokenized form of a log of that name. *)
Lemma found_new lines_in base earlier l found s y : RunsPageSpec.found_in tok run_dist lines_in base earlier l found -> In s l -> In y (lines_in s) ->
  above_threshold (run_dist (known_lines tok lines_in base) (tok (fst y))) = true ->
  In (tok (fst y)) (known_lines tok lines_in earlier) \/ exists s' cs c, In (s', cs) found /\ In c cs /\ tok (aline c) = tok (fst y).
Proof.
  intros F Hs Hy Ha. revert Hs. induction F as [|earlier s' l known positions cs found K E1 E2 E3 _ IH]; [intros []|]. intros Hs.
  assert (G : In (tok (fst y)) (known_lines tok lines_in (earlier ++ [s'])) -> In (tok (fst y)) (known_lines tok lines_in earlier) \/ exists s'0 cs0 c, In (s'0, cs0) ((s', cs) :: found) /\ In c cs0 /\ tok (aline c) = tok (fst y)).
  { unfold known_lines. rewrite flat_map_app, in_app_iff. cbn [flat_map]. rewrite app_nil_r. intros [X|X]; [now left|]. destruct (in_dec (list_eq_dec N.eq_dec) (tok (fst y)) (known_lines tok lines_in earlier)) as [Y|Y]; [now left|right].
    rewrite in_map_iff in X. destruct X as (z & Z1 & Z2).
    assert (Hf : exists i x', nth_error (lines_in s') i = Some x' /\ tok (fst x') = tok (fst y) /\ forall j w, (j < i)%nat -> nth_error (lines_in s') j = Some w -> tok (fst w) <> tok (fst y)).
    { clear - Z1 Z2. induction (lines_in s') as [|w lines IH]; [destruct Z2|]. destruct (list_eq_dec N.eq_dec (tok (fst w)) (tok (fst y))) as [E|E].
      - exists 0%nat, w. csplit; [reflexivity|exact E|]. intros j v Hj. lia.
      - destruct Z2 as [->|Z2]; [congruence|]. destruct (IH Z2) as (i & x' & I1 & I2 & I3). exists (S i), x'. csplit; auto. intros [|j] v Hj Hv; [injection Hv as <-; exact E|]. apply (I3 j); [lia|exact Hv]. }
    destruct Hf as (i & [x' nx] & I1 & I2 & I3). cbn [fst] in I2.
    assert (Ii : In i positions).
    { apply (proj2 E1). split.
      - exists x', nx. csplit; auto; [rewrite I2, K; exact Y|]. intros j b' nr' Hj' Hb'. rewrite I2. exact (I3 j (b', nr') Hj' Hb').
      - exists x', nx. split; [exact I1|]. now rewrite I2. }
    destruct (forall2_in_r _ _ _ _ E2 Ii) as (c & Ic & D1 & _). rewrite I1 in D1. injection D1 as Ex _. exists s', cs, c. csplit; [now left|exact Ic|congruence]. }
  destruct Hs as [->|Hs].
  - apply G. unfold known_lines. rewrite flat_map_app. apply in_or_app. right. cbn [flat_map]. rewrite app_nil_r. now apply (in_map (fun x => tok (fst x))).
  - destruct (IH Hs) as [X|(s2 & cs2 & c & X1 & X2 & X3)]; [now apply G|right]. exists s2, cs2, c. csplit; auto. now right.
Qed.
Theorem C94_new : forall cmd ls targets name_of json_of bytes_of file s out s' x base y, compares cmd ls targets ->
  (forall x, In x (concat ls ++ targets) -> is_log open x (name_of x) (json_of x) (bytes_of x)) ->
  (forall x y, In x (concat ls) -> In y (concat ls) -> name_of x = name_of y -> json_of x = json_of y) ->
  main (Some file) None cmd s out Success s' ->
  In x targets -> compared_with name_of (concat ls) x base -> In y (lines_of_log (json_of x) (bytes_of x)) ->
  (forall b z, In b base -> In z (lines_of_log (json_of b) (bytes_of b)) -> ~ share_bucket hash (tok (fst z)) (tok (fst y))) ->
  exists (r : @StoreModel.report Date) page lr c, s' file = Some page /\ render_saved up has_year write checks fixed_parts r = Val page /\
    In lr (log_reports (report_of r)) /\ lr_index lr = name_of x /\ In c (lr_anomalies lr) /\ tok (aline c) = tok (fst y).
Proof.
  intros cmd ls targets name_of json_of bytes_of file s out s' x base y Hc0 Hl Hj H Hx Hc Iy Hn.
  destruct (C94_page _ _ _ _ _ _ _ _ _ _ Hc0 Hl Hj H) as (results & r & sm & page & [_ B] & E2 & E3 & Er & E4 & _).
  destruct (ReportMore.selected_exists (fun s => name_of s = name_of x) (fun s => list_eq_dec N.eq_dec _ _) targets) as [l Sl].
  assert (Il : In x l) by (apply (ReportMore.selected_in _ _ _ _ Sl); auto).
  assert (G : In (name_of x, l) (map fst results)) by (apply B; split; [intros ->; destruct Il|exact Sl]). apply in_map_iff in G. destruct G as ([g o] & Eg & Hr). cbn [fst] in Eg. subst g.
  rewrite Forall_forall in E2. pose proof (E2 _ Hr) as C. cbn [fst snd] in C. destruct C as [N|base' found C1 C2].
  { exfalso. destruct (N x Il) as [N1 N2]. destruct Hc as [l' S E|n E A Nn]; [|apply N2; eauto]. destruct l' as [|b l']; [congruence|]. destruct (proj1 (ReportMore.selected_in _ _ _ b S) (or_introl eq_refl)) as [I1 I2]. now apply (N1 b). }
  rewrite (C93_one_group _ _ _ _ _ (C1 x Il) Hc) in *.
  assert (Ha : above_threshold (run_dist (known_lines tok (log_lines json_of bytes_of) base) (tok (fst y))) = true).
  { match goal with |- context [P_Runs.run_dist _ _ ?k] => destruct (C22_nothing_shared hash fused [k] (tok (fst y))) as [E K] end.
    - cbn [concat]. rewrite app_nil_r. intros w Iw. apply in_flat_map in Iw. destruct Iw as (b & Hb & Iw). apply in_map_iff in Iw. destruct Iw as (z & <- & Iz). now apply (Hn b).
    - unfold hashing_search in E. rewrite (search_pointwise hash fused _ [_]) in E. cbn [map] in E. injection E as E. unfold P_Runs.run_dist, real_dist. rewrite E. exact K. }
  destruct (found_new _ _ _ _ _ _ _ C2 Il Iy Ha) as [[]|(s1 & cs & c & F1 & F2 & F3)].
  exists r, page. eexists _, c. csplit; [exact E3|exact Er| | | |exact F3].
  - rewrite E4. apply in_flat_map. exists ((name_of x, l), Compared base found). split; [exact Hr|]. unfold said_logs. cbn [snd fst]. apply in_map_iff. exists (s1, cs). split; [reflexivity|]. apply filter_In. split; [exact F1|]. unfold some_found. cbn [snd]. now destruct cs.
  - reflexivity.
  - exact F2.
Qed.
End Runs.

(** ** A case that meets the hypotheses *)
Definition run_report : @StoreModel.report bytes := StoreModel.mkReport (1680000000%Z, 5) (3, 250000000) new_content [CDirectory (Local 0 (lit "old"))]
  [StoreModel.mkLogReport (0, 1000000) 3 60 [StoreModel.mkContext [lit "service started in 7 seconds"] (StoreModel.mkAnomaly 1065353216 3 (lit "disk failure detected")) [lit "all is well"]] new_service (lit "service.log")]
  [(lit "service.log", StoreModel.mkIndexReport (1, 0) [old_service])] [[new_extra]] [] 3 1.
Definition new_groups := [(lit "extra.txt", [new_extra]); (lit "service.log", [new_service])].
Lemma run_reported : report_all above_threshold (real_tok ascii_word) (loaded_search byte_hash false) run_open error_e (loaded_indexes run_model) new_groups report_new = Val (report_of run_report).
Proof.
  rewrite (report_all_same above_threshold (real_tok ascii_word) _ (real_search byte_hash false) run_open error_e (loaded_indexes run_model) run_trained).
  - vm_compute. reflexivity.
  - apply (stored_answers byte_hash false diff_times).
    + rewrite run_is_trained. repeat constructor; cbn [In map fst]; intuition discriminate.
    + reflexivity.
    + destruct run_rust as (_ & _ & _ & _ & R). eapply Forall_impl; [|exact R]. now intros e [].
Qed.
(** The runs of C93_example_runs: the page has the log with an anomaly; the other log has another name. *)
Example C94_example : exists out s' page, run_main (Some (lit "r.html")) None (CmdDiff [lit "old"] (lit "new")) no_disk out Success s' /\
  s' (lit "r.html") = Some page /\
  view_of page = [(lit "/service.log", [lit "      2 | service started in 7 seconds"; lit "99    3 | disk failure detected"; lit "      4 | all is well"])].
Proof.
  destruct (render_saved P_Page.ex_up P_Page.ex_years P_Html.verbatim true P_Html.ex_fixed run_report) as [page| |] eqn:Ep; [|exfalso; vm_compute in Ep; discriminate|exfalso; vm_compute in Ep; discriminate].
  eexists _, _, page. split; [|split].
  - apply Main with (o := Success). cbn [run CliModel.process map]. constructor. change (from_input a_directory toy_url (fun _ => true) (fun _ => None) (input_from_string (lit "new"))) with (Val new_content). cbn [try get_contents].
    constructor. change (from_input a_directory toy_url (fun _ => true) (fun _ => None) (input_from_string (lit "old"))) with (Val (CDirectory (Local 0 (lit "old")) : content (@StoreModel.build bytes))). cbn [try].
    econstructor.
    + eapply Trained with (groups' := run_groups) (m := run_trained) (times := diff_times); [vm_compute; reflexivity|reflexivity|vm_compute; reflexivity|reflexivity|exact run_rust].
    + cbn [try keep_model inspect]. econstructor.
      * eapply Reported with (r := run_report) (groups' := new_groups).
        -- vm_compute. reflexivity.
        -- apply perm_swap.
        -- exact run_reported.
        -- unfold made_of. csplit; reflexivity.
      * cbn [try]. constructor. rewrite Ep. cbn [try]. apply DoesCreate. apply DoesWrite with (ok := true) (b := page); [now constructor|]. constructor.
  - apply update_same.
  - vm_compute in Ep. injection Ep as <-. vm_compute. reflexivity.
Qed.
Example C94_example_names : by_name run_name [new_service; new_extra] new_groups.
Proof.
  split; [repeat constructor; cbn; intuition discriminate|]. intros n l. split.
  - intros [E|[E|[]]]; injection E as <- <-; (split; [discriminate|]).
    + apply SelSkip; [vm_compute; discriminate|]. apply SelKeep; [vm_compute; reflexivity|constructor].
    + apply SelKeep; [vm_compute; reflexivity|]. apply SelSkip; [vm_compute; discriminate|constructor].
  - intros [N S]. inversion S as [|? ? o E S1|? ? o E S1]; subst; inversion S1 as [|? ? o' E' S2|? ? o' E' S2]; subst; inversion S2; subst; try congruence.
    + exfalso. vm_compute in E'. discriminate.
    + right. now left.
    + now left.
Qed.

Print Assumptions C94_page.
Print Assumptions C94_plain.
Print Assumptions C94_known.
Print Assumptions C94_nothing.
Print Assumptions C94_new.
