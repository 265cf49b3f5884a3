(** Analysing the page of a build, from the answers of the servers to the output: C96. *)
From Coq Require Import String List NArith ZArith PeanoNat Bool Lia.
From Verif Require Import Common CommonFacts IterModel IterSpec IterMain P_Iter ProcModel ProcSpec ProcStopSpec ProcExactSpec P_Proc P_ProcExact TokSpec TokRe P_Tok ProcRefute FilesModel FilesSpec FilesSources CliModel IndexModel IndexSpec P_Index
  MatModel ReportModel ReportSpec ReportProofs ReportMore P_Report P_Compare P_Noise CacheSpec StoreModel StoreSpec StoreProofs P_Store MatSpec MatProofs P_Mat HtmlModel RenderModel OutModel P_Out SavedModel P_Saved MainModel MainSpec P_Main SummarySpec P_Summary DiffSpec P_Diff RunsSpec P_Runs P_Path.
From Verif Require CrawlModel ZuulModel ZuulSpec ZuulApiModel P_ZuulApi P_Zuul.
From Verif Require Import BuildModel BuildSpec P_Build.
From Verif Require P_Cache P_Html P_Page.
Import ListNotations.
Open Scope string_scope.
Open Scope list_scope.
Open Scope N_scope.
Ltac csplit := repeat match goal with |- _ /\ _ => split end.

Section Url.
Variables (hash : bytes -> N) (fused checked : bool) (word_char : N -> bool).
Variable enc_write : list bytes -> bytes -> bytes.
Variable enc_finish : list bytes -> bytes.
Variable gunzip : bytes -> bytes * bool.
Context {Date : Type}.
Variable show_date : Date -> bytes.
Variable parse_date : bytes -> option Date.
Variable url_text : bytes -> option bytes.
Variables (up : N -> bool) (has_year : Z -> bool) (write : bytes -> bytes) (checks : bool) (fixed_parts : fixed).
Notation build := (@StoreModel.build Date).
Variable kind_of : text -> path_kind.
Variable parse_url : text -> option text.
Variable has_authority : text -> bool.
Variable day_of : Date -> Z.
Variable parse_time : text -> option Date.
Variable parts : text -> CrawlModel.url.
Variable join_url : text -> text -> option text.
Variable get : text -> text -> res ZuulApiModel.json.
Variable head : text -> res bool.
Variable today : Z.
Variable tree : bytes -> FilesModel.node.
Variable crawl : text -> res (list text).
Variable open : source -> res (bool -> list item).
Variable err_text : option N -> text.
Variable tty : bool.
Variable show_path : bytes -> bytes.
Variable cache : bool.
Notation tok := (real_tok word_char).
Notation from_zuul_url := (BuildModel.from_zuul_url day_of parse_time parse_url parts join_url get).
Notation zuul_baselines := (BuildModel.zuul_baselines day_of parse_time parse_url join_url get head today).
Notation zuul_says := (BuildModel.zuul_says day_of parse_time parse_url join_url get head today).
Notation page_build := (BuildSpec.page_build day_of parse_time parse_url parts join_url get).
Notation samples := (BuildSpec.samples parse_url join_url get).
Notation shows := (BuildSpec.shows day_of parse_time parse_url).
Notation candidate := (BuildSpec.candidate head).
Notation best_sample := (BuildSpec.best_sample day_of parse_time parse_url head today).
Notation found_for := (BuildSpec.found_for day_of parse_time parse_url join_url get head today).
Notation get_content := (from_input kind_of parse_url has_authority from_zuul_url).
Notation discover := (discover_baselines kind_of zuul_baselines).
Notation discovery := (discovery_of zuul_says).
Notation does := (does hash fused checked tok enc_write enc_finish gunzip show_date parse_date url_text up has_year write checks fixed_parts get_content discover discovery tree crawl open err_text tty show_path).
Notation main := (main hash fused checked tok enc_write enc_finish gunzip show_date parse_date url_text up has_year write checks fixed_parts get_content discover discovery tree crawl open err_text tty show_path cache).
Notation is_build := (fun u => match from_zuul_url u with Some _ => true | None => false end).
Notation build_logs := (fun u address => exists b, from_zuul_url u = Some (Val (CZuul b)) /\ StoreModel.b_log_url b = address).
Notation baseline_logs := (fun u address => exists b b', from_zuul_url u = Some (Val (CZuul b)) /\ zuul_baselines b = Val [CZuul b'] /\ StoreModel.b_log_url b' = address).
Notation compares := (RunsSpec.compares kind_of parse_url has_authority is_build build_logs baseline_logs tree crawl).

(** The page of a build: the logs of the build that the api describes are compared with those of the best
    sample that it gives. *)
Theorem C96_compares : forall page page' b b' targets l, parse_url page = Some page' -> has_authority page' = true -> page_build page' b -> found_for b b' ->
  remote_logs crawl (StoreModel.b_log_url b) targets -> remote_logs crawl (StoreModel.b_log_url b') l -> compares (CmdUrl page) [l] targets.
Proof.
  intros page page' b b' targets l P A B F T L. apply C96_target in B. eapply ComparesBuild with (address := StoreModel.b_log_url b) (address' := StoreModel.b_log_url b'); eauto.
  exists b, b'. csplit; auto. apply C96_baseline. eauto.
Qed.
Lemma page_content page page' b : parse_url page = Some page' -> has_authority page' = true -> page_build page' b -> get_content (InUrl page) = Val (CZuul b).
Proof. intros P A B. apply C96_target in B. cbn [from_input]. rewrite P. unfold from_url. rewrite A. cbn [negb]. now rewrite B. Qed.
(** What the discovery says comes first. *)
Lemma page_does rp mp page page' b s out o s' : parse_url page = Some page' -> has_authority page' = true -> page_build page' b -> (forall q, mp = Some q -> s q = None) ->
  main rp mp (CmdUrl page) s out o s' -> exists out1 k, out = map (Log Info) (zuul_says b) ++ out1 ++ (match o with Failure => if tty then [Out EndLine] else [] | _ => [] end) /\
    does (try (discover (CZuul b)) k) s out1 o s'.
Proof.
  intros P A B Hm H. inversion H as [out' o' s1 D]; subst. rewrite (run_analyses cache _ _ _ _ _ (AnalysesUrl page)) in D. unfold CliModel.process in D.
  inversion D as [|? ? ? ? ? ? D1| | | | | | | | | |]; subst. rewrite (page_content _ _ _ P A B) in D1. cbn [try] in D1. cbv zeta in D1.
  match type of D1 with context [Discover ?c ?k] => assert (D2 : does (Discover c k) s out' o s') end.
  { destruct mp as [q|]; [|exact D1]. inversion D1 as [| | |? ? ? ? ? ? D2| | | | | | | |]; subst. now rewrite (Hm q eq_refl) in D2. }
  inversion D2 as [| |? ? ? out1 ? ? D3| | | | | | | | |]; subst. exists out1. eexists. split; [|exact D3]. cbn [discovery_of]. rewrite <- app_assoc. repeat f_equal. unfold mode, output_mode. destruct o, tty; reflexivity.
Qed.
(** What is printed for the page of a build: what the discovery says, then what is found in the logs of
    the build, compared with those of the best sample. *)
Theorem C96_url : forall page page' b b' targets l name_of json_of bytes_of s out o s', parse_url page = Some page' -> has_authority page' = true -> page_build page' b -> found_for b b' ->
  remote_logs crawl (StoreModel.b_log_url b) targets -> remote_logs crawl (StoreModel.b_log_url b') l ->
  (forall x, In x (l ++ targets) -> is_log open x (name_of x) (json_of x) (bytes_of x)) ->
  (forall x y, In x l -> In y l -> name_of x = name_of y -> json_of x = json_of y) ->
  main None None (CmdUrl page) s out o s' ->
  o = Success /\ s' = s /\ (exists rest, out = map (Log Info) (zuul_says b) ++ rest) /\ exists blocks,
    Forall2 (fun x p => block tok (run_dist hash fused) up name_of (fun x => lines_of_log (json_of x) (bytes_of x)) l x (fst p) (snd p)) targets blocks /\
    findings out = flat_map fst blocks /\ (tty = false -> written up (printed out) = Some (flat_map snd blocks)).
Proof.
  intros page page' b b' targets l name_of json_of bytes_of s out o s' P A B F T L Hl Hj H. pose proof (C96_compares _ _ _ _ _ _ P A B F T L) as C.
  edestruct (C93_diff hash fused checked word_char enc_write enc_finish gunzip show_date parse_date url_text up has_year write checks fixed_parts kind_of parse_url has_authority from_zuul_url zuul_baselines zuul_says tree crawl open err_text tty show_path cache
    _ _ _ name_of json_of bytes_of s out o s' C) as (A1 & A2 & _ & blocks & A4 & A5 & A6); [| |exact H|].
  - intros x Hx. apply Hl. cbn [concat] in Hx. now rewrite app_nil_r in Hx.
  - cbn [concat]. rewrite app_nil_r. exact Hj.
  - csplit; auto.
    + destruct (page_does None None page page' b s out o s' P A B ltac:(discriminate) H) as (out1 & k & E & _). eauto.
    + cbn [concat] in A4. rewrite app_nil_r in A4. exists blocks. auto.
Qed.
(** Without a candidate among the samples the program ends with an error, says what the discovery says
    and writes no file. *)
Theorem C96_no_baseline : forall page page' b vs rp mp s out o s', parse_url page = Some page' -> has_authority page' = true -> page_build page' b ->
  samples b vs -> (forall v x, In v vs -> shows v x -> ~ candidate b x) -> (forall q, mp = Some q -> s q = None) ->
  main rp mp (CmdUrl page) s out o s' -> o = Failure /\ out = map (Log Info) (zuul_says b) ++ (if tty then [Out EndLine] else []) /\ s' = s.
Proof.
  intros page page' b vs rp mp s out o s' P A B V N Hm H. destruct (page_does _ _ _ _ _ _ _ _ _ P A B Hm H) as (out1 & k & E & D).
  assert (Z : zuul_baselines b = Val []) by (apply C96_none; eauto). unfold discover_baselines in D. rewrite Z in D. cbn [try] in D. inversion D; subst. auto.
Qed.
(** If the best sample has no change the program is stopped there. *)
Theorem C96_page_stopped : forall page page' b vs x rp mp s out o s', (forall u, get (StoreModel.b_api b) u <> Panic) -> parse_url page = Some page' -> has_authority page' = true -> page_build page' b ->
  samples b vs -> best_sample b vs x -> ZuulModel.b_change (a_build x) = None -> (forall q, mp = Some q -> s q = None) ->
  main rp mp (CmdUrl page) s out o s' -> o = Panicked /\ out = map (Log Info) (zuul_says b) /\ s' = s.
Proof.
  intros page page' b vs x rp mp s out o s' NP P A B V X N Hm H. destruct (page_does _ _ _ _ _ _ _ _ _ P A B Hm H) as (out1 & k & E & D).
  assert (Z : zuul_baselines b = Panic) by (apply C96_stopped; eauto). unfold discover_baselines in D. rewrite Z in D. cbn [try] in D. inversion D; subst. cbn [app]. now rewrite app_nil_r.
Qed.
End Url.

(** ** A case that meets the hypotheses *)
(** The server of P_Build.v, with dates that are kept as text, and its logs *)
Definition text_time (s : text) : option bytes := match ex_time s with Some _ => Some s | None => None end.
Definition text_day (s : bytes) : Z := match ex_time s with Some d => d | None => 0%Z end.
Definition text_build (uid logs : text) (change : N) : @StoreModel.build bytes :=
  mkBuild (lit "https://zuul/api/") uid (lit "tox py38") (lit "zuul/zuul") (lit "master") (lit "SUCCESS") (lit "check") logs (lit "https://review/1") (lit "2023-04-02T10:00:00") change.
Definition url_target := text_build ex_uid (lit "https://logs/2/") 7.
Definition url_baseline := text_build (lit "good") (lit "https://logs/1/") 6.
Definition url_open (s : source) : res (bool -> list item) :=
  match s with Remote _ u => if eqb_list u (lit "https://logs/1/service.log") then read_file old_log else read_file new_log | Local _ _ => Fail (lit "no file") end.
Definition url_crawl (u : text) : res (list text) :=
  if eqb_list u (lit "https://logs/2/") then Val [lit "https://logs/2/service.log"; lit "https://logs/2/config.yaml"] else Val [lit "https://logs/1/service.log"].
Definition url_content := from_input a_file toy_url (fun _ => true) (BuildModel.from_zuul_url text_day text_time toy_url ex_parts ex_join ex_get).
Definition url_discover := discover_baselines a_file (BuildModel.zuul_baselines text_day text_time toy_url ex_join ex_get ex_head 19450%Z).
Definition url_says := BuildModel.zuul_says text_day text_time toy_url ex_join ex_get ex_head 19450%Z.
Definition url_main := MainModel.main byte_hash false true (real_tok ascii_word) P_Cache.toy_write P_Cache.toy_finish P_Cache.toy_gunzip (fun d : bytes => d) toy_url toy_url P_Page.ex_up P_Page.ex_years P_Html.verbatim true P_Html.ex_fixed
  url_content url_discover (discovery_of url_says) runs url_crawl url_open error_e false (fun p => p) false.
Definition url_page : text := lit "https://zuul/build/" ++ ex_uid.
Definition url_source := Remote 15 (lit "https://logs/1/service.log").
Definition url_trained : ReportModel.model := match index_train (real_tok ascii_word) url_open [url_source] with Val ix => [(index_name (lit "service.log"), ix)] | _ => [] end.
Definition url_model : @StoreModel.model csmat bytes := mkModel (1680000000%Z, 5) [CZuul url_baseline] (stored_indexes byte_hash diff_times url_trained).
Lemma url_is_trained : url_trained = [(lit "service.log", ReportModel.mkIndex [url_source] [[lit "service started %ID seconds"; lit "well"]] 2 40)].
Proof. vm_compute. reflexivity. Qed.
Lemma url_rust : rust_model (fun x => MatSpec.fits x /\ (true = true -> well_formed x = true)) (fun d : bytes => d) toy_url toy_url url_model.
Proof.
  unfold rust_model, url_model. rewrite url_is_trained. cbn [m_created m_baselines m_indexes stored_indexes map fst snd]. csplit.
  - settle.
  - cbn. settle.
  - unfold rust_map. csplit; [reflexivity|repeat constructor; cbn; intuition discriminate|]. constructor; [|constructor]. cbn [fst snd]. split; [settle|].
    unfold rust_index, stored_index, diff_times. cbn [i_created i_train i_sources i_index i_lines i_bytes ix_sources ix_batches ix_lines ix_bytes fst snd]. csplit;
      try (apply C82_can_be_saved; [reflexivity|repeat constructor]); cbn; settle.
Qed.
Lemma url_pieces : live_pieces (real_tok ascii_word) (loaded_search byte_hash false) url_open error_e (mode false) (loaded_indexes url_model) (CZuul url_target : content (@StoreModel.build bytes)) [Val (Remote 15 (lit "https://logs/2/service.log")); Val (Remote 15 (lit "https://logs/2/config.yaml"))] = Val (map Row diff_rows_shown).
Proof.
  rewrite (pieces_same (real_tok ascii_word) _ (real_search byte_hash false) url_open error_e (mode false) (loaded_indexes url_model) url_trained).
  - vm_compute. reflexivity.
  - apply (stored_answers byte_hash false diff_times).
    + rewrite url_is_trained. repeat constructor; cbn [In]; intuition discriminate.
    + reflexivity.
    + destruct url_rust as (_ & _ & _ & _ & R). eapply Forall_impl; [|exact R]. now intros e [].
Qed.
Example C96_example_url : exists out, url_main None None (CmdUrl url_page) no_disk out Success no_disk /\
  BuildSpec.page_build text_day text_time toy_url ex_parts ex_join ex_get url_page url_target /\
  BuildSpec.found_for text_day text_time toy_url ex_join ex_get ex_head 19450%Z url_target url_baseline /\
  remote_logs url_crawl (StoreModel.b_log_url url_target) [Remote 15 (lit "https://logs/2/service.log")] /\ remote_logs url_crawl (StoreModel.b_log_url url_baseline) [url_source] /\
  written P_Page.ex_up (printed out) = Some (lit "   1 | service started in 7 seconds" ++ [10] ++ lit "99 3 | disk failure detected" ++ [10] ++ lit "   3 | all is well" ++ [10]).
Proof.
  exists (map (Log Info) (url_says url_target) ++ map Out (map Row diff_rows_shown)). csplit.
  - replace (map (Log Info) (url_says url_target) ++ map Out (map Row diff_rows_shown)) with ((map (Log Info) (discovery_of url_says (CZuul url_target)) ++ ([] ++ map Out (map Row diff_rows_shown) ++ [])) ++ []) by (cbn [discovery_of app]; now rewrite !app_nil_r).
    apply Main with (o := Success). cbn [run CliModel.process]. constructor. replace (url_content (InUrl url_page)) with (Val (CZuul url_target : content (@StoreModel.build bytes))) by (vm_compute; reflexivity). cbn [try].
    constructor. replace (url_discover (CZuul url_target)) with (Val [CZuul url_baseline : content (@StoreModel.build bytes)]) by (vm_compute; reflexivity). cbn [try].
    econstructor.
    + replace (@nil said) with (train_says (real_tok ascii_word) url_open error_e false [(lit "service.log", [url_source])]) by (vm_compute; reflexivity).
      eapply Trained with (m := url_trained) (times := diff_times); [vm_compute; reflexivity|reflexivity|vm_compute; reflexivity|reflexivity|exact url_rust].
    + cbn [try keep_model inspect]. apply DoesLive with (r := Val tt); [|constructor]. apply LivePrinted. exact url_pieces.
  - apply C96_target. vm_compute. reflexivity.
  - destruct (proj1 (C96_baseline text_day text_time toy_url ex_join ex_get ex_head 19450%Z url_target (CZuul url_baseline) []) ltac:(vm_compute; reflexivity)) as (_ & b' & [= <-] & F). exact F.
  - exists (lit "https://logs/2"), (lit "/"). eexists. csplit; [reflexivity|repeat constructor|intros X; apply suffix_ok in X; discriminate|vm_compute; reflexivity|]. split; [|discriminate]. cbn [map].
    apply SelKeep; [apply is_valid_ok; vm_compute; reflexivity|]. apply SelSkip; [|constructor]. intros N. apply N. left. exists (lit ".yaml"). split; [cbn; auto 30|left]. now exists (lit "https://logs/2/config").
  - exists (lit "https://logs/1"), (lit "/"). eexists. csplit; [reflexivity|repeat constructor|intros X; apply suffix_ok in X; discriminate|vm_compute; reflexivity|]. split; [|discriminate]. cbn [map].
    apply SelKeep; [apply is_valid_ok; vm_compute; reflexivity|constructor].
  - vm_compute. reflexivity.
Qed.

Print Assumptions C96_compares.
Print Assumptions C96_url.
Print Assumptions C96_no_baseline.
Print Assumptions C96_page_stopped.
