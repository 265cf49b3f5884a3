(** Analysing a path or a page, with the baselines that are found for it: C95. *)
From Coq Require Import String List NArith ZArith PeanoNat Bool Lia Permutation.
From Verif Require Import Common CommonFacts IterModel IterSpec IterMain P_Iter ProcModel ProcSpec ProcStopSpec ProcExactSpec P_Proc P_ProcExact TokSpec TokRe P_Tok ProcRefute FilesModel FilesSpec FilesSources CliModel IndexModel IndexSpec P_Index
  MatModel ReportModel ReportSpec ReportProofs ReportMore P_Report P_Compare P_Noise CacheSpec StoreModel StoreSpec StoreProofs P_Store MatSpec MatProofs P_Mat HtmlModel RenderModel OutModel P_Out SavedModel P_Saved MainModel MainSpec P_Main SummarySpec P_Summary DiffSpec P_Diff RunsSpec P_Runs.
From Verif Require P_Cache P_Html P_Page.
Import ListNotations.
Open Scope string_scope.
Open Scope list_scope.
Open Scope N_scope.
Ltac csplit := repeat match goal with |- _ /\ _ => split end.

Section Path.
Variables (hash : bytes -> N) (fused checked : bool) (word_char : N -> bool).
Variable enc_write : list bytes -> bytes -> bytes.
Variable enc_finish : list bytes -> bytes.
Variable gunzip : bytes -> bytes * bool.
Context {Date : Type}.
Variable show_date : Date -> bytes.
Variable parse_date : bytes -> option Date.
Variable url_text : bytes -> option bytes.
Variables (up : N -> bool) (has_year : Z -> bool) (write : bytes -> bytes) (checks : bool) (fixed_parts : fixed).
Notation build := (@StoreModel.build Date).
Variable kind_of : text -> path_kind.
Variable parse_url : text -> option text.
Variable has_authority : text -> bool.
Variable from_zuul_url : text -> option (res (content build)).
Variable zuul_baselines : build -> res (list (content build)).
Variable zuul_says : build -> list bytes.
Variable tree : bytes -> FilesModel.node.
Variable crawl : text -> res (list text).
Variable open : source -> res (bool -> list item).
Variable err_text : option N -> text.
Variable tty : bool.
Variable show_path : bytes -> bytes.
Variable cache : bool.
Notation tok := (real_tok word_char).
Notation get_content := (from_input kind_of parse_url has_authority from_zuul_url).
Notation discover := (discover_baselines kind_of zuul_baselines).
Notation discovery := (discovery_of zuul_says).
Notation does := (does hash fused checked tok enc_write enc_finish gunzip show_date parse_date url_text up has_year write checks fixed_parts get_content discover discovery tree crawl open err_text tty show_path).
Notation main := (main hash fused checked tok enc_write enc_finish gunzip show_date parse_date url_text up has_year write checks fixed_parts get_content discover discovery tree crawl open err_text tty show_path cache).
Notation is_build := (fun u => match from_zuul_url u with Some _ => true | None => false end).
Notation build_logs := (fun u address => exists b, from_zuul_url u = Some (Val (CZuul b)) /\ StoreModel.b_log_url b = address).
Notation baseline_logs := (fun u address => exists b b', from_zuul_url u = Some (Val (CZuul b)) /\ zuul_baselines b = Val [CZuul b'] /\ StoreModel.b_log_url b' = address).
Notation compares := (RunsSpec.compares kind_of parse_url has_authority is_build build_logs baseline_logs tree crawl).

(** ** Finding baselines is giving them *)
Lemma contents_do : forall is cs k s out o s', Forall2 (fun i c => get_content i = Val c) is cs -> does (get_contents is k) s out o s' <-> does (k cs) s out o s'.
Proof.
  induction is as [|i is IH]; intros cs k s out o s' F; inversion F as [|? c ? cs' E F']; subst; cbn [get_contents]; [tauto|]. rewrite <- (IH cs' (fun cs => k (c :: cs)) s out o s' F'). split; intros H.
  - inversion H as [|? ? ? ? ? ? H'| | | | | | | | | |]; subst. now rewrite E in H'.
  - constructor. now rewrite E.
Qed.
(** Analysing with the baselines that are found is comparing with those that are given, if the same
    contents are found and given. *)
Lemma process_found rp mp i c cs is s out o s' : get_content i = Val c -> discover c = Val cs -> Forall2 (fun i c => get_content i = Val c) is cs -> (forall p, mp = Some p -> s p = None) ->
  does (process (set_extension (lit "json")) cache rp mp None i) s out o s' <->
  exists out', out = map (Log Info) (discovery c) ++ out' /\ does (process (set_extension (lit "json")) cache rp mp (Some is) i) s out' o s'.
Proof.
  intros Ec Ed F Hm. unfold CliModel.process. set (train := fun bs : list (content build) => @Train _ (@StoreModel.model csmat Date) (@StoreModel.report Date) bs (fun m => try m (fun m => keep_model mp m (inspect (set_extension (lit "json")) cache rp c m)))).
  assert (G : forall out, does (get_contents is train) s out o s' <-> does (train cs) s out o s') by (intros out0; now apply contents_do).
  split.
  - intros H. inversion H as [|? ? ? ? ? ? H1| | | | | | | | | |]; subst. rewrite Ec in H1. cbn [try] in H1. cbv zeta in H1.
    assert (D : does (Discover c (fun bs => try bs train)) s out o s').
    { destruct mp as [p|]; [|exact H1]. inversion H1 as [| | |? ? ? ? ? ? H2| | | | | | | |]; subst. now rewrite (Hm p eq_refl) in H2. }
    inversion D as [| |? ? ? out' ? ? D1| | | | | | | | |]; subst. rewrite Ed in D1. cbn [try] in D1. exists out'. split; [reflexivity|].
    constructor. rewrite Ec. cbn [try]. cbv zeta. apply G in D1. destruct mp as [p|]; [|exact D1]. constructor. now rewrite (Hm p eq_refl).
  - intros (out' & -> & H). inversion H as [|? ? ? ? ? ? H1| | | | | | | | | |]; subst. rewrite Ec in H1. cbn [try] in H1. cbv zeta in H1.
    assert (D : does (get_contents is train) s out' o s').
    { destruct mp as [p|]; [|exact H1]. inversion H1 as [| | |? ? ? ? ? ? H2| | | | | | | |]; subst. now rewrite (Hm p eq_refl) in H2. }
    apply G in D. constructor. rewrite Ec. cbn [try]. cbv zeta.
    assert (D1 : does (Discover c (fun bs => try bs train)) s (map (Log Info) (discovery c) ++ out') o s') by (constructor; rewrite Ed; exact D).
    destruct mp as [p|]; [|exact D1]. constructor. now rewrite (Hm p eq_refl).
Qed.
Lemma main_found rp mp cmd i c cs ws t s out o s' : analyses cmd None i -> input_from_string t = i -> get_content i = Val c -> discover c = Val cs ->
  Forall2 (fun w c => get_content (input_from_string w) = Val c) ws cs -> (forall p, mp = Some p -> s p = None) ->
  main rp mp cmd s out o s' <-> exists out', out = map (Log Info) (discovery c) ++ out' /\ main rp mp (CmdDiff ws t) s out' o s'.
Proof.
  intros A It Ec Ed Fw Hm. assert (F : Forall2 (fun i c => get_content i = Val c) (map input_from_string ws) cs) by (clear - Fw; induction Fw; cbn [map]; constructor; auto).
  pose proof (fun out => process_found rp mp i c cs _ s out o s' Ec Ed F Hm) as P. split.
  - intros H. inversion H as [out' o' s1 D]; subst. rewrite (run_analyses cache _ _ _ _ _ A) in D. apply P in D. destruct D as (out2 & -> & D).
    eexists. split; [symmetry; apply app_assoc|]. constructor. now rewrite (run_analyses cache _ _ _ _ _ (AnalysesDiff ws t)).
  - intros (out' & -> & H). inversion H as [out2 o' s1 D]; subst. rewrite (run_analyses cache _ _ _ _ _ (AnalysesDiff ws t)) in D. rewrite app_assoc. constructor.
    rewrite (run_analyses cache _ _ _ _ _ A). apply P. eauto.
Qed.

(** ** The theorems *)
Lemma input_path p : ~ prefix (lit "http") p -> input_from_string p = InPath p.
Proof. intros N. unfold input_from_string. destruct (starts_with (lit "http") p) eqn:E; [|reflexivity]. apply prefix_ok in E. contradiction. Qed.
Lemma input_url u : prefix (lit "http") u -> input_from_string u = InUrl u.
Proof. intros P. unfold input_from_string. apply prefix_ok in P. now rewrite P. Qed.
Lemma rotated_path p : ~ prefix (lit "http") p -> ~ prefix (lit "http") (p ++ lit ".0").
Proof.
  intros N [r E]. apply N. destruct p as [|a [|b [|c [|d p]]]]; cbn in E; try discriminate; injection E as -> -> -> ->; now exists p.
Qed.
(** Analysing a file is comparing it with the file with the suffix .0: the same outputs, files and ends
    are possible. *)
Theorem C95_rotated : forall p rp mp s out o s', kind_of p = KFile -> utf8_decode p <> None -> ~ prefix (lit "http") p -> (forall q, mp = Some q -> s q = None) ->
  main rp mp (CmdPath p) s out o s' <-> main rp mp (CmdDiff [p ++ lit ".0"] p) s out o s'.
Proof.
  intros p rp mp s out o s' K U N Hm.
  assert (Ec : get_content (InPath p) = Val (CFile (Local 0 p))) by (cbn [from_input]; unfold from_path; now rewrite K).
  assert (Ed : discover (CFile (Local 0 p)) = match get_content (InPath (p ++ lit ".0")) with Val c => Val [c] | Fail e => Fail e | Panic => Panic end).
  { unfold discover_baselines, discover_from_path, from_input. destruct (utf8_decode p); [|congruence]. now destruct (from_path kind_of (p ++ lit ".0")). }
  destruct (get_content (InPath (p ++ lit ".0"))) as [c|e|] eqn:E0.
  - rewrite (main_found rp mp (CmdPath p) (InPath p) (CFile (Local 0 p)) [c] [p ++ lit ".0"] p s out o s' (AnalysesPath p) (input_path p N) Ec Ed); [| |exact Hm].
    + cbn [discovery_of map app]. split; [now intros (out' & -> & H)|eauto].
    + constructor; [|constructor]. now rewrite (input_path _ (rotated_path p N)).
  - assert (D : forall out, does (run (set_extension (lit "json")) cache rp mp (CmdPath p)) s out o s' <-> does (run (set_extension (lit "json")) cache rp mp (CmdDiff [p ++ lit ".0"] p)) s out o s').
    { intros out0. cbn [run CliModel.process map]. rewrite (input_path p N), (input_path _ (rotated_path p N)).
      assert (B : forall out1, does (Discover (CFile (Local 0 p)) (fun bs => try bs (fun bs => @Train _ (@StoreModel.model csmat Date) (@StoreModel.report Date) bs (fun m => try m (fun m => keep_model mp m (inspect (set_extension (lit "json")) cache rp (CFile (Local 0 p)) m)))))) s out1 o s' <->
        does (get_contents [InPath (p ++ lit ".0")] (fun bs => @Train _ (@StoreModel.model csmat Date) (@StoreModel.report Date) bs (fun m => try m (fun m => keep_model mp m (inspect (set_extension (lit "json")) cache rp (CFile (Local 0 p)) m))))) s out1 o s').
      { intros out1. cbn [get_contents]. split; intros H; [inversion H as [| |? ? ? ? ? ? H'| | | | | | | | |]|inversion H as [|? ? ? ? ? ? H'| | | | | | | | | |]]; subst.
        - rewrite Ed in H'. cbn [try discovery_of map app] in *. constructor. now rewrite E0.
        - rewrite E0 in H'. cbn [try] in H'. change out1 with (map (Log Info) (discovery (CFile (Local 0 p))) ++ out1). constructor. now rewrite Ed. }
      split; intros H; inversion H as [|? ? ? ? ? ? H'| | | | | | | | | |]; subst; rewrite Ec in H'; cbn [try] in H'; cbv zeta in H'; constructor; rewrite Ec; cbn [try]; cbv zeta; (destruct mp as [q|]; [|now apply B]);
        inversion H' as [| | |? ? ? ? ? ? H2| | | | | | | |]; subst; rewrite (Hm q eq_refl) in H2; constructor; rewrite (Hm q eq_refl); now apply B. }
    split; intros H; inversion H as [out' o' s1 D']; subst; constructor; now apply D.
  - exfalso. cbn [from_input] in E0. unfold from_path in E0. destruct (kind_of (p ++ lit ".0")); discriminate.
Qed.
(** Analysing the page of a build is comparing it with the page of the build that is found for it, after
    the messages of the discovery. *)
Theorem C95_build : forall u w u' w' b b' rp mp s out o s', prefix (lit "http") u -> parse_url u = Some u' -> has_authority u' = true -> from_zuul_url u' = Some (Val (CZuul b)) ->
  prefix (lit "http") w -> parse_url w = Some w' -> has_authority w' = true -> from_zuul_url w' = Some (Val (CZuul b')) -> zuul_baselines b = Val [CZuul b'] -> (forall q, mp = Some q -> s q = None) ->
  main rp mp (CmdUrl u) s out o s' <-> exists out', out = map (Log Info) (zuul_says b) ++ out' /\ main rp mp (CmdDiff [w] u) s out' o s'.
Proof.
  intros u w u' w' b b' rp mp s out o s' Hu P A Z Hw P' A' Z' B Hm.
  assert (C : forall x x' y, parse_url x = Some x' -> has_authority x' = true -> from_zuul_url x' = Some (Val y) -> get_content (InUrl x) = Val y) by (intros x x' y E1 E2 E3; cbn [from_input]; rewrite E1; unfold from_url; rewrite E2; cbn [negb]; now rewrite E3).
  apply (main_found rp mp (CmdUrl u) (InUrl u) (CZuul b) [CZuul b'] [w] u s out o s' (AnalysesUrl u) (input_url u Hu)); [eauto| | |exact Hm].
  - unfold discover_baselines. now rewrite B.
  - constructor; [|constructor]. rewrite (input_url w Hw). eauto.
Qed.
(** Without baselines, nothing is written and the program ends with an error. *)
Theorem C95_none : forall cmd rp mp s out o s', without_baselines kind_of parse_url has_authority is_build cmd -> (forall q, mp = Some q -> s q = None) ->
  main rp mp cmd s out o s' -> o = Failure /\ out = (if tty then [Out EndLine] else []) /\ s' = s.
Proof.
  intros cmd rp mp s out o s' W Hm H.
  assert (X : exists i c e, analyses cmd None i /\ get_content i = Val c /\ discover c = Fail e /\ discovery c = []).
  { destruct W as [p K|p U K K0|u u' P A B].
    - exists (InPath p), (CDirectory (Local 0 p)). eexists. csplit; [apply AnalysesPath|cbn [from_input]; unfold from_path; now rewrite K|reflexivity|reflexivity].
    - exists (InPath p), (CFile (Local 0 p)). eexists. csplit; [apply AnalysesPath|cbn [from_input]; unfold from_path; now rewrite K| |reflexivity].
      unfold discover_baselines, discover_from_path, from_path. rewrite K0. destruct (utf8_decode p); [reflexivity|congruence].
    - destruct (from_zuul_url u') eqn:Z; [discriminate|]. exists (InUrl u).
      assert (G : get_content (InUrl u) = Val (if ends_with (lit "/") u' then CDirectory (Remote 0 u') else CFile (Remote 0 u'))) by (cbn [from_input]; rewrite P; unfold from_url; rewrite A; cbn [negb]; rewrite Z; now destruct (ends_with (lit "/") u')).
      destruct (ends_with (lit "/") u'); eexists; eexists; (csplit; [apply AnalysesUrl|exact G|reflexivity|reflexivity]). }
  destruct X as (i & c & e & A & Ec & Ed & Q). inversion H as [out' o' s1 D]; subst. rewrite (run_analyses cache _ _ _ _ _ A) in D. unfold CliModel.process in D.
  inversion D as [|? ? ? ? ? ? D1| | | | | | | | | |]; subst. rewrite Ec in D1. cbn [try] in D1. cbv zeta in D1.
  match type of D1 with context [Discover c ?k] => assert (D2 : does (Discover c k) s out' o s') end.
  { destruct mp as [q|]; [|exact D1]. inversion D1 as [| | |? ? ? ? ? ? D2| | | | | | | |]; subst. now rewrite (Hm q eq_refl) in D2. }
  inversion D2 as [| |? ? ? ? ? ? D3| | | | | | | | |]; subst. rewrite Ed in D3. cbn [try] in D3. inversion D3; subst. rewrite Q. cbn [map app]. csplit; [reflexivity| |reflexivity]. unfold mode, output_mode. now destruct tty.
Qed.
(** A file is compared with the file with the suffix .0, whatever their names. *)
Theorem C95_lines : forall p name_of json_of bytes_of s out o s', kind_of p = KFile -> utf8_decode p <> None -> ~ excluded (Local 0 p) -> kind_of (p ++ lit ".0") = KFile -> ~ excluded (Local 0 (p ++ lit ".0")) ->
  (forall x, In x [Local 0 p; Local 0 (p ++ lit ".0")] -> is_log open x (name_of x) (json_of x) (bytes_of x)) ->
  main None None (CmdPath p) s out o s' ->
  o = Success /\ s' = s /\ (forall l msg, ~ In (Log l msg) out) /\ compared_with name_of [Local 0 (p ++ lit ".0")] (Local 0 p) [Local 0 (p ++ lit ".0")] /\ exists rows text,
    block tok (run_dist hash fused) up name_of (fun x => lines_of_log (json_of x) (bytes_of x)) [Local 0 (p ++ lit ".0")] (Local 0 p) rows text /\
    findings out = rows /\ (tty = false -> written up (printed out) = Some text).
Proof.
  intros p name_of json_of bytes_of s out o s' K U E K0 E0 L H.
  assert (C : compares (CmdPath p) [[Local 0 (p ++ lit ".0")]] [Local 0 p]) by (constructor; auto; now constructor).
  edestruct (C93_diff hash fused checked word_char enc_write enc_finish gunzip show_date parse_date url_text up has_year write checks fixed_parts kind_of parse_url has_authority from_zuul_url zuul_baselines zuul_says tree crawl open err_text tty show_path cache
    _ _ _ name_of json_of bytes_of s out o s' C) as (A1 & A2 & A3 & parts & A4 & A5 & A6); [| |exact H|].
  - intros x Hx. apply L. cbn in *. tauto.
  - intros x y Hx Hy _. cbn in Hx, Hy. destruct Hx as [<-|[]], Hy as [<-|[]]. reflexivity.
  - csplit; auto; [apply A3; discriminate| |].
    + destruct (list_eq_dec N.eq_dec (name_of (Local 0 (p ++ lit ".0"))) (name_of (Local 0 p))) as [Q|Q].
      * apply SameName; [|discriminate]. apply SelKeep; [exact Q|constructor].
      * eapply OnlyName; [discriminate| |exact Q]. intros b [<-|[]]. reflexivity.
    + inversion A4 as [|? [rows text] ? ? B1 B2]; subst. inversion B2; subst. cbn [flat_map concat app fst snd] in *. rewrite app_nil_r in A5. exists rows, text. csplit; auto. intros T. rewrite (A6 T). now rewrite app_nil_r.
Qed.
End Path.

(** ** Cases that meet the hypotheses *)
Definition rot_open (s : source) : res (bool -> list item) :=
  match s with Local _ p => if eqb_list p (lit "service.log.0") then read_file old_log else read_file new_log | Remote _ _ => Fail (lit "no network") end.
Definition rot_main := MainModel.main byte_hash false true (real_tok ascii_word) P_Cache.toy_write P_Cache.toy_finish P_Cache.toy_gunzip (fun d : bytes => d) toy_url toy_url P_Page.ex_up P_Page.ex_years P_Html.verbatim true P_Html.ex_fixed
  diff_kind (discover_baselines a_file (fun _ => Fail (lit "no baseline"))) (discovery_of (fun _ => [])) runs (fun _ => Fail (lit "no network")) rot_open error_e false (fun p => p) false.
Definition rot_source := Local 0 (lit "service.log.0").
Definition rot_target : content (@StoreModel.build bytes) := CFile (Local 0 (lit "service.log")).
Definition rot_trained : ReportModel.model := match index_train (real_tok ascii_word) rot_open [rot_source] with Val ix => [(index_name (lit "service.log.0"), ix)] | _ => [] end.
Definition rot_model : @StoreModel.model csmat bytes := mkModel (1680000000%Z, 5) [CFile rot_source] (stored_indexes byte_hash diff_times rot_trained).
Lemma rot_is_trained : rot_trained = [(lit "service.log", ReportModel.mkIndex [rot_source] [[lit "service started %ID seconds"; lit "well"]] 2 40)].
Proof. vm_compute. reflexivity. Qed.
Lemma rot_rust : rust_model (fun x => MatSpec.fits x /\ (true = true -> well_formed x = true)) (fun d : bytes => d) toy_url toy_url rot_model.
Proof.
  unfold rust_model, rot_model. rewrite rot_is_trained. cbn [m_created m_baselines m_indexes stored_indexes map fst snd]. csplit.
  - settle.
  - cbn. settle.
  - unfold rust_map. csplit; [reflexivity|repeat constructor; cbn; intuition discriminate|]. constructor; [|constructor]. cbn [fst snd]. split; [settle|].
    unfold rust_index, stored_index, diff_times. cbn [i_created i_train i_sources i_index i_lines i_bytes ix_sources ix_batches ix_lines ix_bytes fst snd]. csplit;
      try (apply C82_can_be_saved; [reflexivity|repeat constructor]); cbn; settle.
Qed.
Lemma rot_pieces : live_pieces (real_tok ascii_word) (loaded_search byte_hash false) rot_open error_e (mode false) (loaded_indexes rot_model) rot_target [Val (Local 0 (lit "service.log"))] = Val (map Row diff_rows_shown).
Proof.
  rewrite (pieces_same (real_tok ascii_word) _ (real_search byte_hash false) rot_open error_e (mode false) (loaded_indexes rot_model) rot_trained).
  - vm_compute. reflexivity.
  - apply (stored_answers byte_hash false diff_times).
    + rewrite rot_is_trained. repeat constructor; cbn [In]; intuition discriminate.
    + reflexivity.
    + destruct rot_rust as (_ & _ & _ & _ & R). eapply Forall_impl; [|exact R]. now intros e [].
Qed.
Example C95_example : exists out, rot_main None None (CmdPath (lit "service.log")) no_disk out Success no_disk /\
  written P_Page.ex_up (printed out) = Some (lit "   1 | service started in 7 seconds" ++ [10] ++ lit "99 3 | disk failure detected" ++ [10] ++ lit "   3 | all is well" ++ [10]).
Proof.
  exists (map Out (map Row diff_rows_shown)). split; [|vm_compute; reflexivity].
  replace (map Out (map Row diff_rows_shown)) with ((map (Log Info) (discovery_of (fun _ => []) rot_target) ++ ([] ++ map Out (map Row diff_rows_shown) ++ [])) ++ []) by (cbn [discovery_of rot_target map app]; now rewrite !app_nil_r).
  apply Main with (o := Success). cbn [run CliModel.process]. constructor. change (diff_kind (InPath (lit "service.log"))) with (Val rot_target). cbn [try].
  constructor. change (discover_baselines a_file (fun _ : @StoreModel.build bytes => Fail (lit "no baseline")) rot_target) with (Val [CFile rot_source : content (@StoreModel.build bytes)]). cbn [try].
  econstructor.
  - replace (@nil said) with (train_says (real_tok ascii_word) rot_open error_e false [(lit "service.log", [rot_source])]) by (vm_compute; reflexivity).
    eapply Trained with (m := rot_trained) (times := diff_times); [vm_compute; reflexivity|reflexivity|vm_compute; reflexivity|reflexivity|exact rot_rust].
  - cbn [try keep_model inspect]. apply DoesLive with (r := Val tt); [|constructor]. apply LivePrinted. exact rot_pieces.
Qed.
(** The build of a page, whose logs are compared with those of another one *)
Definition page_build (uid logs : text) : @StoreModel.build bytes := mkBuild (lit "https://zuul/api/") uid (lit "tox") (lit "zuul") (lit "master") (lit "FAILURE") (lit "check") logs (lit "https://review/1") (lit "2023") 1.
Definition page_of (u : text) : option (res (content (@StoreModel.build bytes))) :=
  if eqb_list u (lit "https://zuul/build/2") then Some (Val (CZuul (page_build (lit "2") (lit "https://logs/2/")))) else None.
Definition page_baselines (b : @StoreModel.build bytes) : res (list (content (@StoreModel.build bytes))) := Val [CZuul (page_build (lit "1") (lit "https://logs/1"))].
Definition page_crawl (u : text) : res (list text) :=
  if eqb_list u (lit "https://logs/2/") then Val [lit "https://logs/2/service.log"; lit "https://logs/2/config.yaml"] else Val [lit "https://logs/1/service.log"].
Example C95_example_build : RunsSpec.compares a_file toy_url (fun _ => true) (fun u => match page_of u with Some _ => true | None => false end)
  (fun u address => exists b, page_of u = Some (Val (CZuul b)) /\ StoreModel.b_log_url b = address)
  (fun u address => exists b b', page_of u = Some (Val (CZuul b)) /\ page_baselines b = Val [CZuul b'] /\ StoreModel.b_log_url b' = address) runs page_crawl
  (CmdUrl (lit "https://zuul/build/2")) [[Remote 15 (lit "https://logs/1/service.log")]] [Remote 15 (lit "https://logs/2/service.log")].
Proof.
  eapply ComparesBuild with (u' := lit "https://zuul/build/2") (address := lit "https://logs/2/") (address' := lit "https://logs/1"); try reflexivity.
  - eexists. split; reflexivity.
  - do 2 eexists. csplit; reflexivity.
  - exists (lit "https://logs/2"), (lit "/"). eexists. csplit; [reflexivity|repeat constructor|intros X; apply suffix_ok in X; discriminate|vm_compute; reflexivity|]. split; [|discriminate]. cbn [map].
    apply SelKeep; [apply is_valid_ok; vm_compute; reflexivity|]. apply SelSkip; [|constructor]. intros N. apply N. left. exists (lit ".yaml"). split; [cbn; auto 30|left]. now exists (lit "https://logs/2/config").
  - exists (lit "https://logs/1"), []. eexists. csplit; [reflexivity|constructor|intros X; apply suffix_ok in X; discriminate|vm_compute; reflexivity|]. split; [|discriminate]. cbn [map].
    apply SelKeep; [apply is_valid_ok; vm_compute; reflexivity|constructor].
Qed.
Example C95_example_none : without_baselines a_file toy_url (fun _ => true) (fun _ => false) (CmdUrl (lit "https://logs/2/")) /\
  without_baselines a_directory toy_url (fun _ => true) (fun _ => false) (CmdPath (lit "logs")).
Proof. split; econstructor; reflexivity. Qed.

Print Assumptions C95_rotated.
Print Assumptions C95_build.
Print Assumptions C95_none.
Print Assumptions C95_lines.
