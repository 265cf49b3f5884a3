(** What tokenizing removes from the baselines is in nothing that the program writes: C99. *)
From Coq Require Import String List NArith ZArith Bool Permutation.
From Verif Require Import Common IterModel ProcModel TokSpec FilesModel FilesSpec FilesSources CliModel IndexModel MatModel ReportModel HtmlModel ShownModel RenderModel OutModel SavedModel MainModel MainSpec.
From Verif Require Import P_Proc IterSpec P_Noise P_Index P_Report P_Compare P_Store P_Main P_Diff ProcRefute TokRe P_Tok.
From Verif Require StoreModel StoreSpec MatSpec P_Cache P_Html P_Page.
Import ListNotations.
Open Scope string_scope.
Open Scope list_scope.
Open Scope N_scope.
Ltac csplit := repeat match goal with |- _ /\ _ => split end.

(** ** Two worlds *)
Section Worlds.
Variable tok : bytes -> bytes.
(** Two lines of the same tokenized form and length; or two that are not unicode, or the same error *)
Inductive same_but_hidden : item -> item -> Prop :=
| SameTokens b b' n n' : valid_utf8 b = true -> valid_utf8 b' = true -> tok b = tok b' -> length b = length b' -> same_but_hidden (ILine b n) (ILine b' n')
| NotText b b' n n' : valid_utf8 b = false -> valid_utf8 b' = false -> same_but_hidden (ILine b n) (ILine b' n')
| SameError e : same_but_hidden (IErr e) (IErr e).
Variables open open' : source -> res (bool -> list item).
(** The log [s] differs, line by line, only in what tokenizing removes. *)
Definition differs_hidden (s : source) : Prop :=
  match open s, open' s with
  | Val items, Val items' => forall json, Forall2 same_but_hidden (items json) (items' json)
  | Fail e, Fail e' => e = e'
  | Panic, Panic => True
  | _, _ => False
  end.

Lemma tadd_hidden items items' : Forall2 same_but_hidden items items' -> forall t, tadd tok items t = tadd tok items' t.
Proof.
  induction 1 as [|i i' items items' H _ IH]; intros t; [reflexivity|]. destruct H as [b b' n n' V V' T L|b b' n n' V V'|e]; cbn [tadd]; [rewrite V, V', T, L|rewrite V, V'; reflexivity|reflexivity].
  cbv zeta. destruct (mem_set _ _); [apply IH|]. destruct (_ =? _); apply IH.
Qed.
Lemma first_error_hidden items items' : Forall2 same_but_hidden items items' -> first_error items = first_error items'.
Proof. induction 1 as [|i i' items items' H _ IH]; [reflexivity|]. destruct H as [b b' n n' V V' T L|b b' n n' V V'|e]; cbn [first_error]; try rewrite V, V'; auto. Qed.
Hypothesis hidden : forall s, differs_hidden s.
Lemma train_group_hidden json sources : forall t, train_group tok open json sources t = train_group tok open' json sources t.
Proof.
  induction sources as [|s rest IH]; intros t; [reflexivity|]. cbn [train_group]. pose proof (hidden s) as H. unfold differs_hidden in H.
  destruct (open s), (open' s); try (destruct H; fail); [|now subst|reflexivity]. rewrite (tadd_hidden _ _ (H json)). apply IH.
Qed.
Lemma index_train_hidden sources : index_train tok open sources = index_train tok open' sources.
Proof. unfold index_train. destruct (match sources with [] => _ | _ => _ end); [|reflexivity]. now rewrite train_group_hidden. Qed.
Lemma train_all_hidden groups : train_all tok open groups = train_all tok open' groups.
Proof. induction groups as [|[n l] groups IH]; [reflexivity|]. cbn [train_all]. rewrite index_train_hidden, IH. reflexivity. Qed.
Lemma group_says_hidden err_text json sources : group_says open err_text json sources = group_says open' err_text json sources.
Proof.
  induction sources as [|s rest IH]; [reflexivity|]. cbn [group_says]. pose proof (hidden s) as H. unfold differs_hidden in H.
  destruct (open s), (open' s); try (destruct H; fail); [|reflexivity..]. rewrite (first_error_hidden _ _ (H json)), IH. reflexivity.
Qed.
Lemma train_says_hidden err_text tty groups : train_says tok open err_text tty groups = train_says tok open' err_text tty groups.
Proof. induction groups as [|[n l] groups IH]; [reflexivity|]. cbn [train_says]. rewrite group_says_hidden, index_train_hidden, IH. reflexivity. Qed.
End Worlds.

Section Same.
Variables open open' : source -> res (bool -> list item).
Lemma processor_same s : open s = open' s -> get_processor open s = get_processor open' s.
Proof. unfold get_processor. now intros ->. Qed.
Lemma report_group_same {D B} (above : D -> bool) tok (search_of : B -> list bytes -> list D) err_text ix n sources : (forall s, In s sources -> open s = open' s) ->
  forall known r, report_group above tok search_of open err_text ix n sources known r = report_group above tok search_of open' err_text ix n sources known r.
Proof.
  induction sources as [|s rest IH]; intros H known r; [reflexivity|]. cbn [report_group]. rewrite (processor_same s) by (apply H; now left).
  destruct (get_processor open' s); [|reflexivity..]. destruct (process_all _ _ _ _ _) as [[l stop] p]. destruct (stop_error stop); [|reflexivity..]. apply IH. intros; apply H; now right.
Qed.
Lemma report_all_same {D B} (above : D -> bool) tok (search_of : B -> list bytes -> list D) err_text m groups : (forall g s, In g groups -> In s (snd g) -> open s = open' s) ->
  forall r, report_all above tok search_of open err_text m groups r = report_all above tok search_of open' err_text m groups r.
Proof.
  induction groups as [|[n l] groups IH]; intros H r; [reflexivity|]. cbn [report_all]. assert (H' : forall g s, In g groups -> In s (snd g) -> open s = open' s) by (intros; eapply H; [right|]; eauto).
  destruct (get_index m n); [|now apply IH]. rewrite report_group_same by (intros s Hs; apply (H (n, l)); [now left|exact Hs]). destruct (report_group _ _ _ _ _ _ _ _ _ _); [|reflexivity..]. now apply IH.
Qed.
Lemma live_loop_same {B} tok (search_of : B -> list bytes -> list F) err_text o m sources : (forall s, In s sources -> open s = open' s) ->
  forall shown, live_loop tok search_of open err_text o m sources shown = live_loop tok search_of open' err_text o m sources shown.
Proof.
  induction sources as [|s rest IH]; intros H shown; [reflexivity|]. cbn [live_loop]. assert (H' : forall s, In s rest -> open s = open' s) by (intros; apply H; now right). rewrite (processor_same s) by (apply H; now left).
  destruct (get_relative s); [|reflexivity]. destruct (get_index m _); [|now rewrite IH]. destruct (inspecting s); [|reflexivity]. destruct (get_processor open' s); [|reflexivity..].
  destruct (process_all _ _ _ _ _) as [[l stop] p]. destruct (stop_error stop); [|reflexivity..]. cbv zeta. now rewrite IH.
Qed.
Lemma group_reads_same tty sources : (forall s, In s sources -> open s = open' s) -> group_reads open tty sources = group_reads open' tty sources.
Proof.
  induction sources as [|s rest IH]; intros H; [reflexivity|]. cbn [group_reads]. rewrite (processor_same s) by (apply H; now left). destruct (get_processor open' s); [|reflexivity..]. rewrite IH; [reflexivity|]. intros; apply H; now right.
Qed.
End Same.

Section Main.
Variables (hash : bytes -> N) (fused checked : bool) (tok : bytes -> bytes).
Variable enc_write : list bytes -> bytes -> bytes.
Variable enc_finish : list bytes -> bytes.
Variable gunzip : bytes -> bytes * bool.
Context {Date : Type}.
Variable show_date : Date -> bytes.
Variable parse_date : bytes -> option Date.
Variable parse_url : bytes -> option bytes.
Variables (up : N -> bool) (has_year : Z -> bool) (write : bytes -> bytes) (checks : bool) (fixed_parts : fixed).
Notation build := (@StoreModel.build Date).
Notation model := (@StoreModel.model csmat Date).
Notation report := (@StoreModel.report Date).
Variable get_content : input -> res (content build).
Variable discover : content build -> res (list (content build)).
Variable discovery : content build -> list bytes.
Variable tree : bytes -> FilesModel.node.
Variable crawl : text -> res (list text).
Variable err_text : option N -> text.
Variable tty : bool.
Variable show_path : bytes -> bytes.
Variable cache : bool.
Notation listing := (MainModel.listing tree crawl).
Notation main_with open := (MainModel.main hash fused checked tok enc_write enc_finish gunzip show_date parse_date parse_url up has_year write checks fixed_parts get_content discover discovery tree crawl open err_text tty show_path cache).
Notation does_with open := (MainModel.does hash fused checked tok enc_write enc_finish gunzip show_date parse_date parse_url up has_year write checks fixed_parts get_content discover discovery tree crawl open err_text tty show_path).

(** The logs that the command analyses. *)
Definition analysed (cmd : command) (s : source) : Prop :=
  exists b i c l, analyses cmd b i /\ get_content i = Val c /\ get_sources (listing c) = Val l /\ In s l.

Section Step.
Variables open open' : source -> res (bool -> list item).
Hypothesis hidden : forall s, differs_hidden tok open open' s.
Lemma trains_hidden l said r : trains hash checked tok show_date parse_date parse_url tree crawl open err_text tty l said r -> trains hash checked tok show_date parse_date parse_url tree crawl open' err_text tty l said r.
Proof.
  destruct 1 as [g g' m times now ixs G P T I R|g g' e G P T|g g' G P T|e G|G].
  - rewrite (train_says_hidden tok open open' hidden). rewrite (train_all_hidden tok open open' hidden) in T. eapply Trained; eauto.
  - rewrite (train_says_hidden tok open open' hidden). rewrite (train_all_hidden tok open open' hidden) in T. eapply NotTrained; eauto.
  - rewrite (train_says_hidden tok open open' hidden). rewrite (train_all_hidden tok open open' hidden) in T. eapply TrainPanics; eauto.
  - now apply NotGrouped.
  - now apply GroupPanics.
Qed.
(** The logs of the content are the same in both worlds. *)
Definition unchanged (c : content build) : Prop := forall l s, get_sources (listing c) = Val l -> In s l -> open s = open' s.
Lemma unchanged_groups c groups groups' : unchanged c -> group_sources [listing c] = Val groups -> Permutation groups' groups -> forall g s, In g groups' -> In s (snd g) -> open s = open' s.
Proof.
  intros U G P [n x] s I Is. apply group_sources_ok in G. destruct G as (ls & F & _ & G). inversion F as [|? l ? rest L R]; subst. inversion R; subst.
  apply (U l s L). apply (Permutation_in _ P) in I. apply G in I. destruct I as (_ & Sel). cbn in Sel. rewrite app_nil_r in Sel. now apply (selected_in _ _ _ Sel).
Qed.
Lemma reports_same c m said r : unchanged c -> reports hash fused tok tree crawl open err_text tty c m said r -> reports (Date := Date) hash fused tok tree crawl open' err_text tty c m said r.
Proof.
  intros U. destruct 1 as [g g' f r G P A M|e G|l g g' G P A|G].
  - pose proof (unchanged_groups c g g' U G P) as S. rewrite (report_all_same open open') in A by exact S.
    replace (report_says open tty m g') with (report_says open' tty m g'); [eapply Reported; eauto|]. unfold report_says. f_equal.
    clear - S. induction g' as [|[n x] g' IH]; [reflexivity|]. cbn [flat_map fst snd]. rewrite IH by (intros; eapply S; [right|]; eauto). f_equal. destruct (get_index _ _); [|reflexivity].
    symmetry. apply group_reads_same. intros s Hs. apply (S (n, x)); [now left|exact Hs].
  - now apply NotReported.
  - pose proof (unchanged_groups c g g' U G P) as S. rewrite (report_all_same open open') in A by exact S. eapply ReportPanics; eauto.
  - now apply ReportGroupPanics.
Qed.
Lemma prints_same c m said r : unchanged c -> prints hash fused tok tree crawl open err_text tty c m said r -> prints (Date := Date) hash fused tok tree crawl open' err_text tty c m said r.
Proof.
  intros U. assert (E : forall ixs, live_pieces tok (loaded_search hash fused) open err_text (mode tty) ixs c (listing c) = live_pieces tok (loaded_search hash fused) open' err_text (mode tty) ixs c (listing c)).
  { intros ixs. unfold live_pieces. destruct (get_sources (listing c)) as [l| |] eqn:L; [|reflexivity..]. rewrite (live_loop_same open open'); [reflexivity|]. intros s Hs. exact (U l s L Hs). }
  destruct 1 as [ps L|e L|l L]; rewrite E in L; [now apply LivePrinted|now apply NotPrinted|now apply PrintPanics].
Qed.

(** A program that analyses only contents whose logs are the same *)
Inductive looks : @prog build model report -> Prop :=
| LooksDone o : looks (Done o)
| LooksContent i k : looks (k (get_content i)) -> looks (GetContent i k)
| LooksDiscover c k : (forall r, looks (k r)) -> looks (Discover c k)
| LooksExists p k : (forall r, looks (k r)) -> looks (Exists p k)
| LooksLoad p k : (forall r, looks (k r)) -> looks (Load p k)
| LooksTrain l k : (forall r, looks (k r)) -> looks (Train l k)
| LooksCreate p f k : (forall r, looks (k r)) -> looks (Create p f k)
| LooksWrite p f k : (forall r, looks (k r)) -> looks (Write p f k)
| LooksLive c m k : unchanged c -> (forall r, looks (k r)) -> looks (Live c m k)
| LooksReport c m k : unchanged c -> (forall r, looks (k r)) -> looks (MakeReport c m k)
| LooksRender p r k : (forall r, looks (k r)) -> looks (Render p r k)
| LooksDebug k : looks (Debug k).
Lemma does_hidden p s out o s' : does_with open p s out o s' -> looks p -> does_with open' p s out o s'.
Proof.
  induction 1; intros L; inversion L; subst; try (econstructor; eauto; fail).
  - apply DoesTrain with (r := r); [now apply trains_hidden|auto].
  - apply DoesLive with (r := r); [now apply prints_same|auto].
  - apply DoesReport with (r := r); [now apply reports_same|auto].
Qed.

Lemma looks_try {A} (r : res A) k : (forall x, r = Val x -> looks (k x)) -> looks (try r k).
Proof. destruct r; cbn; intros H; [auto|constructor..]. Qed.
Lemma looks_save p f k : looks k -> looks (save p f k).
Proof. intros H. constructor. intros []; constructor. intros []; [exact H|constructor]. Qed.
Lemma looks_contents l : forall k, (forall cs, looks (k cs)) -> looks (get_contents l k).
Proof. induction l as [|i l IH]; intros k H; cbn [get_contents]; [apply H|]. constructor. apply looks_try. intros c _. apply IH. intros cs. apply H. Qed.
Lemma looks_inspect wj report c m : unchanged c -> looks (inspect wj cache report c m).
Proof.
  intros U. unfold inspect. destruct report as [f|]; constructor; try exact U; intros r; apply looks_try; intros x _; [|constructor]. cbv zeta.
  assert (R : looks (Render f x (fun o => try o (fun _ => Create f (Page x) (fun created => if created then Write f (Page x) (fun written => Done (if written then Success else Failure)) else Done Failure))))).
  { constructor. intros o. apply looks_try. intros _ _. constructor. intros []; constructor. intros b; constructor. }
  destruct cache; [now apply looks_save|exact R].
Qed.
Lemma looks_keep mp m k : looks k -> looks (keep_model mp m k).
Proof. intros H. unfold keep_model. destruct mp; [|exact H]. constructor. intros []; [exact H|now apply looks_save]. Qed.
Lemma looks_process wj report mp b i : (forall c, get_content i = Val c -> unchanged c) -> looks (CliModel.process wj cache report mp b i).
Proof.
  intros U. unfold CliModel.process. constructor. apply looks_try. intros c Ec. cbv zeta. specialize (U c Ec).
  assert (Fin : forall m, looks (try m (fun m => keep_model mp m (inspect wj cache report c m)))) by (intros m; apply looks_try; intros x _; apply looks_keep, looks_inspect, U).
  assert (Bu : looks (match b with None => Discover c (fun bs => try bs (fun bs => Train bs (fun m => try m (fun m => keep_model mp m (inspect wj cache report c m))))) | Some l => get_contents l (fun bs => Train bs (fun m => try m (fun m => keep_model mp m (inspect wj cache report c m)))) end)).
  { destruct b; [apply looks_contents; intros cs; constructor; exact Fin|]. constructor. intros r. apply looks_try. intros x _. constructor. exact Fin. }
  destruct mp as [p|]; [|exact Bu]. constructor. intros []; [|exact Bu]. destruct b; constructor. exact Fin.
Qed.
Lemma looks_run wj report mp cmd : (forall s, analysed cmd s -> open s = open' s) -> looks (run wj cache report mp cmd).
Proof.
  intros H. assert (U : forall b i, analyses cmd b i -> forall c, get_content i = Val c -> unchanged c) by (intros b i A c E l s L I; apply H; exists b, i, c, l; auto).
  destruct cmd; cbn [run]; try (constructor; fail); try (apply looks_process; intros c Ec; eapply U; [constructor|exact Ec]).
  destruct mp; [|constructor]. apply looks_contents. intros cs. constructor. intros r. apply looks_try. intros m _. apply looks_save. constructor.
Qed.
Lemma main_hidden cmd : (forall s, analysed cmd s -> open s = open' s) -> forall report mp s out o s', main_with open report mp cmd s out o s' -> main_with open' report mp cmd s out o s'.
Proof. intros H report mp s out o s' M. destruct M as [out o s' D]. constructor. eapply does_hidden; [exact D|]. now apply looks_run. Qed.
End Step.

Lemma differs_sym open open' s : differs_hidden tok open open' s -> differs_hidden tok open' open s.
Proof.
  unfold differs_hidden. destruct (open s), (open' s); auto. intros H json. specialize (H json). induction H as [|i i' l l' X _ IH]; constructor; [|exact IH].
  destruct X; [apply SameTokens|apply NotText|apply SameError]; auto.
Qed.
(** C99: if the logs that are not analysed differ only in what tokenizing removes, then all that the
    program can write to its output and to files, and how it can end, is the same. *)
Theorem C99_hidden open open' cmd : (forall s, differs_hidden tok open open' s) -> (forall s, analysed cmd s -> open s = open' s) ->
  forall report model_path s out o s', main_with open report model_path cmd s out o s' <-> main_with open' report model_path cmd s out o s'.
Proof.
  intros H A report mp s out o s'. split; apply main_hidden; auto; [intros x; apply differs_sym, H|]. intros x Hx. symmetry. now apply A.
Qed.
(** A model that is trained holds nothing of what tokenizing removes from any log. *)
Theorem C99_trained open open' baselines : (forall s, differs_hidden tok open open' s) ->
  forall report model_path s out o s', main_with open report model_path (CmdTrain baselines) s out o s' <-> main_with open' report model_path (CmdTrain baselines) s out o s'.
Proof. intros H. apply C99_hidden; [exact H|]. intros s (b & i & c & l & A & _). inversion A. Qed.
End Main.

(** ** A case that meets the hypotheses *)
Lemma hidden_refl tok items : Forall2 (same_but_hidden tok) items items.
Proof. induction items as [|[b n|e] items IH]; constructor; auto; [|apply SameError]. destruct (valid_utf8 b) eqn:V; [apply SameTokens|apply NotText]; auto. Qed.
(** The baseline of C90_example with another number. *)
Definition other_log (n : string) : bytes := lit "service started in " ++ lit n ++ lit " seconds" ++ [10] ++ lit "all is well" ++ [10].
Definition other_logs (n : string) (s : source) : res (bool -> list item) :=
  match s with Local _ p => if eqb_list p (lit "old.log") then P_Compare.read_file (other_log n) else P_Compare.read_file P_Diff.new_log | Remote _ _ => Fail (lit "no network") end.
Definition other_main n := MainModel.main byte_hash false true (real_tok ascii_word) P_Cache.toy_write P_Cache.toy_finish P_Cache.toy_gunzip (fun d : bytes => d) toy_url toy_url P_Page.ex_up P_Page.ex_years P_Html.verbatim true P_Html.ex_fixed
  P_Diff.diff_kind (fun _ => Fail (lit "no baseline")) (fun _ => []) runs (fun _ => Fail (lit "no network")) (other_logs n) error_e false (fun p => p) false.
Lemma old_items json : items_of (all_lines false json [Data old_log]) = [ILine (lit "service started in 12 seconds") 1; ILine (lit "all is well") 2].
Proof. destruct json; vm_compute; reflexivity. Qed.
Lemma other_items n json : items_of (all_lines false true [Data (other_log n)]) = [ILine (lit "service started in " ++ lit n ++ lit " seconds") 1; ILine (lit "all is well") 2] ->
  items_of (all_lines false false [Data (other_log n)]) = [ILine (lit "service started in " ++ lit n ++ lit " seconds") 1; ILine (lit "all is well") 2] ->
  items_of (all_lines false json [Data (other_log n)]) = [ILine (lit "service started in " ++ lit n ++ lit " seconds") 1; ILine (lit "all is well") 2].
Proof. now destruct json. Qed.
Example C99_example : (forall s, differs_hidden (real_tok ascii_word) P_Diff.two_logs (other_logs "98") s) /\
  (forall s, analysed P_Diff.diff_kind runs (fun _ => Fail (lit "no network")) (CmdDiff [lit "old.log"] (lit "new.log")) s -> P_Diff.two_logs s = other_logs "98" s) /\
  P_Diff.two_logs P_Diff.diff_source <> other_logs "98" P_Diff.diff_source /\
  exists out, other_main "98" None None (CmdDiff [lit "old.log"] (lit "new.log")) no_disk out Success no_disk /\
  written P_Page.ex_up (printed out) = Some (lit "   1 | service started in 7 seconds" ++ [10] ++ lit "99 3 | disk failure detected" ++ [10] ++ lit "   3 | all is well" ++ [10]).
Proof.
  assert (H : forall s, differs_hidden (real_tok ascii_word) P_Diff.two_logs (other_logs "98") s).
  { intros [k p|k u]; unfold differs_hidden, P_Diff.two_logs, other_logs; [|reflexivity]. destruct (eqb_list p _); intros json; [|apply hidden_refl].
    change (Forall2 (same_but_hidden (real_tok ascii_word)) (items_of (all_lines false json [Data old_log])) (items_of (all_lines false json [Data (other_log "98")]))).
    rewrite old_items, (other_items "98") by (vm_compute; reflexivity). constructor; [apply SameTokens; vm_compute; reflexivity|]. constructor; [apply SameTokens; vm_compute; reflexivity|constructor]. }
  assert (A : forall s, analysed P_Diff.diff_kind runs (fun _ => Fail (lit "no network")) (CmdDiff [lit "old.log"] (lit "new.log")) s -> P_Diff.two_logs s = other_logs "98" s).
  { intros s (b & i & c & l & An & C & L & I). inversion An; subst. injection C as <-. vm_compute in L. injection L as <-. destruct I as [<-|[]]. reflexivity. }
  csplit; [exact H|exact A| |].
  - intros E. injection E as E. apply (f_equal (fun f => f false)) in E. vm_compute in E. discriminate.
  - destruct P_Diff.C90_example as (out & M & W). exists out. split; [|exact W]. unfold diff_main in M. apply (proj1 (C99_hidden _ _ _ _ _ _ _ _ _ _ _ _ _ _ _ _ _ _ _ _ _ _ _ _ _ _ _ H A _ _ _ _ _ _) M).
Qed.
Lemma other_bytes said m : trains byte_hash true (real_tok ascii_word) (fun d : bytes => d) toy_url toy_url runs (fun _ => Fail (lit "no network")) (other_logs "128") error_e false [CFile P_Diff.diff_source] said (Val m) ->
  map (fun e => StoreModel.i_bytes (snd e)) (StoreModel.m_indexes m) = [41].
Proof.
  intros T. inversion T as [g g' t times now ixs G P A I R E1 E2| | | |]; subst. cbn [StoreModel.m_indexes]. vm_compute in G. injection G as <-. apply Permutation_sym, Permutation_length_1_inv in P. subst g'.
  vm_compute in A. injection A as <-. cbn [stored_indexes map] in I. apply Permutation_sym, Permutation_length_1_inv in I. subst ixs. cbn [map snd stored_index StoreModel.i_bytes ReportModel.ix_bytes]. reflexivity.
Qed.
(** The length of the lines is kept: with one digit more, another model is saved. *)
Theorem C99_length_refuted :
  (forall json, Forall2 (fun x y => match x, y with ILine b n, ILine b' n' => n = n' /\ real_tok ascii_word b = real_tok ascii_word b' | _, _ => False end)
     (items_of (all_lines false json [Data P_Diff.old_log])) (items_of (all_lines false json [Data (other_log "128")]))) /\
  exists l m, (exists said, trains byte_hash true (real_tok ascii_word) (fun d : bytes => d) toy_url toy_url runs (fun _ => Fail (lit "no network")) P_Diff.two_logs error_e false l said (Val m)) /\
  forall said, ~ trains byte_hash true (real_tok ascii_word) (fun d : bytes => d) toy_url toy_url runs (fun _ => Fail (lit "no network")) (other_logs "128") error_e false l said (Val m).
Proof.
  split; [intros json; rewrite old_items, (other_items "128") by (vm_compute; reflexivity); constructor; [split; vm_compute; reflexivity|]; constructor; [split; vm_compute; reflexivity|constructor]|]. exists [CFile P_Diff.diff_source], P_Diff.diff_model. split.
  - eexists. eapply Trained with (groups' := [(lit "old.log", [P_Diff.diff_source])]) (m := P_Diff.diff_trained) (times := P_Diff.diff_times); [vm_compute; reflexivity|reflexivity|vm_compute; reflexivity|reflexivity|exact P_Diff.diff_rust].
  - intros said T. apply other_bytes in T. unfold P_Diff.diff_model in T. rewrite P_Diff.diff_is_trained in T. cbn [StoreModel.m_indexes map snd stored_indexes stored_index StoreModel.i_bytes diff_index ReportModel.ix_bytes] in T. discriminate.
Qed.

Print Assumptions C99_hidden.
Print Assumptions C99_trained.
Print Assumptions C99_length_refuted.
