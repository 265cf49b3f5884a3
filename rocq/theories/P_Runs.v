(** A comparison of runs, from the command line to the standard output: C93. *)
From Coq Require Import String List NArith ZArith PeanoNat Bool Lia Permutation.
From Verif Require Import Common CommonFacts IterModel IterSpec IterMain P_Iter ProcModel ProcSpec ProcStopSpec ProcExactSpec P_Proc P_ProcExact TokSpec TokRe P_Tok ProcRefute FilesModel FilesSpec FilesSources CliModel IndexModel IndexSpec P_Index
  MatModel ReportModel ReportSpec ReportProofs ReportMore P_Report P_Compare P_Noise CacheSpec StoreModel StoreSpec StoreProofs P_Store MatSpec MatProofs P_Mat HtmlModel ShownModel RenderModel OutModel P_Out SavedModel P_Saved MainModel MainSpec P_Main SummarySpec P_Summary DiffSpec P_Diff RunsSpec.
From Verif Require P_Cache P_Html P_Page ShownProofs.
Import ListNotations.
Open Scope string_scope.
Open Scope list_scope.
Open Scope N_scope.
Ltac csplit := repeat match goal with |- _ /\ _ => split end.

(** ** Sources *)
Lemma below_relative s rel : below s rel <-> get_relative s = Some rel.
Proof.
  assert (E : get_relative s = drop_bytes (base_bytes s) (full_name s)) by (destruct s; reflexivity). rewrite E. split.
  - intros (b & B1 & B2). now rewrite B1, B2, <- utf8_len_bytes, drop_bytes_app.
  - intros D. apply drop_bytes_some in D. destruct D as (b & D1 & D2). exists b. split; [exact D1|]. now rewrite <- utf8_len_bytes.
Qed.
Definition keep_entries (items : list walk_item) : list walk_item := filter keep_path items.
Definition entry_file (p : bytes) : walk_item := Entry p false true.
Lemma files_walk : forall n p l, files_below p n l -> keep_entries (walk p n) = map entry_file l.
Proof.
  induction n as [| | |e|entries IH] using node_ind'; intros p l H; inversion H as [| | |? ? ? A]; subst; try reflexivity.
  rewrite walk_dir. unfold keep_entries. cbn [filter keep_path negb andb]. clear H. revert l A.
  induction entries as [|[name child] entries IHe]; intros l A; inversion A as [|? ? ? ? l1 l2 A1 A2]; subst; [reflexivity|].
  cbn [flat_map fst snd]. rewrite filter_app, map_app. f_equal.
  - apply (IH name child); [now left|exact A1].
  - apply IHe; [intros nm c Hi; apply (IH nm c); now right|exact A2].
Qed.
Lemma decode_length t u : utf8_decode t = Some u -> utf8_len u = N.of_nat (length t).
Proof. intros H. now rewrite utf8_len_bytes, (ShownProofs.utf8_encode_decode _ _ H). Qed.
Lemma dir_sources t u paths tree l : utf8_decode t = Some u -> files_below t tree paths -> kept_logs (map (Local (N.of_nat (length t))) paths) l -> get_sources (dir_iter t (walk t tree)) = Val l.
Proof.
  intros U F [K1 K2]. apply get_sources_ok. exists (map (Local (N.of_nat (length t))) paths). csplit; auto. unfold dir_iter, to_str. rewrite U, (decode_length _ _ U).
  change (filter keep_path (walk t tree)) with (keep_entries (walk t tree)). rewrite (files_walk _ _ _ F), !map_map. reflexivity.
Qed.
Lemma remote_sources crawl u l : remote_logs crawl u l -> get_sources (httpdir_iter u (crawl u)) = Val l.
Proof.
  intros (base & sl & urls & -> & S & B & C & K1 & K2). apply get_sources_ok. exists (map (Remote (N.of_nat (length (utf8_encode base)) + 1)) urls). csplit; auto.
  rewrite C. unfold httpdir_iter. rewrite (trim_slashes _ _ S B), utf8_len_bytes, map_map. reflexivity.
Qed.
Lemma is_log_facts open s n json c : is_log open s n json c -> source_name s = Some n /\ is_json s = Some json /\ (exists rel, get_relative s = Some rel /\ n = index_name rel) /\
  exists items, open s = Val items /\ items json = ok_items (lines_of_log json c).
Proof.
  intros ((rel & B & -> & J) & H & P). apply below_relative in B. unfold source_name, is_json. rewrite B. cbn [option_map]. csplit; eauto.
  - f_equal. destruct json, (ends_with _ rel) eqn:X; try reflexivity.
    + assert (Y : suffix (lit ".json") rel) by now apply J. apply suffix_ok in Y. congruence.
    + apply suffix_ok in X. now apply J in X.
  - now apply plain_items.
Qed.
Lemma selected_imp {A} (P Q : A -> Prop) l o : selected P l o -> (forall x, In x l -> (P x <-> Q x)) -> selected Q l o.
Proof.
  induction 1 as [|x l o Hx _ IH|x l o Hx _ IH]; intros H; [constructor|apply SelKeep|apply SelSkip].
  1, 3: apply H in Hx || (intros X; apply Hx; apply H); auto; now left.
  all: apply IH; intros y Hy; apply H; now right.
Qed.
Lemma selected_all {A} (P : A -> Prop) l o : selected P l o -> (forall x, In x l -> P x) -> o = l.
Proof. induction 1 as [|x l o Hx _ IH|x l o Hx _ IH]; intros H; [reflexivity| |]; [f_equal; apply IH; intros y Hy; apply H; now right|exfalso; apply Hx, H; now left]. Qed.

(** ** Rows *)
Section Shown.
Variable up : N -> bool.
Definition printed_rows (cs : list (@actx F)) : list (@out_line F) := map Printed (print_anomalies None cs).
Lemma printed_found cs d n x : In (Printed (Anom d n x)) (printed_rows cs) <-> exists c, In c cs /\ d = ProcModel.distance c /\ n = apos c /\ x = aline c.
Proof. rewrite <- (printed_anom cs d n x None). split; [|intros X; apply (in_map Printed); exact X]. intros X. apply in_map_iff in X. destruct X as (r & [= ->] & X). exact X. Qed.
Lemma printed_shown cs : exists texts, Forall2 (fun row t => live_text up row = Some t) (printed_rows cs) texts /\ flat_map (fun t => t ++ [10]) texts = diff_text up cs.
Proof. exists (map (row_text up) (print_anomalies None cs)). split; [apply printed_texts|]. rewrite <- diff_rows. apply printed_text, printed_texts. Qed.
End Shown.

(** ** The comparison *)
Section Runs.
Variables (hash : bytes -> N) (fused checked : bool) (word_char : N -> bool).
Variable enc_write : list bytes -> bytes -> bytes.
Variable enc_finish : list bytes -> bytes.
Variable gunzip : bytes -> bytes * bool.
Context {Date : Type}.
Variable show_date : Date -> bytes.
Variable parse_date : bytes -> option Date.
Variable url_text : bytes -> option bytes.
Variables (up : N -> bool) (has_year : Z -> bool) (write : bytes -> bytes) (checks : bool) (fixed_parts : fixed).
Notation build := (@StoreModel.build Date).
Variable kind_of : text -> path_kind.
Variable parse_url : text -> option text.
Variable has_authority : text -> bool.
Variable from_zuul_url : text -> option (res (content build)).
Variable zuul_baselines : build -> res (list (content build)).
Variable zuul_says : build -> list bytes.
Variable tree : bytes -> FilesModel.node.
Variable crawl : text -> res (list text).
Variable open : source -> res (bool -> list item).
Variable err_text : option N -> text.
Variable tty : bool.
Variable show_path : bytes -> bytes.
Variable cache : bool.
Notation tok := (real_tok word_char).
Notation get_content := (from_input kind_of parse_url has_authority from_zuul_url).
Notation discover := (discover_baselines kind_of zuul_baselines).
Notation listing := (@MainModel.listing Date tree crawl).
Notation trains := (trains hash checked tok show_date parse_date url_text tree crawl open err_text tty).
Notation main := (main hash fused checked tok enc_write enc_finish gunzip show_date parse_date url_text up has_year write checks fixed_parts get_content discover (discovery_of zuul_says) tree crawl open err_text tty show_path cache).
Notation is_build := (fun u => match from_zuul_url u with Some _ => true | None => false end).
Notation build_logs := (fun u address => exists b, from_zuul_url u = Some (Val (CZuul b)) /\ StoreModel.b_log_url b = address).
Notation baseline_logs := (fun u address => exists b b', from_zuul_url u = Some (Val (CZuul b)) /\ zuul_baselines b = Val [CZuul b'] /\ StoreModel.b_log_url b' = address).
Notation logs_of := (RunsSpec.logs_of kind_of parse_url has_authority is_build build_logs tree crawl).
Notation compares := (RunsSpec.compares kind_of parse_url has_authority is_build build_logs baseline_logs tree crawl).

Lemma logs_content t l : logs_of t l -> exists c, get_content (input_from_string t) = Val c /\ get_sources (listing c) = Val l /\ exists x, content_text c = Some x.
Proof.
  intros H. destruct H as [t s Hn He|t paths l Np K U F S|t u l Pp E A B Sl R|t u address l Pp E A (b & Z & <-) R].
  - exists (CFile s). csplit; [now apply names_content|now apply (file_sources tree crawl)|]. cbn [content_text]. unfold source_text. rewrite (names_relative _ _ _ _ _ _ Hn). cbn [option_map]. eauto.
  - exists (CDirectory (Local 0 t)). destruct (utf8_decode t) as [u|] eqn:D; [|congruence]. csplit.
    + unfold input_from_string. destruct (starts_with _ t) eqn:X; [apply prefix_ok in X; contradiction|]. cbn [from_input]. unfold from_path. now rewrite K.
    + cbn [MainModel.listing]. eapply dir_sources; eassumption.
    + cbn [content_text]. unfold source_text. cbn [get_relative]. rewrite drop_none. cbn [option_map]. eauto.
  - exists (CDirectory (Remote 0 u)). csplit.
    + unfold input_from_string. apply prefix_ok in Pp. rewrite Pp. cbn [from_input]. rewrite E. unfold from_url. rewrite A. cbn [negb]. destruct (from_zuul_url u); [discriminate|]. apply suffix_ok in Sl. now rewrite Sl.
    + cbn [MainModel.listing]. now apply remote_sources.
    + cbn [content_text]. unfold source_text. cbn [get_relative]. rewrite drop_none. cbn [option_map]. eauto.
  - exists (CZuul b). csplit.
    + unfold input_from_string. apply prefix_ok in Pp. rewrite Pp. cbn [from_input]. rewrite E. unfold from_url. rewrite A. cbn [negb]. now rewrite Z.
    + cbn [MainModel.listing]. now apply remote_sources.
    + cbn [content_text]. eauto.
Qed.
Lemma logs_contents ts ls : Forall2 logs_of ts ls -> exists cs, Forall2 (fun i c => get_content i = Val c) (map input_from_string ts) cs /\ Forall2 (fun items l => get_sources items = Val l) (map listing cs) ls.
Proof.
  induction 1 as [|t l ts ls H _ (cs & I1 & I2)]; [exists []; split; constructor|]. destruct (logs_content _ _ H) as (c & C1 & C2 & _). exists (c :: cs). split; constructor; auto.
Qed.
Lemma path_content p l : path_logs kind_of tree p l -> exists c : content build, from_path kind_of p = Val c /\ get_sources (listing c) = Val l.
Proof.
  intros [p0 K E|p0 paths l0 K U F S]; unfold from_path; rewrite K; eexists; (split; [reflexivity|]).
  - now apply (file_sources tree crawl).
  - cbn [MainModel.listing]. destruct (utf8_decode p0) as [u|] eqn:D; [|congruence]. eapply dir_sources; eassumption.
Qed.
Notation baselines_are := (RunsSpec.baselines_are get_content discover).
Lemma baselines_one baselines c cb l : baselines_are baselines c cb -> baselines_are baselines c l -> l = cb.
Proof.
  unfold RunsSpec.baselines_are. destruct baselines as [is|]; [|congruence]. intros Cb. revert l.
  induction Cb as [|i c' is cs E _ IH]; intros l F; inversion F as [|? c2 ? l' E' F']; subst; [reflexivity|]. rewrite E in E'. injection E' as <-. f_equal. now apply IH.
Qed.
Lemma runs_content cmd ls targets : compares cmd ls targets -> exists baselines i ct cb, analyses cmd baselines i /\ get_content i = Val ct /\ get_sources (listing ct) = Val targets /\ (exists x, content_text ct = Some x) /\
  baselines_are baselines ct cb /\ Forall2 (fun items l => get_sources items = Val l) (map listing cb) ls /\ ((forall u, cmd <> CmdUrl u) -> baselines = None -> discovery_of zuul_says ct = []).
Proof.
  intros [bs t ls0 targets0 Hb Ht|p l U K E L|u u' address address' l targets0 P A (b & Z & <-) (b0 & b' & Z' & B & <-) R R'].
  - destruct (logs_contents _ _ Hb) as (cb & C1 & C2). destruct (logs_content _ _ Ht) as (ct & C3 & C4 & C5). exists (Some (map input_from_string bs)), (input_from_string t), ct, cb.
    csplit; [apply AnalysesDiff|exact C3|exact C4|exact C5|exact C1|exact C2|discriminate].
  - destruct (path_content _ _ L) as (c & C1 & C2). exists None, (InPath p), (CFile (Local 0 p)), [c].
    csplit; [apply AnalysesPath|cbn [from_input]; unfold from_path; now rewrite K|now apply (file_sources tree crawl)| | |constructor; [exact C2|constructor]|reflexivity].
    + cbn [content_text]. unfold source_text. cbn [get_relative]. rewrite drop_none. cbn [option_map]. eauto.
    + unfold RunsSpec.baselines_are, discover_baselines, discover_from_path. destruct (utf8_decode p); [|congruence]. now rewrite C1.
  - rewrite Z in Z'. injection Z' as <-. exists None, (InUrl u), (CZuul b), [CZuul b']. csplit; [apply AnalysesUrl| |cbn [MainModel.listing]; now apply remote_sources|cbn [content_text]; eauto| | |intros N; now destruct (N u)].
    + cbn [from_input]. rewrite P. unfold from_url. rewrite A. cbn [negb]. now rewrite Z.
    + unfold RunsSpec.baselines_are, discover_baselines. now rewrite B.
    + cbn [map MainModel.listing]. constructor; [now apply remote_sources|constructor].
Qed.

Section Logs.
Variables (name_of : source -> text) (json_of : source -> bool) (bytes_of : source -> bytes).
Notation log s := (is_log open s (name_of s) (json_of s) (bytes_of s)).
Definition lines_in (s : source) : list (bytes * N) := lines_of_log (json_of s) (bytes_of s).
Notation known := (known_lines tok lines_in).
(** An index of logs that are all read as json or all not *)
Lemma train_logs json : forall l t, (forall s, In s l -> log s) -> exists t', train_group tok open json l t = Val t'.
Proof.
  induction l as [|s l IH]; intros t H; cbn [train_group]; [eauto|]. destruct (is_log_facts _ _ _ _ _ (H s (or_introl eq_refl))) as (_ & _ & _ & items & O & _). rewrite O. apply IH. intros s' Hs. apply H. now right.
Qed.
Lemma index_logs l : (forall s, In s l -> log s) -> exists ix, index_train tok open l = Val ix.
Proof.
  intros H. unfold index_train. assert (J : exists j, match l with [] => Some false | s :: _ => is_json s end = Some j).
  { destruct l as [|s l]; [eauto|]. destruct (is_log_facts _ _ _ _ _ (H s (or_introl eq_refl))) as (_ & J & _). eauto. }
  destruct J as [j ->]. destruct (train_logs j l trainer_new H) as [t ->]. eauto.
Qed.
Lemma index_known l ix : (forall s, In s l -> log s) -> (forall s s', In s l -> In s' l -> json_of s = json_of s') -> index_train tok open l = Val ix ->
  forall t, In t (concat (ix_batches ix)) <-> In t (known l).
Proof.
  intros H J E t. apply index_train_ok in E. destruct E as (_ & json & its & J' & F & K & _). rewrite K, (proj1 (proj2 (C18_firsts_meaning _ _)) t).
  assert (G : forall s, In s l -> json_of s = json).
  { intros s Hs. destruct l as [|s0 l]; [destruct Hs|]. rewrite (J s s0 Hs (or_introl eq_refl)). destruct (is_log_facts _ _ _ _ _ (H s0 (or_introl eq_refl))) as (_ & J0 & _). rewrite (J' s0 l eq_refl) in J0. congruence. }
  assert (M : map (fun x => tok (fst x)) (concat (map (fun it => good_prefix (it json)) its)) = known l); [|rewrite M; cbn [In]; tauto].
  clear - F G H. revert G H. induction F as [|s it l its O F IH]; intros G H; [reflexivity|]. cbn [map concat known_lines flat_map]. unfold known_lines in *. rewrite map_app, IH; [|intros; apply G; now right|intros; apply H; now right]. f_equal.
  destruct (is_log_facts _ _ _ _ _ (H s (or_introl eq_refl))) as (_ & _ & _ & items & O' & I). rewrite O in O'. injection O' as ->. rewrite <- (G s (or_introl eq_refl)), I, good_ok; [reflexivity|]. apply (H s (or_introl eq_refl)).
Qed.
(** Tracing says nothing about them. *)
Lemma logs_silent l : (forall s, In s l -> log s) -> (forall s s', In s l -> In s' l -> json_of s = json_of s') -> group_says open err_text (is_json_group l) l = [].
Proof.
  intros H J. assert (G : forall s, In s l -> json_of s = is_json_group l).
  { intros s Hs. destruct l as [|s0 l]; [destruct Hs|]. rewrite (J s s0 Hs (or_introl eq_refl)). destruct (is_log_facts _ _ _ _ _ (H s0 (or_introl eq_refl))) as (_ & J0 & _). cbn [is_json_group]. now rewrite J0. }
  revert G. generalize (is_json_group l). intros json G. clear J. induction l as [|s l IH]; [reflexivity|]. cbn [group_says].
  destruct (is_log_facts _ _ _ _ _ (H s (or_introl eq_refl))) as (_ & _ & _ & items & O & I). rewrite O, <- (G s (or_introl eq_refl)), I, first_error_ok by apply (H s (or_introl eq_refl)). cbn [app].
  rewrite (G s (or_introl eq_refl)). apply IH; intros s' Hs; [apply H|apply G]; now right.
Qed.

(** The model of the baselines *)
Variable baselines : list source.
Hypothesis logs : forall s, In s baselines -> log s.
Hypothesis modes : forall s s', In s baselines -> In s' baselines -> name_of s = name_of s' -> json_of s = json_of s'.
Definition group_ok (g : text * list source) : Prop := snd g <> [] /\ selected (fun s => name_of s = fst g) baselines (snd g).
Lemma group_facts g : group_ok g -> (forall s, In s (snd g) -> log s) /\ (forall s s', In s (snd g) -> In s' (snd g) -> json_of s = json_of s').
Proof.
  intros [_ S]. assert (I : forall x, In x (snd g) -> In x baselines /\ name_of x = fst g) by (intros x; now apply (ReportMore.selected_in (fun s => name_of s = fst g))). split.
  - intros s Hs. now apply logs, I.
  - intros s s' Hs Hs'. apply I in Hs, Hs'. destruct Hs as [A B], Hs' as [A' B']. apply modes; auto. congruence.
Qed.
Lemma logs_named s n : In s baselines -> (source_name s = Some n <-> name_of s = n).
Proof. intros Hs. destruct (is_log_facts _ _ _ _ _ (logs s Hs)) as (E & _). rewrite E. split; [now intros [= <-]|now intros <-]. Qed.
Lemma grouping_groups groups : grouping source_name groups baselines -> forall g, In g groups <-> group_ok g.
Proof.
  intros [_ G] [n l]. rewrite G. unfold group_ok. cbn [fst snd]. split; intros [A B]; (split; [exact A|]); (eapply selected_imp; [exact B|]); intros x Hx; [now apply logs_named|symmetry; now apply logs_named].
Qed.
Lemma train_logs_all groups : (forall g, In g groups -> group_ok g) -> exists m, train_all tok open groups = Val m /\ (forall l msg, ~ In (Log l msg) (train_says tok open err_text tty groups)).
Proof.
  induction groups as [|[n l] groups IH]; intros H; [exists []; split; [reflexivity|intros ? ? []]|]. cbn [train_all train_says].
  destruct (group_facts (n, l) (H _ (or_introl eq_refl))) as [L J]. cbn [snd] in L, J. destruct (index_logs l L) as [ix E]. rewrite E.
  destruct IH as (m & M & S); [intros g Hg; apply H; now right|]. rewrite M. eexists. split; [reflexivity|]. intros lv msg. rewrite (logs_silent l L J), !in_app_iff. intros [X|[[]|X]]; [|now apply S in X].
  apply in_map_iff in X. destruct X as (p & X & _). discriminate.
Qed.
(** A log of the target *)
Notation known_dist := (fun ls => real_dist hash fused [ls]).
Notation block := (block tok known_dist up name_of lines_in baselines).
Lemma lookup_logs groups m : NoDup (map fst groups) -> (forall g, In g groups <-> group_ok g) -> train_all tok open groups = Val m -> forall s,
  match get_index m (name_of s) with
  | Some ix => exists l, compared_with name_of baselines s l /\ ix_sources ix = l /\ forall t, In t (concat (ix_batches ix)) <-> In t (known l)
  | None => not_compared name_of baselines s
  end.
Proof.
  intros Nd G T s. pose proof (train_all_ok _ _ _ _ T) as F. assert (Nm : NoDup (map fst m)) by (rewrite (forall2_fst _ _ _ (fun x y H => proj1 H) F); exact Nd).
  assert (K : forall g ix, In g groups -> index_train tok open (snd g) = Val ix -> forall t, In t (concat (ix_batches ix)) <-> In t (known (snd g))).
  { intros g ix Hg E. apply G in Hg. apply group_facts in Hg. now apply index_known. }
  assert (Ks : forall l ix, index_train tok open l = Val ix -> ix_sources ix = l) by (intros l ix E; apply index_train_ok in E; apply E).
  unfold get_index. destruct (lookup_or_single m (name_of s)) as [ix|] eqn:E.
  - apply (lookup_some m _ _ Nm) in E. destruct E as [E|[E (n & ->)]].
    + destruct (forall2_in_r _ _ _ _ F E) as ([n l] & Hg & En & Ei). cbn [fst snd] in *. subst n. exists l. csplit; [apply G in Hg; destruct Hg as [A B]; now constructor|now apply Ks|now apply (K (name_of s, l))].
    + inversion F as [|[n' l] ? groups' ? [En Ei] F']; subst. inversion F'; subst. cbn [fst snd] in *. subst n'. destruct (proj1 (G (n, l)) (or_introl eq_refl)) as [A B]. cbn [fst snd] in *.
      assert (Al : forall b, In b baselines -> name_of b = n).
      { intros b Hb. destruct (ReportMore.selected_exists (fun x => name_of x = name_of b) (fun x => list_eq_dec N.eq_dec _ _) baselines) as [o So'].
        assert (In (name_of b, o) [(n, l)]) as [X|[]]; [|now injection X]. apply G. split; [|exact So']. cbn [snd]. intros ->. assert (X : In b []) by (apply (ReportMore.selected_in _ _ _ _ So'); auto). destruct X. }
      assert (l = baselines) as -> by (eapply selected_all; eauto). exists baselines. csplit; [|now apply Ks|apply (K (n, baselines)); [now left|exact Ei]].
      apply OnlyName with (n := n); auto. intros ->. apply (E ix). now left.
  - apply (lookup_none m _ Nm) in E.
    assert (Hg : forall b, In b baselines -> exists l ix, In (name_of b, l) groups /\ In (name_of b, ix) m).
    { intros b Hb. destruct (ReportMore.selected_exists (fun x => name_of x = name_of b) (fun x => list_eq_dec N.eq_dec _ _) baselines) as [o So'].
      assert (X : In (name_of b, o) groups). { apply G. split; [|exact So']. cbn [snd]. intros ->. assert (X : In b []) by (apply (ReportMore.selected_in _ _ _ _ So'); auto). destruct X. }
      destruct (forall2_in_l _ _ _ _ F X) as ([n ix] & Y & En & _). cbn [fst] in En. subst n. eauto. }
    assert (No : forall b, In b baselines -> name_of b <> name_of s). { intros b Hb En. destruct (Hg b Hb) as (l & ix & _ & X). rewrite En in X. apply (E ix). now left. }
    split; [exact No|]. intros (n & Nb & Al). assert (Hb0 : exists b0, In b0 baselines) by (revert Nb; destruct baselines as [|b0 bs]; [congruence|exists b0; now left]). destruct Hb0 as [b0 Hb0].
    assert (Og : forall g, In g groups -> g = (n, baselines)).
    { intros [n' l] X. apply G in X. destruct X as [A B]. cbn [fst snd] in *. destruct l as [|x l]; [congruence|]. assert (Ix : In x baselines /\ name_of x = n') by (apply (ReportMore.selected_in _ _ _ _ B); now left). rewrite (Al x (proj1 Ix)) in Ix. destruct Ix as [_ <-]. f_equal. eapply selected_all; eauto. }
    destruct (Hg b0 Hb0) as (l & ix & X & Y). rewrite (Al b0 Hb0) in X, Y.
    assert (m = [(n, ix)]) as ->.
    { assert (Om : forall e, In e m -> fst e = n) by (intros e He; destruct (forall2_in_r _ _ _ _ F He) as (g & Hgi & En & _); rewrite En, (Og g Hgi); reflexivity).
      destruct m as [|e1 [|e2 m]]; [destruct Y|destruct Y as [->|[]]; reflexivity|]. exfalso. inversion Nm as [|? ? Ni _]; subst. apply Ni. cbn [map]. left. rewrite (Om e1), (Om e2); cbn; auto. }
    apply (E ix). right. split; [|now exists n]. intros w [Z|[]]. injection Z as Z _. apply (No b0 Hb0). rewrite (Al b0 Hb0). exact Z.
Qed.
Lemma live_logs (m : list (text * index_of)) targets : (forall s, In s targets -> log s) ->
  (forall s, match get_index m (name_of s) with
             | Some ix => exists l, compared_with name_of baselines s l /\ ix_sources ix = l /\ forall t, In t (concat (ix_batches ix)) <-> In t (known l)
             | None => not_compared name_of baselines s
             end) ->
  exists parts n k, live_sources above_threshold tok (real_search hash fused) open err_text m targets = Val (flat_map fst parts, n, k) /\
    Forall2 (fun s p => block s (fst p) (snd p)) targets parts.
Proof.
  intros H L. induction targets as [|s targets IH]; [exists [], 0, 0; split; [reflexivity|constructor]|].
  destruct IH as (parts & n & k & E & F); [intros x Hx; apply H; now right|]. cbn [live_sources]. rewrite E.
  destruct (is_log_facts _ _ _ _ _ (H s (or_introl eq_refl))) as (_ & J & (rel & R & Er) & items & O & I). rewrite R, <- Er. specialize (L s). destruct (get_index m (name_of s)) as [ix|].
  - destruct L as (l & C & _ & K). assert (Gp : get_processor open s = Val (ok_items (lines_in s))) by (unfold get_processor; now rewrite R, O, J, I).
    assert (Pw : pointwise (real_search hash fused (ix_batches ix)) (real_dist hash fused [known l])).
    { intros ts. unfold real_search. rewrite (C20_training_order_irrelevant hash fused (ix_batches ix) [known l]); [apply (real_pointwise hash fused)|]. intros t. rewrite K. cbn [concat]. now rewrite app_nil_r. }
    destruct (H s (or_introl eq_refl)) as (_ & _ & Pl).
    destruct (C12_exact _ above_threshold tok (real_search hash fused (ix_batches ix)) (real_dist hash fused [known l]) [] (lines_in s) Pw) as (cs & final & positions & E1 & E2 & E3 & E4); [apply Pl|now apply plain_markers|].
    rewrite Gp, E1. cbn [stop_error]. cbv zeta. cbn [app]. exists ((printed_rows cs, diff_text up cs) :: parts). do 2 eexists. split; [reflexivity|]. constructor; [|exact F]. cbn [fst snd].
    eapply BlockFound; eauto.
    + intros d a x. apply printed_found.
    + intros row X. apply in_map_iff in X. destruct X as (r & <- & _). eauto.
    + apply printed_shown.
  - assert (T : exists t, called_source s t) by (setoid_rewrite <- source_called; unfold source_text; rewrite R; cbn [option_map]; eauto). destruct T as [t T].
    exists (([NoBaselines s], lit " -> No baselines for " ++ t ++ [10]) :: parts), n, k. split; [reflexivity|]. constructor; [|exact F]. cbn [fst snd]. now constructor.
Qed.
Lemma block_shown s rows text : block s rows text -> exists texts, Forall2 (fun row t => live_text up row = Some t) rows texts /\ flat_map (fun t => t ++ [10]) texts = text.
Proof.
  intros [t _ C|l positions cs rows' _ _ _ _ _ _ T]; [|exact T]. apply source_called in C. exists [lit " -> No baselines for " ++ t]. split.
  - constructor; [|constructor]. cbn [live_text]. now rewrite C.
  - cbn [flat_map]. now rewrite app_nil_r, <- app_assoc.
Qed.
Lemma blocks_shown targets parts : Forall2 (fun s p => block s (fst p) (snd p)) targets parts ->
  exists texts, Forall2 (fun row t => live_text up row = Some t) (flat_map fst parts) texts /\ flat_map (fun t => t ++ [10]) texts = flat_map snd parts.
Proof.
  induction 1 as [|s p targets parts H _ (texts & T1 & T2)]; [exists []; split; [constructor|reflexivity]|]. destruct (block_shown _ _ _ H) as (texts' & T3 & T4).
  exists (texts' ++ texts). cbn [flat_map]. split; [now apply Forall2_app|]. etransitivity; [apply flat_map_app|]. f_equal; [exact T4|exact T2].
Qed.
End Logs.

Definition run_dist (known : list bytes) : bytes -> F := real_dist hash fused [known].
Notation log_lines json_of bytes_of := (fun x => lines_of_log (json_of x) (bytes_of x)).
Theorem C93_diff : forall cmd ls targets name_of json_of bytes_of s out o s', compares cmd ls targets ->
  (forall x, In x (concat ls ++ targets) -> is_log open x (name_of x) (json_of x) (bytes_of x)) ->
  (forall x y, In x (concat ls) -> In y (concat ls) -> name_of x = name_of y -> json_of x = json_of y) ->
  main None None cmd s out o s' ->
  o = Success /\ s' = s /\ ((forall u, cmd <> CmdUrl u) -> forall l msg, ~ In (Log l msg) out) /\ exists parts,
    Forall2 (fun x p => block tok run_dist up name_of (log_lines json_of bytes_of) (concat ls) x (fst p) (snd p)) targets parts /\
    findings out = flat_map fst parts /\
    (tty = false -> written up (printed out) = Some (flat_map snd parts)).
Proof.
  intros cmd ls targets name_of json_of bytes_of s out o s' Hc0 Hl Hj H.
  assert (Lb : forall x, In x (concat ls) -> is_log open x (name_of x) (json_of x) (bytes_of x)) by (intros x Hx; apply Hl, in_or_app; now left).
  assert (Lt : forall x, In x targets -> is_log open x (name_of x) (json_of x) (bytes_of x)) by (intros x Hx; apply Hl, in_or_app; now right).
  destruct (runs_content _ _ _ Hc0) as (bi & i & ct & cb & Ai & Ct & St & (xt & Xt) & Cb & Sb & Q0).
  destruct (group_sources_val _ _ Sb) as (groups & G). { intros x Hx. destruct (is_log_facts _ _ _ _ _ (Lb x Hx)) as (_ & _ & (rel & R & _) & _). rewrite R. discriminate. }
  assert (Gr : grouping source_name groups (concat ls)).
  { destruct (group_sources_ok _ _ G) as (ls' & S' & Gr). replace (concat ls) with (concat ls'); [exact Gr|]. f_equal. clear - Sb S'. revert ls' S'. induction Sb as [|i l cs ls E _ IH]; intros ls' S'; inversion S' as [|? l' ? ls'' E' S'']; subst; [reflexivity|]. rewrite E in E'. injection E' as <-. f_equal. now apply IH. }
  pose proof (grouping_groups _ _ _ _ Lb _ Gr) as Ok.
  assert (Tr : forall g', Permutation g' groups -> exists m, train_all tok open g' = Val m /\ forall l msg, ~ In (Log l msg) (train_says tok open err_text tty g')).
  { intros g' P. eapply train_logs_all; [exact Lb|exact Hj|]. intros g Hg. apply Ok. eapply Permutation_in; eassumption. }
  inversion H as [out' o' s1 D]; subst. rewrite (run_analyses cache _ _ _ _ _ Ai) in D.
  apply does_process in D. destruct D as [(c & m & b1 & b2 & out2 & s1 & Ec & U & Kp & D & ->)|(N & _)].
  2: { exfalso. unfold stopped in N. rewrite Ct in N. destruct N as [N _]. inversion N as [? X|? X|X Y Z|is X Y Z|l b' r X Y Z W|? X]; subst; try discriminate.
    - now apply (Z cb).
    - now apply (Z cb).
    - assert (l = cb) by (destruct Y as [[-> Y]|(is & -> & Y)]; eapply baselines_one; eassumption). subst l.
      inversion Z as [? ? ? ? ? ? _ _ _ _ _|g g' e G' P' T'|g g' G' P' T'|e G'|G']; subst; [now apply (W _ eq_refl)| | | |]; rewrite G in G'; try discriminate; injection G' as <-; destruct (Tr _ P') as (m & M & _); congruence. }
  rewrite Ct in Ec. injection Ec as <-.
  assert (s1 = s /\ b2 = []) as [-> ->] by (inversion Kp; subst; [now split|discriminate]).
  pose proof U as Q. apply uses_quiet in Q. destruct Q as [Q1 Q2].
  assert (Ub : exists b3, trains cb b3 (Val m) /\ forall l msg, In (Log l msg) b1 -> In (Log l msg) b3 \/ (bi = None /\ In (Log l msg) (map (Log Info) (discovery_of zuul_says ct)))).
  { inversion U as [? ? X|l b3 m' _ X Fl Tn|is l b3 m' _ X Fl Tn]; subst; try discriminate; (assert (l = cb) by (eapply baselines_one; eassumption)); subst l; [|eauto].
    exists b3. split; [exact Tn|]. intros l msg Hm. apply in_app_or in Hm. tauto. }
  destruct Ub as (b3 & Tn & Lg0).
  assert (Lg1 : forall l msg, ~ In (Log l msg) b3) by (inversion Tn as [g g' m'' times now ixs G' P' T' Q' R'| | | |]; subst; rewrite G in G'; injection G' as <-; destruct (Tr _ P') as (_ & _ & S'); exact S').
  assert (Lg : (forall u, cmd <> CmdUrl u) -> forall l msg, ~ In (Log l msg) b1) by (intros Nu l msg X; apply Lg0 in X; destruct X as [X|[X Y]]; [now apply Lg1 in X|rewrite (Q0 Nu X) in Y; destruct Y]).
  apply (trained_answers hash fused) in Tn. destruct Tn as (drain & tm & Dp & Tm & _ & An). unfold model_train in Tm. rewrite G in Tm.
  assert (Lk := lookup_logs name_of json_of bytes_of (concat ls) Lb Hj (drain groups) tm). specialize (Lk ltac:(eapply Permutation_NoDup; [apply Permutation_map, Permutation_sym, Dp|apply Gr])).
  specialize (Lk ltac:(intros g; rewrite <- Ok; split; apply Permutation_in; [apply Dp|apply Permutation_sym, Dp]) Tm).
  destruct (live_logs name_of json_of bytes_of (concat ls) tm targets Lt Lk) as (parts & nl & nk & Lv & Fb).
  apply does_live in D. destruct D as [-> L]. rewrite (pieces_same tok _ _ open err_text (mode tty) _ _ ct (listing ct) An) in L.
  pose proof (loop_cases tok (real_search hash fused) open err_text (mode tty) tm targets false) as Lc. rewrite Lv in Lc. destruct Lc as (ps0 & b0 & Lc).
  destruct (live_pieces tok (real_search hash fused) open err_text (mode tty) tm ct (listing ct)) as [ps|e|] eqn:Ep; [|exfalso; unfold live_pieces in Ep; rewrite St, Lc, Xt in Ep; discriminate..].
  destruct L as [-> ->]. destruct (pieces_rows _ _ _ _ _ _ _ _ _ Ep) as (n1 & k1 & Pr). unfold process_live in Pr. rewrite St, Lv in Pr. injection Pr as Er _ _.
  csplit; try reflexivity.
  - intros Nu l msg X. rewrite app_nil_r, app_nil_l, in_app_iff in X. destruct X as [X|X]; [now apply (Lg Nu) in X|]. apply in_map_iff in X. destruct X as (p & X & _). discriminate.
  - exists parts. csplit; [exact Fb| |].
    + rewrite app_nil_r, !findings_app, Q1, findings_out. cbn [app]. now rewrite <- Er.
    + intros Et. destruct (blocks_shown _ _ _ _ _ _ Fb) as (texts & T1 & T2). rewrite app_nil_r, app_nil_l, printed_app, (Q2 Et), printed_out. subst tty. change (mode false) with Quiet in Ep. rewrite (pieces_quiet _ _ _ _ _ _ _ _ Ep), <- Er.
      cbn [app]. now rewrite (written_rows up _ _ T1), T2.
Qed.
(** A log is compared with one list of logs. *)
Theorem C93_one_group : forall name_of baselines x l l', compared_with name_of baselines x l -> compared_with name_of baselines x l' -> l = l'.
Proof.
  assert (G : forall (name_of : source -> text) baselines x l n, selected (fun b => name_of b = name_of x) baselines l -> l <> [] -> (forall b : source, In b baselines -> name_of b = n) -> n <> name_of x -> False).
  { intros name_of baselines x l n S E A N. destruct l as [|b l]; [congruence|]. destruct (proj1 (ReportMore.selected_in _ _ _ b S) (or_introl eq_refl)) as [I1 I2]. apply N. now rewrite <- (A b I1). }
  intros name_of baselines x l l' [l0 S E|n B A N] [l1 S' E'|n' B' A' N']; [eapply selected_unique; eassumption| | |reflexivity]; exfalso; eapply G; eassumption.
Qed.
Lemma in_parts {A B C} (R : A -> list B * C -> Prop) xs parts y : Forall2 R xs parts -> In y (flat_map fst parts) -> exists x p, In x xs /\ In p parts /\ R x p /\ In y (fst p).
Proof. intros F I. apply in_flat_map in I. destruct I as (p & I1 & I2). destruct (forall2_in_r _ _ _ _ F I1) as (x & X1 & X2). eauto 8. Qed.
(** What is found is a line of a log of the target, and no line of the logs that it is compared with has
    its tokenized form. *)
Theorem C93_known : forall cmd ls targets name_of json_of bytes_of s out o s' d n line, compares cmd ls targets ->
  (forall x, In x (concat ls ++ targets) -> is_log open x (name_of x) (json_of x) (bytes_of x)) ->
  (forall x y, In x (concat ls) -> In y (concat ls) -> name_of x = name_of y -> json_of x = json_of y) ->
  main None None cmd s out o s' -> In (Printed (Anom d n line)) (findings out) ->
  exists x l, In x targets /\ In (line, n) (lines_of_log (json_of x) (bytes_of x)) /\ compared_with name_of (concat ls) x l /\
    forall b y, In b l -> In y (lines_of_log (json_of b) (bytes_of b)) -> tok (fst y) <> tok line.
Proof.
  intros cmd ls targets name_of json_of bytes_of s out o s' d n line Hc0 Hl Hj H I.
  destruct (C93_diff _ _ _ _ _ _ _ _ _ _ Hc0 Hl Hj H) as (_ & _ & _ & parts & F & E & _). rewrite E in I.
  destruct (in_parts _ _ _ _ F I) as (x & [rows text] & X1 & _ & B & X2). cbn [fst snd] in *. exists x.
  inversion B as [u _ _|l positions cs rows' C E1 E2 _ E4 _ _]; subst; [destruct X2 as [X2|[]]; discriminate|]. apply E4 in X2. destruct X2 as (c & Ic & -> & -> & ->). exists l.
  destruct (forall2_in_l _ _ _ _ E2 Ic) as (i & Ii & D1 & D2). csplit; auto; [eapply nth_error_In; exact D1|].
  intros b y Hb Hy Et. apply (proj2 E1) in Ii. destruct Ii as [_ (b' & nr & B1 & B2)]. rewrite D1 in B1. injection B1 as <- <-. unfold run_dist in B2. rewrite real_known in B2; [discriminate|].
  cbn [concat]. rewrite app_nil_r, <- Et. apply in_flat_map. exists b. split; [exact Hb|]. now apply (in_map (fun x => tok (fst x))).
Qed.
(** If each log of the target has a log of its name in a baseline with the tokenized forms of all its
    lines, nothing is found; in a file or a pipe nothing is written. *)
Theorem C93_nothing : forall cmd ls targets name_of json_of bytes_of s out o s', compares cmd ls targets ->
  (forall x, In x (concat ls ++ targets) -> is_log open x (name_of x) (json_of x) (bytes_of x)) ->
  (forall x y, In x (concat ls) -> In y (concat ls) -> name_of x = name_of y -> json_of x = json_of y) ->
  (forall x, In x targets -> exists b, In b (concat ls) /\ name_of b = name_of x /\ forall y, In y (lines_of_log (json_of x) (bytes_of x)) -> exists z, In z (lines_of_log (json_of b) (bytes_of b)) /\ tok (fst z) = tok (fst y)) ->
  main None None cmd s out o s' -> o = Success /\ findings out = [] /\ (tty = false -> written up (printed out) = Some []).
Proof.
  intros cmd ls targets name_of json_of bytes_of s out o s' Hc0 Hl Hj Hk H.
  destruct (C93_diff _ _ _ _ _ _ _ _ _ _ Hc0 Hl Hj H) as (-> & _ & _ & parts & Fp & -> & W). split; [reflexivity|].
  assert (P : forall p, In p parts -> p = ([], [])).
  { intros [rows text] Hp. destruct (forall2_in_r _ _ _ _ Fp Hp) as (x & Hx & B). cbn [fst snd] in B. destruct (Hk x Hx) as (b & B1 & B2 & B3).
    inversion B as [u [N _] _|l positions cs rows' C E1 E2 _ E4 E5 (texts & T1 & T2)]; subst; [exfalso; now apply (N b)|].
    assert (cs = []) as ->.
    { destruct cs as [|c cs]; [reflexivity|exfalso]. destruct (forall2_in_l _ _ _ _ E2 (or_introl eq_refl)) as (i & Ii & D1 & D2). destruct (B3 _ (nth_error_In _ _ D1)) as (z & Z1 & Z2).
      apply (proj2 E1) in Ii. destruct Ii as [_ (b' & nr & N1 & N2)]. rewrite D1 in N1. injection N1 as <- <-. unfold run_dist in N2. rewrite real_known in N2; [discriminate|].
      cbn [concat]. rewrite app_nil_r. cbn [fst] in Z2. rewrite <- Z2. apply in_flat_map. exists b. split; [|now apply (in_map (fun x => tok (fst x)))].
      destruct C as [l S _|n _ A N]; [now apply (ReportMore.selected_in _ _ _ b S)|exact B1]. }
    f_equal. destruct rows as [|r rows]; [reflexivity|]. inversion T1 as [|? u ? us X Y]; subst. cbn [flat_map diff_text] in T2. destruct u; discriminate. }
  assert (E : forall (A : Type) (f : list (@out_line F) * bytes -> list A), f ([], []) = [] -> flat_map f parts = []).
  { intros A f Ef. clear - P Ef. induction parts as [|p parts IH]; [reflexivity|]. cbn [flat_map]. rewrite (P p (or_introl eq_refl)), Ef, IH; [reflexivity|]. intros q Hq. apply P. now right. }
  split; [now apply E|]. intros Et. rewrite (W Et). f_equal. now apply E.
Qed.
(** A run has no anomaly compared with itself, among any other baselines. *)
Theorem C93_itself : forall cmd ls targets name_of json_of bytes_of s out o s', compares cmd ls targets -> In targets ls ->
  (forall x, In x (concat ls) -> is_log open x (name_of x) (json_of x) (bytes_of x)) ->
  (forall x y, In x (concat ls) -> In y (concat ls) -> name_of x = name_of y -> json_of x = json_of y) ->
  main None None cmd s out o s' -> o = Success /\ findings out = [] /\ (tty = false -> written up (printed out) = Some []).
Proof.
  intros cmd ls targets name_of json_of bytes_of s out o s' Hc0 Hi Hl Hj H.
  assert (I : forall x, In x targets -> In x (concat ls)) by (intros x Hx; apply in_concat; eauto).
  eapply C93_nothing; try eassumption.
  - intros x Hx. apply in_app_or in Hx. destruct Hx as [Hx|Hx]; auto.
  - intros x Hx. exists x. csplit; auto. intros y Hy. eauto.
Qed.
(** A line of a log that has no word of the logs that it is compared with, not even up to collisions of
    hashes, is found, or a line of the same tokenized form before it. *)
Theorem C93_new : forall cmd ls targets name_of json_of bytes_of s out o s' x l y, compares cmd ls targets ->
  (forall x, In x (concat ls ++ targets) -> is_log open x (name_of x) (json_of x) (bytes_of x)) ->
  (forall x y, In x (concat ls) -> In y (concat ls) -> name_of x = name_of y -> json_of x = json_of y) ->
  main None None cmd s out o s' ->
  In x targets -> compared_with name_of (concat ls) x l -> In y (lines_of_log (json_of x) (bytes_of x)) ->
  (forall b z, In b l -> In z (lines_of_log (json_of b) (bytes_of b)) -> ~ share_bucket hash (tok (fst z)) (tok (fst y))) ->
  exists d n line, In (Printed (Anom d n line)) (findings out) /\ In (line, n) (lines_of_log (json_of x) (bytes_of x)) /\ tok line = tok (fst y).
Proof.
  intros cmd ls targets name_of json_of bytes_of s out o s' x l y Hc0 Hl Hj H Hx Hc Iy Hn.
  destruct (C93_diff _ _ _ _ _ _ _ _ _ _ Hc0 Hl Hj H) as (_ & _ & _ & parts & F & -> & _). destruct (forall2_in_l _ _ _ _ F Hx) as ([rows text] & Hp & B). cbn [fst snd] in B.
  inversion B as [u [N1 N2] _|l' positions cs rows' C E1 E2 _ E4 _ _]; subst.
  { exfalso. destruct Hc as [l S E|n E A N]; [|apply N2; eauto]. destruct l as [|b l]; [congruence|]. destruct (proj1 (ReportMore.selected_in _ _ _ b S) (or_introl eq_refl)) as [I1 I2]. now apply (N1 b). }
  rewrite (C93_one_group _ _ _ _ _ C Hc) in *. clear C l'. set (lines := lines_of_log (json_of x) (bytes_of x)) in *.
  assert (Hf : exists i x', nth_error lines i = Some x' /\ tok (fst x') = tok (fst y) /\ forall j z, (j < i)%nat -> nth_error lines j = Some z -> tok (fst z) <> tok (fst y)).
  { clear - Iy. induction lines as [|z lines IH]; [destruct Iy|]. destruct (list_eq_dec N.eq_dec (tok (fst z)) (tok (fst y))) as [E|E].
    - exists 0%nat, z. csplit; [reflexivity|exact E|]. intros j w Hj. lia.
    - destruct Iy as [->|Iy]; [congruence|]. destruct (IH Iy) as (i & x' & I1 & I2 & I3). exists (S i), x'. csplit; auto. intros [|j] w Hj Hw; [injection Hw as <-; exact E|]. apply (I3 j); [lia|exact Hw]. }
  destruct Hf as (i & [x' nx] & I1 & I2 & I3). cbn [fst] in I2.
  assert (Ii : In i positions).
  { apply (proj2 E1). split.
    - exists x', nx. csplit; auto. intros j b' nr' Hj' Hb'. rewrite I2. exact (I3 j (b', nr') Hj' Hb').
    - exists x', nx. split; [exact I1|]. rewrite I2. match goal with |- context [run_dist ?k] => destruct (C22_nothing_shared hash fused [k] (tok (fst y))) as [E K] end.
      + cbn [concat]. rewrite app_nil_r. intros w Iw. apply in_flat_map in Iw. destruct Iw as (b & Hb & Iw). apply in_map_iff in Iw. destruct Iw as (z & <- & Iz). now apply (Hn b).
      + unfold hashing_search in E. rewrite (search_pointwise hash fused _ [_]) in E. cbn [map] in E. injection E as E. unfold run_dist, real_dist. rewrite E. exact K. }
  destruct (forall2_in_r _ _ _ _ E2 Ii) as (c & Ic & D1 & D2). pose proof D1 as D3. rewrite I1 in D1. injection D1 as Ex En.
  exists (ProcModel.distance c), (apos c), (aline c). csplit; [|eapply nth_error_In; exact D3|congruence]. apply in_flat_map. exists (rows, diff_text up cs). split; [exact Hp|]. apply E4. eauto 8.
Qed.
End Runs.

(** ** A case that meets the hypotheses *)
(** Two directories: the first has a log with the name of a log of the second one, another log in a
    directory, and a link; the second has a log of its own, and a file that is excluded. *)
Definition run_tree (p : bytes) : FilesModel.node :=
  if eqb_list p (lit "old") then Dir [(lit "service.log", RegularFile); (lit "current", Symlink); (lit "sub", Dir [(lit "messages", RegularFile)])]
  else Dir [(lit "service.log", RegularFile); (lit "site.conf", RegularFile); (lit "extra.txt", RegularFile)].
Definition net_log := lit "network is up" ++ [10].
Definition run_bytes (s : source) : bytes :=
  match s with
  | Local _ p => if eqb_list p (lit "old/service.log") then old_log else if eqb_list p (lit "new/service.log") then new_log else net_log
  | Remote _ _ => []
  end.
Definition run_open (s : source) : res (bool -> list item) := read_file (run_bytes s).
Definition a_directory (t : text) := KDir.
Definition run_main := MainModel.main byte_hash false true (real_tok ascii_word) P_Cache.toy_write P_Cache.toy_finish P_Cache.toy_gunzip (fun d : bytes => d) toy_url toy_url P_Page.ex_up P_Page.ex_years P_Html.verbatim true P_Html.ex_fixed
  (from_input a_directory toy_url (fun _ => true) (fun _ => None)) (discover_baselines a_directory (fun _ => Fail (lit "no baseline"))) (discovery_of (fun _ => [])) run_tree (fun _ => Fail (lit "no network")) run_open error_e false (fun p => p) false.
Definition old_service := Local 3 (lit "old/service.log").
Definition old_messages := Local 3 (lit "old/sub/messages").
Definition new_service := Local 3 (lit "new/service.log").
Definition new_extra := Local 3 (lit "new/extra.txt").
Definition run_name (s : source) : text := match get_relative s with Some rel => index_name rel | None => [] end.
Definition run_groups := [(lit "service.log", [old_service]); (lit "sub/messages", [old_messages])].
Definition run_trained : ReportModel.model := match train_all (real_tok ascii_word) run_open run_groups with Val m => m | _ => [] end.
Definition run_model : @StoreModel.model csmat bytes := mkModel (1680000000%Z, 5) [CDirectory (Local 0 (lit "old"))] (stored_indexes byte_hash diff_times run_trained).
Lemma run_is_trained : run_trained = [(lit "service.log", ReportModel.mkIndex [old_service] [[lit "service started %ID seconds"; lit "well"]] 2 40); (lit "sub/messages", ReportModel.mkIndex [old_messages] [[lit "network"]] 1 13)].
Proof. vm_compute. reflexivity. Qed.
Lemma run_rust : rust_model (fun x => MatSpec.fits x /\ (true = true -> well_formed x = true)) (fun d : bytes => d) toy_url toy_url run_model.
Proof.
  unfold rust_model, run_model. rewrite run_is_trained. cbn [m_created m_baselines m_indexes stored_indexes map fst snd]. csplit.
  - settle.
  - cbn. settle.
  - unfold rust_map. csplit; [reflexivity|repeat constructor; cbn; intuition discriminate|]. constructor; [|constructor; [|constructor]]; cbn [fst snd]; (split; [settle|]);
    unfold rust_index, stored_index, diff_times; cbn [i_created i_train i_sources i_index i_lines i_bytes ix_sources ix_batches ix_lines ix_bytes fst snd]; csplit;
      try (apply C82_can_be_saved; [reflexivity|repeat constructor]); cbn; settle.
Qed.
Definition run_rows : list (@out_line F) := diff_rows_shown ++ [NoBaselines new_extra].
Definition new_content : content (@StoreModel.build bytes) := CDirectory (Local 0 (lit "new")).
Lemma run_pieces : live_pieces (real_tok ascii_word) (loaded_search byte_hash false) run_open error_e (mode false) (loaded_indexes run_model) new_content (MainModel.listing run_tree (fun _ => Fail (lit "no network")) new_content) = Val (map Row run_rows).
Proof.
  rewrite (pieces_same (real_tok ascii_word) _ (real_search byte_hash false) run_open error_e (mode false) (loaded_indexes run_model) run_trained).
  - vm_compute. reflexivity.
  - apply (stored_answers byte_hash false diff_times).
    + rewrite run_is_trained. repeat constructor; cbn [In map fst]; intuition discriminate.
    + reflexivity.
    + destruct run_rust as (_ & _ & _ & _ & R). eapply Forall_impl; [|exact R]. now intros e [].
Qed.
Example C93_example : exists out, run_main None None (CmdDiff [lit "old"] (lit "new")) no_disk out Success no_disk /\
  written P_Page.ex_up (printed out) = Some (lit "   1 | service started in 7 seconds" ++ [10] ++ lit "99 3 | disk failure detected" ++ [10] ++ lit "   3 | all is well" ++ [10] ++ lit " -> No baselines for local: /extra.txt" ++ [10]).
Proof.
  exists (map Out (map Row run_rows)). split; [|vm_compute; reflexivity].
  replace (map Out (map Row run_rows)) with (([] ++ map Out (map Row run_rows) ++ []) ++ []) by (now rewrite !app_nil_r).
  apply Main with (o := Success). cbn [run CliModel.process map]. constructor. change (from_input a_directory toy_url (fun _ => true) (fun _ => None) (input_from_string (lit "new"))) with (Val new_content). cbn [try get_contents].
  constructor. change (from_input a_directory toy_url (fun _ => true) (fun _ => None) (input_from_string (lit "old"))) with (Val (CDirectory (Local 0 (lit "old")) : content (@StoreModel.build bytes))). cbn [try].
  econstructor.
  - replace (@nil said) with (train_says (real_tok ascii_word) run_open error_e false run_groups) by (vm_compute; reflexivity).
    eapply Trained with (m := run_trained) (times := diff_times); [vm_compute; reflexivity|reflexivity|vm_compute; reflexivity|reflexivity|exact run_rust].
  - cbn [try keep_model inspect]. apply DoesLive with (r := Val tt); [|constructor]. apply LivePrinted. exact run_pieces.
Qed.
Lemma net_lines : lines_of_log false net_log = [(lit "network is up", 1)] /\ segments false net_log = [(lit "network is up", 1)].
Proof. split; vm_compute; reflexivity. Qed.
Lemma log_is base rel s c : full_name s = base ++ rel -> base_bytes s = N.of_nat (length (utf8_encode base)) -> run_name s = index_name rel -> ends_with (lit ".json") rel = false ->
  run_bytes s = c -> (forall json, items_of (all_lines false json [Data c]) = ok_items (fst (all_lines false json [Data c]))) -> read_sizes [c] -> plain_log false c -> is_log run_open s (run_name s) false (run_bytes s).
Proof.
  intros E1 E2 E3 E4 <- I R P. unfold is_log. csplit; [|exists false, [run_bytes s]; csplit; [exact R|apply app_nil_r|]|exact P].
  - exists rel. csplit; [now exists base|exact E3|]. split; [discriminate|]. intros X. apply suffix_ok in X. congruence.
  - unfold run_open, read_file. eexists. split; [reflexivity|]. intros json. apply I.
Qed.
Lemma run_log s : In s [old_service; old_messages; new_service; new_extra] -> is_log run_open s (run_name s) false (run_bytes s).
Proof.
  intros [<-|[<-|[<-|[<-|[]]]]];
    [apply (log_is (lit "old") (lit "/service.log") _ old_log)|apply (log_is (lit "old") (lit "/sub/messages") _ net_log)|apply (log_is (lit "new") (lit "/service.log") _ new_log)|apply (log_is (lit "new") (lit "/extra.txt") _ net_log)];
    lazymatch goal with
    | |- forall _, _ => intros []; vm_compute; reflexivity
    | |- read_sizes _ => repeat constructor; vm_compute; discriminate
    | |- plain_log _ _ => unfold plain_log
    | |- _ => vm_compute; reflexivity
    end.
  - rewrite old_lines, old_segments. plain_lines_tac.
  - rewrite (proj1 net_lines), (proj2 net_lines). plain_lines_tac.
  - rewrite new_lines, new_segments. plain_lines_tac.
  - rewrite (proj1 net_lines), (proj2 net_lines). plain_lines_tac.
Qed.
Example C93_example_runs : RunsSpec.logs_of a_directory toy_url (fun _ => true) (fun _ => false) (fun _ _ => False) run_tree (fun _ => Fail (lit "no network")) (lit "old") [old_service; old_messages] /\
  RunsSpec.logs_of a_directory toy_url (fun _ => true) (fun _ => false) (fun _ _ => False) run_tree (fun _ => Fail (lit "no network")) (lit "new") [new_service; new_extra] /\
  (forall s, In s [old_service; old_messages; new_service; new_extra] -> is_log run_open s (run_name s) false (run_bytes s)) /\
  compared_with run_name [old_service; old_messages] new_service [old_service] /\ not_compared run_name [old_service; old_messages] new_extra.
Proof.
  assert (V : forall s l o, ~ excluded s -> selected (fun s => ~ excluded s) l o -> selected (fun s => ~ excluded s) (s :: l) (s :: o)) by (intros; now constructor).
  assert (X : forall s l o, excluded s -> selected (fun s => ~ excluded s) l o -> selected (fun s => ~ excluded s) (s :: l) o) by (intros s l o E S; apply SelSkip; auto).
  csplit.
  - apply LogsDirectory with (paths := [lit "old/service.log"; lit "old/sub/messages"]).
    + intros H. apply prefix_ok in H. discriminate.
    + reflexivity.
    + discriminate.
    + change (run_tree (lit "old")) with (Dir [(lit "service.log", RegularFile); (lit "current", Symlink); (lit "sub", Dir [(lit "messages", RegularFile)])]). apply BelowDir.
      change [lit "old/service.log"; lit "old/sub/messages"] with ([join (lit "old") (lit "service.log")] ++ [] ++ ([join (join (lit "old") (lit "sub")) (lit "messages")] ++ []) ++ []).
      repeat constructor.
    + split; [|discriminate]. apply V; [apply is_valid_ok; vm_compute; reflexivity|]. apply V; [apply is_valid_ok; vm_compute; reflexivity|constructor].
  - apply LogsDirectory with (paths := [lit "new/service.log"; lit "new/site.conf"; lit "new/extra.txt"]).
    + intros H. apply prefix_ok in H. discriminate.
    + reflexivity.
    + discriminate.
    + change (run_tree (lit "new")) with (Dir [(lit "service.log", RegularFile); (lit "site.conf", RegularFile); (lit "extra.txt", RegularFile)]). apply BelowDir.
      change [lit "new/service.log"; lit "new/site.conf"; lit "new/extra.txt"] with ([join (lit "new") (lit "service.log")] ++ [join (lit "new") (lit "site.conf")] ++ [join (lit "new") (lit "extra.txt")] ++ []).
      repeat constructor.
    + split; [|discriminate]. apply V; [apply is_valid_ok; vm_compute; reflexivity|]. apply X; [|apply V; [apply is_valid_ok; vm_compute; reflexivity|constructor]].
      left. exists (lit ".conf"). split; [cbn; auto 30|left]. now exists (lit "new/site").
  - exact run_log.
  - apply SameName; [|discriminate]. apply SelKeep; [vm_compute; reflexivity|]. apply SelSkip; [vm_compute; discriminate|constructor].
  - split.
    + intros b [<-|[<-|[]]]; vm_compute; discriminate.
    + intros (n & _ & H). assert (E : run_name old_service = run_name old_messages) by (now rewrite !H; cbn; auto). vm_compute in E. discriminate.
Qed.

Print Assumptions C93_diff.
Print Assumptions C93_one_group.
Print Assumptions C93_known.
Print Assumptions C93_nothing.
Print Assumptions C93_itself.
Print Assumptions C93_new.
