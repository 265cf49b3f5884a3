(** Properties of the page of a saved report: C77, C78 and C79. *)
From Coq Require Import String List NArith ZArith Bool Lia Permutation.
From Verif Require Import Common CommonFacts FilesModel FilesSources ProcModel ReportModel HtmlModel HtmlSpec HtmlReportSpec HtmlProofs HtmlPage P_Html.
From Verif Require Import PageSpec PageProofs CacheSpec RenderModel P_Store P_Render IndexModel ShownModel ShownSpec ShownProofs.
From Verif Require StoreModel StoreSpec.
Import ListNotations.
Open Scope string_scope.
Open Scope list_scope.
Open Scope N_scope.
Ltac csplit := repeat match goal with |- _ /\ _ => split end.
Ltac nosixty := apply no60_dec; reflexivity.

(** ** C77: the table *)
(** A row for each of the five, with its name. *)
Definition rows (s : summary) : list bytes :=
  [lit "Target"; s_target s; lit "Baselines"; s_baselines s; lit "Created at"; s_created s; lit "Run time"; s_time s; lit "Result"; s_result s].
Theorem C77_table : forall D (percent colour : D -> N) write checks f s r page, readable write f s r ->
  render write percent colour checks f s r = Some page ->
  elements (lit "td") page = map (fun t => ([], write t)) (rows s).
Proof.
  intros D percent colour write checks f s r page H E. destruct (is_rendered _ _ _ _ _ _ _ _ E) as (n & En & ->).
  rewrite elements_node by eauto using readable_safe. now rewrite (td_page write percent colour checks f s r n En).
Qed.

(** ** C79: the links and the numbers of anomalies *)
(** Behind the links of every page come those of each log, in order. *)
Theorem C79_links : forall D (percent colour : D -> N) write checks f s r page, readable write f s r ->
  render write percent colour checks f s r = Some page ->
  elements (lit "a") page = page_links write ++ flat_map (log_links write r) (log_reports r).
Proof.
  intros D percent colour write checks f s r page H E. destruct (is_rendered _ _ _ _ _ _ _ _ E) as (n & En & ->).
  rewrite elements_node by eauto using readable_safe. now rewrite (a_page write percent colour checks f s r n En).
Qed.
Theorem C79_counts : forall D (percent colour : D -> N) write checks f s r page, readable write f s r ->
  render write percent colour checks f s r = Some page ->
  exists counts, elements (lit "strong") page = ([], write (lit "Version")) :: map (fun t => ([], write t)) counts /\
    Forall2 (fun lr t => decimal (N.of_nat (List.length (lr_anomalies lr))) t) (log_reports r) counts.
Proof.
  intros D percent colour write checks f s r page H E. destruct (is_rendered _ _ _ _ _ _ _ _ E) as (n & En & ->).
  rewrite elements_node by eauto using readable_safe. rewrite (strong_page write percent colour checks f s r n En).
  exists (map (fun lr => fmt (N.of_nat (List.length (lr_anomalies lr)))) (log_reports r)). split; [now rewrite map_map|].
  induction (log_reports r) as [|lr l IH]; constructor; auto using fmt_decimal.
Qed.

Lemma context_no_anomaly {D} xs : forall pos d k x, ~ In (Anom d k x) (@render_context D pos xs).
Proof. induction xs as [|y xs IH]; intros pos d k x; cbn [render_context In]; [auto|]. intros [E|E]; [discriminate|now apply IH in E]. Qed.
Lemma rendered_anomaly {D} checks (l : list (@actx D)) : forall last lines d k x, render_lines checks last l = Some lines -> In (Anom d k x) lines -> exists c, In c l /\ distance c = d.
Proof.
  induction l as [|c l IH]; intros last lines d k x E I; cbn [render_lines] in E; [injection E as <-; destruct I|].
  destruct (starting_pos checks c) as [st|]; [|discriminate]. destruct (render_lines checks _ l) as [out|] eqn:El; [|discriminate]. injection E as <-.
  apply in_app_or in I. destruct I as [I|I]; [|apply in_app_or in I; destruct I as [I|I]; [|apply (in_app_or [_]) in I; destruct I as [I|I]; [|apply in_app_or in I; destruct I as [I|I]]]].
  - destruct last; [destruct (_ =? _)|]; cbn [In] in I; intuition discriminate.
  - now apply context_no_anomaly in I.
  - destruct I as [[= <- <- <-]|[]]. exists c. split; [now left|reflexivity].
  - now apply context_no_anomaly in I.
  - destruct (IH _ _ _ _ _ El I) as (c' & H & <-). exists c'. split; [now right|reflexivity].
Qed.
(** ** C78: the lines and their colours *)
(** The lines of each log are shown in order; a line is coloured if and only if it is an anomaly. *)
Theorem C78_lines : forall D (percent colour : D -> N) write checks f s r page, readable write f s r ->
  (forall lr c, In lr (log_reports r) -> In c (lr_anomalies lr) -> colour (distance c) < 256) ->
  render write percent colour checks f s r = Some page ->
  exists parts, elements (lit "pre") page = concat parts /\
    Forall2 (fun lr part => exists lines, render_lines checks None (lr_anomalies lr) = Some lines /\ Forall2 (line_element write percent colour) (filter is_line lines) part) (log_reports r) parts.
Proof.
  intros D percent colour write checks f s r page H HC E. destruct (is_rendered _ _ _ _ _ _ _ _ E) as (n & En & ->).
  rewrite elements_node by eauto using readable_safe. destruct (pre_page write percent colour checks f s r n En) as (parts & E1 & E2).
  exists parts. split; [exact E1|]. clear - HC E2. revert HC. induction E2 as [|lr part l parts (lines & L & ->) _ IH]; intros HC; constructor; [|apply IH; intros; eapply HC; eauto; now right].
  exists lines. split; [exact L|]. assert (A : forall d n x, In (Anom d n x) lines -> colour d < 256).
  { intros d k x I. destruct (rendered_anomaly checks _ None lines d k x L I) as (c & Ic & <-). eapply HC; eauto. now left. }
  clear - A. induction lines as [|x lines IH]; [constructor|]. assert (IH' := IH (fun d n y I => A d n y (or_intror I))). clear IH.
  destruct x as [|k x|d k x]; cbn [filter is_line flat_map line_attrs app]; [exact IH'| |]; constructor; auto.
  - apply (ContextElement write percent colour k x (fmt k)); [apply fmt_decimal|apply pad_padded].
  - destruct (hex_pair (colour d) (A d k x (or_introl eq_refl))) as (a & b & Eab & La & Lb & X). rewrite X. apply AnomalyElement with (c := fmt (percent d)) (d := fmt k) (a := a) (b := b); auto using fmt_decimal; apply pad_padded.
Qed.

(** ** C77: the page of a saved report *)
(** The texts of the times and of the result are never taken for markup. *)
Lemma places_no60 k q : ~ In 60 (places k q).
Proof.
  unfold places. rewrite in_app_iff. intros [H|H]; [now apply fmt_no60 in H|]. destruct (k =? 0); [destruct H|]. destruct H as [H|H]; [discriminate|].
  apply pad_in in H. destruct H as [H|H]; [discriminate|now apply fmt_no60 in H].
Qed.
Lemma padded_no60 c w t : c <> 60 -> ~ In 60 t -> ~ In 60 (pad c w t).
Proof. intros H K I. apply pad_in in I. destruct I as [I|I]; [congruence|auto]. Qed.
Lemma app_no60 (a b : bytes) : ~ In 60 a -> ~ In 60 b -> ~ In 60 (a ++ b).
Proof. rewrite in_app_iff. tauto. Qed.
Lemma cons_no60 c (b : bytes) : c <> 60 -> ~ In 60 b -> ~ In 60 (c :: b).
Proof. cbn [In]. tauto. Qed.
Lemma float_no60 up w k x : ~ In 60 (fmt_float up w k x).
Proof.
  destruct x as [s|s|s pl E|s m e B]; unfold fmt_float.
  - apply app_no60; [destruct s; nosixty|]. apply padded_no60; [discriminate|apply places_no60].
  - apply app_no60; [destruct s; nosixty|nosixty].
  - nosixty.
  - apply app_no60; [destruct s; nosixty|]. apply padded_no60; [discriminate|apply places_no60].
Qed.
Lemma two_no60 n : ~ In 60 (fmt_two n).
Proof. apply padded_no60; [discriminate|apply fmt_no60]. Qed.
Lemma year_no60 y : ~ In 60 (fmt_year y).
Proof. unfold fmt_year. destruct ((0 <=? y)%Z && _); [apply padded_no60; [discriminate|apply fmt_no60]|]. apply app_no60; [destruct (y <? 0)%Z; nosixty|]. apply padded_no60; [discriminate|apply fmt_no60]. Qed.
Lemma time_no60 has_year t x : render_time has_year t = Some x -> ~ In 60 x.
Proof.
  unfold render_time. destruct (civil _) as [[y m] d]. destruct (has_year y); [|discriminate]. intros [= <-].
  repeat first [apply cons_no60; [discriminate|]|apply app_no60; [first [apply year_no60|apply two_no60|nosixty]|]]. apply two_no60.
Qed.
Theorem C77_clean : forall Date up has_year (r : @StoreModel.report Date) s, summary_of up has_year r = Some s ->
  harmless (s_target s) -> harmless (s_baselines s) -> clean_summary harmless s.
Proof.
  intros Date up has_year r s. unfold summary_of. destruct (content_text _); [|discriminate]. destruct (all_texts _ _); [|discriminate].
  destruct (render_time has_year _) eqn:E; [|discriminate]. intros [= <-]. unfold clean_summary. cbn [s_target s_baselines s_created s_time s_result]. intros Ht Hb.
  csplit; auto; apply no60_harmless.
  - eapply time_no60; eauto.
  - unfold time_text. apply app_no60; [apply float_no60|nosixty].
  - unfold result_text. repeat (apply app_no60; [first [apply float_no60|apply fmt_no60|nosixty]|]). nosixty.
Qed.
(** There is a page exactly when the target, the baselines and the logs have names, chrono has the
    date, and no line number underflows. *)
Lemma all_some {A} (f : A -> option bytes) l : all_texts f l <> None <-> Forall (fun x => f x <> None) l.
Proof.
  induction l as [|x l IH]; cbn [all_texts]; [split; [constructor|discriminate]|]. destruct (f x) eqn:E; [|split; [congruence|intros H; inversion H; congruence]].
  destruct (all_texts f l) as [ts|]; split; intros H; try discriminate; try congruence.
  - constructor; [congruence|]. apply IH. discriminate.
  - inversion H; subst. now apply IH in H3.
Qed.
Theorem C77_rendered : forall Date up has_year write checks f (r : @StoreModel.report Date),
  (exists page, render_saved up has_year write checks f r = Val page) <->
  content_text (StoreModel.r_target r) <> None /\ Forall (fun c => content_text c <> None) (StoreModel.r_baselines r) /\
  render_time has_year (StoreModel.r_created r) <> None /\
  Forall (fun l => get_relative (StoreModel.l_source l) <> None /\ render_lines checks None (map context_of (StoreModel.l_anomalies l)) <> None) (StoreModel.r_logs r).
Proof.
  intros Date up has_year write checks f r. rewrite <- all_some. unfold render_saved, summary_of.
  destruct (content_text (StoreModel.r_target r)); [|split; [intros [p H]; discriminate|intros [H _]; congruence]].
  destruct (all_texts _ _); [|split; [intros [p H]; discriminate|intros (_ & H & _); congruence]].
  destruct (render_time has_year _); [|split; [intros [p H]; discriminate|intros (_ & _ & H & _); congruence]].
  set (s := mkSummary _ _ _ _ _). pose proof (C70_rendered _ percent colour write checks f s (report_of r)) as R. cbn [report_of log_reports] in R. rewrite Forall_forall.
  assert (R' : render write percent colour checks f s (report_of r) <> None <-> forall l, In l (StoreModel.r_logs r) -> get_relative (StoreModel.l_source l) <> None /\ render_lines checks None (map context_of (StoreModel.l_anomalies l)) <> None).
  { rewrite R. split; [intros H l0 I; exact (H (log_of l0) (in_map log_of _ _ I))|]. intros H lr I. apply in_map_iff in I. destruct I as (l1 & <- & I). now apply H. }
  destruct (render write percent colour checks f s (report_of r)) as [p|].
  - split; [intros _; csplit; try discriminate; apply R'; discriminate|eauto].
  - split; [intros [p H]; discriminate|]. intros (_ & _ & _ & H). apply R' in H. congruence.
Qed.

(** What the page of a report shows: the table, the links, the numbers of anomalies and the lines. *)
Definition shows_report {Date} (write : bytes -> bytes) (checks : bool) (s : summary) (r : @StoreModel.report Date) (page : bytes) : Prop :=
  elements (lit "td") page = map (fun t => ([], write t)) (rows s) /\
  elements (lit "a") page = page_links write ++ flat_map (log_links write (report_of r)) (map log_of (StoreModel.r_logs r)) /\
  (exists counts, elements (lit "strong") page = ([], write (lit "Version")) :: map (fun t => ([], write t)) counts /\
    Forall2 (fun l t => decimal (N.of_nat (List.length (StoreModel.l_anomalies l))) t) (StoreModel.r_logs r) counts) /\
  Forall2 (fun l => shows_log write percent checks (log_of l)) (StoreModel.r_logs r) (view_of page).
Section Saved.
Variable enc_write : list bytes -> bytes -> bytes.
Variable enc_finish : list bytes -> bytes.
Variable gunzip : bytes -> bytes * bool.
Hypothesis gz : gzip_codec enc_write enc_finish gunzip.
Context {Date : Type}.
Variable show_date : Date -> bytes.
Variable parse_date : bytes -> option Date.
Variable parse_url : bytes -> option bytes.
Hypothesis GU : StoreSpec.good_urls parse_url.
Hypothesis GD : StoreSpec.good_dates show_date parse_date.
Notation report_codec := (StoreModel.report_codec show_date parse_date parse_url).
Variable up : N -> bool.
Variable has_year : Z -> bool.
Variable write : bytes -> bytes.
Variable checks : bool.
Variable f : fixed.
(** A report was saved at [fp]: the program that renders it writes its page beside it, or panics
    for one of the reasons of [C77_rendered] or of [std::fs::write]. *)
Theorem C77_saved_page : forall r ws (d : disk) fp o d',
  StoreSpec.rust_report show_date parse_date parse_url r -> StoreSpec.saveable_report r ->
  concat ws = fst (StoreModel.enc report_codec r) -> d fp = Some (archive enc_write enc_finish ws) ->
  render_main (StoreModel.load gunzip report_codec) (render_saved up has_year write checks f) d [fp] o d' ->
  (o = RPanicked /\ (forall q, d' q = d q \/ q = set_extension (lit "html") fp)) \/
  exists s page, o = Updated (set_extension (lit "html") fp) /\ d' (set_extension (lit "html") fp) = Some page /\
    summary_of up has_year r = Some s /\ (readable write f s (report_of r) -> shows_report write checks s r page).
Proof.
  intros r ws d fp o d' Hr Hs Hw Hd M. pose proof (C73_report_round_trip enc_write enc_finish gunzip gz show_date parse_date parse_url GU GD r ws Hr Hs Hw) as L.
  change (StoreModel.gzip enc_write enc_finish ws) with (archive enc_write enc_finish ws) in L. rewrite <- Hd in L. inversion M as [args Ha| |fp' r' Hl Hn|fp' r' h ok d'' Hl Hh Hf]; subst.
  - cbn in Ha. congruence.
  - left. auto.
  - left. auto.
  - rewrite L in Hl. injection Hl as <-. destruct ok.
    + right. inversion Hf; subst. unfold render_saved in Hh. destruct (summary_of up has_year r) as [s|] eqn:Es; [|discriminate].
      destruct (render write percent colour checks f s (report_of r)) as [p|] eqn:Ep; [|discriminate]. injection Hh as ->. exists s, h. csplit; auto.
      * unfold update. now rewrite eqb_list_refl.
      * intros Hc. unfold shows_report. csplit.
        -- eapply C77_table; eauto.
        -- exact (C79_links _ percent colour write checks f s (report_of r) h Hc Ep).
        -- destruct (C79_counts _ percent colour write checks f s (report_of r) h Hc Ep) as (cs & E1 & E2). exists cs. split; [exact E1|]. cbn [report_of log_reports] in E2.
           clear - E2. revert cs E2. induction (StoreModel.r_logs r) as [|l ls IH]; cbn [map]; intros cs E2; inversion E2; subst; constructor; auto. cbn [log_of lr_anomalies] in *. now rewrite map_length in *.
        -- assert (V : Forall2 (shows_log write percent checks) (map log_of (StoreModel.r_logs r)) (view_of h)).
           { destruct Hc as [(W & Hf1 & Hf2 & Hf3)|(W & Hf1 & Hf2)]; [|eapply (C70_page_escaped _ percent colour write checks f s (report_of r)); eauto].
             eapply Forall2_impl; [apply shown_shows|]. eapply (page_view write percent colour harmless) with (r := report_of r); eauto using no60_harmless, harmless_app. intros t. now rewrite W. }
           clear - V. revert V. generalize (view_of h). induction (StoreModel.r_logs r) as [|l ls IH]; cbn [map]; intros v V; inversion V; subst; constructor; auto.
    + left. split; [reflexivity|]. intros q. inversion Hf; subst; [now left|]. unfold update. destruct (eqb_list q _) eqn:E; [right; now apply eqb_list_spec|now left].
Qed.
End Saved.

(** ** Examples *)
Example C79_example_readable : readable verbatim ex_fixed ex_summary (ex_page "E < F") /\ readable dropping ex_fixed ex_summary (ex_page "E < F").
Proof.
  split; [left|right].
  - split; [reflexivity|]. split; [exact C70_example_clean_fixed|]. split; [exact C70_example_clean_summary|exact C70_example_clean].
  - split; [exact C70_example_escaping|]. destruct C70_example_clean_fixed as (A & B & _). split; [unfold clean_fixed; auto|].
    destruct C70_example_clean as [A' B']. split; [eapply Forall_impl; [|exact A']|eapply Forall_impl; [|exact B']].
    + intros lr (Q & _ & Q' & _ & C). unfold clean_log. csplit; auto. eapply Forall_impl; [|exact C]. intros c _. unfold clean_context. csplit; auto; apply Forall_forall; auto.
    + intros x H. eapply Forall_impl; [|exact H]. intros s [Q _]. split; auto.
Qed.
Example C79_example : exists page, ex_render verbatim (ex_page "E < F") = Some page /\
  map snd (elements (lit "td") page) = [lit "Target"; lit "/logs/a"; lit "Baselines"; lit "/logs/b"; lit "Created at"; lit "2022-01-01 00:00:00"; lit "Run time"; lit "1.00 sec"; lit "Result"; lit "99.00% reduction (from 12 to 1)"] /\
  map snd (elements (lit "strong") page) = [lit "Version"; lit "2"; lit "0"] /\
  skipn 5 (elements (lit "a") page) =
    [(attribute (lit "href") (lit "#model_a.txt"), lit "a.txt"); (attribute (lit "href") (lit "/logs/a.txt"), lit "file"); (attribute (lit "href") (lit "/base/a.txt"), lit "/base/a.txt");
     (attribute (lit "href") (lit "#model_b.log"), lit "b.log"); (attribute (lit "href") (lit "http://x/b.log"), lit "file")] /\
  elements (lit "pre") page = [([], lit "     10 | x < y"); (attribute (lit "style") (lit "color: # A0000"), lit "05   11 | E < F"); ([], lit "     12 | after"); (attribute (lit "style") (lit "color: # E0000"), lit "07   20 | last")].
Proof.
  destruct (ex_render verbatim (ex_page "E < F")) as [page|] eqn:E; [|discriminate]. exists page. split; [reflexivity|].
  vm_compute in E. injection E as <-. csplit; vm_compute; reflexivity.
Qed.
Definition ex_up (q : N) : bool := true.
Definition ex_years (y : Z) : bool := (y <? 200000)%Z.
Example C77_example_saved : exists s page, summary_of ex_up ex_years report1 = Some s /\ render_saved ex_up ex_years verbatim true ex_fixed report1 = Val page /\
  readable verbatim ex_fixed s (report_of report1) /\ rows s =
  [lit "Target"; lit "Zuul(http://zuul/api/build/uuid)"; lit "Baselines"; lit "File(local: /a.log), Directory(remote: b.log)"; lit "Created at"; lit "2023-03-28 10:40:00";
   lit "Run time"; lit "3.25 sec"; lit "Result"; lit "66.67% reduction (from 3 to 1)"].
Proof.
  destruct (summary_of ex_up ex_years report1) as [s|] eqn:Es; [|vm_compute in Es; discriminate].
  destruct (render_saved ex_up ex_years verbatim true ex_fixed report1) as [page| |] eqn:Ep; [|exfalso; vm_compute in Ep; discriminate|exfalso; vm_compute in Ep; discriminate].
  exists s, page. csplit; auto.
  - left. split; [reflexivity|]. split; [exact C70_example_clean_fixed|]. split.
    + apply (C77_clean _ _ _ _ _ Es); vm_compute in Es; injection Es as <-; cbn [s_target s_baselines]; hs.
    + split.
      * constructor; [|constructor]. split; [qs|]. split; [intros n E; vm_compute in E; injection E as <-; hs|]. split; [qs|]. split; [hs|].
        constructor; [|constructor]. split; [constructor; [hs|constructor]|]. split; [hs|]. constructor; [hs|]. constructor; [hs|constructor].
      * constructor; [|constructor; [|constructor]]; (constructor; [|constructor]); split; first [qs|hs].
  - vm_compute in Es. injection Es as <-. reflexivity.
Qed.

Print Assumptions C77_table.
Print Assumptions C77_clean.
Print Assumptions C77_rendered.
Print Assumptions C77_saved_page.
Print Assumptions C78_lines.
Print Assumptions C79_links.
Print Assumptions C79_counts.
