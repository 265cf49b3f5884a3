(** C70: the html page of a report. *)
From Coq Require Import String List NArith Arith Bool Lia.
From Verif Require Import Common CommonFacts FilesModel ProcModel ReportModel HtmlModel HtmlSpec HtmlReportSpec HtmlProofs HtmlPage.
Import ListNotations.
Open Scope string_scope.
Open Scope list_scope.
Open Scope N_scope.

(** ** Any html library
    [write]: what the library writes for a text.  Two kinds of libraries: [verbatim] (texts
    are written as they are, as html-builder 0.3 does) and those that never write markup for a
    text. *)
Definition verbatim (t : bytes) : bytes := t.
Definition escaping (write : bytes -> bytes) : Prop := forall t, harmless (write t).

Lemma shown_text_shows {D} write (percent : D -> N) lines : Forall2 (shows write percent) (filter is_line lines) (flat_map (shown_text write percent) lines).
Proof.
  induction lines as [|l lines IH]; [constructor|]. destruct l as [|n x|d n x]; cbn [filter is_line flat_map shown_text app]; [exact IH| |]; constructor; auto.
  - apply (ShowsContext write percent n x (fmt n)); [apply fmt_decimal|apply pad_padded].
  - apply (ShowsAnomaly write percent d n x (fmt (percent d)) (fmt02 (percent d)) (fmt n)); first [apply fmt_decimal|apply pad_padded].
Qed.
Lemma shown_shows {D} write (percent : D -> N) checks lr item : shown_log write percent checks lr item -> shows_log write percent checks lr item.
Proof. intros (name & lines & H1 & H2 & ->). exists name, lines. cbn [fst snd]. auto using shown_text_shows. Qed.
Lemma Forall2_impl {A B} (P Q : A -> B -> Prop) l1 l2 : (forall a b, P a b -> Q a b) -> Forall2 P l1 l2 -> Forall2 Q l1 l2.
Proof. intros H. induction 1; constructor; auto. Qed.

(** Reading the page back gives the log reports, in order: a heading with the name of the log and
    below it its lines, with their numbers and distances. *)
Theorem C70_page : forall D (percent colour : D -> N) checks f s r page,
  clean_fixed harmless f -> clean_summary harmless s -> clean_report harmless r ->
  render verbatim percent colour checks f s r = Some page ->
  Forall2 (shows_log verbatim percent checks) (log_reports r) (view_of page).
Proof.
  intros D percent colour checks f s r p Hf Hs Hr E. eapply Forall2_impl; [apply shown_shows|].
  eapply (page_view verbatim percent colour harmless); eauto using no60_harmless, harmless_app.
Qed.
Theorem C70_page_escaped : forall D (percent colour : D -> N) write checks f s r page, escaping write ->
  clean_fixed (fun _ => True) f -> clean_report (fun _ => True) r ->
  render write percent colour checks f s r = Some page ->
  Forall2 (shows_log write percent checks) (log_reports r) (view_of page).
Proof.
  intros D percent colour write checks f s r p Hw Hf Hr E. eapply Forall2_impl; [apply shown_shows|].
  eapply (page_view write percent colour (fun _ => True)); eauto. unfold clean_summary. tauto.
Qed.
(** The tags of the page do not depend on the texts of the report. *)
Theorem C70_markup : forall D (percent colour : D -> N) checks f s1 s2 r1 r2 page1 page2,
  clean_fixed harmless f -> clean_summary harmless s1 -> clean_summary harmless s2 ->
  clean_report harmless r1 -> clean_report harmless r2 -> same_shape r1 r2 ->
  render verbatim percent colour checks f s1 r1 = Some page1 -> render verbatim percent colour checks f s2 r2 = Some page2 ->
  tags (tokens page1) = tags (tokens page2).
Proof.
  intros D percent colour checks f s1 s2 r1 r2 p1 p2 Hf H1 H2 C1 C2 Hr E1 E2.
  apply (page_same verbatim percent colour harmless ltac:(auto) no60_harmless harmless_app checks f s1 s2 r1 r2); auto.
Qed.
Theorem C70_markup_escaped : forall D (percent colour : D -> N) write checks f s1 s2 r1 r2 page1 page2, escaping write ->
  clean_fixed (fun _ => True) f -> clean_report (fun _ => True) r1 -> clean_report (fun _ => True) r2 -> same_shape r1 r2 ->
  render write percent colour checks f s1 r1 = Some page1 -> render write percent colour checks f s2 r2 = Some page2 ->
  tags (tokens page1) = tags (tokens page2).
Proof.
  intros D percent colour write checks f s1 s2 r1 r2 p1 p2 Hw Hf C1 C2 Hr E1 E2.
  apply (page_same write percent colour (fun _ => True) (fun t _ => Hw t) (fun _ _ => I) (fun _ _ _ _ => I) checks f s1 s2 r1 r2); auto; unfold clean_summary; tauto.
Qed.
(** There is a page exactly when the name of each log can be cut out of its source and the
    numbers of its lines do not underflow. *)
Theorem C70_rendered : forall D (percent colour : D -> N) write checks f s r,
  render write percent colour checks f s r <> None <->
  forall lr, In lr (log_reports r) -> get_relative (lr_source lr) <> None /\ render_lines checks None (lr_anomalies lr) <> None.
Proof. intros. rewrite page_some, Forall_forall. reflexivity. Qed.
(** What could not be read or had no baseline is not on the page. *)
Theorem C70_errors_not_shown : forall D (percent colour : D -> N) write checks f s logs indexes e1 e2 u1 u2 lines anomalies lines' anomalies',
  render write percent colour checks f s (@mkReport D logs indexes e1 u1 lines anomalies) =
  render write percent colour checks f s (@mkReport D logs indexes e2 u2 lines' anomalies').
Proof.
  intros. unfold render, page_node, container. cbn [log_reports].
  assert (E : forall l expand, content_reports percent colour checks expand (@mkReport D logs indexes e1 u1 lines anomalies) l =
                               content_reports percent colour checks expand (@mkReport D logs indexes e2 u2 lines' anomalies') l).
  { induction l as [|a l IH]; intros expand; [reflexivity|]. cbn [content_reports index_reports]. now rewrite IH. }
  now rewrite E.
Qed.

(** ** Examples *)
Definition ex_fixed : fixed := mkFixed (lit "src=" ++ [34] ++ lit "data:image" ++ [34]) [(lit "https://a/b.css", lit "sha384-x")] [(lit "https://a/b.js", lit "sha384-y")]
  (lit "pre { margin: 0 }") (lit "if (1 < 2) { }") (lit "0.1").
Definition ex_summary : summary := mkSummary (lit "/logs/a") (lit "/logs/b") (lit "2022-01-01 00:00:00") (lit "1.00 sec") (lit "99.00% reduction (from 12 to 1)").
Definition ex_log (line : string) : @log_report N :=
  mkLog 12 100 [mkCtx [lit "x < y"] [lit "after"] 5 11 (lit line); mkCtx [] [] 7 20 (lit "last")] (Local 6 (lit "/logs/a.txt")) (lit "a.txt").
Definition ex_page (line : string) : @report N :=
  mkReport [ex_log line; mkLog 1 1 [] (Remote 9 (lit "http://x/b.log")) (lit "b.log")] [(lit "a.txt", [Local 6 (lit "/base/a.txt")])] [] [] 13 2.
Definition ex_render (write : bytes -> bytes) r := render write (fun d => d) (fun d => 2 * d) true ex_fixed ex_summary r.
Fixpoint harmlessb (t : bytes) : bool :=
  match t with [] => true | c :: r => (negb (c =? 60) || (match r with [] => false | _ => negb (opens r) end)) && harmlessb r end.
Lemma harmless_dec t : harmlessb t = true -> harmless t.
Proof.
  induction t as [|c t IH]; cbn [harmlessb harmless]; [auto|]. intros H. apply andb_true_iff in H. destruct H as [H1 H2]. split; [|now apply IH].
  intros ->. cbn in H1. destruct t; [discriminate|]. split; [discriminate|]. now apply negb_true_iff in H1.
Qed.
Ltac hs := apply harmless_dec; reflexivity.
Ltac qs := apply quotable_dec; reflexivity.
Example C70_example_clean_fixed : clean_fixed harmless ex_fixed.
Proof. split; [exists (lit "data:image"); split; [reflexivity|qs]|]. split; [repeat constructor; qs|]. split; [hs|split; hs]. Qed.
Example C70_example_clean_summary : clean_summary harmless ex_summary.
Proof. do 4 (split; [hs|]). hs. Qed.
Example C70_example_clean : clean_report harmless (ex_page "E < F").
Proof.
  split.
  - constructor; [|constructor; [|constructor]].
    + split; [qs|]. split; [intros n E; vm_compute in E; injection E as <-; hs|]. split; [qs|]. split; [hs|].
      constructor; [split; [constructor; [hs|constructor]|split; [hs|constructor; [hs|constructor]]]|].
      constructor; [split; [constructor|split; [hs|constructor]]|constructor].
    + split; [qs|]. split; [intros n E; vm_compute in E; injection E as <-; hs|]. split; [qs|]. split; [hs|constructor].
  - constructor; [|constructor]. constructor; [|constructor]. split; [qs|hs].
Qed.
Example C70_example : exists page, ex_render verbatim (ex_page "E < F") = Some page /\
  view_of page =
    [(lit "a.txt", [lit "     10 | x < y"; lit "05   11 | E < F"; lit "     12 | after"; lit "07   20 | last"]); (lit "b.log", [])].
Proof.
  set (v := [(_, _); _]). assert (H : option_map view_of (ex_render verbatim (ex_page "E < F")) = Some v) by (vm_compute; reflexivity).
  destruct (ex_render verbatim (ex_page "E < F")) as [page|]; [|discriminate]. injection H as H. eauto.
Qed.
Example C70_example_shape : same_shape (ex_page "E < F") (ex_page "something else").
Proof. repeat constructor. Qed.
(** A library that drops the less-than signs. *)
Definition dropping (t : bytes) : bytes := filter (fun c => negb (c =? 60)) t.
Example C70_example_escaping : escaping dropping.
Proof. intros t. apply no60_harmless. unfold dropping. rewrite filter_In. intros [_ H]. discriminate. Qed.

(** ** What fails *)
Definition scripts (page : bytes) : nat := List.length (filter (fun t => match t with Opening n => eqb_list n (lit "script") | Closing _ => false end) (tags (tokens page))).
Lemma scripts_of write r n : option_map scripts (ex_render write r) = Some n -> exists page, ex_render write r = Some page /\ scripts page = n.
Proof. destruct (ex_render write r) as [page|]; [|discriminate]. intros H. injection H as H. eauto. Qed.
(** A line of a log can add a script to the page, when texts are written as they are. *)
Theorem C70_line_refuted : exists page1 page2,
  same_shape (ex_page "a line") (ex_page "</pre><script>alert(1)</script>") /\
  ex_render verbatim (ex_page "a line") = Some page1 /\ ex_render verbatim (ex_page "</pre><script>alert(1)</script>") = Some page2 /\
  scripts page1 = 2%nat /\ scripts page2 = 3%nat.
Proof.
  destruct (scripts_of verbatim (ex_page "a line") 2) as (p1 & H1 & H2); [vm_compute; reflexivity|].
  destruct (scripts_of verbatim (ex_page "</pre><script>alert(1)</script>") 3) as (p2 & H3 & H4); [vm_compute; reflexivity|].
  exists p1, p2. split; [repeat constructor|]. auto.
Qed.
(** The name of a file can, even when texts are escaped: names are also put into attributes. *)
Definition ex_named (name : bytes) : @report N := mkReport [mkLog 1 1 [] (Local 0 name) (lit "a")] [] [] [] 1 0.
Theorem C70_name_refuted : exists name page, escaping dropping /\ utf8_decode name <> None /\
  ex_render dropping (ex_named name) = Some page /\ scripts page = 3%nat.
Proof.
  destruct (scripts_of dropping (ex_named (34 :: 62 :: lit "<script>alert(1)")) 3) as (p & H1 & H2); [vm_compute; reflexivity|].
  exists (34 :: 62 :: lit "<script>alert(1)"), p. split; [exact C70_example_escaping|]. split; [vm_compute; discriminate|]. auto.
Qed.

Print Assumptions C70_page.
Print Assumptions C70_page_escaped.
Print Assumptions C70_markup.
Print Assumptions C70_markup_escaped.
Print Assumptions C70_rendered.
Print Assumptions C70_errors_not_shown.
Print Assumptions C70_line_refuted.
Print Assumptions C70_name_refuted.
