(** Specification vocabulary for the page of a report: which reports have texts that can be
    written without being taken for markup, how a line is shown, and when two reports have the same
    shape. *)
From Coq Require Import String List NArith Bool.
From Verif Require Import Common FilesModel ProcModel ReportModel HtmlModel HtmlSpec.
Import ListNotations.
Open Scope string_scope.
Open Scope list_scope.
Open Scope N_scope.

Section Reports.
Context {D : Type}.
(** ** Clean reports
    [ok]: the texts that the html library writes without markup. *)
Section Clean.
Variable ok : bytes -> Prop.
Definition clean_source (s : source) : Prop := quotable (utf8_encode (as_str s)) /\ ok (utf8_encode (as_str s)).
Definition clean_context (c : @actx D) : Prop := Forall ok (before c) /\ ok (aline c) /\ Forall ok (after c).
Definition clean_log (lr : @log_report D) : Prop :=
  quotable (utf8_encode (as_str (lr_source lr))) /\ (forall n, get_relative (lr_source lr) = Some n -> ok (utf8_encode n)) /\
  quotable (utf8_encode (lr_index lr)) /\ ok (utf8_encode (lr_index lr)) /\ Forall clean_context (lr_anomalies lr).
Definition clean_report (r : @report D) : Prop :=
  Forall clean_log (log_reports r) /\ Forall (fun x => Forall clean_source (snd x)) (index_reports r).
Definition clean_summary (s : summary) : Prop :=
  ok (s_target s) /\ ok (s_baselines s) /\ ok (s_created s) /\ ok (s_time s) /\ ok (s_result s).
Definition clean_fixed (f : fixed) : Prop :=
  (exists v, f_logo f = lit "src=" ++ [34] ++ v ++ [34] /\ quotable v) /\
  Forall (fun x => quotable (fst x) /\ quotable (snd x)) (f_styles f ++ f_scripts f) /\
  ok (f_css f) /\ ok (f_js f) /\ ok (f_version f).
End Clean.

(** ** How a line is shown
    [write]: what the html library writes for a text; [percent]: the distance in 99ths. *)
Variable write : bytes -> bytes.
Variable percent : D -> N.
Inductive shows : @rline D -> bytes -> Prop :=
| ShowsContext n x d p : decimal n d -> padded 32 4 d p ->
    shows (Ctx n x) (write (lit "   " ++ p ++ lit " | " ++ x))
| ShowsAnomaly dist n x c q d p : decimal (percent dist) c -> padded 48 2 c q -> decimal n d -> padded 32 4 d p ->
    shows (Anom dist n x) (write (q ++ lit " " ++ p ++ lit " | " ++ x)).
(** Separators are not lines of a log. *)
Definition is_line (l : @rline D) : bool := match l with Hr => false | _ => true end.
(** [item]: a heading and the lines below it. *)
Definition shows_log (checks : bool) (lr : @log_report D) (item : bytes * list bytes) : Prop :=
  exists name lines, get_relative (lr_source lr) = Some name /\ render_lines checks None (lr_anomalies lr) = Some lines /\
    fst item = write (utf8_encode name) /\ Forall2 shows (filter is_line lines) (snd item).

(** ** Reports that differ only in their texts *)
Definition same_context (a b : @actx D) : Prop :=
  apos a = apos b /\ List.length (before a) = List.length (before b) /\ List.length (after a) = List.length (after b).
Definition same_log (r1 r2 : @report D) (a b : @log_report D) : Prop :=
  Forall2 same_context (lr_anomalies a) (lr_anomalies b) /\
  option_map (@List.length source) (hm_get (lr_index a) (index_reports r1)) = option_map (@List.length source) (hm_get (lr_index b) (index_reports r2)).
Definition same_shape (r1 r2 : @report D) : Prop := Forall2 (same_log r1 r2) (log_reports r1) (log_reports r2).
End Reports.
