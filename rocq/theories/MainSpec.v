(** Words of the properties of a command as a whole: C88. *)
From Coq Require Import String List NArith Bool Permutation.
From Verif Require Import Common ProcModel FilesModel CliModel IndexModel MatModel ReportModel ShownModel RenderModel OutModel MainModel.
From Verif Require StoreModel.
Import ListNotations.
Open Scope string_scope.
Open Scope list_scope.
Open Scope N_scope.

(** What the program writes itself, without the lines of tracing. *)
Definition printed (out : list said) : list piece := flat_map (fun x => match x with Out p => [p] | Log _ _ => [] end) out.
(** The rows about the logs. *)
Definition findings (out : list said) : list (@out_line F) := flat_map (fun p => match p with Row r => [r] | _ => [] end) (printed out).
(** The rows that say that a log cannot be read. *)
Definition unreadable (r : @out_line F) : Prop := match r with CouldNotRead _ _ => True | _ => False end.

(** A log that is read to its end: each item is a line that is unicode. *)
Definition readable (open : source -> res (bool -> list item)) (s : source) : Prop :=
  exists items, open s = Val items /\ forall json, Forall (fun it => match it with ILine b _ => valid_utf8 b = true | IErr _ => False end) (items json).

(** The commands that analyse an input, with the baselines that they are given. *)
Inductive analyses : command -> option (list input) -> input -> Prop :=
| AnalysesPath p : analyses (CmdPath p) None (InPath p)
| AnalysesUrl u : analyses (CmdUrl u) None (InUrl u)
| AnalysesDiff src dst : analyses (CmdDiff src dst) (Some (map input_from_string src)) (input_from_string dst).

(** A report about the content, of an analysis with the model that found [found].  The table of
    the indexes is a hash map, so it may have another order. *)
Definition report_about {Date} (c : content (@StoreModel.build Date)) (m : @StoreModel.model csmat Date) (found : @ReportModel.report F) (r : @StoreModel.report Date) : Prop :=
  StoreModel.r_target r = c /\ StoreModel.r_baselines r = StoreModel.m_baselines m /\
  log_reports (report_of r) = log_reports found /\
  Permutation (index_reports (report_of r)) (index_reports found) /\
  index_errors (report_of r) = index_errors found /\ read_errors (report_of r) = read_errors found /\
  StoreModel.r_lines r = total_line_count found /\ StoreModel.r_anomalies r = total_anomaly_count found.

(** ** The model that a command uses *)
Section Uses.
Variables (hash : bytes -> N) (checked : bool) (tok : bytes -> bytes) (gunzip : bytes -> bytes * bool).
Context {Date : Type}.
Variables (show_date : Date -> bytes) (parse_date : bytes -> option Date) (parse_url : bytes -> option bytes).
Notation build := (@StoreModel.build Date).
Notation model := (@StoreModel.model csmat Date).
Variables (get_content : input -> res (content build)) (discover : content build -> res (list (content build))) (discovery : content build -> list bytes)
  (tree : bytes -> FilesModel.node) (crawl : text -> res (list text)) (open : source -> res (bool -> list item)) (err_text : option N -> text) (tty : bool).
(** It is loaded if its file is there, else trained with the baselines, given or discovered. *)
Inductive uses (s : disk) (mp : option path) (baselines : option (list input)) (c : content build) : list said -> model -> Prop :=
| UsesLoaded p m : mp = Some p -> baselines = None -> StoreModel.load gunzip (model_codec checked show_date parse_date parse_url) (s p) = Val m ->
    uses s mp baselines c [Log Info (lit "Loading provided model path=" ++ p)] m
| UsesFound l b m : (forall p, mp = Some p -> s p = None) -> baselines = None -> discover c = Val l -> trains hash checked tok show_date parse_date parse_url tree crawl open err_text tty l b (Val m) ->
    uses s mp baselines c (map (Log Info) (discovery c) ++ b) m
| UsesGiven is l b m : (forall p, mp = Some p -> s p = None) -> baselines = Some is -> Forall2 (fun i c => get_content i = Val c) is l -> trains hash checked tok show_date parse_date parse_url tree crawl open err_text tty l b (Val m) ->
    uses s mp baselines c b m.
End Uses.
