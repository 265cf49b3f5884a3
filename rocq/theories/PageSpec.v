(** Specification vocabulary for the elements of a page: what is in its opening tags and the texts
    right behind them.  Nothing here knows how pages are made. *)
From Coq Require Import String List NArith Bool.
From Verif Require Import Common FilesModel ProcModel ReportModel HtmlSpec.
Import ListNotations.
Open Scope string_scope.
Open Scope list_scope.
Open Scope N_scope.

(** The text at the start of [l]. *)
Definition first_text (l : list token) : bytes := match l with Chars t :: _ => t | _ => [] end.
(** The elements with a name: the attributes and the text behind the tag. *)
Fixpoint elements_of (name : bytes) (l : list token) : list (bytes * bytes) :=
  match l with
  | [] => []
  | Open n attributes :: r => (if eqb_list n name then [(attributes, first_text r)] else []) ++ elements_of name r
  | _ :: r => elements_of name r
  end.
Definition elements (name : bytes) (page : bytes) : list (bytes * bytes) := elements_of name (tokens page).
(** An attribute with its value. *)
Definition attribute (name value : bytes) : bytes := lit " " ++ name ++ lit "=" ++ [34] ++ value ++ [34].

(** ** The elements of the page of a report
    [write]: what the html library writes for a text. *)
Section Reports.
Context {D : Type}.
Variable write : bytes -> bytes.
(** A link: where it goes and its text. *)
Definition link (target : bytes) (t : bytes) : bytes * bytes := (attribute (lit "href") target, write t).
(** The sources of the index with a name, if the report has it. *)
Definition sources_of (r : @report D) (n : text) : option (list source) :=
  option_map snd (find (fun x => eqb_list (fst x) n) (index_reports r)).
Definition name_of_source (s : source) : bytes := utf8_encode (as_str s).
(** The links of a log: its model, the file, and at most three baselines. *)
Definition log_links (r : @report D) (lr : @log_report D) : list (bytes * bytes) :=
  [link (lit "#model_" ++ utf8_encode (lr_index lr)) (utf8_encode (lr_index lr)); link (name_of_source (lr_source lr)) (lit "file")] ++
  match sources_of r (lr_index lr) with
  | Some l => map (fun s => link (name_of_source s) (name_of_source s)) (firstn 3 l)
  | None => []
  end.
(** The links of every page. *)
Definition page_links : list (bytes * bytes) :=
  [(attribute (lit "href") (lit "#") ++ lit " id='debugbtn'", write (lit "Show Debug"));
   (attribute (lit "href") (lit "https://github.com/logreduce/logreduce") ++ attribute (lit "target") (lit "_blank"), write (lit "Documentation"));
   (attribute (lit "href") (lit "#"), []);
   link (lit "log-classify.html") (lit "Report");
   link (lit "./") (lit "Job Artifacts")].
(** A line of a log: its attributes and its text. *)
Variables (percent colour : D -> N).
Inductive line_element : @rline D -> bytes * bytes -> Prop :=
| ContextElement n x d p : decimal n d -> padded 32 4 d p ->
    line_element (Ctx n x) ([], write (lit "   " ++ p ++ lit " | " ++ x))
| AnomalyElement dist n x c q d p a b : decimal (percent dist) c -> padded 48 2 c q -> decimal n d -> padded 32 4 d p ->
    colour dist = 16 * a + b -> a < 16 -> b < 16 ->
    line_element (Anom dist n x) (attribute (lit "style") (lit "color: #" ++ [nth (N.to_nat a) (lit " 123456789ABCDEF") 0; nth (N.to_nat b) (lit "0123456789ABCDEF") 0] ++ lit "0000"), write (q ++ lit " " ++ p ++ lit " | " ++ x)).
End Reports.

(** ** Pages that can be read
    The texts are written as they are and none can be taken for markup, or the library never writes
    markup for a text. *)
From Verif Require Import HtmlModel HtmlReportSpec.
Definition readable {D} (write : bytes -> bytes) (f : fixed) (s : summary) (r : @report D) : Prop :=
  ((forall t, write t = t) /\ clean_fixed harmless f /\ clean_summary harmless s /\ clean_report harmless r) \/
  ((forall t, harmless (write t)) /\ clean_fixed (fun _ => True) f /\ clean_report (fun _ => True) r).
