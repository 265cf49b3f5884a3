(** Words of the property of a comparison of runs, from the command line to the page: C94.  The models
    are imported for the types of sources, anomalies, rows and reports. *)
From Coq Require Import String List NArith Bool.
From Verif Require Import Common ProcModel ProcSpec ProcExactSpec IndexModel FilesModel FilesSpec ReportModel HtmlReportSpec PageSpec RunsSpec DiffPageSpec.
Import ListNotations.
Open Scope string_scope.
Open Scope list_scope.
Open Scope N_scope.

(** What is found in the logs of a run, by log *)
Notation findings_of := (list (source * list (@actx F))).
Definition some_found (x : source * list (@actx F)) : bool := match snd x with [] => false | _ :: _ => true end.

Section Found.
Variable tok : bytes -> bytes.
Variable dist : list bytes -> bytes -> F.               (* the distance to the lines of an index *)
Variable name_of : source -> text.
Variable lines_in : source -> list (bytes * N).         (* the lines of a log with their numbers *)
Variable baselines : list source.                       (* the logs of all baselines *)
Notation known_lines := (known_lines tok lines_in).

(** The logs of the target, by name.  The order of the names is that of a hash map, the order of the logs
    of a name is theirs. *)
Definition by_name (targets : list source) (groups : list (text * list source)) : Prop :=
  NoDup (map fst groups) /\ forall n l, In (n, l) groups <-> l <> [] /\ selected (fun s => name_of s = n) targets l.
(** What is found in the logs of a name, one after the other, compared with the logs [base].  A line that
    has the tokenized form of a line of an [earlier] log is not reported again. *)
Inductive found_in (base : list source) : list source -> list source -> findings_of -> Prop :=
| FoundAll earlier : found_in base earlier [] []
| FoundLog earlier s l known positions cs found :
    (forall t, In t known <-> In t (known_lines earlier)) ->
    enumerates above_threshold tok (dist (known_lines base)) known (lines_in s) positions ->
    Forall2 (describes tok (dist (known_lines base)) (lines_in s)) cs positions ->
    exact_contexts above_threshold tok (dist (known_lines base)) known (lines_in s) cs positions ->
    found_in base (earlier ++ [s]) l found ->
    found_in base earlier (s :: l) ((s, cs) :: found).
(** The outcome for the logs of a name: there is nothing to compare them with, or the logs that they are
    compared with and what is found. *)
Inductive outcome : Type := NothingToCompare | Compared (base : list source) (found : findings_of).
Inductive comes_to (l : list source) : outcome -> Prop :=
| ComesNothing : (forall s, In s l -> not_compared name_of baselines s) -> comes_to l NothingToCompare
| ComesFound base found : (forall s, In s l -> compared_with name_of baselines s base) -> found_in base [] l found -> comes_to l (Compared base found).

(** ** What the report says of them *)
Notation result := ((text * list source) * outcome)%type.
(** The logs with anomalies *)
Definition said_logs (x : result) : list (@log_report F) :=
  match snd x with
  | NothingToCompare => []
  | Compared _ found => map (fun y => mkLog (N.of_nat (length (lines_in (fst y)))) (total_bytes (lines_in (fst y))) (snd y) (fst y) (fst (fst x))) (filter some_found found)
  end.
(** The logs that they were compared with, once for each name *)
Definition said_indexes (x : result) : list (text * list source) :=
  match snd x with
  | NothingToCompare => []
  | Compared base found => if existsb some_found found then [(fst (fst x), base)] else []
  end.
(** The logs that were not compared *)
Definition said_errors (x : result) : list (list source) := match snd x with NothingToCompare => [snd (fst x)] | Compared _ _ => [] end.
(** The numbers of lines and anomalies *)
Definition said_lines (x : result) : N :=
  match snd x with NothingToCompare => 0 | Compared _ found => fold_right (fun y n => N.of_nat (length (lines_in (fst y))) + n) 0 found end.
Definition said_anomalies (x : result) : N :=
  match snd x with NothingToCompare => 0 | Compared _ found => fold_right (fun y n => N.of_nat (length (snd y)) + n) 0 found end.
Definition total (f : result -> N) (l : list result) : N := fold_right (fun x n => f x + n) 0 l.
End Found.

(** ** What the page shows of a log: a heading, its name, and its lines *)
Definition log_section (write : bytes -> bytes) (percent : F -> N) (lr : @log_report F) (item : bytes * list bytes) : Prop :=
  exists rel, below (lr_source lr) rel /\ fst item = write (utf8_encode rel) /\ Forall2 (shows write percent) (page_rows (lr_anomalies lr)) (snd item).
(** The links of the logs: to its model, to the file, and to at most three of the logs that it was compared with *)
Definition said_links (write : bytes -> bytes) (x : (text * list source) * outcome) : list (bytes * bytes) :=
  match snd x with
  | NothingToCompare => []
  | Compared base found =>
    flat_map (fun y => [link write (lit "#model_" ++ utf8_encode (fst (fst x))) (utf8_encode (fst (fst x))); link write (name_of_source (fst y)) (lit "file")] ++
                       map (fun s => link write (name_of_source s) (name_of_source s)) (firstn 3 base)) (filter some_found found)
  end.
