(** Words of the property of a comparison of runs, from the command line to the standard output: C93.
    A run is a log, a directory, an address or a build; each log of the target is compared with the logs
    of the baselines that have its name.  The models are imported for the types of sources, trees and
    rows, for the name that logs are grouped by (what it is: C33, C34) and for what [main] is. *)
From Coq Require Import String List NArith Bool.
From Verif Require Import Common TokSpec ProcModel ProcSpec ProcExactSpec IndexModel FilesModel FilesSpec CliModel ReportModel ShownModel IterModel SummarySpec DiffSpec.
Import ListNotations.
Open Scope string_scope.
Open Scope list_scope.
Open Scope N_scope.

(** ** The logs of a run *)
(** The paths of the regular files of a tree that can be listed, in the order of the listing: no links,
    and nothing behind them. *)
Inductive files_below : bytes -> node -> list bytes -> Prop :=
| BelowFile p : files_below p RegularFile [p]
| BelowLink p : files_below p Symlink []
| BelowOther p : files_below p OtherNode []
| BelowDir p entries l : files_among p entries l -> files_below p (Dir entries) l
with files_among : bytes -> list (bytes * node) -> list bytes -> Prop :=
| AmongNone p : files_among p [] []
| AmongMore p name child entries l l' : files_below (join p name) child l -> files_among p entries l' -> files_among p ((name, child) :: entries) (l ++ l').
(** The logs that are not excluded, in order; there is one. *)
Definition kept_logs (all l : list source) : Prop := selected (fun s => ~ excluded s) all l /\ l <> [].

Section Runs.
Variable kind_of : text -> path_kind.                   (* what is at a path *)
Variable parse_url : text -> option text.               (* the text of a url once parsed *)
Variable has_authority : text -> bool.                  (* has it a host? *)
Variable is_build : text -> bool.                       (* is it the page of a build? *)
Variable build_logs : text -> text -> Prop.             (* the address of the logs of the build of a page *)
Variable baseline_logs : text -> text -> Prop.          (* the address of the logs of the build that is found for it to compare with: C51 *)
Variable tree : bytes -> node.                          (* what is below a path *)
Variable crawl : text -> res (list text).               (* what is below an address *)
(** The logs below an address: their names begin after the address and one slash. *)
Definition remote_logs (u : text) (l : list source) : Prop := exists base slashes urls,
  u = base ++ slashes /\ Forall (fun c => c = 47) slashes /\ ~ suffix (lit "/") base /\ crawl u = Val urls /\
  kept_logs (map (Remote (N.of_nat (length (utf8_encode base)) + 1)) urls) l.
(** A word of the command line and the logs of the run it names *)
Inductive logs_of : text -> list source -> Prop :=
| LogsOne t s : names kind_of parse_url has_authority is_build t s -> ~ excluded s -> logs_of t [s]
| LogsDirectory t paths l : ~ prefix (lit "http") t -> kind_of t = KDir -> utf8_decode t <> None -> files_below t (tree t) paths ->
    kept_logs (map (Local (N.of_nat (length t))) paths) l -> logs_of t l
| LogsAddress t u l : prefix (lit "http") t -> parse_url t = Some u -> has_authority u = true -> is_build u = false -> suffix (lit "/") u ->
    remote_logs u l -> logs_of t l
| LogsBuild t u address l : prefix (lit "http") t -> parse_url t = Some u -> has_authority u = true -> build_logs u address ->
    remote_logs address l -> logs_of t l.
(** A path and the logs there *)
Inductive path_logs : text -> list source -> Prop :=
| PathFile p : kind_of p = KFile -> ~ excluded (Local 0 p) -> path_logs p [Local 0 p]
| PathDirectory p paths l : kind_of p = KDir -> utf8_decode p <> None -> files_below p (tree p) paths ->
    kept_logs (map (Local (N.of_nat (length p))) paths) l -> path_logs p l.
(** A command, the logs of its baselines, by baseline, and of its target: the baselines are given, or the
    file with the suffix .0, or the build that is found for the build of a page. *)
Inductive compares : command -> list (list source) -> list source -> Prop :=
| ComparesGiven bs t ls targets : Forall2 logs_of bs ls -> logs_of t targets -> compares (CmdDiff bs t) ls targets
| ComparesRotated p l : utf8_decode p <> None -> kind_of p = KFile -> ~ excluded (Local 0 p) -> path_logs (p ++ lit ".0") l ->
    compares (CmdPath p) [l] [Local 0 p]
| ComparesBuild u u' address address' l targets : parse_url u = Some u' -> has_authority u' = true -> build_logs u' address -> baseline_logs u' address' ->
    remote_logs address targets -> remote_logs address' l -> compares (CmdUrl u) [l] targets.
(** A command for which no baseline is found: for a directory, for a file that has none with the suffix .0,
    and for a url that is not the page of a build. *)
Inductive without_baselines : command -> Prop :=
| WithoutDirectory p : kind_of p = KDir -> without_baselines (CmdPath p)
| WithoutRotated p : utf8_decode p <> None -> kind_of p = KFile -> kind_of (p ++ lit ".0") = KOther -> without_baselines (CmdPath p)
| WithoutBuild u u' : parse_url u = Some u' -> has_authority u' = true -> is_build u' = false -> without_baselines (CmdUrl u).
End Runs.

(** ** A log *)
(** The name of a log below its base *)
Definition below (s : source) (rel : text) : Prop := exists base, full_name s = base ++ rel /\ base_bytes s = N.of_nat (length (utf8_encode base)).
(** The log [s] is grouped by the name [n], is read as json or not, has the bytes [c] and plain lines. *)
Definition is_log (open : source -> res (bool -> list item)) (s : source) (n : text) (json : bool) (c : bytes) : Prop :=
  (exists rel, below s rel /\ n = index_name rel /\ (json = true <-> suffix (lit ".json") rel)) /\ has_bytes open s c /\ plain_log json c.

(** ** What is found *)
Section Found.
Variable tok : bytes -> bytes.
Variable dist : list bytes -> bytes -> F.               (* the distance to the lines of an index *)
Variable up : N -> bool.
Variable name_of : source -> text.
Variable lines_in : source -> list (bytes * N).         (* the lines of a log with their numbers *)
Variable baselines : list source.                       (* the logs of all baselines *)
(** The logs that a log is compared with: those of its name, or all if they have one name, which is not
    its name. *)
Inductive compared_with (s : source) : list source -> Prop :=
| SameName l : selected (fun b => name_of b = name_of s) baselines l -> l <> [] -> compared_with s l
| OnlyName n : baselines <> [] -> (forall b, In b baselines -> name_of b = n) -> n <> name_of s -> compared_with s baselines.
Definition not_compared (s : source) : Prop :=
  (forall b, In b baselines -> name_of b <> name_of s) /\ ~ (exists n, baselines <> [] /\ forall b, In b baselines -> name_of b = n).
Definition known_lines (l : list source) : list bytes := flat_map (fun b => map (fun x => tok (fst x)) (lines_in b)) l.
(** The rows and their text that a log of the target gives *)
Inductive block (s : source) : list (@out_line F) -> bytes -> Prop :=
| BlockNone t : not_compared s -> called_source s t -> block s [NoBaselines s] (lit " -> No baselines for " ++ t ++ [10])
| BlockFound l positions cs rows : compared_with s l ->
    enumerates above_threshold tok (dist (known_lines l)) [] (lines_in s) positions ->
    Forall2 (describes tok (dist (known_lines l)) (lines_in s)) cs positions ->
    exact_contexts above_threshold tok (dist (known_lines l)) [] (lines_in s) cs positions ->
    (forall d n x, In (Printed (Anom d n x)) rows <-> exists c, In c cs /\ d = distance c /\ n = apos c /\ x = aline c) ->
    (forall row, In row rows -> exists r, row = Printed r) ->
    (exists texts, Forall2 (fun row t => live_text up row = Some t) rows texts /\ flat_map (fun t => t ++ [10]) texts = diff_text up cs) ->
    block s rows (diff_text up cs).
End Found.
(** The baselines of a command, for what it has to analyse: those that it names, or those that are found. *)
Definition baselines_are {content} (get_content : input -> res content) (discover : content -> res (list content)) (baselines : option (list input)) (c : content) (l : list content) : Prop :=
  match baselines with Some is => Forall2 (fun i c => get_content i = Val c) is l | None => discover c = Val l end.
