(** Model of a command as a whole: main, Cli::run and process (/repo/cli/src/main.rs:81-276), with
    what the operations of CliModel.v do to the bytes of files and what they write to the standard
    output.  Definitions only.

    LOGREDUCE_LOG is not set: tracing then writes its information and error messages to the standard
    output (cli/main.rs:165-176).  Of such a line the time, the colours and the quotes around a path or a
    url are left out.
    Left out too: what is on the standard error output; a standard output that is closed. *)
From Coq Require Import String List NArith ZArith Bool Permutation.
From Verif Require Import Common ProcModel FilesModel CliModel IndexModel MatModel ReportModel HtmlModel ShownModel RenderModel OutModel SavedModel.
From Verif Require StoreModel StoreSpec MatSpec.
Import ListNotations.
Open Scope string_scope.
Open Scope list_scope.
Open Scope N_scope.

Inductive level := Info | Error.
(** What is written: by the program, or a line by tracing. *)
Inductive said := Out (p : piece) | Log (l : level) (msg : bytes).

Section Main.
(** As in SavedModel.v, MatModel.v, StoreModel.v, ShownModel.v and OutModel.v. *)
Variables (hash : bytes -> N) (fused checked : bool) (tok : bytes -> bytes).
Variable enc_write : list bytes -> bytes -> bytes.
Variable enc_finish : list bytes -> bytes.
Variable gunzip : bytes -> bytes * bool.
Context {Date : Type}.
Variable show_date : Date -> bytes.
Variable parse_date : bytes -> option Date.
Variable parse_url : bytes -> option bytes.
Variables (up : N -> bool) (has_year : Z -> bool) (write : bytes -> bytes) (checks : bool) (fixed_parts : fixed).
Notation build := (@StoreModel.build Date).
Notation model := (@StoreModel.model csmat Date).
Notation report := (@StoreModel.report Date).
Notation prog := (@prog build model report).
Notation file := (@file model report).
Definition model_codec : StoreModel.codec model := StoreModel.model_codec (csmat_codec checked) show_date parse_date parse_url.
Definition report_codec : StoreModel.codec report := StoreModel.report_codec show_date parse_date parse_url.

(** The logs.  They do not change while the program runs, and are not what it writes.
    Content::from_input and Content::discover_baselines are in CliModel.v. *)
Variable get_content : input -> res (content build).
Variable discover : content build -> res (list (content build)).
(** zuul.rs:56, 94: the messages of the discovery *)
Variable discovery : content build -> list bytes.
(** A directory as walkdir sees it; the crawler, or the cache; what is read. *)
Variable tree : bytes -> FilesModel.node.
Variable crawl : text -> res (list text).
Variable open : source -> res (bool -> list item).
Variable err_text : option N -> text.
(** Whether the standard output is a terminal; the format [{:?}] of a path *)
Variable tty : bool.
Variable show_path : bytes -> bytes.
Definition mode : out_mode := output_mode false tty.

(** model.rs:381-390, Content::get_sources_iter; zuul.rs:128-130 *)
Definition listing (c : content build) : list (res source) :=
  match c with
  | CFile s => file_iter s
  | CDirectory (Local _ p) => dir_iter p (walk p (tree p))
  | CDirectory (Remote _ u) => httpdir_iter u (crawl u)
  | CZuul b => httpdir_iter (StoreModel.b_log_url b) (crawl (StoreModel.b_log_url b))
  end.

(** ** Training *)
(** What ends ChunkTrainer::add (process.rs:47-67): a read error, or a line that is not unicode *)
Fixpoint first_error (items : list item) : option (option N) :=
  match items with
  | [] => None
  | IErr e :: _ => Some (Some e)
  | ILine b _ :: items => if valid_utf8 b then first_error items else Some None
  end.
(** A source of a group has a text: its relative name was computed for the group. *)
Definition text_or_empty (o : option bytes) : bytes := match o with Some t => t | None => [] end.
(** model.rs:269-277: the messages about the sources that could not be read *)
Fixpoint group_says (json : bool) (sources : list source) : list said :=
  match sources with
  | [] => []
  | s :: rest =>
    match open s with
    | Val items => match first_error (items json) with
                   | Some e => [Log Error (text_or_empty (source_text s) ++ lit ": failed to load: " ++ utf8_encode (err_text e))]
                   | None => []
                   end ++ group_says json rest
    | _ => []
    end
  end.
Definition is_json_group (sources : list source) : bool := match sources with [] => false | s :: _ => match is_json s with Some j => j | None => false end end.
(** model.rs:418-425: the loop over the groups *)
Fixpoint train_says (groups : list (text * list source)) : list said :=
  match groups with
  | [] => []
  | (n, sources) :: rest =>
    map Out (progress mode (lit "Loading index " ++ utf8_encode n ++ lit " with " ++ join_text (lit ", ") (map (fun s => text_or_empty (source_text s)) sources))) ++
    group_says (is_json_group sources) sources ++
    match index_train tok open sources with Val _ => train_says rest | _ => [] end
  end.
(** model.rs:409-433, Model::train: the hash maps are drained, and later saved, in any order; the
    times are any times.  The values are values of the program: their numbers fit (ReportModel.v
    leaves out that counters overflow). *)
Inductive trains (l : list (content build)) : list said -> res model -> Prop :=
| Trained groups groups' m times now indexes : group_sources (map listing l) = Val groups -> Permutation groups' groups ->
    train_all tok open groups' = Val m -> Permutation indexes (stored_indexes hash times m) ->
    StoreSpec.rust_model (fun x => MatSpec.fits x /\ (checked = true -> well_formed x = true)) show_date parse_date parse_url (StoreModel.mkModel now l indexes) ->
    trains l (train_says groups') (Val (StoreModel.mkModel now l indexes))
| NotTrained groups groups' e : group_sources (map listing l) = Val groups -> Permutation groups' groups ->
    train_all tok open groups' = Fail e -> trains l (train_says groups') (Fail e)
| TrainPanics groups groups' : group_sources (map listing l) = Val groups -> Permutation groups' groups ->
    train_all tok open groups' = Panic -> trains l (train_says groups') Panic
| NotGrouped e : group_sources (map listing l) = Fail e -> trains l [] (Fail e)
| GroupPanics : group_sources (map listing l) = Panic -> trains l [] Panic.

(** ** The report *)
(** model.rs:296 for each source of a group, until one cannot be opened (508) *)
Fixpoint group_reads (sources : list source) : list piece :=
  match sources with
  | [] => []
  | s :: rest => progress mode (text_or_empty (inspecting s)) ++ match get_processor open s with Val _ => group_reads rest | _ => [] end
  end.
Definition report_says (m : model) (groups : list (text * list source)) : list said :=
  map Out (flat_map (fun g => match get_index (loaded_indexes m) (fst g) with Some _ => group_reads (snd g) | None => [] end) groups).
(** model.rs:518-529: the report that is made of what was found; the order of its hash map and its
    times are any. *)
Definition made_of (c : content build) (m : model) (found : @ReportModel.report F) (r : report) : Prop :=
  StoreModel.r_target r = c /\ StoreModel.r_baselines r = StoreModel.m_baselines m /\
  log_reports (report_of r) = log_reports found /\ Permutation (index_reports (report_of r)) (index_reports found) /\
  index_errors (report_of r) = index_errors found /\ read_errors (report_of r) = read_errors found /\
  total_line_count (report_of r) = total_line_count found /\ total_anomaly_count (report_of r) = total_anomaly_count found.
(** model.rs:462-530, Model::report *)
Inductive reports (c : content build) (m : model) : list said -> res report -> Prop :=
| Reported groups groups' found r : group_sources [listing c] = Val groups -> Permutation groups' groups ->
    report_all above_threshold tok (loaded_search hash fused) open err_text (loaded_indexes m) groups' report_new = Val found ->
    made_of c m found r -> reports c m (report_says m groups') (Val r)
| NotReported e : group_sources [listing c] = Fail e -> reports c m [] (Fail e)
| ReportPanics l groups groups' : group_sources [listing c] = Val groups -> Permutation groups' groups ->
    report_all above_threshold tok (loaded_search hash fused) open err_text (loaded_indexes m) groups' report_new = Panic ->
    reports c m l Panic
| ReportGroupPanics : group_sources [listing c] = Panic -> reports c m [] Panic.

(** cli/main.rs:278-365, process_live; what is written before a panic is left open. *)
Inductive prints (c : content build) (m : model) : list said -> res unit -> Prop :=
| LivePrinted ps : live_pieces tok (loaded_search hash fused) open err_text mode (loaded_indexes m) c (listing c) = Val ps ->
    prints c m (map Out ps) (Val tt)
| NotPrinted e : live_pieces tok (loaded_search hash fused) open err_text mode (loaded_indexes m) c (listing c) = Fail e ->
    prints c m [] (Fail e)
| PrintPanics l : live_pieces tok (loaded_search hash fused) open err_text mode (loaded_indexes m) c (listing c) = Panic ->
    prints c m l Panic.

(** ** Files *)
Definition is_val {A} (r : res A) : bool := match r with Val _ => true | _ => false end.
(** What is written to a file that was just created, and whether the program thinks so: as in
    StoreModel.v and RenderModel.v. *)
Inductive writes : file -> bool -> bytes -> Prop :=
| WritesModel m r b : StoreModel.save enc_write enc_finish model_codec m (Some []) (Some r) (Some b) -> writes (ModelFile m) (is_val r) b
| WritesReport r x b : StoreModel.save enc_write enc_finish report_codec r (Some []) (Some x) (Some b) -> writes (RawReport r) (is_val x) b
| WritesPage r page : render_saved up has_year write checks fixed_parts r = Val page -> writes (Page r) true page
| WritesPart r b rest : render_saved up has_year write checks fixed_parts r = Val (b ++ rest) -> writes (Page r) false b.
(** model.rs:444: the message of Model::save *)
Definition create_says (f : file) (p : path) : list said :=
  match f with ModelFile _ => [Log Info (lit "Saving model path=" ++ p)] | _ => [] end.

(** ** Commands *)
(** A program that runs to its end from the files [s]: what is written to the standard output, how it
    ends, and the files that it leaves.  The debug and test commands are not here: see OutModel.v and
    DatasetModel.v. *)
Inductive does : prog -> disk -> list said -> outcome -> disk -> Prop :=
| DoesDone o s : does (Done o) s [] o s
| DoesContent i k s out o s' : does (k (get_content i)) s out o s' -> does (GetContent i k) s out o s'
| DoesDiscover c k s out o s' : does (k (discover c)) s out o s' -> does (Discover c k) s (map (Log Info) (discovery c) ++ out) o s'
| DoesExists p k s out o s' : does (k (match s p with Some _ => true | None => false end)) s out o s' -> does (Exists p k) s out o s'
| DoesLoad p k s out o s' : does (k (StoreModel.load gunzip model_codec (s p))) s out o s' ->
    does (Load p k) s (Log Info (lit "Loading provided model path=" ++ p) :: out) o s'
| DoesTrain l k s r before out o s' : trains l before r -> does (k r) s out o s' -> does (Train l k) s (before ++ out) o s'
| DoesCreate p f k s out o s' : does (k true) (update s p []) out o s' -> does (Create p f k) s (create_says f p ++ out) o s'
| DoesNotCreate p f k s out o s' : does (k false) s out o s' -> does (Create p f k) s (create_says f p ++ out) o s'
| DoesWrite p f ok b k s out o s' : writes f ok b -> does (k ok) (update s p b) out o s' -> does (Write p f k) s out o s'
| DoesLive c m k s r before out o s' : prints c m before r -> does (k r) s out o s' -> does (Live c m k) s (before ++ out) o s'
| DoesReport c m k s r before out o s' : reports c m before r -> does (k r) s out o s' -> does (MakeReport c m k) s (before ++ out) o s'
| DoesRender p r k s out o s' :                                            (* cli/main.rs:267 *)
    does (k (match render_saved up has_year write checks fixed_parts r with Val _ => Val tt | Fail e => Fail e | Panic => Panic end)) s out o s' ->
    does (Render p r k) s (Out (Says (show_path p ++ lit ": Writing report...")) :: out) o s'.

(** std::env::var("LOGREDUCE_CACHE").is_ok() *)
Variable cache : bool.
(** cli/main.rs:208-215: the end of the line of a progress message, before the error. *)
Inductive main (report model_path : option path) (c : command) (s : disk) : list said -> outcome -> disk -> Prop :=
| Main out o s' : does (run (set_extension (lit "json")) cache report model_path c) s out o s' ->
    main report model_path c s (out ++ match o with Failure => if inlined mode then [Out EndLine] else [] | _ => [] end) o s'.
End Main.

(** zuul.rs:56, 94 and files.rs:26-32: only the discovery for a build writes messages, [zuul_says]. *)
Definition discovery_of {Build} (zuul_says : Build -> list bytes) (c : content Build) : list bytes :=
  match c with CZuul b => zuul_says b | CFile _ | CDirectory _ => [] end.
