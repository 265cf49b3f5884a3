(** Model of the command line (/repo/cli/src/main.rs), of Model::save and Model::load
    (/repo/model/src/model.rs) and of the kinds of content (model.rs, files.rs, urls.rs).
    Definitions only.

    A command is a program that asks its environment, one operation at a time; what the
    operations do to the file system is the relation [step].  A crash is an execution that
    stops anywhere. *)
From Coq Require Import String List NArith Bool.
From Verif Require Import Common FilesModel.
Import ListNotations.
Open Scope N_scope.

(** ** Contents *)
(** What is at a path: [Path::is_dir], [Path::is_file], which follow symbolic links. *)
Inductive path_kind := KDir | KFile | KOther.

Section Content.
(** zuul builds, and their discovery, see ZuulModel.v. *)
Context {Build : Type}.
(** model.rs:57-63, enum Content *)
Inductive content := CFile (s : source) | CDirectory (s : source) | CZuul (b : Build).
Variable kind_of : text -> path_kind.
(** url::Url::parse and the text of the parsed url; Url::has_authority *)
Variable parse_url : text -> option text.
Variable has_authority : text -> bool.
(** zuul.rs: Content::from_zuul_url and Build::discover_baselines *)
Variable from_zuul_url : text -> option (res content).
Variable zuul_baselines : Build -> res (list content).

(** files.rs:13-23, Content::from_path *)
Definition from_path (p : text) : res content :=
  match kind_of p with
  | KDir => Val (CDirectory (Local 0 p))
  | KFile => Val (CFile (Local 0 p))
  | KOther => Fail (lit "Unknown path")
  end.
(** urls.rs:15-25, Content::from_url *)
Definition from_url (u : text) : res content :=
  if negb (has_authority u) then Fail (lit "Bad url")
  else match from_zuul_url u with
  | Some c => c
  | None => if ends_with (lit "/") u then Val (CDirectory (Remote 0 u)) else Val (CFile (Remote 0 u))
  end.
(** model.rs:327-334, Content::from_input; a url that cannot be parsed panics. *)
Definition from_input (i : input) : res content :=
  match i with
  | InPath p => from_path p
  | InUrl u => match parse_url u with Some u' => from_url u' | None => Panic end
  end.
(** files.rs:26-32, discover_baselines_from_path.  [None] is a path that is not unicode. *)
Definition discover_from_path (p : bytes) : res (list content) :=
  match utf8_decode p with
  | None => Panic
  | Some _ => match from_path (p ++ lit ".0") with Val c => Val [c] | Fail e => Fail e | Panic => Panic end
  end.
(** model.rs:343-362, Content::discover_baselines *)
Definition discover_baselines (c : content) : res (list content) :=
  let found :=
    match c with
    | CFile (Local _ p) => discover_from_path p
    | CFile (Remote _ _) => Fail (lit "Can't find remmote baselines, they need to be provided")
    | CDirectory _ => Fail (lit "Can't discover directory baselines, they need to be provided")
    | CZuul b => zuul_baselines b
    end in
  match found with
  | Val [] => Fail (lit "Empty discovered baselines")
  | r => r
  end.
End Content.
Arguments content Build : clear implicits.

(** ** Commands *)
Section Cli.
Context {Build Model Report : Type}.
(** The content of a file: a model that loads, a raw report, a page, anything else: for
    example the beginning of a model. *)
Inductive file := ModelFile (m : Model) | RawReport (r : Report) | Page (r : Report) | Junk.
Definition path := text.

Inductive outcome := Success | Failure | Panicked.
(** The operations, each with what follows its answer. *)
Inductive prog :=
| Done (o : outcome)
| GetContent (i : input) (k : res (content Build) -> prog)               (* Content::from_input *)
| Discover (c : content Build) (k : res (list (content Build)) -> prog)  (* Content::discover_baselines *)
| Exists (p : path) (k : bool -> prog)                                   (* Path::exists *)
| Load (p : path) (k : res Model -> prog)                                (* Model::load *)
| Train (l : list (content Build)) (k : res Model -> prog)               (* Model::train *)
| Create (p : path) (f : file) (k : bool -> prog)                         (* File::create, for what is then written *)
| Write (p : path) (f : file) (k : bool -> prog)                         (* serialize_into, or fs::write *)
| Live (c : content Build) (m : Model) (k : res unit -> prog)            (* process_live *)
| MakeReport (c : content Build) (m : Model) (k : res Report -> prog)    (* Model::report *)
| Render (p : path) (r : Report) (k : res unit -> prog)                  (* logreduce_report::render, for a file *)
| Debug (k : res unit -> prog).                                          (* a debug or test command *)

(** The operator ?, and a panic. *)
Definition try {A} (r : res A) (k : A -> prog) : prog :=
  match r with Val x => k x | Fail _ => Done Failure | Panic => Done Panicked end.
(** model.rs:239-248 and 443-453, Report::save and Model::save *)
Definition save (p : path) (f : file) (k : prog) : prog :=
  Create p f (fun created => if created then Write p f (fun written => if written then k else Done Failure) else Done Failure).
(** Iterator::collect of the contents of the inputs: the first failure ends it. *)
Fixpoint get_contents (l : list input) (k : list (content Build) -> prog) : prog :=
  match l with
  | [] => k []
  | i :: r => GetContent i (fun c => try c (fun c => get_contents r (fun cs => k (c :: cs))))
  end.

(** Path::set_extension("json"): the file name of [p] is not empty. *)
Variable with_json : path -> path.
(** std::env::var("LOGREDUCE_CACHE").is_ok() *)
Variable cache : bool.

(** cli/main.rs:254-275, from "Inspecting" *)
Definition inspect (report : option path) (c : content Build) (m : Model) : prog :=
  match report with
  | None => Live c m (fun r => try r (fun _ => Done Success))
  | Some file =>
    MakeReport c m (fun r => try r (fun r =>
      let rest := Render file r (fun o => try o (fun _ =>
        Create file (Page r) (fun created => if created then Write file (Page r) (fun written => Done (if written then Success else Failure)) else Done Failure))) in
      if cache then save (with_json file) (RawReport r) rest else rest))
  end.
(** cli/main.rs:249-252 *)
Definition keep_model (model_path : option path) (m : Model) (k : prog) : prog :=
  match model_path with
  | Some p => Exists p (fun here => if here then k else save p (ModelFile m) k)
  | None => k
  end.
(** cli/main.rs:218-276, process *)
Definition process (report model_path : option path) (baselines : option (list input)) (i : input) : prog :=
  GetContent i (fun c => try c (fun c =>
    let finish := fun m => try m (fun m => keep_model model_path m (inspect report c m)) in
    let build :=
      match baselines with
      | None => Discover c (fun bs => try bs (fun bs => Train bs finish))
      | Some l => get_contents l (fun bs => Train bs finish)
      end in
    match model_path with
    | Some p => Exists p (fun here =>
        if here then match baselines with None => Load p finish | Some _ => Done Failure end
        else build)
    | None => build
    end)).

(** cli/main.rs:32-78, enum Commands *)
Inductive command :=
| CmdDiff (src : list text) (dst : text)
| CmdPath (p : text)
| CmdUrl (u : text)
| CmdJournald
| CmdCurrentBuild
| CmdTrain (baselines : list text)
| CmdDebug.                                     (* Test and the Debug commands *)
(** cli/main.rs:81-157, Cli::run *)
Definition run (report model_path : option path) (c : command) : prog :=
  match c with
  | CmdPath p => process report model_path None (InPath p)
  | CmdUrl u => process report model_path None (InUrl u)
  | CmdJournald => Done Panicked
  | CmdCurrentBuild => Done Panicked
  | CmdDiff src dst => process report model_path (Some (map input_from_string src)) (input_from_string dst)
  | CmdTrain baselines =>
    match model_path with
    | None => Done Failure
    | Some p => get_contents (map input_from_string baselines) (fun cs => Train cs (fun m => try m (fun m => save p (ModelFile m) (Done Success))))
    end
  | CmdDebug => Debug (fun r => try r (fun _ => Done Success))
  end.

(** ** The file system *)
(** Written by an encoder: Model::save and Report::save; a page is written by fs::write. *)
Definition encoded (f : file) : bool := match f with Page _ => false | _ => true end.
Definition fs := path -> option file.
Definition set (s : fs) (p : path) (f : option file) : fs := fun q => if eqb_list q p then f else s q.
(** model.rs:435-441, Model::load *)
Definition load (f : option file) : res Model :=
  match f with Some (ModelFile m) => Val m | _ => Fail (lit "Can't load model") end.

(** What is seen from outside. *)
Inductive event :=
| Asked (p : path) (here : bool)
| Loaded (p : path) (m : res Model)
| Got (i : input) (c : res (content Build))
| Discovered (c : content Build) (l : res (list (content Build)))
| Trained (l : list (content Build)) (m : res Model)
| Created (p : path) (ok : bool)
| Written (p : path) (f : file) (ok : bool)
| Lost (p : path) (f : file)                   (* written, but for its end *)
| Analysed (c : content Build) (m : Model)
| Other.

(** One operation.  What the operations that read logs answer is not determined here.
    - File::create truncates.
    - A write can fail half way; it can also succeed although the end of the file was lost:
      the encoder (flate2's GzEncoder) writes the last bytes when it is dropped, where errors
      are ignored. *)
Inductive step : prog * fs -> event -> prog * fs -> Prop :=
| StepContent i k s c : step (GetContent i k, s) (Got i c) (k c, s)
| StepDiscover c k s l : step (Discover c k, s) (Discovered c l) (k l, s)
| StepExists p k s : step (Exists p k, s) (Asked p (match s p with Some _ => true | None => false end))
                          (k (match s p with Some _ => true | None => false end), s)
| StepLoad p k s : step (Load p k, s) (Loaded p (load (s p))) (k (load (s p)), s)
| StepTrain l k s m : step (Train l k, s) (Trained l m) (k m, s)
| StepCreate p f k s : step (Create p f k, s) (Created p true) (k true, set s p (Some Junk))
| StepNotCreated p f k s : step (Create p f k, s) (Created p false) (k false, s)
| StepWrite p f k s : step (Write p f k, s) (Written p f true) (k true, set s p (Some f))
| StepPartial p f k s : step (Write p f k, s) (Written p f false) (k false, set s p (Some Junk))
| StepLost p f k s : encoded f = true -> step (Write p f k, s) (Lost p f) (k true, set s p (Some Junk))
| StepLive c m k s r : step (Live c m k, s) (Analysed c m) (k r, s)
| StepReport c m k s r : step (MakeReport c m k, s) (Analysed c m) (k r, s)
| StepRender p r k s o : step (Render p r k, s) Other (k o, s)
| StepDebug k s o : step (Debug k, s) Other (k o, s).

(** An execution, so far. *)
Inductive exec : prog * fs -> list event -> prog * fs -> Prop :=
| ExecNow c : exec c [] c
| ExecStep c e c' tr c'' : step c e c' -> exec c' tr c'' -> exec c (e :: tr) c''.
(** The same with other programs changing files between the steps. *)
Inductive shared_exec : prog * fs -> list event -> prog * fs -> Prop :=
| SharedNow c : shared_exec c [] c
| SharedStep c e c' tr c'' : step c e c' -> shared_exec c' tr c'' -> shared_exec c (e :: tr) c''
| SharedOther q s s' tr c'' : shared_exec (q, s') tr c'' -> shared_exec (q, s) tr c''.
End Cli.
