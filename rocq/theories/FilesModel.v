(** Model of model/src/files.rs, model/src/urls.rs, the opening functions of
    model/src/reader.rs and the parts of model/src/model.rs about sources and index names.
    Definitions only.

    [&str] is the list of its code points; a local path is a list of bytes ([OsStr] on
    Unix), which [to_str] decodes if it is UTF-8.  A [Url] is its ASCII text. *)
From Coq Require Import String List NArith Bool.
From Verif Require Import Common TokModel.
Import ListNotations.
Open Scope N_scope.

Definition text := list N.
(** [Result] with an error message, or a panic. *)
Inductive res (A : Type) : Type :=
| Val (a : A)
| Fail (message : text)
| Panic.
Arguments Val {A} a.
Arguments Fail {A} message.
Arguments Panic {A}.

(** Rust [&s[n..]] with a byte offset: a panic ([None]) if [n] is out of range or not on a
    character boundary. *)
Fixpoint drop_bytes (n : N) (s : text) : option text :=
  if n =? 0 then Some s
  else match s with
       | [] => None
       | c :: r => if utf8_len1 c <=? n then drop_bytes (n - utf8_len1 c) r else None
       end.

(** ** std::path *)
(** The components of a path: [Path::components]. *)
Inductive component : Type := RootDir | CurDir | ParentDir | Normal (s : list N).
Fixpoint split_at (c : N) (s : list N) : list (list N) :=
  match s with
  | [] => [[]]
  | x :: r =>
    if x =? c then [] :: split_at c r
    else match split_at c r with
         | p :: ps => (x :: p) :: ps
         | [] => [[x]]
         end
  end.
Definition part_component (p : list N) : list component :=
  if eqb_list p [] then []
  else if eqb_list p (lit ".") then []
  else if eqb_list p (lit "..") then [ParentDir]
  else [Normal p].
Definition components (path : list N) : list component :=
  let parts := split_at 47 path in
  (if starts_with (lit "/") path then [RootDir]
   else if eqb_list (hd [] parts) (lit ".") then [CurDir] else []) ++ flat_map part_component parts.
(** [Path::file_name], on the components. *)
Definition file_name (path : list component) : option (list N) :=
  match rev path with Normal s :: _ => Some s | _ => None end.
(** [Path::parent], on the components. *)
Definition parent (path : list component) : option (list component) :=
  match rev path with
  | [] | RootDir :: _ => None
  | _ :: r => Some (rev r)
  end.
(** [Path::extension]: after the last dot of the file name, if something precedes it. *)
Definition extension (path : list N) : option (list N) :=
  match file_name (components path) with
  | Some name =>
    match split_once (N.eqb 46) (rev name) with
    | Some (_, []) => None
    | Some (after, _) => Some (rev after)
    | None => None
    end
  | None => None
  end.

(** ** model/src/files.rs *)
(** files.rs:67-70 [is_small_hash] *)
Definition is_small_hash (filename : text) : bool :=
  (utf8_len filename =? 7) &&
  negb (existsb (fun c => negb ((97 <=? c) && (c <=? 102)) && negb ((48 <=? c) && (c <=? 57))) filename).
(** files.rs:82-93 [is_k8s_service] *)
Definition is_k8s_service (filename : text) : option text :=
  if starts_with (lit "k8s_") filename then
    match split_once (N.eqb 45) filename with
    | Some (service, _) => Some service
    | None => None
    end
  else if starts_with (lit "pvc-") filename then Some (lit "pvc")
  else None.
(** files.rs:106-112 [take_until_pod_uuid]: [split] yields at least one piece. *)
Definition take_until_pod_uuid (filename : text) : text :=
  match split_at 45 filename with
  | p :: _ => p
  | [] => filename
  end.
(** files.rs:127-133 [parent_str] *)
Definition parent_str (path : list component) : option (list component * text) :=
  match parent path with
  | Some p => match file_name p with Some name => Some (p, name) | None => None end
  | None => None
  end.
(** files.rs:136-173 [IndexName::from_path] *)
Definition is_separator (c : N) : bool := memb c (lit "/._-").
Definition is_ascii_alphabetic (c : N) : bool := ((97 <=? c) && (c <=? 122)) || ((65 <=? c) && (c <=? 90)).
(** Rust [trim_end_matches] with a text pattern. *)
Fixpoint trim_start_text (fuel : nat) (p s : text) : text :=
  match fuel with
  | O => s
  | S fuel => if starts_with p s then trim_start_text fuel p (skipn (length p) s) else s
  end.
Definition trim_end_text (p s : text) : text := rev (trim_start_text (length s) (rev p) (rev s)).
Definition short_filename (path : list component) (filename : text) : text :=
  match parent_str path with
  | None => filename
  | Some (par, name) =>
    if is_small_hash name then
      (match parent_str par with Some (_, name') => name' | None => [] end) ++ lit "/" ++ filename
    else name ++ lit "/" ++ filename
  end.
Definition index_name (base : text) : text :=
  let path := components base in
  let filename := match file_name path with Some s => s | None => lit "N/A" end in
  let shortfilename := short_filename path filename in
  if starts_with (lit "qemu/instance-") shortfilename then lit "qemu/instance"
  else if starts_with (lit "pod/") shortfilename then take_until_pod_uuid shortfilename
  else match is_k8s_service filename with
       | Some service => service
       | None =>
         trim_end_text (lit ".gz")
           (trim_both is_separator
              (filter (fun c => is_ascii_alphabetic c || is_separator c) shortfilename))
       end.

(** ** Sources: model/src/model.rs *)
(** model.rs:76-80 [Source] *)
Inductive source : Type :=
| Local (base_len : N) (path : bytes)
| Remote (base_len : N) (url : text).
(** [Path::to_str] *)
Definition to_str (path : bytes) : option text := utf8_decode path.
(** model.rs:104-109 [Source::as_str] *)
Definition as_str (s : source) : text :=
  match s with
  | Local _ path => match to_str path with Some t => t | None => [] end
  | Remote _ url => url
  end.
(** model.rs:98-103 [Source::get_relative]; [None] is a panic. *)
Definition get_relative (s : source) : option text :=
  match s with
  | Local base_len _ => drop_bytes base_len (as_str s)
  | Remote base_len _ => drop_bytes base_len (as_str s)
  end.
(** model.rs:95-97 [Source::is_json] *)
Definition is_json (s : source) : option bool := option_map (ends_with (lit ".json")) (get_relative s).
(** model.rs:111-145 [Source::is_valid] *)
Definition exts : list text := flat_map (fun e => [lit e; lit e ++ lit ".gz"])
  [ ".ico"; ".png"; ".clf"; ".tar"; ".tar.bzip2"; ".subunit"; ".sqlite"; ".db"; ".bin"; ".pcap.log.txt";
    ".eot"; ".otf"; ".woff"; ".woff2"; ".ttf";
    ".yaml"; ".ini"; ".conf";
    "job-output.json"; "log-classify.json"; "zuul-manifest.json"; ".html";
    "cacerts"; "local/creds"; "pacemaker/authkey"; "mysql/tc.log.txt"; "corosync/authkey";
    "object.builder"; "account.builder"; "container.builder" ]%string.
Definition is_valid (s : source) : bool :=
  forallb (fun e => negb (ends_with e (as_str s))) exts && negb (contains (lit "/etc/") (as_str s)).

(** model.rs:364-379 [Content::get_sources] on the items of its listing.  [collect] stops
    at the first error. *)
Fixpoint collect (items : list (res source)) : res (list source) :=
  match items with
  | [] => Val []
  | Val s :: r => match collect r with Val l => Val (s :: l) | Fail e => Fail e | Panic => Panic end
  | Fail e :: _ => Fail e
  | Panic :: _ => Panic
  end.
Definition empty_sources : text := lit "Empty sources".
Definition get_sources (items : list (res source)) : res (list source) :=
  match collect (filter (fun i => match i with Val s => is_valid s | _ => true end) items) with
  | Val [] => Fail empty_sources
  | r => r
  end.

(** ** Listings *)
(** What walkdir yields for an entry. *)
Inductive walk_item : Type :=
| Entry (path : bytes) (symlink file : bool)
| WalkError (message : text).
(** A directory tree as walkdir sees it without following links; [Unreadable] is a directory
    that cannot be listed. *)
Inductive node : Type :=
| RegularFile
| Symlink
| OtherNode
| Unreadable (message : text)
| Dir (entries : list (bytes * node)).
(** [Path::join] with a plain name. *)
Definition join (path name : bytes) : bytes :=
  match rev path with
  | [] => name
  | 47 :: _ => path ++ name
  | _ => path ++ lit "/" ++ name
  end.
(** walkdir's traversal, parents first; the entries of a directory in any given order. *)
Fixpoint walk (path : bytes) (n : node) {struct n} : list walk_item :=
  match n with
  | RegularFile => [Entry path false true]
  | Symlink => [Entry path true false]
  | OtherNode => [Entry path false false]
  | Unreadable e => [Entry path false false; WalkError e]
  | Dir entries =>
    Entry path false false ::
    (fix go (l : list (bytes * node)) : list walk_item :=
       match l with
       | [] => []
       | (name, child) :: r => walk (join path name) child ++ go r
       end) entries
  end.
(** files.rs:45-52 [keep_path] *)
Definition keep_path (i : walk_item) : bool :=
  match i with
  | Entry _ symlink file => negb symlink && file
  | WalkError _ => true
  end.
(** files.rs:54-64 [Source::dir_iter] *)
Definition dir_iter (path : bytes) (items : list walk_item) : list (res source) :=
  let base_len := match to_str path with Some t => utf8_len t | None => 0 end in
  map (fun i => match i with
                | WalkError e => Fail e
                | Entry p _ _ => Val (Local base_len p)
                end) (filter keep_path items).
(** files.rs:40-42 [Source::file_iter] *)
Definition file_iter (s : source) : list (res source) := [Val s].
(** urls.rs:40-60 [Source::httpdir_iter]; [listing] is what the cache or the crawler gives. *)
Definition httpdir_iter (url : text) (listing : res (list text)) : list (res source) :=
  let base_len := utf8_len (trim_end (N.eqb 47) url) + 1 in
  match listing with
  | Val urls => map (fun u => Val (Remote base_len u)) urls
  | Fail e => [Fail e]
  | Panic => [Panic]
  end.

(** model.rs:392-403 [Content::group_sources] on the listings of the contents.  The hash map
    is a list of pairs without duplicate names (its order is not specified). *)
Fixpoint group_add (groups : list (text * list source)) (n : text) (s : source) : list (text * list source) :=
  match groups with
  | [] => [(n, [s])]
  | (m, l) :: r => if eqb_list m n then (m, l ++ [s]) :: r else (m, l) :: group_add r n s
  end.
Fixpoint group_all (groups : list (text * list source)) (sources : list source) : res (list (text * list source)) :=
  match sources with
  | [] => Val groups
  | s :: r =>
    match get_relative s with
    | None => Panic
    | Some rel => group_all (group_add groups (index_name rel) s) r
    end
  end.
Fixpoint group_sources_go (groups : list (text * list source)) (contents : list (list (res source))) : res (list (text * list source)) :=
  match contents with
  | [] => Val groups
  | items :: r =>
    match get_sources items with
    | Val sources =>
      match group_all groups sources with
      | Val groups' => group_sources_go groups' r
      | Fail e => Fail e
      | Panic => Panic
      end
    | Fail e => Fail e
    | Panic => Panic
    end
  end.
Definition group_sources (contents : list (list (res source))) : res (list (text * list source)) :=
  group_sources_go [] contents.

(** ** Opening *)
(** reader.rs:42-50 [DecompressReader], for local files. *)
Inductive local_reader : Type := Flat | Gz.
(** reader.rs:52-61 [from_path], once the file is open. *)
Definition reader_of_path (path : bytes) : local_reader :=
  let ext := match extension path with Some e => e | None => [] end in
  if eqb_list ext (lit ".gz") then Gz else Flat.
(** urls.rs:29-37 [Source::url_open]: the base url the reader is asked for.  [url_parse] is
    [Url::parse]. *)
Definition take_bytes (n : N) (s : text) : option text :=
  match drop_bytes n s with
  | Some r => Some (firstn (length s - length r) s)
  | None => None
  end.
Definition url_open_base (url_parse : text -> res text) (prefix : N) (url : text) : res text :=
  if prefix =? 0 then Val url
  else match take_bytes 42 url with
       | None => Panic
       | Some t => url_parse t
       end.

(** ** Inputs *)
(** model.rs:39-51 [Input] *)
Inductive input : Type := InPath (s : text) | InUrl (s : text).
Definition input_from_string (s : text) : input := if starts_with (lit "http") s then InUrl s else InPath s.
