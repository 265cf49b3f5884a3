(** Vocabulary for the properties of index names and sources.  No model definitions but
    [source] and the utf-8 functions are used. *)
From Coq Require Import String List NArith Bool Permutation.
From Verif Require Import Common TokSpec FilesModel.
Import ListNotations.
Open Scope N_scope.

(** ** Names and paths *)
(** A directory entry's name. *)
Definition normal_name (s : text) : Prop := s <> [] /\ ~ In 47 s /\ s <> lit "." /\ s <> lit "..".
(** Seven lowercase hexadecimal digits. *)
Definition small_hash (s : text) : Prop := length s = 7%nat /\ Forall (fun c => digit c \/ between 97 102 c) s.
(** The part of a path before a name: nothing, or up to a slash. *)
Definition up_to_slash (pre : text) : Prop := pre = [] \/ exists p, pre = p ++ lit "/".
(** [path] is the file [name], shown with the label [lab]: its directory and a slash, skipping
    a directory named like a commit; nothing for a top level file. *)
Inductive labelled : text -> text -> text -> Prop :=
| TopLevel name : normal_name name -> labelled name [] name
| UnderRoot name : normal_name name -> labelled (lit "/" ++ name) [] name
| InDir pre dir name : up_to_slash pre -> normal_name dir -> ~ small_hash dir -> normal_name name ->
    labelled (pre ++ dir ++ lit "/" ++ name) (dir ++ lit "/") name
| InHashDir pre dir hash name : up_to_slash pre -> normal_name dir -> small_hash hash -> normal_name name ->
    labelled (pre ++ dir ++ lit "/" ++ hash ++ lit "/" ++ name) (dir ++ lit "/") name
| InTopHashDir hash name : small_hash hash -> normal_name name ->
    labelled (hash ++ lit "/" ++ name) (lit "/") name.

(** ** Index names *)
Definition separator_char (c : N) : Prop := one_of "/._-" c.
Definition name_char (c : N) : Prop := letter c \/ separator_char c.
Definition is_name_char (c : N) : bool :=
  ((97 <=? c) && (c <=? 122)) || ((65 <=? c) && (c <=? 90)) || existsb (N.eqb c) (lit "/._-").
(** The names with a group of their own. *)
Definition special_name (lab name : text) : Prop :=
  prefix (lit "qemu/instance-") (lab ++ name) \/ prefix (lit "pod/") (lab ++ name) \/
  (prefix (lit "k8s_") name /\ In 45 name) \/ prefix (lit "pvc-") name.
(** [n]: [s] without separators at its ends, and then without any .gz at its end. *)
Definition stripped (n s : text) : Prop :=
  exists a b gz, s = a ++ (n ++ concat (repeat (lit ".gz") gz)) ++ b /\
    Forall separator_char a /\ Forall separator_char b /\
    (forall c r, n ++ concat (repeat (lit ".gz") gz) = c :: r -> ~ separator_char c) /\
    (forall c r, n ++ concat (repeat (lit ".gz") gz) = r ++ [c] -> ~ separator_char c) /\
    ~ suffix (lit ".gz") n.
(** What log rotation appends: digits and . _ -. *)
Definition rotation (s : text) : Prop := Forall (fun c => digit c \/ one_of "._-" c) s.

(** ** Sources *)
Definition excluded_suffixes : list text := map lit
  [ ".ico"; ".png"; ".clf"; ".tar"; ".tar.bzip2"; ".subunit"; ".sqlite"; ".db"; ".bin"; ".pcap.log.txt";
    ".eot"; ".otf"; ".woff"; ".woff2"; ".ttf"; ".yaml"; ".ini"; ".conf";
    "job-output.json"; "log-classify.json"; "zuul-manifest.json"; ".html";
    "cacerts"; "local/creds"; "pacemaker/authkey"; "mysql/tc.log.txt"; "corosync/authkey";
    "object.builder"; "account.builder"; "container.builder" ]%string.
(** The full name of a source: a path that is not utf-8 has none. *)
Definition full_name (s : source) : text :=
  match s with
  | Local _ path => match utf8_decode path with Some t => t | None => [] end
  | Remote _ url => url
  end.
Definition excluded (s : source) : Prop :=
  (exists e, In e excluded_suffixes /\ (suffix e (full_name s) \/ suffix (e ++ lit ".gz") (full_name s))) \/
  infix (lit "/etc/") (full_name s).
(** [out]: the elements of [l] that satisfy [P], in order. *)
Inductive selected {A} (P : A -> Prop) : list A -> list A -> Prop :=
| SelNil : selected P [] []
| SelKeep x l out : P x -> selected P l out -> selected P (x :: l) (x :: out)
| SelSkip x l out : ~ P x -> selected P l out -> selected P (x :: l) out.

(** ** Trees *)
(** The names along the way to a regular file. *)
Inductive file_at : node -> list bytes -> Prop :=
| FileHere : file_at RegularFile []
| FileIn entries name child way : In (name, child) entries -> file_at child way -> file_at (Dir entries) (name :: way).
(** Something that cannot be listed. *)
Inductive unreadable_in : node -> text -> Prop :=
| UnreadableHere e : unreadable_in (Unreadable e) e
| UnreadableIn entries name child e : In (name, child) entries -> unreadable_in child e -> unreadable_in (Dir entries) e.
(** All names in the tree are utf-8. *)
Inductive utf8_names : node -> Prop :=
| UFile : utf8_names RegularFile
| USymlink : utf8_names Symlink
| UOther : utf8_names OtherNode
| UUnreadable e : utf8_names (Unreadable e)
| UDir entries : (forall name child, In (name, child) entries -> utf8_decode name <> None /\ utf8_names child) ->
    utf8_names (Dir entries).
