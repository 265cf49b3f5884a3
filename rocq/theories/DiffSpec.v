(** Words of the property of a comparison of two logs, from the command line to the standard output:
    C90.  The models are imported for the types of sources, contents and readers, for what [main]
    is and for the text of numbers; the words for the lines that are found are those of ProcSpec.v and
    ProcExactSpec.v. *)
From Coq Require Import String List NArith Bool.
From Verif Require Import Common IterModel IterSpec ProcModel ProcSpec TokSpec FilesModel FilesSpec CliModel IndexModel HtmlModel ShownModel.
Import ListNotations.
Open Scope string_scope.
Open Scope list_scope.
Open Scope N_scope.

(** ** A word of the command line that names one log *)
Section Names.
Variable kind_of : text -> path_kind.                   (* what is at a path *)
Variable parse_url : text -> option text.               (* the text of a url once parsed *)
Variable has_authority : text -> bool.                  (* has it a host? *)
Variable from_zuul_url : text -> bool.                  (* is it the page of a build? *)
Inductive names : text -> source -> Prop :=
| NamesFile t : ~ prefix (lit "http") t -> kind_of t = KFile -> names t (Local 0 t)
| NamesUrl t u : prefix (lit "http") t -> parse_url t = Some u -> has_authority u = true -> from_zuul_url u = false ->
    ~ suffix (lit "/") u -> names t (Remote 0 u).
End Names.
(** Whether the log is read as json *)
Definition json_named (s : source) (json : bool) : Prop := json = true <-> suffix (lit ".json") (full_name s).

(** ** A log and its lines *)
(** The log [s] has the bytes [c]: they come in reads of any sizes. *)
Definition has_bytes (open : source -> res (bool -> list item)) (s : source) (c : bytes) : Prop :=
  exists ovf chunks, read_sizes chunks /\ concat chunks = c /\
    exists items, open s = Val items /\ forall json, items json = ok_items (fst (all_lines ovf json (map Data chunks))).
(** Its lines with their numbers, without the empty ones *)
Definition lines_of_log (json : bool) (c : bytes) : list (bytes * N) :=
  filter (fun x => match fst x with [] => false | _ :: _ => true end) (segments json c).
(** Lines of ordinary lengths, of unicode, none of them by logreduce itself *)
Definition plain_log (json : bool) (c : bytes) : Prop :=
  Forall (fun x => N.of_nat (length (fst x)) <= 5999) (segments json c) /\
  all_valid (lines_of_log json c) /\
  Forall (fun x => ~ infix (lit "TASK [log-classify") (fst x)) (lines_of_log json c).

(** ** What is shown *)
Section Shown.
Variable up : N -> bool.
(** Lines of context, numbered from [n]. *)
Fixpoint context_text (n : N) (xs : list bytes) : bytes :=
  match xs with
  | [] => []
  | x :: xs => lit "   " ++ fmt n ++ lit " | " ++ x ++ [10] ++ context_text (n + 1) xs
  end.
(** The anomalies with their contexts; a separator unless the numbers of the last one end at the number
    that this one begins with.  (The numbers of a context that comes before are one too small: C43.) *)
Definition first_number (c : @actx F) : N := apos c - (1 + N.of_nat (length (before c))).
Definition end_number (c : @actx F) : N := apos c + N.of_nat (length (after c)).
Definition anomaly_text (c : @actx F) : bytes :=
  context_text (first_number c) (before c) ++
  fmt_float up 2 0 (fmul (distance c) (as_f32 99)) ++ lit " " ++ fmt (apos c) ++ lit " | " ++ aline c ++ [10] ++
  context_text (apos c) (after c).
Fixpoint next_text (last : N) (cs : list (@actx F)) : bytes :=
  match cs with
  | [] => []
  | c :: cs => (if last =? first_number c then [] else lit "--" ++ [10]) ++ anomaly_text c ++ next_text (end_number c) cs
  end.
Definition diff_text (cs : list (@actx F)) : bytes :=
  match cs with [] => [] | c :: cs => anomaly_text c ++ next_text (end_number c) cs end.
End Shown.
