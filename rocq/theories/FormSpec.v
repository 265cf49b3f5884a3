(** Specification vocabulary for the form of an html page.  Nothing here knows how pages are made. *)
From Coq Require Import String List NArith Bool.
From Verif Require Import Common HtmlSpec.
Import ListNotations.
Open Scope string_scope.
Open Scope list_scope.
Open Scope N_scope.

(** The elements of the html standard that have no closing tag. *)
Definition void_elements : list bytes :=
  map lit ["area"; "base"; "br"; "col"; "embed"; "hr"; "img"; "input"; "link"; "meta"; "source"; "track"; "wbr"]%string.
(** Every other element is closed, inside of the element that it was opened in. *)
Inductive nested : list tag_name -> Prop :=
| NestedNothing : nested []
| NestedVoid n l : In n void_elements -> nested l -> nested (Opening n :: l)
| NestedElement n inside behind : ~ In n void_elements -> nested inside -> nested behind ->
    nested (Opening n :: inside ++ Closing n :: behind).

(** The opening tags of a page, in order: names and attributes. *)
Definition opening (t : token) : list (bytes * bytes) := match t with Open n a => [(n, a)] | _ => [] end.
Definition openings (page : bytes) : list (bytes * bytes) := flat_map opening (tokens page).
(** Those with one of some names. *)
Definition named (names : list string) (x : bytes * bytes) : bool := existsb (fun n => eqb_list (lit n) (fst x)) names.
(** A class is given first. *)
Definition quote : bytes := [34].
Definition of_class (class : string) (x : bytes * bytes) : bool :=
  let start := lit " class=" ++ quote ++ lit class in eqb_list start (firstn (List.length start) (snd x)).

(** ** The page of a report *)
(** A stylesheet and a script from elsewhere: only used when its bytes have the hash given. *)
Definition checked : bytes := lit " crossorigin=" ++ quote ++ lit "anonymous" ++ quote.
Definition stylesheet (x : bytes * bytes) : bytes * bytes :=
  (lit "link", lit " href=" ++ quote ++ fst x ++ quote ++ lit " rel=" ++ quote ++ lit "stylesheet" ++ quote ++ lit " integrity=" ++ quote ++ snd x ++ quote ++ checked).
Definition script_from (x : bytes * bytes) : bytes * bytes :=
  (lit "script", lit " src=" ++ quote ++ fst x ++ quote ++ lit " integrity=" ++ quote ++ snd x ++ quote ++ checked).
(** The first of [n] things is different. *)
Definition first_of {A} (first others : A) (n : nat) : list A := match n with O => [] | S k => first :: repeat others k end.
