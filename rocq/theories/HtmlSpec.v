(** Specification vocabulary for html pages: how a page is read.  Nothing here knows how pages
    are made.

    This is the part of the html tokenizer that the pages need: a less-than sign opens a tag when
    a letter, a slash, an exclamation or a question mark follows; a tag ends at a greater-than
    sign outside of quotes.  (Left out: comments, character references, the special treatment
    of the contents of title, style and script.) *)
From Coq Require Import String List NArith Bool.
From Verif Require Import Common.
Import ListNotations.
Open Scope string_scope.
Open Scope list_scope.
Open Scope N_scope.

(** [Open name rest]: an opening tag with the text behind its name. *)
Inductive token := Open (name : bytes) (rest : bytes) | Close (name : bytes) | Chars (t : bytes).

Definition letter (c : N) : bool := ((97 <=? c) && (c <=? 122)) || ((65 <=? c) && (c <=? 90)).
(** May [c] follow a less-than sign in a tag? *)
Definition tag_start (c : N) : bool := letter c || (c =? 47) || (c =? 33) || (c =? 63).
Definition opens (next : bytes) : bool := match next with c :: _ => tag_start c | [] => false end.
(** The name of a tag goes up to the first space. *)
Fixpoint name_of (t : bytes) : bytes * bytes :=
  match t with
  | [] => ([], [])
  | c :: r => if c =? 32 then ([], t) else let (n, rest) := name_of r in (c :: n, rest)
  end.
Definition tag (t : bytes) : token :=
  match t with
  | 47 :: r => Close (fst (name_of r))
  | _ => let (n, rest) := name_of t in Open n rest
  end.
Definition chars (t : bytes) : list token := match t with [] => [] | _ => [Chars t] end.

(** In text, in a tag, in a quoted value of a tag; with what was read of it. *)
Inductive place := InText (t : bytes) | InTag (t : bytes) | InQuote (q : N) (t : bytes).
Fixpoint read (p : place) (s : bytes) : list token :=
  match s with
  | [] => match p with InText t => chars t | _ => [] end
  | c :: r =>
    match p with
    | InText t => if (c =? 60) && opens r then chars t ++ read (InTag []) r else read (InText (t ++ [c])) r
    | InTag t =>
      if c =? 62 then tag t :: read (InText []) r
      else if (c =? 34) || (c =? 39) then read (InQuote c (t ++ [c])) r
      else read (InTag (t ++ [c])) r
    | InQuote q t => if c =? q then read (InTag (t ++ [c])) r else read (InQuote q (t ++ [c])) r
    end
  end.
Definition tokens (page : bytes) : list token := read (InText []) page.

(** The tags of a page. *)
Inductive tag_name := Opening (name : bytes) | Closing (name : bytes).
Definition tags (l : list token) : list tag_name :=
  flat_map (fun t => match t with Open n _ => [Opening n] | Close n => [Closing n] | Chars _ => [] end) l.

(** What a page shows: a list of headings, each with the lines (elements pre) below it. *)
Definition heading_class : bytes := lit " class=" ++ [34] ++ lit "list-group-item-heading" ++ [34].
Inductive capture := Nothing | Heading (t : bytes) | Line (t : bytes).
Record view := mkView { shown : list (bytes * list bytes); now : capture }.
Fixpoint add_line (l : list (bytes * list bytes)) (x : bytes) : list (bytes * list bytes) :=
  match l with
  | [] => []
  | [(h, xs)] => [(h, xs ++ [x])]
  | y :: r => y :: add_line r x
  end.
Definition see (v : view) (t : token) : view :=
  match t, now v with
  | Open n rest, c =>
    if eqb_list n (lit "pre") then mkView (shown v) (Line [])
    else if eqb_list n (lit "div") && eqb_list rest heading_class then mkView (shown v) (Heading [])
    else v
  | Chars x, Heading h => mkView (shown v) (Heading (h ++ x))
  | Chars x, Line l => mkView (shown v) (Line (l ++ x))
  | Chars x, Nothing => v
  | Close n, Heading h => if eqb_list n (lit "div") then mkView (shown v ++ [(h, [])]) Nothing else v
  | Close n, Line l => if eqb_list n (lit "pre") then mkView (add_line (shown v) l) Nothing else v
  | Close n, Nothing => v
  end.
Definition view_of (page : bytes) : list (bytes * list bytes) := shown (fold_left see (tokens page) (mkView [] Nothing)).

(** Texts that cannot be taken for markup: no less-than sign at the end or before the start of a
    tag. *)
Fixpoint harmless (t : bytes) : Prop :=
  match t with
  | [] => True
  | c :: r => (c = 60 -> r <> [] /\ opens r = false) /\ harmless r
  end.
(** Values that cannot end a quoted attribute. *)
Definition quotable (t : bytes) : Prop := ~ In 34 t.

(** Decimal numbers. *)
Definition decimal (n : N) (s : bytes) : Prop :=
  Forall (fun c => 48 <= c <= 57) s /\ fold_left (fun a c => 10 * a + (c - 48)) s 0 = n /\
  (s = [48] \/ exists c r, s = c :: r /\ c <> 48).
(** Padded on the left to the width [w]. *)
Definition padded (c : N) (w : nat) (s out : bytes) : Prop := exists k, out = repeat c k ++ s /\ (length s + k = max w (length s))%nat.
