(** Specification vocabulary for the elements of a page, their places and their classes.  Nothing here
    knows how pages are made.

    An element is named by its number among the elements of its parent, followed by the name of the
    parent. *)
From Coq Require Import String List NArith Bool.
From Verif Require Import Common HtmlSpec FormSpec.
Import ListNotations.
Open Scope string_scope.
Open Scope list_scope.

Definition location := list nat.
Definition next_place (p : location) : location := match p with k :: up => S k :: up | [] => [] end.
(** [here]: the place of the next element. *)
Fixpoint placed (here : location) (l : list token) : list (location * (bytes * bytes)) :=
  match l with
  | [] => []
  | Open n a :: r => (here, (n, a)) :: placed (if existsb (eqb_list n) void_elements then next_place here else 0%nat :: here) r
  | Close _ :: r => placed (next_place (tl here)) r
  | Chars _ :: r => placed here r
  end.
(** The elements of a page in order: place, name and attributes. *)
Definition document (page : bytes) : list (location * (bytes * bytes)) := placed [0%nat] (tokens page).
(** [p] is [u] or inside of [u]; properly inside. *)
Definition within (u p : location) : Prop := exists inner, p = inner ++ u.
Definition inside (u p : location) : Prop := exists k inner, p = k :: inner ++ u.

(** Attributes with quoted values. *)
Inductive attr_place := Between | InName (n : bytes) | Equals (n : bytes) | InValue (n : bytes) (q : N) (v : bytes).
Fixpoint read_attributes (p : attr_place) (s : bytes) : list (bytes * bytes) :=
  match s with
  | [] => []
  | c :: r =>
    match p with
    | Between => if (c =? 32)%N then read_attributes Between r else read_attributes (InName [c]) r
    | InName n => if (c =? 61)%N then read_attributes (Equals n) r else read_attributes (InName (n ++ [c])) r
    | Equals n => read_attributes (InValue n c []) r
    | InValue n q v => if (c =? q)%N then (n, v) :: read_attributes Between r else read_attributes (InValue n q (v ++ [c])) r
    end
  end.
Definition attributes (s : bytes) : list (bytes * bytes) := read_attributes Between s.
(** The value of an attribute; the classes of an element. *)
Definition values (name : string) (s : bytes) : list bytes := map snd (filter (fun x => eqb_list (fst x) (lit name)) (attributes s)).
Fixpoint words_from (w s : bytes) : list bytes :=
  match s with [] => [w] | c :: r => if (c =? 32)%N then w :: words_from [] r else words_from (w ++ [c]) r end.
Definition classes (s : bytes) : list bytes := flat_map (words_from []) (values "class" s).
Definition has_class (c : string) (x : bytes * bytes) : bool := existsb (eqb_list (lit c)) (classes (snd x)).
Definition has_id (i : string) (x : bytes * bytes) : bool := existsb (eqb_list (lit i)) (values "id" (snd x)).
Definition is_tag (t : string) (x : bytes * bytes) : bool := eqb_list (fst x) (lit t).
(** The places of some elements. *)
Definition places (q : bytes * bytes -> bool) (doc : list (location * (bytes * bytes))) : list location := map fst (filter (fun x => q (snd x)) doc).

(** ** Clicks
    Something that is open or not, with a header that toggles it, except for its links, and a button
    that closes it: what it is after some clicks. *)
Section Clicks.
Variables (header button : location) (link : location -> Prop) (first : bool).
Inductive opened : list location -> bool -> Prop :=
| OpenedFirst : opened [] first
| OpenedToggled clicks o t : opened clicks o -> within header t -> ~ link t -> opened (clicks ++ [t]) (negb o)
| OpenedClosed clicks o t : opened clicks o -> within button t -> opened (clicks ++ [t]) false
| OpenedOther clicks o t : opened clicks o -> (within header t -> link t) -> ~ within button t -> opened (clicks ++ [t]) o.
End Clicks.
(** Something that is off at first and that a button switches. *)
Inductive switched (button : location) : list location -> bool -> Prop :=
| SwitchedNever : switched button [] false
| SwitchedClick clicks o t : switched button clicks o -> within button t -> switched button (clicks ++ [t]) (negb o)
| SwitchedOther clicks o t : switched button clicks o -> ~ within button t -> switched button (clicks ++ [t]) o.
(** An element can be seen if neither it nor an element that it is in is hidden. *)
Definition visible (hidden : location -> bool) (p : location) : Prop := forall u, within u p -> hidden u = false.
