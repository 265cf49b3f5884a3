(** Regular expressions over code points: syntax, the language of an expression, and an
    executable matcher by derivatives.  Definitions only; the matcher is proved to decide
    the language in RegexFacts.v.

    The regex crate is not in the repository.  [Regex::is_match] searches for a match
    anywhere; anchors are translated by the combinators [search], [search_from_start],
    [search_to_end] and [search_whole] below. *)
From Coq Require Import List NArith Bool.
From Verif Require Import Common.
Import ListNotations.
Open Scope N_scope.

(** A character class: ranges, negated ranges, or \w (Unicode, a parameter). *)
Inductive cls :=
| Ranges (l : list (N * N))
| NotRanges (l : list (N * N))
| WordClass
| NotWordClass.

Inductive re :=
| Emp                       (* nothing *)
| Eps                       (* the empty text *)
| Cls (c : cls)             (* one character *)
| Cat (r s : re)
| Alt (r s : re)
| Star (r : re).

Definition in_ranges (l : list (N * N)) (c : N) : bool :=
  existsb (fun r => (fst r <=? c) && (c <=? snd r)) l.

Section Word.
(** The characters \w matches. *)
Variable word_char : N -> bool.

Definition in_cls (k : cls) (c : N) : bool :=
  match k with
  | Ranges l => in_ranges l c
  | NotRanges l => negb (in_ranges l c)
  | WordClass => word_char c
  | NotWordClass => negb (word_char c)
  end.

(** The language of an expression. *)
Inductive lang : re -> list N -> Prop :=
| LEps : lang Eps []
| LCls k c : in_cls k c = true -> lang (Cls k) [c]
| LCat r s u v : lang r u -> lang s v -> lang (Cat r s) (u ++ v)
| LAltL r s u : lang r u -> lang (Alt r s) u
| LAltR r s u : lang s u -> lang (Alt r s) u
| LStar0 r : lang (Star r) []
| LStar1 r u v : lang r u -> lang (Star r) v -> lang (Star r) (u ++ v).

(** Equality of expressions, to merge equal alternatives. *)
Fixpoint eqb_ranges (a b : list (N * N)) : bool :=
  match a, b with
  | [], [] => true
  | (x, y) :: a', (z, w) :: b' => (x =? z) && (y =? w) && eqb_ranges a' b'
  | _, _ => false
  end.
Definition eqb_cls (a b : cls) : bool :=
  match a, b with
  | Ranges x, Ranges y => eqb_ranges x y
  | NotRanges x, NotRanges y => eqb_ranges x y
  | WordClass, WordClass => true
  | NotWordClass, NotWordClass => true
  | _, _ => false
  end.
Fixpoint eqb_re (a b : re) : bool :=
  match a, b with
  | Emp, Emp => true
  | Eps, Eps => true
  | Cls x, Cls y => eqb_cls x y
  | Cat a1 a2, Cat b1 b2 => eqb_re a1 b1 && eqb_re a2 b2
  | Alt a1 a2, Alt b1 b2 => eqb_re a1 b1 && eqb_re a2 b2
  | Star a1, Star b1 => eqb_re a1 b1
  | _, _ => false
  end.
Fixpoint mem_alt (r s : re) : bool :=
  match s with
  | Alt s1 s2 => eqb_re r s1 || mem_alt r s2
  | _ => eqb_re r s
  end.

(** Simplifying constructors. *)
Fixpoint alt (r s : re) : re :=
  match r with
  | Emp => s
  | Alt a b => alt a (alt b s)
  | _ => match s with Emp => r | _ => if mem_alt r s then s else Alt r s end
  end.
Definition cat (r s : re) : re :=
  match r, s with
  | Emp, _ => Emp
  | _, Emp => Emp
  | Eps, _ => s
  | _, Eps => r
  | _, _ => Cat r s
  end.

Fixpoint nullable (r : re) : bool :=
  match r with
  | Emp => false
  | Eps => true
  | Cls _ => false
  | Cat r s => nullable r && nullable s
  | Alt r s => nullable r || nullable s
  | Star _ => true
  end.
Fixpoint der (c : N) (r : re) : re :=
  match r with
  | Emp => Emp
  | Eps => Emp
  | Cls k => if in_cls k c then Eps else Emp
  | Cat r s => if nullable r then alt (cat (der c r) s) (der c s) else cat (der c r) s
  | Alt r s => alt (der c r) (der c s)
  | Star r => cat (der c r) (Star r)
  end.
(** The whole text is matched. *)
Fixpoint matchb (r : re) (l : list N) : bool :=
  match l with
  | [] => nullable r
  | c :: l' => match r with Emp => false | _ => matchb (der c r) l' end
  end.
End Word.

(** Building blocks. *)
Definition ch (c : N) : re := Cls (Ranges [(c, c)]).
Fixpoint str (s : list N) : re :=
  match s with [] => Eps | [c] => ch c | c :: s' => Cat (ch c) (str s') end.
Definition plus (r : re) : re := Cat r (Star r).
Definition opt (r : re) : re := Alt r Eps.
Fixpoint rep (n : nat) (r : re) : re := match n with O => Eps | S n' => Cat r (rep n' r) end.
(** At least [n]. *)
Definition rep_from (n : nat) (r : re) : re := Cat (rep n r) (Star r).
Fixpoint alts (l : list re) : re :=
  match l with [] => Emp | [r] => r | r :: l' => Alt r (alts l') end.
Definition dot : re := Cls (NotRanges [(10, 10)]).          (* . : any character but a line feed *)
Definition any : re := Star (Cls (NotRanges [])).            (* any text *)

(** Where a search may find its match. *)
Definition search (r : re) : re := Cat any (Cat r any).                (* r *)
Definition search_from_start (r : re) : re := Cat r any.               (* ^r *)
Definition search_to_end (r : re) : re := Cat any r.                   (* r$ *)
Definition search_whole (r : re) : re := r.                            (* ^r$ *)
(** r\b where r ends with a word character: no word character follows. *)
Definition search_boundary (r : re) : re :=
  Cat any (Cat r (Alt Eps (Cat (Cls NotWordClass) any))).

(** A letter under (?i-u:...), ASCII only. *)
Definition upper (c : N) : N := if (97 <=? c) && (c <=? 122) then c - 32 else c.
Definition ich (c : N) : re := Cls (Ranges [(c, c); (upper c, upper c)]).
Fixpoint istr (s : list N) : re :=
  match s with [] => Eps | [c] => ich c | c :: s' => Cat (ich c) (istr s') end.
(** A letter under (?i:...), with Unicode simple case folding: k also matches the Kelvin
    sign U+212A, s also matches the long s U+017F. *)
Definition uch (c : N) : re :=
  Cls (Ranges ((c, c) :: (upper c, upper c) ::
    (if c =? 107 then [(8490, 8490)] else if c =? 115 then [(383, 383)] else []))).
Fixpoint ustr (s : list N) : re :=
  match s with [] => Eps | [c] => uch c | c :: s' => Cat (uch c) (ustr s') end.
