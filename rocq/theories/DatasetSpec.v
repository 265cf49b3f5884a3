(** Vocabulary for the datasets command.  Nothing of its model is used. *)
From Coq Require Import String List NArith Bool.
From Verif Require Import Common TokSpec.
Import ListNotations.
Open Scope N_scope.

(** A file name with the extension [e], which has no dot: something, a dot, [e]. *)
Definition named_with (e : list N) (name : bytes) : Prop :=
  exists stem, stem <> [] /\ name = stem ++ lit "." ++ e.
(** The first element with a property. *)
Definition first_such {A} (P : A -> Prop) (l : list A) (x : A) : Prop :=
  exists l1 l2, l = l1 ++ x :: l2 /\ P x /\ Forall (fun y => ~ P y) l1.
(** [t] is [s] without the white space at its ends. *)
Definition trimmed (s t : list N) : Prop :=
  exists a b, s = a ++ t ++ b /\ Forall white a /\ Forall white b /\
    (forall c r, t = c :: r -> ~ white c) /\ (forall c r, t = r ++ [c] -> ~ white c).
(** A log line, in UTF-8, contains an expected text, white space at its ends left aside. *)
Definition includes (expected : list N) (line : bytes) : Prop :=
  exists t, trimmed expected t /\ infix (utf8_encode t) line.
(** A path that does not go through a directory named etc. *)
Definition outside_etc (path : bytes) : Prop :=
  forall t, utf8_decode path = Some t -> ~ infix (lit "/etc/") t.
