(** Words of the property of a comparison of two logs, from the command line to the page: C92.  The
    models are imported for the types of anomalies and lines of a page. *)
From Coq Require Import String List NArith.
From Verif Require Import Common FilesModel FilesSpec ProcModel ReportModel.
Import ListNotations.
Open Scope string_scope.
Open Scope list_scope.
Open Scope N_scope.

Section Rows.
Context {D : Type}.
(** Lines of context, numbered from [n]. *)
Fixpoint numbered_from (n : N) (xs : list bytes) : list (@rline D) :=
  match xs with [] => [] | x :: xs => Ctx n x :: numbered_from (n + 1) xs end.
(** The lines of the page: every anomaly between the lines of its context, which have the numbers
    next to its own. *)
Definition anomaly_rows (c : @actx D) : list (@rline D) :=
  numbered_from (apos c - N.of_nat (length (before c))) (before c) ++
  [Anom (distance c) (apos c) (aline c)] ++
  numbered_from (apos c + 1) (after c).
Definition page_rows (cs : list (@actx D)) : list (@rline D) := flat_map anomaly_rows cs.
(** There are numbers for the lines before an anomaly (not so if several lines have one number), and the
    numbers are far from 2^64. *)
Definition countable (c : @actx D) : Prop :=
  N.of_nat (length (before c)) < apos c /\ apos c + N.of_nat (length (after c)) < 2 ^ 64.
End Rows.

(** How a log is called on the page. *)
Definition log_title (s : source) : bytes :=
  lit "File(" ++ (match s with Local _ _ => lit "local: " | Remote _ _ => lit "remote: " end) ++ utf8_encode (full_name s) ++ lit ")".
