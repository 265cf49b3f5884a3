(** Specification vocabulary for the standard output: rows on a terminal that also shows progress,
    and sorted names.  The model is imported for the type of rows and for their text. *)
From Coq Require Import String List NArith Bool.
From Verif Require Import Common FilesModel IndexModel ReportModel ShownModel.
Import ListNotations.
Open Scope string_scope.
Open Scope list_scope.
Open Scope N_scope.

(** A progress message goes over the current line, in colour. *)
Definition over_line (msg : bytes) : bytes := [13; 27] ++ lit "[1;33m[+]" ++ [27] ++ lit "[0m " ++ msg.
Definition erased : bytes := [13; 27] ++ lit "[K".
(** The progress about sources, one after the other. *)
Inductive progress_about : list source -> bytes -> Prop :=
| AboutNone : progress_about [] []
| AboutNext l s t out : progress_about l out -> source_text s = Some t -> progress_about (l ++ [s]) (out ++ over_line (lit "Inspecting " ++ t)).

Section Terminal.
Variable up : N -> bool.
Variable sources : list source.
Variable last_message : bytes.
(** A finding and its context, or a message about a source *)
Definition finding (o : @out_line F) : Prop := match o with Printed _ => True | _ => False end.
(** [on_lines fresh rows out]: [out] shows the rows in order, each with the end of its line, and
    progress between them.  A finding begins a line: the cursor was at the beginning of a line, as
    [fresh] tells, or an end of line is written before.  Then progress that is left on the terminal
    is erased for the last message. *)
Inductive on_lines : bool -> list (@out_line F) -> bytes -> Prop :=
| OnEnd fresh about out e : incl about sources -> progress_about about out -> e = [] \/ e = erased -> (about <> [] -> e = erased) ->
    on_lines fresh [] (out ++ e ++ over_line last_message)
| OnRow fresh about out nl row t rows rest : incl about sources -> progress_about about out -> nl = [] \/ nl = [10] ->
    (finding row -> nl = [10] \/ (about = [] /\ fresh = true)) ->
    live_text up row = Some t -> on_lines true rows rest ->
    on_lines fresh (row :: rows) (out ++ nl ++ t ++ [10] ++ rest).
End Terminal.

(** The order of names, character by character *)
Inductive name_lt : text -> text -> Prop :=
| LtShort y b : name_lt [] (y :: b)
| LtHead x y a b : x < y -> name_lt (x :: a) (y :: b)
| LtTail x a b : name_lt a b -> name_lt (x :: a) (x :: b).
