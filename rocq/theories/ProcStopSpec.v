(** Specification of where reading stops: which of logreduce's own marker lines ends a stream.

    A line to report waits from the time it is read until the end of the first batch that ends
    three or more lines behind it, or until a marker.  A marker at which nothing waits ends the
    reading. *)
From Coq Require Import String List NArith Bool.
From Verif Require Import Common ProcModel ProcSpec.
Import ListNotations.
Open Scope N_scope.

Section Stop.
Context {D : Type}.
Variable above : D -> bool.           (* is a distance above the threshold? *)
Variable tok : bytes -> bytes.        (* tokenized form of a line *)
Variable dist : bytes -> D.           (* distance of a tokenized line *)

(** [seen]: the tokenized lines so far; [size], [fresh]: the number of lines, and of new lines,
    of the batch; [since]: the number of lines behind the last line that waits. *)
Record pace := mkPace { seen : list bytes; size : N; fresh : N; since : option N }.
Definition pace_new (known : list bytes) : pace := mkPace known 0 0 None.

(** The end of a batch: 512 new lines, or a known line that makes it longer than 5120 lines. *)
Definition batch_ends (new : bool) (s : pace) : bool := if new then fresh s =? 512 else 5120 <? size s.
Definition end_batch (s : pace) : pace :=
  mkPace (seen s) 0 0 (match since s with Some n => if n <? 3 then Some n else None | None => None end).
Definition pace_line (s : pace) (b : bytes) : pace :=
  let new := negb (mem_set (tok b) (seen s)) in
  let s' := mkPace (if new then tok b :: seen s else seen s) (size s + 1) (if new then fresh s + 1 else fresh s)
                   (if new && above (dist (tok b)) then Some 0 else option_map N.succ (since s)) in
  if batch_ends new s' then end_batch s' else s'.
(** A marker that does not stop the reading ends a batch that has new lines. *)
Definition pace_marker (s : pace) : pace := mkPace (seen s) (if fresh s =? 0 then size s else 0) 0 None.

(** The number of lines that are read. *)
Fixpoint lines_read (s : pace) (lines : list (bytes * N)) : nat :=
  match lines with
  | [] => 0
  | (b, _) :: rest =>
    if is_marker b then match since s with None => 1 | Some _ => S (lines_read (pace_marker s) rest) end
    else S (lines_read (pace_line s b) rest)
  end%nat.

(** In a stream of a single batch: the marker at position [j] is quiet when no line between the
    marker before it (or the start) and itself is reported. *)
Definition quiet_at (known : list bytes) (lines : list (bytes * N)) (j : nat) : Prop :=
  (exists b nr, nth_error lines j = Some (b, nr) /\ is_marker b = true) /\
  exists earlier section, firstn j lines = earlier ++ section /\ no_marker section /\
    (earlier = [] \/ exists l b nr, earlier = l ++ [(b, nr)] /\ is_marker b = true) /\
    forall i, (length (without_markers earlier) <= i)%nat ->
      ~ reported above tok dist known (without_markers earlier ++ section) i.
End Stop.
