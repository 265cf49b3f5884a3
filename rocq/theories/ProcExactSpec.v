(** Specification of the contexts of a stream of any number of batches: the exact lines before
    and behind each anomaly.  For a stream without logreduce's own marker lines. *)
From Coq Require Import String List NArith Arith Bool.
From Verif Require Import Common ProcModel ProcSpec ProcStopSpec.
Import ListNotations.
Open Scope nat_scope.

Section Exact.
Context {D : Type}.
Variable above : D -> bool.           (* is a distance above the threshold? *)
Variable tok : bytes -> bytes.        (* tokenized form of a line *)
Variable dist : bytes -> D.           (* distance of a tokenized line *)
Variable known : list bytes.          (* tokenized lines already known to the caller *)
Variable lines : list (bytes * N).    (* the stream: text and line number *)

(** The texts from position [a] up to, not including, position [b]. *)
Definition texts (a b : nat) : list bytes := map fst (firstn (b - a) (skipn a lines)).

(** Where the batch that holds position [i] starts. *)
Definition batch_start (i : nat) : nat :=
  i - N.to_nat (size (fold_left (pace_line above tok dist) (map fst (firstn i lines)) (pace_new known))).

(** The line at position [i] is new: neither known nor read before. *)
Definition new_at (i : nat) : bool :=
  match nth_error lines i with
  | Some (b, _) => negb (mem_set (tok b) (known ++ map (fun x => tok (fst x)) (firstn i lines)))
  | None => false
  end.
(** The position behind the last new line before position [n]; 0 when there is none. *)
Definition behind_new (n : nat) : nat :=
  match find new_at (rev (seq 0 n)) with Some i => S i | None => 0 end.

(** How far the last batch is searched: to its end when it has a new line, else not at all. *)
Definition searched : nat :=
  let n := length lines in
  let s := batch_start n in
  if s <? behind_new n then n else s.

(** The context of the anomaly at [i] ends behind its third line, or at the next anomaly, or
    where the search ends. *)
Definition context_end (next : option nat) (i : nat) : nat :=
  Nat.min (i + 4) (match next with Some k => k | None => searched end).

(** It starts three lines before, or behind the context of the previous anomaly at [j].  But
    lines of an earlier batch that follow its last new line are taken even when they are in
    that context. *)
Definition context_start (prev : option nat) (i : nat) : nat :=
  Nat.max (i - 3)
    match prev with
    | None => 0
    | Some j =>
      let e := Nat.min (j + 4) i in
      if batch_start i <? e then e else Nat.min e (behind_new (batch_start i))
    end.

Definition exact_context (prev next : option nat) (c : @actx D) (i : nat) : Prop :=
  before c = texts (context_start prev i) i /\ after c = texts (i + 1) (context_end next i).

(** Of every anomaly, given the positions of all. *)
Definition exact_contexts (cs : list (@actx D)) (positions : list nat) : Prop :=
  forall k c i, nth_error cs k = Some c -> nth_error positions k = Some i ->
    exact_context (match k with O => None | S k' => nth_error positions k' end) (nth_error positions (S k)) c i.
End Exact.
