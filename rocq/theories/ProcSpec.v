(** Specification vocabulary for the anomaly processor: which lines of a stream are
    reported, and what their contexts are, by position in the stream.  Nothing here
    knows of buffers or batches.  (The model is imported for the type of results.) *)
From Coq Require Import String List NArith Bool Sorting.
From Verif Require Import Common ProcModel.
Import ListNotations.

Section Spec.
Context {D : Type}.
Variable above : D -> bool.           (* is a distance above the threshold? *)
Variable tok : bytes -> bytes.        (* tokenized form of a line *)
Variable dist : bytes -> D.           (* distance of a tokenized line *)
Variable known : list bytes.          (* tokenized lines already known to the caller *)
Variable lines : list (bytes * N).    (* the stream: text and line number *)

(** The line at position [i] is the first with its tokenized form. *)
Definition first_seen (i : nat) : Prop :=
  exists b nr, nth_error lines i = Some (b, nr) /\ ~ In (tok b) known /\
    forall j b' nr', (j < i)%nat -> nth_error lines j = Some (b', nr') -> tok b' <> tok b.

(** It must be reported: first seen, with a distance above the threshold. *)
Definition reported (i : nat) : Prop :=
  first_seen i /\
  exists b nr, nth_error lines i = Some (b, nr) /\ above (dist (tok b)) = true.

(** [idxs] lists exactly the positions to report, in stream order. *)
Definition enumerates (idxs : list nat) : Prop :=
  StronglySorted lt idxs /\ forall i, In i idxs <-> reported i.

(** The anomaly [c] is about the line at position [i]. *)
Definition describes (c : @actx D) (i : nat) : Prop :=
  nth_error lines i = Some (aline c, apos c) /\ distance c = dist (tok (aline c)).

(** The contexts of [c] are the lines next to position [i], at most 3 on each side, and
    none of them is reported itself. *)
Definition neighbours (c : @actx D) (i : nat) : Prop :=
  let nb := length (before c) in
  let na := length (after c) in
  (nb <= 3 /\ na <= 3 /\ nb <= i)%nat /\
  before c = map fst (firstn nb (skipn (i - nb) lines)) /\
  after c = map fst (firstn na (skipn (i + 1) lines)) /\
  (forall j, (i - nb <= j < i \/ i < j <= i + na)%nat -> ~ reported j).

(** Contexts along a list of anomalies, each paired with its position.  [start_of] is the
    first position of the context, [stop_of] the first position behind it. *)
Definition start_of (x : @actx D * nat) : nat := snd x - length (before (fst x)).
Definition stop_of (x : @actx D * nat) : nat := snd x + length (after (fst x)) + 1.

(** No line is in two contexts. *)
Definition disjoint_contexts (l : list (@actx D * nat)) : Prop :=
  forall l1 x l2 y l3, l = l1 ++ x :: l2 ++ y :: l3 -> (stop_of x <= start_of y)%nat.

(** The before context has 3 lines, or reaches back to the previous anomaly's context, or
    to the start of the stream. *)
Definition before_maximal (l : list (@actx D * nat)) : Prop :=
  (forall x l2, l = x :: l2 -> length (before (fst x)) = 3%nat \/ start_of x = 0%nat) /\
  (forall l1 x y l2, l = l1 ++ x :: y :: l2 ->
     length (before (fst y)) = 3%nat \/ (start_of y <= stop_of x)%nat).

(** The after context has 3 lines, or reaches the next anomaly. *)
Definition after_maximal (l : list (@actx D * nat)) : Prop :=
  forall l1 x y l2, l = l1 ++ x :: y :: l2 ->
    length (after (fst x)) = 3%nat \/ stop_of x = snd y.

(** The same for the last anomaly and the end of the stream. *)
Definition last_after_maximal (l : list (@actx D * nat)) : Prop :=
  forall l1 x, l = l1 ++ [x] -> length (after (fst x)) = 3%nat \/ stop_of x = length lines.

(** Weaker: what is missing behind the last anomaly is only lines that were seen before. *)
Definition last_after_known (l : list (@actx D * nat)) : Prop :=
  forall l1 x, l = l1 ++ [x] -> length (after (fst x)) = 3%nat \/
    forall j, (stop_of x <= j)%nat -> ~ first_seen j.

End Spec.

(** Valid streams. *)
Definition all_valid (lines : list (bytes * N)) : Prop :=
  Forall (fun x => valid_utf8 (fst x) = true) lines.
Definition no_marker (lines : list (bytes * N)) : Prop :=
  Forall (fun x => is_marker (fst x) = false) lines.
Definition without_markers (lines : list (bytes * N)) : list (bytes * N) :=
  filter (fun x => negb (is_marker (fst x))) lines.
Definition ok_items (lines : list (bytes * N)) : list item :=
  map (fun x => ILine (fst x) (snd x)) lines.
Definition total_bytes (lines : list (bytes * N)) : N :=
  fold_right (fun x n => (N.of_nat (length (fst x)) + n)%N) 0%N lines.

(** The search of the index gives each target its own distance. *)
Definition pointwise {D} (search : list bytes -> list D) (dist : bytes -> D) : Prop :=
  forall ts, search ts = map dist ts.

(** Distinct elements in order of first occurrence, without those of [seen]. *)
Fixpoint firsts (seen l : list bytes) : list bytes :=
  match l with
  | [] => []
  | t :: l' => if in_dec (list_eq_dec N.eq_dec) t seen then firsts seen l'
               else t :: firsts (t :: seen) l'
  end.

(** The lines of a source before its first failure. *)
Fixpoint good_prefix (items : list item) : list (bytes * N) :=
  match items with
  | ILine b nr :: items' => if valid_utf8 b then (b, nr) :: good_prefix items' else []
  | _ => []
  end.

(** An item that ends the stream with the error [e]: [Some n] for a read error, [None] for
    a line that is not utf-8. *)
Definition failing (bad : item) (e : option N) : Prop :=
  match bad with
  | IErr n => e = Some n
  | ILine b _ => valid_utf8 b = false /\ e = None
  end.
