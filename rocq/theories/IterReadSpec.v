(** Specification of line splitting for any sequence of reads, also when a line longer
    than 6000 bytes has to be skipped.  It is a machine that is given the result of one
    read call at a time and is built on the automaton of IterSpec; it has no buffer, no
    positions and no machine arithmetic. *)
From Coq Require Import List NArith Bool.
From Verif Require Import Common IterModel IterSpec.
Import ListNotations.
Open Scope N_scope.

(** Between two reads: collecting the bytes of a segment, or skipping the remainder of
    an over-long one. *)
Inductive head := Collecting (L : lexer) | Skipping (L : lexer).

Definition forget (L : lexer) : lexer := mkLex (js L) (esc L) [] (nr L).

(** The first separator: the reading head behind it and the bytes that follow, or the
    reading head at the end when there is none. *)
Fixpoint first_sep (L : lexer) (s : bytes) : lexer * option bytes :=
  match s with
  | [] => (L, None)
  | c :: s' =>
    match feed L c with
    | (Some _, L1) => (L1, Some s')
    | (None, L1) => first_sep L1 s'
    end
  end.

(** Bytes met while collecting: every finished segment that is neither empty nor longer
    than 6000 bytes is delivered; an unfinished one is given up when it is longer. *)
Definition collect_bytes (L : lexer) (s : bytes) : list (bytes * N) * head :=
  let (l, L1) := lex L s in
  (filter deliverable l,
   if N.of_nat (length (cur L1)) <=? 6000 then Collecting L1 else Skipping (forget L1)).

(** A read of less than 8192 bytes met while skipping is scanned with the NUL bytes
    that fill it up to 8192. *)
Definition padded (d : bytes) : bytes := d ++ repeat 0 (N.to_nat (8192 - N.of_nat (length d))).

(** One read.  While skipping, a separator ends the skipping: what follows it in the
    same read is thrown away when the read is a full one, and collected, with the
    padding, when it is not. *)
Definition read_step (h : head) (d : bytes) : list (bytes * N) * head :=
  match h with
  | Collecting L => collect_bytes L d
  | Skipping L =>
    match first_sep L (padded d) with
    | (L1, None) => ([], Skipping (forget L1))
    | (L1, Some rest) =>
      if N.of_nat (length d) =? 8192 then ([], Collecting L1) else collect_bytes L1 rest
    end
  end.

(** A two-byte separator (backslash, n) cut in the middle by the start of a read that is
    skipped: this is where a build with overflow checks panics. *)
Definition cut_escape (h : head) (d : bytes) : bool :=
  match h, d with
  | Skipping L, c :: _ => esc L && (c =? 110)
  | _, _ => false
  end.

(** Successive reads: what is delivered, and the final head (none after a panic). *)
Fixpoint reads (checks : bool) (h : head) (chunks : list bytes)
  : list (bytes * N) * option head :=
  match chunks with
  | [] => ([], Some h)
  | d :: chunks' =>
    if checks && cut_escape h d then ([], None)
    else let (l, h1) := read_step h d in
         let (l', o) := reads checks h1 chunks' in (l ++ l', o)
  end.

(** At the end of the stream the unfinished segment is delivered too. *)
Definition at_end (h : head) : list (bytes * N) :=
  match h with
  | Collecting L => match cur L with [] => [] | _ :: _ => [(cur L, nr L)] end
  | Skipping _ => []
  end.

(** What follows the reads: the end of the stream, or a read that fails. *)
Inductive ending := Ends | Fails (e : N).
Definition finish (e : ending) (x : list (bytes * N) * option head) : list (bytes * N) * stop :=
  match snd x, e with
  | None, _ => (fst x, SPanic)
  | Some h, Ends => (fst x ++ at_end h, SEnd)
  | Some _, Fails err => (fst x, SErr err)
  end.

Definition expected (checks json : bool) (chunks : list bytes) (e : ending)
  : list (bytes * N) * stop :=
  finish e (reads checks (Collecting (lex0 json)) chunks).

(** The read calls a reader of the model answers like that. *)
Definition answers (chunks : list bytes) (e : ending) (after : reader) : reader :=
  map Data chunks ++ match e with Ends => [] | Fails err => Fail err :: after end.

(** Texts that occur in [s] one after the other, without overlap. *)
Fixpoint in_order (ls : list bytes) (s : bytes) : Prop :=
  match ls with
  | [] => True
  | l :: ls' => exists a b, s = a ++ l ++ b /\ in_order ls' b
  end.

(** A text without its NUL bytes. *)
Definition without_nul (s : bytes) : bytes := filter (fun c => negb (c =? 0)) s.

(** A read that is skipped starts in the middle of a separator: [before] are the reads
    made before it. *)
Definition cuts_escape (json : bool) (before : list bytes) (d : bytes) : Prop :=
  exists l h, reads false (Collecting (lex0 json)) before = (l, Some h) /\ cut_escape h d = true.
