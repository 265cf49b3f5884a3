(** Specification of line splitting: a one-pass automaton over the whole byte
    stream.  It knows nothing of buffers, reads or limits.  (The model is imported for
    the type of readers only.) *)
From Coq Require Import List NArith Bool.
From Verif Require Import Common IterModel.
Import ListNotations.
Open Scope N_scope.

(** Reading head: json mode ([Some b]: b = inside a double-quoted string), whether
    the previous byte was an unescaped backslash, the bytes of the segment being
    read, and the current line number. *)
Record lexer := mkLex { js : option bool; esc : bool; cur : bytes; nr : N }.

Definition lex0 (json : bool) : lexer :=
  mkLex (if json then Some false else None) false [] 1.

(** One byte: possibly a finished segment (with its line number). *)
Definition feed (L : lexer) (c : N) : option (bytes * N) * lexer :=
  let text := mkLex (js L) false (cur L ++ [c]) (nr L) in
  if esc L then
    if c =? 110 (* n *) then (Some (removelast (cur L), nr L), mkLex (js L) false [] (nr L))
    else (None, text)
  else if c =? 92 (* backslash *) then (None, mkLex (js L) true (cur L ++ [c]) (nr L))
  else if c =? 10 (* newline *) then (Some (cur L, nr L), mkLex (js L) false [] (nr L + 1))
  else match js L with
       | Some in_string =>
         if c =? 34 (* double quote *) then
           (None, mkLex (Some (negb in_string)) false (cur L ++ [c]) (nr L))
         else if negb in_string
                 && ((c =? 44) || (c =? 91) || (c =? 93) || (c =? 123) || (c =? 125))
         then (Some (cur L, nr L), mkLex (js L) false [] (nr L))
         else (None, text)
       | None => (None, text)
       end.

(** All bytes: the finished segments and the final reading head. *)
Fixpoint lex (L : lexer) (s : bytes) : list (bytes * N) * lexer :=
  match s with
  | [] => ([], L)
  | c :: s' =>
    match feed L c with
    | (Some x, L1) => let (l, L2) := lex L1 s' in (x :: l, L2)
    | (None, L1) => lex L1 s'
    end
  end.

(** The finished segments of a stream, with line numbers. *)
Definition finished (json : bool) (s : bytes) : list (bytes * N) := fst (lex (lex0 json) s).
(** The bytes of the unfinished segment at the end of a stream. *)
Definition pending (json : bool) (s : bytes) : bytes := cur (snd (lex (lex0 json) s)).
(** All segments: the unfinished one at the end of the stream counts if non-empty. *)
Definition segments (json : bool) (s : bytes) : list (bytes * N) :=
  let (l, L) := lex (lex0 json) s in
  l ++ match cur L with [] => [] | _ :: _ => [(cur L, nr L)] end.

(** Segments that are delivered: non-empty and at most 6000 bytes. *)
Definition deliverable (x : bytes * N) : bool :=
  match fst x with [] => false | _ :: _ => N.of_nat (length (fst x)) <=? 6000 end.

(** At no boundary between two reads more than 6000 bytes of an unfinished segment
    are pending: [chunks] are the successive results of the read calls. *)
Definition no_long_pending (json : bool) (chunks : list bytes) : Prop :=
  forall before after, chunks = before ++ after -> after <> [] ->
    N.of_nat (length (pending json (concat before))) <= 6000.

(** What a read call may return for a buffer of 8192 bytes. *)
Definition read_sizes (chunks : list bytes) : Prop :=
  Forall (fun d => 1 <= N.of_nat (length d) <= 8192) chunks.

(** Number of newline bytes. *)
Definition newlines (s : bytes) : N := N.of_nat (length (filter (fun c => c =? 10) s)).

(** ** Declarative vocabulary for the properties *)

(** The bytes a reader will deliver. *)
Fixpoint stream (r : reader) : bytes :=
  match r with
  | [] => []
  | Data d :: r' => d ++ stream r'
  | Fail _ :: r' => stream r'
  end.

(** Is a byte following [p] escaped: does [p] end in an odd number of backslashes? *)
Definition escapes_next (p : bytes) : bool :=
  fold_left (fun e c => if c =? 92 then negb e else false) p false.

(** No newline byte of [s] is escaped. *)
Definition no_escaped_newline (s : bytes) : Prop :=
  forall p t, s = p ++ 10 :: t -> escapes_next p = false.

(** The separators. *)
Definition separator (json : bool) (x : bytes) : Prop :=
  x = [10] \/ x = [92; 110] \/
  json = true /\ In x [[44]; [91]; [93]; [123]; [125]].

(** [segs] and [seps] interleaved. *)
Fixpoint interleave (segs seps : list bytes) : bytes :=
  match segs, seps with
  | a :: segs', x :: seps' => a ++ x ++ interleave segs' seps'
  | _, _ => []
  end.

(** After reading [p] from the start: inside a double-quoted string?
    Escaped quotes do not count. *)
Fixpoint in_quotes_from (e inq : bool) (p : bytes) : bool :=
  match p with
  | [] => inq
  | c :: p' =>
    if e then in_quotes_from false inq p'
    else if c =? 92 then in_quotes_from true inq p'
    else if c =? 34 then in_quotes_from false (negb inq) p'
    else in_quotes_from false inq p'
  end.
Definition in_quotes (p : bytes) : bool := in_quotes_from false false p.

(** The inside of a double-quoted string without newline: no quote and no newline,
    except that any byte other than n may follow a backslash. *)
Fixpoint string_body (b : bytes) : bool :=
  match b with
  | [] => true
  | c :: b' =>
    if c =? 92 then
      match b' with
      | [] => false
      | d :: b'' => negb (d =? 110) && string_body b''
      end
    else negb (c =? 34) && negb (c =? 10) && string_body b'
  end.

Definition infix (x s : bytes) : Prop := exists a b, s = a ++ x ++ b.
