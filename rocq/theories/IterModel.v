(** Model of the line iterator, /repo/iterator/src/iterator.rs.
    Definitions only. *)
From Coq Require Import List NArith Bool.
From Verif Require Import Common.
Import ListNotations.
Open Scope N_scope.

(** iterator.rs:33-41, enum Sep. *)
Inductive sep := NewLine | SubLine | JsonSep.

(** iterator.rs:43-52, Sep::len. *)
Definition sep_len (s : sep) : N :=
  match s with NewLine => 1 | SubLine => 2 | JsonSep => 1 end.

(** iterator.rs:54-60, enum State. *)
Inductive state := EoF | Scanning (s : sep).

(** iterator.rs:98-112, struct BytesLines.  The reader is kept apart (see
    [reader]).  [split_json = Some b] is JsonState{in_string: b}.  BytesMut is the
    list of its bytes: zero-copy sharing and capacity are not modelled.
    [peak] is a ghost field: the largest length the buffer ever had. *)
Record iter := mkIter {
  chunk_size : N;
  max_line_length : N;
  buf : bytes;
  st : state;
  line_count : N;
  split_json : option bool;
  prev_pos : N;
  escaped : bool;
  peak : N
}.

Definition blen (l : bytes) : N := N.of_nat (length l).

Definition set_buf (s : iter) (b : bytes) : iter :=
  mkIter (chunk_size s) (max_line_length s) b (st s) (line_count s) (split_json s)
         (prev_pos s) (escaped s) (N.max (peak s) (blen b)).
Definition set_prev (s : iter) (p : N) : iter :=
  mkIter (chunk_size s) (max_line_length s) (buf s) (st s) (line_count s) (split_json s)
         p (escaped s) (peak s).
Definition set_lex (s : iter) (esc : bool) (js : option bool) : iter :=
  mkIter (chunk_size s) (max_line_length s) (buf s) (st s) (line_count s) js
         (prev_pos s) esc (peak s).

(** iterator.rs:135-155, BytesLines::new. *)
Definition new (json : bool) : iter :=
  mkIter 8192 6000 [] (Scanning NewLine) 0 (if json then Some false else None) 0 false 0.

(** The reader (any [std::io::Read]): the results of its future [read] calls.
    [Data d] delivers [d] ([Data []] is a premature [Ok(0)]); data longer than the
    caller's buffer is delivered by several calls; [Fail e] is an [Err(e)]; a reader
    with no events left answers [Ok(0)] forever. *)
Inductive event := Data (d : bytes) | Fail (e : N).
Definition reader := list event.
Inductive read_result := ROk (d : bytes) | RErr (e : N).

Definition do_read (cap : N) (r : reader) : read_result * reader :=
  match r with
  | [] => (ROk [], [])
  | Fail e :: r' => (RErr e, r')
  | Data d :: r' =>
    if blen d <=? cap then (ROk d, r')
    else (ROk (firstn (N.to_nat cap) d), Data (skipn (N.to_nat cap) d) :: r')
  end.

(** iterator.rs:305-314, match_json_kv: the separator and the new in_string. *)
Definition match_json_kv (c : N) (in_string : bool) : option sep * bool :=
  if c =? 34 then (None, negb in_string)
  else if negb in_string && memb c [44; 91; 93; 123; 125]   (* , [ ] { } *)
  then (Some JsonSep, in_string)
  else (None, in_string).

(** iterator.rs:229-248, the body of the loop of find_next_line for one byte:
    separator found, new [escaped], new json state. *)
Definition scan_byte (esc : bool) (js : option bool) (c : N) : option sep * bool * option bool :=
  if esc then ((if c =? ch_n then Some SubLine else None), false, js)
  else if c =? ch_bs then (None, true, js)
  else if c =? ch_lf then (Some NewLine, esc, js)
  else match js with
       | Some b => let (o, b') := match_json_kv c b in (o, esc, Some b')
       | None => (None, esc, None)
       end.

(** iterator.rs:229-259, the loop of find_next_line over slice[prev_pos..]:
    index of the byte that completes a separator, with the separator. *)
Fixpoint scan (l : bytes) (pos : N) (esc : bool) (js : option bool)
  : option (N * sep) * bool * option bool :=
  match l with
  | [] => (None, esc, js)
  | c :: l' =>
    match scan_byte esc js c with
    | (Some sp, esc', js') => (Some (pos, sp), esc', js')
    | (None, esc', js') => scan l' (pos + 1) esc' js'
    end
  end.

(** iterator.rs:262-268, update_line_counter. *)
Definition update_line_counter (s : iter) (new_st : state) : iter :=
  let lc := match st s with Scanning NewLine => line_count s + 1 | _ => line_count s end in
  mkIter (chunk_size s) (max_line_length s) (buf s) new_st lc (split_json s)
         (prev_pos s) (escaped s) (peak s).

Inductive found := FPanic | FNone (s : iter) | FSome (pos : N) (sp : sep) (s : iter).

(** iterator.rs:227-260, find_next_line.  [slice[prev_pos..]] panics when prev_pos
    is beyond the end; [prev_pos + pos - 1] is machine arithmetic. *)
Definition find_next_line (ovf : bool) (s : iter) : found :=
  if blen (buf s) <? prev_pos s then FPanic
  else
    match scan (skipn (N.to_nat (prev_pos s)) (buf s)) 0 (escaped s) (split_json s) with
    | (None, esc, js) => FNone (set_lex s esc js)
    | (Some (pos, sp), esc, js) =>
      let s1 := update_line_counter (set_lex s esc js) (Scanning sp) in
      match sp with
      | SubLine =>
        match usize_sub ovf (prev_pos s + pos) 1 with
        | Some p => FSome p sp s1
        | None => FPanic
        end
      | _ => FSome (prev_pos s + pos) sp s1
      end
    end.

(** BytesMut::advance (bytes crate): panics beyond the remaining length. *)
Definition advance (ovf : bool) (s : iter) (pos : N) (sp : sep) : option iter :=
  match usize_add ovf pos (sep_len sp) with
  | None => None
  | Some n => if blen (buf s) <? n then None
              else Some (set_buf s (skipn (N.to_nat n) (buf s)))
  end.

(** BytesMut::resize(_, 0) and truncate. *)
Definition zeros (n : N) : bytes := repeat 0 (N.to_nat n).

(** What a call of next() returns. *)
Inductive outcome :=
| ONone                        (* None *)
| OLine (l : bytes) (nr : N)   (* Some(Ok((l, nr))) *)
| OErr (e : N)                 (* Some(Err(e)) *)
| OPanic
| OFuel.                       (* model artefact, excluded by a theorem *)

Inductive mode := MRead | MGet | MDrop.

(** iterator.rs:158-181 read_slice, 184-224 get_slice, 271-301 drop_until_next_line.
    The three mutually recursive methods, one step of recursion per unit of fuel. *)
Fixpoint run (ovf : bool) (fuel : nat) (m : mode) (s : iter) (r : reader)
  : outcome * iter * reader :=
  match fuel with
  | O => (OFuel, s, r)
  | S fuel =>
    match m with
    | MRead =>                                                       (* read_slice *)
      let pos := blen (buf s) in                                     (* 159 *)
      let s1 := set_buf s (buf s ++ zeros (chunk_size s)) in         (* 161 *)
      match do_read (chunk_size s) r with                            (* 162 *)
      | (ROk (b :: d), r') =>                                        (* 164-167 *)
        run ovf fuel MGet (set_buf s1 (buf s ++ b :: d)) r'
      | (ROk [], r') =>
        if 0 <? pos then                                             (* 170-173 *)
          let s2 := update_line_counter s1 EoF in
          (OLine (firstn (N.to_nat pos) (buf s2)) (line_count s2),
           set_buf s2 (skipn (N.to_nat pos) (buf s2)), r')
        else (ONone, s1, r')                                         (* 176 *)
      | (RErr e, r') => (OErr e, s1, r')                             (* 179 *)
      end
    | MGet =>                                                        (* get_slice *)
      match find_next_line ovf s with
      | FPanic => (OPanic, s, r)
      | FNone s1 =>
        if max_line_length s <? blen (buf s1) then                   (* 187-192, Step J *)
          run ovf fuel MDrop (set_buf (set_prev s1 0) []) r
        else                                                         (* 203-208, Step E *)
          run ovf fuel MRead (set_prev s1 (blen (buf s1))) r
      | FSome pos sp s1 =>
        let s2 := set_prev s1 0 in
        if max_line_length s <? pos then                             (* 195-200, Step I *)
          match advance ovf s2 pos sp with
          | Some s3 => run ovf fuel MGet s3 r
          | None => (OPanic, s2, r)
          end
        else if blen (buf s2) <? pos then (OPanic, s2, r)            (* split_to *)
        else
          let res := firstn (N.to_nat pos) (buf s2) in               (* 214 *)
          let s3 := set_buf s2 (skipn (N.to_nat pos) (buf s2)) in
          match advance ovf s3 0 sp with                             (* 216 *)
          | None => (OPanic, s3, r)
          | Some s4 =>
            match res with                                           (* 217-221 *)
            | [] => run ovf fuel MGet s4 r
            | _ :: _ => (OLine res (line_count s4), s4, r)
            end
          end
      end
    | MDrop =>                                                       (* drop_until_next_line *)
      (* 272: resize(chunk_size): the buffer is empty at every call *)
      let s1 := set_buf s (firstn (N.to_nat (chunk_size s)) (buf s ++ zeros (chunk_size s))) in
      match do_read (chunk_size s) r with                            (* 273 *)
      | (ROk (b :: d), r') =>                                        (* 275 *)
        let n := blen (b :: d) in
        (* the read overwrites the first n bytes, the padding stays *)
        let s2 := set_buf s1 ((b :: d) ++ skipn (N.to_nat n) (buf s1)) in
        match find_next_line ovf s2 with
        | FPanic => (OPanic, s2, r')
        | FSome pos sp s3 =>
          if n =? chunk_size s then                                  (* 277-280 *)
            run ovf fuel MRead (set_buf s3 []) r'
          else                                                       (* 283-286 *)
            match advance ovf s3 pos sp with
            | Some s4 => run ovf fuel MGet s4 r'
            | None => (OPanic, s3, r')
            end
        | FNone s3 => run ovf fuel MDrop (set_buf s3 []) r'          (* 289-292 *)
        end
      | (ROk [], r') => (ONone, s1, r')                              (* 296 *)
      | (RErr e, r') => (OErr e, s1, r')                             (* 299 *)
      end
    end
  end.

(** Enough fuel for one call (proved in IterProofs): unread bytes and events, and
    the buffered bytes that may be separators. *)
Fixpoint reader_weight (r : reader) : nat :=
  match r with
  | [] => 0
  | Data d :: r' => 1 + length d + reader_weight r'
  | Fail _ :: r' => 1 + reader_weight r'
  end%nat.
Definition nonzeros (l : bytes) : nat := length (filter (fun c => negb (c =? 0)) l).
Definition fuel_for (s : iter) (r : reader) : nat :=
  (4 + nonzeros (buf s) + 3 * reader_weight r)%nat.

(** iterator.rs:120-126, Iterator::next. *)
Definition next (ovf : bool) (s : iter) (r : reader) : outcome * iter * reader :=
  match st s with
  | EoF => (ONone, s, r)
  | Scanning _ =>
    match buf s with
    | [] => run ovf (fuel_for s r) MRead s r
    | _ :: _ => run ovf (fuel_for s r) MGet s r
    end
  end.

(** The outcomes of the first [n] calls of next() (none after a panic). *)
Fixpoint calls (ovf : bool) (n : nat) (s : iter) (r : reader) : list outcome :=
  match n with
  | O => []
  | S n' =>
    match next ovf s r with
    | (OPanic, _, _) => [OPanic]
    | (o, s', r') => o :: calls ovf n' s' r'
    end
  end.

(** The iterator and reader states a user can see: after any number of calls of
    next(), also after errors and after None, but not after a panic. *)
Inductive reachable (ovf json : bool) (r0 : reader) : iter -> reader -> Prop :=
| reach_new : reachable ovf json r0 (new json) r0
| reach_next : forall s r o s' r', reachable ovf json r0 s r ->
    next ovf s r = (o, s', r') -> o <> OPanic -> reachable ovf json r0 s' r'.

(** What a [for line in BytesLines::new(reader, json)] loop that stops at the first
    error sees (process.rs:48-49, 144-145): the lines, then how the loop ends.
    [n] bounds the number of calls. *)
Inductive stop := SEnd | SErr (e : N) | SPanic | SFuel.
Fixpoint collect (ovf : bool) (n : nat) (s : iter) (r : reader)
  : list (bytes * N) * stop :=
  match n with
  | O => ([], SFuel)
  | S n' =>
    match next ovf s r with
    | (ONone, _, _) => ([], SEnd)
    | (OErr e, _, _) => ([], SErr e)
    | (OPanic, _, _) => ([], SPanic)
    | (OFuel, _, _) => ([], SFuel)
    | (OLine l nr, s', r') =>
      let (ls, e) := collect ovf n' s' r' in ((l, nr) :: ls, e)
    end
  end.

Definition all_lines (ovf json : bool) (r : reader) : list (bytes * N) * stop :=
  collect ovf (4 + reader_weight r) (new json) r.
