(** Model of the trainer and the anomaly processor, /repo/model/src/process.rs.
    Definitions only. *)
From Coq Require Import String List NArith Bool.
From Verif Require Import Common.
Import ListNotations.
Open Scope N_scope.

(** What the line iterator delivers, call by call: [ILine bytes number] is
    Some(Ok(..)), [IErr e] is Some(Err(e)); an exhausted list answers None forever
    (P_Iter.v, C03_none_is_final). *)
Inductive item := ILine (b : bytes) (nr : N) | IErr (e : N).

(** process.rs:13, CTX_DISTANCE; process.rs:14, CHUNK_SIZE. *)
Definition CTX_DISTANCE : nat := 3.
Definition CHUNK_SIZE : N := 512.

(** process.rs:151 and iterator.rs:316-318: std::str::from_utf8. *)
Definition valid_utf8 (b : bytes) : bool :=
  match utf8_decode b with Some _ => true | None => false end.

(** process.rs:154, raw_str.contains("TASK [log-classify"). *)
Definition is_marker (b : bytes) : bool := contains (lit "TASK [log-classify") b.

(** HashSet<String>::contains; the set is the list of its elements. *)
Definition mem_set (t : bytes) (l : list bytes) : bool := existsb (eqb_list t) l.

Section Processor.
(** The index: a distance type, the comparison [distance > THRESHOLD] (process.rs:12
    and 204), ChunkIndex::tokenize and ChunkIndex::search. *)
Context {D : Type}.
Variable above : D -> bool.
Variable tokenize : bytes -> bytes.
Variable search : list bytes -> list D.

(** model.rs Anomaly and AnomalyContext.  Strings are their utf-8 bytes. *)
Record actx := mkCtx {
  before : list bytes;
  after : list bytes;
  distance : D;
  apos : N;
  aline : bytes
}.

(** One element of [buffer]: ((bytes, line number), coord). *)
Definition bline := (bytes * N * N)%type.
Definition btext (x : bline) : bytes := fst (fst x).

(** process.rs:77-101, struct ChunkProcessor. *)
Record proc := mkProc {
  src : list item;
  buffer : list bline;
  targets : list bytes;
  targets_coord : list N;
  left_overs : list bytes;
  current : option actx;
  anomalies : list actx;
  skip : list bytes;
  coord : N;
  line_count : N;
  byte_count : N
}.

(** process.rs:121-141, ChunkProcessor::new. *)
Definition proc_new (items : list item) (skip0 : list bytes) : proc :=
  mkProc items [] [] [] [] None [] skip0 0 0 0.

(** Slices and subtractions panic out of range: [None]. *)
Definition slice_from {A} (l : list A) (n : nat) : option (list A) :=
  if Nat.leb n (length l) then Some (skipn n l) else None.
Definition slice {A} (l : list A) (a b : nat) : option (list A) :=
  if Nat.leb a b && Nat.leb b (length l) then Some (firstn (b - a) (skipn a l)) else None.

(** clone_bytes_to_string(bytes).unwrap() (iterator.rs:316-318). *)
Definition to_string (b : bytes) : option bytes := if valid_utf8 b then Some b else None.
Fixpoint to_strings (l : list bline) : option (list bytes) :=
  match l with
  | [] => Some []
  | x :: l' =>
    match to_string (btext x), to_strings l' with
    | Some b, Some r => Some (b :: r)
    | _, _ => None
    end
  end.

(** process.rs:316-349, collect_before.  rotate_right(want) after append puts the
    [want] appended strings in front. *)
Definition collect_before (buffer_pos last_context_pos : nat) (buf : list bline) (lo : list bytes)
  : option (list bytes) :=
  let min_pos := if Nat.ltb buffer_pos CTX_DISTANCE then 0%nat else (buffer_pos - CTX_DISTANCE)%nat in
  let before_context_pos := Nat.max last_context_pos min_pos in
  match slice buf before_context_pos buffer_pos with
  | None => None
  | Some l =>
    match to_strings l with
    | None => None
    | Some bef =>
      if Nat.eqb before_context_pos 0 && Nat.ltb (length bef) CTX_DISTANCE then
        let need := (CTX_DISTANCE - length bef)%nat in
        let available := length lo in
        let want := Nat.min need available in
        Some (skipn (available - want) lo ++ bef)
      else Some bef
    end
  end.

(** The variables of do_search_anomalies. *)
Record sst := mkSst {
  buffer_pos : nat;
  last_pos : nat;
  cur : option actx;
  found : list actx
}.

(** process.rs:220-231 and 270-276: push one line to the after context of the current
    anomaly, which is moved to [anomalies] when it has CTX_DISTANCE lines. *)
Definition push_after (c : actx) (b : bytes) (found : list actx) : option actx * list actx :=
  let c' := mkCtx (before c) (after c ++ [b]) (distance c) (apos c) (aline c) in
  if Nat.leb CTX_DISTANCE (length (after c')) then (None, found ++ [c']) else (Some c', found).

(** process.rs:211-235, the inner loop over buffer[buffer_pos..]: new variables and the
    [target_str] found. *)
Fixpoint inner (anomalous : bool) (c : N) (buf : list bline) (s : sst) (target : option (bytes * N))
  : option (sst * option (bytes * N)) :=
  match buf with
  | [] => Some (s, target)
  | ((b, nr), lc) :: buf' =>
    let bp := S (buffer_pos s) in
    let hit := lc =? c in
    let step :=
      if hit && anomalous then
        match to_string b with
        | Some t => Some (mkSst bp (last_pos s) (cur s) (found s), Some (t, nr))
        | None => None
        end
      else
        match cur s with
        | Some a =>
          match to_string b with
          | Some t => let (a', f') := push_after a t (found s) in
                      Some (mkSst bp bp a' f', target)
          | None => None
          end
        | None => Some (mkSst bp (last_pos s) (cur s) (found s), target)
        end in
    match step with
    | None => None
    | Some (s', target') => if hit then Some (s', target') else inner anomalous c buf' s' target'
    end
  end.

(** process.rs:203-264, the loop over the distances. *)
Fixpoint outer (pairs : list (D * N)) (buf : list bline) (lo : list bytes) (s : sst) : option sst :=
  match pairs with
  | [] => Some s
  | (d, c) :: pairs' =>
    match slice_from buf (buffer_pos s) with                          (* 210 *)
    | None => None
    | Some rest =>
      match inner (above d) c rest s None with
      | None => None
      | Some (s1, Some (t, nr)) =>                                    (* 237-258 *)
        let f1 := match cur s1 with Some a => found s1 ++ [a] | None => found s1 end in
        match buffer_pos s1 with
        | O => None                                                   (* buffer_pos - 1 *)
        | S p =>
          match collect_before p (last_pos s1) buf lo with
          | None => None
          | Some bef =>
            outer pairs' buf lo
              (mkSst (buffer_pos s1) (buffer_pos s1) (Some (mkCtx bef [] d nr t)) f1)
          end
        end
      | Some (s1, None) =>
        if above d then None                                          (* 259-263, panic! *)
        else outer pairs' buf lo s1
      end
    end
  end.

(** process.rs:269-278, the loop that completes the last anomaly. *)
Fixpoint finish (a : actx) (rest : list bline) (f : list actx) : option (option actx * list actx) :=
  match rest with
  | [] => Some (Some a, f)
  | x :: rest' =>
    match to_string (btext x) with
    | None => None
    | Some t =>
      match push_after a t f with
      | (Some a', f') => finish a' rest' f'
      | (None, f') => Some (None, f')
      end
    end
  end.

(** process.rs:288-304, reset: the left-overs. *)
Definition reset_left_overs (buf : list bline) (left_overs_pos : nat) : option (list bytes) :=
  let n := length buf in
  let min_pos := if Nat.ltb n CTX_DISTANCE then 0%nat else (n - CTX_DISTANCE)%nat in
  match slice_from buf (Nat.max left_overs_pos min_pos) with
  | None => None
  | Some l => to_strings l
  end.

(** process.rs:197-286, do_search_anomalies; [None] is a panic. *)
Definition do_search (p : proc) : option proc :=
  let distances := search (targets p) in
  match outer (combine distances (targets_coord p)) (buffer p) (left_overs p)
              (mkSst 0 0 (current p) (anomalies p)) with
  | None => None
  | Some s =>
    let fin :=
      match cur s with
      | Some a =>
        if Nat.ltb (last_pos s) (length (buffer p))
        then finish a (skipn (last_pos s) (buffer p)) (found s)
        else Some (Some a, found s)
      | None => Some (None, found s)
      end in
    match fin, reset_left_overs (buffer p) (last_pos s) with
    | Some (c', f'), Some lo' =>
      Some (mkProc (src p) [] [] [] lo' c' f' (skip p) (coord p) (line_count p) (byte_count p))
    | _, _ => None
    end
  end.

(** What a method returning Result<()> does; [RFail] carries the error: a read error
    ([Some e]) or invalid utf-8 ([None]). *)
Inductive rres := RPanic | ROk (p : proc) | RFail (e : option N) (p : proc).

(** process.rs:182-193, the end of read_anomalies. *)
Definition read_end (p : proc) : rres :=
  match (match targets p with [] => Some p | _ :: _ => do_search p end) with
  | None => RPanic
  | Some p1 =>
    match current p1 with
    | Some a => ROk (mkProc (src p1) (buffer p1) (targets p1) (targets_coord p1) (left_overs p1)
                            None (anomalies p1 ++ [a]) (skip p1) (coord p1) (line_count p1) (byte_count p1))
    | None => ROk p1
    end
  end.

(** process.rs:145-160: the state after the counters of one more line. *)
Definition count_line (p : proc) (b : bytes) (items : list item) : proc :=
  mkProc items (buffer p) (targets p) (targets_coord p) (left_overs p) (current p) (anomalies p)
         (skip p) (coord p + 1) (line_count p + 1) (byte_count p + N.of_nat (length b)).

(** process.rs:165-168: a line enters the buffer, and when its tokens are new also the
    targets and the skip set. *)
Definition push_line (p : proc) (b : bytes) (nr : N) : proc :=
  let t := tokenize b in
  let buf := buffer p ++ [((b, nr), coord p)] in
  if mem_set t (skip p) then
    mkProc (src p) buf (targets p) (targets_coord p) (left_overs p) (current p) (anomalies p)
           (skip p) (coord p) (line_count p) (byte_count p)
  else
    mkProc (src p) buf (targets p ++ [t]) (targets_coord p ++ [coord p]) (left_overs p) (current p)
           (anomalies p) (t :: skip p) (coord p) (line_count p) (byte_count p).

(** process.rs:170-183: does the line just pushed complete a batch?  512 unique lines,
    or a known line that makes the buffer longer than 5120. *)
Definition batch_full (was_known : bool) (p : proc) : bool :=
  if was_known then CHUNK_SIZE * 10 <? N.of_nat (length (buffer p))
  else N.of_nat (length (targets p)) =? CHUNK_SIZE.

(** process.rs:143-194, read_anomalies. *)
Fixpoint read_anomalies (items : list item) (p : proc) : rres :=
  match items with
  | [] => read_end (mkProc [] (buffer p) (targets p) (targets_coord p) (left_overs p) (current p)
                           (anomalies p) (skip p) (coord p) (line_count p) (byte_count p))
  | IErr e :: items' =>
    RFail (Some e) (mkProc items' (buffer p) (targets p) (targets_coord p) (left_overs p) (current p)
                           (anomalies p) (skip p) (coord p) (line_count p) (byte_count p))
  | ILine b nr :: items' =>
    if valid_utf8 b then
      let p1 := count_line p b items' in
      if is_marker b then read_end p1
      else
        let p2 := push_line p1 b nr in
        if batch_full (mem_set (tokenize b) (skip p1)) p2 then
          match do_search p2 with
          | None => RPanic
          | Some p3 => match anomalies p3 with
                       | [] => read_anomalies items' p3
                       | _ :: _ => ROk p3
                       end
          end
        else read_anomalies items' p2
    else
      RFail None (mkProc items' (buffer p) (targets p) (targets_coord p) (left_overs p) (current p)
                         (anomalies p) (skip p) (coord p) (line_count p) (byte_count p))
  end.

(** process.rs:103-118, Iterator::next. *)
Inductive pout := PNone | PItem (c : actx) | PErr (e : option N) | PPanic.
Definition set_anomalies (p : proc) (l : list actx) : proc :=
  mkProc (src p) (buffer p) (targets p) (targets_coord p) (left_overs p) (current p) l
         (skip p) (coord p) (line_count p) (byte_count p).
Definition pnext (p : proc) : pout * proc :=
  match anomalies p with
  | a :: rest => (PItem a, set_anomalies p rest)
  | [] =>
    match read_anomalies (src p) p with
    | RPanic => (PPanic, p)
    | RFail e p' => (PErr e, p')
    | ROk p' =>
      match anomalies p' with
      | [] => (PNone, p')
      | a :: rest => (PItem a, set_anomalies p' rest)
      end
    end
  end.

(** A consumer that reads until None or the first error (model.rs:519-533,
    cli/src/main.rs:325-338): the anomalies, how the loop ended, the final state.
    [n] bounds the number of calls. *)
Inductive pstop := PSEnd | PSErr (e : option N) | PSPanic | PSFuel.
Fixpoint pdrain (n : nat) (p : proc) : list actx * pstop * proc :=
  match n with
  | O => ([], PSFuel, p)
  | S n' =>
    match pnext p with
    | (PNone, p') => ([], PSEnd, p')
    | (PErr e, p') => ([], PSErr e, p')
    | (PPanic, p') => ([], PSPanic, p')
    | (PItem c, p') => let '(l, e, pf) := pdrain n' p' in (c :: l, e, pf)
    end
  end.
Definition process_all (items : list item) (skip0 : list bytes) : list actx * pstop * proc :=
  pdrain (2 + length items) (proc_new items skip0).

End Processor.

(** ** The trainer *)
Section Trainer.
Variable tokenize : bytes -> bytes.

(** process.rs:17-24, struct ChunkTrainer; [added] records the calls of index.add. *)
Record trainer := mkTrainer {
  added : list (list bytes);
  tskip : list bytes;
  baselines : list bytes;
  tline_count : N;
  tbyte_count : N
}.

(** process.rs:27-36, ChunkTrainer::new. *)
Definition trainer_new : trainer := mkTrainer [] [] [] 0 0.

(** process.rs:47-67, ChunkTrainer::add: false is an Err result. *)
Fixpoint tadd (items : list item) (t : trainer) : bool * trainer :=
  match items with
  | [] => (true, t)
  | IErr _ :: _ => (false, t)
  | ILine b _ :: items' =>
    if valid_utf8 b then
      let tok := tokenize b in
      let lc := tline_count t + 1 in
      let bc := tbyte_count t + N.of_nat (length b) in
      if mem_set tok (tskip t) then tadd items' (mkTrainer (added t) (tskip t) (baselines t) lc bc)
      else
        let bl := baselines t ++ [tok] in
        if N.of_nat (length bl) =? CHUNK_SIZE
        then tadd items' (mkTrainer (added t ++ [bl]) (tok :: tskip t) [] lc bc)
        else tadd items' (mkTrainer (added t) (tok :: tskip t) bl lc bc)
    else (false, t)
  end.

(** process.rs:69-73, complete. *)
Definition tcomplete (t : trainer) : trainer :=
  match baselines t with
  | [] => t
  | _ :: _ => mkTrainer (added t ++ [baselines t]) (tskip t) (baselines t) (tline_count t) (tbyte_count t)
  end.

(** model.rs:270-280: all the sources of a group, whatever the result of each add. *)
Fixpoint train_sources (l : list (list item)) (t : trainer) : trainer :=
  match l with
  | [] => tcomplete t
  | items :: l' => train_sources l' (snd (tadd items t))
  end.
End Trainer.
