(** The analysis of a source, and the training on one, with the reader inside: each line is asked
    for when it is needed, and the source is read when no complete line is in the buffer
    (/repo/model/src/process.rs with /repo/iterator/src/iterator.rs).  In ProcModel.v the lines are
    a list that is given beforehand ([src], here always empty); P_Replay.v proves that it makes no
    difference, and uses what is known here only: how much of the source has been read when the
    analysis ends.  Definitions only. *)
From Coq Require Import List NArith Bool.
From Verif Require Import Common IterModel ProcModel.
Import ListNotations.

Section Processor.
Context {D : Type}.
Variable above : D -> bool.
Variable tokenize : bytes -> bytes.
Variable search : list bytes -> list D.

(** What a method of the processor returns: with the iterator, what is left of the reader, and the
    other fields.  [LFuel] is running out of the bound on the number of lines (excluded by a
    theorem). *)
Inductive lres :=
| LPanic | LFuel
| LOk (s : iter) (r : reader) (p : @proc D)
| LFail (e : option N) (s : iter) (r : reader) (p : @proc D).
Definition with_reader (s : iter) (r : reader) (x : @rres D) : lres :=
  match x with RPanic => LPanic | ROk p => LOk s r p | RFail e p => LFail e s r p end.

(** process.rs:143-194, read_anomalies *)
Fixpoint lread (ovf : bool) (n : nat) (s : iter) (r : reader) (p : @proc D) : lres :=
  match n with
  | O => LFuel
  | S n =>
    match next ovf s r with                                              (* 144 *)
    | (ONone, s', r') => with_reader s' r' (read_end above search p)     (* 182-193 *)
    | (OErr e, s', r') => LFail (Some e) s' r' p                         (* 145 *)
    | (OPanic, _, _) => LPanic
    | (OFuel, _, _) => LFuel
    | (OLine b nr, s', r') =>
      if valid_utf8 b then                                               (* 146-147 *)
        let p1 := count_line p b [] in                                   (* 148-150 *)
        if is_marker b then with_reader s' r' (read_end above search p1) (* 153-155 *)
        else
          let p2 := push_line tokenize p1 b nr in                        (* 158-167 *)
          if batch_full (mem_set (tokenize b) (skip p1)) p2 then         (* 169-181 *)
            match do_search above search p2 with
            | None => LPanic
            | Some p3 => match anomalies p3 with
                         | [] => lread ovf n s' r' p3
                         | _ :: _ => LOk s' r' p3
                         end
            end
          else lread ovf n s' r' p2
      else LFail None s' r' p
    end
  end.

(** process.rs:103-118, Iterator::next *)
Definition lnext (ovf : bool) (s : iter) (r : reader) (p : @proc D) : @pout D * iter * reader * @proc D :=
  match anomalies p with
  | a :: rest => (PItem a, s, r, set_anomalies p rest)
  | [] =>
    match lread ovf (fuel_for s r) s r p with
    | LPanic | LFuel => (PPanic, s, r, p)
    | LFail e s' r' p' => (PErr e, s', r', p')
    | LOk s' r' p' =>
      match anomalies p' with
      | [] => (PNone, s', r', p')
      | a :: rest => (PItem a, s', r', set_anomalies p' rest)
      end
    end
  end.

(** Its consumers (model.rs:519-533, cli/src/main.rs:325-338), for at most [n] calls: the anomalies,
    how it ended, what is left of the reader, and the processor. *)
Fixpoint ldrain (ovf : bool) (n : nat) (s : iter) (r : reader) (p : @proc D) : list (@actx D) * pstop * reader * @proc D :=
  match n with
  | O => ([], PSFuel, r, p)
  | S n =>
    match lnext ovf s r p with
    | (PNone, _, r', p') => ([], PSEnd, r', p')
    | (PErr e, _, r', p') => ([], PSErr e, r', p')
    | (PPanic, _, r', p') => ([], PSPanic, r', p')
    | (PItem c, s', r', p') => let '(l, e, rf, pf) := ldrain ovf n s' r' p' in (c :: l, e, rf, pf)
    end
  end.

(** process.rs:121-141, ChunkProcessor::new, and its consumer *)
Definition analyse (ovf json : bool) (n : nat) (r : reader) (known : list bytes) : list (@actx D) * pstop * reader * @proc D :=
  ldrain ovf n (new json) r (proc_new [] known).
End Processor.

Section Trainer.
Variable tokenize : bytes -> bytes.
Inductive tres := TPanic | TFuel | TDone (ok : bool) (r : reader) (t : trainer).
(** process.rs:47-67, ChunkTrainer::add: false is an Err result. *)
Fixpoint ltadd (ovf : bool) (n : nat) (s : iter) (r : reader) (t : trainer) : tres :=
  match n with
  | O => TFuel
  | S n =>
    match next ovf s r with
    | (ONone, _, r') => TDone true r' t
    | (OErr _, _, r') => TDone false r' t
    | (OPanic, _, _) => TPanic
    | (OFuel, _, _) => TFuel
    | (OLine b _, s', r') =>
      if valid_utf8 b then ltadd ovf n s' r' (snd (tadd tokenize [ILine b 0] t))
      else TDone false r' t
    end
  end.
Definition train (ovf json : bool) (r : reader) (t : trainer) : tres := ltadd ovf (fuel_for (new json) r) (new json) r t.
End Trainer.
