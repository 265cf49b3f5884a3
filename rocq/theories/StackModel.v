(** Model of the stack used by the line iterator, /repo/iterator/src/iterator.rs.
    Definitions only. *)
From Coq Require Import List NArith.
From Verif Require Import Common IterModel.
Import ListNotations.
Open Scope N_scope.

(** iterator.rs:120-126, Iterator::next, on a stack with room for [stack] nested calls of
    read_slice (158-181), get_slice (184-224) and drop_until_next_line (271-301).  Each of
    them calls the next one before it returns (167, 191, 199, 207, 218, 279, 285, 291), and
    at 218 the empty line of the caller is still to be dropped after the call, so that the
    frame of the caller stays.  [run] gives one unit of fuel to each of the nested calls:
    what it answers without fuel is an overflow of the stack.  The frame of next() itself
    and of what the methods call otherwise are not counted.  A compiler may remove frames
    of calls in tail position: all but the one at 218. *)
Definition next_on (ovf : bool) (stack : nat) (s : iter) (r : reader) : outcome * iter * reader :=
  match st s with
  | EoF => (ONone, s, r)
  | Scanning _ =>
    match buf s with
    | [] => run ovf stack MRead s r
    | _ :: _ => run ovf stack MGet s r
    end
  end.
Definition overflow : outcome := OFuel.

(** A loop over the lines (process.rs:48-49, 144-145), where each call of next() has room
    for [stack] nested calls; [SFuel] is an overflow of the stack in one of the first [n]
    calls, or that there are more calls. *)
Fixpoint collect_on (ovf : bool) (stack n : nat) (s : iter) (r : reader)
  : list (bytes * N) * stop :=
  match n with
  | O => ([], SFuel)
  | S n' =>
    match next_on ovf stack s r with
    | (ONone, _, _) => ([], SEnd)
    | (OErr e, _, _) => ([], SErr e)
    | (OPanic, _, _) => ([], SPanic)
    | (OFuel, _, _) => ([], SFuel)
    | (OLine l nr, s', r') =>
      let (ls, e) := collect_on ovf stack n' s' r' in ((l, nr) :: ls, e)
    end
  end.
