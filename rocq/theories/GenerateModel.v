(** Model of the log generator (/repo/generate/src/generate.rs) and of its Python binding
    (/repo/python/src/bindings.rs).  Definitions only.

    The random number generator is a type of states with the two draws that are used. *)
From Coq Require Import List NArith Bool.
From Verif Require Import Common.
Import ListNotations.
Open Scope N_scope.

Section Generate.
Context {R : Type}.
(** Rng::gen_range(lo..hi) *)
Variable gen_range : N -> N -> R -> N * R.
(** One item of Rng::sample_iter(&Alphanumeric) *)
Variable sample : R -> N * R.
(** generate.rs:19-21, fixed_rng: ChaCha8Rng::seed_from_u64(42) *)
Variable fixed_rng : R.

(** generate.rs:27-31: take(word_size) of the samples *)
Fixpoint gen_word (size : nat) (r : R) : bytes * R :=
  match size with
  | O => ([], r)
  | S size => let (c, r) := sample r in let (w, r) := gen_word size r in (c :: w, r)
  end.
(** generate.rs:25-34: the loop *)
Fixpoint gen_words (count : nat) (result : bytes) (r : R) : bytes * R :=
  match count with
  | O => (result, r)
  | S count =>
    let (word_size, r) := gen_range 2 18 r in
    let (word, r) := gen_word (N.to_nat word_size) r in
    gen_words count (result ++ word ++ [32]) r
  end.
(** generate.rs:23-37, gen_line; String::pop removes the last character *)
Definition gen_line (r : R) : bytes * R :=
  let (count, r) := gen_range 2 10 r in
  let (result, r) := gen_words (N.to_nat count) [] r in
  (removelast result, r).
(** generate.rs:39-53, RandomLine: the first [n] items of an iterator that does not end *)
Fixpoint take_lines (n : nat) (r : R) : list bytes :=
  match n with
  | O => []
  | S n => let (line, r) := gen_line r in line :: take_lines n r
  end.
Definition gen_lines (n : nat) : list bytes := take_lines n fixed_rng.

(** [join] of a slice of strings *)
Fixpoint join_with (sep : bytes) (l : list bytes) : bytes :=
  match l with
  | [] => []
  | [x] => x
  | x :: r => x ++ sep ++ join_with sep r
  end.
(** bindings.rs:20-26, generate *)
Definition generate (size : nat) : bytes := join_with [10] (gen_lines size).
End Generate.
