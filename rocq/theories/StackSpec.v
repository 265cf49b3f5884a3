(** What the logs of C91 are: lists of bytes only. *)
From Coq Require Import List NArith.
From Verif Require Import Common.
Import ListNotations.
Open Scope N_scope.

(** A line of ordinary length, with neither a newline (10) nor a backslash (92). *)
Definition plain_line (l : bytes) : Prop :=
  1 <= N.of_nat (length l) <= 6000 /\ ~ In 10 l /\ ~ In 92 l.
(** Lines, each ended by a newline. *)
Definition ended (ls : list bytes) : bytes := concat (map (fun l => l ++ [10]) ls).
(** [n] empty lines. *)
Definition blank (n : nat) : bytes := repeat 10 n.
(** How a file is read: whole pieces of 8192 bytes, then the rest. *)
Inductive file_reads : list bytes -> Prop :=
| reads_none : file_reads []
| reads_last : forall d, 1 <= N.of_nat (length d) <= 8192 -> file_reads [d]
| reads_more : forall d ds, N.of_nat (length d) = 8192 -> file_reads ds -> file_reads (d :: ds).
