(** Words of the properties of the matrices of the index. *)
From Coq Require Import String List NArith ZArith Bool Sorted.
From Verif Require Import Common FilesModel IndexModel StoreModel StoreSpec MatModel.
Import ListNotations.
Open Scope N_scope.

(** How many values are before each row, and in all. *)
Fixpoint positions (before : N) (rs : list svec) : list N :=
  before :: match rs with [] => [] | r :: rs => positions (before + N.of_nat (length r)) rs end.
(** [m] holds the rows [rs], of [cols] columns; its positions are counted from [origin]. *)
Definition holds (m : csmat) (origin cols : N) (rs : list svec) : Prop :=
  m_storage m = CSR /\ m_rows m = N.of_nat (length rs) /\ m_cols m = cols /\ m_indptr m = positions origin rs /\
  m_indices m = concat (map (map fst) rs) /\ m_data m = concat (map (map snd) rs).
(** The columns of a row: increasing, and below [cols]. *)
Definition proper_row (cols : N) (r : svec) : Prop :=
  StronglySorted N.lt (map fst r) /\ Forall (fun x => fst x < cols) r.
(** The integers and the lengths fit in 64 bits. *)
Definition fits (m : csmat) : Prop :=
  word64 (m_rows m) /\ word64 (m_cols m) /\ rust_vec word64 (m_indptr m) /\ rust_vec word64 (m_indices m) /\ word64 (N.of_nat (length (m_data m))).
(** The words of some lines. *)
Definition word_count (lines : list bytes) : N := N.of_nat (length (concat (map split_sp lines))).
