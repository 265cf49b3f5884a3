(** Model of the matrices of the index and of their bytes (/repo/index/src/index.rs), of the
    ChunkIndex of /repo/model/src/model.rs on top of them, and of the python module
    (/repo/python/src/bindings.rs).  Definitions only.

    IndexModel.v has a matrix as the list of its rows.  Here it is what sprs holds: the positions
    of its lanes, the indices and the values, in three arrays, which are what is saved.
    sprs 0.11, pyo3 and bincode 1.3 are outside the repository and are modelled by their
    documentation. *)
From Coq Require Import String List NArith ZArith Bool.
From Flocq Require Import IEEE754.BinarySingleNaN IEEE754.Binary IEEE754.Bits.
From Verif Require Import Common FilesModel IndexModel CacheModel StoreModel.
Import ListNotations.
Open Scope N_scope.

(** ** sprs *)
(** sprs::CompressedStorage: the lanes are the rows, or the columns. *)
Inductive storage := CSR | CSC.
(** sprs::CsMatBase, index.rs:17, FeaturesMatrix *)
Record csmat := mkMat { m_storage : storage; m_rows : N; m_cols : N; m_indptr : list N; m_indices : list N; m_data : list F }.

Definition range (n : nat) : list N := map N.of_nat (seq 0 n).
(** Iterator::enumerate *)
Definition enumerate {A} (l : list A) : list (N * A) := combine (range (length l)) l.

(** sprs::TriMat: the triplets (row, column, value) in the order in which they were added *)
Definition triplet : Type := (N * N) * F.
Definition before (x y : triplet) : bool :=
  (fst (fst x) <? fst (fst y)) || ((fst (fst x) =? fst (fst y)) && (snd (fst x) <=? snd (fst y))).
Definition same_place (x y : triplet) : bool := (fst (fst x) =? fst (fst y)) && (snd (fst x) =? snd (fst y)).
(** A stable sort by the row, then the column. *)
Fixpoint insert_triplet (x : triplet) (l : list triplet) : list triplet :=
  match l with
  | [] => [x]
  | y :: l' => if before x y then x :: y :: l' else y :: insert_triplet x l'
  end.
Definition sort_triplets (l : list triplet) : list triplet := fold_right insert_triplet [] l.
(** Values at the same place are added. *)
Fixpoint sum_from (x : triplet) (l : list triplet) : list triplet :=
  match l with
  | [] => [x]
  | y :: l' => if same_place x y then sum_from (fst x, fadd (snd x) (snd y)) l' else x :: sum_from y l'
  end.
Definition sum_triplets (l : list triplet) : list triplet := match l with [] => [] | x :: l' => sum_from x l' end.
(** sprs::TriMat::to_csr: lane [i] begins behind the values of the rows before [i]. *)
Definition to_csr (rows : nat) (cols : N) (l : list triplet) : csmat :=
  let l := sum_triplets (sort_triplets l) in
  mkMat CSR (N.of_nat rows) cols
        (map (fun i => N.of_nat (length (filter (fun x => fst (fst x) <? i) l))) (range (S rows)))
        (map (fun x => snd (fst x)) l) (map snd l).
(** sprs::CsMatBase::transpose_mut *)
Definition transpose (m : csmat) : csmat :=
  mkMat (match m_storage m with CSR => CSC | CSC => CSR end) (m_cols m) (m_rows m) (m_indptr m) (m_indices m) (m_data m).
(** The lanes; the first position is taken as the origin. *)
Fixpoint lanes_from (origin : N) (ptrs : list N) (entries : list (N * F)) : list svec :=
  match ptrs with
  | p :: ((q :: _) as rest) =>
    firstn (N.to_nat (q - p)) (skipn (N.to_nat (p - origin)) entries) :: lanes_from origin rest entries
  | _ => []
  end.
Definition lanes (m : csmat) : list svec := lanes_from (hd 0 (m_indptr m)) (m_indptr m) (combine (m_indices m) (m_data m)).
(** The rows.  Those of a matrix that is stored by columns are gathered. *)
Definition rows (m : csmat) : list svec :=
  match m_storage m with
  | CSR => lanes m
  | CSC => map (fun i => flat_map (fun c => match lookup i (snd c) with Some v => [(fst c, v)] | None => [] end) (enumerate (lanes m)))
               (range (N.to_nat (m_rows m)))
  end.
(** What sprs checks of a matrix that it is given: the number of positions, their order, that they
    span the values; in each lane the indices increase and are below the dimension. *)
Fixpoint sorted_by (le : N -> N -> bool) (l : list N) : bool :=
  match l with x :: ((y :: _) as r) => le x y && sorted_by le r | _ => true end.
Definition well_formed (m : csmat) : bool :=
  let (outer, inner) := match m_storage m with CSR => (m_rows m, m_cols m) | CSC => (m_cols m, m_rows m) end in
  (N.of_nat (length (m_indptr m)) =? outer + 1) && sorted_by N.leb (m_indptr m) &&
  (N.of_nat (length (m_indices m)) =? last (m_indptr m) 0 - hd 0 (m_indptr m)) &&
  (N.of_nat (length (m_data m)) =? last (m_indptr m) 0 - hd 0 (m_indptr m)) &&
  forallb (fun lane => sorted_by N.ltb (map fst lane) && forallb (fun e => fst e <? inner) lane) (lanes m).

Section Mat.
Variable hash : bytes -> N.
Variable fused : bool.

(** The stored values of the product of two matrices with their rows and columns, row by row; the
    numbers of columns and rows must agree.  sprs computes the columns of the right matrix when it
    is stored by rows, which does not occur here.  (The product of a matrix stored by columns, which
    can only come from a file, is walked by columns: the minimum does not depend on it.) *)
Definition elements (rs cs : list svec) : list (F * (N * N)) :=
  flat_map (fun r => flat_map (fun c => match product fused (snd r) (snd c) with Some v => [(v, (fst r, fst c))] | None => [] end)
                              (enumerate cs)) (enumerate rs).
Definition mat_mul (a b : csmat) : res (list (F * (N * N))) :=
  if m_cols a =? m_rows b then Val (elements (rows a) (rows (transpose b))) else Panic.

(** ** index.rs *)
(** result[col] = x; None beyond the end. *)
Fixpoint set_at (l : list F) (i : nat) (x : F) : option (list F) :=
  match l, i with
  | [], _ => None
  | _ :: l, O => Some (x :: l)
  | y :: l, S i => match set_at l i x with Some l => Some (y :: l) | None => None end
  end.
(** index.rs:84-86 and 108-110: result[col] = (1.0 - v).min(result[col]) *)
Definition keep_closest (result : res (list F)) (e : F * (N * N)) : res (list F) :=
  match result with
  | Val result =>
    let col := N.to_nat (snd (snd e)) in
    match nth_error result col with
    | Some old => match set_at result col (fmin (fsub f_one (fst e)) old) with Some result => Val result | None => Panic end
    | None => Panic
    end
  | r => r
  end.
(** index.rs:91-101, create_mat *)
Definition triplets (vectors : list svec) : list triplet :=
  flat_map (fun v => map (fun x => ((fst v, fst x), fdiv (snd x) (l2_norm (snd v)))) (snd v)) (enumerate vectors).
Definition create_csr (vectors : list svec) : csmat := to_csr (length vectors) SIZE (triplets vectors).
(** index.rs:104-112, cosine_distance *)
Definition distances (baselines targets : csmat) (result : res (list F)) : res (list F) :=
  match result with
  | Val _ => match mat_mul baselines targets with Val l => fold_left keep_closest l result | Fail e => Fail e | Panic => Panic end
  | r => r
  end.
Definition ones (targets : csmat) : res (list F) := Val (repeat f_one (N.to_nat (m_cols targets))).
(** index.rs:55-57, index_mat; 60-65, search_mat; 68-88, search_mat_chunk *)
Definition mat_of (lines : list bytes) : csmat := create_csr (map (vectorize hash) lines).
Definition mat_search (baselines : csmat) (lines : list bytes) : res (list F) :=
  let targets := transpose (create_csr (map (vectorize hash) lines)) in
  distances baselines targets (ones targets).
Definition mat_search_chunk (baselines : list csmat) (lines : list bytes) : res (list F) :=
  let targets := transpose (create_csr (map (vectorize hash) lines)) in
  fold_left (fun result baseline => distances baseline targets result) baselines (ones targets).

(** ** The bytes of a matrix *)
(** [checked]: whether sprs checks a matrix that it reads. *)
Variable checked : bool.
Definition f32_codec : codec F := iso (fun x => Z.to_N (bits_of_b32 x)) (fun n => b32_of_bits (Z.of_N n)) u32.
Definition storage_tag (s : storage) : nat := match s with CSR => 0 | CSC => 1 end.
Definition storage_codec : codec storage := enum storage_tag
  [ via (fun s => match s with CSR => Some tt | _ => None end) (fun _ => Some CSR) unit_codec;
    via (fun s => match s with CSC => Some tt | _ => None end) (fun _ => Some CSC) unit_codec ].
Definition csmat_codec : codec csmat :=
  via (fun m => Some (m_storage m, (m_rows m, (m_cols m, (m_indptr m, (m_indices m, m_data m))))))
      (fun '(s, (r, (c, (p, (i, d))))) => let m := mkMat s r c p i d in if negb checked || well_formed m then Some m else None)
      (pair storage_codec (pair u64 (pair u64 (pair (vec u64) (pair (vec u64) (vec f32_codec)))))).
(** index.rs:47-49, save_mat: serialize(mat).unwrap() *)
Definition save_mat (m : csmat) : res bytes := if snd (enc csmat_codec m) then Val (fst (enc csmat_codec m)) else Panic.
(** index.rs:51-53, load_mat: deserialize(buf).unwrap(); bytes behind the matrix are ignored. *)
Definition load_mat (buf : bytes) : res csmat :=
  match dec csmat_codec buf with Val (m, _) => Val m | _ => Panic end.

(** ** model.rs *)
(** model.rs:596-600, hashing_index::new *)
Definition chunk := @chunk_index csmat.
Definition hashing_index_new : chunk := HashingTrick [].
(** model.rs:573-578, ChunkIndex::add; HashingIndex::add (606-608) *)
Definition chunk_add (c : chunk) (lines : list bytes) : chunk :=
  match c with HashingTrick l => HashingTrick (l ++ [mat_of lines]) | Noop => Noop end.
(** model.rs:580-585, ChunkIndex::search; HashingIndex::search (609-611), noop_index::search (625-629) *)
Definition chunk_search (c : chunk) (targets : list bytes) : res (list F) :=
  match c with HashingTrick l => mat_search_chunk l targets | Noop => Val (repeat f_zero (length targets)) end.

(** ** The python module, bindings.rs *)
(** What a PyCapsule holds: all the capsules of the module have the same name. *)
Inductive capsule := HoldsFeatures (l : list features) | HoldsMatrix (m : csmat) | HoldsOther.
(** What a call gives.  A panic is an exception; PyCapsule::reference gives a reference of the type
    that is asked for without looking: with another one, the behaviour is not defined. *)
Inductive answer :=
| Capsule (c : capsule) | Number (d : F) | Numbers (l : list F) | Bytes (b : bytes) | Exception | Undefined.
Inductive call :=
| Index (baselines : list bytes)                   (* bindings.rs:36-40 *)
| Search (c : capsule) (target : bytes)            (* 43-50 *)
| IndexMat (baselines : list bytes)                (* 54-58 *)
| SearchMat (c : capsule) (targets : list bytes)   (* 61-68 *)
| SaveMat (c : capsule)                            (* 71-78 *)
| LoadMat (buf : bytes).                           (* 81-85 *)
Definition answer_of {A} (f : A -> answer) (r : res A) : answer := match r with Val x => f x | _ => Exception end.
Definition perform (c : call) : answer :=
  match c with
  | Index lines => Capsule (HoldsFeatures (IndexModel.index hash fused lines))
  | Search (HoldsFeatures l) target => Number (search hash fused l target)
  | Search _ _ => Undefined
  | IndexMat lines => Capsule (HoldsMatrix (mat_of lines))
  | SearchMat (HoldsMatrix m) targets => answer_of Numbers (mat_search m targets)
  | SearchMat _ _ => Undefined
  | SaveMat (HoldsMatrix m) => answer_of Bytes (save_mat m)
  | SaveMat _ => Undefined
  | LoadMat buf => answer_of (fun m => Capsule (HoldsMatrix m)) (load_mat buf)
  end.
End Mat.
