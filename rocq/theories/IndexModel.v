(** Model of the index, /repo/index/src/index.rs and the hashing index of
    /repo/model/src/model.rs.  Definitions only.

    f32 arithmetic is IEEE-754 binary32 with rounding to nearest even (Flocq).
    Outside the repository and modelled by their documentation: itertools (sorted_by,
    dedup_by), sprs (CsVec, TriMat::to_csr, the sparse matrix product), fxhash::hash32 (any
    function). *)
From Coq Require Import String List NArith ZArith Bool.
From Flocq Require Import IEEE754.BinarySingleNaN IEEE754.Binary IEEE754.Bits.
From Verif Require Import Common.
Import ListNotations.
Open Scope N_scope.

(** index.rs:15, type F. *)
Definition F := binary32.
Definition f_zero : F := b32_of_bits 0.                     (* 0.0 *)
Definition f_one : F := b32_of_bits 0x3f800000.             (* 1.0 *)
Definition f_minus_one : F := b32_of_bits 0xbf800000.       (* -1.0 *)
Definition fadd := b32_plus mode_NE.
Definition fsub := b32_minus mode_NE.
Definition fmul := b32_mult mode_NE.
Definition fdiv := b32_div mode_NE.
Definition fsqrt := b32_sqrt mode_NE.
Definition ffma := b32_fma mode_NE.
(** f32::min and f32::max: a NaN argument is ignored. *)
Definition fmin (x y : F) : F :=
  match b32_compare x y with
  | Some Gt => y
  | Some _ => x
  | None => if is_nan 24 128 x then y else x
  end.
Definition fmax (x y : F) : F :=
  match b32_compare x y with
  | Some Lt => y
  | Some _ => x
  | None => if is_nan 24 128 x then y else x
  end.
(** The operator > on f32. *)
Definition fgt (x y : F) : bool := match b32_compare x y with Some Gt => true | _ => false end.

(** index.rs:114, SIZE. *)
Definition SIZE : N := 260000.

(** str::split(' '): at least one piece. *)
Fixpoint split_sp (l : bytes) : list bytes :=
  match l with
  | [] => [[]]
  | c :: l' =>
    if c =? ch_sp then [] :: split_sp l'
    else match split_sp l' with w :: ws => (c :: w) :: ws | [] => [[c]] end
  end.

(** A sparse vector: CsVec with its indices and values, in order. *)
Definition svec := list (N * F).

(** Itertools::sorted_by on the index: a stable sort. *)
Fixpoint insert_key (x : N * F) (l : svec) : svec :=
  match l with
  | [] => [x]
  | y :: l' => if fst x <=? fst y then x :: y :: l' else y :: insert_key x l'
  end.
Definition sort_keys (l : svec) : svec := fold_right insert_key [] l.

(** Itertools::dedup_by: of neighbours with the same index, the first is kept. *)
Fixpoint dedup_from (x : N * F) (l : svec) : svec :=
  match l with
  | [] => [x]
  | y :: l' => if fst x =? fst y then dedup_from x l' else x :: dedup_from y l'
  end.
Definition dedup_keys (l : svec) : svec :=
  match l with [] => [] | x :: l' => dedup_from x l' end.

Section Index.
(** [hash]: fxhash::hash32.  [fused]: whether sprs accumulates products with a fused
    multiply-add (its MulAcc trait) or by a product and a sum; nothing depends on it. *)
Variable hash : bytes -> N.
Variable fused : bool.

(** index.rs:120-145, vectorize. *)
Definition feature (w : bytes) : N * F :=
  let h := hash w in
  (h mod SIZE, if 2147483648 <=? h then f_one else f_minus_one).
Definition vectorize (line : bytes) : svec := dedup_keys (sort_keys (map feature (split_sp line))).

(** sprs CsVec::l2_norm: the square root of the sum of the squares. *)
Definition l2_norm (v : svec) : F :=
  fsqrt (fold_left (fun acc x => fadd acc (fmul (snd x) (snd x))) v f_zero).

(** index.rs:91-101, create_mat: the rows of the normalised matrix. *)
Definition matrix := list svec.
Definition normalise (v : svec) : svec :=
  let n := l2_norm v in map (fun x => (fst x, fdiv (snd x) n)) v.
Definition create_mat (vs : list svec) : matrix := map normalise vs.

Definition mul_acc (a b acc : F) : F := if fused then ffma a b acc else fadd (fmul a b) acc.

Fixpoint lookup (k : N) (v : svec) : option F :=
  match v with
  | [] => None
  | (k', x) :: v' => if k' =? k then Some x else lookup k v'
  end.

(** One element of the product of a matrix with a transposed matrix: [None] when no index
    is common (the element is not stored). *)
Definition product_step (b : svec) (acc : option F) (x : N * F) : option F :=
  match lookup (fst x) b with
  | Some y => Some (mul_acc (snd x) y (match acc with Some v => v | None => f_zero end))
  | None => acc
  end.
Definition product (a b : svec) : option F := fold_left (product_step b) a None.

(** index.rs:104-112 (and 82-86): result[col] = (1.0 - v).min(result[col]) for one row of
    the product. *)
Definition closer (row : svec) (t : svec) (d : F) : F :=
  match product row t with
  | Some v => fmin (fsub f_one v) d
  | None => d
  end.
Definition row_step (targets : matrix) (result : list F) (row : svec) : list F :=
  map (fun td => closer row (fst td) (snd td)) (combine targets result).
(** index.rs:104-112, cosine_distance. *)
Definition cosine_distance (baselines targets : matrix) : list F :=
  fold_left (row_step targets) baselines (map (fun _ => f_one) targets).
(** index.rs:76-88, cosine_distance_chunk. *)
Definition cosine_distance_chunk (baselines : list matrix) (targets : matrix) : list F :=
  fold_left (fun result baseline => fold_left (row_step targets) baseline result)
            baselines (map (fun _ => f_one) targets).

(** index.rs:55-57, index_mat. *)
Definition index_mat (lines : list bytes) : matrix := create_mat (map vectorize lines).
(** index.rs:60-65, search_mat; 68-73, search_mat_chunk. *)
Definition search_mat (baselines : matrix) (lines : list bytes) : list F :=
  cosine_distance baselines (create_mat (map vectorize lines)).
Definition search_mat_chunk (baselines : list matrix) (lines : list bytes) : list F :=
  cosine_distance_chunk baselines (create_mat (map vectorize lines)).

(** sprs CsVec::dot. *)
Definition dot (a b : svec) : F := match product a b with Some v => v | None => f_zero end.
(** index.rs:21-31, Features, into_feature. *)
Definition features := (F * svec)%type.
Definition into_feature (line : bytes) : features :=
  let v := vectorize line in (dot v v, v).
(** index.rs:34-36, index. *)
Definition index (lines : list bytes) : list features := map into_feature lines.
(** index.rs:148-151, similarity. *)
Definition similarity (a b : features) : F :=
  fdiv (dot (snd a) (snd b)) (fsqrt (fmul (fst a) (fst b))).
(** index.rs:40-45, search. *)
Definition search (baselines : list features) (line : bytes) : F :=
  let fl := into_feature line in
  fsub f_one (fold_left (fun acc b => fmax (similarity fl b) acc) baselines f_zero).

(** model.rs:588-612, HashingIndex: new, add, search. *)
Definition hashing_new : list matrix := [].
Definition hashing_add (i : list matrix) (lines : list bytes) : list matrix := i ++ [index_mat lines].
Definition hashing_search (i : list matrix) (targets : list bytes) : list F := search_mat_chunk i targets.
End Index.

(** process.rs:12, THRESHOLD (0.3 rounded to f32), and line 204, distance > THRESHOLD. *)
Definition THRESHOLD : F := b32_of_bits 0x3e99999a.
Definition above_threshold (d : F) : bool := fgt d THRESHOLD.
