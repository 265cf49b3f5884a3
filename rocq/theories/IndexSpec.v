(** Specification vocabulary for the index: the words of a line, its hash buckets and the
    exact cosine distance, as mathematics over the real numbers.  Nothing here knows of
    sparse vectors or f32. *)
From Coq Require Import List NArith Bool Reals.
From Verif Require Import Common.
Import ListNotations.
Open Scope R_scope.

Section Spec.
Variable hash : bytes -> N.

(** [w] is a maximal run of bytes without a space. *)
Definition is_word (l w : bytes) : Prop :=
  ~ In ch_sp w /\
  exists pre suf, l = pre ++ w ++ suf /\
    (pre = [] \/ exists pre', pre = pre' ++ [ch_sp]) /\ (suf = [] \/ exists suf', suf = ch_sp :: suf').

Definition bucket_of (w : bytes) : N := (hash w mod 260000)%N.

(** Two lines have a word in the same bucket. *)
Definition share_bucket (a b : bytes) : Prop :=
  exists w w', is_word a w /\ is_word b w' /\ bucket_of w = bucket_of w'.

(** [ws] lists the words of [l] in order: joined by spaces they give [l]. *)
Fixpoint join_sp (ws : list bytes) : bytes :=
  match ws with [] => [] | [w] => w | w :: ws' => w ++ ch_sp :: join_sp ws' end.
Definition words_of (l : bytes) (ws : list bytes) : Prop :=
  ws <> [] /\ join_sp ws = l /\ Forall (fun w => ~ In ch_sp w) ws.

(** The distinct buckets of a list of words, and the sign of a bucket: the top bit of the
    hash of the first word in it. *)
Definition buckets (ws : list bytes) : list N := nodup N.eq_dec (map bucket_of ws).
Definition sign (ws : list bytes) (k : N) : R :=
  match find (fun w => (bucket_of w =? k)%N) ws with
  | Some w => if (2147483648 <=? hash w)%N then 1 else -1
  | None => 0
  end.
Definition sum (l : list R) : R := fold_right Rplus 0 l.
(** Cosine of the angle between two lines, given by their words. *)
Definition cosine (a b : list bytes) : R :=
  sum (map (fun k => sign a k * sign b k) (buckets a)) /
  (sqrt (INR (length (buckets a))) * sqrt (INR (length (buckets b)))).
(** Distance of a line to the nearest baseline, 1 when there is none at a smaller distance. *)
Definition exact_distance (baselines : list (list bytes)) (l : list bytes) : R :=
  1 - fold_right (fun b m => Rmax (cosine l b) m) 0 baselines.
End Spec.
