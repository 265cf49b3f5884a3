(** Facts about the matrices of MatModel.v. *)
From Coq Require Import String List NArith ZArith PeanoNat Bool Lia Sorted.
From Flocq Require Import IEEE754.BinarySingleNaN IEEE754.Binary IEEE754.Bits.
From Verif Require Import Common CommonFacts FilesModel IndexModel CacheModel CacheProofs StoreModel StoreSpec StoreProofs MatModel MatSpec.
Import ListNotations.
Open Scope N_scope.

Definition from (k : nat) {A} (l : list A) : list (N * A) := combine (map N.of_nat (seq k (length l))) l.
Lemma enumerate_from {A} (l : list A) : enumerate l = from 0 l.
Proof. reflexivity. Qed.
Lemma from_cons {A} k (x : A) l : from k (x :: l) = (N.of_nat k, x) :: from (S k) l.
Proof. reflexivity. Qed.

(** ** Triplets *)
Definition tlt (x y : triplet) : Prop := fst (fst x) < fst (fst y) \/ (fst (fst x) = fst (fst y) /\ snd (fst x) < snd (fst y)).
Lemma insert_first x l : Forall (tlt x) l -> insert_triplet x l = x :: l.
Proof.
  intros H. destruct l as [|y l]; [reflexivity|]. cbn [insert_triplet]. inversion H as [|? ? T _]; subst. unfold before.
  destruct T as [T|[T U]].
  - apply N.ltb_lt in T. now rewrite T.
  - rewrite T, N.ltb_irrefl, N.eqb_refl. cbn [orb andb]. destruct (N.leb_spec (snd (fst x)) (snd (fst y))); [reflexivity|lia].
Qed.
Lemma sort_sorted l : StronglySorted tlt l -> sort_triplets l = l.
Proof.
  intros H. induction H as [|x l H IH F]; [reflexivity|]. unfold sort_triplets in *. cbn [fold_right]. rewrite IH. now apply insert_first.
Qed.
Lemma sum_sorted_from l : forall x, StronglySorted tlt (x :: l) -> sum_from x l = x :: l.
Proof.
  induction l as [|y l IH]; intros x H; [reflexivity|]. inversion H as [|? ? S F]; subst. inversion F as [|? ? T _]; subst. cbn [sum_from]. unfold same_place.
  destruct (N.eqb_spec (fst (fst x)) (fst (fst y))) as [E|E]; [destruct (N.eqb_spec (snd (fst x)) (snd (fst y))) as [E'|E']|]; cbn [andb]; [|now rewrite (IH y S)|now rewrite (IH y S)].
  destruct T as [T|[T U]]; lia.
Qed.
Lemma sum_sorted l : StronglySorted tlt l -> sum_triplets l = l.
Proof. destruct l as [|x l]; [reflexivity|]. cbn [sum_triplets]. apply sum_sorted_from. Qed.

Definition trip (p : N * svec) : list triplet := map (fun x => ((fst p, fst x), fdiv (snd x) (l2_norm (snd p)))) (snd p).
Lemma triplets_from vs : triplets vs = flat_map trip (from 0 vs).
Proof. reflexivity. Qed.
Lemma trip_row p x : In x (trip p) -> fst (fst x) = fst p.
Proof. unfold trip. intros H. apply in_map_iff in H as (y & <- & _). reflexivity. Qed.
Lemma from_row k vs x : In x (flat_map trip (from k vs)) -> N.of_nat k <= fst (fst x).
Proof.
  revert k. induction vs as [|v vs IH]; intros k H; [destruct H|]. rewrite from_cons in H. cbn [flat_map] in H. apply in_app_or in H as [H|H].
  - apply trip_row in H. cbn [fst] in H. lia.
  - apply IH in H. lia.
Qed.
Lemma sorted_app {A} (R : A -> A -> Prop) a b : StronglySorted R a -> StronglySorted R b -> (forall x y, In x a -> In y b -> R x y) -> StronglySorted R (a ++ b).
Proof.
  intros SA SB C. induction SA as [|x a SA IH F]; [exact SB|]. cbn [app]. constructor.
  - apply IH. intros y z Y Z. apply C; [now right|exact Z].
  - apply Forall_app. split; [exact F|]. apply Forall_forall. intros y Y. apply C; [now left|exact Y].
Qed.
Lemma trip_sorted p : StronglySorted N.lt (map fst (snd p)) -> StronglySorted tlt (trip p).
Proof.
  unfold trip. destruct p as [i v]. cbn [fst snd]. generalize (l2_norm v). intros n H. induction v as [|x v IH]; [constructor|]. cbn [map] in *. inversion H as [|? ? S F]; subst. constructor; [now apply IH|].
  rewrite Forall_map in *. eapply Forall_impl; [|exact F]. intros y Y. right. cbn [fst snd]. split; [reflexivity|exact Y].
Qed.
Lemma triplets_sorted (vs : list svec) k : Forall (fun v => StronglySorted N.lt (map fst v)) vs -> StronglySorted tlt (flat_map trip (from k vs)).
Proof.
  intros H. revert k. induction H as [|v vs V H IH]; intros k; [constructor|]. rewrite from_cons. cbn [flat_map]. apply sorted_app; [now apply trip_sorted|apply IH|].
  intros x y X Y. left. apply trip_row in X. apply from_row in Y. cbn [fst] in X. lia.
Qed.
Lemma trip_columns k vs : map (fun x : triplet => snd (fst x)) (flat_map trip (from k vs)) = concat (map (map fst) (create_mat vs)).
Proof.
  revert k. induction vs as [|v vs IH]; intros k; [reflexivity|]. rewrite from_cons. cbn [flat_map create_mat map concat]. rewrite map_app, IH. f_equal.
  unfold trip, normalise. cbn [fst snd]. now rewrite !map_map.
Qed.
Lemma trip_values k vs : map snd (flat_map trip (from k vs)) = concat (map (map snd) (create_mat vs)).
Proof.
  revert k. induction vs as [|v vs IH]; intros k; [reflexivity|]. rewrite from_cons. cbn [flat_map create_mat map concat]. rewrite map_app, IH. f_equal.
  unfold trip, normalise. cbn [fst snd]. now rewrite !map_map.
Qed.
Lemma filter_all {A} (f : A -> bool) l : (forall x, In x l -> f x = true) -> filter f l = l.
Proof. induction l as [|x l IH]; intros H; [reflexivity|]. cbn [filter]. rewrite (H x) by now left. f_equal. apply IH. intros y Y. apply H. now right. Qed.
Lemma filter_none {A} (f : A -> bool) l : (forall x, In x l -> f x = false) -> filter f l = [].
Proof. induction l as [|x l IH]; intros H; [reflexivity|]. cbn [filter]. rewrite (H x) by now left. apply IH. intros y Y. apply H. now right. Qed.
Lemma trip_positions b k vs :
  map (fun i => b + N.of_nat (length (filter (fun x : triplet => fst (fst x) <? N.of_nat i) (flat_map trip (from k vs))))) (seq k (S (length vs)))
  = positions b (create_mat vs).
Proof.
  revert b k. induction vs as [|v vs IH]; intros b k.
  - cbn. f_equal. lia.
  - cbn [length]. change (seq k (S (S (length vs)))) with (k :: seq (S k) (S (length vs))). cbn [map create_mat positions]. f_equal.
    + rewrite filter_none; [cbn [length]; lia|]. intros x X. apply from_row in X. now apply N.ltb_ge.
    + change (map normalise vs) with (create_mat vs). rewrite <- (IH _ (S k)). apply map_ext_in. intros i I. apply in_seq in I.
      rewrite from_cons. cbn [flat_map]. rewrite filter_app, app_length, filter_all.
      * unfold trip at 1. unfold normalise. cbn [fst snd]. rewrite !map_length. lia.
      * intros x X. apply trip_row in X. cbn [fst] in X. apply N.ltb_lt. lia.
Qed.
Lemma create_holds (vs : list svec) : Forall (fun v => StronglySorted N.lt (map fst v)) vs -> holds (create_csr vs) 0 SIZE (create_mat vs).
Proof.
  intros H. pose proof (triplets_sorted vs 0 H) as O. unfold create_csr, to_csr. cbv zeta. rewrite triplets_from, (sort_sorted _ O), (sum_sorted _ O). unfold holds. cbn [m_storage m_rows m_cols m_indptr m_indices m_data]. csplit.
  - reflexivity.
  - unfold create_mat. now rewrite map_length.
  - reflexivity.
  - rewrite <- (trip_positions 0 0 vs). unfold range. rewrite map_map. apply map_ext. intros i. symmetry. apply N.add_0_l.
  - apply trip_columns.
  - apply trip_values.
Qed.

(** ** Lanes *)
Lemma combine_rows (rs : list svec) : combine (concat (map (map fst) rs)) (concat (map (map snd) rs)) = concat rs.
Proof.
  induction rs as [|r rs IH]; [reflexivity|]. cbn [map concat]. rewrite <- IH. clear IH. induction r as [|[x y] r IH]; [reflexivity|]. cbn [map app combine]. now rewrite IH.
Qed.
Lemma lanes_positions o rs : forall pre b, b = o + N.of_nat (length pre) -> lanes_from o (positions b rs) (pre ++ concat rs) = rs.
Proof.
  induction rs as [|r rs IH]; intros pre b E; [reflexivity|]. cbn [positions]. destruct (positions (b + N.of_nat (length r)) rs) as [|q rest] eqn:P; [destruct rs; discriminate|].
  assert (Q : q = b + N.of_nat (length r)) by (destruct rs; cbn [positions] in P; congruence).
  change (lanes_from o (b :: q :: rest) (pre ++ concat (r :: rs))) with (firstn (N.to_nat (q - b)) (skipn (N.to_nat (b - o)) (pre ++ concat (r :: rs))) :: lanes_from o (q :: rest) (pre ++ concat (r :: rs))).
  f_equal.
  - replace (N.to_nat (b - o)) with (length pre) by lia. replace (N.to_nat (q - b)) with (length r) by lia. rewrite skipn_app, skipn_all, Nat.sub_diag. cbn [app skipn concat]. rewrite firstn_app, firstn_all, Nat.sub_diag. cbn [firstn]. apply app_nil_r.
  - rewrite <- P. cbn [concat]. rewrite app_assoc. apply IH. rewrite app_length. lia.
Qed.
Lemma positions_hd b rs : hd 0 (positions b rs) = b.
Proof. now destruct rs. Qed.
Lemma holds_lanes m o cols rs : holds m o cols rs -> lanes m = rs.
Proof.
  intros (_ & _ & _ & P & I & D). unfold lanes. rewrite P, I, D, combine_rows, positions_hd. apply (lanes_positions o rs [] o). cbn [length]. lia.
Qed.
Lemma holds_rows m o cols rs : holds m o cols rs -> rows m = rs.
Proof. intros H. unfold rows. rewrite (proj1 H). now apply (holds_lanes m o cols). Qed.
Lemma transpose_twice m : transpose (transpose m) = m.
Proof. now destruct m as [[|] ? ? ? ? ?]. Qed.

(** ** Distances *)
Section Dist.
Variable hash : bytes -> N.
Variable fused : bool.
Lemma set_at_app (d : list F) y rest x : set_at (d ++ y :: rest) (length d) x = Some (d ++ x :: rest).
Proof. induction d as [|z d IH]; [reflexivity|]. cbn [app length set_at]. now rewrite IH. Qed.
Lemma one_row i r cs : forall done result, length result = length cs ->
  fold_left keep_closest (flat_map (fun c => match product fused r (snd c) with Some v => [(v, (i, fst c))] | None => [] end) (from (length done) cs)) (Val (done ++ result))
  = Val (done ++ row_step fused cs result r).
Proof.
  induction cs as [|c cs IH]; intros done result L.
  - destruct result; [reflexivity|discriminate].
  - destruct result as [|y result]; [discriminate|]. rewrite from_cons. cbn [flat_map]. unfold row_step. cbn [combine map]. change (map (fun td => closer fused r (fst td) (snd td)) (combine cs result)) with (row_step fused cs result r).
    cbn [fst snd]. unfold closer. destruct (product fused r c) as [v|].
    + cbn [app fold_left keep_closest]. cbn [fst snd]. rewrite Nnat.Nat2N.id, nth_error_app2, Nat.sub_diag by lia. cbn [nth_error]. rewrite set_at_app.
      specialize (IH (done ++ [fmin (fsub f_one v) y]) result). rewrite app_length in IH. cbn [length] in IH. rewrite Nat.add_1_r in IH. rewrite <- !app_assoc in IH. cbn [app] in IH. apply IH. cbn [length] in L. lia.
    + cbn [app]. specialize (IH (done ++ [y]) result). rewrite app_length in IH. cbn [length] in IH. rewrite Nat.add_1_r in IH. rewrite <- !app_assoc in IH. cbn [app] in IH. apply IH. cbn [length] in L. lia.
Qed.
Lemma row_step_length cs result r : length result = length cs -> length (row_step fused cs result r) = length cs.
Proof. intros L. unfold row_step. rewrite map_length, combine_length. lia. Qed.
Lemma all_rows rs cs : forall k result, length result = length cs ->
  fold_left keep_closest (flat_map (fun r => flat_map (fun c => match product fused (snd r) (snd c) with Some v => [(v, (fst r, fst c))] | None => [] end) (enumerate cs)) (from k rs)) (Val result)
  = Val (fold_left (row_step fused cs) rs result).
Proof.
  induction rs as [|r rs IH]; intros k result L; [reflexivity|]. rewrite from_cons. cbn [flat_map fold_left]. rewrite fold_left_app. cbn [fst snd]. rewrite enumerate_from.
  pose proof (one_row (N.of_nat k) r cs [] result L) as E. cbn [app length] in E. rewrite E. rewrite <- enumerate_from. apply IH. now apply row_step_length.
Qed.
Lemma distances_rows m (vs : list svec) result : m_cols m = SIZE -> Forall (fun v => StronglySorted N.lt (map fst v)) vs -> length result = length vs ->
  distances fused m (transpose (create_csr vs)) (Val result) = Val (fold_left (row_step fused (create_mat vs)) (rows m) result).
Proof.
  intros C H L. unfold distances, mat_mul. pose proof (create_holds vs H) as K. rewrite transpose_twice, (holds_rows _ _ _ _ K).
  replace (m_rows (transpose (create_csr vs))) with SIZE by reflexivity. rewrite C, N.eqb_refl. unfold elements. rewrite enumerate_from. apply all_rows.
  unfold create_mat. now rewrite map_length.
Qed.
Lemma distances_panic m vs result : m_cols m <> SIZE -> distances fused m (transpose (create_csr vs)) (Val result) = Panic.
Proof. intros C. unfold distances, mat_mul. replace (m_rows (transpose (create_csr vs))) with SIZE by reflexivity. apply N.eqb_neq in C. now rewrite C. Qed.
Lemma ones_length vs : ones (transpose (create_csr vs)) = Val (map (fun _ => f_one) (create_mat vs)).
Proof.
  unfold ones. replace (m_cols (transpose (create_csr vs))) with (N.of_nat (length vs)) by reflexivity. rewrite Nnat.Nat2N.id. f_equal. unfold create_mat. rewrite map_map.
  induction vs as [|v vs IH]; [reflexivity|]. cbn [length repeat map]. now rewrite IH.
Qed.
End Dist.

(** ** What is checked *)
Definition total (rs : list svec) : N := N.of_nat (length (concat rs)).
Lemma last_positions rs : forall b, last (positions b rs) 0 = b + total rs.
Proof.
  unfold total. induction rs as [|r rs IH]; intros b; [cbn; lia|]. cbn [positions concat]. rewrite app_length.
  specialize (IH (b + N.of_nat (length r))). destruct (positions (b + N.of_nat (length r)) rs) eqn:P; [destruct rs; discriminate|].
  change (last (b :: n :: l) 0) with (last (n :: l) 0). lia.
Qed.
Lemma sorted_positions rs : forall b, sorted_by N.leb (positions b rs) = true.
Proof.
  induction rs as [|r rs IH]; intros b; [reflexivity|]. cbn [positions]. specialize (IH (b + N.of_nat (length r))).
  destruct (positions (b + N.of_nat (length r)) rs) eqn:P; [reflexivity|]. assert (n = b + N.of_nat (length r)) by (destruct rs; cbn [positions] in P; congruence).
  change (sorted_by N.leb (b :: n :: l)) with ((b <=? n) && sorted_by N.leb (n :: l)). rewrite IH. destruct (N.leb_spec b n); [reflexivity|lia].
Qed.
Lemma positions_length rs : forall b, length (positions b rs) = S (length rs).
Proof. induction rs as [|r rs IH]; intros b; [reflexivity|]. cbn [positions length]. now rewrite IH. Qed.
Lemma sorted_ltb l : sorted_by N.ltb l = true <-> StronglySorted N.lt l.
Proof.
  split.
  - intros H. apply Sorted_StronglySorted; [intros x y z; apply N.lt_trans|]. induction l as [|x l IH]; [constructor|]. destruct l as [|y l]; [repeat constructor|].
    change (sorted_by N.ltb (x :: y :: l)) with ((x <? y) && sorted_by N.ltb (y :: l)) in H. apply andb_true_iff in H as [A B]. constructor; [now apply IH|]. constructor. now apply N.ltb_lt.
  - intros H. induction H as [|x l H IH Q]; [reflexivity|]. destruct l as [|y l]; [reflexivity|]. change (sorted_by N.ltb (x :: y :: l)) with ((x <? y) && sorted_by N.ltb (y :: l)). rewrite IH.
    inversion Q; subst. apply andb_true_iff. split; [now apply N.ltb_lt|reflexivity].
Qed.
Lemma proper_check cols (rs : list svec) : forallb (fun lane => sorted_by N.ltb (map fst lane) && forallb (fun e => fst e <? cols) lane) rs = true <-> Forall (proper_row cols) rs.
Proof.
  rewrite forallb_forall, Forall_forall. split; intros H r R; specialize (H r R).
  - apply andb_true_iff in H as [A B]. split; [now apply sorted_ltb|]. rewrite forallb_forall in B. apply Forall_forall. intros x X. now apply N.ltb_lt, B.
  - destruct H as [A B]. apply andb_true_iff. split; [now apply sorted_ltb|]. apply forallb_forall. intros x X. apply N.ltb_lt. rewrite Forall_forall in B. now apply B.
Qed.
Lemma concat_keys_length (rs : list svec) : length (concat (map (map fst) rs)) = length (concat rs) /\ length (concat (map (map snd) rs)) = length (concat rs).
Proof. induction rs as [|r rs [IH IH']]; [now split|]. cbn [map concat]. rewrite !app_length, !map_length, IH, IH'. now split. Qed.
Lemma holds_well_formed m o cols rs : holds m o cols rs -> Forall (proper_row cols) rs -> well_formed m = true.
Proof.
  intros H R. pose proof (holds_lanes _ _ _ _ H) as L. destruct H as (S & E & C & P & I & D). unfold well_formed. rewrite S, L, E, C, P, I, D. destruct (concat_keys_length rs) as [K K'].
  rewrite K, K', positions_length, last_positions, positions_hd, sorted_positions. unfold total. apply proper_check in R. rewrite R.
  repeat (apply andb_true_iff; split); try reflexivity; apply N.eqb_eq; lia.
Qed.
Lemma sorted_last l : forall p, sorted_by N.leb (p :: l) = true -> p <= last (p :: l) 0.
Proof.
  induction l as [|q l IH]; intros p H; [cbn; lia|]. change (sorted_by N.leb (p :: q :: l)) with ((p <=? q) && sorted_by N.leb (q :: l)) in H. apply andb_true_iff in H as [A B]. apply IH in B. apply N.leb_le in A.
  change (last (p :: q :: l) 0) with (last (q :: l) 0). lia.
Qed.
Lemma skip_skip {A} (l : list A) : forall i j, skipn i (skipn j l) = skipn (i + j) l.
Proof.
  induction l as [|x l IH]; intros i j; [now rewrite !skipn_nil|]. destruct j as [|j]; [now rewrite Nat.add_0_r|]. rewrite Nat.add_succ_r. cbn [skipn]. apply IH.
Qed.
Lemma lanes_spec o (entries : list (N * F)) ptrs : forall p, sorted_by N.leb (p :: ptrs) = true -> o <= p -> last (p :: ptrs) 0 = o + N.of_nat (length entries) ->
  positions p (lanes_from o (p :: ptrs) entries) = p :: ptrs /\ concat (lanes_from o (p :: ptrs) entries) = skipn (N.to_nat (p - o)) entries /\ length (lanes_from o (p :: ptrs) entries) = length ptrs.
Proof.
  induction ptrs as [|q ptrs IH]; intros p H O L.
  - cbn in L. cbn [lanes_from positions concat length]. csplit; [reflexivity| |reflexivity]. symmetry. apply skipn_all2. lia.
  - pose proof H as H'. change (sorted_by N.leb (p :: q :: ptrs)) with ((p <=? q) && sorted_by N.leb (q :: ptrs)) in H. apply andb_true_iff in H as [A B]. apply N.leb_le in A.
    change (last (p :: q :: ptrs) 0) with (last (q :: ptrs) 0) in L. pose proof (sorted_last _ _ B) as M. destruct (IH q B ltac:(lia) L) as (P & C & Z).
    change (lanes_from o (p :: q :: ptrs) entries) with (firstn (N.to_nat (q - p)) (skipn (N.to_nat (p - o)) entries) :: lanes_from o (q :: ptrs) entries).
    cbn [positions concat length]. rewrite Z, C, firstn_length, skipn_length. csplit.
    + f_equal. replace (p + N.of_nat (Nat.min (N.to_nat (q - p)) (length entries - N.to_nat (p - o)))) with q by lia. exact P.
    + rewrite <- (firstn_skipn (N.to_nat (q - p)) (skipn (N.to_nat (p - o)) entries)) at 2. f_equal. rewrite skip_skip. f_equal. lia.
    + reflexivity.
Qed.
Lemma concat_keys (rs : list svec) : concat (map (map fst) rs) = map fst (concat rs) /\ concat (map (map snd) rs) = map snd (concat rs).
Proof. split; symmetry; apply concat_map. Qed.
Lemma map_combine {A B} (a : list A) (b : list B) : length a = length b -> map fst (combine a b) = a /\ map snd (combine a b) = b.
Proof.
  revert b. induction a as [|x a IH]; intros [|y b] L; try discriminate; [now split|]. cbn [combine map fst snd]. injection L as L. destruct (IH b L) as [-> ->]. now split.
Qed.
Definition row_major (m : csmat) : csmat := match m_storage m with CSR => m | CSC => transpose m end.
Lemma well_formed_holds m : well_formed m = true -> exists o rs, holds (row_major m) o (m_cols (row_major m)) rs /\ Forall (proper_row (m_cols (row_major m))) rs.
Proof.
  assert (G : forall m, m_storage m = CSR -> well_formed m = true -> exists o rs, holds m o (m_cols m) rs /\ Forall (proper_row (m_cols m)) rs).
  { clear m. intros m S H. unfold well_formed in H. rewrite S in H. repeat (apply andb_true_iff in H as [H ?]). apply N.eqb_eq in H, H2, H1. apply proper_check in H0.
    destruct (m_indptr m) as [|p ptrs] eqn:P; [cbn [length] in H; lia|]. cbn [hd] in *. pose proof (sorted_last _ _ H3) as M.
    exists p, (lanes m). split; [|exact H0]. destruct (lanes_spec p (combine (m_indices m) (m_data m)) ptrs p H3 ltac:(lia)) as (A & B & C).
    { rewrite combine_length. lia. }
    assert (E : lanes m = lanes_from p (p :: ptrs) (combine (m_indices m) (m_data m))) by (unfold lanes; now rewrite P). rewrite N.sub_diag in B. cbn [skipn N.to_nat] in B. rewrite <- E in *.
    destruct (concat_keys (lanes m)) as [K K']. destruct (map_combine (m_indices m) (m_data m)) as [U V]; [lia|]. unfold holds. csplit.
    - exact S.
    - cbn [length] in H. lia.
    - reflexivity.
    - now rewrite P.
    - now rewrite K, B, U.
    - now rewrite K', B, V. }
  intros H. unfold row_major. destruct (m_storage m) eqn:S; [now apply G|]. apply G; [unfold transpose; now rewrite S|]. revert H. unfold well_formed, transpose. cbn [m_storage m_rows m_cols m_indptr m_indices m_data]. now rewrite S.
Qed.

(** ** Bytes *)
Section Codec.
Variable checked : bool.
Lemma f32_lawful : lawful f32_codec (fun _ => True) anything 4.
Proof.
  assert (B : forall x : F, (0 <= bits_of_b32 x < 2 ^ 32)%Z) by (intros x; exact (bits_of_binary_float_range 23 8 eq_refl eq_refl x)).
  unfold f32_codec, iso. eapply via_lawful; [apply u32_lawful| | | |right; discriminate].
  - intros x y _ E. injection E as <-. specialize (B x). split; [unfold word32; lia|]. intros _. rewrite Z2N.id by lia. f_equal. exact (binary_float_of_bits_of_binary_float 23 8 eq_refl eq_refl eq_refl x).
  - intros x _. split; [intros _; eexists; split; [reflexivity|exact I]|now intros].
  - intros. split; exact I.
Qed.
Lemma storage_lawful : lawful storage_codec (fun _ => True) anything 4.
Proof.
  unfold storage_codec. apply enum_lawful.
  - cbn [length]. lia.
  - intros []; cbn; lia.
  - intros [|[|[|i]]] c E; cbn in E; try discriminate; injection E as <-; (eapply via_lawful; [apply unit_lawful| | | |]).
    + intros [] y [_ T] E; try discriminate. injection E as <-. now split.
    + intros [] [_ T]; try discriminate. split; [intros _; now exists tt|now intros].
    + intros y x _ _ E. injection E as <-. split; [now split|exact I].
    + right. intros [] [_ T]; try discriminate.
    + intros [] y [_ T] E; try discriminate. injection E as <-. now split.
    + intros [] [_ T]; try discriminate. split; [intros _; now exists tt|now intros].
    + intros y x _ _ E. injection E as <-. split; [now split|exact I].
    + right. intros [] [_ T]; try discriminate.
Qed.
Definition ok_mat (m : csmat) : Prop := fits m /\ (checked = true -> well_formed m = true).
Lemma csmat_lawful : lawful (csmat_codec checked) ok_mat anything (4 + (8 + (8 + (8 + (8 + 8))))).
Proof.
  unfold csmat_codec. eapply via_lawful.
  - eapply pair_lawful; [apply storage_lawful| |lia]. eapply pair_lawful; [apply u64_lawful| |lia]. eapply pair_lawful; [apply u64_lawful| |lia].
    eapply pair_lawful; [eapply vec_lawful; [apply u64_lawful|lia]| |lia]. eapply pair_lawful; [eapply vec_lawful; [apply u64_lawful|lia]| |lia]. eapply vec_lawful; [apply f32_lawful|lia].
  - intros [s r c p i d] y [(A & B & C & D & E) W] Y. injection Y as <-. cbn [m_storage m_rows m_cols m_indptr m_indices m_data fst snd] in *. csplit; auto; [split; [exact E|now apply Forall_forall]|].
    intros _. destruct checked; [|reflexivity]. cbn [negb orb]. now rewrite W.
  - intros m _. split; [intros _; eexists; split; [reflexivity|]|now intros]. cbn [fst snd]. csplit; try exact I; now apply Forall_forall.
  - intros (s & r & c & p & i & d) x (_ & A & B & C & D & E & _) _ Y. cbn [fst snd] in *. split; [|exact I]. unfold ok_mat. destruct checked; cbn [negb orb] in Y.
    + destruct (well_formed (mkMat s r c p i d)) eqn:W; [|discriminate]. injection Y as <-. split; [unfold fits; cbn [m_storage m_rows m_cols m_indptr m_indices m_data]; csplit; auto|now intros].
    + injection Y as <-. split; [unfold fits; cbn [m_storage m_rows m_cols m_indptr m_indices m_data]; csplit; auto|discriminate].
  - left. lia.
Qed.
Lemma csmat_good : good_matrices ok_mat (csmat_codec checked).
Proof.
  pose proof csmat_lawful as L. unfold good_matrices. csplit.
  - intros m r W. split; [now apply (law_good _ _ _ _ L)|now apply (law_round _ _ _ _ L)].
  - intros m p q W E Q. apply (law_torn _ _ _ _ L m p q W E). now left.
  - apply (law_empty _ _ _ _ L). lia.
  - intros b m r D. destruct (law_eats _ _ _ _ L _ _ _ D) as (p & -> & H). exists p. split; [reflexivity|]. intros ->. cbn [length] in H. lia.
  - intros b m r F D. apply (law_sound _ _ _ _ L _ _ _ F D).
Qed.
End Codec.
