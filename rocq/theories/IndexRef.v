(** The reference search. *)
From Coq Require Import List NArith ZArith Arith Bool Reals Lia Lra Psatz Sorting Permutation.
From Flocq Require Import Core IEEE754.BinarySingleNaN IEEE754.Binary IEEE754.Bits.
From Verif Require Import Common IndexModel IndexSpec IndexFloat IndexVec IndexNum IndexWords IndexDist IndexExact.
Import ListNotations.
Open Scope R_scope.

Lemma Rmax_close a a' m m' e : Rabs (a - a') <= e -> Rabs (m - m') <= e -> Rabs (Rmax a m - Rmax a' m') <= e.
Proof.
  intros H1 H2. apply Rabs_le_inv in H1. apply Rabs_le_inv in H2. apply Rabs_le.
  unfold Rmax. destruct (Rle_dec a m), (Rle_dec a' m'); lra.
Qed.

Section Ref.
Variable hash : bytes -> N.
Variable fused : bool.
Notation vectorize := (vectorize hash).
Notation cosine := (cosine hash).
Notation similarity := (similarity fused).

Lemma denom_ok a b : vec a -> vec b ->
  let s := sqrt (INR (length a)) * sqrt (INR (length b)) in
  let d := fsqrt (fmul (dot fused a a) (dot fused b b)) in
  val d = rnd (sqrt (rnd (INR (length a) * INR (length b)))) /\
  s * ((1 - u) * (1 - u)) <= val d <= s * ((1 + u) * (1 + u)) /\ INR (common a b) <= val d.
Proof.
  intros Ha Hb s d. pose proof u_pos as Hu. pose proof (vec_n a Ha) as Hna. pose proof (vec_n b Hb) as Hnb.
  destruct (dot_self_ok fused a Ha) as [A1 A2]. destruct (dot_self_ok fused b Hb) as [B1 B2].
  set (x := INR (length a)) in *. set (y := INR (length b)) in *. unfold maxn in *.
  assert (Hxy : 1 <= x * y <= 260000 * 260000) by (split; nra).
  destruct (fmul_ok (dot fused a a) (dot fused b b) A1 B1) as [M1 M2].
  { rewrite A2, B2. apply big_bound. rewrite Rabs_pos_eq; lra. }
  rewrite A2, B2 in M2. destruct (rel_bounds (x * y)) as [R1 R2]; [pose proof small_pos; lra|].
  assert (Hp : 0 < rnd (x * y)) by nra.
  destruct (fsqrt_ok _ M1) as [Q1 Q2]; [rewrite M2; exact Hp|]. rewrite M2 in Q2.
  assert (Es : s * s = x * y).
  { unfold s. destruct (sqrt_n _ (vec_n a Ha)) as [_ E1]. destruct (sqrt_n _ (vec_n b Hb)) as [_ E2]. fold x in E1. fold y in E2.
    replace (sqrt x * sqrt y * (sqrt x * sqrt y)) with ((sqrt x * sqrt x) * (sqrt y * sqrt y)) by ring. now rewrite E1, E2. }
  assert (Hs : 1 <= s).
  { unfold s. destruct (sqrt_n _ (vec_n a Ha)) as [E1 _]. destruct (sqrt_n _ (vec_n b Hb)) as [E2 _]. fold x in E1. fold y in E2. nra. }
  assert (L1 : s * (1 - u) <= sqrt (rnd (x * y))).
  { rewrite <- (sqrt_square (s * (1 - u))) by nra. apply sqrt_le_1; [nra|lra|].
    replace (s * (1 - u) * (s * (1 - u))) with (s * s * (1 - u) * (1 - u)) by ring. rewrite Es. nra. }
  assert (L2 : sqrt (rnd (x * y)) <= s * (1 + u)).
  { rewrite <- (sqrt_square (s * (1 + u))) by nra. apply sqrt_le_1; [lra|nra|].
    replace (s * (1 + u) * (s * (1 + u))) with (s * s * (1 + u) * (1 + u)) by ring. rewrite Es. nra. }
  destruct (rel_bounds (sqrt (rnd (x * y)))) as [K1 K2]; [pose proof small_pos; nra|].
  fold d in Q1, Q2. rewrite Q2. split; [reflexivity|]. split; [split; nra|].
  destruct (Nat.eq_dec (common a b) 0) as [E0|E0].
  - rewrite E0. cbn [INR]. eapply Rle_trans; [|exact K1]. apply Rmult_le_pos; [apply sqrt_pos|lra].
  - assert (Hm1 : INR (common a b) <= x) by (apply le_INR, common_le_l).
    assert (Hm2 : INR (common a b) <= y) by (apply le_INR, common_le_r, sorted_nodup, Ha).
    assert (Hm3 : 1 <= INR (common a b)) by (apply (le_INR 1); lia).
    rewrite <- (sqrt_sq (common a b)) at 1 by (unfold maxn; lra).
    apply rnd_le, sqrt_le_1_alt, rnd_le. nra.
Qed.

Definition feat (v : svec) : features := (dot fused v v, v).
Lemma similarity_ok a b : vec a -> vec b ->
  let c := dot_exact a b * / (sqrt (INR (length a)) * sqrt (INR (length b))) in
  let r := similarity (feat a) (feat b) in
  fin r /\ -1 <= val r <= 1 /\ Rabs (val r - c) <= 4 * u /\ (a = b -> val r = 1).
Proof.
  intros Ha Hb c r. pose proof u_pos as Hu. destruct (denom_ok a b Ha Hb) as (D1 & D2 & D3). cbn zeta in *.
  destruct (dot_ok fused a b Ha Hb) as (z & Z1 & Z2 & Z3).
  assert (Hs : 1 <= sqrt (INR (length a)) * sqrt (INR (length b))).
  { destruct (sqrt_n _ (vec_n a Ha)) as [E1 _]. destruct (sqrt_n _ (vec_n b Hb)) as [E2 _]. nra. }
  pose proof (common_sqrt a b Ha Hb) as Hcs.
  pose proof (dot_bound a b ltac:(apply Ha) ltac:(apply Hb) (sorted_nodup _ (proj1 Hb))) as Hdb.
  set (s := sqrt (INR (length a)) * sqrt (INR (length b))) in *.
  unfold r, IndexModel.similarity, feat. cbn [fst snd].
  set (d := fsqrt (fmul (dot fused a a) (dot fused b b))) in *.
  assert (Hd : 0.9 < val d) by nra. rewrite Z3 in Z2. set (q := dot_exact a b) in *.
  assert (Hq : Rabs (q / val d) <= 1).
  { unfold Rdiv. rewrite Rabs_mult, (Rabs_pos_eq (/ val d)) by (left; apply Rinv_0_lt_compat; lra).
    apply Rle_trans with (val d * / val d); [apply Rmult_le_compat_r; [left; apply Rinv_0_lt_compat|]; lra|].
    rewrite Rinv_r; lra. }
  destruct (fdiv_ok (dot fused a b) d Z1) as [F1 F2]; [lra|rewrite Z2; apply big_bound; lra|].
  rewrite Z2 in F2. split; [exact F1|]. rewrite F2. apply Rabs_le_inv in Hq.
  split; [|split].
  - split.
    + rewrite <- (rnd_Z (-1)) by reflexivity. apply rnd_le. lra.
    + rewrite <- rnd_1. apply rnd_le. lra.
  - pose proof (rnd_abs_err (q / val d)) as He.
    assert (Rabs (q / val d) <= 1) by (apply Rabs_le; lra).
    assert (u * Rabs (q / val d) <= u * 1) by (apply Rmult_le_compat_l; lra).
    assert (Hc : Rabs (q / val d - c) <= 2.5 * u).
    { unfold c. replace (q / val d - q * / s) with (q * / s * ((s - val d) * / val d)) by (field; lra).
      rewrite Rabs_mult.
      assert (Rabs (q * / s) <= 1).
      { rewrite Rabs_mult, (Rabs_pos_eq (/ s)) by (left; apply Rinv_0_lt_compat; lra).
        apply Rle_trans with (s * / s); [apply Rmult_le_compat_r; [left; apply Rinv_0_lt_compat|]; lra|].
        rewrite Rinv_r; lra. }
      assert (Rabs ((s - val d) * / val d) <= 2.5 * u).
      { rewrite Rabs_mult, (Rabs_pos_eq (/ val d)) by (left; apply Rinv_0_lt_compat; lra).
        assert (Rabs (s - val d) <= 2.2 * u * s).
        { apply Rabs_le. unfold u in *. split; nra. }
        assert (s <= 1.01 * val d) by (unfold u in *; nra).
        apply Rle_trans with (2.5 * u * val d * / val d).
        - apply Rmult_le_compat_r; [left; apply Rinv_0_lt_compat; lra|]. eapply Rle_trans; [eassumption|].
          assert (2.2 * u * s <= 2.2 * u * (1.01 * val d)) by (apply Rmult_le_compat_l; lra).
          assert (0 <= u * val d) by (apply Rmult_le_pos; lra). lra.
        - rewrite Rmult_assoc, Rinv_r; lra. }
      rewrite <- (Rmult_1_l (2.5 * u)). apply Rmult_le_compat; try apply Rabs_pos; assumption. }
    replace (rnd (q / val d) - c) with ((rnd (q / val d) - q / val d) + (q / val d - c)) by ring.
    eapply Rle_trans; [apply Rabs_triang|]. pose proof small_pos. unfold u in *. lra.
  - intros E. subst b. unfold q. rewrite (dot_self a Ha), D1, sqrt_sq by (apply vec_n, Ha).
    unfold Rdiv. rewrite Rinv_r by (pose proof (vec_n a Ha); lra). apply rnd_1.
Qed.

Lemma into_feature_feat l : into_feature hash fused l = feat (vectorize l).
Proof. reflexivity. Qed.

Definition smax (l : bytes) (lines : list bytes) : R :=
  fold_right (fun b m => Rmax (val (similarity (feat (vectorize l)) (feat (vectorize b)))) m) 0 lines.
Lemma fold_max_ok l lines : forall acc, fin acc -> 0 <= val acc <= 1 ->
  let r := fold_left (fun acc b => fmax (similarity (feat (vectorize l)) b) acc) (index hash fused lines) acc in
  fin r /\ val r = Rmax (val acc) (smax l lines).
Proof.
  induction lines as [|b lines IH]; intros acc Ha Hr; cbn [index map fold_left smax fold_right].
  - split; [exact Ha|]. rewrite Rmax_left; lra.
  - rewrite into_feature_feat.
    destruct (similarity_ok (vectorize l) (vectorize b) (vectorize_vec hash l) (vectorize_vec hash b)) as (S1 & S2 & _).
    destruct (fmax_ok _ acc S1 Ha) as (M1 & M2 & _).
    destruct (IH (fmax (similarity (feat (vectorize l)) (feat (vectorize b))) acc) M1) as [K1 K2].
    { rewrite M2. split; [eapply Rle_trans; [|apply Rmax_r]; lra|apply Rmax_lub; lra]. }
    split; [exact K1|]. unfold index in K2. rewrite K2, M2. rewrite (Rmax_comm _ (val acc)), <- Rmax_assoc. reflexivity.
Qed.
Lemma smax_range l lines : 0 <= smax l lines <= 1.
Proof.
  induction lines as [|b lines IH]; cbn [smax fold_right]; [lra|].
  destruct (similarity_ok (vectorize l) (vectorize b) (vectorize_vec hash l) (vectorize_vec hash b)) as (S1 & S2 & _).
  fold (smax l lines). split; [eapply Rle_trans; [|apply Rmax_r]; lra|apply Rmax_lub; lra].
Qed.
Lemma search_ok lines l : plain (search hash fused (index hash fused lines) l) /\
  val (search hash fused (index hash fused lines) l) = rnd (1 - smax l lines).
Proof.
  unfold search. rewrite into_feature_feat. destruct (fold_max_ok l lines f_zero fin_zero) as [H1 H2]; [rewrite val_zero; lra|].
  pose proof (smax_range l lines) as Hr. rewrite val_zero, Rmax_right in H2 by lra.
  set (r := fold_left _ _ _) in *. rewrite <- H2. apply sub_ok; [exact H1|]. rewrite H2, Rabs_pos_eq; lra.
Qed.
Lemma search_range lines l : 0 <= val (search hash fused (index hash fused lines) l) <= 1.
Proof.
  rewrite (proj2 (search_ok lines l)). pose proof (smax_range l lines). split.
  - rewrite <- rnd_0. apply rnd_le. lra.
  - apply Rle_trans with (rnd 1); [apply rnd_le; lra|rewrite rnd_1; lra].
Qed.
Lemma search_known lines l : In l lines -> search hash fused (index hash fused lines) l = f_zero.
Proof.
  intros H. destruct (search_ok lines l) as [P V]. apply plain_inj; [exact P|split; [exact fin_zero|reflexivity]|].
  rewrite V. replace (smax l lines) with 1; [replace (1 - 1) with 0 by ring; rewrite rnd_0; symmetry; apply val_zero|].
  apply Rle_antisym; [|apply smax_range]. induction lines as [|b lines IH]; [destruct H|]. cbn [smax fold_right].
  destruct H as [->|H].
  - eapply Rle_trans; [|apply Rmax_l].
    destruct (similarity_ok (vectorize l) (vectorize l) (vectorize_vec hash l) (vectorize_vec hash l)) as (_ & _ & _ & S).
    right. symmetry. now apply S.
  - eapply Rle_trans; [|apply Rmax_r]. apply IH; [exact H|apply search_ok|apply search_ok].
Qed.
Lemma search_err lines l :
  Rabs (val (search hash fused (index hash fused lines) l) - exact_distance hash (map split_sp lines) (split_sp l)) <= 6 * u.
Proof.
  rewrite (proj2 (search_ok lines l)). pose proof (smax_range l lines) as Hr.
  assert (Hm : Rabs (smax l lines - fold_right (fun b m => Rmax (cosine (split_sp l) b) m) 0 (map split_sp lines)) <= 4 * u).
  { clear Hr. induction lines as [|b lines IH]; cbn [smax map fold_right].
    - rewrite Rminus_0_r, Rabs_R0. pose proof u_pos. lra.
    - fold (smax l lines).
      destruct (similarity_ok (vectorize l) (vectorize b) (vectorize_vec hash l) (vectorize_vec hash b)) as (_ & _ & S & _).
      cbn zeta in S. rewrite <- cosine_vec in S. now apply Rmax_close. }
  unfold exact_distance. set (m := fold_right _ _ _) in *. apply Rabs_le_inv in Hm.
  pose proof (rnd_abs_err (1 - smax l lines)) as He. rewrite (Rabs_pos_eq (1 - smax l lines)) in He by lra.
  apply Rabs_le_inv in He. pose proof small_pos. pose proof u_pos.
  assert (u * (1 - smax l lines) <= u * 1) by (apply Rmult_le_compat_l; lra).
  apply Rabs_le. unfold u in *. lra.
Qed.
End Ref.
