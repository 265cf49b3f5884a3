(** Rounding error analysis of the normalised vectors and their products. *)
From Coq Require Import List NArith ZArith Arith Bool Reals Lia Lra Psatz Sorting.
From Flocq Require Import Core IEEE754.BinarySingleNaN IEEE754.Binary IEEE754.Bits.
From Verif Require Import Common IndexModel IndexFloat IndexVec.
Import ListNotations.
Open Scope R_scope.

Definition maxn : R := 260000.
Lemma vec_n v : vec v -> 1 <= INR (length v) <= maxn.
Proof.
  intros H. apply vec_length in H. unfold maxn. rewrite INR_IZR_INZ. split; apply IZR_le; unfold SIZE in H; lia.
Qed.

(** ** Norm *)
Lemma unit_square x : x = f_one \/ x = f_minus_one -> fin (fmul x x) /\ val (fmul x x) = 1.
Proof.
  intros [-> | ->].
  - destruct (fmul_ok f_one f_one fin_one fin_one) as [H1 H2].
    { rewrite val_one. replace (1 * 1) with 1 by ring. rewrite Rabs_R1. change 1 with (bpow radix2 0). apply bpow_le. lia. }
    split; [exact H1|]. rewrite H2, val_one. replace (1 * 1) with 1 by ring. apply (rnd_Z 1). reflexivity.
  - destruct (fmul_ok f_minus_one f_minus_one fin_minus_one fin_minus_one) as [H1 H2].
    { rewrite val_minus_one. replace (-1 * -1) with 1 by ring. rewrite Rabs_R1. change 1 with (bpow radix2 0). apply bpow_le. lia. }
    split; [exact H1|]. rewrite H2, val_minus_one. replace (-1 * -1) with 1 by ring. apply (rnd_Z 1). reflexivity.
Qed.

Lemma big_bound x : Rabs x <= 1000000000000 -> Rabs x <= bpow radix2 100.
Proof.
  intros H. eapply Rle_trans; [exact H|]. apply Rle_trans with (bpow radix2 40); [|apply bpow_le; lia]. cbn. lra.
Qed.

Lemma sum_squares v : unit_values v -> forall acc k, fin acc -> val acc = INR k -> (Z.of_nat (k + length v) <= 260000)%Z ->
  let r := fold_left (fun acc x => fadd acc (fmul (snd x) (snd x))) v acc in
  fin r /\ val r = INR (k + length v).
Proof.
  induction 1 as [|x v Hx Hv IH]; intros acc k Ha Hk Hl; cbn [fold_left].
  - cbn. rewrite Nat.add_0_r. auto.
  - destruct (unit_square _ Hx) as [H1 H2]. cbn [length] in *.
    assert (HS : val acc + val (fmul (snd x) (snd x)) = INR (S k)) by (rewrite Hk, H2, S_INR; ring).
    assert (HB : (Z.abs (Z.of_nat (S k)) < 2 ^ 24)%Z) by lia.
    assert (0 <= INR (S k) <= 260000).
    { split; [apply pos_INR|]. rewrite INR_IZR_INZ. apply IZR_le. lia. }
    destruct (fadd_ok acc (fmul (snd x) (snd x)) Ha H1) as [H3 H4].
    { rewrite HS. apply big_bound. rewrite Rabs_pos_eq; lra. }
    rewrite HS, INR_IZR_INZ, (rnd_Z _ HB), <- INR_IZR_INZ in H4.
    destruct (IH (fadd acc (fmul (snd x) (snd x))) (S k) H3 H4) as [H5 H6]; [lia|].
    rewrite Nat.add_succ_r. auto.
Qed.

Definition nrm (n : nat) : R := rnd (sqrt (INR n)).
Definition inv (n : nat) : R := rnd (/ nrm n).

Lemma l2_norm_ok v : vec v -> fin (l2_norm v) /\ val (l2_norm v) = nrm (length v).
Proof.
  intros H. pose proof (vec_length _ H) as Hl. destruct H as (_ & _ & Hu & _).
  destruct (sum_squares v Hu f_zero 0 fin_zero eq_refl) as [H1 H2]; [unfold SIZE in Hl; lia|].
  cbn [Nat.add] in H2. unfold l2_norm.
  destruct (fsqrt_ok _ H1) as [H3 H4].
  { rewrite H2. apply lt_0_INR. lia. }
  split; [exact H3|]. rewrite H4, H2. reflexivity.
Qed.

Lemma small_pos : 0 < bpow radix2 (-150) < / 1000000000000000000000000000000 /\
  bpow radix2 (-126) < / 1000000000000000000000000000000.
Proof. cbn. lra. Qed.

Lemma rel_bounds x : bpow radix2 (-126) <= x -> x * (1 - u) <= rnd x <= x * (1 + u).
Proof.
  intros H. pose proof (bpow_gt_0 radix2 (-126)) as H0.
  pose proof (rnd_rel x) as K. rewrite Rabs_pos_eq in K by lra. specialize (K H). apply Rabs_le_inv in K. lra.
Qed.

Lemma sqrt_n n : 1 <= INR n <= maxn -> 1 <= sqrt (INR n) <= 510 /\ sqrt (INR n) * sqrt (INR n) = INR n.
Proof.
  intros H. unfold maxn in H. split; [split|].
  - rewrite <- sqrt_1. apply sqrt_le_1; lra.
  - replace 510 with (sqrt (510 * 510)) by (apply sqrt_square; lra). apply sqrt_le_1; lra.
  - apply sqrt_sqrt. lra.
Qed.

Lemma nrm_bounds n : 1 <= INR n <= maxn -> sqrt (INR n) * (1 - u) <= nrm n <= sqrt (INR n) * (1 + u).
Proof.
  intros H. destruct (sqrt_n n H) as [H1 H2]. apply rel_bounds. pose proof small_pos. lra.
Qed.
Lemma nrm_pos n : 1 <= INR n <= maxn -> 0.9 < nrm n < 511.
Proof.
  intros H. pose proof (nrm_bounds n H). destruct (sqrt_n n H) as [H1 H2]. pose proof u_pos. nra.
Qed.

Lemma inv_bounds n : 1 <= INR n <= maxn ->
  (1 - 3 * u) <= inv n * sqrt (INR n) <= (1 + 3 * u).
Proof.
  intros H. pose proof (nrm_bounds n H) as Hb. pose proof (nrm_pos n H) as Hp. destruct (sqrt_n n H) as [H1 H2].
  pose proof u_pos as Hu. set (s := sqrt (INR n)) in *. set (m := nrm n) in *.
  assert (Hm : 0 < / m) by (apply Rinv_0_lt_compat; lra).
  assert (Em : / m * m = 1) by (apply Rinv_l; lra).
  assert (Hlow : / 1000 <= / m) by (apply Rinv_le; lra).
  destruct (rel_bounds (/ m)) as [K1 K2]; [pose proof small_pos; lra|]. fold (inv n) in K1, K2.
  change (rnd (/ m)) with (inv n) in *.
  split.
  - apply Rle_trans with (/ m * (1 - u) * s); [|apply Rmult_le_compat_r; lra].
    (* m <= s (1+u) *)
    assert (1 <= / m * s * (1 + u)) by nra.
    nra.
  - apply Rle_trans with (/ m * (1 + u) * s); [apply Rmult_le_compat_r; lra|].
    assert (/ m * s * (1 - u) <= 1) by nra. nra.
Qed.
Lemma inv_pos n : 1 <= INR n <= maxn -> / 1000 < inv n < 1.1.
Proof.
  intros H. pose proof (inv_bounds n H) as Hb. destruct (sqrt_n n H) as [H1 H2]. pose proof u_pos. nra.
Qed.

(** ** Rows of the matrices *)
Definition same_row (n : nat) (x y : N * F) : Prop :=
  fst y = fst x /\ fin (snd y) /\ val (snd y) = val (snd x) * inv n.
Lemma normalise_ok v : vec v -> Forall2 (same_row (length v)) v (normalise v).
Proof.
  intros H. destruct (l2_norm_ok v H) as [H1 H2]. pose proof (vec_n v H) as Hn.
  destruct H as (_ & _ & Hu & _). unfold normalise. set (m := l2_norm v) in *. set (n := length v) in *. clearbody m n.
  induction Hu as [|x v Hx Hv IH]; cbn [map]; constructor; [|exact IH].
  unfold same_row. destruct x as [kx fx]. cbn [fst snd] in *. split; [reflexivity|].
  pose proof (nrm_pos n Hn) as Hp. assert (H0 : val m <> 0) by lra.
  assert (Hinv : 0 < / nrm n <= 2).
  { split; [apply Rinv_0_lt_compat; lra|]. replace 2 with (/ / 2) by field. apply Rinv_le; lra. }
  destruct Hx as [-> | ->].
  - destruct (fdiv_ok f_one m fin_one H0) as [K1 K2].
    { rewrite val_one, H2. apply big_bound. unfold Rdiv. rewrite Rmult_1_l, Rabs_pos_eq; lra. }
    split; [exact K1|]. rewrite K2, val_one, H2. unfold Rdiv. rewrite !Rmult_1_l. reflexivity.
  - destruct (fdiv_ok f_minus_one m fin_minus_one H0) as [K1 K2].
    { rewrite val_minus_one, H2. apply big_bound. replace (-1 / nrm n) with (- / nrm n) by (unfold Rdiv; ring). rewrite Rabs_Ropp, Rabs_pos_eq; lra. }
    split; [exact K1|]. rewrite K2, val_minus_one, H2. replace (-1 / nrm n) with (- / nrm n) by (unfold Rdiv; ring).
    rewrite rnd_opp. unfold inv. ring.
Qed.

(** A row of [n] values: what the products need to know. *)
Definition row (r : svec) (n : nat) : Prop :=
  NoDup (keys r) /\ length r = n /\ 1 <= INR n <= maxn /\
  Forall (fun x => fin (snd x) /\ Rabs (val (snd x)) = inv n) r.
Lemma normalise_keys v : keys (normalise v) = keys v.
Proof. unfold normalise, keys. now rewrite map_map. Qed.
Lemma unit_abs x : x = f_one \/ x = f_minus_one -> Rabs (val x) = 1.
Proof.
  intros [-> | ->].
  - rewrite val_one. apply Rabs_R1.
  - rewrite val_minus_one. rewrite Rabs_left; lra.
Qed.
Lemma normalise_row v : vec v -> row (normalise v) (length v).
Proof.
  intros H. pose proof (normalise_ok v H) as K. pose proof (vec_n v H) as Hn. pose proof H as (Hs & _ & Hu & _).
  split; [rewrite normalise_keys; now apply sorted_nodup|]. split; [unfold normalise; now rewrite map_length|].
  split; [exact Hn|]. clear Hs H. set (n := length v) in *. clearbody n.
  induction K as [|x y v w (H1 & H2 & H3) K IH]; constructor.
  - inversion Hu; subst. split; [exact H2|]. rewrite H3, Rabs_mult, unit_abs by assumption.
    pose proof (inv_pos n Hn). rewrite Rabs_pos_eq; lra.
  - apply IH. now inversion Hu.
Qed.

(** ** Products *)
Section Fused.
Variable fused : bool.
Notation product_step := (product_step fused).
Notation product := (product fused).

Lemma mul_acc_ok x y acc : fin x -> fin y -> fin acc -> / 10000000 <= Rabs (val x * val y) <= 2 -> Rabs (val acc) <= 4 ->
  fin (mul_acc fused x y acc) /\
  exists t, val (mul_acc fused x y acc) = rnd (t + val acc) /\ Rabs (t - val x * val y) <= u * Rabs (val x * val y).
Proof.
  intros Hx Hy Ha Hp Hacc. pose proof u_pos as Hu. unfold mul_acc. destruct fused.
  - destruct (ffma_ok x y acc Hx Hy Ha) as [H1 H2].
    { apply big_bound. eapply Rle_trans; [apply Rabs_triang|]. lra. }
    split; [exact H1|]. exists (val x * val y). split; [exact H2|].
    rewrite Rminus_diag_eq, Rabs_R0 by reflexivity. apply Rmult_le_pos; [lra|apply Rabs_pos].
  - destruct (fmul_ok x y Hx Hy) as [H1 H2]; [apply big_bound; lra|].
    assert (K : Rabs (rnd (val x * val y) - val x * val y) <= u * Rabs (val x * val y)).
    { apply rnd_rel. pose proof small_pos. lra. }
    assert (K2 : Rabs (val (fmul x y)) <= 3).
    { rewrite H2. replace (rnd (val x * val y)) with ((rnd (val x * val y) - val x * val y) + val x * val y) by ring.
      eapply Rle_trans; [apply Rabs_triang|]. nra. }
    destruct (fadd_ok (fmul x y) acc H1 Ha) as [H3 H4].
    { apply big_bound. eapply Rle_trans; [apply Rabs_triang|]. lra. }
    split; [exact H3|]. exists (rnd (val x * val y)). rewrite H4, H2. auto.
Qed.

Lemma pow_up k : INR k * u < 1 -> (1 + u) ^ k * (1 - INR k * u) <= 1.
Proof.
  pose proof u_pos as Hu. induction k as [|k IH]; intros H.
  - cbn. lra.
  - rewrite S_INR in *. assert (Hk : INR k * u < 1) by nra. specialize (IH Hk). pose proof (pos_INR k) as Hp.
    cbn [pow]. assert (0 < (1 + u) ^ k) by (apply pow_lt; lra).
    apply Rle_trans with ((1 + u) ^ k * (1 - INR k * u)); [|exact IH].
    replace ((1 + u) * (1 + u) ^ k * (1 - (INR k + 1) * u)) with ((1 + u) ^ k * ((1 + u) * (1 - (INR k + 1) * u))) by ring.
    apply Rmult_le_compat_l; [lra|]. nra.
Qed.
Lemma pow_down k : 1 - INR k * u <= (1 - u) ^ k.
Proof.
  pose proof u_pos as Hu. induction k as [|k IH]; [cbn; lra|]. rewrite S_INR. cbn [pow]. pose proof (pos_INR k).
  assert (0 <= (1 - u) * ((1 - u) ^ k - (1 - INR k * u))) by (apply Rmult_le_pos; lra). nra.
Qed.
Lemma pow_bounds k : INR k <= maxn -> 1 <= (1 + u) ^ k <= 1.0158 /\ 0.9845 <= (1 - u) ^ k <= 1.
Proof.
  intros H. unfold maxn in H. pose proof u_pos as Hu. pose proof (pos_INR k) as Hk.
  assert (Hku : INR k * u <= 0.0155) by (unfold u; lra).
  pose proof (pow_up k ltac:(lra)) as H1. pose proof (pow_down k) as H2.
  split; split.
  - apply pow_R1_Rle. lra.
  - assert (0 < (1 + u) ^ k) by (apply pow_lt; lra). nra.
  - lra.
  - rewrite <- (pow1 k) at 2. apply pow_incr. lra.
Qed.

Definition accv (o : option F) : F := match o with Some v => v | None => f_zero end.
Definition fin_opt32 (o : option F) : Prop := match o with Some v => fin v | None => True end.

(** Upper bound: [q] bounds one rounded product. *)
Lemma fold_upper b nb na p q : row b nb -> 1 <= INR na <= maxn -> p = inv na * inv nb ->
  q = p * (1 + u) + bpow radix2 (-149) ->
  forall a k o, Forall (fun x => fin (snd x) /\ Rabs (val (snd x)) = inv na) a ->
  fin_opt32 o -> Rabs (val (accv o)) <= INR k * q * (1 + u) ^ k ->
  (forall j, (j <= k + common a b)%nat -> INR j * q * (1 + u) ^ j <= 4) ->
  let o' := fold_left (product_step b) a o in
  fin_opt32 o' /\ Rabs (val (accv o')) <= INR (k + common a b) * q * (1 + u) ^ (k + common a b).
Proof.
  intros (Hbn & Hbl & Hbm & Hb) Hna Ep Eq. pose proof u_pos as Hu.
  pose proof (inv_pos na Hna) as Ha1. pose proof (inv_pos nb Hbm) as Hb1.
  assert (Hp : / 1000000 <= p <= 2) by (subst p; nra).
  assert (Hq : 0 < q) by (subst q; pose proof (bpow_gt_0 radix2 (-149)); nra).
  induction a as [|x a IH]; intros k o Hf Ho Hk HB; cbn [fold_left].
  - change (common [] b) with 0%nat. rewrite Nat.add_0_r. auto.
  - inversion Hf as [|? ? [Hx1 Hx2] Hf']; subst x0 l. unfold common in *. cbn [filter] in *.
    unfold product_step at 2 4. destruct (lookup (fst x) b) as [y|] eqn:El.
    + assert (Hin : In (fst x, y) b) by (now apply lookup_some).
      assert (Em : memb (fst x) (keys b) = true).
      { apply memb_in. change (fst x) with (fst (fst x, y)). now apply in_map. }
      rewrite Em in *. cbn [length] in *. rewrite Nat.add_succ_r in *. rewrite <- Nat.add_succ_l in *.
      rewrite Forall_forall in Hb. destruct (Hb _ Hin) as [Hy1 Hy2]. cbn [snd] in Hy1, Hy2.
      assert (Hxy : Rabs (val (snd x) * val y) = p) by (rewrite Rabs_mult, Hx2, Hy2; congruence).
      pose proof (HB k ltac:(lia)) as HBk.
      change (match o with Some v => v | None => f_zero end) with (accv o).
      assert (Hacc : fin (accv o)) by (destruct o; [exact Ho|exact fin_zero]).
      destruct (mul_acc_ok (snd x) y (accv o) Hx1 Hy1 Hacc) as (H1 & t & H2 & H3); [rewrite Hxy; lra|lra|].
      apply IH; auto. cbn [accv]. rewrite H2.
      pose proof (rnd_abs_err (t + val (accv o))) as He.
      assert (Ht : Rabs t <= p * (1 + u)).
      { replace t with ((t - val (snd x) * val y) + val (snd x) * val y) by ring.
        eapply Rle_trans; [apply Rabs_triang|]. rewrite Hxy in *. lra. }
      assert (Hs : Rabs (t + val (accv o)) <= p * (1 + u) + INR k * q * (1 + u) ^ k).
      { eapply Rle_trans; [apply Rabs_triang|]. lra. }
      assert (Hr : Rabs (rnd (t + val (accv o))) <= (1 + u) * Rabs (t + val (accv o)) + bpow radix2 (-150)).
      { replace (rnd (t + val (accv o))) with ((rnd (t + val (accv o)) - (t + val (accv o))) + (t + val (accv o))) by ring.
        eapply Rle_trans; [apply Rabs_triang|]. lra. }
      assert (Eb : bpow radix2 (-149) = 2 * bpow radix2 (-150)) by (cbn; lra).
      pose proof (bpow_gt_0 radix2 (-150)) as Hb0.
      rewrite S_INR. cbn [pow].
      assert (H1k : 1 <= (1 + u) ^ k) by (apply pow_R1_Rle; lra).
      pose proof (pos_INR k) as Hk0.
      assert (Hz : (1 + u) * (p * (1 + u)) + bpow radix2 (-150) <= (1 + u) * q) by (rewrite Eq, Eb; nra).
      set (w := (1 + u) ^ k) in *.
      assert (Hz2 : (1 + u) * q * 1 <= (1 + u) * q * w) by (apply Rmult_le_compat_l; nra).
      apply Rle_trans with (1 := Hr).
      assert (Hz3 : (1 + u) * Rabs (t + val (accv o)) <= (1 + u) * (p * (1 + u) + INR k * q * w))
        by (apply Rmult_le_compat_l; lra).
      replace ((INR k + 1) * q * ((1 + u) * w)) with ((1 + u) * (INR k * q * w) + (1 + u) * q * w) by ring.
      rewrite Rmult_plus_distr_l in Hz3. lra.
    + assert (Em : memb (fst x) (keys b) = false).
      { apply lookup_none in El. destruct (memb (fst x) (keys b)) eqn:E; [|reflexivity]. apply memb_in in E. contradiction. }
      rewrite Em in *. apply IH; auto.
Qed.

Lemma prefix_upper a b na nb : row b nb -> 1 <= INR na <= maxn ->
  Forall (fun x => fin (snd x) /\ Rabs (val (snd x)) = inv na) a -> NoDup (keys a) -> (length a <= na)%nat ->
  fin_opt32 (product a b) /\ Rabs (val (accv (product a b))) <= 1.016.
Proof.
  intros Hb Ham Haf Han Hal. pose proof Hb as (Hbn & Hbl & Hbm & Hbf).
  set (p := inv na * inv nb). set (q := p * (1 + u) + bpow radix2 (-149)).
  pose proof u_pos as Hu. pose proof (inv_pos na Ham) as Ha1. pose proof (inv_pos nb Hbm) as Hb1.
  assert (Hca : INR (common a b) <= INR na) by (apply le_INR; pose proof (common_le_l a b); lia).
  assert (Hm : INR (common a b) * INR (common a b) <= INR na * INR nb).
  { apply Rmult_le_compat; try apply pos_INR; [exact Hca|]. apply le_INR. rewrite <- Hbl. now apply common_le_r. }
  destruct (sqrt_n na Ham) as [Hs1 Hs2]. destruct (sqrt_n nb Hbm) as [Hs3 Hs4].
  pose proof (inv_bounds na Ham) as Hi1. pose proof (inv_bounds nb Hbm) as Hi2.
  set (sa := sqrt (INR na)) in *. set (sb := sqrt (INR nb)) in *.
  assert (Hc : INR (common a b) <= sa * sb).
  { apply Rsqr_incr_0_var; [|nra]. unfold Rsqr. nra. }
  assert (Hpc : INR (common a b) * p <= (1 + 3 * u) * (1 + 3 * u)).
  { apply Rle_trans with (sa * sb * p).
    - apply Rmult_le_compat_r; [unfold p; nra|exact Hc].
    - unfold p. replace (sa * sb * (inv na * inv nb)) with ((inv na * sa) * (inv nb * sb)) by ring.
      apply Rmult_le_compat; nra. }
  assert (Hcm : INR (common a b) <= maxn) by lra.
  assert (Eb : bpow radix2 (-149) = 2 * bpow radix2 (-150)) by (cbn; lra).
  assert (Hq : INR (common a b) * q <= 1.0001).
  { unfold q. pose proof small_pos as Hsp. unfold maxn in Hcm. pose proof (pos_INR (common a b)) as Hc0.
    rewrite Rmult_plus_distr_l. rewrite Eb.
    assert ((1 + 3 * u) * (1 + 3 * u) <= 1.00001) by (unfold u; lra).
    assert (INR (common a b) * p * (1 + u) <= 1.00001 * (1 + u)) by (apply Rmult_le_compat_r; lra).
    assert (INR (common a b) * (2 * bpow radix2 (-150)) <= 260000 * (2 * / 1000000000000000000000000000000))
      by (apply Rmult_le_compat; lra).
    lra. }
  assert (Hq0 : 0 < q).
  { unfold q, p. pose proof (bpow_gt_0 radix2 (-149)).
    assert (0 <= inv na * inv nb * (1 + u)) by (apply Rmult_le_pos; [apply Rmult_le_pos; lra|lra]). lra. }
  assert (HB : forall j, (j <= common a b)%nat -> 0 <= INR j * q * (1 + u) ^ j <= 1.016).
  { intros j Hj. assert (Hj' : INR j <= INR (common a b)) by now apply le_INR.
    pose proof (pos_INR j) as Hj0. destruct (pow_bounds j ltac:(lra)) as [[P1 P2] _].
    assert (0 <= INR j * q) by (apply Rmult_le_pos; lra).
    assert (INR j * q <= 1.0001) by (apply Rle_trans with (INR (common a b) * q); [apply Rmult_le_compat_r; lra|lra]).
    split; [apply Rmult_le_pos; lra|].
    apply Rle_trans with (1.0001 * 1.0158); [apply Rmult_le_compat; lra|lra]. }
  destruct (fold_upper b nb na p q Hb Ham eq_refl eq_refl a 0 None Haf I) as [H1 H2].
  - cbn [accv]. rewrite val_zero, Rabs_R0. cbn. lra.
  - intros j Hj. cbn in Hj. specialize (HB j Hj). lra.
  - cbn [Nat.add] in H2. split; [exact H1|]. eapply Rle_trans; [exact H2|]. apply HB. lia.
Qed.

Lemma product_upper a b na nb : row a na -> row b nb ->
  fin_opt32 (product a b) /\ Rabs (val (accv (product a b))) <= 1.016.
Proof.
  intros (Han & Hal & Ham & Haf) Hb. apply (prefix_upper a b na nb); auto. lia.
Qed.

(** Lower bound for the product of a row with itself. *)
Lemma fold_lower b n p : row b n -> p = inv n * inv n * (1 - u) ->
  forall a k o, incl a b -> (k + length a <= n)%nat ->
  fin_opt32 o -> INR k * p * (1 - u) ^ k <= val (accv o) <= 2 ->
  (forall a1 a2, a = a1 ++ a2 -> let o' := fold_left (product_step b) a1 o in fin_opt32 o' /\ Rabs (val (accv o')) <= 2) ->
  INR (k + length a) * p * (1 - u) ^ (k + length a) <= val (accv (fold_left (product_step b) a o)).
Proof.
  intros (Hbn & Hbl & Hbm & Hb) Ep. pose proof u_pos as Hu. pose proof (inv_pos n Hbm) as Hb1.
  assert (Hp : / 10000000 <= p <= 2) by (subst p; nra).
  induction a as [|x a IH]; intros k o Hi Hl Ho Hk Hall; cbn [fold_left].
  - cbn [length]. rewrite Nat.add_0_r. apply Hk.
  - cbn [length] in *. rewrite Nat.add_succ_r, <- Nat.add_succ_l in *.
    destruct x as [kx x]. assert (Hin : In (kx, x) b) by (apply Hi; left; reflexivity).
    assert (El : lookup kx b = Some x) by (now apply lookup_some).
    pose proof (Hall [(kx, x)] a eq_refl) as Hone. cbn zeta in Hone. cbn [fold_left] in Hone.
    apply IH; [intros z Hz; apply Hi; now right|exact Hl| | |].
    + apply Hone.
    + split; [|destruct Hone as [_ Hone]; apply Rabs_le_inv in Hone; lra].
      unfold product_step. cbn [fst snd]. rewrite El. cbn [accv].
      change (match o with Some v => v | None => f_zero end) with (accv o).
      rewrite Forall_forall in Hb. destruct (Hb _ Hin) as [Hy1 Hy2]. cbn [snd] in Hy1, Hy2.
      assert (Hxx : val x * val x = inv n * inv n).
      { rewrite <- Hy2. unfold Rabs. destruct (Rcase_abs (val x)); ring. }
      assert (Hacc : fin (accv o)) by (destruct o; [exact Ho|exact fin_zero]).
      assert (Hpos : 0 <= INR k * p * (1 - u) ^ k).
      { apply Rmult_le_pos; [apply Rmult_le_pos; [apply pos_INR|lra]|]. apply pow_le. lra. }
      destruct (mul_acc_ok x x (accv o) Hy1 Hy1 Hacc) as (H1 & t & H2 & H3).
      { rewrite Hxx. rewrite Rabs_pos_eq; nra. }
      { rewrite Rabs_pos_eq; lra. }
      rewrite H2. rewrite Hxx in H3. rewrite (Rabs_pos_eq (inv n * inv n)) in H3 by nra.
      apply Rabs_le_inv in H3. assert (Ht : p <= t) by (subst p; lra).
      destruct (rel_bounds (t + val (accv o))) as [K _]; [pose proof small_pos; lra|].
      rewrite S_INR. cbn [pow]. set (w := (1 - u) ^ k) in *.
      assert (Hw : 0 < w <= 1).
      { unfold w. split; [apply pow_lt; lra|]. apply Rle_trans with (1 ^ k); [apply pow_incr; lra|rewrite pow1; lra]. }
      apply Rle_trans with ((t + val (accv o)) * (1 - u)); [|exact K].
      replace ((INR k + 1) * p * ((1 - u) * w)) with ((INR k * p * w + p * w) * (1 - u)) by ring.
      apply Rmult_le_compat_r; [lra|]. nra.
    + intros a1 a2 E. specialize (Hall ((kx, x) :: a1) a2). cbn [app] in Hall. rewrite E in Hall. exact (Hall eq_refl).
Qed.

Lemma product_self r n : row r n -> exists v, product r r = Some v /\ fin v /\ 0.98 <= val v <= 1.016.
Proof.
  intros H. pose proof H as (Hn & Hl & Hm & Hf). destruct (product_upper r r n n H H) as [H1 H2].
  assert (Hsome : exists v, product r r = Some v).
  { destruct r as [|[k x] r0] eqn:Er; [cbn in Hl; subst n; cbn in Hm; lra|]. rewrite <- Er in *.
    assert (K : forall l o, o <> None -> fold_left (product_step r) l o <> None).
    { induction l as [|y l IH]; intros o Ho; cbn [fold_left]; [exact Ho|]. apply IH. unfold product_step.
      destruct (lookup (fst y) r); [discriminate|exact Ho]. }
    assert (El : lookup k r = Some x) by (apply lookup_some; [exact Hn|rewrite Er; left; reflexivity]).
    assert (product r r <> None).
    { unfold IndexModel.product. rewrite Er at 2. cbn [fold_left]. apply K. unfold product_step. cbn [fst snd]. rewrite El. discriminate. }
    destruct (product r r); [eauto|congruence]. }
  destruct Hsome as (v & Ev). exists v. rewrite Ev in *. cbn [fin_opt32 accv] in *. split; [reflexivity|]. split; [exact H1|].
  apply Rabs_le_inv in H2. split; [|lra].
  set (p := inv n * inv n * (1 - u)).
  pose proof (fold_lower r n p H eq_refl r 0 None (incl_refl r)) as K. cbn [Nat.add] in K.
  assert (Hlow : INR (length r) * p * (1 - u) ^ length r <= val v).
  { replace v with (accv (product r r)) by (rewrite Ev; reflexivity). apply K.
    - lia.
    - exact I.
    - cbn [accv INR]. rewrite val_zero. lra.
    - intros a1 a2 E. cbn zeta. fold (product a1 r).
      destruct (prefix_upper a1 r n n H Hm) as [K1 K2].
      + rewrite E in Hf. apply Forall_app in Hf. apply Hf.
      + rewrite E in Hn. unfold keys in *. rewrite map_app in Hn. clear - Hn.
        induction (map fst a1) as [|y l IH]; [constructor|]. cbn in Hn. inversion Hn; subst. constructor; [|auto].
        intros Hy. apply H1. apply in_or_app. now left.
      + rewrite <- Hl, E, app_length. lia.
      + split; [exact K1|lra]. }
  rewrite Hl in Hlow. destruct (pow_bounds n ltac:(lra)) as [_ [P1 P2]].
  destruct (sqrt_n n Hm) as [Hs1 Hs2]. pose proof (inv_bounds n Hm) as Hi. pose proof u_pos as Hu.
  set (s := sqrt (INR n)) in *. set (w := (1 - u) ^ n) in *.
  assert (Hp : INR n * p = (inv n * s) * (inv n * s) * (1 - u)) by (unfold p; rewrite <- Hs2; ring).
  rewrite Hp in Hlow. set (z := inv n * s) in *.
  assert (Hz : 0.99999 <= z * z) by nra. assert (0.9999 <= z * z * (1 - u)) by nra. nra.
Qed.
End Fused.
