(** Facts about the f32 operations used by the index. *)
From Coq Require Import List NArith ZArith Bool Reals Lia Lra.
From Flocq Require Import Core Relative Plus_error IEEE754.BinarySingleNaN IEEE754.Binary IEEE754.Bits.
From Verif Require Import IndexModel.
Import ListNotations.
Open Scope R_scope.

Definition val (x : F) : R := B2R 24 128 x.
Definition fin (x : F) : Prop := is_finite 24 128 x = true.
Definition fexp32 := FLT_exp (-149) 24.
Definition rnd (x : R) : R := round radix2 fexp32 ZnearestE x.
Definition u : R := / 16777216.

Global Instance prec24 : Prec_gt_0 24 := eq_refl.
Global Instance valid32 : Valid_exp fexp32 := FLT_exp_valid (-149) 24.
Global Instance mono32 : Monotone_exp fexp32 := FLT_exp_monotone (-149) 24.

Lemma u_pos : 0 < u < / 1000000.
Proof. unfold u. lra. Qed.

Lemma rnd_le x y : x <= y -> rnd x <= rnd y.
Proof. intros H. apply round_le; auto with typeclass_instances. Qed.
Lemma rnd_opp x : rnd (- x) = - rnd x.
Proof. apply round_NE_opp. Qed.
Lemma rnd_fmt x : generic_format radix2 fexp32 x -> rnd x = x.
Proof. intros H. apply round_generic; auto with typeclass_instances. Qed.
Lemma rnd_0 : rnd 0 = 0.
Proof. apply round_0; auto with typeclass_instances. Qed.
Lemma val_fmt x : generic_format radix2 fexp32 (val x).
Proof. apply (generic_format_B2R 24 128). Qed.
Lemma rnd_val x : rnd (val x) = val x.
Proof. apply rnd_fmt, val_fmt. Qed.
Lemma rnd_abs x : Rabs (rnd x) = rnd (Rabs x).
Proof. unfold Rabs at 2. destruct (Rcase_abs x) as [H|H].
  - rewrite rnd_opp. apply Rabs_left1. rewrite <- rnd_0. apply rnd_le. lra.
  - apply Rabs_pos_eq. rewrite <- rnd_0. apply rnd_le. lra.
Qed.

Lemma fmt_Z (n : Z) : (Z.abs n < 2 ^ 24)%Z -> generic_format radix2 fexp32 (IZR n).
Proof.
  intros H. apply generic_format_FLT. exists (Float radix2 n 0).
  - unfold F2R. cbn. ring.
  - cbn [Fnum]. exact H.
  - cbn. lia.
Qed.
Lemma rnd_Z n : (Z.abs n < 2 ^ 24)%Z -> rnd (IZR n) = IZR n.
Proof. intros H. apply rnd_fmt, fmt_Z, H. Qed.

(** Relative error, without underflow. *)
Lemma rnd_rel x : bpow radix2 (-126) <= Rabs x -> Rabs (rnd x - x) <= u * Rabs x.
Proof.
  intros H. pose proof (relative_error_N_FLT radix2 (-149) 24 ltac:(lia) (fun z => negb (Z.even z)) x H) as K.
  replace u with (/ 2 * bpow radix2 (- (24) + 1)); [exact K|]. unfold u. cbn. lra.
Qed.
(** In general. *)
Lemma rnd_abs_err x : Rabs (rnd x - x) <= u * Rabs x + bpow radix2 (-150).
Proof.
  destruct (error_N_FLT radix2 (-149) 24 ltac:(lia) (fun z => negb (Z.even z)) x) as (eps & eta & H1 & H2 & _ & H3).
  fold fexp32 in H3. change (round radix2 fexp32 ZnearestE x) with (rnd x) in H3. unfold rnd in *. 
  change (Znearest (fun z => negb (Z.even z))) with ZnearestE in H3. rewrite H3.
  replace (x * (1 + eps) + eta - x) with (eps * x + eta) by ring.
  eapply Rle_trans; [apply Rabs_triang|]. rewrite Rabs_mult. apply Rplus_le_compat.
  - apply Rmult_le_compat_r; [apply Rabs_pos|]. eapply Rle_trans; [exact H1|]. unfold u. cbn. lra.
  - eapply Rle_trans; [exact H2|]. cbn. lra.
Qed.

(** The operations, as long as the result stays far from overflow. *)
Lemma no_ovf x : Rabs x <= bpow radix2 100 -> Rlt_bool (Rabs (rnd x)) (bpow radix2 128) = true.
Proof.
  intros H. apply Rlt_bool_true. rewrite rnd_abs. apply Rle_lt_trans with (rnd (bpow radix2 100)); [apply rnd_le, H|].
  rewrite rnd_fmt.
  - apply bpow_lt. lia.
  - apply generic_format_bpow. cbn. lia.
Qed.

Lemma fadd_ok x y : fin x -> fin y -> Rabs (val x + val y) <= bpow radix2 100 ->
  fin (fadd x y) /\ val (fadd x y) = rnd (val x + val y).
Proof.
  intros Hx Hy H. pose proof (Bplus_correct 24 128 eq_refl eq_refl binop_nan_pl32 mode_NE x y Hx Hy) as K.
  change (Rlt_bool (Rabs (rnd (val x + val y))) (bpow radix2 128)) with
    (Rlt_bool (Rabs (rnd (val x + val y))) (bpow radix2 128)) in K.
  pose proof (no_ovf _ H) as Ho. unfold rnd, fexp32, val in *. cbn [round_mode] in K.
  change (SpecFloat.fexp 24 128) with (FLT_exp (-149) 24) in K. rewrite Ho in K.
  destruct K as (K1 & K2 & _). split; [exact K2|exact K1].
Qed.
Lemma fsub_ok x y : fin x -> fin y -> Rabs (val x - val y) <= bpow radix2 100 ->
  fin (fsub x y) /\ val (fsub x y) = rnd (val x - val y) /\
  (val (fsub x y) = 0 -> Bsign 24 128 x = false -> Bsign 24 128 (fsub x y) = false).
Proof.
  intros Hx Hy H. pose proof (Bminus_correct 24 128 eq_refl eq_refl binop_nan_pl32 mode_NE x y Hx Hy) as K.
  pose proof (no_ovf _ H) as Ho. cbn [round_mode] in K.
  change (SpecFloat.fexp 24 128) with (FLT_exp (-149) 24) in K.
  change (Rlt_bool (Rabs (rnd (val x - val y))) (bpow radix2 128) = true) in Ho. unfold rnd, fexp32, val in Ho.
  rewrite Ho in K. destruct K as (K1 & K2 & K3). split; [exact K2|]. split; [exact K1|].
  intros Hz Hs. change (fsub x y) with (Bminus 24 128 eq_refl eq_refl binop_nan_pl32 mode_NE x y) in *.
  unfold val in Hz. rewrite K1 in Hz. rewrite K3.
  assert (E : val x - val y = 0).
  { destruct (Req_dec (val x - val y) 0) as [E|E]; [exact E|]. exfalso.
    apply (round_plus_neq_0 radix2 fexp32 ZnearestE (val x) (- val y)); auto using val_fmt.
    apply generic_format_opp, val_fmt. }
  unfold val in E. rewrite E, Rcompare_Eq by reflexivity. rewrite Hs. reflexivity.
Qed.
Lemma fmul_ok x y : fin x -> fin y -> Rabs (val x * val y) <= bpow radix2 100 ->
  fin (fmul x y) /\ val (fmul x y) = rnd (val x * val y).
Proof.
  intros Hx Hy H. pose proof (Bmult_correct 24 128 eq_refl eq_refl binop_nan_pl32 mode_NE x y) as K.
  pose proof (no_ovf _ H) as Ho. cbn [round_mode] in K.
  change (SpecFloat.fexp 24 128) with (FLT_exp (-149) 24) in K. unfold rnd, fexp32, val in Ho.
  rewrite Ho in K. destruct K as (K1 & K2 & _). split; [|exact K1].
  unfold fin in *. change (fmul x y) with (Bmult 24 128 eq_refl eq_refl binop_nan_pl32 mode_NE x y).
  rewrite K2, Hx, Hy. reflexivity.
Qed.
Lemma fdiv_ok x y : fin x -> val y <> 0 -> Rabs (val x / val y) <= bpow radix2 100 ->
  fin (fdiv x y) /\ val (fdiv x y) = rnd (val x / val y).
Proof.
  intros Hx Hy H. pose proof (Bdiv_correct 24 128 eq_refl eq_refl binop_nan_pl32 mode_NE x y Hy) as K.
  pose proof (no_ovf _ H) as Ho. cbn [round_mode] in K.
  change (SpecFloat.fexp 24 128) with (FLT_exp (-149) 24) in K. unfold rnd, fexp32, val in Ho.
  rewrite Ho in K. destruct K as (K1 & K2 & _). split; [|exact K1].
  unfold fin in *. change (fdiv x y) with (Bdiv 24 128 eq_refl eq_refl binop_nan_pl32 mode_NE x y).
  rewrite K2. exact Hx.
Qed.
Lemma ffma_ok x y z : fin x -> fin y -> fin z -> Rabs (val x * val y + val z) <= bpow radix2 100 ->
  fin (ffma x y z) /\ val (ffma x y z) = rnd (val x * val y + val z).
Proof.
  intros Hx Hy Hz H. pose proof (Bfma_correct 24 128 eq_refl eq_refl ternop_nan_pl32 mode_NE x y z Hx Hy Hz) as K.
  pose proof (no_ovf _ H) as Ho. cbn [round_mode] in K. cbn zeta in K.
  change (SpecFloat.fexp 24 128) with (FLT_exp (-149) 24) in K. unfold rnd, fexp32, val in Ho.
  rewrite Ho in K. destruct K as (K1 & K2 & _). split; [exact K2|exact K1].
Qed.
Lemma fsqrt_ok x : fin x -> 0 < val x -> fin (fsqrt x) /\ val (fsqrt x) = rnd (sqrt (val x)).
Proof.
  intros Hx H. pose proof (Bsqrt_correct 24 128 eq_refl eq_refl unop_nan_pl32 mode_NE x) as (K1 & K2 & _).
  cbn [round_mode] in K1. change (SpecFloat.fexp 24 128) with (FLT_exp (-149) 24) in K1.
  split; [|exact K1]. unfold fin. change (fsqrt x) with (Bsqrt 24 128 eq_refl eq_refl unop_nan_pl32 mode_NE x).
  rewrite K2. destruct x as [| | |s m e B]; try discriminate Hx; [reflexivity|].
  destruct s; [|reflexivity]. exfalso. unfold val in H. cbn in H.
  assert (F2R (Float radix2 (Z.neg m) e) < 0) by (apply F2R_lt_0; reflexivity).
  lra.
Qed.

(** Comparison. *)
Lemma compare_ok x y : fin x -> fin y -> b32_compare x y = Some (Rcompare (val x) (val y)).
Proof. intros Hx Hy. apply (Bcompare_correct 24 128 x y Hx Hy). Qed.
Lemma fmin_ok x y : fin x -> fin y -> fin (fmin x y) /\ val (fmin x y) = Rmin (val x) (val y) /\ (fmin x y = x \/ fmin x y = y).
Proof.
  intros Hx Hy. unfold fmin. rewrite (compare_ok x y Hx Hy). destruct (Rcompare_spec (val x) (val y)) as [H|H|H].
  - repeat split; auto. rewrite Rmin_left; lra.
  - repeat split; auto. rewrite Rmin_left; lra.
  - repeat split; auto. rewrite Rmin_right; lra.
Qed.
Lemma fmax_ok x y : fin x -> fin y -> fin (fmax x y) /\ val (fmax x y) = Rmax (val x) (val y) /\ (fmax x y = x \/ fmax x y = y).
Proof.
  intros Hx Hy. unfold fmax. rewrite (compare_ok x y Hx Hy). destruct (Rcompare_spec (val x) (val y)) as [H|H|H].
  - repeat split; auto. rewrite Rmax_right; lra.
  - repeat split; auto. rewrite Rmax_left; lra.
  - repeat split; auto. rewrite Rmax_left; lra.
Qed.
Lemma fgt_ok x y : fin x -> fin y -> fgt x y = true <-> val y < val x.
Proof.
  intros Hx Hy. unfold fgt. rewrite (compare_ok x y Hx Hy).
  destruct (Rcompare_spec (val x) (val y)) as [H|H|H]; split; intros K; try discriminate; try reflexivity; lra.
Qed.

(** Constants. *)
Lemma fin_zero : fin f_zero. Proof. reflexivity. Qed.
Lemma fin_one : fin f_one. Proof. reflexivity. Qed.
Lemma fin_minus_one : fin f_minus_one. Proof. reflexivity. Qed.
Lemma fin_threshold : fin THRESHOLD. Proof. reflexivity. Qed.
Lemma val_zero : val f_zero = 0. Proof. reflexivity. Qed.
Lemma val_one : val f_one = 1. Proof. unfold val, f_one. cbn. unfold F2R. cbn. lra. Qed.
Lemma val_minus_one : val f_minus_one = -1. Proof. unfold val, f_minus_one. cbn. unfold F2R. cbn. lra. Qed.
Lemma val_threshold : 0.3 < val THRESHOLD < 0.30000002.
Proof. unfold val, THRESHOLD. cbn. unfold F2R. cbn. lra. Qed.

(** Two finite values that are equal as numbers are equal, unless one is -0.0. *)
Lemma same_value x y : fin x -> fin y -> val x = val y ->
  (val x = 0 -> Bsign 24 128 x = false) -> (val y = 0 -> Bsign 24 128 y = false) -> x = y.
Proof.
  intros Hx Hy H Sx Sy. apply (B2R_Bsign_inj 24 128 x y Hx Hy H).
  destruct (Req_dec (val x) 0) as [E|E].
  - rewrite Sx, Sy; auto. lra.
  - unfold fin, val in *. destruct x as [s| | |s m e B], y as [s'| | |s' m' e' B']; try discriminate;
      cbn [B2R Bsign] in *; try lra; try (destruct s; apply eq_sym in H; apply eq_0_F2R in H; discriminate H);
      try (destruct s'; apply eq_0_F2R in H; discriminate H).
    destruct s, s'; cbn [SpecFloat.cond_Zopp cond_Zopp Z.opp] in *; auto; exfalso.
    + assert (F2R (Float radix2 (Z.neg m) e) < 0) by (apply F2R_lt_0; reflexivity).
      assert (0 < F2R (Float radix2 (Z.pos m') e')) by (apply F2R_gt_0; reflexivity). lra.
    + assert (F2R (Float radix2 (Z.neg m') e') < 0) by (apply F2R_lt_0; reflexivity).
      assert (0 < F2R (Float radix2 (Z.pos m) e)) by (apply F2R_gt_0; reflexivity). lra.
Qed.
