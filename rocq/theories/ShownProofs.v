(** Proofs about shown numbers and times. *)
From Coq Require Import String List NArith ZArith Reals Bool Lia Lra.
From Flocq Require Import Core.Core IEEE754.BinarySingleNaN IEEE754.Binary IEEE754.Bits.
From Verif Require Import Common CommonFacts Utf8Facts HtmlModel HtmlSpec HtmlPage IndexModel IndexFloat ShownModel ShownSpec.
Import ListNotations.
Ltac csplit := repeat match goal with |- _ /\ _ => split end.

(** ** Conversions *)
Open Scope R_scope.
Lemma nat_r_pos n : 0 <= nat_r n.
Proof. apply IZR_le. lia. Qed.
Lemma big64 n : (n < 2 ^ 64)%N -> Rabs (nat_r n) <= bpow radix2 100.
Proof.
  intros H. rewrite Rabs_pos_eq by apply nat_r_pos. apply Rle_trans with (bpow radix2 64).
  - unfold nat_r. change (bpow radix2 64) with (IZR (2 ^ 64)). apply IZR_le. lia.
  - apply bpow_le. lia.
Qed.
Lemma as_f32_ok n : (n < 2 ^ 64)%N -> fin (as_f32 n) /\ val (as_f32 n) = rnd (nat_r n) /\ Bsign 24 128 (as_f32 n) = false.
Proof.
  intros H. pose proof (binary_normalize_correct 24 128 eq_refl eq_refl mode_NE (Z.of_N n) 0 false) as K.
  assert (E : F2R (Float radix2 (Z.of_N n) 0) = nat_r n) by (unfold F2R; cbn; rewrite Rmult_1_r; reflexivity).
  rewrite E in K. pose proof (no_ovf _ (big64 n H)) as Ho. cbn [round_mode] in K. change (SpecFloat.fexp 24 128) with (FLT_exp (-149) 24) in K. unfold rnd, fexp32 in Ho. rewrite Ho in K.
  destruct K as (K1 & K2 & K3). csplit; [exact K2|exact K1|]. unfold as_f32. rewrite K3. destruct (Rcompare_spec (nat_r n) 0) as [L|L|L]; try reflexivity. pose proof (nat_r_pos n). lra.
Qed.
Lemma as_f32_small n : (n < 2 ^ 24)%N -> val (as_f32 n) = nat_r n.
Proof.
  intros H. destruct (as_f32_ok n) as (_ & E & _); [apply N.lt_trans with (2 ^ 24)%N; [exact H|reflexivity]|]. rewrite E. apply rnd_Z. lia.
Qed.
Lemma div_floor (a b : N) : (0 < b)%N -> nat_r (a / b) <= nat_r a / nat_r b < nat_r (a / b) + 1.
Proof.
  intros H. pose proof (N.div_mod a b ltac:(lia)) as E. pose proof (N.mod_lt a b ltac:(lia)) as M. assert (P : 0 < nat_r b) by (apply IZR_lt; lia).
  assert (D : nat_r a = nat_r b * nat_r (a / b) + nat_r (a mod b)).
  { unfold nat_r. rewrite <- mult_IZR, <- plus_IZR. f_equal. rewrite <- N2Z.inj_mul, <- N2Z.inj_add. f_equal. exact E. }
  assert (M' : nat_r (a mod b) < nat_r b) by (apply IZR_lt; lia). pose proof (nat_r_pos (a mod b)). rewrite D.
  replace ((nat_r b * nat_r (a / b) + nat_r (a mod b)) / nat_r b) with (nat_r (a / b) + nat_r (a mod b) / nat_r b) by (field; lra).
  split; [apply Rplus_le_reg_l with (- nat_r (a / b)); ring_simplify; apply Rle_mult_inv_pos; lra|].
  apply Rplus_lt_compat_l. apply Rmult_lt_reg_r with (nat_r b); [exact P|]. unfold Rdiv. rewrite Rmult_assoc, Rinv_l by lra. lra.
Qed.
Lemma pow_r e : nat_r (2 ^ Z.to_N e) = bpow radix2 (Z.max 0 e).
Proof.
  unfold nat_r. rewrite N2Z.inj_pow. destruct (Z.le_gt_cases 0 e) as [H|H].
  - rewrite Z2N.id, Z.max_r by lia. apply (IZR_Zpower radix2). exact H.
  - replace (Z.to_N e) with 0%N by lia. rewrite Z.max_l by lia. reflexivity.
Qed.
Lemma nat_r_mul a b : nat_r (a * b) = nat_r a * nat_r b.
Proof. unfold nat_r. now rewrite N2Z.inj_mul, mult_IZR. Qed.
Lemma nat_r_add a b : nat_r (a + b) = nat_r a + nat_r b.
Proof. unfold nat_r. now rewrite N2Z.inj_add, plus_IZR. Qed.
Lemma nat_r_le a b : (a <= b)%N <-> nat_r a <= nat_r b.
Proof. unfold nat_r. split; intros H; [apply IZR_le; lia|apply le_IZR in H; lia]. Qed.
Lemma nat_r_lt a b : (a < b)%N <-> nat_r a < nat_r b.
Proof. unfold nat_r. split; intros H; [apply IZR_lt; lia|apply lt_IZR in H; lia]. Qed.
(** A float as a fraction. *)
Lemma fraction m e k : nat_r (N.pos m * k * 2 ^ Z.to_N e) / nat_r (2 ^ Z.to_N (- e)) = F2R (Float radix2 (Z.pos m) e) * nat_r k.
Proof.
  rewrite !nat_r_mul, !pow_r. unfold F2R. cbn [Fnum Fexp]. change (nat_r (N.pos m)) with (IZR (Z.pos m)).
  assert (E : bpow radix2 (Z.max 0 e) / bpow radix2 (Z.max 0 (- e)) = bpow radix2 e).
  { unfold Rdiv. rewrite <- bpow_opp, <- bpow_plus. f_equal. lia. }
  rewrite <- E. field. apply Rgt_not_eq, bpow_gt_0.
Qed.
Lemma pow2_pos e : (0 < 2 ^ e)%N.
Proof. apply N.neq_0_lt_0, N.pow_nonzero. lia. Qed.
Lemma as_usize_ok x : fin x -> 0 <= val x < nat_r (2 ^ 64) -> nat_r (as_usize x) <= val x < nat_r (as_usize x) + 1.
Proof.
  intros Hf [H0 H1]. destruct x as [s| | |s m e B]; try discriminate Hf.
  - unfold val in *. cbn in *. change (nat_r 0) with 0. lra.
  - unfold val in *. cbn [B2R as_usize] in *. destruct s.
    + exfalso. assert (F2R (Float radix2 (Z.neg m) e) < 0) by (apply F2R_lt_0; reflexivity). cbn [cond_Zopp Z.opp] in H0. lra.
    + cbn [cond_Zopp] in *. pose proof (div_floor (N.pos m * 1 * 2 ^ Z.to_N e) (2 ^ Z.to_N (- e)) (pow2_pos _)) as D. rewrite fraction in D. change (nat_r 1) with 1 in D. rewrite Rmult_1_r, N.mul_1_r in D.
      rewrite N.min_r; [exact D|]. assert (L : nat_r (N.pos m * 2 ^ Z.to_N e / 2 ^ Z.to_N (- e)) < nat_r (2 ^ 64)) by lra. apply nat_r_lt in L. unfold usize_max. lia.
Qed.

(** ** Decimals *)
Definition half (k : N) : R := / 2 / nat_r (10 ^ k).
Lemma nearest_ok up k m e : Rabs (nat_r (nearest up k m e) / nat_r (10 ^ k) - F2R (Float radix2 (Z.pos m) e)) <= half k.
Proof.
  assert (P10 : 0 < nat_r (10 ^ k)).
  { apply (nat_r_lt 0). apply N.neq_0_lt_0, N.pow_nonzero. lia. }
  assert (H : Rabs (nat_r (nearest up k m e) - F2R (Float radix2 (Z.pos m) e) * nat_r (10 ^ k)) <= / 2).
  { rewrite <- fraction. unfold nearest. set (num := (N.pos m * 10 ^ k * 2 ^ Z.to_N e)%N). set (den := (2 ^ Z.to_N (- e))%N). assert (Pd : (0 < den)%N) by apply pow2_pos. clearbody num den.
    pose proof (N.div_mod num den ltac:(lia)) as E. pose proof (N.mod_lt num den ltac:(lia)) as M. assert (P : 0 < nat_r den) by (apply (nat_r_lt 0); lia).
    assert (D : nat_r num / nat_r den = nat_r (num / den) + nat_r (num mod den) / nat_r den).
    { rewrite E at 1. rewrite nat_r_add, nat_r_mul. field. lra. }
    rewrite D. set (q := (num / den)%N) in *. set (r := (num mod den)%N) in *. clearbody q r.
    assert (R0 : 0 <= nat_r r / nat_r den) by (apply Rle_mult_inv_pos; [apply nat_r_pos|exact P]).
    assert (T : forall c, nat_r r / nat_r den = c <-> nat_r r = c * nat_r den) by (intros c; split; [intros <-; field; lra|intros ->; field; lra]).
    assert (TL : forall c, nat_r r <= c * nat_r den -> nat_r r / nat_r den <= c).
    { intros c L. apply Rmult_le_reg_r with (nat_r den); [exact P|]. unfold Rdiv. rewrite Rmult_assoc, Rinv_l by lra. lra. }
    assert (TG : forall c, c * nat_r den <= nat_r r -> c <= nat_r r / nat_r den).
    { intros c L. apply Rmult_le_reg_r with (nat_r den); [exact P|]. unfold Rdiv. rewrite Rmult_assoc, Rinv_l by lra. lra. }
    destruct (N.compare_spec (2 * r) den) as [C|C|C].
    - assert (X : nat_r r / nat_r den = / 2). { apply T. rewrite <- C, nat_r_mul. change (nat_r 2) with 2. field. }
      rewrite X. destruct (up q); [rewrite nat_r_add; change (nat_r 1) with 1|]; apply Rabs_le; lra.
    - apply nat_r_lt in C. rewrite nat_r_mul in C. change (nat_r 2) with 2 in C. assert (X : nat_r r / nat_r den <= / 2) by (apply TL; lra). apply Rabs_le. lra.
    - apply nat_r_lt in C. rewrite nat_r_mul in C. change (nat_r 2) with 2 in C. assert (X : / 2 <= nat_r r / nat_r den) by (apply TG; lra).
      apply nat_r_lt in M. assert (Y : nat_r r / nat_r den <= 1) by (apply TL; lra). rewrite nat_r_add. change (nat_r 1) with 1. apply Rabs_le. lra. }
  replace (nat_r (nearest up k m e) / nat_r (10 ^ k) - F2R (Float radix2 (Z.pos m) e)) with ((nat_r (nearest up k m e) - F2R (Float radix2 (Z.pos m) e) * nat_r (10 ^ k)) / nat_r (10 ^ k)) by (field; lra).
  unfold half, Rdiv. rewrite Rabs_mult, (Rabs_pos_eq (/ nat_r (10 ^ k))) by (left; now apply Rinv_0_lt_compat). apply Rmult_le_compat_r; [left; now apply Rinv_0_lt_compat|exact H].
Qed.
(** A number that is not negative is shown as the nearest decimal. *)
Lemma fmt_float_ok up w k x : fin x -> 0 <= val x -> (val x = 0 -> Bsign 24 128 x = false) ->
  exists q, fmt_float up w k x = pad 48 w (places k q) /\ Rabs (nat_r q / nat_r (10 ^ k) - val x) <= half k.
Proof.
  intros Hf H0 Hs. destruct x as [s| | |s m e B]; try discriminate Hf.
  - assert (s = false) as -> by (apply Hs; reflexivity). exists 0%N. unfold fmt_float, minus. cbn [app List.length]. rewrite Nat.sub_0_r. split; [reflexivity|].
    unfold val. cbn [B2R]. change (nat_r 0) with 0. unfold Rdiv. rewrite Rmult_0_l, Rminus_0_r, Rabs_R0. unfold half.
    apply Rle_mult_inv_pos; [lra|]. apply (nat_r_lt 0). apply N.neq_0_lt_0, N.pow_nonzero. lia.
  - destruct s.
    + exfalso. unfold val in H0. cbn in H0. assert (F2R (Float radix2 (Z.neg m) e) < 0) by (apply F2R_lt_0; reflexivity). lra.
    + exists (nearest up k m e). unfold fmt_float, minus. cbn [app List.length]. rewrite Nat.sub_0_r. split; [reflexivity|]. apply nearest_ok.
Qed.
Lemma pad_long c w s : (w <= List.length s)%nat -> pad c w s = s.
Proof. intros H. unfold pad. replace (w - List.length s)%nat with 0%nat by lia. reflexivity. Qed.
Lemma fmt_length n : (1 <= List.length (fmt n))%nat.
Proof. destruct (fmt_decimal n) as (_ & _ & [-> |(c & r & -> & _)]); cbn [List.length]; lia. Qed.
Lemma two_digits_ok n : two_digits n (fmt_two n).
Proof. exists (fmt n). split; [apply fmt_decimal|apply pad_padded]. Qed.
Lemma places_2 q : hundredths q (places 2 q).
Proof. exists (fmt (q / 100)), (pad 48 2 (fmt (q mod 100))). csplit; [reflexivity|apply fmt_decimal|apply two_digits_ok]. Qed.
Lemma places_2_length q : (4 <= List.length (places 2 q))%nat.
Proof.
  unfold places. change (2 =? 0)%N with false. cbv iota. rewrite app_length. cbn [List.length]. change (N.to_nat 2) with 2%nat. unfold pad. rewrite app_length, repeat_length. pose proof (fmt_length (q / 10 ^ 2)). lia.
Qed.
Lemma places_0 q : places 0 q = fmt q.
Proof. unfold places. change (10 ^ 0)%N with 1%N. rewrite N.div_1_r. apply app_nil_r. Qed.

(** ** The reduction *)
Lemma u_val : u = / 16777216. Proof. reflexivity. Qed.
Lemma tiny150 : 0 < bpow radix2 (-150) < / 1000000000000.
Proof.
  split; [apply bpow_gt_0|]. apply Rlt_le_trans with (bpow radix2 (-40)); [apply bpow_lt; lia|]. cbn. lra.
Qed.
Lemma normal x : / 1000000000000000000000 <= x -> bpow radix2 (-126) <= x.
Proof.
  intros H. apply Rle_trans with (2 := H). apply Rle_trans with (bpow radix2 (-70)); [apply bpow_le; lia|]. cbn. lra.
Qed.
Lemma rnd_pos x : 0 <= x -> 0 <= rnd x.
Proof. intros H. rewrite <- rnd_0. now apply rnd_le. Qed.
Lemma rnd_below x c : x <= IZR c -> (Z.abs c < 2 ^ 24)%Z -> rnd x <= IZR c.
Proof. intros H C. rewrite <- (rnd_Z c C). now apply rnd_le. Qed.
Lemma rnd_above x c : IZR c <= x -> (Z.abs c < 2 ^ 24)%Z -> IZR c <= rnd x.
Proof. intros H C. rewrite <- (rnd_Z c C). now apply rnd_le. Qed.
Lemma div_bounds x y : 0 <= x <= y -> 0 < y -> 0 <= x / y <= 1.
Proof.
  intros [A B] P. split; [now apply Rle_mult_inv_pos|]. apply Rmult_le_reg_r with y; [exact P|]. unfold Rdiv. rewrite Rmult_assoc, Rinv_l by lra. lra.
Qed.
Lemma small_100 x : Rabs x <= 1000 -> Rabs x <= bpow radix2 100.
Proof. intros H. apply Rle_trans with (1 := H). apply Rle_trans with (bpow radix2 10); [cbn; lra|apply bpow_le; lia]. Qed.
(** A division of rounded numbers. *)
Lemma div_err A L A' L' : 0 <= A -> 0 < L -> Rabs (A' - A) <= u * A -> Rabs (L' - L) <= u * L -> Rabs (A' / L' - A / L) <= 2.1 * u * (A / L).
Proof.
  intros HA HL EA EL. pose proof u_pos as U. apply Rabs_le_inv in EL as EL'. assert (P : 0 < L') by nra.
  replace (A' / L' - A / L) with (((A' - A) * L - A * (L' - L)) / (L * L')) by (field; lra).
  assert (PP : 0 < L * L') by now apply Rmult_lt_0_compat.
  unfold Rdiv at 1. rewrite Rabs_mult, (Rabs_pos_eq (/ (L * L'))) by (left; now apply Rinv_0_lt_compat).
  assert (H : Rabs ((A' - A) * L - A * (L' - L)) <= 2 * u * A * L).
  { eapply Rle_trans; [apply Rabs_triang|]. rewrite Rabs_Ropp, !Rabs_mult, (Rabs_pos_eq L), (Rabs_pos_eq A) by lra. nra. }
  apply Rle_trans with (2 * u * A * L * / (L * L')); [apply Rmult_le_compat_r; [left; now apply Rinv_0_lt_compat|exact H]|].
  replace (2 * u * A * L * / (L * L')) with (2 * u * A / L') by (field; lra). replace (2.1 * u * (A / L)) with (2.1 * u * A / L) by (field; lra).
  apply Rmult_le_reg_r with L'; [exact P|]. unfold Rdiv at 1. rewrite Rmult_assoc, Rinv_l, Rmult_1_r by lra.
  replace (2.1 * u * A / L * L') with (u * A * (2.1 * (L' / L))) by (field; lra).
  assert (G : 1 - u <= L' / L).
  { apply Rmult_le_reg_r with L; [exact HL|]. unfold Rdiv. rewrite Rmult_assoc, Rinv_l by lra. nra. }
  assert (0 <= u * A) by nra. apply Rle_trans with (u * A * 2); [lra|]. apply Rmult_le_compat_l; lra.
Qed.
Lemma as_f32_err n : (n < 2 ^ 64)%N -> Rabs (val (as_f32 n) - nat_r n) <= u * nat_r n.
Proof.
  intros H. destruct (as_f32_ok n H) as (_ & -> & _). destruct (N.eq_0_gt_0_cases n) as [-> |P].
  - change (nat_r 0) with 0. rewrite rnd_0, Rminus_0_r, Rabs_R0. lra.
  - assert (1 <= nat_r n) by (apply (nat_r_le 1); lia). rewrite <- (Rabs_pos_eq (nat_r n)) at 3 by lra. apply rnd_rel. rewrite Rabs_pos_eq by lra. apply normal. lra.
Qed.
Lemma reduction_ok l a : (1 <= l < 2 ^ 64)%N -> (a <= l)%N -> fin (reduction l a) /\ 0 <= val (reduction l a) <= 100 /\
  (val (reduction l a) = 0 -> Bsign 24 128 (reduction l a) = false) /\ Rabs (val (reduction l a) - 100 * (1 - nat_r a / nat_r l)) <= 0.00004.
Proof.
  intros [Hl Hl'] Ha. pose proof u_pos as U. pose proof tiny150 as T. assert (Ha' : (a < 2 ^ 64)%N) by (eapply N.le_lt_trans; eassumption).
  destruct (as_f32_ok a Ha') as (FA & VA & SA). destruct (as_f32_ok l Hl') as (FL & VL & SL).
  pose proof (as_f32_err a Ha') as EA. pose proof (as_f32_err l Hl') as EL.
  assert (L1 : 1 <= nat_r l) by (apply (nat_r_le 1); lia). pose proof (nat_r_pos a) as A0. assert (AL : nat_r a <= nat_r l) by now apply nat_r_le.
  assert (VL1 : 1 <= val (as_f32 l)) by (rewrite VL; apply (rnd_above _ 1); [exact L1|cbn; lia]).
  assert (VA0 : 0 <= val (as_f32 a)) by (rewrite VA; now apply rnd_pos).
  assert (VAL : val (as_f32 a) <= val (as_f32 l)) by (rewrite VA, VL; now apply rnd_le).
  destruct (div_bounds (val (as_f32 a)) (val (as_f32 l)) ltac:(lra) ltac:(lra)) as [D0 D1].
  destruct (fdiv_ok (as_f32 a) (as_f32 l) FA ltac:(lra)) as [FQ VQ]; [apply small_100; rewrite Rabs_pos_eq; lra|].
  set (Q := fdiv (as_f32 a) (as_f32 l)) in *. assert (Q0 : 0 <= val Q) by (rewrite VQ; now apply rnd_pos). assert (Q1 : val Q <= 1) by (rewrite VQ; apply (rnd_below _ 1); [exact D1|cbn; lia]).
  assert (V100 : val (as_f32 100) = 100) by (rewrite as_f32_small by reflexivity; reflexivity).
  destruct (as_f32_ok 100 eq_refl) as (F100 & _ & S100).
  destruct (fmul_ok Q (as_f32 100) FQ F100) as [FP VP]; [apply small_100; rewrite V100, Rabs_pos_eq; lra|].
  set (P := fmul Q (as_f32 100)) in *. rewrite V100 in VP. assert (P0 : 0 <= val P) by (rewrite VP; apply rnd_pos; lra). assert (P1 : val P <= 100) by (rewrite VP; apply (rnd_below _ 100); [lra|cbn; lia]).
  destruct (fsub_ok (as_f32 100) P F100 FP) as (FR & VR & SR); [apply small_100; rewrite V100, Rabs_pos_eq; lra|].
  change (fsub (as_f32 100) P) with (reduction l a) in *. rewrite V100 in VR. csplit.
  - exact FR.
  - rewrite VR. apply rnd_pos. lra.
  - rewrite VR. apply (rnd_below _ 100); [lra|cbn; lia].
  - intros Z. now apply SR.
  - pose proof (div_err (nat_r a) (nat_r l) _ _ A0 ltac:(lra) EA EL) as E1. destruct (div_bounds (nat_r a) (nat_r l) ltac:(lra) ltac:(lra)) as [X0 X1].
    pose proof (rnd_abs_err (val (as_f32 a) / val (as_f32 l))) as E2. rewrite <- VQ, (Rabs_pos_eq (_ / _)) in E2 by lra.
    pose proof (rnd_abs_err (val Q * 100)) as E3. rewrite <- VP, (Rabs_pos_eq (_ * _)) in E3 by lra.
    pose proof (rnd_abs_err (100 - val P)) as E4. rewrite <- VR, (Rabs_pos_eq (100 - _)) in E4 by lra.
    set (x := nat_r a / nat_r l) in *. set (y := val (as_f32 a) / val (as_f32 l)) in *.
    assert (B1 : Rabs (y - x) <= 2.1 * u) by (eapply Rle_trans; [exact E1|]; nra).
    assert (B2 : Rabs (val Q - y) <= u + / 1000000000000) by nra.
    assert (B3 : Rabs (val P - val Q * 100) <= 100 * u + / 1000000000000) by nra.
    assert (B4 : Rabs (val (reduction l a) - (100 - val P)) <= 100 * u + / 1000000000000) by nra.
    apply Rabs_le_inv in B1, B2, B3, B4. rewrite u_val in *. apply Rabs_le. lra.
Qed.

(** ** The run time *)
Lemma as_secs_ok s n : (s < 2 ^ 64)%N -> (n < 1000000000)%N -> let t := nat_r s + nat_r n / 1000000000 in
  fin (as_secs_f32 (s, n)) /\ 0 <= val (as_secs_f32 (s, n)) /\ (val (as_secs_f32 (s, n)) = 0 -> Bsign 24 128 (as_secs_f32 (s, n)) = false) /\
  Rabs (val (as_secs_f32 (s, n)) - t) <= 4 * u * t + / 1000000000.
Proof.
  intros Hs Hn t. pose proof u_pos as U. pose proof tiny150 as T. assert (Hn' : (n < 2 ^ 64)%N) by (eapply N.lt_trans; [exact Hn|reflexivity]).
  destruct (as_f32_ok s Hs) as (FS & VS & SS). destruct (as_f32_ok n Hn') as (FN & VN & SN). pose proof (as_f32_err s Hs) as ES. pose proof (as_f32_err n Hn') as EN.
  pose proof (nat_r_pos s) as S0. pose proof (nat_r_pos n) as N0. assert (N1 : nat_r n <= 1000000000) by (apply (nat_r_le n 1000000000); lia).
  assert (VS0 : 0 <= val (as_f32 s)) by (rewrite VS; now apply rnd_pos). assert (VN0 : 0 <= val (as_f32 n)) by (rewrite VN; now apply rnd_pos).
  destruct (as_f32_ok 1000000000 eq_refl) as (FG & _ & _). assert (VG : val (as_f32 1000000000) = 1000000000) by (vm_compute; lra).
  apply Rabs_le_inv in EN as EN'. apply Rabs_le_inv in ES as ES'.
  assert (VN2 : val (as_f32 n) <= 2000000000) by nra.
  destruct (fdiv_ok (as_f32 n) (as_f32 1000000000) FN ltac:(lra)) as [FF VF]; [apply small_100; rewrite VG, Rabs_pos_eq; lra|]. rewrite VG in VF.
  change (as_secs_f32 (s, n)) with (fadd (as_f32 s) (fdiv (as_f32 n) (as_f32 1000000000))). set (f := fdiv (as_f32 n) (as_f32 1000000000)) in *.
  assert (F0 : 0 <= val f) by (rewrite VF; apply rnd_pos; lra). assert (F2 : val f <= 2) by (rewrite VF; apply (rnd_below _ 2); [lra|cbn; lia]).
  assert (SB : nat_r s <= bpow radix2 64). { unfold nat_r. change (bpow radix2 64) with (IZR (2 ^ 64)). apply IZR_le. lia. }
  destruct (fadd_ok (as_f32 s) f FS FF) as [FR VR].
  { rewrite Rabs_pos_eq by lra. apply Rle_trans with (bpow radix2 64 * 2 + 2); [nra|]. apply Rle_trans with (bpow radix2 66); [cbn; lra|apply bpow_le; lia]. }
  assert (R0 : 0 <= val (fadd (as_f32 s) f)) by (rewrite VR; apply rnd_pos; lra).
  pose proof (rnd_abs_err (val (as_f32 n) / 1000000000)) as E1. rewrite <- VF, (Rabs_pos_eq (_ / _)) in E1 by lra. pose proof (rnd_abs_err (val (as_f32 s) + val f)) as E2. rewrite <- VR, (Rabs_pos_eq (_ + _)) in E2 by lra.
  apply Rabs_le_inv in E1, E2. csplit.
  - exact FR.
  - exact R0.
  - intros Z. pose proof (Bplus_correct 24 128 eq_refl eq_refl binop_nan_pl32 mode_NE (as_f32 s) f FS FF) as K.
    change (Bplus 24 128 eq_refl eq_refl binop_nan_pl32 mode_NE (as_f32 s) f) with (fadd (as_f32 s) f) in K.
    destruct (Rlt_bool _ _) eqn:B in K.
    + destruct K as (_ & _ & K). rewrite K. fold (val (as_f32 s)) (val f). destruct (Rcompare_spec (val (as_f32 s) + val f) 0) as [C|C|C].
      * lra.
      * rewrite SS. reflexivity.
      * reflexivity.
    + destruct K as (K & _). unfold fin in FR. destruct (fadd (as_f32 s) f); cbn in K; discriminate.
  - unfold t. rewrite u_val in *. apply Rabs_le. lra.
Qed.

(** ** Distances *)
Lemma scaled_ok c d : (c <= 255)%N -> fin d -> 0 <= val d <= 1 ->
  fin (fmul d (as_f32 c)) /\ val (fmul d (as_f32 c)) = rnd (val d * nat_r c) /\ 0 <= val (fmul d (as_f32 c)) <= nat_r c /\ Rabs (val (fmul d (as_f32 c)) - val d * nat_r c) <= 0.0001.
Proof.
  intros Hc Hf Hd. pose proof u_pos as U. pose proof tiny150 as T. assert (Hc' : (c < 2 ^ 64)%N) by (apply N.le_lt_trans with 255%N; [exact Hc|reflexivity]).
  assert (V : val (as_f32 c) = nat_r c) by (apply as_f32_small; apply N.le_lt_trans with 255%N; [exact Hc|reflexivity]).
  pose proof (nat_r_pos c) as C0. assert (C1 : nat_r c <= 255) by (now apply (nat_r_le c 255)).
  destruct (as_f32_ok c Hc') as (FC & _ & _). destruct (fmul_ok d (as_f32 c) Hf FC) as [FP VP]; [rewrite V; apply small_100; rewrite Rabs_pos_eq; nra|]. rewrite V in VP.
  assert (Z : (Z.abs (Z.of_N c) < 2 ^ 24)%Z) by lia. csplit; auto.
  - rewrite VP. apply rnd_pos. nra.
  - rewrite VP. apply rnd_below; [|exact Z]. fold (nat_r c). nra.
  - pose proof (rnd_abs_err (val d * nat_r c)) as E. rewrite <- VP, (Rabs_pos_eq (_ * _)) in E by nra. eapply Rle_trans; [exact E|]. rewrite u_val. nra.
Qed.
Lemma pow64 : nat_r (2 ^ 64) = 18446744073709551616. Proof. reflexivity. Qed.
Lemma scaled_usize c d : (c <= 255)%N -> fin d -> 0 <= val d <= 1 ->
  nat_r (as_usize (fmul d (as_f32 c))) <= rnd (val d * nat_r c) < nat_r (as_usize (fmul d (as_f32 c))) + 1 /\ (as_usize (fmul d (as_f32 c)) <= c)%N.
Proof.
  intros Hc Hf Hd. destruct (scaled_ok c d Hc Hf Hd) as (F1 & V1 & B & _). assert (C1 : nat_r c <= 255) by (now apply (nat_r_le c 255)).
  assert (K : nat_r (as_usize (fmul d (as_f32 c))) <= val (fmul d (as_f32 c)) < nat_r (as_usize (fmul d (as_f32 c))) + 1) by (apply as_usize_ok; [exact F1|rewrite pow64; lra]).
  rewrite V1 in *. split; [exact K|]. apply nat_r_le. lra.
Qed.
(** The float before 1. *)
Definition before_one : F := b32_of_bits 0x3f7fffff.
Lemma below_one d : fin d -> val d < 1 -> val d <= val before_one.
Proof.
  intros Hf H. assert (G : generic_format radix2 fexp32 1) by (rewrite <- val_one; apply val_fmt).
  assert (E : val before_one = pred radix2 fexp32 1).
  { rewrite (pred_eq_pos radix2 fexp32 1) by lra. unfold pred_pos. change 1 with (bpow radix2 0). rewrite mag_bpow. change (0 + 1 - 1)%Z with 0%Z. rewrite Req_bool_true by reflexivity. vm_compute. lra. }
  rewrite E. apply pred_ge_gt; [exact valid32|apply val_fmt|exact G|exact H].
Qed.
Lemma percent_99 d : fin d -> 0 <= val d <= 1 -> percent d = 99%N <-> val d = 1.
Proof.
  intros Hf Hd. destruct (scaled_usize 99 d ltac:(lia) Hf Hd) as [K _]. fold (percent d) in K. change (nat_r 99) with 99 in K. split.
  - intros E. rewrite E in K. change (nat_r 99) with 99 in K. destruct (Rle_lt_or_eq_dec (val d) 1 ltac:(lra)) as [L|L]; [|exact L]. exfalso.
    pose proof (below_one d Hf L) as B.
    assert (F0 : fin before_one) by reflexivity. assert (B0 : 0 <= val before_one <= 1) by (unfold val; vm_compute; lra).
    destruct (scaled_ok 99 before_one ltac:(lia) F0 B0) as (_ & V & _). change (nat_r 99) with 99 in V.
    assert (M : rnd (val d * 99) <= rnd (val before_one * 99)) by (apply rnd_le; lra). rewrite <- V in M.
    assert (X : val (fmul before_one (as_f32 99)) < 99) by (unfold val; vm_compute; lra). lra.
  - intros E. rewrite E, Rmult_1_l, (rnd_Z 99) in K by (cbn; lia). assert (L : (percent d <= 99)%N) by (apply nat_r_le; change (nat_r 99) with 99; lra).
    assert (G : (98 < percent d)%N) by (apply nat_r_lt; change (nat_r 98) with 98; lra). lia.
Qed.
Lemma scaled_mono c d d' : (c <= 255)%N -> fin d -> fin d' -> 0 <= val d <= 1 -> 0 <= val d' <= 1 -> val d <= val d' ->
  (as_usize (fmul d (as_f32 c)) <= as_usize (fmul d' (as_f32 c)))%N.
Proof.
  intros Hc Hf Hf' Hd Hd' L. destruct (scaled_usize c d Hc Hf Hd) as [[K _] _]. destruct (scaled_usize c d' Hc Hf' Hd') as [[_ K'] _]. pose proof (nat_r_pos c).
  assert (M : rnd (val d * nat_r c) <= rnd (val d' * nat_r c)) by (apply rnd_le; nra).
  assert (X : nat_r (as_usize (fmul d (as_f32 c))) < nat_r (as_usize (fmul d' (as_f32 c)) + 1)) by (rewrite nat_r_add; change (nat_r 1) with 1; lra). apply nat_r_lt in X. lia.
Qed.

(** ** Dates *)
Open Scope Z_scope.
Lemma leap_same y : leap y = leap_year y.
Proof.
  unfold leap, leap_year. destruct (y mod 400 =? 0) eqn:E; [|now rewrite !orb_false_r].
  rewrite !orb_true_r. apply Z.eqb_eq in E. replace (y mod 4 =? 0) with true; [reflexivity|]. symmetry. apply Z.eqb_eq.
  apply Z.mod_divide in E; [|lia]. apply Z.mod_divide; [lia|]. apply Z.divide_trans with (2 := E). now exists 100.
Qed.
Lemma div_step k y : 0 < k -> y / k - (y - 1) / k = if y mod k =? 0 then 1 else 0.
Proof.
  intros K. pose proof (Z.div_mod y k ltac:(lia)) as E. pose proof (Z.mod_pos_bound y k K) as B. destruct (Z.eqb_spec (y mod k) 0) as [Z0|Z0].
  - rewrite <- (Z.div_unique (y - 1) k (y / k - 1) (k - 1)); [lia|lia|]. rewrite E at 1. rewrite Z0. ring.
  - rewrite <- (Z.div_unique (y - 1) k (y / k) (y mod k - 1)); [lia|lia|]. rewrite E at 1. ring.
Qed.
Lemma leap_step y : leap_years y - leap_years (y - 1) = if leap y then 1 else 0.
Proof.
  unfold leap_years. pose proof (div_step 4 y ltac:(lia)) as A. pose proof (div_step 100 y ltac:(lia)) as B. pose proof (div_step 400 y ltac:(lia)) as C.
  assert (D : y mod 400 = 0 -> y mod 100 = 0). { intros E. apply Z.mod_divide in E; [|lia]. apply Z.mod_divide; [lia|]. apply Z.divide_trans with (2 := E). now exists 4. }
  assert (D' : y mod 100 = 0 -> y mod 4 = 0). { intros E. apply Z.mod_divide in E; [|lia]. apply Z.mod_divide; [lia|]. apply Z.divide_trans with (2 := E). now exists 25. }
  unfold leap. destruct (Z.eqb_spec (y mod 4) 0), (Z.eqb_spec (y mod 100) 0), (Z.eqb_spec (y mod 400) 0); cbn [andb orb negb]; try lia; exfalso; auto.
Qed.
(** The first day of a year. *)
Definition new_year (y : Z) : Z := 365 * (y - 1970) + (leap_years (y - 1) - leap_years 1969).
Lemma year_step y : new_year (y + 1) = new_year y + Z.of_N (year_days y).
Proof. unfold new_year, year_days. replace (y + 1 - 1) with y by lia. pose proof (leap_step y). destruct (leap y); lia. Qed.
Lemma leap_400 y k : leap_years (y + 400 * k) = leap_years y + 97 * k.
Proof.
  unfold leap_years. replace (y + 400 * k) with (y + (100 * k) * 4) at 1 by lia. rewrite Z.div_add by lia.
  replace (y + 400 * k) with (y + (4 * k) * 100) at 1 by lia. rewrite Z.div_add by lia. replace (y + 400 * k) with (y + k * 400) by lia. rewrite Z.div_add by lia. lia.
Qed.
Lemma new_year_400 y k : new_year (y + 400 * k) = new_year y + 146097 * k.
Proof. unfold new_year. replace (y + 400 * k - 1) with ((y - 1) + 400 * k) by lia. rewrite leap_400. lia. Qed.
Lemma find_year_ok fuel : forall y d, new_year y + Z.of_N d < new_year (y + Z.of_nat fuel) ->
  let '(y', d') := find_year fuel y d in (d' < year_days y')%N /\ new_year y' + Z.of_N d' = new_year y + Z.of_N d.
Proof.
  induction fuel as [|fuel IH]; intros y d H.
  - cbn [find_year]. rewrite Z.add_0_r in H. lia.
  - cbn [find_year]. destruct (N.ltb_spec d (year_days y)) as [L|L]; [split; [exact L|reflexivity]|]. pose proof (year_step y) as YS.
    specialize (IH (y + 1) (d - year_days y)%N). replace (y + 1 + Z.of_nat fuel) with (y + Z.of_nat (S fuel)) in IH by lia.
    destruct (find_year fuel (y + 1) (d - year_days y)) as [y' d']. destruct IH as [A B]; [lia|]. split; [exact A|lia].
Qed.
Ltac closed_sums :=
  repeat match goal with
  | |- context [fold_right Z.add 0 ?l] => let v := eval vm_compute in (fold_right Z.add 0 l) in change (fold_right Z.add 0 l) with v
  | H : context [fold_right Z.add 0 ?l] |- _ => let v := eval vm_compute in (fold_right Z.add 0 l) in change (fold_right Z.add 0 l) with v in H
  | |- context [if ?b then ?x else ?y] => let v := eval vm_compute in (if b then x else y) in change (if b then x else y) with v
  | H : context [if ?b then ?x else ?y] |- _ => let v := eval vm_compute in (if b then x else y) in change (if b then x else y) with v in H
  end.
Lemma find_month_ok y d : (d < year_days y)%N ->
  let '(m, d') := find_month (months y) 1 d in 1 <= Z.of_N m <= 12 /\ Z.of_N d' < month_length y (Z.of_N m) /\ before_month y (Z.of_N m) + Z.of_N d' = Z.of_N d.
Proof.
  intros H. unfold months, year_days, before_month, month_length in *. rewrite <- leap_same in *. destruct (leap y); cbn [find_month];
    repeat match goal with |- context [(?a <? ?b)%N] => destruct (N.ltb_spec a b) as [?L|?L];
      [closed_sums; lia|try (let x := fresh "x" in remember (a - b)%N as x)] end; lia.
Qed.
Lemma civil_ok n : let '(y, m, d) := civil n in date y (Z.of_N m) (Z.of_N d) /\ day_number y (Z.of_N m) (Z.of_N d) = n.
Proof.
  unfold civil. set (y0 := 1970 + 400 * (n / 146097)). set (r := Z.to_N (n mod 146097)). pose proof (Z.div_mod n 146097 ltac:(lia)) as E. pose proof (Z.mod_pos_bound n 146097 ltac:(lia)) as B.
  assert (Y : new_year y0 = 146097 * (n / 146097)). { unfold y0. rewrite new_year_400. change (new_year 1970) with 0. lia. }
  pose proof (find_year_ok 400 y0 r) as F. destruct (find_year 400 y0 r) as [y d]. destruct F as [F1 F2].
  { change (Z.of_nat 400) with (400 * 1). rewrite new_year_400. unfold r. lia. }
  pose proof (find_month_ok y d F1) as M. destruct (find_month (months y) 1 d) as [m d']. destruct M as (M1 & M2 & M3).
  unfold date, day_number. fold (new_year y). unfold r in F2. csplit; lia.
Qed.
Lemma fmt_year_ok y : year_text y (fmt_year y).
Proof.
  unfold fmt_year, year_text. exists (if y <? 0 then lit "-" else if 9999 <? y then lit "+" else []), (fmt (Z.abs_N y)), (pad 48 4 (fmt (Z.abs_N y))).
  split; [apply fmt_decimal|]. split; [apply pad_padded|]. split; [|reflexivity].
  destruct (Z.ltb_spec y 0), (Z.ltb_spec 9999 y), (Z.leb_spec 0 y), (Z.leb_spec y 9999); cbn [andb]; try lia; try reflexivity.
  replace (Z.to_N y) with (Z.abs_N y) by lia. reflexivity.
Qed.
(** A number of a day is that of one date. *)
Lemma new_year_le y y' : y <= y' -> new_year y <= new_year y'.
Proof.
  intros H. replace y' with (y + Z.of_nat (Z.to_nat (y' - y))) by lia. induction (Z.to_nat (y' - y)) as [|k IH]; [rewrite Z.add_0_r; lia|].
  replace (y + Z.of_nat (S k)) with (y + Z.of_nat k + 1) by lia. rewrite year_step. lia.
Qed.
Lemma date_in_year y m d : date y m d -> 0 <= before_month y m + (d - 1) < Z.of_N (year_days y).
Proof.
  unfold date, before_month, month_length, year_days. rewrite leap_same. intros [M D].
  assert (X : m = 1 \/ m = 2 \/ m = 3 \/ m = 4 \/ m = 5 \/ m = 6 \/ m = 7 \/ m = 8 \/ m = 9 \/ m = 10 \/ m = 11 \/ m = 12) by lia.
  destruct (leap_year y); repeat (destruct X as [-> |X]; [closed_sums; lia|]); subst m; closed_sums; lia.
Qed.
Lemma before_step y m : 1 <= m < 12 -> before_month y (m + 1) = before_month y m + month_length y m.
Proof.
  unfold before_month, month_length. intros M.
  assert (X : m = 1 \/ m = 2 \/ m = 3 \/ m = 4 \/ m = 5 \/ m = 6 \/ m = 7 \/ m = 8 \/ m = 9 \/ m = 10 \/ m = 11) by lia.
  destruct (leap_year y); repeat (destruct X as [-> |X]; [reflexivity|]); subst m; reflexivity.
Qed.
Lemma before_le y m m' : 1 <= m < m' /\ m' <= 12 -> before_month y m + month_length y m <= before_month y m'.
Proof.
  intros [L U]. replace m' with (m + 1 + Z.of_nat (Z.to_nat (m' - m - 1))) in * by lia. induction (Z.to_nat (m' - m - 1)) as [|k IH]; [rewrite Z.add_0_r, before_step by lia; lia|].
  replace (m + 1 + Z.of_nat (S k)) with (m + 1 + Z.of_nat k + 1) by lia. rewrite before_step by lia. assert (0 <= month_length y (m + 1 + Z.of_nat k)) by (unfold month_length; repeat match goal with |- context [if ?b then _ else _] => destruct b end; lia). lia.
Qed.
Lemma day_number_inj y m d y' m' d' : date y m d -> date y' m' d' -> day_number y m d = day_number y' m' d' -> (y, m, d) = (y', m', d').
Proof.
  intros D D' E. unfold day_number in E. fold (new_year y) (new_year y') in E. pose proof (date_in_year _ _ _ D) as B. pose proof (date_in_year _ _ _ D') as B'.
  assert (y = y') as <-.
  { destruct (Z.lt_trichotomy y y') as [L|[L|L]]; [|exact L|]; exfalso.
    - pose proof (new_year_le (y + 1) y' ltac:(lia)). rewrite year_step in *. lia.
    - pose proof (new_year_le (y' + 1) y ltac:(lia)). rewrite year_step in *. lia. }
  clear B B'. assert (F : before_month y m + d = before_month y m' + d') by lia. clear E.
  destruct D as [M D], D' as [M' D']. assert (m = m') as <-; [|assert (d = d') as <- by lia; reflexivity].
  destruct (Z.lt_trichotomy m m') as [L|[L|L]]; [|exact L|]; exfalso.
  - pose proof (before_le y m m' ltac:(lia)). lia.
  - pose proof (before_le y m' m ltac:(lia)). lia.
Qed.

(** ** Texts *)
Open Scope N_scope.
Lemma base64 a b : b < 64 -> (a * 64 + b) / 64 = a /\ (a * 64 + b) mod 64 = b.
Proof. intros H. split; [rewrite N.div_add_l by lia; rewrite (N.div_small b) by lia; lia|rewrite N.add_comm, N.mod_add by lia; now apply N.mod_small]. Qed.
Lemma utf8_first_encode l c r : utf8_first l = Some (c, r) -> l = utf8_encode1 c ++ r.
Proof.
  intros H. pose proof (utf8_first_len l c r H) as L. revert H. unfold utf8_len1 in L. destruct l as [|b0 l1]; [discriminate|]. cbn [utf8_first]. unfold is_cont, utf8_encode1.
  destruct (b0 <? 128) eqn:E0; [intros [= <- <-]; now rewrite E0|].
  destruct ((194 <=? b0) && (b0 <=? 223)) eqn:E1.
  { destruct l1 as [|b1 l2]; [discriminate|]. destruct ((128 <=? b1) && (b1 <=? 191)) eqn:C1; [|discriminate]. intros [= <- <-].
    rewrite andb_true_iff, !N.leb_le in *. cbn [length] in L.
    destruct (_ <? 128); [lia|]. destruct (_ <? 2048); [|destruct (_ <? 65536); lia].
    destruct (base64 (b0 - 192) (b1 - 128) ltac:(lia)) as [-> ->]. cbn [app]. repeat f_equal; lia. }
  destruct ((224 <=? b0) && (b0 <=? 239)) eqn:E2.
  { destruct l1 as [|b1 [|b2 l3]]; try discriminate.
    destruct (((128 <=? b1) && (b1 <=? 191)) && ((128 <=? b2) && (b2 <=? 191)) && _ && _) eqn:C; [|discriminate]. intros [= <- <-].
    rewrite !andb_true_iff, !orb_true_iff, !negb_true_iff, !N.eqb_neq, !N.leb_le in *. cbn [length] in L. destruct C as (((C1 & C2) & C3) & C4).
    destruct (_ <? 128); [lia|]. destruct (_ <? 2048); [lia|]. destruct (_ <? 65536); [|lia].
    replace ((b0 - 224) * 4096 + (b1 - 128) * 64 + (b2 - 128)) with (((b0 - 224) * 64 + (b1 - 128)) * 64 + (b2 - 128)) by lia.
    change 4096 with (64 * 64). rewrite <- N.div_div by lia. destruct (base64 ((b0 - 224) * 64 + (b1 - 128)) (b2 - 128) ltac:(lia)) as [-> ->].
    destruct (base64 (b0 - 224) (b1 - 128) ltac:(lia)) as [-> ->]. cbn [app]. repeat f_equal; lia. }
  destruct ((240 <=? b0) && (b0 <=? 244)) eqn:E3; [|discriminate].
  destruct l1 as [|b1 [|b2 [|b3 l4]]]; try discriminate.
  destruct (((128 <=? b1) && (b1 <=? 191)) && ((128 <=? b2) && (b2 <=? 191)) && ((128 <=? b3) && (b3 <=? 191)) && _ && _) eqn:C; [|discriminate]. intros [= <- <-].
  rewrite !andb_true_iff, !orb_true_iff, !negb_true_iff, !N.eqb_neq, !N.leb_le in *. cbn [length] in L. destruct C as ((((C1 & C2) & C3) & C4) & C5).
  destruct (_ <? 128); [lia|]. destruct (_ <? 2048); [lia|]. destruct (_ <? 65536); [lia|].
  replace ((b0 - 240) * 262144 + (b1 - 128) * 4096 + (b2 - 128) * 64 + (b3 - 128)) with ((((b0 - 240) * 64 + (b1 - 128)) * 64 + (b2 - 128)) * 64 + (b3 - 128)) by lia.
  change 262144 with (64 * (64 * 64)). change 4096 with (64 * 64). rewrite <- !N.div_div by lia. destruct (base64 (((b0 - 240) * 64 + (b1 - 128)) * 64 + (b2 - 128)) (b3 - 128) ltac:(lia)) as [-> ->].
  destruct (base64 ((b0 - 240) * 64 + (b1 - 128)) (b2 - 128) ltac:(lia)) as [-> ->].
  destruct (base64 (b0 - 240) (b1 - 128) ltac:(lia)) as [-> ->]. cbn [app]. repeat f_equal; lia.
Qed.
Lemma utf8_encode_decode : forall l t, utf8_decode l = Some t -> utf8_encode t = l.
Proof.
  intros l. induction l as [|l Hne IH] using utf8_ind; intros t H; [now injection H as <-|]. rewrite utf8_decode_first in H. destruct l as [|b l]; [congruence|].
  destruct (utf8_first (b :: l)) as [[c r]|] eqn:F; [|discriminate]. destruct (utf8_decode r) as [t'|] eqn:D; [|discriminate]. injection H as <-.
  cbn [utf8_encode flat_map]. fold (utf8_encode t'). rewrite (IH _ _ eq_refl _ D). symmetry. now apply utf8_first_encode.
Qed.
