(** The distances of search_mat and of the reference search against the exact distance. *)
From Coq Require Import List NArith ZArith Arith Bool Reals Lia Lra Psatz Sorting Permutation.
From Flocq Require Import Core IEEE754.BinarySingleNaN IEEE754.Binary IEEE754.Bits.
From Verif Require Import Common IndexModel IndexSpec IndexFloat IndexVec IndexNum IndexWords IndexDist.
Import ListNotations.
Open Scope R_scope.

(** ** The exact product *)
Lemma dot_bound a b : unit_values a -> unit_values b -> NoDup (keys b) -> Rabs (dot_exact a b) <= INR (common a b).
Proof.
  intros Ha Hb Hn. unfold dot_exact, common. induction Ha as [|x a Hx Ha IH]; cbn [map sum fold_right filter length].
  - rewrite Rabs_R0. cbn. lra.
  - fold sum in *. set (rest := sum (map (fun x => val (snd x) * value_opt (lookup (fst x) b)) a)) in *.
    change (fold_right Rplus 0 (map (fun x => val (snd x) * value_opt (lookup (fst x) b)) a)) with rest.
    destruct (lookup (fst x) b) as [y|] eqn:E.
    + apply lookup_some in E; [|exact Hn].
      replace (memb (fst x) (keys b)) with true.
      2:{ symmetry. apply memb_in. change (fst x) with (fst (fst x, y)). now apply in_map. }
      cbn [length value_opt]. rewrite S_INR. eapply Rle_trans; [apply Rabs_triang|].
      unfold unit_values in Hb. rewrite Forall_forall in Hb. specialize (Hb _ E). cbn [snd] in Hb.
      rewrite Rabs_mult, (unit_abs _ Hx), (unit_abs _ Hb). lra.
    + replace (memb (fst x) (keys b)) with false.
      2:{ symmetry. apply lookup_none in E. destruct (memb (fst x) (keys b)) eqn:M; [|reflexivity]. apply memb_in in M. contradiction. }
      cbn [value_opt]. rewrite Rmult_0_r, Rplus_0_l. exact IH.
Qed.
Lemma common_sqrt a b : vec a -> vec b -> INR (common a b) <= sqrt (INR (length a)) * sqrt (INR (length b)).
Proof.
  intros Ha Hb. destruct (sqrt_n _ (vec_n a Ha)) as [H1 H2]. destruct (sqrt_n _ (vec_n b Hb)) as [H3 H4].
  assert (INR (common a b) <= INR (length a)) by (apply le_INR, common_le_l).
  assert (INR (common a b) <= INR (length b)) by (apply le_INR, common_le_r, sorted_nodup, Ha).
  pose proof (pos_INR (common a b)).
  apply Rsqr_incr_0_var; [|nra]. unfold Rsqr.
  replace (sqrt (INR (length a)) * sqrt (INR (length b)) * (sqrt (INR (length a)) * sqrt (INR (length b))))
    with ((sqrt (INR (length a)) * sqrt (INR (length a))) * (sqrt (INR (length b)) * sqrt (INR (length b)))) by ring.
  rewrite H2, H4. apply Rmult_le_compat; lra.
Qed.

(** Both orders give the same sum. *)
Lemma sum_filter {A} (p : A -> bool) (f : A -> R) l : (forall x, In x l -> p x = false -> f x = 0) ->
  sum (map f l) = sum (map f (filter p l)).
Proof.
  intros H. unfold sum. induction l as [|x l IH]; [reflexivity|]. cbn [map filter fold_right].
  rewrite IH by (intros; apply H; [now right|assumption]). destruct (p x) eqn:E; [reflexivity|].
  rewrite (H x (or_introl eq_refl) E). apply Rplus_0_l.
Qed.
Definition keyed (a b : svec) (k : N) : R := value_opt (lookup k a) * value_opt (lookup k b).
Lemma dot_keyed a b : NoDup (keys a) -> dot_exact a b = sum (map (keyed a b) (keys a)).
Proof.
  intros Hn. unfold dot_exact, keys. rewrite map_map. f_equal. apply map_ext_in. intros [k x] Hx. unfold keyed. cbn [fst snd].
  replace (lookup k a) with (Some x); [reflexivity|]. symmetry. now apply lookup_some.
Qed.
Lemma filter_NoDup {A} (p : A -> bool) l : NoDup l -> NoDup (filter p l).
Proof. apply NoDup_filter. Qed.
Lemma dot_sym a b : NoDup (keys a) -> NoDup (keys b) -> dot_exact a b = dot_exact b a.
Proof.
  intros Ha Hb. rewrite !dot_keyed by assumption.
  rewrite (sum_filter (fun k => memb k (keys b)) (keyed a b)), (sum_filter (fun k => memb k (keys a)) (keyed b a)).
  - rewrite (map_ext (keyed b a) (keyed a b)) by (intros; unfold keyed; ring).
    apply sum_perm, Permutation_map. apply NoDup_Permutation; try (now apply NoDup_filter).
    intros k. rewrite !filter_In, !memb_in. tauto.
  - intros k _ E. unfold keyed. replace (lookup k a) with (@None F); [cbn; ring|].
    symmetry. apply lookup_none. intros K. apply memb_in in K. congruence.
  - intros k _ E. unfold keyed. replace (lookup k b) with (@None F); [cbn; ring|].
    symmetry. apply lookup_none. intros K. apply memb_in in K. congruence.
Qed.

Section Hash.
Variable hash : bytes -> N.
Notation vectorize := (vectorize hash).
Notation cosine := (cosine hash).

Lemma cosine_vec la lb : cosine (split_sp la) (split_sp lb) =
  dot_exact (vectorize la) (vectorize lb) * / (sqrt (INR (length (vectorize la))) * sqrt (INR (length (vectorize lb)))).
Proof. unfold IndexSpec.cosine. rewrite dot_cosine, !buckets_length. reflexivity. Qed.
Lemma vec_nodup l : NoDup (keys (vectorize l)).
Proof. apply sorted_nodup, vectorize_vec. Qed.
Lemma cosine_sym la lb : cosine (split_sp la) (split_sp lb) = cosine (split_sp lb) (split_sp la).
Proof.
  rewrite !cosine_vec. rewrite (dot_sym (vectorize la)) by apply vec_nodup.
  rewrite (Rmult_comm (sqrt (INR (length (vectorize la))))). reflexivity.
Qed.
Lemma cosine_bound la lb : Rabs (cosine (split_sp la) (split_sp lb)) <= 1.
Proof.
  rewrite cosine_vec. pose proof (vectorize_vec hash la) as Ha. pose proof (vectorize_vec hash lb) as Hb.
  pose proof (dot_bound (vectorize la) (vectorize lb) ltac:(apply Ha) ltac:(apply Hb) (vec_nodup lb)) as H1.
  pose proof (common_sqrt _ _ Ha Hb) as H2.
  destruct (sqrt_n _ (vec_n _ Ha)) as [H3 _]. destruct (sqrt_n _ (vec_n _ Hb)) as [H4 _].
  set (s := sqrt (INR (length (vectorize la))) * sqrt (INR (length (vectorize lb)))) in *.
  assert (Hs : 1 <= s) by (unfold s; nra).
  rewrite Rabs_mult, (Rabs_pos_eq (/ s)) by (left; apply Rinv_0_lt_compat; lra).
  apply Rle_trans with (s * / s); [apply Rmult_le_compat_r; [left; apply Rinv_0_lt_compat; lra|lra]|].
  rewrite Rinv_r; lra.
Qed.
Lemma sum_ones (A : Type) (f : A -> R) l : (forall x, In x l -> f x = 1) -> sum (map f l) = INR (length l).
Proof.
  intros H. induction l as [|x l IH]; [reflexivity|]. cbn [map length]. rewrite S_INR. unfold sum in *. cbn [fold_right].
  rewrite IH by (intros; apply H; now right). rewrite (H x (or_introl eq_refl)). ring.
Qed.
Lemma dot_self v : vec v -> dot_exact v v = INR (length v).
Proof.
  intros (Hs & _ & Hu & _). unfold dot_exact. apply sum_ones. intros [k x] Hx. cbn [fst snd].
  replace (lookup k v) with (Some x) by (symmetry; apply lookup_some; [now apply sorted_nodup|exact Hx]).
  unfold unit_values in Hu. rewrite Forall_forall in Hu. destruct (unit_val _ (Hu _ Hx)) as [E|E]; cbn [snd] in E; cbn [value_opt]; rewrite E; ring.
Qed.
Lemma cosine_self l : cosine (split_sp l) (split_sp l) = 1.
Proof.
  pose proof (vectorize_vec hash l) as Hv. rewrite cosine_vec, (dot_self _ Hv). destruct (sqrt_n _ (vec_n _ Hv)) as [H1 H2].
  rewrite H2. apply Rinv_r. pose proof (vec_n _ Hv). lra.
Qed.

(** ** The matrix search *)
Section Fused.
Variable fused : bool.
Lemma product_err a b : vec a -> vec b ->
  Rabs (val (accv (product fused (normalise a) (normalise b))) -
        dot_exact a b * / (sqrt (INR (length a)) * sqrt (INR (length b)))) <= 8 * u + 1.03 * u * INR (common a b).
Proof.
  intros Ha Hb. pose proof u_pos as Hu. pose proof (normalise_row a Ha) as Ra. pose proof (normalise_row b Hb) as Rb.
  pose proof (vec_n a Ha) as Hna. pose proof (common_sqrt a b Ha Hb) as Hc.
  pose proof (fold_err fused b (length a) Hb Hna a (normalise a) 0 None 0 (normalise_ok a Ha) ltac:(apply Ha) I) as K.
  cbn zeta in K. cbn [Nat.add] in K. rewrite Rplus_0_l in K.
  set (s := sqrt (INR (length a)) * sqrt (INR (length b))) in *.
  assert (Hs : 1 <= s).
  { unfold s. destruct (sqrt_n _ Hna) as [H3 _]. destruct (sqrt_n _ (vec_n b Hb)) as [H4 _]. nra. }
  assert (Hi : 0 < / s) by (apply Rinv_0_lt_compat; lra).
  eapply Rle_trans.
  - apply K.
    + cbn [accv INR]. rewrite val_zero, !Rmult_0_l, Rminus_diag_eq, Rabs_R0 by reflexivity. lra.
    + intros a1 a2 E. cbn zeta. destruct Ra as (R1 & R2 & R3 & R4).
      apply (prefix_upper fused a1 (normalise b) (length a) (length b) Rb Hna).
      * rewrite E in R4. apply Forall_app in R4. apply R4.
      * rewrite E in R1. unfold keys in *. rewrite map_app in R1. clear - R1.
        induction (map fst a1) as [|y l IH]; [constructor|]. cbn in R1. inversion R1; subst. constructor; [|auto].
        intros Hy. apply H1. apply in_or_app. now left.
      * rewrite <- R2, E, app_length. lia.
  - assert (INR (common a b) * / s <= 1).
    { apply Rle_trans with (s * / s); [apply Rmult_le_compat_r; lra|]. rewrite Rinv_r; lra. }
    replace (INR (common a b) * (8 * u * / s + 1.03 * u)) with (8 * u * (INR (common a b) * / s) + 1.03 * u * INR (common a b)) by ring.
    apply Rplus_le_compat_r. rewrite <- (Rmult_1_r (8 * u)) at 2. apply Rmult_le_compat_l; lra.
Qed.

Definition eps (n : nat) : R := (INR n + 10) * / 8388608.
Lemma dv_err lb l : Rabs (dv fused (normalise (vectorize lb)) (normalise (vectorize l)) - (1 - cosine (split_sp l) (split_sp lb)))
  <= eps (length (vectorize l)).
Proof.
  rewrite cosine_sym, cosine_vec. pose proof (vectorize_vec hash lb) as Hb. pose proof (vectorize_vec hash l) as Ht.
  set (b := vectorize lb) in *. set (t := vectorize l) in *. pose proof (product_err b t Hb Ht) as K.
  destruct (product_upper fused _ _ _ _ (normalise_row b Hb) (normalise_row t Ht)) as [_ H2].
  set (c := dot_exact b t * / (sqrt (INR (length b)) * sqrt (INR (length t)))) in *.
  assert (E : dv fused (normalise b) (normalise t) = rnd (1 - val (accv (product fused (normalise b) (normalise t))))).
  { unfold dv. destruct (product fused _ _); [reflexivity|]. cbn [accv]. rewrite val_zero, Rminus_0_r. symmetry. apply rnd_1. }
  rewrite E. set (v := val (accv _)) in *.
  assert (Hm : INR (common b t) <= INR (length t)) by (apply le_INR, common_le_r, sorted_nodup, Hb).
  pose proof (rnd_abs_err (1 - v)) as He. apply Rabs_le_inv in H2.
  assert (Rabs (1 - v) <= 2.016) by (apply Rabs_le; lra).
  assert (u * Rabs (1 - v) <= u * 2.016) by (apply Rmult_le_compat_l; [pose proof u_pos; lra|lra]).
  replace (rnd (1 - v) - (1 - c)) with ((rnd (1 - v) - (1 - v)) + - (v - c)) by ring.
  eapply Rle_trans; [apply Rabs_triang|]. rewrite Rabs_Ropp. unfold eps. pose proof small_pos. pose proof (pos_INR (length t)).
  pose proof (pos_INR (common b t)). unfold u in *. lra.
Qed.

Lemma Rmin_close a a' m m' e : Rabs (a - (1 - a')) <= e -> Rabs (m - (1 - m')) <= e -> Rabs (Rmin a m - (1 - Rmax a' m')) <= e.
Proof.
  intros H1 H2. apply Rabs_le_inv in H1. apply Rabs_le_inv in H2. apply Rabs_le.
  unfold Rmin, Rmax. destruct (Rle_dec a m), (Rle_dec a' m'); lra.
Qed.
Lemma vdist_err lines l :
  Rabs (vdist fused (index_mat hash lines) (normalise (vectorize l)) - exact_distance hash (map split_sp lines) (split_sp l))
  <= eps (length (vectorize l)).
Proof.
  unfold exact_distance, index_mat, create_mat. rewrite map_map. induction lines as [|b lines IH]; cbn [map vdist fold_right].
  - replace (1 - (1 - 0)) with 0 by ring. rewrite Rabs_R0. unfold eps. pose proof (pos_INR (length (vectorize l))). lra.
  - apply Rmin_close; [apply dv_err|exact IH].
Qed.
Lemma exact_range lines l : 0 <= exact_distance hash (map split_sp lines) (split_sp l) <= 1.
Proof.
  unfold exact_distance. assert (H : 0 <= fold_right (fun b m => Rmax (cosine (split_sp l) b) m) 0 (map split_sp lines) <= 1).
  { induction lines as [|b lines IH]; cbn [map fold_right]; [lra|]. pose proof (cosine_bound l b) as Hc. apply Rabs_le_inv in Hc.
    split; [eapply Rle_trans; [|apply Rmax_r]; lra|]. apply Rmax_lub; lra. }
  lra.
Qed.
Lemma index_rows_ok lines : rows_ok (index_mat hash lines).
Proof.
  unfold rows_ok, index_mat, create_mat. rewrite map_map. apply Forall_forall. intros r Hr. apply in_map_iff in Hr.
  destruct Hr as (l & <- & _). exists (length (vectorize l)). apply normalise_row, vectorize_vec.
Qed.

(** ** The reference search *)
Definition int_val (o : option F) (z : Z) : Prop := fin (accv o) /\ val (accv o) = IZR z.
Lemma unit_int x : x = f_one \/ x = f_minus_one -> fin x /\ (val x = IZR 1 \/ val x = IZR (-1)).
Proof. intros [-> | ->]; (split; [reflexivity|]); [left; apply val_one|right; apply val_minus_one]. Qed.
Lemma big_Z z : (Z.abs z < 2 ^ 24)%Z -> Rabs (IZR z) <= bpow radix2 100.
Proof.
  intros H. apply big_bound. rewrite <- abs_IZR. apply IZR_le. change (2 ^ 24)%Z with 16777216%Z in H. lia.
Qed.
Lemma mul_acc_int x y acc z s : fin x -> fin y -> fin acc -> val x * val y = IZR s -> val acc = IZR z ->
  (Z.abs s <= 1)%Z -> (Z.abs z < 300000)%Z -> fin (mul_acc fused x y acc) /\ val (mul_acc fused x y acc) = IZR (s + z).
Proof.
  intros Hx Hy Ha Hs Hz Bs Bz. unfold mul_acc. assert (B : (Z.abs (s + z) < 2 ^ 24)%Z) by lia.
  assert (B1 : (Z.abs s < 2 ^ 24)%Z) by lia. destruct fused.
  - destruct (ffma_ok x y acc Hx Hy Ha) as [H1 H2].
    { rewrite Hs, Hz, <- plus_IZR. now apply big_Z. }
    split; [exact H1|]. rewrite H2, Hs, Hz, <- plus_IZR. now apply rnd_Z.
  - destruct (fmul_ok x y Hx Hy) as [H1 H2]; [rewrite Hs; now apply big_Z|].
    rewrite Hs, rnd_Z in H2 by assumption.
    destruct (fadd_ok _ acc H1 Ha) as [H3 H4].
    { rewrite H2, Hz, <- plus_IZR. now apply big_Z. }
    split; [exact H3|]. rewrite H4, H2, Hz, <- plus_IZR. now apply rnd_Z.
Qed.
Lemma fold_int b : unit_values b -> NoDup (keys b) -> forall a o z, unit_values a ->
  fin (accv o) -> val (accv o) = IZR z -> (Z.abs z + Z.of_nat (length a) <= 260000)%Z ->
  exists z', fin (accv (fold_left (product_step fused b) a o)) /\ val (accv (fold_left (product_step fused b) a o)) = IZR z' /\
    IZR z' = IZR z + dot_exact a b.
Proof.
  intros Hb Hn a o z Ha. revert o z. induction Ha as [|x a Hx Ha IH]; intros o z Ho Hz Hl; cbn [fold_left].
  - exists z. unfold dot_exact. cbn. rewrite Rplus_0_r. auto.
  - unfold dot_exact. cbn [map sum fold_right length] in *.
    change (fold_right Rplus 0 (map (fun x => val (snd x) * value_opt (lookup (fst x) b)) a)) with (dot_exact a b).
    unfold product_step at 2 4. destruct (lookup (fst x) b) as [y|] eqn:E.
    + apply lookup_some in E; [|exact Hn]. unfold unit_values in Hb. rewrite Forall_forall in Hb. specialize (Hb _ E). cbn [snd] in Hb.
      destruct (unit_int _ Hx) as [Fx Vx]. destruct (unit_int _ Hb) as [Fy Vy].
      assert (Hs : exists s, val (snd x) * val y = IZR s /\ (Z.abs s <= 1)%Z).
      { destruct Vx as [-> | ->], Vy as [-> | ->]; rewrite <- mult_IZR; eexists; (split; [reflexivity|]); cbn; lia. }
      destruct Hs as (s & Es & Bs). change (match o with Some v => v | None => f_zero end) with (accv o).
      destruct (mul_acc_int (snd x) y (accv o) z s Fx Fy Ho Es Hz Bs) as [M1 M2]; [lia|].
      destruct (IH (Some (mul_acc fused (snd x) y (accv o))) (s + z)%Z M1 M2) as (z' & K1 & K2 & K3); [lia|].
      exists z'. split; [exact K1|]. split; [exact K2|]. rewrite K3, plus_IZR. cbn [value_opt]. rewrite Es. ring.
    + cbn [value_opt]. destruct (IH o z Ho Hz) as (z' & K1 & K2 & K3); [lia|]. exists z'. split; [exact K1|]. split; [exact K2|].
      rewrite K3. ring.
Qed.
Lemma dot_ok a b : vec a -> vec b ->
  exists z, fin (dot fused a b) /\ val (dot fused a b) = IZR z /\ IZR z = dot_exact a b.
Proof.
  intros Ha Hb. pose proof (vec_length _ Ha) as Hl.
  destruct (fold_int b ltac:(apply Hb) ltac:(apply sorted_nodup, Hb) a None 0%Z) as (z & H1 & H2 & H3).
  - apply Ha.
  - exact fin_zero.
  - exact val_zero.
  - unfold SIZE in Hl. lia.
  - exists z. rewrite Rplus_0_l in H3. unfold dot, product. 
    change (match fold_left (product_step fused b) a None with Some v => v | None => f_zero end) with
      (accv (fold_left (product_step fused b) a None)). auto.
Qed.
Lemma dot_self_ok v : vec v -> fin (dot fused v v) /\ val (dot fused v v) = INR (length v).
Proof.
  intros Hv. destruct (dot_ok v v Hv Hv) as (z & H1 & H2 & H3). split; [exact H1|]. rewrite H2, H3. now apply dot_self.
Qed.

(** The square root of a rounded square is the number again. *)
Lemma mag_int n : 1 <= INR n <= maxn -> exists e, bpow radix2 (e - 1) <= INR n < bpow radix2 e /\ INR n + 1 <= bpow radix2 e /\
  mag radix2 (INR n) = e :> Z /\ (1 <= e <= 18)%Z.
Proof.
  intros H. unfold maxn in H. destruct (mag radix2 (INR n)) as [e He]. cbn. specialize (He ltac:(lra)).
  rewrite Rabs_pos_eq in He by lra. exists e.
  assert (B : (1 <= e <= 18)%Z).
  { split.
    - destruct (Z_lt_le_dec 0 e); [lia|]. exfalso. assert (bpow radix2 e <= bpow radix2 0) by (apply bpow_le; lia). cbn in H0. lra.
    - destruct (Z_lt_le_dec 18 e); [|lia]. exfalso. assert (bpow radix2 18 <= bpow radix2 (e - 1)) by (apply bpow_le; lia). cbn in H0. lra. }
  split; [exact He|]. split; [|auto].
  destruct He as [_ He]. rewrite INR_IZR_INZ in *. rewrite <- (IZR_Zpower radix2 e) in He |- * by lia. apply lt_IZR in He.
  rewrite <- plus_IZR. apply IZR_le. lia.
Qed.
Lemma ulp_int n e : 1 <= INR n -> mag radix2 (INR n) = e :> Z -> (1 <= e <= 18)%Z -> ulp radix2 fexp32 (INR n) = bpow radix2 e * u.
Proof.
  intros H1 He Hb. rewrite ulp_neq_0 by lra. unfold cexp. rewrite He. unfold fexp32, FLT_exp. rewrite Z.max_l by lia.
  replace (e - 24)%Z with (e + (-24))%Z by lia. rewrite bpow_plus. unfold u. reflexivity.
Qed.
Lemma fmt_n n : INR n <= maxn -> generic_format radix2 fexp32 (INR n).
Proof.
  intros H. rewrite INR_IZR_INZ in *. apply fmt_Z. unfold maxn in H. apply le_IZR in H. change (2^24)%Z with 16777216%Z. lia.
Qed.
Lemma sq_rel n : 1 <= INR n <= maxn -> INR n * INR n * (1 - u) <= rnd (INR n * INR n) <= INR n * INR n * (1 + u).
Proof. intros H. apply rel_bounds. pose proof small_pos. nra. Qed.
Lemma sqrt_sq_up n : 1 <= INR n <= maxn -> rnd (sqrt (rnd (INR n * INR n))) <= INR n.
Proof.
  intros H. pose proof u_pos as Hu. destruct (mag_int n H) as (e & He & _ & Hm & Hb). destruct (sq_rel n H) as [H1 H2].
  unfold rnd at 1. apply round_N_le_midp; [auto with typeclass_instances|apply fmt_n; apply H|].
  rewrite succ_eq_pos by lra. rewrite (ulp_int n e) by (try assumption; lra).
  apply Rle_lt_trans with (INR n * (1 + u / 2)).
  - rewrite <- (sqrt_square (INR n * (1 + u / 2))) by nra. apply sqrt_le_1; [nra|nra|].
    eapply Rle_trans; [exact H2|]. nra.
  - nra.
Qed.
Lemma sqrt_sq_down n : 1 <= INR n <= maxn -> INR n <= rnd (sqrt (rnd (INR n * INR n))).
Proof.
  intros H. pose proof u_pos as Hu. destruct (mag_int n H) as (e & He & He1 & Hm & Hb). destruct (sq_rel n H) as [H1 H2].
  destruct (Req_dec (INR n) (bpow radix2 (e - 1))) as [Ep|Ep].
  - (* a power of two: everything is exact *)
    assert (F1 : rnd (INR n * INR n) = INR n * INR n).
    { apply rnd_fmt. rewrite Ep, <- bpow_plus. apply generic_format_bpow. unfold fexp32, FLT_exp. lia. }
    rewrite F1, sqrt_square by lra. rewrite rnd_fmt; [lra|]. apply fmt_n, H.
  - unfold rnd at 1. apply round_N_ge_midp; [auto with typeclass_instances|apply fmt_n; apply H|].
    rewrite pred_eq_pos by lra. unfold pred_pos. rewrite Hm. rewrite Req_bool_false by assumption.
    rewrite (ulp_int n e) by (try assumption; lra).
    apply Rlt_le_trans with (INR n * (1 - u / 2 - u * u)).
    + unfold maxn in H. unfold u in *. nra.
    + rewrite <- (sqrt_square (INR n * (1 - u / 2 - u * u))) by (apply Rmult_le_pos; nra). apply sqrt_le_1; [nra|nra|].
      eapply Rle_trans; [|exact H1].
      replace (INR n * (1 - u / 2 - u * u) * (INR n * (1 - u / 2 - u * u))) with (INR n * INR n * ((1 - u / 2 - u * u) * (1 - u / 2 - u * u))) by ring.
      apply Rmult_le_compat_l; [nra|]. unfold u. lra.
Qed.
Lemma sqrt_sq n : 1 <= INR n <= maxn -> rnd (sqrt (rnd (INR n * INR n))) = INR n.
Proof. intros H. apply Rle_antisym; [now apply sqrt_sq_up|now apply sqrt_sq_down]. Qed.
End Fused.
End Hash.
