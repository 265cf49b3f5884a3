(** Distances: pointwise search, values, and the rounding error against the exact cosine. *)
From Coq Require Import List NArith ZArith Arith Bool Reals Lia Lra Psatz Sorting Permutation.
From Flocq Require Import Core IEEE754.BinarySingleNaN IEEE754.Binary IEEE754.Bits.
From Verif Require Import Common IndexModel IndexSpec IndexFloat IndexVec IndexNum IndexWords.
Import ListNotations.
Open Scope R_scope.

(** ** One target at a time *)
Section Fused.
Variable fused : bool.
Notation product_step := (product_step fused).
Notation product := (product fused).
Notation closer := (closer fused).

Definition tdist (rows : matrix) (t : svec) : F := fold_left (fun d row => closer row t d) rows f_one.

Lemma row_step_map targets g row :
  row_step fused targets (map g targets) row = map (fun t => closer row t (g t)) targets.
Proof.
  unfold row_step. induction targets as [|t ts IH]; [reflexivity|]. cbn [map combine fst snd]. now rewrite IH.
Qed.
Lemma rows_map targets rows : forall g,
  fold_left (row_step fused targets) rows (map g targets) =
  map (fun t => fold_left (fun d row => closer row t d) rows (g t)) targets.
Proof.
  induction rows as [|row rows IH]; intros g; cbn [fold_left]; [reflexivity|]. rewrite row_step_map.
  rewrite (IH (fun t => closer row t (g t))). reflexivity.
Qed.
Lemma chunks_concat targets baselines : forall r,
  fold_left (fun result baseline => fold_left (row_step fused targets) baseline result) baselines r =
  fold_left (row_step fused targets) (concat baselines) r.
Proof.
  induction baselines as [|b bs IH]; intros r; cbn [fold_left concat]; [reflexivity|].
  rewrite fold_left_app. apply IH.
Qed.
Lemma cosine_distance_map rows targets : cosine_distance fused rows targets = map (tdist rows) targets.
Proof. unfold cosine_distance. apply rows_map. Qed.
Lemma cosine_distance_chunk_map bs targets : cosine_distance_chunk fused bs targets = map (tdist (concat bs)) targets.
Proof. unfold cosine_distance_chunk. rewrite chunks_concat. apply rows_map. Qed.

(** ** Values *)
Definition dv (a t : svec) : R := match product a t with Some v => rnd (1 - val v) | None => 1 end.
Definition vdist (rows : matrix) (t : svec) : R := fold_right (fun r m => Rmin (dv r t) m) 1 rows.
Definition plain (d : F) : Prop := fin d /\ (val d = 0 -> Bsign 24 128 d = false).
Definition rows_ok (rows : matrix) : Prop := Forall (fun r => exists n, row r n) rows.

Lemma plain_one : plain f_one.
Proof. split; [exact fin_one|]. reflexivity. Qed.
Lemma sub_ok v : fin v -> Rabs (val v) <= 1.016 -> plain (fsub f_one v) /\ val (fsub f_one v) = rnd (1 - val v).
Proof.
  intros Hv H. destruct (fsub_ok f_one v fin_one Hv) as (H1 & H2 & H3).
  { rewrite val_one. apply big_bound. apply Rabs_le. apply Rabs_le_inv in H. lra. }
  rewrite val_one in H2. split; [|exact H2]. split; [exact H1|]. intros K. now apply H3.
Qed.
Lemma rnd_1 : rnd 1 = 1. Proof. apply (rnd_Z 1). reflexivity. Qed.
Lemma dv_bounds a b na nb : row a na -> row b nb -> -0.02 <= dv a b <= 2.02.
Proof.
  intros Ha Hb. unfold dv. destruct (product_upper fused a b na nb Ha Hb) as [H1 H2].
  destruct (product a b) as [v|]; [|lra]. cbn [accv] in H2. apply Rabs_le_inv in H2.
  pose proof (rnd_abs_err (1 - val v)) as He. apply Rabs_le_inv in He.
  assert (Rabs (1 - val v) <= 2.016) by (apply Rabs_le; lra). pose proof u_pos. pose proof small_pos.
  assert (u * Rabs (1 - val v) <= 0.001) by nra. lra.
Qed.
Lemma closer_ok a b na nb d : row a na -> row b nb -> plain d -> val d <= 1 ->
  plain (closer a b d) /\ val (closer a b d) = Rmin (val d) (dv a b) /\ val (closer a b d) <= 1.
Proof.
  intros Ha Hb Hd H1. destruct (product_upper fused a b na nb Ha Hb) as [K1 K2]. unfold IndexModel.closer, dv.
  destruct (product a b) as [v|].
  - cbn [accv fin_opt32] in *. destruct (sub_ok v K1 K2) as [S1 S2].
    destruct (fmin_ok (fsub f_one v) d (proj1 S1) (proj1 Hd)) as (M1 & M2 & M3).
    split; [destruct M3 as [-> | ->]; assumption|]. rewrite M2, S2. split; [apply Rmin_comm|].
    eapply Rle_trans; [apply Rmin_r|exact H1].
  - split; [exact Hd|]. split; [rewrite Rmin_left; lra|exact H1].
Qed.
Lemma tdist_gen rows t n : row t n -> rows_ok rows -> forall d, plain d -> val d <= 1 ->
  let r := fold_left (fun d row => closer row t d) rows d in
  plain r /\ val r = Rmin (val d) (vdist rows t).
Proof.
  intros Ht. induction 1 as [|a rows (na & Ha) Hr IH]; intros d Hd H1; cbn [fold_left].
  - split; [exact Hd|]. cbn [vdist fold_right]. rewrite Rmin_left; lra.
  - destruct (closer_ok a t na n d Ha Ht Hd H1) as (K1 & K2 & K3). destruct (IH _ K1 K3) as [K4 K5].
    split; [exact K4|]. rewrite K5, K2. cbn [vdist fold_right]. fold (vdist rows t). now rewrite Rmin_assoc.
Qed.
Lemma vdist_le1 rows t : vdist rows t <= 1.
Proof.
  induction rows as [|r rows IH]; cbn [vdist fold_right]; [lra|]. eapply Rle_trans; [apply Rmin_r|exact IH].
Qed.
Lemma tdist_ok rows t n : row t n -> rows_ok rows -> plain (tdist rows t) /\ val (tdist rows t) = vdist rows t.
Proof.
  intros Ht Hr. destruct (tdist_gen rows t n Ht Hr f_one plain_one) as [H1 H2]; [rewrite val_one; lra|].
  split; [exact H1|]. unfold tdist. rewrite H2, val_one. apply Rmin_right, vdist_le1.
Qed.
Lemma vdist_le rows t r : In r rows -> vdist rows t <= dv r t.
Proof.
  induction rows as [|r' rows IH]; intros H; [destruct H|]. cbn [vdist fold_right].
  destruct H as [->|H]; [apply Rmin_l|]. eapply Rle_trans; [apply Rmin_r|]. now apply IH.
Qed.
Lemma vdist_ge rows t x : x <= 1 -> (forall r, In r rows -> x <= dv r t) -> x <= vdist rows t.
Proof.
  intros Hx. induction rows as [|r' rows IH]; intros H; cbn [vdist fold_right]; [exact Hx|].
  apply Rmin_glb; [apply H; now left|]. apply IH. intros r Hr. apply H. now right.
Qed.
Lemma vdist_incl rows rows' t : incl rows rows' -> vdist rows' t <= vdist rows t.
Proof.
  intros H. apply vdist_ge; [apply vdist_le1|]. intros r Hr. apply vdist_le, H, Hr.
Qed.
Lemma plain_inj x y : plain x -> plain y -> val x = val y -> x = y.
Proof. intros [H1 H2] [H3 H4] H. apply same_value; auto. Qed.
Lemma tdist_same rows rows' t n : row t n -> rows_ok rows -> rows_ok rows' -> (forall r, In r rows <-> In r rows') ->
  tdist rows t = tdist rows' t.
Proof.
  intros Ht H1 H2 H. destruct (tdist_ok rows t n Ht H1) as [P1 V1]. destruct (tdist_ok rows' t n Ht H2) as [P2 V2].
  apply plain_inj; auto. rewrite V1, V2. apply Rle_antisym; apply vdist_incl; intros r Hr; now apply H.
Qed.

Lemma product_none a t : (forall k, In k (keys a) -> ~ In k (keys t)) -> product a t = None.
Proof.
  intros H. unfold IndexModel.product. assert (K : forall l o, incl l a -> fold_left (product_step t) l o = o).
  { induction l as [|x l IH]; intros o Hi; [reflexivity|]. cbn [fold_left]. unfold product_step at 2.
    replace (lookup (fst x) t) with (@None F).
    - apply IH. intros y Hy. apply Hi. now right.
    - symmetry. apply lookup_none. apply H. apply in_map, Hi. now left. }
  apply K. apply incl_refl.
Qed.
Lemma tdist_none rows t : (forall r, In r rows -> forall k, In k (keys r) -> ~ In k (keys t)) -> tdist rows t = f_one.
Proof.
  intros H. unfold tdist. generalize f_one as d. induction rows as [|r rows IH]; intros d; [reflexivity|]. cbn [fold_left].
  unfold IndexModel.closer at 2. rewrite product_none; [|apply H; now left]. apply IH. intros r' Hr. apply H. now right.
Qed.

(** ** Error against the exact product *)
Lemma Some_inj {A} (x y : A) : Some x = Some y -> x = y.
Proof. congruence. Qed.
Lemma lookup_normalise k b : lookup k (normalise b) = option_map (fun x => fdiv x (l2_norm b)) (lookup k b).
Proof.
  unfold normalise. generalize (l2_norm b) as m. intros m.
  induction b as [|[k' x] b IH]; [reflexivity|]. cbn [map lookup fst snd]. destruct (k' =? k)%N; [reflexivity|exact IH].
Qed.
Lemma lookup_normalise_ok k b x : vec b -> lookup k b = Some x ->
  exists y, lookup k (normalise b) = Some y /\ fin y /\ val y = val x * inv (length b).
Proof.
  intros Hb E. rewrite lookup_normalise, E. cbn [option_map]. exists (fdiv x (l2_norm b)). split; [reflexivity|].
  pose proof (normalise_ok b Hb) as K. destruct Hb as (Hs & _). apply lookup_some in E; [|now apply sorted_nodup].
  apply In_nth_error in E. destruct E as (i & Ei).
  assert (G : forall l l', Forall2 (same_row (length b)) l l' -> forall i z, nth_error l i = Some z ->
     exists z', nth_error l' i = Some z' /\ same_row (length b) z z').
  { clear. induction 1 as [|z z' l l' Hz Hl IH]; intros [|i] w Hw; try discriminate.
    - injection Hw as <-. exists z'. auto.
    - apply IH, Hw. }
  destruct (G _ _ K i _ Ei) as (z' & Hz & _ & H2 & H3). cbn [fst snd] in *.
  unfold normalise in Hz.
  pose proof (map_nth_error (fun x : N * F => (fst x, fdiv (snd x) (l2_norm b))) i b Ei) as Hz2.
  assert (E : z' = (k, fdiv x (l2_norm b))) by (apply Some_inj; exact (eq_trans (eq_sym Hz) Hz2)).
  subst z'. cbn [snd] in *. auto.
Qed.

Lemma unit_val x : x = f_one \/ x = f_minus_one -> val x = 1 \/ val x = -1.
Proof. intros [-> | ->]; [left; apply val_one|right; apply val_minus_one]. Qed.

Lemma fold_err b na : vec b -> 1 <= INR na <= maxn ->
  let e0 := / (sqrt (INR na) * sqrt (INR (length b))) in
  forall a a' k o S, Forall2 (same_row na) a a' -> unit_values a ->
  fin_opt32 o -> Rabs (val (accv o) - S * e0) <= INR k * (8 * u * e0 + 1.03 * u) ->
  (forall a1 a2, a' = a1 ++ a2 -> let o' := fold_left (product_step (normalise b)) a1 o in
     fin_opt32 o' /\ Rabs (val (accv o')) <= 1.016) ->
  Rabs (val (accv (fold_left (product_step (normalise b)) a' o)) - (S + dot_exact a b) * e0) <=
  INR (k + common a b) * (8 * u * e0 + 1.03 * u).
Proof.
  intros Hb Hna e0. pose proof u_pos as Hu. pose proof (vec_n b Hb) as Hnb.
  destruct (sqrt_n na Hna) as [Hs1 Hs2]. destruct (sqrt_n _ Hnb) as [Hs3 Hs4].
  pose proof (inv_bounds na Hna) as Hi1. pose proof (inv_bounds _ Hnb) as Hi2.
  pose proof (inv_pos na Hna) as Hp1. pose proof (inv_pos _ Hnb) as Hp2.
  set (sa := sqrt (INR na)) in *. set (sb := sqrt (INR (length b))) in *. set (ia := inv na) in *. set (ib := inv (length b)) in *.
  assert (Hss : 1 <= sa * sb) by nra.
  assert (He0 : 0 < e0 <= 1).
  { unfold e0. split; [apply Rinv_0_lt_compat; lra|]. rewrite <- Rinv_1. apply Rinv_le; lra. }
  assert (Ess : sa * sb * e0 = 1) by (unfold e0; apply Rinv_r; lra).
  (* the product of two normalised values *)
  assert (Hpp : Rabs (ia * ib - e0) <= 6.5 * u * e0).
  { replace (ia * ib - e0) with (((ia * sa) * (ib * sb) - 1) * e0).
    - rewrite Rabs_mult, (Rabs_pos_eq e0) by lra. apply Rmult_le_compat_r; [lra|]. apply Rabs_le.
      set (x := ia * sa) in *. set (y := ib * sb) in *. unfold u in *. split; nra.
    - replace ((ia * sa * (ib * sb) - 1) * e0) with (ia * ib * (sa * sb * e0) - e0) by ring. rewrite Ess. ring. }
  intros a a' k o S HF Hun. revert k o S. induction HF as [|x x' a a' (Hk & Hx1 & Hx2) HF IH]; intros k o S Ho He Hall; cbn [fold_left].
  - unfold dot_exact. cbn [map sum fold_right]. change (common [] b) with 0%nat. rewrite Nat.add_0_r, Rplus_0_r. exact He.
  - inversion Hun as [|? ? Hux Hun']; subst x0 l. specialize (IH Hun').
    pose proof (Hall [x'] a' eq_refl) as Hone. pose proof (Hall [] (x' :: a') eq_refl) as Hnil.
    cbn zeta in Hone, Hnil. cbn [fold_left] in Hone, Hnil.
    assert (Hall' : forall a1 a2, a' = a1 ++ a2 ->
       let o' := fold_left (product_step (normalise b)) a1 (product_step (normalise b) o x') in
       fin_opt32 o' /\ Rabs (val (accv o')) <= 1.016).
    { intros a1 a2 E. exact (Hall (x' :: a1) a2 ltac:(now rewrite E)). }
    unfold dot_exact, common in *. cbn [map sum fold_right filter] in *. fold sum in *.
    set (rest := sum (map (fun x => val (snd x) * value_opt (lookup (fst x) b)) a)) in *.
    change (fold_right Rplus 0 (map (fun x => val (snd x) * value_opt (lookup (fst x) b)) a)) with rest.
    rewrite <- Rplus_assoc.
    unfold product_step at 2. unfold product_step at 2 in IH. rewrite Hk in *.
    destruct (lookup (fst x) b) as [y|] eqn:El.
    + destruct (lookup_normalise_ok _ _ _ Hb El) as (y' & Ey & Hy1 & Hy2).
      assert (Hin : In (fst x, y) b) by (apply lookup_some; [apply sorted_nodup, Hb|exact El]).
      assert (Em : memb (fst x) (keys b) = true).
      { apply memb_in. change (fst x) with (fst (fst x, y)). now apply in_map. }
      rewrite Em, Ey. cbn [length value_opt]. rewrite Nat.add_succ_r, <- Nat.add_succ_l.
      assert (Huy : y = f_one \/ y = f_minus_one).
      { destruct Hb as (_ & _ & Hbu & _). unfold unit_values in Hbu. rewrite Forall_forall in Hbu. apply (Hbu _ Hin). }
      unfold product_step in Hone. rewrite Hk, Ey in Hone. cbn [accv fin_opt32] in Hone.
      change (match o with Some v => v | None => f_zero end) with (accv o) in *.
      assert (Hacc : fin (accv o)) by (destruct o; [exact Ho|exact fin_zero]).
      assert (Hxy : val (snd x') * val y' = (val (snd x) * val y) * (ia * ib)) by (rewrite Hx2, Hy2; unfold ia, ib; ring).
      assert (Hsg : val (snd x) * val y = 1 \/ val (snd x) * val y = -1).
      { destruct (unit_val _ Hux) as [-> | ->], (unit_val _ Huy) as [-> | ->]; lra. }
      set (sg := val (snd x) * val y) in *.
      assert (Hxya : Rabs (val (snd x') * val y') = ia * ib).
      { rewrite Hxy, Rabs_mult, (Rabs_pos_eq (ia * ib)) by nra. destruct Hsg as [-> | ->]; [rewrite Rabs_R1|rewrite Rabs_left by lra]; ring. }
      destruct (mul_acc_ok fused (snd x') y' (accv o) Hx1 Hy1 Hacc) as (M1 & t & M2 & M3).
      { rewrite Hxya. nra. }
      { lra. }
      apply IH; [exact M1| |].
      * cbn [accv]. rewrite M2 in *. rewrite Hxya in M3. clear IH Hall Hall' rest.
        assert (Ht : Rabs (t - sg * e0) <= 7.6 * u * e0).
        { replace (t - sg * e0) with ((t - val (snd x') * val y') + sg * (ia * ib - e0)) by (rewrite Hxy; ring).
          eapply Rle_trans; [apply Rabs_triang|]. rewrite Rabs_mult.
          replace (Rabs sg) with 1 by (destruct Hsg as [-> | ->]; [rewrite Rabs_R1|rewrite Rabs_left by lra]; ring).
          apply Rabs_le_inv in Hpp.
          assert (ia * ib <= 1.1 * e0) by (unfold u in *; lra).
          assert (u * (ia * ib) <= u * (1.1 * e0)) by (apply Rmult_le_compat_l; lra).
          assert (Rabs (ia * ib - e0) <= 6.5 * u * e0) by (apply Rabs_le; lra). lra. }
        set (z := t + val (accv o)) in *.
        pose proof (rnd_abs_err z) as Hz. destruct Hone as [_ Hone].
        assert (Hzb : Rabs z <= 1.02).
        { assert (Rabs z <= Rabs (rnd z) + Rabs (rnd z - z)).
          { replace z with (rnd z + - (rnd z - z)) at 1 by ring. eapply Rle_trans; [apply Rabs_triang|]. rewrite Rabs_Ropp. lra. }
          pose proof small_pos. unfold u in *. pose proof (Rabs_pos z). lra. }
        assert (Hzz : Rabs (rnd z - z) <= 1.03 * u).
        { eapply Rle_trans; [exact Hz|]. assert (u * Rabs z <= u * 1.02) by (apply Rmult_le_compat_l; lra).
          pose proof small_pos. unfold u in *. lra. }
        replace (rnd z - (S + sg) * e0) with ((rnd z - z) + ((t - sg * e0) + (val (accv o) - S * e0))) by (unfold z; ring).
        eapply Rle_trans; [apply Rabs_triang|].
        assert (Rabs (t - sg * e0 + (val (accv o) - S * e0)) <= 7.6 * u * e0 + INR k * (8 * u * e0 + 1.03 * u)).
        { eapply Rle_trans; [apply Rabs_triang|]. lra. }
        rewrite S_INR, Rmult_plus_distr_r, Rmult_1_l.
        assert (0 <= u * e0) by (apply Rmult_le_pos; lra). lra.
      * intros a1 a2 E. specialize (Hall' a1 a2 E). unfold product_step at 2 4 in Hall'. rewrite Hk, Ey in Hall'. exact Hall'.
    + assert (Em : memb (fst x) (keys b) = false).
      { apply lookup_none in El. destruct (memb (fst x) (keys b)) eqn:E; [|reflexivity]. apply memb_in in E. contradiction. }
      rewrite Em in *. rewrite lookup_normalise, El in *. cbn [option_map value_opt] in *.
      rewrite Rmult_0_r, Rplus_0_r. apply IH; auto.
      intros a1 a2 E. specialize (Hall' a1 a2 E). unfold product_step at 2 4 in Hall'.
      rewrite Hk, lookup_normalise, El in Hall'. exact Hall'.
Qed.
End Fused.
