(** Facts about the sparse vectors built by vectorize. *)
From Coq Require Import List NArith ZArith Arith Bool Lia Sorting Permutation ZifyBool ZifyN ZifyNat.
From Verif Require Import Common IndexModel.
Import ListNotations.
Open Scope N_scope.

Definition keys (v : svec) : list N := map fst v.
Definition unit_values (v : svec) : Prop := Forall (fun x => snd x = f_one \/ snd x = f_minus_one) v.
Definition vec (v : svec) : Prop :=
  StronglySorted N.lt (keys v) /\ Forall (fun k => k < SIZE) (keys v) /\ unit_values v /\ v <> [].

Lemma split_sp_nonempty l : split_sp l <> [].
Proof.
  induction l as [|c l IH]; cbn; [discriminate|]. destruct (c =? ch_sp); [discriminate|].
  destruct (split_sp l); discriminate.
Qed.

Definition kle (x y : N * F) : Prop := fst x <= fst y.
Lemma insert_in x l : forall y, In y (insert_key x l) <-> y = x \/ In y l.
Proof.
  induction l as [|z l IH]; intros y; cbn; [intuition auto|].
  destruct (fst x <=? fst z); cbn; [|rewrite IH]; intuition auto.
Qed.
Lemma insert_sorted x l : StronglySorted kle l -> StronglySorted kle (insert_key x l).
Proof.
  induction 1 as [|y l Hs IH Hf]; cbn; [repeat constructor|].
  destruct (fst x <=? fst y) eqn:E.
  - constructor; [constructor; assumption|]. constructor; [unfold kle; lia|].
    eapply Forall_impl; [|exact Hf]. unfold kle. intros; lia.
  - constructor; [assumption|]. apply Forall_forall. intros z Hz. apply insert_in in Hz. destruct Hz as [->|Hz].
    + unfold kle. lia.
    + rewrite Forall_forall in Hf. now apply Hf.
Qed.
Lemma sort_in l : forall y, In y (sort_keys l) <-> In y l.
Proof. induction l as [|x l IH]; intros y; cbn; [tauto|]. rewrite insert_in, IH. intuition auto. Qed.
Lemma sort_sorted l : StronglySorted kle (sort_keys l).
Proof. induction l as [|x l IH]; cbn; [constructor|]. now apply insert_sorted. Qed.

Lemma dedup_from_spec l : forall x, StronglySorted kle (x :: l) ->
  (forall y, In y (dedup_from x l) -> In y (x :: l)) /\
  (forall k, In k (keys (x :: l)) -> In k (keys (dedup_from x l))) /\
  StronglySorted N.lt (keys (dedup_from x l)) /\ (exists d, dedup_from x l = x :: d).
Proof.
  induction l as [|y l IH]; intros x Hs; cbn [dedup_from].
  - repeat split; auto; [repeat constructor|eexists; reflexivity].
  - inversion Hs as [|? ? Hs' Hf]; subst. destruct (fst x =? fst y) eqn:E.
    + apply N.eqb_eq in E.
      assert (Hx : StronglySorted kle (x :: l)).
      { inversion Hs'; subst. inversion Hf; subst. constructor; assumption. }
      destruct (IH x Hx) as (H1 & H2 & H3 & H4). split; [|split; [|split; [exact H3|exact H4]]].
      * intros z Hz. apply H1 in Hz. cbn in *. tauto.
      * intros k Hk. apply H2. cbn in *. rewrite E in *. tauto.
    + apply N.eqb_neq in E. destruct (IH y Hs') as (H1 & H2 & H3 & H4).
      split; [|split; [|split; [|eexists; reflexivity]]].
      * intros z [<-|Hz]; [left; reflexivity|]. right. now apply H1.
      * intros k [<-|Hk]; [left; reflexivity|]. right. now apply H2.
      * cbn [keys map]. constructor; [exact H3|]. apply Forall_forall. intros k Hk. apply in_map_iff in Hk.
        destruct Hk as (z & <- & Hz). apply H1 in Hz. inversion Hf as [|? ? Hxy Hf']; subst.
        inversion Hs' as [|? ? _ Hfy]; subst. unfold kle in *. destruct Hz as [<-|Hz]; [lia|].
        rewrite Forall_forall in Hfy. specialize (Hfy _ Hz). lia.
Qed.

Section Vec.
Variable hash : bytes -> N.
Notation vectorize := (vectorize hash).

Lemma vectorize_keys line k : In k (keys (vectorize line)) <-> exists w, In w (split_sp line) /\ hash w mod SIZE = k.
Proof.
  unfold IndexModel.vectorize, dedup_keys. set (f := map (feature hash) (split_sp line)).
  pose proof (sort_sorted f) as Hs. pose proof (sort_in f) as Hi.
  assert (Hf : In k (keys f) <-> exists w, In w (split_sp line) /\ hash w mod SIZE = k).
  { unfold keys, f. rewrite map_map, in_map_iff. cbn [feature fst]. firstorder. }
  rewrite <- Hf.
  assert (Hk : In k (keys f) <-> In k (keys (sort_keys f))).
  { unfold keys. rewrite !in_map_iff. split; intros (x & E & Hx); exists x; (split; [exact E|]); now apply Hi. }
  rewrite Hk. destruct (sort_keys f) as [|x l]; [tauto|].
  destruct (dedup_from_spec l x Hs) as (H1 & H2 & _). split; [|apply H2].
  intros H. apply in_map_iff in H. destruct H as (y & <- & Hy). apply in_map. now apply H1.
Qed.

Lemma vectorize_vec line : vec (vectorize line).
Proof.
  assert (Hne : vectorize line <> []).
  { intros E. pose proof (split_sp_nonempty line) as H. destruct (split_sp line) as [|w ws] eqn:Ew; [congruence|].
    assert (In (hash w mod SIZE) (keys (vectorize line))).
    { apply vectorize_keys. exists w. rewrite Ew. split; [left; reflexivity|reflexivity]. }
    rewrite E in H0. exact H0. }
  split; [|split; [|split; [|exact Hne]]].
  - unfold IndexModel.vectorize, dedup_keys in *. pose proof (sort_sorted (map (feature hash) (split_sp line))) as Hs.
    destruct (sort_keys _) as [|x l]; [constructor|]. now apply dedup_from_spec.
  - apply Forall_forall. intros k Hk. apply vectorize_keys in Hk. destruct Hk as (w & _ & <-).
    apply N.mod_lt. discriminate.
  - apply Forall_forall. intros y Hy. unfold IndexModel.vectorize, dedup_keys in Hy.
    pose proof (sort_sorted (map (feature hash) (split_sp line))) as Hs.
    pose proof (sort_in (map (feature hash) (split_sp line)) y) as Hi.
    destruct (sort_keys _) as [|x l]; [destruct Hy|].
    apply (dedup_from_spec l x Hs) in Hy. apply Hi in Hy. apply in_map_iff in Hy. destruct Hy as (w & <- & _).
    unfold feature. cbn [snd]. destruct (2147483648 <=? hash w); auto.
Qed.
End Vec.

Lemma sorted_nodup l : StronglySorted N.lt l -> NoDup l.
Proof.
  induction 1 as [|x l _ IH Hf]; constructor; [|exact IH]. intros H. rewrite Forall_forall in Hf.
  specialize (Hf _ H). lia.
Qed.
Lemma bounded_nodup_length l b : NoDup l -> Forall (fun k => k < b) l -> (length l <= N.to_nat b)%nat.
Proof.
  intros Hn Hf. rewrite <- (seq_length (N.to_nat b) 0), <- (map_length N.of_nat).
  apply NoDup_incl_length; [exact Hn|]. intros k Hk. rewrite Forall_forall in Hf. specialize (Hf _ Hk).
  apply in_map_iff. exists (N.to_nat k). split; [lia|]. apply in_seq. lia.
Qed.
Lemma vec_length v : vec v -> (1 <= length v <= N.to_nat SIZE)%nat.
Proof.
  intros (H1 & H2 & _ & H4). split.
  - destruct v; [congruence|cbn; lia].
  - rewrite <- (map_length fst). apply bounded_nodup_length; [now apply sorted_nodup|exact H2].
Qed.

(** The common keys of two vectors. *)
Definition common (a b : svec) : nat := length (filter (fun x => memb (fst x) (keys b)) a).
Lemma lookup_some k v : NoDup (keys v) -> forall x, lookup k v = Some x <-> In (k, x) v.
Proof.
  induction v as [|[k' y] v IH]; intros Hn x; cbn [lookup].
  - split; [discriminate|intros []].
  - cbn in Hn. inversion Hn as [|? ? Hk Hn']; subst. destruct (k' =? k) eqn:E.
    + apply N.eqb_eq in E. subst. split.
      * intros [= ->]. left. reflexivity.
      * intros [[= ->]|H]; [reflexivity|]. exfalso. apply Hk. change k with (fst (k, x)). now apply in_map.
    + apply N.eqb_neq in E. rewrite IH by assumption. split; [right; assumption|].
      intros [[= -> _]|H]; [congruence|assumption].
Qed.
Lemma lookup_none k v : lookup k v = None <-> ~ In k (keys v).
Proof.
  induction v as [|[k' y] v IH]; cbn; [tauto|]. destruct (k' =? k) eqn:E.
  - apply N.eqb_eq in E. split; [discriminate|]. intros H. exfalso. tauto.
  - apply N.eqb_neq in E. rewrite IH. tauto.
Qed.
Lemma memb_in k l : memb k l = true <-> In k l.
Proof.
  unfold memb. rewrite existsb_exists. split.
  - intros (x & Hx & E). apply N.eqb_eq in E. now subst.
  - intros H. exists k. split; [exact H|apply N.eqb_refl].
Qed.
Lemma common_le_l a b : (common a b <= length a)%nat.
Proof.
  unfold common. induction a as [|x a IH]; cbn; [lia|]. destruct (memb _ _); cbn; lia.
Qed.
Lemma common_le_r a b : NoDup (keys a) -> (common a b <= length b)%nat.
Proof.
  intros Hn. unfold common. rewrite <- (map_length fst), <- (map_length fst b).
  apply NoDup_incl_length.
  - clear - Hn. induction a as [|x a IH]; cbn; [constructor|]. cbn in Hn. inversion Hn as [|? ? Hk Hn']; subst.
    destruct (memb (fst x) (keys b)); [|now apply IH]. cbn. constructor; [|now apply IH].
    intros H. apply Hk. apply in_map_iff in H. destruct H as (y & E & Hy). apply filter_In in Hy.
    unfold keys. rewrite <- E. now apply in_map.
  - intros k Hk. apply in_map_iff in Hk. destruct Hk as (y & <- & Hy). apply filter_In in Hy. apply memb_in. apply Hy.
Qed.
Lemma common_self v : common v v = length v.
Proof.
  unfold common. f_equal. assert (H : forall w, incl w v -> filter (fun x => memb (fst x) (keys v)) w = w).
  { induction w as [|x w IH]; intros Hi; [reflexivity|]. cbn.
    replace (memb (fst x) (keys v)) with true.
    - f_equal. apply IH. intros y Hy. apply Hi. now right.
    - symmetry. apply memb_in. apply in_map, Hi. now left. }
  apply H. apply incl_refl.
Qed.
