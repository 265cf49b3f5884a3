(** The vectors of the model and the words and buckets of the specification. *)
From Coq Require Import List NArith ZArith Arith Bool Reals Lia Lra Sorting Permutation ZifyBool ZifyN.
From Verif Require Import Common IndexModel IndexSpec IndexFloat IndexVec.
Import ListNotations.

(** ** Words *)
Lemma split_join l : join_sp (split_sp l) = l.
Proof.
  induction l as [|c l IH]; [reflexivity|]. cbn [split_sp]. destruct (c =? ch_sp)%N eqn:E.
  - apply N.eqb_eq in E. subst c. pose proof (split_sp_nonempty l). destruct (split_sp l) as [|w ws]; [congruence|].
    cbn [join_sp app] in *. now rewrite IH.
  - destruct (split_sp l) as [|w ws] eqn:Es.
    + apply split_sp_nonempty in Es. destruct Es.
    + cbn [join_sp] in *. destruct ws; cbn [app]; now rewrite IH.
Qed.
Lemma split_nospace l : Forall (fun w => ~ In ch_sp w) (split_sp l).
Proof.
  induction l as [|c l IH]; cbn [split_sp]; [repeat constructor; intros []|]. destruct (c =? ch_sp)%N eqn:E.
  - constructor; [intros []|exact IH].
  - apply N.eqb_neq in E. destruct (split_sp l) as [|w ws]; [repeat constructor; intros [H|[]]; congruence|].
    inversion IH; subst. constructor; [|assumption]. intros [H|H]; [congruence|contradiction].
Qed.
Lemma split_app_nospace w l : ~ In ch_sp w -> split_sp (w ++ ch_sp :: l) = w :: split_sp l.
Proof.
  induction w as [|c w IH]; intros H; cbn [app split_sp].
  - rewrite N.eqb_refl. reflexivity.
  - destruct (c =? ch_sp)%N eqn:E; [apply N.eqb_eq in E; exfalso; apply H; left; congruence|].
    rewrite IH; [reflexivity|]. intros K. apply H. now right.
Qed.
Lemma split_nospace_id w : ~ In ch_sp w -> split_sp w = [w].
Proof.
  induction w as [|c w IH]; intros H; cbn [split_sp]; [reflexivity|].
  destruct (c =? ch_sp)%N eqn:E; [apply N.eqb_eq in E; exfalso; apply H; left; congruence|].
  rewrite IH; [reflexivity|]. intros K. apply H. now right.
Qed.
Lemma words_unique l ws : words_of l ws -> ws = split_sp l.
Proof.
  intros (H1 & <- & H3). revert H1. induction H3 as [|w ws Hw Hf IH]; intros H1; [destruct (H1 eq_refl)|].
  destruct ws as [|w' ws]; cbn [join_sp].
  - now rewrite split_nospace_id.
  - rewrite split_app_nospace by assumption. f_equal. apply IH. discriminate.
Qed.
Lemma words_exist l : words_of l (split_sp l).
Proof. split; [apply split_sp_nonempty|]. split; [apply split_join|apply split_nospace]. Qed.

Lemma split_app p l : split_sp (p ++ ch_sp :: l) = split_sp p ++ split_sp l.
Proof.
  induction p as [|c p IH]; cbn [app split_sp]; [rewrite N.eqb_refl; reflexivity|].
  destruct (c =? ch_sp)%N; [now rewrite IH|]. rewrite IH. pose proof (split_sp_nonempty p).
  destruct (split_sp p) as [|w ws]; [congruence|]. reflexivity.
Qed.
Lemma join_around ws1 w ws2 : exists pre suf, join_sp (ws1 ++ w :: ws2) = pre ++ w ++ suf /\
  (pre = [] \/ exists pre', pre = pre' ++ [ch_sp]) /\ (suf = [] \/ exists suf', suf = ch_sp :: suf').
Proof.
  induction ws1 as [|v ws1 (pre & suf & E & Hp & Hs)]; cbn [app].
  - destruct ws2 as [|w2 ws2]; cbn [join_sp].
    + exists [], []. rewrite app_nil_r. auto.
    + exists [], (ch_sp :: join_sp (w2 :: ws2)). split; [reflexivity|]. split; [now left|]. right. eauto.
  - destruct (ws1 ++ w :: ws2) as [|x xs] eqn:Ex; [destruct ws1; discriminate|].
    exists (v ++ ch_sp :: pre), suf. change (join_sp (v :: x :: xs)) with (v ++ ch_sp :: join_sp (x :: xs)). rewrite E. split; [now rewrite <- app_assoc|]. split; [|exact Hs].
    right. destruct Hp as [-> | (pre' & ->)]; [exists v; reflexivity|]. exists (v ++ ch_sp :: pre').
    now rewrite <- app_assoc.
Qed.
Lemma is_word_in l w : is_word l w <-> In w (split_sp l).
Proof.
  split.
  - intros (Hw & pre & suf & -> & Hp & Hs).
    assert (K : In w (split_sp (w ++ suf))).
    { destruct Hs as [-> | (suf' & ->)]; [rewrite app_nil_r, split_nospace_id by assumption; now left|].
      rewrite split_app_nospace by assumption. now left. }
    destruct Hp as [-> | (pre' & ->)]; [exact K|]. rewrite <- app_assoc. cbn [app]. rewrite split_app.
    apply in_or_app. now right.
  - intros H. split.
    + pose proof (split_nospace l) as K. rewrite Forall_forall in K. now apply K.
    + apply in_split in H. destruct H as (ws1 & ws2 & E). rewrite <- (split_join l), E. apply join_around.
Qed.

(** ** Buckets and signs *)
Section Hash.
Variable hash : bytes -> N.
Notation vectorize := (vectorize hash).
Notation feature := (feature hash).
Notation bucket_of := (bucket_of hash).
Notation buckets := (buckets hash).
Notation sign := (sign hash).

Lemma lookup_insert x l : StronglySorted kle l -> forall k,
  lookup k (insert_key x l) = if (fst x =? k)%N then Some (snd x) else lookup k l.
Proof.
  destruct x as [kx x]. cbn [fst snd]. induction 1 as [|[ky y] l Hs IH Hf]; intros k; cbn [insert_key fst lookup]; [reflexivity|].
  destruct (kx <=? ky)%N eqn:E; cbn [lookup]; [reflexivity|]. rewrite IH.
  destruct (ky =? k)%N eqn:E2; [|reflexivity]. destruct (kx =? k)%N eqn:E3; [lia|reflexivity].
Qed.
Lemma lookup_sort l k : lookup k (sort_keys l) = lookup k l.
Proof.
  induction l as [|[kx x] l IH]; [reflexivity|]. cbn [sort_keys fold_right]. change (fold_right insert_key [] l) with (sort_keys l).
  rewrite lookup_insert by apply sort_sorted. cbn [fst snd lookup]. now rewrite IH.
Qed.
Lemma lookup_dedup_from l : forall x k, lookup k (dedup_from x l) = lookup k (x :: l).
Proof.
  induction l as [|[ky y] l IH]; intros [kx x] k; cbn [dedup_from fst]; [reflexivity|].
  destruct (kx =? ky)%N eqn:E.
  - rewrite IH. cbn [lookup]. destruct (kx =? k)%N eqn:E2; [reflexivity|].
    destruct (ky =? k)%N eqn:E3; [lia|reflexivity].
  - cbn [lookup]. rewrite IH. reflexivity.
Qed.
Lemma lookup_vectorize line k : lookup k (vectorize line) = lookup k (map feature (split_sp line)).
Proof.
  unfold IndexModel.vectorize, dedup_keys. rewrite <- (lookup_sort (map feature (split_sp line))). destruct (sort_keys _) as [|x l]; [reflexivity|].
  apply lookup_dedup_from.
Qed.
Definition value_opt (o : option F) : R := match o with Some x => val x | None => 0%R end.
Lemma lookup_sign ws k : value_opt (lookup k (map feature ws)) = sign ws k.
Proof.
  unfold IndexSpec.sign. induction ws as [|w ws IH]; [reflexivity|]. cbn [map]. unfold IndexModel.feature at 1.
  cbn [lookup find]. unfold IndexSpec.bucket_of at 1. change SIZE with 260000%N in *.
  destruct (hash w mod 260000 =? k)%N; [|exact IH]. cbn [value_opt].
  destruct (2147483648 <=? hash w)%N; [apply val_one|apply val_minus_one].
Qed.
Lemma vectorize_sign line k : value_opt (lookup k (vectorize line)) = sign (split_sp line) k.
Proof. rewrite lookup_vectorize. apply lookup_sign. Qed.
Lemma buckets_perm line : Permutation (buckets (split_sp line)) (keys (vectorize line)).
Proof.
  apply NoDup_Permutation.
  - apply NoDup_nodup.
  - apply sorted_nodup. apply vectorize_vec.
  - intros k. unfold IndexSpec.buckets. rewrite nodup_In, in_map_iff, vectorize_keys.
    split; intros (w & H1 & H2); exists w; split; assumption.
Qed.
Lemma buckets_length line : length (buckets (split_sp line)) = length (vectorize line).
Proof. rewrite (Permutation_length (buckets_perm line)). apply map_length. Qed.

Lemma sum_perm l l' : Permutation l l' -> sum l = sum l'.
Proof. unfold sum. induction 1; cbn; lra. Qed.

(** The numerator of the cosine, along the sorted vector. *)
Definition dot_exact (a b : svec) : R := sum (map (fun x => val (snd x) * value_opt (lookup (fst x) b))%R a).
Lemma dot_cosine la lb :
  sum (map (fun k => sign (split_sp la) k * sign (split_sp lb) k)%R (buckets (split_sp la))) =
  dot_exact (vectorize la) (vectorize lb).
Proof.
  rewrite (sum_perm _ _ (Permutation_map _ (buckets_perm la))). unfold dot_exact, keys. rewrite map_map. f_equal.
  apply map_ext_in. intros [k x] Hx. cbn [fst snd]. rewrite <- !vectorize_sign.
  replace (lookup k (vectorize la)) with (Some x); [reflexivity|]. symmetry. apply lookup_some; [|exact Hx].
  apply sorted_nodup. apply vectorize_vec.
Qed.
Lemma share_keys la lb : share_bucket hash la lb <-> exists k, In k (keys (vectorize la)) /\ In k (keys (vectorize lb)).
Proof.
  unfold share_bucket, IndexSpec.bucket_of. split.
  - intros (w & w' & H1 & H2 & H3). exists (hash w mod SIZE)%N. rewrite !vectorize_keys. split.
    + exists w. rewrite <- is_word_in. auto.
    + exists w'. rewrite <- is_word_in. split; [assumption|]. symmetry. exact H3.
  - intros (k & H1 & H2). rewrite !vectorize_keys in *. destruct H1 as (w & Hw & E). destruct H2 as (w' & Hw' & E').
    exists w, w'. rewrite !is_word_in. split; [exact Hw|]. split; [exact Hw'|]. change 260000%N with SIZE. congruence.
Qed.
End Hash.
