(** Properties C19-C25: the index.  [hash] is any hash function, [fused] either way of
    accumulating products; [val] is the real value of an f32, [fin] that it is finite. *)
From Coq Require Import String List NArith ZArith Arith Bool Reals Lia Lra Sorting Permutation.
From Flocq Require Import Core IEEE754.BinarySingleNaN IEEE754.Binary IEEE754.Bits.
From Verif Require Import Common CommonFacts IndexModel IndexSpec IndexFloat IndexVec IndexNum IndexWords IndexDist IndexExact IndexRef
  ProcModel ProcSpec P_Proc.
Import ListNotations.
Open Scope R_scope.

(** The pieces of [split_sp] are the words, and the only way to cut the line. *)
Theorem words_meaning : forall l,
  words_of l (split_sp l) /\ (forall ws, words_of l ws -> ws = split_sp l) /\
  (forall w, is_word l w <-> In w (split_sp l)).
Proof.
  intros l. split; [apply words_exist|]. split; [intros ws; apply words_unique|intros w; apply is_word_in].
Qed.

(** ** C19 *)
(** The distance of one line, for an index of any chunks. *)
Definition distance_of hash fused (chunks : list matrix) (l : bytes) : F :=
  tdist fused (concat chunks) (normalise (vectorize hash l)).

Lemma search_pointwise hash fused chunks : pointwise (search_mat_chunk hash fused chunks) (distance_of hash fused chunks).
Proof.
  intros ts. unfold search_mat_chunk, create_mat. rewrite cosine_distance_chunk_map, !map_map. reflexivity.
Qed.
Lemma search_mat_chunk_one hash fused m ts : search_mat hash fused m ts = search_mat_chunk hash fused [m] ts.
Proof.
  unfold search_mat, search_mat_chunk. rewrite cosine_distance_map, cosine_distance_chunk_map. cbn [concat]. now rewrite app_nil_r.
Qed.

Theorem C19_one_distance_each : forall hash fused chunks ts1 t ts2,
  search_mat_chunk hash fused chunks (ts1 ++ t :: ts2) =
    search_mat_chunk hash fused chunks ts1 ++ search_mat_chunk hash fused chunks [t] ++ search_mat_chunk hash fused chunks ts2 /\
  length (search_mat_chunk hash fused chunks (ts1 ++ t :: ts2)) = length (ts1 ++ t :: ts2) /\
  length (search_mat_chunk hash fused chunks [t]) = 1%nat.
Proof.
  intros hash fused chunks ts1 t ts2. rewrite !(search_pointwise hash fused chunks).
  split; [apply map_app|]. split; apply map_length.
Qed.
Theorem C19_one_matrix : forall hash fused baselines ts1 t ts2,
  search_mat hash fused baselines (ts1 ++ t :: ts2) =
    search_mat hash fused baselines ts1 ++ search_mat hash fused baselines [t] ++ search_mat hash fused baselines ts2 /\
  length (search_mat hash fused baselines (ts1 ++ t :: ts2)) = length (ts1 ++ t :: ts2) /\
  length (search_mat hash fused baselines [t]) = 1%nat.
Proof.
  intros hash fused m ts1 t ts2. rewrite !search_mat_chunk_one. apply C19_one_distance_each.
Qed.

(** An index trained by any sequence of [add]s. *)
Definition trained hash (batches : list (list bytes)) : list matrix :=
  fold_left (hashing_add hash) batches hashing_new.
Lemma trained_map hash batches : trained hash batches = map (index_mat hash) batches.
Proof.
  unfold trained. change (map (index_mat hash) batches) with (hashing_new ++ map (index_mat hash) batches).
  generalize hashing_new as i. induction batches as [|b bs IH]; intros i; cbn [fold_left map]; [now rewrite app_nil_r|].
  rewrite IH. unfold hashing_add. now rewrite <- app_assoc.
Qed.
Lemma concat_index hash batches : concat (map (index_mat hash) batches) = index_mat hash (concat batches).
Proof.
  unfold index_mat, create_mat. induction batches as [|b bs IH]; [reflexivity|]. cbn [map concat]. now rewrite IH, !map_app.
Qed.
Lemma distance_trained hash fused batches l :
  distance_of hash fused (trained hash batches) l = tdist fused (index_mat hash (concat batches)) (normalise (vectorize hash l)).
Proof. unfold distance_of. now rewrite trained_map, concat_index. Qed.
Lemma target_row hash l : row (normalise (vectorize hash l)) (length (vectorize hash l)).
Proof. apply normalise_row, vectorize_vec. Qed.
Lemma in_index hash lines r : In r (index_mat hash lines) <-> exists l, In l lines /\ r = normalise (vectorize hash l).
Proof.
  unfold index_mat, create_mat. rewrite map_map, in_map_iff. split; intros (l & H1 & H2); exists l; auto.
Qed.

(** ** C20 *)
(** Any two trainings on the same set of lines, however batched, ordered or repeated, give
    the same distances bit for bit. *)
Theorem C20_training_order_irrelevant : forall hash fused batches batches' targets,
  (forall l, In l (concat batches) <-> In l (concat batches')) ->
  hashing_search hash fused (trained hash batches) targets = hashing_search hash fused (trained hash batches') targets.
Proof.
  intros hash fused bs bs' ts H. unfold hashing_search. rewrite !(search_pointwise hash fused _ ts).
  apply map_ext. intros l. rewrite !distance_trained. apply (tdist_same _ _ _ _ _ (target_row hash l)); try apply index_rows_ok.
  intros r. rewrite !in_index. split; intros (x & Hx & ->); exists x; (split; [|reflexivity]); now apply H.
Qed.
Theorem C20_chunks_irrelevant : forall hash fused chunks lines targets,
  Permutation (concat chunks) lines ->
  search_mat_chunk hash fused (map (index_mat hash) chunks) targets = search_mat hash fused (index_mat hash lines) targets.
Proof.
  intros hash fused chunks lines ts H. rewrite search_mat_chunk_one.
  change [index_mat hash lines] with (map (index_mat hash) [lines]). rewrite <- !trained_map.
  apply C20_training_order_irrelevant. intros l. cbn [concat]. rewrite app_nil_r.
  split; apply Permutation_in; [exact H|now apply Permutation_sym].
Qed.

(** ** C21 *)
Theorem C21_known_line_close : forall hash fused batches l,
  In l (concat batches) ->
  exists d, hashing_search hash fused (trained hash batches) [l] = [d] /\
    fin d /\ val d <= 0.021 /\ above_threshold d = false.
Proof.
  intros hash fused batches l H. exists (distance_of hash fused (trained hash batches) l).
  split; [apply search_pointwise|]. rewrite distance_trained.
  destruct (tdist_ok fused (index_mat hash (concat batches)) _ _ (target_row hash l) (index_rows_ok hash _)) as [[F1 _] V].
  assert (K : val (tdist fused (index_mat hash (concat batches)) (normalise (vectorize hash l))) <= 0.021).
  { rewrite V. eapply Rle_trans; [apply vdist_le; apply in_index; exists l; split; [exact H|reflexivity]|].
    destruct (product_self fused _ _ (target_row hash l)) as (v & E & Fv & Hv). unfold dv. rewrite E.
    pose proof (rnd_abs_err (1 - val v)) as He. apply Rabs_le_inv in He.
    assert (Rabs (1 - val v) <= 0.02) by (apply Rabs_le; lra). pose proof small_pos.
    assert (u * Rabs (1 - val v) <= u * 0.02) by (apply Rmult_le_compat_l; [pose proof u_pos; lra|lra]). unfold u in *. lra. }
  split; [exact F1|]. split; [exact K|].
  destruct (above_threshold _) eqn:E; [|reflexivity]. apply (fgt_ok _ _ F1 fin_threshold) in E. pose proof val_threshold. lra.
Qed.

(** With the processor: whatever else was trained, no reported line has the tokenized form
    of a line the trainer read. *)
Theorem C21_trained_lines_never_reported : forall hash fused tok sources known lines,
  all_valid lines -> no_marker lines ->
  let index := trained hash (added (train_sources tok sources trainer_new)) in
  exists anomalies final,
    process_all above_threshold tok (hashing_search hash fused index) (ok_items lines) known = (anomalies, PSEnd, final) /\
    forall c x, In c anomalies -> In x (concat (map good_prefix sources)) -> tok (fst x) <> tok (aline c).
Proof.
  intros hash fused tok sources known lines Hv Hm index.
  destruct (C10_exact_detection F above_threshold tok (hashing_search hash fused index) (distance_of hash fused index) known lines)
    as (cs & fin & ps & E & (_ & H1) & H2); auto.
  { intros ts. apply search_pointwise. }
  exists cs, fin. split; [exact E|]. intros c x Hc Hx Ht.
  assert (exists i, In i ps /\ describes tok (distance_of hash fused index) lines c i) as (i & Hi & D1 & D2).
  { clear E H1. induction H2 as [|c' i cs' ps' Hd H2 IH]; [destruct Hc|]. destruct Hc as [->|Hc].
    - exists i. split; [now left|exact Hd].
    - destruct (IH Hc) as (j & Hj & Dj). exists j. split; [now right|exact Dj]. }
  apply H1 in Hi. destruct Hi as (_ & b & nr & En & Ha). rewrite D1 in En. injection En as <- <-.
  destruct (C21_known_line_close hash fused (added (train_sources tok sources trainer_new)) (tok (aline c))) as (d & Ed & _ & _ & Hd).
  - destruct (C18_trained_exactly_once tok sources) as (-> & _). rewrite <- Ht.
    apply C18_firsts_meaning. split; [|intros []]. now apply (in_map (fun x => tok (fst x))).
  - unfold hashing_search in Ed. rewrite (search_pointwise hash fused _ [tok (aline c)]) in Ed. cbn [map] in Ed. injection Ed as Ed.
    fold index in Ed. rewrite Ed in Ha. congruence.
Qed.

(** ** C22 *)
Theorem C22_nothing_shared : forall hash fused batches l,
  (forall b, In b (concat batches) -> ~ share_bucket hash b l) ->
  hashing_search hash fused (trained hash batches) [l] = [f_one] /\ above_threshold f_one = true.
Proof.
  intros hash fused batches l H. unfold hashing_search. rewrite (search_pointwise hash fused _ [l]). cbn [map].
  split; [|reflexivity]. rewrite distance_trained. rewrite tdist_none; [reflexivity|].
  intros r Hr k Hk Hk'. apply in_index in Hr. destruct Hr as (b & Hb & ->). rewrite normalise_keys in *.
  apply (H b Hb). apply share_keys. eauto.
Qed.
Theorem C22_empty_baseline : forall hash fused targets,
  hashing_search hash fused (trained hash []) targets = map (fun _ => f_one) targets.
Proof.
  intros hash fused ts. unfold hashing_search. rewrite (search_pointwise hash fused _ ts). reflexivity.
Qed.
(** With the processor: a line seen for the first time that shares nothing with the
    baseline is reported. *)
Theorem C22_novel_line_reported : forall hash fused tok sources known lines i b nr,
  all_valid lines -> no_marker lines ->
  let index := trained hash (added (train_sources tok sources trainer_new)) in
  nth_error lines i = Some (b, nr) -> first_seen tok known lines i ->
  (forall x, In x (concat (map good_prefix sources)) -> ~ share_bucket hash (tok (fst x)) (tok b)) ->
  exists anomalies final c,
    process_all above_threshold tok (hashing_search hash fused index) (ok_items lines) known = (anomalies, PSEnd, final) /\
    In c anomalies /\ aline c = b /\ apos c = nr /\ ProcModel.distance c = f_one.
Proof.
  intros hash fused tok sources known lines i b nr Hv Hm index Hi Hf Hns.
  destruct (C10_exact_detection F above_threshold tok (hashing_search hash fused index) (distance_of hash fused index) known lines)
    as (cs & fin & ps & E & (_ & H1) & H2); auto.
  { intros ts. apply search_pointwise. }
  destruct (C22_nothing_shared hash fused (added (train_sources tok sources trainer_new)) (tok b)) as [Hd Ha].
  { destruct (C18_trained_exactly_once tok sources) as (-> & _). intros t Ht. apply C18_firsts_meaning in Ht.
    destruct Ht as [Ht _]. apply in_map_iff in Ht. destruct Ht as (x & <- & Hx). now apply Hns. }
  unfold hashing_search in Hd. rewrite (search_pointwise hash fused _ [tok b]) in Hd. cbn [map] in Hd. injection Hd as Hd. fold index in Hd.
  assert (Hin : In i ps).
  { apply H1. split; [exact Hf|]. exists b, nr. split; [exact Hi|]. now rewrite Hd. }
  assert (exists c, In c cs /\ describes tok (distance_of hash fused index) lines c i) as (c & Hc & D1 & D2).
  { clear - H2 Hin. induction H2 as [|c' j cs' ps' Hd H2 IH]; [destruct Hin|]. destruct Hin as [->|Hin].
    - exists c'. split; [now left|exact Hd].
    - destruct (IH Hin) as (c & Hc & Dc). exists c. split; [now right|exact Dc]. }
  exists cs, fin, c. rewrite D1 in Hi. injection Hi as Hi1 Hi2. split; [exact E|]. split; [exact Hc|].
  split; [exact Hi1|]. split; [exact Hi2|]. rewrite D2, Hi1. exact Hd.
Qed.

(** ** C23 *)
Theorem C23_more_baselines_closer : forall hash fused batches batches' l,
  incl (concat batches) (concat batches') ->
  exists d d', hashing_search hash fused (trained hash batches) [l] = [d] /\
    hashing_search hash fused (trained hash batches') [l] = [d'] /\
    fin d /\ fin d' /\ val d' <= val d /\ (above_threshold d' = true -> above_threshold d = true).
Proof.
  intros hash fused bs bs' l H. exists (distance_of hash fused (trained hash bs) l), (distance_of hash fused (trained hash bs') l).
  split; [apply search_pointwise|]. split; [apply search_pointwise|]. rewrite !distance_trained.
  destruct (tdist_ok fused (index_mat hash (concat bs)) _ _ (target_row hash l) (index_rows_ok hash _)) as [[F1 _] V1].
  destruct (tdist_ok fused (index_mat hash (concat bs')) _ _ (target_row hash l) (index_rows_ok hash _)) as [[F2 _] V2].
  split; [exact F1|]. split; [exact F2|].
  assert (K : vdist fused (index_mat hash (concat bs')) (normalise (vectorize hash l)) <=
              vdist fused (index_mat hash (concat bs)) (normalise (vectorize hash l))).
  { apply vdist_incl. intros r Hr. rewrite in_index in *. destruct Hr as (x & Hx & ->). exists x. split; [now apply H|reflexivity]. }
  rewrite <- V1, <- V2 in K. split; [exact K|]. intros E. apply (fgt_ok _ _ F2 fin_threshold) in E.
  apply (fgt_ok _ _ F1 fin_threshold). lra.
Qed.

(** ** C24 *)
Theorem C24_range : forall hash fused batches l,
  (exists d, hashing_search hash fused (trained hash batches) [l] = [d] /\ fin d /\ -0.02 <= val d <= 1) /\
  (let d := search hash fused (index hash fused (concat batches)) l in fin d /\ 0 <= val d <= 1) /\
  0 <= exact_distance hash (map split_sp (concat batches)) (split_sp l) <= 1.
Proof.
  intros hash fused bs l. split; [|split].
  - exists (distance_of hash fused (trained hash bs) l). split; [apply search_pointwise|]. rewrite distance_trained.
    destruct (tdist_ok fused (index_mat hash (concat bs)) _ _ (target_row hash l) (index_rows_ok hash _)) as [[F1 _] V1].
    split; [exact F1|]. rewrite V1. split; [|apply vdist_le1]. apply vdist_ge; [lra|]. intros r Hr. apply in_index in Hr.
    destruct Hr as (x & Hx & ->). apply (dv_bounds fused _ _ _ _ (target_row hash x) (target_row hash l)).
  - split; [apply (search_ok hash fused (concat bs) l)|apply search_range].
  - apply exact_range.
Qed.

(** A hash that puts seven words in seven buckets: the line is at a negative distance of
    itself. *)
Definition seven : bytes := lit "a b c d e f g".
Definition byte_hash (w : bytes) : N := match w with c :: _ => c | [] => 0%N end.
Theorem C24_never_negative_refuted : forall fused, exists hash batches l d,
  hashing_search hash fused (trained hash batches) [l] = [d] /\ fin d /\ val d < 0.
Proof.
  intros fused. exists byte_hash, [[seven]], seven, (distance_of byte_hash fused (trained byte_hash [[seven]]) seven).
  split; [apply search_pointwise|]. set (d := distance_of _ _ _ _).
  assert (E : bits_of_b32 d = if fused then 0xb4000000%Z else 0xb4800000%Z) by (destruct fused; vm_compute; reflexivity).
  assert (Ed : d = b32_of_bits (if fused then 0xb4000000%Z else 0xb4800000%Z)).
  { rewrite <- E. symmetry. apply (binary_float_of_bits_of_binary_float 23 8). }
  rewrite Ed. destruct fused; (split; [reflexivity|]); unfold val; cbn; unfold F2R; cbn; lra.
Qed.

(** ** C25 *)
(** Both searches are close to the exact cosine distance.  2^23 = 8388608; [n] is the number
    of distinct buckets of the line. *)
Theorem C25_matrix_search_accurate : forall hash fused batches l,
  let n := length (buckets hash (split_sp l)) in
  exists d, hashing_search hash fused (trained hash batches) [l] = [d] /\
    Rabs (val d - exact_distance hash (map split_sp (concat batches)) (split_sp l)) <= (INR n + 10) / 8388608.
Proof.
  intros hash fused bs l n. exists (distance_of hash fused (trained hash bs) l). split; [apply search_pointwise|].
  rewrite distance_trained. unfold n. rewrite buckets_length.
  destruct (tdist_ok fused (index_mat hash (concat bs)) _ _ (target_row hash l) (index_rows_ok hash _)) as [_ V1].
  rewrite V1. apply vdist_err.
Qed.
Theorem C25_reference_search_accurate : forall hash fused lines l,
  Rabs (val (search hash fused (index hash fused lines) l) - exact_distance hash (map split_sp lines) (split_sp l)) <= 3 / 8388608.
Proof.
  intros hash fused lines l. eapply Rle_trans; [apply search_err|]. unfold u. lra.
Qed.
Theorem C25_searches_agree : forall hash fused lines l,
  let n := length (buckets hash (split_sp l)) in
  exists d, search_mat hash fused (index_mat hash lines) [l] = [d] /\
    Rabs (val d - val (search hash fused (index hash fused lines) l)) <= (INR n + 13) / 8388608.
Proof.
  intros hash fused lines l n. destruct (C25_matrix_search_accurate hash fused [lines] l) as (d & E & H). exists d.
  cbn [concat] in H. rewrite app_nil_r in H. split; [rewrite search_mat_chunk_one; exact E|].
  pose proof (C25_reference_search_accurate hash fused lines l) as K. fold n in H.
  apply Rabs_le_inv in H. apply Rabs_le_inv in K. apply Rabs_le. lra.
Qed.
Theorem C25_known_line_zero : forall hash fused lines l,
  In l lines -> search hash fused (index hash fused lines) l = f_zero.
Proof. intros hash fused lines l. apply search_known. Qed.

(** ** Cases that meet the hypotheses *)
Example shared_example : share_bucket byte_hash (lit "the red car") (lit "a red bike").
Proof.
  exists (lit "red"), (lit "red"). split; [|split; [|reflexivity]]; apply is_word_in; vm_compute; auto.
Qed.
Example novel_example :
  forall b, In b (concat [[lit "the red car"]; [lit "the red car shop"]]) -> ~ share_bucket byte_hash b (lit "blue bike").
Proof.
  intros b Hb (w & w' & Hw & Hw' & E). apply is_word_in in Hw. apply is_word_in in Hw'.
  vm_compute in Hb, Hw'. repeat (destruct Hb as [<-|Hb]; [vm_compute in Hw;
    repeat (destruct Hw as [<-|Hw]; [repeat (destruct Hw' as [<-|Hw']; [vm_compute in E; discriminate|]); destruct Hw'|]); destruct Hw|]).
  destruct Hb.
Qed.
Example known_example : In (lit "the red car") (concat [[lit "a line"]; [lit "the red car"; lit "the red car shop"]]).
Proof. cbn. tauto. Qed.
(** The values are not degenerate: bits of the distances of a known line, of a line that
    shares one word of three, and of a novel line. *)
Example distances_example :
  map bits_of_b32 (hashing_search byte_hash true (trained byte_hash [[lit "the red car"]; [lit "one line"]])
    [lit "the red car"; lit "the blue kite"; lit "some"]) =
  [0x33800000; 0x3f2aaaab; 0x3f800000]%Z.
Proof. vm_compute. reflexivity. Qed.
Example order_example : forall l : bytes,
  In l (concat [[lit "a"; lit "b"]; [lit "c"]]) <-> In l (concat [[lit "c"]; [lit "b"]; [lit "a"; lit "a"]]).
Proof. intros l. cbn. tauto. Qed.

Print Assumptions words_meaning.
Print Assumptions C19_one_distance_each.
Print Assumptions C19_one_matrix.
Print Assumptions C20_training_order_irrelevant.
Print Assumptions C20_chunks_irrelevant.
Print Assumptions C21_known_line_close.
Print Assumptions C21_trained_lines_never_reported.
Print Assumptions C22_nothing_shared.
Print Assumptions C22_empty_baseline.
Print Assumptions C22_novel_line_reported.
Print Assumptions C23_more_baselines_closer.
Print Assumptions C24_range.
Print Assumptions C24_never_negative_refuted.
Print Assumptions C25_matrix_search_accurate.
Print Assumptions C25_reference_search_accurate.
Print Assumptions C25_searches_agree.
Print Assumptions C25_known_line_zero.
