(** Properties of the matrices of the index, of their bytes, of an index that was saved and loaded,
    and of the python module: C80, C81, C82.
    [hash] is any hash function, [fused] either way of accumulating products, [checked] whether sprs
    checks the matrices that it reads. *)
From Coq Require Import String List NArith ZArith PeanoNat Bool Lia Sorted Reals.
From Flocq Require Import IEEE754.BinarySingleNaN IEEE754.Binary IEEE754.Bits.
From Verif Require Import Common CommonFacts FilesModel CliModel IndexModel IndexSpec IndexFloat IndexVec P_Index CacheModel CacheSpec CacheProofs StoreModel StoreSpec StoreProofs P_Cache P_Store
  MatModel MatSpec MatProofs.
Import ListNotations.
Open Scope N_scope.

Section Mat.
Variable hash : bytes -> N.
Variable fused checked : bool.
Notation mat_of := (mat_of hash).
Notation mat_search := (mat_search hash fused).
Notation save_mat := (save_mat checked).
Notation load_mat := (load_mat checked).
Notation index_mat := (index_mat hash).
Notation search_mat := (search_mat hash fused).

Lemma vectors_sorted lines : Forall (fun v => StronglySorted N.lt (map fst v)) (map (vectorize hash) lines).
Proof. apply Forall_map, Forall_forall. intros l _. apply vectorize_vec. Qed.
Lemma index_proper lines : Forall (proper_row SIZE) (index_mat lines).
Proof.
  unfold IndexModel.index_mat, create_mat. rewrite map_map. apply Forall_map, Forall_forall. intros l _. destruct (vectorize_vec hash l) as (A & B & _).
  assert (E : map fst (normalise (vectorize hash l)) = map fst (vectorize hash l)) by (unfold normalise; now rewrite map_map).
  unfold proper_row. rewrite E. split; [exact A|]. apply Forall_map with (P := fun k => k < SIZE). rewrite E. exact B.
Qed.
(** C80: the matrix of some lines holds, in order, the vector of each line divided by its norm, with
    260000 columns. *)
Theorem C80_layout lines : holds (mat_of lines) 0 260000 (index_mat lines) /\ Forall (proper_row 260000) (index_mat lines).
Proof. split; [apply create_holds, vectors_sorted|apply index_proper]. Qed.

Lemma search_any m lines : m_cols m = SIZE -> mat_search m lines = Val (cosine_distance fused (rows m) (create_mat (map (vectorize hash) lines))).
Proof.
  intros C. unfold MatModel.mat_search. cbv zeta. rewrite ones_length, distances_rows; [reflexivity|exact C|apply vectors_sorted|]. unfold create_mat. now rewrite !map_length.
Qed.
(** C80: the search in a matrix does not panic, and gives the distances of C19 to C25. *)
Theorem C80_search lines targets : mat_search (mat_of lines) targets = Val (search_mat (index_mat lines) targets).
Proof.
  destruct (C80_layout lines) as [H _]. rewrite search_any by apply H. now rewrite (holds_rows _ _ _ _ H).
Qed.

Lemma dedup_length l : forall x, (length (dedup_from x l) <= S (length l))%nat.
Proof. induction l as [|y l IH]; intros x; cbn [dedup_from length]; [lia|]. specialize (IH x) as A. specialize (IH y) as B. destruct (fst x =? fst y); cbn [length]; lia. Qed.
Lemma insert_length x l : length (insert_key x l) = S (length l).
Proof. induction l as [|y l IH]; [reflexivity|]. cbn [insert_key]. destruct (fst x <=? fst y); cbn [length]; lia. Qed.
Lemma sort_length l : length (sort_keys l) = length l.
Proof. induction l as [|x l IH]; [reflexivity|]. unfold sort_keys in *. cbn [fold_right length]. now rewrite insert_length, IH. Qed.
Lemma vectorize_length l : (length (vectorize hash l) <= length (split_sp l))%nat.
Proof.
  unfold vectorize. rewrite <- (map_length (feature hash) (split_sp l)), <- (sort_length (map (feature hash) (split_sp l))). destruct (sort_keys (map (feature hash) (split_sp l))) as [|x s]; [cbn; lia|]. cbn [dedup_keys length]. apply dedup_length.
Qed.
Lemma index_total lines : N.of_nat (length lines) <= word_count lines /\ total (index_mat lines) <= word_count lines.
Proof.
  unfold word_count, total, IndexModel.index_mat, create_mat. rewrite map_map. induction lines as [|l lines [IH IH']]; [cbn; lia|]. cbn [map concat length]. rewrite !app_length.
  pose proof (vectorize_length l) as V. assert (split_sp l <> []) by apply split_sp_nonempty. assert (Z : length (normalise (vectorize hash l)) = length (vectorize hash l)) by apply map_length. destruct (split_sp l); [contradiction|]. cbn [length app] in *. lia.
Qed.
Lemma positions_bound rs : forall b, Forall (fun p => p <= b + total rs) (positions b rs).
Proof.
  unfold total. induction rs as [|r rs IH]; intros b; cbn [positions concat]; [repeat constructor; cbn; lia|]. constructor; [lia|].
  eapply Forall_impl; [|apply IH]. cbn beta. intros p P. rewrite app_length. lia.
Qed.
Lemma mat_fits lines : word_count lines + 1 < 2 ^ 64 -> ok_mat checked (mat_of lines).
Proof.
  intros W. destruct (C80_layout lines) as [H R]. split; [|intros _; eapply holds_well_formed; eassumption].
  destruct H as (_ & A & B & C & D & E). destruct (index_total lines) as [L T]. destruct (concat_keys_length (index_mat lines)) as [K K'].
  assert (Z : length (index_mat lines) = length lines) by (unfold IndexModel.index_mat, create_mat; now rewrite !map_length).
  unfold fits, rust_vec, word64. rewrite A, B, C, D, E, Z, K, K', positions_length, Z. unfold total in T. csplit; try lia.
  - eapply Forall_impl; [|apply positions_bound]. cbn beta. unfold total. intros p P. unfold word64. lia.
  - destruct (concat_keys (index_mat lines)) as [-> _]. apply Forall_map. apply Forall_concat. eapply Forall_impl; [|exact R]. intros r [_ X]. eapply Forall_impl; [|exact X]. cbn beta. intros x Y. unfold word64. lia.
Qed.
(** C80: the matrix of any lines can be saved, and loads unchanged, whatever follows it. *)
Theorem C80_round_trip lines : word_count lines + 1 < 2 ^ 64 ->
  exists b, save_mat (mat_of lines) = Val b /\ forall more, load_mat (b ++ more) = Val (mat_of lines).
Proof.
  intros W. pose proof (mat_fits lines W) as G. pose proof (csmat_lawful checked) as L. exists (fst (enc (csmat_codec checked) (mat_of lines))). split.
  - unfold MatModel.save_mat. now rewrite (proj2 (law_good _ _ _ _ L _ G) I).
  - intros more. unfold MatModel.load_mat. now rewrite (law_round _ _ _ _ L _ more G I).
Qed.
(** C80: bytes that lost their end do not load. *)
Theorem C80_cut lines b p q : word_count lines + 1 < 2 ^ 64 -> save_mat (mat_of lines) = Val b -> b = p ++ q -> q <> [] -> load_mat p = Panic.
Proof.
  intros W S E Q. pose proof (mat_fits lines W) as G. pose proof (csmat_lawful checked) as L. unfold MatModel.save_mat in S. rewrite (proj2 (law_good _ _ _ _ L _ G) I) in S. injection S as <-.
  destruct (law_torn _ _ _ _ L _ p q G E (or_introl Q)) as [e D]. unfold MatModel.load_mat. now rewrite D.
Qed.
(** C80: the bytes, of integers with their least byte first: the storage (by rows), the numbers of
    rows and columns, and then with their lengths the positions, the columns, the values. *)
Definition array (width : nat) (l : list N) : bytes := le_bytes 8 (N.of_nat (length l)) ++ flat_map (le_bytes width) l.
Lemma enc_ints k l : enc_seq (int k) l = (flat_map (le_bytes k) l, true).
Proof. induction l as [|x l IH]; [reflexivity|]. cbn [enc_seq flat_map]. rewrite IH. reflexivity. Qed.
Lemma enc_floats l : enc_seq f32_codec l = (flat_map (le_bytes 4) (map (fun x => Z.to_N (bits_of_b32 x)) l), true).
Proof. induction l as [|x l IH]; [reflexivity|]. cbn [enc_seq flat_map map]. rewrite IH. reflexivity. Qed.
Theorem C80_bytes lines : let rs := index_mat lines in
  save_mat (mat_of lines) = Val (le_bytes 4 0 ++ le_bytes 8 (N.of_nat (length lines)) ++ le_bytes 8 260000 ++
    array 8 (positions 0 rs) ++ array 8 (concat (map (map fst) rs)) ++ array 4 (map (fun x => Z.to_N (bits_of_b32 x)) (concat (map (map snd) rs)))).
Proof.
  cbv zeta. destruct (C80_layout lines) as [(A & B & C & D & E & G) _]. unfold MatModel.save_mat.
  replace (enc (csmat_codec checked) (mat_of lines)) with (le_bytes 4 0 ++ le_bytes 8 (N.of_nat (length lines)) ++ le_bytes 8 260000 ++
    array 8 (positions 0 (index_mat lines)) ++ array 8 (concat (map (map fst) (index_mat lines))) ++ array 4 (map (fun x => Z.to_N (bits_of_b32 x)) (concat (map (map snd) (index_mat lines)))), true); [reflexivity|].
  unfold csmat_codec. cbn [via enc]. rewrite A, B, C, D, E, G. replace (length (index_mat lines)) with (length lines) by (unfold IndexModel.index_mat, create_mat; now rewrite !map_length).
  generalize (positions 0 (index_mat lines)), (concat (map (map fst) (index_mat lines))), (concat (map (map snd) (index_mat lines))). intros l1 l2 l3.
  unfold pair, vec. cbn [enc fst snd]. unfold u64. rewrite !enc_ints, enc_floats. unfold array. rewrite map_length. reflexivity.
Qed.

(** C80: bytes that load, when sprs checks them, give a matrix with increasing columns below its
    number of columns in each row (or with rows in each column), which saves and loads unchanged;
    the search in it gives a distance for each line, or panics if it has not 260000 columns. *)
Theorem C80_loaded buf m : checked = true -> Forall (fun b => b < 256) buf -> load_mat buf = Val m ->
  (exists origin rs, holds (row_major m) origin (m_cols (row_major m)) rs /\ Forall (proper_row (m_cols (row_major m))) rs) /\
  (exists b, save_mat m = Val b /\ forall more, load_mat (b ++ more) = Val m) /\
  forall targets, if m_cols m =? 260000 then exists ds, mat_search m targets = Val ds /\ length ds = length targets else mat_search m targets = Panic.
Proof.
  intros K F E. pose proof (csmat_lawful checked) as L. unfold MatModel.load_mat in E. destruct (dec (csmat_codec checked) buf) as [[x rest]|e|] eqn:D; try discriminate. injection E as ->.
  destruct (law_sound _ _ _ _ L _ _ _ F D) as [G _]. csplit.
  - apply well_formed_holds. now apply G.
  - exists (fst (enc (csmat_codec checked) m)). split.
    + unfold MatModel.save_mat. now rewrite (proj2 (law_good _ _ _ _ L _ G) I).
    + intros more. unfold MatModel.load_mat. now rewrite (law_round _ _ _ _ L _ more G I).
  - intros targets. destruct (N.eqb_spec (m_cols m) 260000) as [C|C].
    + eexists. split; [now apply search_any|]. unfold cosine_distance, create_mat. rewrite map_map.
      set (ts := map (fun x => normalise (vectorize hash x)) targets). assert (Z : length ts = length targets) by (unfold ts; now rewrite map_length).
      assert (Q : forall rs res, length res = length ts -> length (fold_left (row_step fused ts) rs res) = length ts).
      { induction rs as [|r rs IH]; intros res Y; [exact Y|]. cbn [fold_left]. apply IH. now apply row_step_length. }
      rewrite Q; [exact Z|]. now rewrite map_length.
    + unfold MatModel.mat_search. cbv zeta. rewrite ones_length. now apply distances_panic.
Qed.

(** ** The python module *)
Notation perform := (perform hash fused checked).
(** C81: a call on capsules of the module has a defined behaviour if and only if search is given
    a capsule of index, and search_mat and save_mat one of index_mat or of load_mat. *)
Definition of_index (c : capsule) : Prop := exists lines, perform (Index lines) = Capsule c.
Definition of_matrix (c : capsule) : Prop := (exists lines, perform (IndexMat lines) = Capsule c) \/ exists buf, perform (LoadMat buf) = Capsule c.
Theorem C81_defined c : of_index c \/ of_matrix c ->
  (forall target, perform (Search c target) <> Undefined <-> of_index c) /\
  (forall targets, perform (SearchMat c targets) <> Undefined <-> of_matrix c) /\
  (perform (SaveMat c) <> Undefined <-> of_matrix c) /\
  (forall lines, perform (Index lines) <> Undefined) /\ (forall lines, perform (IndexMat lines) <> Undefined) /\ forall buf, perform (LoadMat buf) <> Undefined.
Proof.
  assert (A : forall c, of_index c -> exists l, c = HoldsFeatures l) by (intros x (lines & E); injection E as <-; eauto).
  assert (B : forall c, of_matrix c -> exists m, c = HoldsMatrix m).
  { intros x [(lines & E)|(buf & E)]; [injection E as <-; eauto|]. cbn [MatModel.perform] in E. destruct (load_mat buf) as [m|e|]; cbn [answer_of] in E; try discriminate. injection E as <-. eauto. }
  assert (X : forall m t, perform (SearchMat (HoldsMatrix m) t) <> Undefined) by (intros m t; cbn [MatModel.perform]; now destruct (mat_search m t)).
  assert (Y : forall m, perform (SaveMat (HoldsMatrix m)) <> Undefined) by (intros m; cbn [MatModel.perform]; now destruct (save_mat m)).
  intros [H|H].
  - destruct (A c H) as [l ->]. csplit; try (intros; discriminate).
    + intros t. split; [now intros|intros _; discriminate].
    + intros t. split; [intros Z; now destruct Z|]. intros Z. now destruct (B _ Z).
    + split; [intros Z; now destruct Z|]. intros Z. now destruct (B _ Z).
    + intros buf. cbn [MatModel.perform]. now destruct (load_mat buf).
  - destruct (B c H) as [m ->]. csplit; try (intros; discriminate).
    + intros t. split; [intros Z; now destruct Z|]. intros Z. now destruct (A _ Z).
    + intros t. split; [now intros|intros _; apply X].
    + split; [now intros|intros _; apply Y].
    + intros buf. cbn [MatModel.perform]. now destruct (load_mat buf).
Qed.
(** C81: both indexes of the same lines give about the same distances, the first from 0 to 1, and 0 for
    a line that was indexed; the second gives one for each line, in order. *)
Theorem C81_searches lines c c' : perform (Index lines) = Capsule c -> perform (IndexMat lines) = Capsule c' ->
  (forall target, exists d d', perform (Search c target) = Number d /\ perform (SearchMat c' [target]) = Numbers [d'] /\
     fin d /\ (0 <= val d <= 1)%R /\ (In target lines -> d = f_zero) /\
     (Rabs (val d' - val d) <= (INR (length (buckets hash (split_sp target))) + 13) / 8388608)%R) /\
  (forall ts t ts', exists ds d ds', perform (SearchMat c' (ts ++ t :: ts')) = Numbers (ds ++ d :: ds') /\ length ds = length ts /\ length ds' = length ts' /\
     perform (SearchMat c' [t]) = Numbers [d]).
Proof.
  intros E E'. injection E as <-. injection E' as <-. cbn [MatModel.perform]. split.
  - intros t. destruct (C25_searches_agree hash fused lines t) as (d & A & B). destruct (C24_range hash fused [lines] t) as (_ & C & _). cbn [concat] in C. rewrite app_nil_r in C. cbv zeta in C.
    exists (search hash fused (IndexModel.index hash fused lines) t), d. rewrite C80_search, A. cbn [answer_of]. csplit; [reflexivity|reflexivity|apply C|apply C|apply C|apply C25_known_line_zero|exact B].
  - intros ts t ts'. rewrite !C80_search. cbn [answer_of]. pose proof (search_pointwise hash fused [index_mat lines]) as P. rewrite !search_mat_chunk_one, !P, map_app. cbn [map].
    eexists _, _, _. csplit; [reflexivity|now rewrite map_length|now rewrite map_length|reflexivity].
Qed.
(** C81: a matrix that is saved and loaded gives the same distances. *)
Theorem C81_saved lines c : word_count lines + 1 < 2 ^ 64 -> perform (IndexMat lines) = Capsule c ->
  exists b c', perform (SaveMat c) = Bytes b /\ perform (LoadMat b) = Capsule c' /\
    forall targets, exists ds, perform (SearchMat c' targets) = Numbers ds /\ perform (SearchMat c targets) = Numbers ds.
Proof.
  intros W E. injection E as <-. destruct (C80_round_trip lines W) as (b & S & L). exists b, (HoldsMatrix (mat_of lines)). cbn [MatModel.perform]. rewrite S. specialize (L []). rewrite app_nil_r in L. rewrite L. cbn [answer_of].
  csplit; [reflexivity|reflexivity|]. intros targets. rewrite C80_search. cbn [answer_of]. eexists. now split.
Qed.

(** ** Indexes of models *)
(** An index to which batches of lines were added *)
Definition trained_chunk (batches : list (list bytes)) : chunk := fold_left (chunk_add hash) batches hashing_index_new.
Lemma trained_chunk_map batches : trained_chunk batches = HashingTrick (map mat_of batches).
Proof.
  unfold trained_chunk, hashing_index_new. change (map mat_of batches) with ([] ++ map mat_of batches). generalize (@nil csmat) as l. induction batches as [|b bs IH]; intros l; cbn [fold_left map chunk_add]; [now rewrite app_nil_r|].
  rewrite IH. now rewrite <- app_assoc.
Qed.
(** C82: the search in a trained index gives the distances of C19 to C25, and does not panic. *)
Theorem C82_trained batches targets : chunk_search hash fused (trained_chunk batches) targets = Val (hashing_search hash fused (trained hash batches) targets).
Proof.
  rewrite trained_chunk_map, trained_map. unfold chunk_search, mat_search_chunk, hashing_search, search_mat_chunk, cosine_distance_chunk. cbv zeta. rewrite ones_length.
  assert (G : forall bs res, length res = length targets ->
    fold_left (fun result baseline => distances fused baseline (transpose (create_csr (map (vectorize hash) targets))) result) (map mat_of bs) (Val res) =
    Val (fold_left (fun result baseline => fold_left (row_step fused (create_mat (map (vectorize hash) targets))) baseline result) (map index_mat bs) res)).
  { induction bs as [|b bs IH]; intros res Y; [reflexivity|]. cbn [map fold_left]. destruct (C80_layout b) as [H _]. rewrite distances_rows; [|apply H|apply vectors_sorted|now rewrite map_length].
    rewrite (holds_rows _ _ _ _ H). apply IH. clear - Y. revert res Y. induction (index_mat b) as [|r rs IH]; intros res Y; [exact Y|]. cbn [fold_left]. apply IH.
    rewrite row_step_length; unfold create_mat; rewrite !map_length; [reflexivity|exact Y]. }
  apply G. unfold create_mat. now rewrite !map_length.
Qed.
(** C82: it can be saved. *)
Theorem C82_can_be_saved batches : N.of_nat (length batches) < 2 ^ 64 -> Forall (fun lines => word_count lines + 1 < 2 ^ 64) batches ->
  rust_chunk (ok_mat checked) (trained_chunk batches).
Proof.
  intros L W. rewrite trained_chunk_map. cbn [rust_chunk]. split; [unfold word64; now rewrite map_length|]. apply Forall_map. eapply Forall_impl; [|exact W]. apply mat_fits.
Qed.

Section Saved.
Variable enc_write : list bytes -> bytes -> bytes.
Variable enc_finish : list bytes -> bytes.
Variable gunzip : bytes -> bytes * bool.
Hypothesis gz : gzip_codec enc_write enc_finish gunzip.
Context {Date : Type}.
Variable show_date : Date -> bytes.
Variable parse_date : bytes -> option Date.
Variable parse_url : bytes -> option bytes.
Hypothesis GU : good_urls parse_url.
Hypothesis GD : good_dates show_date parse_date.
Notation codec := (model_codec (csmat_codec checked) show_date parse_date parse_url).
(** C82: a model that is saved and loaded searches as the model that was trained: the index of each
    name gives every list of lines the same distances. *)
Theorem C82_saved_model m ws : rust_model (ok_mat checked) show_date parse_date parse_url m -> saveable_model m ->
  concat ws = fst (enc codec m) ->
  exists m', load gunzip codec (Some (gzip enc_write enc_finish ws)) = Val m' /\ m_baselines m' = m_baselines m /\
    forall name ix batches targets, In (name, ix) (m_indexes m) -> i_index ix = trained_chunk batches ->
    exists ix', In (name, ix') (m_indexes m') /\ i_sources ix' = i_sources ix /\
      chunk_search hash fused (i_index ix') targets = Val (hashing_search hash fused (trained hash batches) targets).
Proof.
  intros X G E. exists m. split; [|split; [reflexivity|]].
  - eapply C73_model_round_trip; try eassumption. apply csmat_good.
  - intros name ix batches targets N T. exists ix. csplit; [exact N|reflexivity|]. rewrite T. apply C82_trained.
Qed.
(** C82: any model that loads can be saved, and then loads unchanged. *)
Theorem C82_again f m : Forall (fun b => b < 256) (fst (gunzip f)) -> load gunzip codec (Some f) = Val m ->
  saveable_model m /\ forall ws, concat ws = fst (enc codec m) -> load gunzip codec (Some (gzip enc_write enc_finish ws)) = Val m.
Proof.
  intros F E. eapply (C75_model_again enc_write enc_finish gunzip gz (csmat_codec checked)) in E; try eassumption; [|apply csmat_good]. destruct E as (_ & A & B). now split.
Qed.
End Saved.
(** C82: the index that does nothing gives each line the distance zero, which is never reported,
    whatever was added to it. *)
Theorem C82_noop batches targets : chunk_search hash fused (fold_left (chunk_add hash) batches Noop) targets = Val (map (fun _ => f_zero) targets) /\ above_threshold f_zero = false.
Proof.
  split; [|reflexivity]. replace (fold_left (chunk_add hash) batches Noop) with (@Noop csmat) by (induction batches; [reflexivity|assumption]).
  cbn [chunk_search]. f_equal. induction targets as [|t ts IH]; [reflexivity|]. cbn [length repeat map]. now rewrite IH.
Qed.
End Mat.

(** ** What does not hold *)
(** C80: bytes can load as a matrix in which any search panics. *)
Theorem C80_search_loaded_refuted : forall hash fused checked, exists buf m, load_mat checked buf = Val m /\ forall targets, mat_search hash fused m targets = Panic.
Proof.
  intros hash fused checked. exists (le_bytes 4 0 ++ le_bytes 8 0 ++ le_bytes 8 7 ++ le_bytes 8 1 ++ le_bytes 8 0 ++ le_bytes 8 0 ++ le_bytes 8 0), (mkMat CSR 0 7 [0] [] []). split; [now destruct checked|].
  intros targets. unfold mat_search. cbv zeta. rewrite ones_length. now apply distances_panic.
Qed.
(** C81: python programs can have no defined behaviour: the capsules of index and of index_mat have the
    same name, and nothing tells them apart. *)
Theorem C81_always_defined_refuted : forall hash fused checked lines c c', perform hash fused checked (Index lines) = Capsule c -> perform hash fused checked (IndexMat lines) = Capsule c' ->
  forall target targets, perform hash fused checked (SearchMat c targets) = Undefined /\ perform hash fused checked (SaveMat c) = Undefined /\ perform hash fused checked (Search c' target) = Undefined.
Proof. intros hash fused checked lines c c' E E' target targets. injection E as <-. injection E' as <-. csplit; reflexivity. Qed.

(** ** Cases that meet the hypotheses *)
Definition two_lines : list bytes := [lit "the red car"; []; lit "the car the shop"].
Example C80_example : word_count two_lines + 1 < 2 ^ 64.
Proof. reflexivity. Qed.
(** Five columns for the four words of the hash of P_Index.v and the empty word. *)
Example C80_example_layout : m_indptr (mat_of byte_hash two_lines) = [0; 3; 4; 7] /\ m_indices (mat_of byte_hash two_lines) = [99; 114; 116; 0; 99; 115; 116].
Proof. split; vm_compute; reflexivity. Qed.
Example C81_example : exists c c', perform byte_hash true true (Index two_lines) = Capsule c /\ perform byte_hash true true (IndexMat two_lines) = Capsule c' /\ of_index byte_hash true true c /\ of_matrix byte_hash true true c'.
Proof. eexists _, _. csplit; [reflexivity|reflexivity|now exists two_lines|left; now exists two_lines]. Qed.
Definition model2 : @model csmat bytes := mkModel (1680000000%Z, 5) [CDirectory src2]
  [(lit "b.log", mkIndex (1680000000%Z, 6) (1, 0) [src2; src1] (trained_chunk byte_hash [two_lines; []]) 12 345)].
Example C82_example : rust_model (ok_mat true) (fun d => d) toy_url toy_url model2 /\ saveable_model model2.
Proof.
  assert (K : rust_chunk (ok_mat true) (trained_chunk byte_hash [two_lines; []])) by (apply C82_can_be_saved; [reflexivity|repeat constructor]).
  unfold rust_model, saveable_model, model2. cbn [m_created m_baselines m_indexes]. csplit.
  - settle.
  - cbn. settle.
  - unfold rust_map. csplit; [reflexivity|cbn; settle; cbn; intros []|]. constructor; [|constructor]. cbn [fst snd]. split; [settle|]. unfold rust_index. cbn [i_created i_train i_sources i_index i_lines i_bytes]. csplit; try exact K; cbn; settle.
  - discriminate.
  - constructor; [|constructor]. discriminate.
  - cbn. settle.
Qed.

Print Assumptions C80_layout.
Print Assumptions C80_search.
Print Assumptions C80_round_trip.
Print Assumptions C80_cut.
Print Assumptions C80_bytes.
Print Assumptions C80_loaded.
Print Assumptions C80_search_loaded_refuted.
Print Assumptions C81_defined.
Print Assumptions C81_searches.
Print Assumptions C81_saved.
Print Assumptions C81_always_defined_refuted.
Print Assumptions C82_trained.
Print Assumptions C82_can_be_saved.
Print Assumptions C82_saved_model.
Print Assumptions C82_again.
Print Assumptions C82_noop.
