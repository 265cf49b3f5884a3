(** Analyses with a model that was saved and loaded: C86. *)
From Coq Require Import String List NArith ZArith PeanoNat Bool Lia ZifyBool Permutation FunctionalExtensionality.
From Verif Require Import Common CommonFacts Utf8Facts ProcModel ProcRefute FilesModel FilesSpec FilesSources CliModel IndexModel IndexSpec P_Index CacheModel CacheSpec StoreModel StoreSpec StoreProofs P_Cache P_Store MatModel MatSpec MatProofs P_Mat
  ReportModel ReportSpec ReportProofs ReportMore P_Report P_Compare SavedModel.
Import ListNotations.
Open Scope N_scope.
Ltac csplit := repeat match goal with |- _ /\ _ => split end.

(** ** Names *)
Ltac split64 c q r := pose proof (N.div_mod c 64 ltac:(lia)); pose proof (N.mod_lt c 64 ltac:(lia)); set (q := c / 64) in *; set (r := c mod 64) in *; clearbody q r.
Lemma utf8_first_of c l d r : utf8_first (utf8_encode1 c ++ l) = Some (d, r) -> d = c /\ r = l.
Proof.
  unfold utf8_encode1, utf8_first. destruct (N.ltb_spec c 128) as [L|L]; cbn [app].
  - destruct (N.ltb_spec c 128); [|lia]. now intros [= <- <-].
  - destruct (N.ltb_spec c 2048) as [L2|L2]; cbn [app].
    + split64 c q1 r1. replace (192 + q1 <? 128) with false by lia. replace (194 <=? 192 + q1) with true by lia. replace (192 + q1 <=? 223) with true by lia. cbv iota beta. cbn [andb]. replace ((192 + q1 - 192) * 64 + (128 + r1 - 128)) with c by lia.
      destruct (is_cont _); [|discriminate]. intros [= <- <-]. now split.
    + destruct (N.ltb_spec c 65536) as [L3|L3]; cbn [app].
      * change 4096 with (64 * 64). rewrite <- N.div_div by lia. split64 c q1 r1. split64 q1 q2 r2.
        replace (224 + q2 <? 128) with false by lia. replace (224 + q2 <=? 223) with false by lia. rewrite andb_false_r. replace (224 <=? 224 + q2) with true by lia. replace (224 + q2 <=? 239) with true by lia. cbv iota beta. cbn [andb]. replace ((224 + q2 - 224) * (64 * 64) + (128 + r2 - 128) * 64 + (128 + r1 - 128)) with c by lia.
        destruct (is_cont _ && is_cont _ && _ && _); [|discriminate]. intros [= <- <-]. now split.
      * change 262144 with (64 * (64 * 64)). change 4096 with (64 * 64). rewrite <- !N.div_div by lia. split64 c q1 r1. split64 q1 q2 r2. split64 q2 q3 r3.
        replace (240 + q3 <? 128) with false by lia. replace (240 + q3 <=? 223) with false by lia. replace (240 + q3 <=? 239) with false by lia. rewrite !andb_false_r. cbv iota. replace ((240 + q3 - 240) * (64 * (64 * 64)) + (128 + r3 - 128) * (64 * 64) + (128 + r2 - 128) * 64 + (128 + r1 - 128)) with c by lia.
        destruct (_ && _); [|discriminate]. destruct (is_cont _ && is_cont _ && is_cont _ && _ && _); [|discriminate]. intros [= <- <-]. now split.
Qed.
Lemma utf8_decode_of t s : utf8_decode (utf8_encode t) = Some s -> s = t.
Proof.
  revert s. induction t as [|c t IH]; intros s; [now intros [= <-]|]. cbn [utf8_encode flat_map]. fold (utf8_encode t). rewrite utf8_decode_first.
  destruct (utf8_encode1 c ++ utf8_encode t) as [|b l] eqn:E.
  - unfold utf8_encode1 in E. repeat destruct (_ <? _) in E; discriminate.
  - rewrite <- E. destruct (utf8_first _) as [[d r]|] eqn:F; [|discriminate]. apply utf8_first_of in F. destruct F as [-> ->].
    destruct (utf8_decode (utf8_encode t)) as [t'|]; [|discriminate]. intros [= <-]. f_equal. now apply IH.
Qed.
Lemma text_of_encode t : utf8_decode (utf8_encode t) <> None -> text_of (utf8_encode t) = t.
Proof. unfold text_of. destruct (utf8_decode _) eqn:E; [|contradiction]. intros _. now apply utf8_decode_of in E. Qed.

(** ** Two models with the same answers *)
Section Same.
Context {D B1 B2 : Type}.
Variables (above : D -> bool) (tok : bytes -> bytes) (s1 : B1 -> list bytes -> list D) (s2 : B2 -> list bytes -> list D)
  (open : source -> res (bool -> list item)) (err_text : option N -> text).
Definition same_index (i1 : index_at B1) (i2 : index_at B2) : Prop := ix_sources i1 = ix_sources i2 /\ forall targets, s1 (ix_batches i1) targets = s2 (ix_batches i2) targets.
Definition same_answers (m1 : list (text * index_at B1)) (m2 : list (text * index_at B2)) : Prop :=
  forall n, match get_index m1 n, get_index m2 n with Some i1, Some i2 => same_index i1 i2 | None, None => True | _, _ => False end.
Lemma report_group_same i1 i2 n l : same_index i1 i2 -> forall known r,
  report_group above tok s1 open err_text i1 n l known r = report_group above tok s2 open err_text i2 n l known r.
Proof.
  intros [E1 E2]. induction l as [|s l IH]; intros known r; [reflexivity|]. cbn [report_group]. destruct (get_processor open s) as [items|e|]; [|reflexivity|reflexivity].
  rewrite (functional_extensionality _ _ E2). destruct (process_all _ _ _ _ _) as [[out stop] p]. destruct (stop_error stop) as [err|e|]; [|reflexivity|reflexivity]. cbv zeta. unfold add_anomalies. rewrite E1. apply IH.
Qed.
Lemma report_all_same m1 m2 groups : same_answers m1 m2 -> forall r,
  report_all above tok s1 open err_text m1 groups r = report_all above tok s2 open err_text m2 groups r.
Proof.
  intros H. induction groups as [|[n l] groups IH]; intros r; [reflexivity|]. cbn [report_all]. specialize (H n) as Hn.
  destruct (get_index m1 n) as [i1|], (get_index m2 n) as [i2|]; try contradiction; [|apply IH].
  rewrite (report_group_same _ _ n l Hn). destruct (report_group _ _ _ _ _ _ _ _ _ _); [apply IH|reflexivity|reflexivity].
Qed.
Lemma model_report_same drain m1 m2 target : same_answers m1 m2 ->
  model_report above tok s1 open err_text drain m1 target = model_report above tok s2 open err_text drain m2 target.
Proof. intros H. unfold model_report. destruct (group_sources [target]); [|reflexivity|reflexivity]. now apply report_all_same. Qed.
Lemma live_sources_same m1 m2 l : same_answers m1 m2 -> live_sources above tok s1 open err_text m1 l = live_sources above tok s2 open err_text m2 l.
Proof.
  intros H. induction l as [|s l IH]; [reflexivity|]. cbn [live_sources]. destruct (get_relative s) as [rel|]; [|reflexivity]. specialize (H (index_name rel)) as Hn.
  destruct (get_index m1 _) as [i1|], (get_index m2 _) as [i2|]; try contradiction; [|now rewrite IH].
  destruct (get_processor open s) as [items|e|]; [|reflexivity|reflexivity]. destruct Hn as [_ E2]. rewrite (functional_extensionality _ _ E2), IH. reflexivity.
Qed.
Lemma process_live_same m1 m2 target : same_answers m1 m2 -> process_live above tok s1 open err_text m1 target = process_live above tok s2 open err_text m2 target.
Proof. intros H. unfold process_live. destruct (get_sources target); [|reflexivity|reflexivity]. now apply live_sources_same. Qed.
End Same.

Lemma get_index_map {B1 B2} (f : index_at B1 -> index_at B2) (m : list (text * index_at B1)) n :
  get_index (map (fun e => (fst e, f (snd e))) m) n = option_map f (get_index m n).
Proof.
  unfold get_index, lookup_or_single. assert (E : forall m : list (text * index_at B1), hm_get n (map (fun e => (fst e, f (snd e))) m) = option_map f (hm_get n m)).
  { clear. intros m. induction m as [|[k v] m IH]; [reflexivity|]. cbn [map hm_get fst snd]. destruct (eqb_list k n); [reflexivity|exact IH]. }
  rewrite E. destruct (hm_get n m); [reflexivity|]. cbn [option_map]. destruct m as [|[k v] [|e m]]; reflexivity.
Qed.

(** ** The saved model *)
Section Saved.
Variables (hash : bytes -> N) (fused checked : bool) (tok : bytes -> bytes).
Variable enc_write : list bytes -> bytes -> bytes.
Variable enc_finish : list bytes -> bytes.
Variable gunzip : bytes -> bytes * bool.
Context {Date : Type}.
Variable show_date : Date -> bytes.
Variable parse_date : bytes -> option Date.
Variable parse_url : bytes -> option bytes.
Notation codec := (model_codec (csmat_codec checked) show_date parse_date parse_url).

Lemma stored_answers times (m : ReportModel.model) (sm : @StoreModel.model csmat Date) : NoDup (map fst m) -> Permutation (m_indexes sm) (stored_indexes hash times m) ->
  Forall (fun e => rust_string (fst e)) (m_indexes sm) ->
  same_answers (loaded_search hash fused) (real_search hash fused) (loaded_indexes sm) m.
Proof.
  intros Nd P R n. set (f := fun ix : ReportModel.index_of => mkIndex (ix_sources ix) (trained_chunk hash (ix_batches ix)) (ix_lines ix) (ix_bytes ix)).
  assert (Q : Permutation (loaded_indexes sm) (map (fun e => (fst e, f (snd e))) m)).
  { eapply Permutation_trans; [apply Permutation_map; exact P|]. unfold stored_indexes. rewrite map_map.
    assert (K : Forall (fun e => rust_string (fst e)) (stored_indexes hash times m)) by (eapply Permutation_Forall; [exact P|exact R]).
    apply Permutation_refl'. apply map_ext_in. intros [k ix] I. rewrite Forall_forall in K. specialize (K _ (in_map (fun e => (utf8_encode (fst e), stored_index hash (times (fst e)) (snd e))) m _ I)). cbn [fst snd] in *.
    rewrite text_of_encode by apply K. reflexivity. }
  assert (Nd' : NoDup (map fst (map (fun e => (fst e, f (snd e))) m))) by (rewrite map_map; exact Nd).
  rewrite (get_index_perm (loaded_indexes sm) (map (fun e => (fst e, f (snd e))) m) n); [|eapply Permutation_NoDup; [apply Permutation_map, Permutation_sym; exact Q|exact Nd']|exact Q].
  rewrite get_index_map. destruct (get_index m n) as [ix|]; [|exact I]. cbn [option_map]. split; [reflexivity|]. intros targets. unfold loaded_search. cbn [ix_batches f]. now rewrite C82_trained.
Qed.

(** C86: a model that was trained, saved and loaded gives the same reports and the same live output as
    the model that was trained, for every target, also if the target is read in another way by then,
    and its searches do not panic. *)
Theorem C86_saved : forall open drain baselines m times (sm : @StoreModel.model csmat Date) ws,
  gzip_codec enc_write enc_finish gunzip -> good_urls parse_url -> good_dates show_date parse_date ->
  (forall l, Permutation (drain l) l) -> model_train tok open drain baselines = Val m ->
  Permutation (m_indexes sm) (stored_indexes hash times m) ->
  rust_model (ok_mat checked) show_date parse_date parse_url sm -> saveable_model sm ->
  concat ws = fst (enc codec sm) ->
  exists sm', load gunzip codec (Some (gzip enc_write enc_finish ws)) = Val sm' /\
    Forall (fun e => forall targets, exists l, chunk_search hash fused (i_index (snd e)) targets = Val l) (m_indexes sm') /\
    forall open' err_text drain' target,
      loaded_report hash fused tok open' err_text drain' sm' target = model_report above_threshold tok (real_search hash fused) open' err_text drain' m target /\
      loaded_live hash fused tok open' err_text sm' target = process_live above_threshold tok (real_search hash fused) open' err_text m target.
Proof.
  intros open drain baselines m times sm ws gz GU GD Hd T P R S E. exists sm. csplit.
  - eapply C73_model_round_trip; try eassumption. apply csmat_good.
  - eapply Permutation_Forall; [apply Permutation_sym; exact P|]. unfold stored_indexes. apply Forall_map, Forall_forall. intros [k ix] _ targets. cbn [snd stored_index i_index]. eexists. apply C82_trained.
  - intros open' err_text drain' target. destruct (C40_trained_names tok open drain baselines m Hd T) as (_ & _ & Nd & _).
    assert (A : same_answers (loaded_search hash fused) (real_search hash fused) (loaded_indexes sm) m).
    { eapply stored_answers; [exact Nd|exact P|]. destruct R as (_ & _ & _ & _ & R). eapply Forall_impl; [|exact R]. now intros e []. }
    split; [now apply model_report_same|now apply process_live_same].
Qed.
(** C86: a run that the model was trained with has nothing to report, also for the saved model. *)
Theorem C86_baseline_again : forall open err_text drain drain' baselines target m times (sm : @StoreModel.model csmat Date) ws,
  gzip_codec enc_write enc_finish gunzip -> good_urls parse_url -> good_dates show_date parse_date ->
  (forall l, Permutation (drain l) l) -> (forall l, Permutation (drain' l) l) -> model_train tok open drain baselines = Val m ->
  Permutation (m_indexes sm) (stored_indexes hash times m) ->
  rust_model (ok_mat checked) show_date parse_date parse_url sm -> saveable_model sm ->
  concat ws = fst (enc codec sm) ->
  In target baselines ->
  (forall items items' l l' s s', In items baselines -> In items' baselines -> get_sources items = Val l -> get_sources items' = Val l' ->
     In s l -> In s' l' -> source_name s = source_name s' -> is_json s = is_json s') ->
  exists sm', load gunzip codec (Some (gzip enc_write enc_finish ws)) = Val sm' /\
    forall r, loaded_report hash fused tok open err_text drain' sm' target = Val r ->
    log_reports r = [] /\ total_anomaly_count r = 0 /\ index_errors r = [].
Proof.
  intros open err_text drain drain' baselines target m times sm ws gz GU GD Hd Hd' T P R S E I J.
  destruct (C86_saved open drain baselines m times sm ws gz GU GD Hd T P R S E) as (sm' & L & _ & A). exists sm'. split; [exact L|]. intros r Hr.
  destruct (A open err_text drain' target) as [Ar _]. rewrite Ar in Hr.
  exact (C56_baseline_as_target hash fused tok open err_text drain drain' baselines target m r Hd Hd' I J T Hr).
Qed.
End Saved.

(** ** A case that meets the hypotheses *)
Definition ex_trained : ReportModel.model := match model_train tok_id all_files id_drain [ex_baseline] with Val m => m | _ => [] end.
Definition ex_saved : @StoreModel.model csmat bytes :=
  mkModel (1680000000%Z, 5) [CDirectory src1] (stored_indexes byte_hash (fun _ => ((1680000000%Z, 6), (1, 0))) ex_trained).
Example C86_example : model_train tok_id all_files id_drain [ex_baseline] = Val ex_trained /\ map fst ex_trained = [lit "app.log"; lit "db.log"] /\
  rust_model (ok_mat true) (fun d => d) toy_url toy_url ex_saved /\ saveable_model ex_saved.
Proof.
  assert (T : model_train tok_id all_files id_drain [ex_baseline] = Val ex_trained) by (vm_compute; reflexivity).
  assert (E : ex_trained = [(lit "app.log", mkIndex [Local 4 (lit "old/app.log")] [[lit "start"; lit "work"]] 2 9); (lit "db.log", mkIndex [Local 4 (lit "old/db.log")] [[lit "open"]] 1 4)]) by (vm_compute; reflexivity).
  csplit; [exact T|now rewrite E| | ]; unfold rust_model, saveable_model, ex_saved; rewrite E; cbn [m_created m_baselines m_indexes stored_indexes map fst snd]; csplit.
  - settle.
  - cbn. settle.
  - unfold rust_map. csplit; [reflexivity|repeat constructor; cbn; intuition discriminate|].
    constructor; [|constructor; [|constructor]]; cbn [fst snd]; (split; [settle|]); unfold rust_index, stored_index; cbn [i_created i_train i_sources i_index i_lines i_bytes ix_sources ix_batches ix_lines ix_bytes fst snd]; csplit;
      try (apply C82_can_be_saved; [reflexivity|repeat constructor]); cbn; settle.
  - discriminate.
  - repeat (constructor; [discriminate|]). constructor.
  - cbn. settle.
Qed.
(** The saved model finds what is new. *)
Example C86_example_report : exists r, loaded_report byte_hash false tok_id all_files error_e id_drain ex_saved ex_target = Val r /\
  map (fun lr => (lr_index lr, map (fun c => aline c) (lr_anomalies lr))) (log_reports r) = [(lit "app.log", [lit "crash"]); (lit "app.log", [lit "burn"])].
Proof.
  destruct C86_example as (T & N & (_ & _ & _ & _ & R) & _). destruct C56_example_new as (m & r & T' & Er & El & _). rewrite T in T'. injection T' as <-. exists r. split; [|exact El].
  rewrite <- Er. apply model_report_same. apply (stored_answers byte_hash false (fun _ => ((1680000000%Z, 6), (1, 0)))).
  - rewrite N. repeat constructor; cbn [In]; intuition discriminate.
  - reflexivity.
  - eapply Forall_impl; [|exact R]. now intros e [].
Qed.

Print Assumptions C86_saved.
Print Assumptions C86_baseline_again.
