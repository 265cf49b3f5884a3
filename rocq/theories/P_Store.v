(** Properties of saved models and reports: C73, C74, C75.
    The codec of the matrices, the texts of urls and dates, and gzip are any that are lawful
    (StoreSpec.v, CacheSpec.v). *)
From Coq Require Import String List NArith ZArith PeanoNat Bool Lia.
From Verif Require Import Common CommonFacts FilesModel CliModel CacheModel CacheSpec CacheProofs StoreModel StoreSpec StoreProofs P_Cache.
Import ListNotations.
Open Scope N_scope.

Section Store.
Variable enc_write : list bytes -> bytes -> bytes.
Variable enc_finish : list bytes -> bytes.
Variable gunzip : bytes -> bytes * bool.
Hypothesis gz : gzip_codec enc_write enc_finish gunzip.
Notation gzip := (gzip enc_write enc_finish).

Section Any.
Context {A : Type}.
Variable c : codec A.
Variables wf good : A -> Prop.
Variable k : nat.
Hypothesis L : lawful c wf good k.
Notation load := (load gunzip c).
Notation save := (save enc_write enc_finish c).
Notation saves := (saves enc_write enc_finish c).

Lemma gzip_prefix ws f lost : f ++ lost = gzip ws -> exists r, concat ws = fst (gunzip f) ++ r.
Proof.
  intros E. destruct gz as (R & _ & P). destruct lost as [|x lost].
  - rewrite app_nil_r in E. subst f. exists []. rewrite app_nil_r. unfold StoreModel.gzip. change (written_from enc_write [] ws ++ enc_finish ws) with (archive enc_write enc_finish ws). now rewrite R.
  - destruct (P ws f (x :: lost)) as [_ H]; [now symmetry|discriminate|exact H].
Qed.
(** The file of a complete save loads. *)
Lemma load_complete x ws : wf x -> good x -> concat ws = fst (enc c x) -> load (Some (gzip ws)) = Val x.
Proof.
  intros X G E. destruct gz as (R & _ & _). unfold StoreModel.load. change (gzip ws) with (archive enc_write enc_finish ws). rewrite R. cbn [fst]. rewrite E, <- (app_nil_r (fst (enc c x))), (law_round _ _ _ _ L); auto.
Qed.
(** A file that gives some of the bytes of a value. *)
Lemma load_some x f q : wf x -> fst (enc c x) = fst (gunzip f) ++ q -> load (Some f) = Val x \/ load (Some f) = Fail (lit "Can't load").
Proof.
  intros X E. unfold StoreModel.load. destruct q as [|y q].
  - destruct (snd (enc c x)) eqn:S.
    + left. rewrite app_nil_r in E. rewrite <- E, <- (app_nil_r (fst (enc c x))), (law_round _ _ _ _ L); auto. now apply (law_good _ _ _ _ L).
    + right. destruct (law_torn _ _ _ _ L x (fst (gunzip f)) [] X E (or_intror S)) as [e ->]. reflexivity.
  - right. destruct (law_torn _ _ _ _ L x (fst (gunzip f)) (y :: q) X E) as [e ->]; [left; discriminate|reflexivity].
Qed.
Lemma load_none x f q : wf x -> fst (enc c x) = fst (gunzip f) ++ q -> q <> [] \/ snd (enc c x) = false -> load (Some f) = Fail (lit "Can't load").
Proof. intros X E Q. unfold StoreModel.load. destruct (law_torn _ _ _ _ L x (fst (gunzip f)) q X E Q) as [e ->]. reflexivity. Qed.
Lemma save_outcome x before o after : wf x -> save x before o after ->
  (after = before /\ o <> Some (Val tt)) \/
  (after <> None /\ (load after = Val x \/ load after = Fail (lit "Can't load")) /\ (forall e, o = Some (Fail e) -> load after = Fail (lit "Can't load"))).
Proof.
  intros X S. destruct S as [| |ws rest f lost E F|ws rest f lost E N F|ws f lost E N F|ws f lost E G F].
  - left. now split.
  - left. now split.
  - right. destruct (gzip_prefix _ _ _ F) as [r R]. rewrite R, <- app_assoc in E. csplit; [discriminate| |discriminate]. symmetry in E. now apply (load_some x f (r ++ rest)).
  - right. destruct (gzip_prefix _ _ _ F) as [r R]. rewrite R, <- app_assoc in E. symmetry in E. assert (H : load (Some f) = Fail (lit "Can't load")).
    { apply (load_none x f (r ++ rest) X E). left. intros Z. now apply app_eq_nil in Z as [_ ->]. }
    csplit; [discriminate|now right|now intros].
  - right. destruct (gzip_prefix _ _ _ F) as [r R]. rewrite R in E. symmetry in E. assert (H : load (Some f) = Fail (lit "Can't load")) by (apply (load_none x f r X E); now right).
    csplit; [discriminate|now right|now intros].
  - right. destruct (gzip_prefix _ _ _ F) as [r R]. rewrite R in E. symmetry in E. csplit; [discriminate| |discriminate]. now apply (load_some x f r).
Qed.
Lemma save_ok_iff x : wf x -> ((exists before after, save x before (Some (Val tt)) after) <-> good x).
Proof.
  intros X. rewrite <- (law_good _ _ _ _ L x X). split.
  - intros (before & after & S). inversion S; subst. assumption.
  - intros G. exists None, (Some (gzip [fst (enc c x)])). apply Written with (ws := [fst (enc c x)]) (lost := []); [now cbn; rewrite app_nil_r|exact G|now rewrite app_nil_r].
Qed.
Lemma saves_outcome before h f : Forall (fun e => wf (fst e)) h -> saves before h f ->
  (f = before /\ Forall (fun e => snd e <> Some (Val tt)) h) \/
  exists h1 x o h2, h = h1 ++ (x, o) :: h2 /\ Forall (fun e => snd e <> Some (Val tt)) h2 /\ f <> None /\
    (load f = Val x \/ load f = Fail (lit "Can't load")) /\ (forall e, o = Some (Fail e) -> load f = Fail (lit "Can't load")).
Proof.
  intros W S. induction S as [|h f x o f' S IH T]; [left; now split|]. apply Forall_app in W as [W X]. inversion X as [|? ? X' _]; subst. cbn [fst] in X'.
  destruct (save_outcome x f o f' X' T) as [[-> O]|(N & l & m)].
  - destruct (IH W) as [[-> F]|(h1 & y & o' & h2 & -> & F & R)].
    + left. split; [reflexivity|]. apply Forall_app. split; [exact F|now repeat constructor].
    + right. exists h1, y, o', (h2 ++ [(x, o)]). split; [now rewrite <- app_assoc|]. split; [apply Forall_app; split; [exact F|now repeat constructor]|exact R].
  - right. exists h, x, o, []. csplit; auto.
Qed.
End Any.

Context {Matrix Date : Type}.
Variable matrix : StoreModel.codec Matrix.
Variable ok_matrix : Matrix -> Prop.
Variable show_date : Date -> bytes.
Variable parse_date : bytes -> option Date.
Variable parse_url : bytes -> option bytes.
Hypothesis GM : good_matrices ok_matrix matrix.
Hypothesis GU : good_urls parse_url.
Hypothesis GD : good_dates show_date parse_date.
Notation report_codec := (report_codec show_date parse_date parse_url).
Notation model_codec := (model_codec matrix show_date parse_date parse_url).
Notation rust_report := (rust_report show_date parse_date parse_url).
Notation rust_model := (rust_model ok_matrix show_date parse_date parse_url).
Notation load_report := (load gunzip report_codec).
Notation load_model := (load gunzip model_codec).
Notation save_report := (save enc_write enc_finish report_codec).
Notation save_model := (save enc_write enc_finish model_codec).

(** C73: a report that could be saved loads unchanged, whatever the sizes of the writes were; it can
    be saved if and only if it was made after 1970 and every local path that it names is unicode. *)
Theorem C73_report_round_trip r ws : rust_report r -> saveable_report r ->
  concat ws = fst (enc report_codec r) -> load_report (Some (gzip ws)) = Val r.
Proof. intros X G E. eapply load_complete; try apply saveable_report_lawful; eassumption. Qed.
Theorem C73_report_can_be_saved r : rust_report r ->
  ((exists before after, save_report r before (Some (Val tt)) after) <-> saveable_report r).
Proof. intros X. eapply save_ok_iff; [apply saveable_report_lawful; eassumption|exact X]. Qed.
Theorem C73_model_round_trip m ws : rust_model m -> saveable_model m ->
  concat ws = fst (enc model_codec m) -> load_model (Some (gzip ws)) = Val m.
Proof. intros X G E. eapply load_complete; try (eapply saveable_model_lawful; eassumption); eassumption. Qed.
Theorem C73_model_can_be_saved m : rust_model m ->
  ((exists before after, save_model m before (Some (Val tt)) after) <-> saveable_model m).
Proof. intros X. eapply save_ok_iff; [eapply saveable_model_lawful; eassumption|exact X]. Qed.

(** C74: whatever happens to saves (errors, crashes, a full disk), the file is what it was, and no save
    succeeded, or it loads as one of the saved values, none having been saved with success since, or
    it does not load.  After a save that failed it does not load. *)
Theorem C74_report_saves before h f : Forall (fun e => rust_report (fst e)) h ->
  saves enc_write enc_finish report_codec before h f ->
  (f = before /\ Forall (fun e => snd e <> Some (Val tt)) h) \/
  exists h1 r o h2, h = h1 ++ (r, o) :: h2 /\ Forall (fun e => snd e <> Some (Val tt)) h2 /\ f <> None /\
    (load_report f = Val r \/ load_report f = Fail (lit "Can't load")) /\
    (forall e, o = Some (Fail e) -> load_report f = Fail (lit "Can't load")).
Proof. intros W S. eapply saves_outcome; [apply saveable_report_lawful; eassumption|exact W|exact S]. Qed.
Theorem C74_model_saves before h f : Forall (fun e => rust_model (fst e)) h ->
  saves enc_write enc_finish model_codec before h f ->
  (f = before /\ Forall (fun e => snd e <> Some (Val tt)) h) \/
  exists h1 m o h2, h = h1 ++ (m, o) :: h2 /\ Forall (fun e => snd e <> Some (Val tt)) h2 /\ f <> None /\
    (load_model f = Val m \/ load_model f = Fail (lit "Can't load")) /\
    (forall e, o = Some (Fail e) -> load_model f = Fail (lit "Can't load")).
Proof. intros W S. eapply saves_outcome; [eapply saveable_model_lawful; eassumption|exact W|exact S]. Qed.
(** C74: a saved file that lost its end loads as what was saved, or not at all. *)
Theorem C74_report_cut r ws f lost : rust_report r -> concat ws = fst (enc report_codec r) -> f ++ lost = gzip ws ->
  load_report (Some f) = Val r \/ load_report (Some f) = Fail (lit "Can't load").
Proof.
  intros X E F. destruct (gzip_prefix _ _ _ F) as [q R]. rewrite R in E. symmetry in E. eapply load_some; [apply saveable_report_lawful; eassumption|exact X|exact E].
Qed.
Theorem C74_model_cut m ws f lost : rust_model m -> concat ws = fst (enc model_codec m) -> f ++ lost = gzip ws ->
  load_model (Some f) = Val m \/ load_model (Some f) = Fail (lit "Can't load").
Proof.
  intros X E F. destruct (gzip_prefix _ _ _ F) as [q R]. rewrite R in E. symmetry in E. eapply load_some; [eapply saveable_model_lawful; eassumption|exact X|exact E].
Qed.

(** C75: whatever file it comes from, a report or a model that loads is one that can be saved again,
    and then loads unchanged. *)
Theorem C75_report_again f r : Forall (fun b => b < 256) (fst (gunzip f)) -> load_report (Some f) = Val r ->
  rust_report r /\ saveable_report r /\ forall ws, concat ws = fst (enc report_codec r) -> load_report (Some (gzip ws)) = Val r.
Proof.
  intros F E. unfold load in E. destruct (dec report_codec (fst (gunzip f))) as [[x rest]|e|] eqn:D; try discriminate. injection E as ->.
  destruct (law_sound _ _ _ _ (saveable_report_lawful show_date parse_date parse_url GU GD) _ _ _ F D) as [X G]. csplit; [exact X|exact G|]. intros ws. now apply C73_report_round_trip.
Qed.
Theorem C75_model_again f m : Forall (fun b => b < 256) (fst (gunzip f)) -> load_model (Some f) = Val m ->
  rust_model m /\ saveable_model m /\ forall ws, concat ws = fst (enc model_codec m) -> load_model (Some (gzip ws)) = Val m.
Proof.
  intros F E. unfold load in E. destruct (dec model_codec (fst (gunzip f))) as [[x rest]|e|] eqn:D; try discriminate. injection E as ->.
  destruct (law_sound _ _ _ _ (saveable_model_lawful matrix ok_matrix show_date parse_date parse_url GM GU GD) _ _ _ F D) as [X G]. csplit; [exact X|exact G|]. intros ws. now apply C73_model_round_trip.
Qed.
End Store.

(** ** What does not hold *)
(** The codec with one mark per byte of P_Cache.v; matrices are lists of integers; any text that is
    UTF-8 and not too long is a url, and a date. *)
Definition toy_matrix : codec (list N) := vec u64.
Definition toy_url (u : bytes) : option bytes := if is_utf8 u && (N.of_nat (length u) <=? isize_max) then Some u else None.
Notation toy_report := (report_codec (fun d : bytes => d) toy_url toy_url).
Notation toy_model := (model_codec toy_matrix (fun d : bytes => d) toy_url toy_url).
Notation toy_gzip := (gzip toy_write toy_finish).
Example toy_matrices : good_matrices (rust_vec word64) toy_matrix.
Proof.
  assert (L : lawful toy_matrix (rust_vec word64) (Forall anything) 8) by (eapply vec_lawful; [apply u64_lawful|lia]). unfold good_matrices. csplit.
  - intros m r W. assert (G : Forall anything m) by now apply Forall_forall. split; [now apply (law_good _ _ _ _ L)|now apply (law_round _ _ _ _ L)].
  - intros m p q W E Q. apply (law_torn _ _ _ _ L m p q W E). now left.
  - apply (law_empty _ _ _ _ L). lia.
  - intros b m r D. destruct (law_eats _ _ _ _ L _ _ _ D) as (p & -> & H). exists p. split; [reflexivity|]. intros ->. cbn [length] in H. lia.
  - intros b m r F D. apply (law_sound _ _ _ _ L _ _ _ F D).
Qed.
Lemma toy_string u v : toy_url u = Some v -> rust_string v /\ toy_url v = Some v.
Proof.
  unfold toy_url, rust_string, isize_max. destruct (is_utf8 u) eqn:U; [|discriminate]. destruct (N.leb_spec (N.of_nat (length u)) (2 ^ 63 - 1)) as [H|H]; [|discriminate]. cbn [andb]. intros E. injection E as <-.
  rewrite U. apply N.leb_le in H. rewrite H. apply is_utf8_true in U. apply N.leb_le in H. csplit; [exact U|exact H|reflexivity].
Qed.
Example toy_urls : good_urls toy_url.
Proof. intros u v E. now apply toy_string in E. Qed.
Example toy_dates : good_dates (fun d => d) toy_url.
Proof. intros u v E. now apply toy_string in E. Qed.

(** A report with an anomaly, and a model. *)
Definition src1 : source := Local 4 (lit "/tmp/a.log").
Definition src2 : source := Remote 12 (lit "http://logs/b.log").
Definition build1 : @build bytes := mkBuild (lit "http://zuul/api/") (lit "uuid") (lit "job") (lit "project") (lit "main") (lit "FAILURE") (lit "gate")
  (lit "http://logs/") (lit "http://review/1") (lit "2023-04-01T00:00:00Z") 1.
Definition report1 : @report bytes := mkReport (1680000000%Z, 5) (3, 250000000) (CZuul build1) [CFile src1; CDirectory src2]
  [mkLogReport (0, 1000) 3 60 [mkContext [lit "before"] (mkAnomaly 1065353216 2 (lit "oops")) [lit "after"; []]] src2 (lit "b.log")]
  [(lit "a.log", mkIndexReport (0, 1) [src1]); (lit "b.log", mkIndexReport (0, 2) [src2])] [[src1]] [(src1, lit "denied")] 3 1.
Definition model1 : @model (list N) bytes := mkModel (1680000000%Z, 5) [CDirectory src2]
  [(lit "b.log", mkIndex (1680000000%Z, 6) (1, 0) [src2; src1] (HashingTrick [[1; 2]; []]) 12 345); ([], mkIndex (0%Z, 0) (0, 0) [] Noop 0 0)].
Ltac settle := unfold rust_vec, rust_map, rust_url, rust_date, rust_string, rust_path, rust_duration, rust_time, word64, word32 in *; cbn [fst snd];
  repeat first [split | apply Forall_cons | apply Forall_nil | apply NoDup_cons | apply NoDup_nil | discriminate | reflexivity | (vm_compute; discriminate)].
Example C73_example_report : rust_report (fun d => d) toy_url toy_url report1 /\ saveable_report report1.
Proof.
  unfold rust_report, saveable_report. cbn. settle; try (cbn; intros [E|[]]; discriminate); try (cbn; intros []).
Qed.
Example C73_example_model : rust_model (rust_vec word64) (fun d => d) toy_url toy_url model1 /\ saveable_model model1.
Proof.
  unfold rust_model, saveable_model. cbn. settle; try (cbn; intros [E|[]]; discriminate); try (cbn; intros []).
Qed.
(** Saves that fail, one that succeeds, one that is interrupted. *)
Example C74_example : saves toy_write toy_finish toy_report None
  [(report1, Some (Fail (lit "Can't create file"))); (report1, Some (Val tt)); (report1, None)] (Some [1]).
Proof.
  apply (MoreSave _ _ _ _ [_; _]) with (f := Some (toy_gzip [fst (enc toy_report report1)])).
  - apply (MoreSave _ _ _ _ [_]) with (f := None).
    + apply (MoreSave _ _ _ _ []) with (f := None); constructor.
    + apply Written with (ws := [fst (enc toy_report report1)]) (lost := []); [now cbn [concat]; rewrite app_nil_r| |now rewrite app_nil_r].
      apply (law_good _ _ _ _ (saveable_report_lawful _ _ _ toy_urls toy_dates)); apply C73_example_report.
  - apply Ended with (ws := [firstn 1 (fst (enc toy_report report1))]) (rest := skipn 1 (fst (enc toy_report report1))) (lost := [0; 0]).
    + cbn [concat]. rewrite app_nil_r. apply firstn_skipn.
    + reflexivity.
Qed.

(** C74: a save that succeeds does not always leave a file that loads: the write of the end of the
    archive can fail, unnoticed. *)
Theorem C74_success_loads_refuted : exists r f, rust_report (fun d => d) toy_url toy_url r /\
  save toy_write toy_finish toy_report r None (Some (Val tt)) (Some f) /\ load toy_gunzip toy_report (Some f) = Fail (lit "Can't load").
Proof.
  exists report1, []. csplit; [apply C73_example_report| |reflexivity].
  apply Written with (ws := [fst (enc toy_report report1)]) (lost := toy_gzip [fst (enc toy_report report1)]); [now cbn [concat]; rewrite app_nil_r| |reflexivity].
  apply (law_good _ _ _ _ (saveable_report_lawful _ _ _ toy_urls toy_dates)); apply C73_example_report.
Qed.
(** C74: a save that fails destroys what was saved before: here a report names a path that is not
    unicode. *)
Definition report2 : @report bytes := mkReport (1680000000%Z, 5) (0, 0) (CFile (Local 0 [255])) [] [] [] [] [] 0 0.
Theorem C74_previous_kept_refuted : exists r r' f f' e, rust_report (fun d => d) toy_url toy_url r' /\
  save toy_write toy_finish toy_report r None (Some (Val tt)) (Some f) /\ load toy_gunzip toy_report (Some f) = Val r /\
  save toy_write toy_finish toy_report r' (Some f) (Some (Fail e)) f' /\ load toy_gunzip toy_report f' = Fail (lit "Can't load").
Proof.
  assert (W : concat [fst (enc toy_report report1)] = fst (enc toy_report report1)) by (cbn [concat]; now rewrite app_nil_r).
  assert (W2 : concat [fst (enc toy_report report2)] = fst (enc toy_report report2)) by (cbn [concat]; now rewrite app_nil_r).
  assert (R2 : rust_report (fun d => d) toy_url toy_url report2) by (unfold rust_report; cbn; settle).
  assert (S2 : save toy_write toy_finish toy_report report2 (Some (toy_gzip [fst (enc toy_report report1)])) (Some (Fail (lit "Can't save"))) (Some (toy_gzip [fst (enc toy_report report2)]))).
  { apply NotEncoded with (ws := [fst (enc toy_report report2)]) (lost := []); [exact W2|reflexivity|now rewrite app_nil_r]. }
  exists report1, report2, (toy_gzip [fst (enc toy_report report1)]), (Some (toy_gzip [fst (enc toy_report report2)])), (lit "Can't save"). csplit.
  - exact R2.
  - apply Written with (ws := [fst (enc toy_report report1)]) (lost := []); [exact W| |now rewrite app_nil_r].
    apply (law_good _ _ _ _ (saveable_report_lawful _ _ _ toy_urls toy_dates)); apply C73_example_report.
  - apply (C73_report_round_trip toy_write toy_finish toy_gunzip toy_codec (fun d => d) toy_url toy_url toy_urls toy_dates); [apply C73_example_report|apply C73_example_report|exact W].
  - exact S2.
  - destruct (save_outcome _ _ _ toy_codec _ _ _ _ (saveable_report_lawful _ _ _ toy_urls toy_dates) _ _ _ _ R2 S2) as [[E _]|(_ & _ & H)].
    + exfalso. apply (f_equal (fun f => match f with Some b => length b | None => 0%nat end)) in E. vm_compute in E. discriminate.
    + now apply (H (lit "Can't save")).
Qed.
(** C75: a file that ends too early for gzip can load. *)
Theorem C75_checksum_refuted : exists f, snd (toy_gunzip f) = false /\ load toy_gunzip toy_report (Some f) = Val report1.
Proof.
  exists (flat_map (fun b => [1; b]) (fst (enc toy_report report1))). split.
  - generalize (fst (enc toy_report report1)). intros l. induction l as [|b l IH]; [reflexivity|]. cbn [flat_map app toy_gunzip snd]. exact IH.
  - assert (E : fst (toy_gunzip (flat_map (fun b => [1; b]) (fst (enc toy_report report1)))) = fst (enc toy_report report1)).
    { generalize (fst (enc toy_report report1)). intros l. induction l as [|b l IH]; [reflexivity|]. cbn [flat_map app toy_gunzip fst]. now rewrite IH. }
    unfold load. rewrite E, <- (app_nil_r (fst (enc toy_report report1))).
    rewrite (law_round _ _ _ _ (saveable_report_lawful _ _ _ toy_urls toy_dates)); [reflexivity|apply C73_example_report|apply C73_example_report].
Qed.
(** C75: a file can make its reader panic: the length of a text is believed before it is read. *)
Theorem C75_no_panic_refuted : exists f, snd (toy_gunzip f) = true /\ load toy_gunzip toy_report (Some f) = Panic.
Proof.
  exists (toy_gzip [repeat 0 40 ++ repeat 255 8]). change toy_gzip with (archive toy_write toy_finish). unfold load. rewrite (proj1 toy_codec). split; [reflexivity|vm_compute; reflexivity].
Qed.
(** C75: nothing tells a report from a model: a saved report can load as a model. *)
Theorem C75_kind_refuted : exists r ws m, rust_report (fun d => d) toy_url toy_url r /\ concat ws = fst (enc toy_report r) /\ snd (enc toy_report r) = true /\
  load toy_gunzip toy_report (Some (toy_gzip ws)) = Val r /\ load toy_gunzip toy_model (Some (toy_gzip ws)) = Val m.
Proof.
  set (r := mkReport (1680000000%Z, 5) (0, 0) (CFile src1) [] [] [] [] [] 0 0 : @report bytes).
  assert (R : rust_report (fun d => d) toy_url toy_url r) by (unfold rust_report; cbn; settle).
  exists r, [fst (enc toy_report r)], (mkModel (1680000000%Z, 5) [] []). change toy_gzip with (archive toy_write toy_finish). unfold load. rewrite (proj1 toy_codec). cbn [fst].
  csplit; [exact R|cbn [concat]; now rewrite app_nil_r|reflexivity|vm_compute; reflexivity|vm_compute; reflexivity].
Qed.
Print Assumptions C73_report_round_trip.
Print Assumptions C73_report_can_be_saved.
Print Assumptions C73_model_round_trip.
Print Assumptions C73_model_can_be_saved.
Print Assumptions C74_report_saves.
Print Assumptions C74_model_saves.
Print Assumptions C74_report_cut.
Print Assumptions C74_model_cut.
Print Assumptions C74_success_loads_refuted.
Print Assumptions C74_previous_kept_refuted.
Print Assumptions C75_report_again.
Print Assumptions C75_model_again.
Print Assumptions C75_checksum_refuted.
Print Assumptions C75_no_panic_refuted.
Print Assumptions C75_kind_refuted.
