(** Properties C67 and C68: the answers of the zuul api. *)
From Coq Require Import String List NArith ZArith PeanoNat Bool Lia.
From Verif Require Import Common CommonFacts FilesModel CrawlModel ZuulModel ZuulSpec ZuulProofs CacheModel CacheSpec CacheProofs P_Cache ZuulApiModel.
Import ListNotations.
Open Scope nat_scope.

(** ** C68: decoding *)
Section Decode.
Variable parse_url : text -> option text.
Variable parse_date : text -> option Z.
Notation build_of_json := (build_of_json parse_url parse_date).
Notation decode_builds := (decode_builds parse_url parse_date).

(** The object [f] has the value [v] for [k]. *)
Definition has (f : list (text * json)) (k : text) (v : json) : Prop := exists f1 f2, f = f1 ++ (k, v) :: f2 /\ ~ In k (map fst f1).
Definition lacks (f : list (text * json)) (k : text) : Prop := ~ In k (map fst f).
Lemma field_some k v : forall f, field k f = Some v -> has f k v.
Proof.
  induction f as [|[k' w] f IH]; cbn; [discriminate|]. destruct (eqb_list k k') eqn:E.
  - apply eqb_list_spec in E. subst. intros [= ->]. exists [], f. split; [reflexivity|intros []].
  - intros H. destruct (IH H) as (f1 & f2 & -> & N). exists ((k', w) :: f1), f2. split; [reflexivity|]. intros [Q|Q]; [|now apply N].
    cbn in Q. subst. now rewrite eqb_list_refl in E.
Qed.
Lemma field_none k : forall f, field k f = None -> lacks f k.
Proof.
  induction f as [|[k' w] f IH]; cbn; [intros _ []|]. destruct (eqb_list k k') eqn:E; [discriminate|]. intros H [Q|Q]; [|now apply IH].
  cbn in Q. subst. now rewrite eqb_list_refl in E.
Qed.
Lemma field_skip k k' v f1 f2 : k <> k' -> field k (f1 ++ (k', v) :: f2) = field k (f1 ++ f2).
Proof.
  intros N. induction f1 as [|[k1 w] f1 IH]; cbn; [|now rewrite IH]. destruct (eqb_list k k') eqn:E; [|reflexivity]. apply eqb_list_spec in E. congruence.
Qed.

(** The fields that are read. *)
Definition known : list text :=
  [lit "uuid"; lit "job_name"; lit "result"; lit "start_time"; lit "end_time"; lit "duration"; lit "voting"; lit "log_url"; lit "ref_url"; lit "artifacts";
   lit "project"; lit "branch"; lit "pipeline"; lit "change"; lit "patchset"; lit "ref"; lit "event_id"].
(** Other fields do not matter. *)
Theorem C68_unknown_fields : forall f1 k v f2, ~ In k known -> build_of_json (JObj (f1 ++ (k, v) :: f2)) = build_of_json (JObj (f1 ++ f2)).
Proof.
  intros f1 k v f2 N. assert (S : forall k', In k' known -> field k' (f1 ++ (k, v) :: f2) = field k' (f1 ++ f2)) by (intros k' I; apply field_skip; congruence).
  unfold ZuulApiModel.build_of_json, str_field, bool_field, date_field, number_field, opt_field, artifacts_field, str_field.
  rewrite !S by (cbn; tauto). reflexivity.
Qed.
(** A build that cannot be decoded is left out, and the others are there in the order of the answer. *)
Theorem C68_skipped : forall l1 v l2, build_of_json v = None -> decode_builds (JArr (l1 ++ v :: l2)) = decode_builds (JArr (l1 ++ l2)).
Proof. intros l1 v l2 H. cbn. f_equal. induction l1 as [|x l1 IH]; cbn; [now rewrite H|]. now rewrite IH. Qed.
Theorem C68_kept : forall l1 v l2 b, build_of_json v = Some b ->
  exists bs1 bs2, decode_builds (JArr l1) = Val bs1 /\ decode_builds (JArr l2) = Val bs2 /\ decode_builds (JArr (l1 ++ v :: l2)) = Val (bs1 ++ b :: bs2).
Proof.
  intros l1 v l2 b H. exists (filter_map build_of_json l1), (filter_map build_of_json l2). cbn. repeat split. f_equal.
  induction l1 as [|x l1 IH]; cbn; [now rewrite H|]. destruct (build_of_json x); now rewrite IH.
Qed.
(** The parts of a build come from the fields of their names; change, log_url and ref_url can be
    null or missing. *)
Definition optional {A} (f : list (text * json)) (k : text) (conv : json -> option A) (o : option A) : Prop :=
  match o with None => lacks f k \/ has f k JNull | Some x => exists v, has f k v /\ conv v = Some x end.
Theorem C68_decoded : forall f b, build_of_json (JObj f) = Some b ->
  has f (lit "uuid") (JStr (b_uuid b)) /\ has f (lit "project") (JStr (b_project b)) /\ has f (lit "branch") (JStr (b_branch b)) /\
  has f (lit "pipeline") (JStr (b_pipeline b)) /\ has f (lit "voting") (JBool (b_voting b)) /\
  (exists d, has f (lit "end_time") (JStr d) /\ parse_date d = Some (b_date b)) /\
  optional f (lit "log_url") (fun v => match v with JStr s => parse_url s | _ => None end) (b_log_url b) /\
  optional f (lit "ref_url") (fun v => match v with JStr s => parse_url s | _ => None end) (b_ref_url b) /\
  match b_change b with None => lacks f (lit "change") \/ has f (lit "change") JNull | Some c => has f (lit "change") (JInt (Z.of_N c)) /\ (c < 2 ^ 64)%N end.
Proof.
  intros f b H. unfold ZuulApiModel.build_of_json in H.
  assert (ST : forall k s, str_field k f = Some s -> has f k (JStr s)).
  { intros k s Q. unfold str_field in Q. destruct (field k f) as [[]|] eqn:E; try discriminate. injection Q as ->. now apply field_some. }
  assert (OP : forall A (conv : json -> option A) k o, opt_field conv k f = Some o -> optional f k conv o).
  { intros A conv k o Q. unfold opt_field in Q. destruct (field k f) as [v|] eqn:E.
    - apply field_some in E. destruct v; try (injection Q as <-; now right);
        (destruct (conv _) eqn:C; [|discriminate]; injection Q as <-; eexists; split; [exact E|exact C]).
    - injection Q as <-. left. now apply field_none. }
  destruct (str_field (lit "uuid") f) eqn:E1; [|discriminate]. cbn [bind] in H.
  destruct (str_field (lit "job_name") f) eqn:E2; [|discriminate]. cbn [bind] in H.
  destruct (str_field (lit "result") f) eqn:E3; [|discriminate]. cbn [bind] in H.
  destruct (date_field parse_date (lit "start_time") f) eqn:E4; [|discriminate]. cbn [bind] in H.
  destruct (date_field parse_date (lit "end_time") f) eqn:E5; [|discriminate]. cbn [bind] in H.
  destruct (number_field (lit "duration") f) eqn:E6; [|discriminate]. cbn [bind] in H.
  destruct (bool_field (lit "voting") f) eqn:E7; [|discriminate]. cbn [bind] in H.
  destruct (opt_field (conv_url parse_url) (lit "log_url") f) eqn:E8; [|discriminate]. cbn [bind] in H.
  destruct (opt_field (conv_url parse_url) (lit "ref_url") f) eqn:E9; [|discriminate]. cbn [bind] in H.
  destruct (artifacts_field parse_url f) eqn:E10; [|discriminate]. cbn [bind] in H.
  destruct (str_field (lit "project") f) eqn:E11; [|discriminate]. cbn [bind] in H.
  destruct (str_field (lit "branch") f) eqn:E12; [|discriminate]. cbn [bind] in H.
  destruct (str_field (lit "pipeline") f) eqn:E13; [|discriminate]. cbn [bind] in H.
  destruct (opt_field conv_u64 (lit "change") f) as [oc|] eqn:E14; [|discriminate]. cbn [bind] in H.
  destruct (opt_field conv_str (lit "patchset") f) eqn:E15; [|discriminate]. cbn [bind] in H.
  destruct (str_field (lit "ref") f) eqn:E16; [|discriminate]. cbn [bind] in H.
  destruct (str_field (lit "event_id") f) eqn:E17; [|discriminate]. cbn [bind] in H.
  injection H as <-. cbn [b_uuid b_project b_branch b_pipeline b_voting b_date b_log_url b_ref_url b_change].
  split; [now apply ST|]. split; [now apply ST|]. split; [now apply ST|]. split; [now apply ST|]. split.
  { unfold bool_field in E7. destruct (field (lit "voting") f) as [[]|] eqn:E; try discriminate. injection E7 as ->. now apply field_some. }
  split. { unfold date_field in E5. destruct (str_field (lit "end_time") f) as [day|] eqn:E; [|discriminate]. exists day. split; [now apply ST|exact E5]. }
  split; [exact (OP _ _ _ _ E8)|]. split; [exact (OP _ _ _ _ E9)|].
  apply OP in E14. destruct oc as [c|]; [|exact E14]. destruct E14 as (v & Hv & C). unfold conv_u64 in C. destruct v; try discriminate.
  destruct ((0 <=? n)%Z && (n <? 2 ^ 64)%Z) eqn:B; [|discriminate]. injection C as <-. apply andb_true_iff in B as [B1 B2]. apply Z.leb_le in B1. apply Z.ltb_lt in B2.
  rewrite Z2N.id by exact B1. split; [exact Hv|]. apply N2Z.inj_lt. rewrite Z2N.id by exact B1. exact B2.
Qed.
(** Which objects are decoded: all the fields that are read have to be there with the right kind. *)
Definition texts : list text :=
  [lit "uuid"; lit "job_name"; lit "result"; lit "project"; lit "branch"; lit "pipeline"; lit "ref"; lit "event_id"].
Definition absent (f : list (text * json)) (k : text) : Prop := lacks f k \/ has f k JNull.
Definition has_text (f : list (text * json)) (k : text) (ok : text -> Prop) : Prop := exists s, has f k (JStr s) /\ ok s.
Definition artifact (v : json) : Prop :=
  exists f, v = JObj f /\ has_text f (lit "name") (fun _ => True) /\ has_text f (lit "url") (fun s => parse_url s <> None).
Definition described (f : list (text * json)) : Prop :=
  (forall k, In k texts -> has_text f k (fun _ => True)) /\
  (forall k, In k [lit "start_time"; lit "end_time"] -> has_text f k (fun s => parse_date s <> None)) /\
  (has f (lit "duration") JFloat \/ exists n, has f (lit "duration") (JInt n)) /\
  (exists b, has f (lit "voting") (JBool b)) /\
  (forall k, In k [lit "log_url"; lit "ref_url"] -> absent f k \/ has_text f k (fun s => parse_url s <> None)) /\
  (exists l, has f (lit "artifacts") (JArr l) /\ Forall artifact l) /\
  (absent f (lit "change") \/ exists n, has f (lit "change") (JInt n) /\ (0 <= n < 2 ^ 64)%Z) /\
  (absent f (lit "patchset") \/ has_text f (lit "patchset") (fun _ => True)).
Lemma has_field f k v : has f k v <-> field k f = Some v.
Proof.
  split; [|apply field_some]. intros (f1 & f2 & -> & N). induction f1 as [|[k1 w] f1 IH]; cbn [app field]; [now rewrite eqb_list_refl|].
  cbn [map fst In] in N. destruct (eqb_list k k1) eqn:E; [apply eqb_list_spec in E; subst; tauto|tauto].
Qed.
Lemma lacks_field f k : lacks f k <-> field k f = None.
Proof.
  split; [|apply field_none]. unfold lacks. induction f as [|[k1 w] f IH]; cbn [map fst In field]; [reflexivity|]. intros N.
  destruct (eqb_list k k1) eqn:E; [apply eqb_list_spec in E; subst; tauto|tauto].
Qed.
Lemma str_ok f k : (exists s, str_field k f = Some s) <-> has_text f k (fun _ => True).
Proof.
  unfold str_field, has_text. split.
  - intros [s H]. destruct (field k f) as [[]|] eqn:E; try discriminate. exists s0. split; [now apply has_field|exact I].
  - intros (s & H & _). apply has_field in H. rewrite H. eauto.
Qed.
Lemma date_ok f k : (exists d, date_field parse_date k f = Some d) <-> has_text f k (fun s => parse_date s <> None).
Proof.
  unfold date_field, str_field, has_text. split.
  - intros [d H]. destruct (field k f) as [[]|] eqn:E; try discriminate. exists s. split; [now apply has_field|]. cbn [bind] in H. congruence.
  - intros (s & H & D). apply has_field in H. rewrite H. cbn [bind]. destruct (parse_date s); [eauto|congruence].
Qed.
Lemma bool_ok f k : (exists b, bool_field k f = Some b) <-> exists b, has f k (JBool b).
Proof.
  unfold bool_field. split.
  - intros [b H]. destruct (field k f) as [[]|] eqn:E; try discriminate. eexists. apply has_field. exact E.
  - intros [b H]. apply has_field in H. rewrite H. eauto.
Qed.
Lemma number_ok f k : (exists u, number_field k f = Some u) <-> has f k JFloat \/ exists n, has f k (JInt n).
Proof.
  unfold number_field. split.
  - intros [b H]. destruct (field k f) as [[]|] eqn:E; try discriminate; apply has_field in E; eauto.
  - intros [H|[n H]]; apply has_field in H; rewrite H; eauto.
Qed.
Lemma opt_ok {A} (conv : json -> option A) f k : (exists o, opt_field conv k f = Some o) <-> absent f k \/ exists v, has f k v /\ v <> JNull /\ conv v <> None.
Proof.
  unfold opt_field, absent. split.
  - intros [o H]. destruct (field k f) as [v|] eqn:E; [|left; left; now apply lacks_field]. apply has_field in E.
    destruct v; try (left; now right); right; eexists; (split; [exact E|]); (split; [discriminate|]); destruct (conv _); congruence.
  - intros [[H|H]|(v & H & N & C)]; [apply lacks_field in H|apply has_field in H|apply has_field in H]; rewrite H; eauto.
    destruct v; [congruence| | | | | |]; destruct (conv _); eauto; congruence.
Qed.
Lemma artifact_ok v : is_artifact parse_url v = true <-> artifact v.
Proof.
  unfold artifact. destruct v as [| | | | | |f]; cbn [is_artifact]; try (split; [discriminate|intros (f & H & _); discriminate]).
  rewrite andb_true_iff. split.
  - intros [H1 H2]. exists f. split; [reflexivity|]. split.
    + apply str_ok. destruct (str_field (lit "name") f); [eauto|discriminate].
    + destruct (field (lit "url") f) as [v|] eqn:E; [|discriminate]. cbn [bind] in H2. destruct v; try discriminate. cbn [conv_url] in H2. exists s. split; [now apply has_field|]. destruct (parse_url s); discriminate.
  - intros (f' & [= <-] & H1 & (s & H2 & H3)). apply str_ok in H1. destruct H1 as [n ->]. apply has_field in H2. rewrite H2. cbn [bind conv_url]. destruct (parse_url s); [now split|congruence].
Qed.
Lemma artifacts_ok f : (exists u, artifacts_field parse_url f = Some u) <-> exists l, has f (lit "artifacts") (JArr l) /\ Forall artifact l.
Proof.
  unfold artifacts_field. split.
  - intros [u H]. destruct (field _ f) as [[]|] eqn:E; try discriminate. destruct (forallb (is_artifact parse_url) l) eqn:F; [|discriminate]. exists l. split; [now apply has_field|].
    apply Forall_forall. intros v I. apply artifact_ok. rewrite forallb_forall in F. auto.
  - intros (l & H & F). apply has_field in H. rewrite H. assert (X : forallb (is_artifact parse_url) l = true).
    { apply forallb_forall. intros v I. apply artifact_ok. rewrite Forall_forall in F. auto. }
    rewrite X. eauto.
Qed.
Lemma bind_ok {A B} (o : option A) (g : A -> option B) : (exists b, bind o g = Some b) <-> exists x, o = Some x /\ exists b, g x = Some b.
Proof. destruct o as [x|]; cbn [bind]; split; [intros [b H]; eauto|intros (y & [= <-] & H); exact H|intros [b H]; discriminate|intros (y & H & _); discriminate]. Qed.
Lemma bind_const {A B} (o : option A) (g : A -> option B) (P Q : Prop) : ((exists x, o = Some x) <-> P) -> (forall x, (exists b, g x = Some b) <-> Q) ->
  (exists b, bind o g = Some b) <-> P /\ Q.
Proof.
  intros H K. rewrite bind_ok, <- H. split.
  - intros (x & E & R). split; [eauto|]. now apply (K x).
  - intros [[x E] q]. exists x. split; [exact E|]. now apply K.
Qed.
Theorem C68_accepted : forall v, (exists b, build_of_json v = Some b) <-> exists f, v = JObj f /\ described f.
Proof.
  intros v. destruct v as [| | | | | |f]; try (split; [intros [b0 H]; discriminate|intros (f & H & _); discriminate]); [].
  assert (U : forall k, (exists o, opt_field (conv_url parse_url) k f = Some o) <-> absent f k \/ has_text f k (fun s => parse_url s <> None)).
  { intros k. rewrite opt_ok. split; (intros [H|H]; [now left|right]).
    - destruct H as (v & H & _ & C). destruct v; try (cbn in C; congruence). exists s. auto.
    - destruct H as (s & H & C). exists (JStr s). split; [exact H|]. split; [discriminate|exact C]. }
  assert (C64 : (exists o, opt_field conv_u64 (lit "change") f = Some o) <-> absent f (lit "change") \/ exists n, has f (lit "change") (JInt n) /\ (0 <= n < 2 ^ 64)%Z).
  { rewrite opt_ok. split; (intros [H|H]; [now left|right]).
    - destruct H as (v & H & _ & C). destruct v; try (cbn in C; congruence). exists n. split; [exact H|]. unfold conv_u64 in C. destruct ((0 <=? n)%Z && (n <? 2 ^ 64)%Z) eqn:B; [|congruence]. apply andb_true_iff in B as [B1 B2]. apply Z.leb_le in B1. apply Z.ltb_lt in B2. auto.
    - destruct H as (n & H & B1 & B2). exists (JInt n). split; [exact H|]. split; [discriminate|]. unfold conv_u64. apply Z.leb_le in B1. apply Z.ltb_lt in B2. rewrite B1, B2. discriminate. }
  assert (CS : (exists o, opt_field conv_str (lit "patchset") f = Some o) <-> absent f (lit "patchset") \/ has_text f (lit "patchset") (fun _ => True)).
  { rewrite opt_ok. split; (intros [H|H]; [now left|right]).
    - destruct H as (v & H & _ & C). destruct v; try (cbn in C; congruence). exists s. auto.
    - destruct H as (s & H & _). exists (JStr s). split; [exact H|]. split; discriminate. }
  assert (X : (exists b, build_of_json (JObj f) = Some b) <-> described f).
  { unfold ZuulApiModel.build_of_json.
    eapply iff_trans; [repeat (eapply bind_const; [first [apply str_ok|apply date_ok|apply number_ok|apply bool_ok|apply U|apply artifacts_ok|apply C64|apply CS]|intros ?])|].
    - instantiate (1 := True). split; [auto|eauto].
    - unfold described, texts. cbn [In]. split.
      + intros (H1 & H2 & H3 & H4 & H5 & H6 & H7 & H8 & H9 & H10 & H11 & H12 & H13 & H14 & H15 & H16 & H17 & _).
        repeat match goal with |- _ /\ _ => split end; auto; intros k I; repeat (destruct I as [<-|I]; [assumption|]); destruct I.
      + intros (H1 & H2 & H3 & H4 & H5 & H6 & H7 & H8).
        repeat match goal with |- _ /\ _ => split end; auto; first [apply H1|apply H2|apply H5]; tauto. }
  rewrite X. split; [eauto|]. intros (f' & [= <-] & H). exact H.
Qed.
End Decode.

(** ** C67: what is kept of the answers *)
Section Ask.
Variable digest : text -> text.
Variable parse_url : text -> option text.
Variable enc_write : list bytes -> bytes -> bytes.
Variable enc_finish : list bytes -> bytes.
Variable gunzip : bytes -> bytes * bool.
Hypothesis sized : fixed_size digest.
Hypothesis codec : gzip_codec enc_write enc_finish gunzip.
Variable A : Type.
Variable decode : bytes -> bool -> res A.
Notation step := (step digest parse_url enc_write enc_finish).
Notation exec := (exec digest parse_url enc_write enc_finish).
Notation ask := (ask digest parse_url enc_write enc_finish gunzip A decode).
Notation undropped := (undropped digest).

Lemma dropped_file st b u st' : step st (EDrop b u) st' -> dir (files st') (http_name digest b u) = None.
Proof. intros S. inversion S; subst. apply drop_same. Qed.
(** After an answer that could not be decoded, or no answer, the server is asked again. *)
Theorem C67_asked_again : forall st b u e st', ask st b u (Fail e) st' ->
  (forall k st'', ~ step st' (EHit b u k) st'') /\
  (forall k, readers st' k = None -> exists st'', step st' (EMiss b u k) st'').
Proof.
  intros st b u e st' H.
  assert (D : dir (files st') (http_name digest b u) = None).
  { inversion H; subst.
    - eapply dropped_file; eassumption.
    - eapply dropped_file; eassumption.
    - match goal with S : step _ (EMissFailed _ _) _ |- _ => inversion S; subst end. unfold exists_ in *. now destruct (dir (files st') (http_name digest b u)). }
  split.
  - intros k st'' S. inversion S; subst. congruence.
  - intros k R. eexists. eapply SMiss; [exact R|unfold exists_; now rewrite D|unfold create, exists_, file_create; now rewrite D].
Qed.
(** An answer of the server that could be decoded is given again, without asking. *)
Theorem C67_answer_kept : forall tr0 st b u a st' tr st2 r st3,
  exec init tr0 st -> (forall k s, ~ step st (EHit b u k) s) -> ask st b u (Val a) st' -> exec st' tr st2 -> Forall (undropped b u) tr ->
  ask st2 b u r st3 -> r = Val a.
Proof.
  intros tr0 st b u a st' tr st2 r st3 E0 NH H E U H2. inversion H; subst.
  { exfalso. eapply NH. eassumption. }
  assert (Q : forall ws', Forall (keeps h) (read_all h ws') /\ Forall (saved h) (read_all h ws') /\ Forall (undropped b u) (read_all h ws') /\ concat (chunks h (read_all h ws')) = concat ws').
  { intros ws'. unfold read_all. csplit.
    - apply Forall_app. split; [apply Forall_map, Forall_forall; intros ? ?; exact I|constructor; [exact I|constructor]].
    - apply Forall_app. split; [apply Forall_map, Forall_forall; intros ? ? ?; reflexivity|constructor; [intros ?; reflexivity|constructor]].
    - apply Forall_app. split; [apply Forall_map, Forall_forall; intros ? ?; exact I|constructor; [exact I|constructor]].
    - unfold chunks. rewrite flat_map_app, concat_app. cbn [flat_map app]. rewrite Nat.eqb_refl. cbn [app concat]. rewrite app_nil_r.
      induction ws' as [|w ws' IH]; [reflexivity|]. cbn [map flat_map app concat]. rewrite Nat.eqb_refl. cbn [app concat]. now rewrite IH. }
  destruct (Q ws) as (K & Sv & Ud & Ck).
  destruct (C47_replay digest parse_url enc_write enc_finish gunzip sized codec tr0 st b u h st1 (read_all h ws) st0 st' tr st2 E0) as (_ & R2 & R3 & R4);
    [assumption|assumption|exact K|exact Sv|assumption|exact E|apply Forall_app; now split|].
  rewrite Ck in R2. inversion H2; subst.
  - match goal with S : step st2 (EHit b u _) _ |- _ => rewrite (R2 _ _ S) in * end.
    match goal with Y : Some _ = Some _ |- _ => injection Y as <- <- end. congruence.
  - match goal with S : step st2 (EHit b u _) _ |- _ => rewrite (R2 _ _ S) in * end.
    match goal with Y : Some _ = Some _ |- _ => injection Y as <- <- end. congruence.
  - exfalso. eapply R3. eassumption.
  - exfalso. eapply R3. eassumption.
  - exfalso. eapply R4. eassumption.
Qed.
(** The process ended while the answer was read.  The next run fails, and the one after asks the
    server, if the decoder fails when its reader does. *)
Theorem C67_crash_heals : forall tr1 st1 b u h st2 ws st3 st4 tr3 st5 r st6,
  exec init tr1 st1 -> step st1 (EMiss b u h) st2 -> exec st2 (map (fun w => ERead h (Val w) (Val w)) ws) st3 -> step st3 ECrash st4 -> exec st4 tr3 st5 -> Forall (undropped b u) tr3 ->
  (forall x a, decode x false <> Val a) -> ask st5 b u r st6 ->
  (exists e, r = Fail e) /\ forall k st7, ~ step st6 (EHit b u k) st7.
Proof.
  intros tr1 st1 b u h st2 ws st3 st4 tr3 st5 r st6 E1 S1 E2 S2 E3 U D H.
  destruct (C48_crash_detected digest parse_url enc_write enc_finish gunzip sized codec tr1 st1 b u h st2 (map (fun w => ERead h (Val w) (Val w)) ws) st3 st4 tr3 st5 E1 S1 E2) as (R1 & R2 & R3);
    [apply Forall_map, Forall_forall; intros ? ?; exact I|apply Forall_map, Forall_forall; intros ? ? ?; reflexivity|exact S2|exact E3|
     apply Forall_app; split; [apply Forall_map, Forall_forall; intros ? ?; exact I|exact U]|].
  assert (F : exists e, r = Fail e).
  { inversion H; subst; try (eexists; reflexivity).
    - exfalso. match goal with S : step st5 (EHit b u _) _ |- _ => destruct (R1 _ _ S) as (x' & r' & Dx & _); rewrite Dx in * end.
      match goal with Y : Some _ = Some _ |- _ => injection Y as <- <- end. eapply D. eassumption.
    - exfalso. eapply R3. eassumption. }
  split; [exact F|]. destruct F as (e & ->). exact (proj1 (C67_asked_again _ _ _ _ _ H)).
Qed.
End Ask.

(** *** The hypotheses can be met *)
Definition day (s : text) : option Z := Some 19000%Z.
Definition build_json (change log : json) : json :=
  JObj [(lit "uuid", JStr (lit "5bae5607ae964331bb5878aec0777637")); (lit "job_name", JStr (lit "hlint")); (lit "result", JStr (lit "SUCCESS"));
        (lit "start_time", JStr (lit "2021-10-13T12:57:20")); (lit "end_time", JStr (lit "2021-10-13T12:58:42")); (lit "duration", JFloat); (lit "voting", JBool true);
        (lit "log_url", log); (lit "artifacts", JArr [JObj [(lit "name", JStr (lit "Zuul Manifest")); (lit "url", JStr (lit "https://logs/zuul-manifest.json")); (lit "metadata", JObj [])]]);
        (lit "project", JStr (lit "software-factory/matrix-client-haskell")); (lit "branch", JStr (lit "master")); (lit "pipeline", JStr (lit "gate")); (lit "change", change);
        (lit "patchset", JStr (lit "1")); (lit "ref", JStr (lit "refs/changes/94/22894/1")); (lit "ref_url", JStr (lit "https://softwarefactory-project.io/r/22894"));
        (lit "event_id", JStr (lit "40d9b63d749c48eabb3d7918cfab0d31"))].
Example C68_example : exists b, build_of_json Some day (build_json (JInt 22894) (JStr (lit "https://logs/"))) = Some b /\ b_change b = Some 22894%N /\ b_log_url b = Some (lit "https://logs/") /\
  decode_builds Some day (JArr [JNull; build_json (JInt 22894) (JStr (lit "https://logs/")); JObj [(lit "uuid", JNull)]]) = Val [b].
Proof. eexists. split; [reflexivity|]. repeat split. Qed.
(** The build of a periodic pipeline has no change: as a target it panics. *)
Definition uid1 : text := lit "5bae5607ae964331bb5878aec0777637".
Theorem C52_periodic_target_refuted : exists u b, decode_build Some day (build_json JNull (JStr (lit "https://logs/"))) = Val b /\
  from_zuul_url Some (fun a uid => decode_build Some day (build_json JNull (JStr (lit "https://logs/")))) u = Some Panic.
Proof.
  exists {| origin := lit "https://zuul.opendev.org"; upath := lit "/t/zuul/build/" ++ uid1; suffix := [] |}. eexists. split; [reflexivity|]. reflexivity.
Qed.
(** An answer is read in two parts and kept, another one is not json. *)
Definition starts_brace (x : bytes) (ok : bool) : res nat := match x with 123%N :: _ => if ok then Val (length x) else Fail [] | _ => Fail [] end.
Example C67_example : exists st st',
  ask toy_digest Some toy_write toy_finish toy_gunzip nat starts_brace init u2 u1 (Val 3) st /\
  ask toy_digest Some toy_write toy_finish toy_gunzip nat starts_brace st u2 u2 (Fail []) st' /\ (forall k s, ~ step toy_digest Some toy_write toy_finish init (EHit u2 u1 k) s).
Proof.
  do 2 eexists. split; [|split].
  - eapply (AskMiss _ _ _ _ _ _ _ _ _ _ 0 _ [[123%N; 32%N]; [125%N]]); [eapply SMiss; reflexivity| | |reflexivity].
    + unfold read_all. cbn [map app]. eapply ExecStep; [eapply (SRead _ _ _ _ _ 0 _ _ _ (Val [123%N; 32%N])); reflexivity|].
      eapply ExecStep; [eapply (SRead _ _ _ _ _ 0 _ _ _ (Val [125%N])); reflexivity|].
      eapply ExecStep; [eapply (SRead _ _ _ _ _ 0 _ _ _ (Val [])); reflexivity|apply ExecNow].
    + eapply SClose; reflexivity.
  - eapply (AskMissBad _ _ _ _ _ _ _ _ _ _ 0 _ [ERead 0 (Val [60%N]) (Val [60%N])] _ _ [60%N] true); [eapply SMiss; reflexivity| |repeat constructor| |reflexivity|apply SDrop].
    + eapply ExecStep; [eapply (SRead _ _ _ _ _ 0 _ _ _ (Val [60%N])); reflexivity|apply ExecNow].
    + eapply SClose; reflexivity.
  - intros k s S. inversion S; subst. discriminate.
Qed.

Print Assumptions C68_unknown_fields.
Print Assumptions C68_skipped.
Print Assumptions C68_kept.
Print Assumptions C68_decoded.
Print Assumptions C68_accepted.
Print Assumptions C67_asked_again.
Print Assumptions C67_answer_kept.
Print Assumptions C67_crash_heals.
Print Assumptions C52_periodic_target_refuted.
