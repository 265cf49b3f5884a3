(** Properties C40-C43 and C57-C58: models, reports and rendered lines. *)
From Coq Require Import String List NArith Arith Bool Lia Permutation ZifyBool ZifyN ZifyNat.
From Verif Require Import Common CommonFacts IterModel IterSpec IterMain P_Iter ProcModel ProcSpec ProcInv ProcResult ProcRefute P_Proc
  FilesModel FilesSpec FilesSources ReportModel ReportSpec ReportProofs ReportMore ReportRender.
Import ListNotations.
Open Scope N_scope.

(** ** C40 *)
Theorem C40_index_of_a_name : forall (m : model) n ix, NoDup (map fst m) ->
  (get_index m n = Some ix <-> stored m n ix \/ ((forall ix', ~ stored m n ix') /\ only_value m ix)).
Proof. intros m n ix Hd. exact (lookup_some m n ix Hd). Qed.
(** Two or more indexes: only the name counts. *)
Theorem C40_several_indexes : forall (m : model) n, NoDup (map fst m) -> (2 <= length m)%nat ->
  (get_index m n = None <-> ~ In n (map fst m)).
Proof.
  intros m n Hd Hl. unfold get_index. rewrite (lookup_none m n Hd). unfold no_index, has_index, stored, only_value. split.
  - intros H Hi. apply in_map_iff in Hi. destruct Hi as ([k v] & <- & Hi). apply (H v). auto.
  - intros H v [Hi|[_ (k & ->)]]; [|cbn in Hl; lia]. apply H. apply in_map_iff. exists (n, v). auto.
Qed.
(** The names of a trained model: one index per name of the baselines. *)
Theorem C40_trained_names : forall tok open drain baselines m, (forall l, Permutation (drain l) l) ->
  model_train tok open drain baselines = Val m ->
  exists contents, Forall2 (fun items l => get_sources items = Val l) baselines contents /\ NoDup (map fst m) /\
    forall n, In n (map fst m) <-> exists s, In s (concat contents) /\ source_name s = Some n.
Proof.
  intros tok open drain baselines m Hd H. destruct (model_train_ok tok open drain baselines m Hd H) as (ls & groups & H1 & H2 & H3 & H4).
  exists ls. split; [exact H1|]. split; [exact H3|]. intros n. rewrite (forall2_fst _ _ _ (fun x y H => proj1 H) H4). split.
  - intros Hi. apply in_map_iff in Hi. destruct Hi as ([k l] & <- & Hi). apply (proj2 H2) in Hi. destruct Hi as [Hne Hs].
    destruct l as [|s l]; [congruence|]. exists s. apply (selected_in _ _ _ s Hs). now left.
  - intros (s & Hs & Hn). destruct (grouping_has groups _ s H2 Hs ltac:(congruence)) as (n' & l & E & Hi & _).
    rewrite Hn in E. injection E as <-. apply in_map_iff. exists (n, l). auto.
Qed.

(** ** C41 *)
Section Reports.
Context {D : Type} (above : D -> bool) (tok : bytes -> bytes)
  (search_of : list (list bytes) -> list bytes -> list D) (dist_of : list (list bytes) -> bytes -> D)
  (open : source -> res (bool -> list item)) (err_text : option N -> text)
  (drain : list (text * list source) -> list (text * list source)).

(** A report is what its groups give: see [made_of], [group_outcome] and [analysis]. *)
Theorem C41_report_of_groups : forall m target r,
  (forall batches, pointwise (search_of batches) (dist_of batches)) -> (forall l, Permutation (drain l) l) ->
  NoDup (map fst m) -> model_report above tok search_of open err_text drain m target = Val r ->
  exists sources groups results, get_sources target = Val sources /\ grouping source_name groups sources /\
    Forall2 (result_of above tok dist_of open err_text m) groups results /\ made_of results r.
Proof. intros m target r Hs Hd Hm H. eapply model_report_made; eauto. Qed.

(** There is a report unless the target cannot be listed: sources that cannot be opened or
    read do not matter. *)
Theorem C41_report_exists : forall m target sources,
  (forall batches, pointwise (search_of batches) (dist_of batches)) -> (forall l, Permutation (drain l) l) ->
  get_sources target = Val sources -> (forall s, In s sources -> get_relative s <> None /\ open s <> Panic) ->
  exists r, model_report above tok search_of open err_text drain m target = Val r.
Proof. intros. eapply model_report_val; eauto. Qed.

Theorem C41_totals : forall m target r,
  (forall batches, pointwise (search_of batches) (dist_of batches)) -> (forall l, Permutation (drain l) l) ->
  NoDup (map fst m) -> model_report above tok search_of open err_text drain m target = Val r ->
  total_anomaly_count r = sum (map (fun lr => N.of_nat (length (lr_anomalies lr))) (log_reports r)) /\
  sum (map (fun lr => lr_lines lr) (log_reports r)) <= total_line_count r /\
  (forall lr, In lr (log_reports r) -> lr_anomalies lr <> [] /\ In (lr_index lr) (map fst (index_reports r)) /\
     source_name (lr_source lr) = Some (lr_index lr) /\ exists sources, get_sources target = Val sources /\ In (lr_source lr) sources) /\
  (forall n, In n (map fst (index_reports r)) -> exists lr, In lr (log_reports r) /\ lr_index lr = n) /\
  (forall n l, In (n, l) (index_reports r) -> exists ix, has_index m n ix /\ ix_sources ix = l).
Proof.
  intros m target r Hs Hd Hm H.
  destruct (model_report_made above tok search_of dist_of Hs open err_text drain Hd m target r Hm H) as (sources & groups & gs & H1 & H2 & H3 & H4).
  destruct (made_totals gs r H4) as [T1 T2]. csplit; auto.
  - intros lr Hl. destruct (made_log gs r lr H4 Hl) as (g & ix & outs & s & c & cs & err & lines & G1 & G2 & G3 & ->).
    cbn [lr_anomalies lr_index lr_source]. destruct (forall2_in_r _ _ _ _ H3 G1) as ([n l] & R1 & R2 & R3). rewrite G2 in R3. cbn [fst snd] in *.
    destruct R3 as [R3 R4]. rewrite R2. cbn [fst].
    assert (Hsl : In s l).
    { rewrite <- (group_outcome_sources above tok dist_of open err_text _ _ _ _ R4). apply in_map_iff. exists (Analysed s (c :: cs) err lines). auto. }
    apply (proj2 H2) in R1. destruct R1 as [_ R1]. apply (selected_in _ _ _ s R1) in Hsl. destruct Hsl as [Hs1 Hs2].
    split; [discriminate|]. split; [|split; eauto].
    apply in_map_iff. exists (n, ix_sources ix). split; [reflexivity|]. apply (made_index gs r n (ix_sources ix) H4). exists g, ix, outs. csplit; auto.
    + unfold gr_logs, gr_outs. rewrite G2. intros E. assert (K : In (mkLog (N.of_nat (length lines)) (total_bytes lines) (c :: cs) s (fst (fst g))) []); [|destruct K].
      rewrite <- E. apply in_flat_map. exists (Analysed s (c :: cs) err lines). split; [exact G3|now left].
    + now rewrite R2.
  - intros n Hn. apply in_map_iff in Hn. destruct Hn as ([k l] & <- & Hn). apply (made_index gs r k l H4) in Hn.
    destruct Hn as (g & ix & outs & G1 & G2 & G3 & G4 & G5). destruct (gr_logs g) as [|lr lrs] eqn:L; [congruence|]. exists lr.
    assert (Hl : In lr (gr_logs g)) by (rewrite L; now left). split.
    + rewrite (mo_logs _ _ H4). apply in_flat_map. eauto.
    + unfold gr_logs in Hl. apply in_flat_map in Hl. destruct Hl as (o & _ & Ho). destruct o as [s [|c cs] err lines| |]; cbn in Ho; try contradiction.
      destruct Ho as [<-|[]]. exact G4.
  - intros n l Hi. apply (made_index gs r n l H4) in Hi. destruct Hi as (g & ix & outs & G1 & G2 & _ & <- & <-). exists ix. split; [|reflexivity].
    destruct (forall2_in_r _ _ _ _ H3 G1) as ([n l] & R1 & R2 & R3). rewrite G2 in R3. rewrite R2. exact (proj1 R3).
Qed.

(** ** C42 *)
(** Every source of the target is analysed, or is listed in [index_errors] or in [read_errors],
    or it is behind a source of its group that could not be opened, and that one is in
    [read_errors].  (C42_refuted: the last case cannot be left out.) *)
Definition analysed (m : model) (r : report) (sources : list source) (s : source) : Prop :=
  exists items json n ix known cs err lines, open s = Val items /\ is_json s = Some json /\
    source_name s = Some n /\ has_index m n ix /\
    (forall t, In t known -> exists s' l1 l2, sources = l1 ++ s' :: l2 /\ In s l2 /\ source_name s' = Some n /\ line_of tok open s' t) /\
    analysis above tok (dist_of (ix_batches ix)) known (items json) cs err lines /\
    (cs <> [] -> In (mkLog (N.of_nat (length lines)) (total_bytes lines) cs s n) (log_reports r)) /\
    (forall e, err = Some e -> In (s, err_text e) (read_errors r)).
Theorem C42_accounted : forall m target r,
  (forall batches, pointwise (search_of batches) (dist_of batches)) -> (forall l, Permutation (drain l) l) ->
  NoDup (map fst m) -> model_report above tok search_of open err_text drain m target = Val r ->
  exists sources, get_sources target = Val sources /\ forall s, In s sources -> source_name s <> None ->
    analysed m r sources s \/
    (exists group, In group (index_errors r) /\ In s group) \/
    (exists e, open s = Fail e /\ In (s, e) (read_errors r)) \/
    (exists s' e l1 l2, sources = l1 ++ s' :: l2 /\ In s l2 /\ source_name s' = source_name s /\ open s' = Fail e /\ In (s', e) (read_errors r)).
Proof.
  intros m target r Hs Hd Hm H.
  destruct (model_report_made above tok search_of dist_of Hs open err_text drain Hd m target r Hm H) as (sources & groups & gs & H1 & H2 & H3 & H4).
  exists sources. split; [exact H1|]. intros s Hi Hn.
  destruct (grouping_has groups sources s H2 Hi Hn) as (n & l & En & Hg & Hl).
  destruct (forall2_in_l _ _ _ _ H3 Hg) as (g & G1 & G2 & G3). cbn [fst snd] in *.
  destruct (snd g) as [[ix outs]|] eqn:Eo.
  - destruct G3 as [G3 G4].
    assert (Hout : forall o, In o outs -> In o (flat_map gr_outs gs)).
    { intros o Ho. apply in_flat_map. exists g. split; [exact G1|]. unfold gr_outs. now rewrite Eo. }
    assert (Herr : forall x o, In o outs -> In x (errors_of o) -> In x (read_errors r)).
    { intros x o Ho Hx. rewrite (mo_errors _ _ H4). apply in_flat_map. eauto. }
    pose proof (group_outcome_sources above tok dist_of open err_text _ _ _ _ G4) as Es.
    rewrite <- Es in Hl. apply in_map_iff in Hl. destruct Hl as (o & Eos & Ho).
    destruct o as [s' cs err lines|s' e|s']; cbn in Eos; subst s'.
    + left. destruct (group_outcome_analysed above tok dist_of open err_text _ _ _ _ _ _ _ _ G4 Ho) as (items & json & known & err' & k1 & k2 & A1 & A2 & -> & A4 & Ek & A6).
      apply (proj2 H2) in Hg. destruct Hg as [_ Hg].
      exists items, json, n, ix, known, cs, err', lines. csplit; auto.
      * intros t Ht. destruct (A6 t Ht) as [[]|(s' & B1 & B2)]. apply in_split in B1. destruct B1 as (b1 & b2 & ->).
        rewrite Ek, <- app_assoc in Hg. cbn [app] in Hg.
        destruct (selected_before _ _ _ _ _ s Hg) as (l1 & l2 & -> & B3 & B4); [apply in_or_app; right; now left|].
        exists s', l1, l2. auto.
      * intros Hc. rewrite (mo_logs _ _ H4). apply in_flat_map. exists g. split; [exact G1|]. unfold gr_logs, gr_outs. rewrite Eo, G2. cbn [fst].
        apply in_flat_map. exists (Analysed s cs (option_map err_text err') lines). split; [exact Ho|]. destruct cs; [congruence|now left].
      * intros e ->. eapply Herr; [exact Ho|]. now left.
    + right. right. left. exists e. split; [|eapply Herr; [exact Ho|now left]].
      destruct (group_outcome_shape above tok dist_of open err_text _ _ _ _ G4) as (done & tail & -> & F1 & F2).
      apply in_app_or in Ho. destruct Ho as [Ho|Ho].
      * rewrite Forall_forall in F1. destruct (F1 _ Ho) as (? & ? & ? & ? & ?). discriminate.
      * destruct F2 as [->|(s1 & e1 & rest & -> & F2)]; [destruct Ho|]. destruct Ho as [Ho|Ho]; [congruence|].
        apply in_map_iff in Ho. destruct Ho as (? & Ho & _). discriminate.
    + right. right. right.
      destruct (group_outcome_shape above tok dist_of open err_text _ _ _ _ G4) as (done & tail & -> & F1 & F2).
      apply in_app_or in Ho. destruct Ho as [Ho|Ho].
      { rewrite Forall_forall in F1. destruct (F1 _ Ho) as (? & ? & ? & ? & ?). discriminate. }
      destruct F2 as [->|(s1 & e1 & rest & -> & F2)]; [destruct Ho|]. destruct Ho as [Ho|Ho]; [discriminate|].
      apply in_map_iff in Ho. destruct Ho as (s2 & E2 & Hr). injection E2 as ->.
      assert (Hin1 : In (s1, e1) (read_errors r)) by (eapply Herr; [apply in_or_app; right; left; reflexivity|now left]).
      rewrite map_app in Es. cbn [map outcome_source] in Es. rewrite map_map, map_id in Es.
      apply (proj2 H2) in Hg. destruct Hg as [_ Hg].
      rewrite <- Es in Hg. destruct (selected_before _ _ _ _ _ s Hg Hr) as (l1 & l2 & Q1 & Q2 & Q3).
      exists s1, e1, l1, l2. rewrite En, Q3. auto.
  - right. left. exists l. split; [|exact Hl]. rewrite (mo_no_index _ _ H4). apply in_flat_map. exists g. split; [exact G1|]. rewrite Eo, G2. now left.
Qed.
(** The other way round: entries are about sources of the target. *)
Theorem C42_entries : forall m target r,
  (forall batches, pointwise (search_of batches) (dist_of batches)) -> (forall l, Permutation (drain l) l) ->
  NoDup (map fst m) -> model_report above tok search_of open err_text drain m target = Val r ->
  exists sources, get_sources target = Val sources /\
    (forall group, In group (index_errors r) -> exists n, group <> [] /\ no_index m n /\ selected (fun s => source_name s = Some n) sources group) /\
    (forall s e, In (s, e) (read_errors r) -> In s sources /\ (open s = Fail e \/ analysed m r sources s)).
Proof.
  intros m target r Hs Hd Hm H.
  destruct (model_report_made above tok search_of dist_of Hs open err_text drain Hd m target r Hm H) as (sources & groups & gs & H1 & H2 & H3 & H4).
  exists sources. split; [exact H1|]. split.
  - intros group Hg. rewrite (mo_no_index _ _ H4) in Hg. apply in_flat_map in Hg. destruct Hg as (g & G1 & G2).
    destruct (forall2_in_r _ _ _ _ H3 G1) as ([n l] & R1 & R2 & R3). destruct (snd g) as [|]; [destruct G2|]. destruct G2 as [<-|[]].
    exists n. rewrite R2. cbn [snd]. apply (proj2 H2) in R1. split; [exact (proj1 R1)|]. split; [exact R3|]. exact (proj2 R1).
  - intros s e He. rewrite (mo_errors _ _ H4) in He. apply in_flat_map in He. destruct He as (o & Ho & He).
    apply in_flat_map in Ho. destruct Ho as (g & G1 & Ho). unfold gr_outs in Ho. destruct (snd g) as [[ix outs]|] eqn:Eo; [|destruct Ho].
    destruct (forall2_in_r _ _ _ _ H3 G1) as ([n l] & R1 & R2 & R3). rewrite Eo in R3. destruct R3 as [R3 R4]. cbn [fst snd] in *.
    pose proof (group_outcome_sources above tok dist_of open err_text _ _ _ _ R4) as Es.
    apply (proj2 H2) in R1. destruct R1 as [_ R1].
    assert (Hsrc : forall x, In x outs -> In (outcome_source x) sources /\ source_name (outcome_source x) = Some n).
    { intros x Hx. apply (selected_in _ _ _ (outcome_source x) R1). rewrite <- Es. apply in_map_iff. eauto. }
    destruct o as [s' cs err lines|s' e'|s']; cbn in He.
    + destruct err as [e'|]; [|destruct He]. destruct He as [He|[]]. injection He as -> ->. destruct (Hsrc _ Ho) as [S1 S2]. cbn in S1, S2.
      split; [exact S1|]. right. destruct (group_outcome_analysed above tok dist_of open err_text _ _ _ _ _ _ _ _ R4 Ho) as (items & json & known & err' & k1 & k2 & A1 & A2 & A3 & A4 & Ek & A6).
      exists items, json, n, ix, known, cs, err', lines. csplit; auto.
      * intros t Ht. destruct (A6 t Ht) as [[]|(s' & B1 & B2)]. apply in_split in B1. destruct B1 as (b1 & b2 & ->).
        rewrite Ek, <- app_assoc in R1. cbn [app] in R1.
        destruct (selected_before _ _ _ _ _ s R1) as (l1 & l2 & -> & B3 & B4); [apply in_or_app; right; now left|].
        exists s', l1, l2. auto.
      * intros Hc. rewrite (mo_logs _ _ H4). apply in_flat_map. exists g. split; [exact G1|]. unfold gr_logs, gr_outs. rewrite Eo, R2. cbn [fst].
        apply in_flat_map. eexists. split; [exact Ho|]. destruct cs; [congruence|now left].
      * intros e1 ->. cbn in A3. injection A3 as ->. rewrite (mo_errors _ _ H4). apply in_flat_map. exists (Analysed s cs (Some (err_text e1)) lines). split; [|now left].
        apply in_flat_map. exists g. split; [exact G1|]. unfold gr_outs. now rewrite Eo.
    + destruct He as [He|[]]. injection He as -> ->. destruct (Hsrc _ Ho) as [S1 _]. split; [exact S1|]. left.
      destruct (group_outcome_shape above tok dist_of open err_text _ _ _ _ R4) as (done & tail & -> & F1 & F2).
      apply in_app_or in Ho. destruct Ho as [Ho|Ho].
      * rewrite Forall_forall in F1. destruct (F1 _ Ho) as (? & ? & ? & ? & ?). discriminate.
      * destruct F2 as [->|(s1 & e1 & rest & -> & F2)]; [destruct Ho|]. destruct Ho as [Ho|Ho]; [congruence|].
        apply in_map_iff in Ho. destruct Ho as (? & Ho & _). discriminate.
    + destruct He.
Qed.

(** What becomes of each source, exactly, when no source is listed twice.  A source with no
    index is listed in [index_errors].  With an index, and when all sources before it of the same
    name can be opened, it is analysed if it can be opened, else it is in [read_errors].
    Otherwise nothing in the report is about it. *)
Theorem C42_exact : forall m target r,
  (forall batches, pointwise (search_of batches) (dist_of batches)) -> (forall l, Permutation (drain l) l) ->
  NoDup (map fst m) -> model_report above tok search_of open err_text drain m target = Val r ->
  exists sources, get_sources target = Val sources /\
    (NoDup sources -> forall earlier s later n, sources = earlier ++ s :: later -> source_name s = Some n ->
     let blocked := exists s' e, In s' earlier /\ source_name s' = Some n /\ open s' = Fail e in
     (no_index m n -> exists group, In group (index_errors r) /\ In s group) /\
     (forall ix, has_index m n ix -> ~ blocked ->
        (forall items, open s = Val items -> analysed m r sources s) /\
        (forall e, open s = Fail e -> In (s, e) (read_errors r))) /\
     (blocked -> (forall lr, In lr (log_reports r) -> lr_source lr <> s) /\ (forall e, ~ In (s, e) (read_errors r)))).
Proof.
  intros m target r Hs Hd Hm H.
  destruct (C42_accounted m target r Hs Hd Hm H) as (sources & H1 & Hacc).
  destruct (C42_entries m target r Hs Hd Hm H) as (sources' & H1' & Hent & _). rewrite H1 in H1'. injection H1' as <-.
  destruct (model_report_made above tok search_of dist_of Hs open err_text drain Hd m target r Hm H) as (sources' & groups & gs & H1' & H2 & H3 & H4).
  rewrite H1 in H1'. injection H1' as <-.
  exists sources. split; [exact H1|]. intros Hnd earlier s later n Esrc En blocked.
  assert (Hin : In s sources) by (rewrite Esrc; apply in_or_app; right; now left).
  specialize (Hacc s Hin ltac:(congruence)).
  assert (Hother : forall s' e l1 l2, sources = l1 ++ s' :: l2 -> In s l2 -> source_name s' = source_name s -> open s' = Fail e -> blocked).
  { intros s' e l1 l2 E Hl En' He. exists s', e. rewrite En in En'. csplit; auto. apply in_split in Hl. destruct Hl as (x & y & ->).
    rewrite E in Esrc. assert (Hu : l1 ++ s' :: x = earlier).
    { assert (E' : (l1 ++ s' :: x) ++ s :: y = earlier ++ s :: later) by (rewrite <- Esrc, <- app_assoc; reflexivity).
      rewrite E in Hnd. replace (l1 ++ s' :: x ++ s :: y) with ((l1 ++ s' :: x) ++ s :: y) in Hnd by (rewrite <- app_assoc; reflexivity).
      clear - E' Hnd. revert earlier E'. induction (l1 ++ s' :: x) as [|z l IH]; intros earlier E'.
      - destruct earlier as [|w earlier]; [reflexivity|]. cbn in E'. injection E' as -> ->. inversion Hnd; subst. destruct H1. apply in_or_app. right. now left.
      - inversion Hnd; subst. destruct earlier as [|w earlier]; cbn in E'; injection E' as -> E'.
        + exfalso. apply H1. apply in_or_app. right. now left.
        + f_equal. auto. }
    rewrite <- Hu. apply in_or_app. right. now left. }
  csplit.
  - intros Hni. destruct Hacc as [A|[A|[(e & A1 & A2)|(s' & e & l1 & l2 & A1 & A2 & A3 & A4 & _)]]].
    + destruct A as (items & json & n' & ix & known & cs & err & lines & A1 & A2 & A3 & A4 & _). rewrite En in A3. injection A3 as <-. destruct (Hni _ A4).
    + exact A.
    + destruct (grouping_has groups sources s H2 Hin ltac:(congruence)) as (n' & l & En' & Hg & Hl). rewrite En in En'. injection En' as <-.
      destruct (forall2_in_l _ _ _ _ H3 Hg) as (g & G1 & G2 & G3). cbn [fst snd] in *. destruct (snd g) as [[ix outs]|] eqn:Eo; [destruct G3 as [G3 _]; destruct (Hni _ G3)|].
      exists l. split; [|exact Hl]. rewrite (mo_no_index _ _ H4). apply in_flat_map. exists g. split; [exact G1|]. rewrite Eo, G2. now left.
    + destruct (grouping_has groups sources s H2 Hin ltac:(congruence)) as (n' & l & En' & Hg & Hl). rewrite En in En'. injection En' as <-.
      destruct (forall2_in_l _ _ _ _ H3 Hg) as (g & G1 & G2 & G3). cbn [fst snd] in *. destruct (snd g) as [[ix outs]|] eqn:Eo; [destruct G3 as [G3 _]; destruct (Hni _ G3)|].
      exists l. split; [|exact Hl]. rewrite (mo_no_index _ _ H4). apply in_flat_map. exists g. split; [exact G1|]. rewrite Eo, G2. now left.
  - intros ix Hix Hb.
    assert (Hno : ~ exists group, In group (index_errors r) /\ In s group).
    { intros (group & G1 & G2). destruct (Hent group G1) as (n' & _ & G3 & G4). apply (selected_in _ _ _ s G4) in G2. destruct G2 as [_ G2].
      rewrite En in G2. injection G2 as <-. destruct (G3 _ Hix). }
    destruct Hacc as [A|[A|[(e & A1 & A2)|(s' & e & l1 & l2 & A1 & A2 & A3 & A4 & _)]]].
    + split; [auto|]. intros e He. destruct A as (items & ? & ? & ? & ? & ? & ? & ? & A1 & _). congruence.
    + destruct (Hno A).
    + split; [intros; congruence|]. intros e' He. congruence.
    + destruct Hb. eauto.
  - intros (s' & e' & B1 & B2 & B3).
    assert (Hsk : forall g o, In g gs -> In o (gr_outs g) -> outcome_source o = s -> o = Skipped s).
    { intros g o Hg Ho Eo. unfold gr_outs in Ho. destruct (snd g) as [[ix outs]|] eqn:Eg; [|destruct Ho].
      destruct (forall2_in_r _ _ _ _ H3 Hg) as ([n' l] & R1 & R2 & R3). rewrite Eg in R3. destruct R3 as [R3 R4]. cbn [fst snd] in *.
      pose proof (group_outcome_sources above tok dist_of open err_text _ _ _ _ R4) as Es.
      apply (proj2 H2) in R1. destruct R1 as [_ R1].
      assert (Hl : In s l) by (rewrite <- Es, <- Eo; now apply in_map).
      apply (selected_in _ _ _ s R1) in Hl. destruct Hl as [_ Hl]. rewrite En in Hl. injection Hl as <-.
      rewrite Esrc in R1, Hnd. destruct (selected_split _ s' s later earlier l R1 B1 B2 En) as (a & c & El & Hc).
      eapply (blocked_skipped above tok dist_of open err_text); eauto. exact (selected_nodup _ _ _ R1 Hnd). }
    split.
    + intros lr Hl El. destruct (made_log gs r lr H4 Hl) as (g & ix & outs & s1 & c & cs & err & lines & G1 & G2 & G3 & ->). cbn in El. subst s1.
      assert (K : Analysed s (c :: cs) err lines = Skipped s); [|discriminate]. apply (Hsk g); auto. unfold gr_outs. now rewrite G2.
    + intros e He. rewrite (mo_errors _ _ H4) in He. apply in_flat_map in He. destruct He as (o & Ho & He). apply in_flat_map in Ho. destruct Ho as (g & Hg & Ho).
      assert (Eo : outcome_source o = s) by (destruct o as [? ? [?|] ?| |]; cbn in *; intuition congruence).
      rewrite (Hsk g o Hg Ho Eo) in He. destruct He.
Qed.

(** ** C57 *)
(** The order in which the hash maps are drained changes only the order of the entries. *)
Theorem C57_order_irrelevant : forall drain2 m target r,
  (forall batches, pointwise (search_of batches) (dist_of batches)) ->
  (forall l, Permutation (drain l) l) -> (forall l, Permutation (drain2 l) l) -> NoDup (map fst m) ->
  model_report above tok search_of open err_text drain m target = Val r ->
  exists r', model_report above tok search_of open err_text drain2 m target = Val r' /\
    Permutation (log_reports r) (log_reports r') /\ Permutation (index_reports r) (index_reports r') /\
    Permutation (index_errors r) (index_errors r') /\ Permutation (read_errors r) (read_errors r') /\
    total_line_count r = total_line_count r' /\ total_anomaly_count r = total_anomaly_count r'.
Proof. intros drain2 m target r Hs Hd Hd2 Hm H. exact (report_perm above tok search_of dist_of Hs open err_text drain drain2 m m target r Hd Hd2 Hm (Permutation_refl m) H). Qed.
(** The same with the model trained in another order. *)
Theorem C57_training_order_irrelevant : forall drain2 drain3 drain4 baselines target m r,
  (forall batches, pointwise (search_of batches) (dist_of batches)) ->
  (forall l, Permutation (drain l) l) -> (forall l, Permutation (drain2 l) l) ->
  (forall l, Permutation (drain3 l) l) -> (forall l, Permutation (drain4 l) l) ->
  model_train tok open drain baselines = Val m -> model_report above tok search_of open err_text drain2 m target = Val r ->
  exists m' r', model_train tok open drain3 baselines = Val m' /\
    model_report above tok search_of open err_text drain4 m' target = Val r' /\
    Permutation (log_reports r) (log_reports r') /\ Permutation (index_reports r) (index_reports r') /\
    Permutation (index_errors r) (index_errors r') /\ Permutation (read_errors r) (read_errors r') /\
    total_line_count r = total_line_count r' /\ total_anomaly_count r = total_anomaly_count r'.
Proof.
  intros d2 d3 d4 baselines target m r Hs Hd H2 H3 H4 Ht Hr.
  destruct (model_train_ok tok open drain baselines m Hd Ht) as (_ & _ & _ & _ & Hm & _).
  destruct (model_train_perm tok open drain d3 baselines m Hd H3 Ht) as (m' & T1 & T2).
  destruct (report_perm above tok search_of dist_of Hs open err_text d2 d4 m m' target r H2 H4 Hm T2 Hr) as (r' & R1 & R2).
  exists m', r'. auto.
Qed.

(** ** C58 *)
(** Every index of a model has the distinct tokenized lines of all the baseline sources with
    its name, and nothing else. *)
Theorem C58_model_of_baselines : forall baselines m, (forall l, Permutation (drain l) l) ->
  model_train tok open drain baselines = Val m ->
  exists contents, Forall2 (fun items l => get_sources items = Val l) baselines contents /\
    (forall n ix, stored m n ix ->
      exists l, l <> [] /\ selected (fun s => source_name s = Some n) (concat contents) l /\ trained_from tok open l ix) /\
    (forall s, In s (concat contents) -> source_name s <> None ->
      exists n ix, source_name s = Some n /\ stored m n ix /\ In s (ix_sources ix)).
Proof.
  intros baselines m Hd H. destruct (model_train_ok tok open drain baselines m Hd H) as (ls & groups & H1 & H2 & H3 & H4).
  exists ls. split; [exact H1|]. split.
  - intros n ix Hi. destruct (forall2_in_r _ _ _ _ H4 Hi) as ([k l] & R1 & R2 & R3). cbn [fst snd] in *. subst k.
    apply (proj2 H2) in R1. destruct R1 as [R1 R2]. exists l. auto.
  - intros s Hs Hn. destruct (grouping_has groups _ s H2 Hs Hn) as (n & l & E & Hi & Hl).
    destruct (forall2_in_l _ _ _ _ H4 Hi) as ([k ix] & R1 & R2 & R3). cbn [fst snd] in *. subst k.
    exists n, ix. split; [exact E|]. split; [exact R1|]. now rewrite (proj1 R3).
Qed.
(** A baseline source that cannot be opened: no model. *)
Lemma train_all_fail : forall groups n l s e, (forall n l s, In (n, l) groups -> In s l -> open s <> Panic /\ is_json s <> None) ->
  In (n, l) groups -> In s l -> open s = Fail e -> exists e' s', open s' = Fail e' /\ train_all tok open groups = Fail e'.
Proof.
  assert (K : forall json l t, (forall s, In s l -> open s <> Panic) -> (exists s e, In s l /\ open s = Fail e) ->
    exists e' s', open s' = Fail e' /\ train_group tok open json l t = Fail e').
  { intros json. induction l as [|s l IH]; intros t Hp (s0 & e & Hi & Ho); [destruct Hi|]. cbn.
    destruct (open s) as [it|e1|] eqn:E; [|eauto|exfalso; apply (Hp s); [now left|exact E]].
    destruct Hi as [->|Hi]; [congruence|]. apply IH; [intros x Hx; apply Hp; now right|eauto]. }
  assert (K2 : forall json l t, (forall s, In s l -> open s <> Panic) ->
    (exists t', train_group tok open json l t = Val t') \/ exists e' s', open s' = Fail e' /\ train_group tok open json l t = Fail e').
  { intros json. induction l as [|s l IH]; intros t Hp; [left; eexists; reflexivity|]. cbn.
    destruct (open s) as [it|e1|] eqn:E; [|right; eauto|exfalso; apply (Hp s); [now left|exact E]]. apply IH. intros x Hx. apply Hp. now right. }
  induction groups as [|[k g] groups IH]; intros n l s e Hp Hi Hs Ho; [destruct Hi|]. cbn [train_all]. unfold index_train.
  assert (Hg : forall s, In s g -> open s <> Panic) by (intros x Hx; apply (Hp k g); [now left|exact Hx]).
  destruct g as [|s0 g0] eqn:Eg.
  - destruct Hi as [Hi|Hi]; [injection Hi as <- <-; destruct Hs|].
    cbn [train_group]. destruct (IH n l s e) as (e' & s' & I1 & I2); eauto. { intros n' l' s' Hx Hy. apply (Hp n' l' s'); [now right|exact Hy]. } rewrite I2. eauto.
  - rewrite <- Eg in *. assert (J : exists json, is_json s0 = Some json).
    { destruct (is_json s0) eqn:J; [eauto|]. exfalso. apply (proj2 (Hp k g s0 (or_introl eq_refl) ltac:(rewrite Eg; now left))). exact J. }
    destruct J as (json & J). rewrite J.
    destruct Hi as [Hi|Hi].
    + injection Hi as <- <-. destruct (K json g trainer_new Hg) as (e' & s' & K1 & ->); eauto.
    + destruct (K2 json g trainer_new Hg) as [(t' & ->)|(e' & s' & K3 & ->)]; [|eauto].
      destruct (IH n l s e) as (e' & s' & I1 & I2); eauto. { intros n' l' s' Hx Hy. apply (Hp n' l' s'); [now right|exact Hy]. } rewrite I2. eauto.
Qed.
Theorem C58_unopened_baseline : forall baselines contents s e, (forall l, Permutation (drain l) l) ->
  Forall2 (fun items l => get_sources items = Val l) baselines contents ->
  (forall s, In s (concat contents) -> source_name s <> None /\ open s <> Panic) ->
  In s (concat contents) -> open s = Fail e ->
  exists e' s', open s' = Fail e' /\ model_train tok open drain baselines = Fail e'.
Proof.
  intros baselines contents s e Hd F Hp Hs Ho. unfold model_train.
  destruct (group_sources_val baselines contents F) as (g & G).
  { intros x Hx. destruct (Hp x Hx) as [K _]. unfold source_name in K. now destruct (get_relative x). }
  rewrite G. destruct (group_sources_ok _ _ G) as (ls & F' & Hg).
  assert (ls = contents) as ->.
  { clear - F F'. revert ls F'. induction F as [|x y l k H _ IH]; intros ls F'; inversion F' as [|? ? ? ? H1 H2]; subst; [reflexivity|].
    f_equal; [congruence|auto]. }
  destruct (grouping_has g (concat contents) s Hg Hs (proj1 (Hp s Hs))) as (n & l & En & Hi & Hl).
  apply (train_all_fail (drain g) n l s e); auto.
  - intros n' l' s' Hi' Hl'. apply (Permutation_in _ (Hd g)) in Hi'. apply (proj2 Hg) in Hi'. destruct Hi' as [_ Hi'].
    apply (selected_in _ _ _ s' Hi') in Hl'. destruct Hl' as [Hl1 Hl2]. destruct (Hp s' Hl1) as [P1 P2]. split; [exact P2|].
    unfold source_name in P1. unfold is_json. now destruct (get_relative s').
  - apply (Permutation_in _ (Permutation_sym (Hd g))). exact Hi.
Qed.
End Reports.

(** ** C43 *)
(** Consecutive numbers, from 1 on, within [usize]: see [numbered].  [page 0] is the list of
    all the shown lines with their own numbers, with separators exactly at gaps. *)
Theorem C43_report_numbers : forall D (above : D -> bool) tok dist known checks lines anomalies positions,
  Forall2 (describes tok dist lines) anomalies positions ->
  Forall2 (neighbours above tok dist known lines) anomalies positions ->
  Forall2 (fun c i => numbered (shown lines c i)) anomalies positions ->
  exists out, render_lines checks None anomalies = Some out /\ page 0 lines (combine anomalies positions) out.
Proof.
  intros D above tok dist known checks lines cs ps H1 H2 H3.
  assert (HL : Forall2 (located lines) cs ps).
  { clear H3. revert H2. induction H1 as [|c i cs ps Hd _ IH]; intros H2; inversion H2; subst; constructor; auto. eapply neighbours_located; eauto. }
  destruct (render_page checks lines cs ps HL H3) as (out & P & R). exists out. split; [apply (R None)|exact P].
Qed.
(** The live output has the same lines, but all the numbers of context lines are one too small. *)
Theorem C43_live_numbers_off_by_one : forall D (above : D -> bool) tok dist known lines anomalies positions,
  Forall2 (describes tok dist lines) anomalies positions ->
  Forall2 (neighbours above tok dist known lines) anomalies positions ->
  Forall2 (fun c i => numbered (shown lines c i)) anomalies positions ->
  page 1 lines (combine anomalies positions) (print_anomalies None anomalies).
Proof.
  intros D above tok dist known lines cs ps H1 H2 H3.
  assert (HL : Forall2 (located lines) cs ps).
  { clear H3. revert H2. induction H1 as [|c i cs ps Hd _ IH]; intros H2; inversion H2; subst; constructor; auto. eapply neighbours_located; eauto. }
  destruct (live_page lines cs ps HL H3) as (out & P & R). rewrite (R None). exact P.
Qed.

(** From a file: no blank lines, no backslashes, lines of at most 5999 bytes. *)
Definition plain_line (l : bytes) : Prop :=
  l <> [] /\ ~ In 10 l /\ ~ In 92 l /\ N.of_nat (length l) <= 5999 /\ valid_utf8 l = true /\ is_marker l = false.
Fixpoint number_from (n : N) (ls : list bytes) : list (bytes * N) :=
  match ls with [] => [] | l :: r => (l, n) :: number_from (n + 1) r end.
Lemma feed_plain l : forall cur0 n, ~ In 10 l -> ~ In 92 l -> forall s,
  lex (mkLex None false cur0 n) (l ++ s) = lex (mkLex None false (cur0 ++ l) n) s.
Proof.
  induction l as [|c l IH]; intros cur0 n H1 H2 s; [now rewrite app_nil_r|]. cbn [app lex feed esc js cur nr].
  unfold feed. cbn [esc js cur nr].
  replace (c =? 92) with false by (symmetry; apply N.eqb_neq; intros ->; apply H2; now left).
  replace (c =? 10) with false by (symmetry; apply N.eqb_neq; intros ->; apply H1; now left).
  rewrite IH; [now rewrite <- app_assoc|intros K; apply H1; now right|intros K; apply H2; now right].
Qed.
Lemma segments_plain ls : Forall plain_line ls ->
  segments false (concat (map (fun l => l ++ [10]) ls)) = number_from 1 ls.
Proof.
  intros H. unfold segments, lex0. 
  assert (K : forall n, lex (mkLex None false [] n) (concat (map (fun l => l ++ [10]) ls)) = (number_from n ls, mkLex None false [] (n + N.of_nat (length ls)))).
  { induction H as [|l ls (_ & H1 & H2 & _) _ IH]; intros n; cbn [map concat number_from].
    - cbn. now rewrite N.add_0_r.
    - rewrite <- app_assoc, feed_plain by assumption. cbn [app lex]. unfold feed. cbn [esc js cur nr N.eqb Pos.eqb]. rewrite IH.
      cbn [length]. do 2 f_equal. lia. }
  rewrite K. cbn. apply app_nil_r.
Qed.
Lemma number_from_in ls : forall n x, In x (number_from n ls) -> In (fst x) ls /\ n <= snd x < n + N.of_nat (length ls).
Proof.
  induction ls as [|l ls IH]; intros n x; cbn [number_from]; [intros []|]. intros [<-|H]; cbn [fst snd length].
  - split; [now left|lia].
  - apply IH in H. split; [right; tauto|lia].
Qed.
Lemma number_from_consecutive ls : forall n k m, consecutive (firstn k (skipn m (number_from n ls))).
Proof.
  assert (K : forall ls n k, consecutive (firstn k (number_from n ls))).
  { clear. induction ls as [|l ls IH]; intros n [|k]; cbn; auto. destruct ls as [|l' ls]; [destruct k; exact I|].
    specialize (IH (n + 1) k). destruct k as [|k]; [exact I|]. cbn in *. auto. }
  induction ls as [|l ls IH]; intros n k m; [rewrite skipn_nil, firstn_nil; exact I|]. destruct m as [|m]; [apply K|]. cbn [number_from skipn]. apply IH.
Qed.
Lemma filter_id {A} (f : A -> bool) l : (forall x, In x l -> f x = true) -> filter f l = l.
Proof. induction l as [|x l IH]; intros H; [reflexivity|]. cbn. rewrite (H x) by now left. f_equal. apply IH. intros y Hy. apply H. now right. Qed.
Lemma firstn_in {A} n (l : list A) x : In x (firstn n l) -> In x l.
Proof. revert n. induction l as [|y l IH]; intros [|n]; cbn; try tauto. intros [?|?]; eauto. Qed.
Lemma skipn_in {A} n (l : list A) x : In x (skipn n l) -> In x l.
Proof. revert n. induction l as [|y l IH]; intros [|n]; cbn; try tauto. intros ?. eauto. Qed.
Theorem C43_plain_file : forall D (above : D -> bool) tok search dist known ovf chunks ls checks,
  pointwise search dist -> read_sizes chunks -> Forall plain_line ls ->
  concat chunks = concat (map (fun l => l ++ [10]) ls) -> N.of_nat (length ls) < 2 ^ 64 - 1 ->
  exists anomalies final positions out,
    process_all above tok search (items_of (all_lines ovf false (map Data chunks))) known = (anomalies, PSEnd, final) /\
    enumerates above tok dist known (number_from 1 ls) positions /\
    render_lines checks None anomalies = Some out /\ page 0 (number_from 1 ls) (combine anomalies positions) out /\
    page 1 (number_from 1 ls) (combine anomalies positions) (print_anomalies None anomalies).
Proof.
  intros D above tok search dist known ovf chunks ls checks Hs Hr Hp Hc Hl.
  assert (Seg : segments false (concat chunks) = number_from 1 ls) by (rewrite Hc; now apply segments_plain).
  assert (Hin : forall x, In x (number_from 1 ls) -> plain_line (fst x)).
  { intros x Hx. apply number_from_in in Hx. rewrite Forall_forall in Hp. apply Hp. tauto. }
  assert (Hshort : Forall (fun x => N.of_nat (length (fst x)) <= 5999) (segments false (concat chunks))).
  { rewrite Seg. apply Forall_forall. intros x Hx. apply Hin in Hx. unfold plain_line in Hx. tauto. }
  assert (Fil : filter deliverable (segments false (concat chunks)) = number_from 1 ls).
  { rewrite Seg. apply filter_id. intros x Hx. apply Hin in Hx.
    destruct Hx as (H1 & _ & _ & H2 & _). unfold deliverable. destruct (fst x); [congruence|]. apply N.leb_le. lia. }
  destruct (C10_from_bytes D above tok search dist known ovf false chunks Hr (short_no_long_pending _ _ Hshort) Hs) as (cs & fin & ps & E & H1 & H2 & H3).
  - rewrite Fil. apply Forall_forall. intros x Hx. apply Hin in Hx. unfold plain_line in Hx. tauto.
  - rewrite Fil. apply Forall_forall. intros x Hx. apply Hin in Hx. unfold plain_line in Hx. tauto.
  - rewrite Fil in *.
    assert (Hn : Forall2 (fun c i => numbered (shown (number_from 1 ls) c i)) cs ps).
    { clear - H2 Hl. induction H2 as [|c i cs ps _ _ IH]; constructor; auto. split; [apply number_from_consecutive|].
      apply Forall_forall. intros x Hx. unfold shown in Hx. apply firstn_in, skipn_in, number_from_in in Hx. lia. }
    destruct (C43_report_numbers D above tok dist known checks _ cs ps H2 H3 Hn) as (out & R & P).
    exists cs, fin, ps, out. csplit; auto. eapply C43_live_numbers_off_by_one; eauto.
Qed.

(** ** Examples and refutations *)
(** An index that knows exactly its lines; files by path; errors by number. *)
Definition exact_dist (batches : list (list bytes)) (t : bytes) : bool := negb (existsb (eqb_list t) (concat batches)).
Definition exact_search (batches : list (list bytes)) (ts : list bytes) : list bool := map (exact_dist batches) ts.
Lemma exact_pointwise : forall batches, pointwise (exact_search batches) (exact_dist batches).
Proof. intros batches ts. reflexivity. Qed.
Definition files (contents : list (bytes * res (list bytes))) (s : source) : res (bool -> list item) :=
  match s with
  | Local _ path =>
    match find (fun f => eqb_list (fst f) path) contents with
    | Some (_, Val ls) => Val (fun _ => ok_items (number_from 1 ls))
    | Some (_, Fail e) => Fail e
    | Some (_, Panic) => Panic
    | None => Fail (lit "not found")
    end
  | Remote _ _ => Fail (lit "no network")
  end.
Definition error_e (e : option N) : text := lit "error".
Definition id_drain (l : list (text * list source)) := l.
Definition ex_files := files
  [ (lit "old/app.log", Val [lit "start"; lit "work"; lit "stop"]);
    (lit "old/db.log", Val [lit "open"; lit "close"]);
    (lit "new/app.log", Val [lit "start"; lit "crash"; lit "stop"]);
    (lit "new/app.log.1", Val [lit "crash"; lit "work"; lit "burn"]);
    (lit "new/web.log", Val [lit "hello"]);
    (lit "new/db.log", Fail (lit "denied")) ].
Definition src_e (p : string) : res source := Val (Local 4 (lit p)).
Definition ex_baseline := [src_e "old/app.log"; src_e "old/db.log"].
Definition ex_target := [src_e "new/app.log"; src_e "new/app.log.1"; src_e "new/db.log"; src_e "new/web.log"; src_e "new/x.png"].

Example C41_example : exists m r,
  model_train tok_id ex_files id_drain [ex_baseline] = Val m /\
  map fst m = [lit "app.log"; lit "db.log"] /\ map (fun e => ix_lines (snd e)) m = [3; 2] /\
  model_report idb tok_id exact_search ex_files error_e id_drain m ex_target = Val r /\
  map (fun lr => (lr_index lr, lr_lines lr, map (fun c => (aline c, apos c, before c, after c)) (lr_anomalies lr))) (log_reports r) =
    [(lit "app.log", 3, [(lit "crash", 2, [lit "start"], [lit "stop"])]);
     (lit "app.log", 3, [(lit "burn", 3, [lit "crash"; lit "work"], [])])] /\
  map fst (index_reports r) = [lit "app.log"] /\
  index_errors r = [[Local 4 (lit "new/web.log")]] /\
  read_errors r = [(Local 4 (lit "new/db.log"), lit "denied")] /\
  total_line_count r = 6 /\ total_anomaly_count r = 2.
Proof. eexists _, _. split; [vm_compute; reflexivity|]. do 2 (split; [vm_compute; reflexivity|]). split; [vm_compute; reflexivity|]. vm_compute. auto 8. Qed.

(** A source that cannot be opened hides the next one of its group. *)
Definition hide_files := files
  [ (lit "old/app.log", Val [lit "start"]); (lit "old/db.log", Val [lit "open"]);
    (lit "new/app.log", Fail (lit "denied")); (lit "new/app.log.1", Val [lit "crash"]) ].
Theorem C42_refuted : exists open m target sources r s,
  model_train tok_id open id_drain [ex_baseline] = Val m /\
  model_report idb tok_id exact_search open error_e id_drain m target = Val r /\
  get_sources target = Val sources /\ In s sources /\ (exists items, open s = Val items) /\
  ~ analysed idb tok_id exact_dist open error_e m r sources s /\
  (forall group, In group (index_errors r) -> ~ In s group) /\ (forall e, ~ In (s, e) (read_errors r)).
Proof.
  set (t := [src_e "new/app.log"; src_e "new/app.log.1"]). set (s := Local 4 (lit "new/app.log.1")).
  assert (E : exists m r, model_train tok_id hide_files id_drain [ex_baseline] = Val m /\
    model_report idb tok_id exact_search hide_files error_e id_drain m t = Val r /\
    m = [(lit "app.log", mkIndex [Local 4 (lit "old/app.log")] [[lit "start"]] 1 5); (lit "db.log", mkIndex [Local 4 (lit "old/db.log")] [[lit "open"]] 1 4)] /\
    log_reports r = [] /\ index_errors r = [] /\ read_errors r = [(Local 4 (lit "new/app.log"), lit "denied")]).
  { eexists _, _. split; [vm_compute; reflexivity|]. split; [vm_compute; reflexivity|]. auto. }
  destruct E as (m & r & E1 & E2 & Em & E3 & E4 & E5).
  exists hide_files, m, t, [Local 4 (lit "new/app.log"); s], r, s.
  split; [exact E1|]. split; [exact E2|]. split; [reflexivity|]. split; [right; now left|].
  split; [eexists; reflexivity|]. split; [|split].
  - intros (items & json & n & ix & known & cs & err & lines & A1 & A2 & A3 & A4 & A5 & A6 & A7 & A8).
    rewrite E3 in A7. assert (Hc : cs = []) by (destruct cs; [reflexivity|destruct (A7 ltac:(discriminate))]). subst cs.
    assert (An : n = lit "app.log") by (vm_compute in A3; injection A3 as <-; reflexivity). subst n.
    assert (Aix : ix_batches ix = [[lit "start"]]).
    { destruct A4 as [A4|[A4 _]].
      - rewrite Em in A4. destruct A4 as [A4|[A4|[]]]; [injection A4 as <-; reflexivity|discriminate A4].
      - exfalso. eapply A4. rewrite Em. left. reflexivity. }
    assert (Hk : known = []).
    { destruct known as [|t0 known]; [reflexivity|]. destruct (A5 t0 (or_introl eq_refl)) as (s' & l1 & l2 & Es & Hs & _ & (it & js & b & B1 & _)).
      destruct l1 as [|x [|y l1]]; cbn in Es.
      - injection Es as <- <-. vm_compute in B1. discriminate.
      - injection Es as <- <- <-. destruct Hs.
      - destruct l1; discriminate. }
    subst known. vm_compute in A1. injection A1 as <-. clear A7.
    destruct A6 as [(rest & B1 & B2 & B3) (ps & more & B4 & B5 & B6 & B7)]. inversion B6; subst.
    destruct lines as [|x lines].
    + destruct err as [e|].
      * destruct B3 as (bad & rest' & -> & B3). cbn in B1. injection B1 as <- <-. destruct B3 as [B3 _]. vm_compute in B3. discriminate.
      * destruct B3 as [->|(l & mk & B3 & _)]; [discriminate|]. destruct l; discriminate.
    + cbn in B1. injection B1 as B1 B8 B9. destruct x as [b nr]. cbn in B1, B8. subst b nr.
      destruct lines; [|discriminate]. destruct rest; [|discriminate].
      destruct err as [e|]; [destruct B3 as (bad & rest' & B3 & _); discriminate|]. rewrite (B5 eq_refl) in B4. cbn [app] in B4.
      destruct B4 as [_ B4]. apply (B4 0%nat). split.
      * exists (lit "crash"), 1. split; [reflexivity|]. split; [intros []|]. intros j b' nr' Hj. lia.
      * exists (lit "crash"), 1. split; [reflexivity|]. rewrite Aix. vm_compute. reflexivity.
  - rewrite E4. intros group [].
  - rewrite E5. intros e [K|[]]. vm_compute in K. discriminate.
Qed.

(** Blank lines are not delivered, but counted: the context line has number 1, not 2. *)
Theorem C43_blank_lines_refuted : exists chunks anomalies final,
  process_all idb tok_id search_e (items_of (all_lines false false (map Data chunks))) [] = (anomalies, PSEnd, final) /\
  concat chunks = lit "a" ++ [10; 10] ++ lit "E1" ++ [10] /\
  exists d, render_lines true None anomalies = Some [Ctx 2 (lit "a"); Anom d 3 (lit "E1")].
Proof. exists [lit "a" ++ [10; 10] ++ lit "E1" ++ [10]]. eexists _, _. split; [vm_compute; reflexivity|]. split; [reflexivity|]. eexists. vm_compute. reflexivity. Qed.
(** Sub-lines share a number: with overflow checks the report panics, without them the context
    lines of line 1 have the numbers 2^64-1 and 0. *)
Theorem C43_sub_lines_refuted : exists chunks anomalies final,
  process_all idb tok_id search_e (items_of (all_lines false false (map Data chunks))) [] = (anomalies, PSEnd, final) /\
  concat chunks = lit "a\nb\nE1" ++ [10] /\
  render_lines true None anomalies = None /\
  exists d, render_lines false None anomalies = Some [Ctx (2 ^ 64 - 1) (lit "a"); Ctx 0 (lit "b"); Anom d 1 (lit "E1")].
Proof. exists [lit "a\nb\nE1" ++ [10]]. eexists _, _. split; [vm_compute; reflexivity|]. split; [reflexivity|]. split; [vm_compute; reflexivity|]. eexists. vm_compute. reflexivity. Qed.
(** A plain file, as in C43_plain_file, with a separator. *)
Definition ex_plain := map lit ["a"; "E1"; "b"; "c"; "d"; "e"; "f"; "g"; "h"; "E2"; "E3"]%string.
Example C43_example_hyps : Forall plain_line ex_plain.
Proof. repeat (constructor; [repeat split; try (vm_compute; intuition discriminate); try reflexivity; vm_compute; discriminate|]). constructor. Qed.
Example C43_example : exists d,
  render_lines true None (fst (fst (process_all idb tok_id search_e (ok_items (number_from 1 ex_plain)) []))) =
  Some ([Ctx 1 (lit "a"); Anom d 2 (lit "E1"); Ctx 3 (lit "b"); Ctx 4 (lit "c"); Ctx 5 (lit "d"); Hr;
         Ctx 7 (lit "f"); Ctx 8 (lit "g"); Ctx 9 (lit "h"); Anom d 10 (lit "E2"); Anom d 11 (lit "E3")]).
Proof. eexists. vm_compute. reflexivity. Qed.

Print Assumptions C40_index_of_a_name.
Print Assumptions C40_several_indexes.
Print Assumptions C40_trained_names.
Print Assumptions C41_report_of_groups.
Print Assumptions C41_report_exists.
Print Assumptions C41_totals.
Print Assumptions C42_accounted.
Print Assumptions C42_entries.
Print Assumptions C42_exact.
Print Assumptions C42_refuted.
Print Assumptions C43_report_numbers.
Print Assumptions C43_live_numbers_off_by_one.
Print Assumptions C43_plain_file.
Print Assumptions C43_blank_lines_refuted.
Print Assumptions C43_sub_lines_refuted.
Print Assumptions C57_order_irrelevant.
Print Assumptions C57_training_order_irrelevant.
Print Assumptions C58_model_of_baselines.
Print Assumptions C58_unopened_baseline.
