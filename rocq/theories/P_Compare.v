(** Property C56: training and reporting with the single precision index. *)
From Coq Require Import String List NArith Arith Bool Lia Permutation Reals.
From Verif Require Import Common CommonFacts IterModel ProcModel ProcSpec ProcInv ProcResult ProcRefute P_Proc IndexModel IndexSpec P_Index
  FilesModel FilesSpec FilesSources ReportModel ReportSpec ReportProofs ReportMore P_Report.
Import ListNotations.
Open Scope N_scope.

(** A line that is read when the index for the name [n] is trained from [sources]. *)
Definition baseline_line (open : source -> res (bool -> list item)) (sources : list source) (n : text) (x : bytes * N) : Prop :=
  exists first rest s json items, selected (fun s => source_name s = Some n) sources (first :: rest) /\
    is_json first = Some json /\ In s (first :: rest) /\ open s = Val items /\ In x (good_prefix (items json)).

(** The search of the real index, from the lines it was given. *)
Definition real_search (hash : bytes -> N) (fused : bool) (batches : list (list bytes)) : list bytes -> list F :=
  hashing_search hash fused (trained hash batches).
Definition real_dist (hash : bytes -> N) (fused : bool) (batches : list (list bytes)) : bytes -> F :=
  distance_of hash fused (trained hash batches).
Lemma real_pointwise hash fused : forall batches, pointwise (real_search hash fused batches) (real_dist hash fused batches).
Proof. intros batches. apply search_pointwise. Qed.
Lemma real_known hash fused batches t : In t (concat batches) -> above_threshold (real_dist hash fused batches t) = false.
Proof.
  intros H. destruct (C21_known_line_close hash fused batches t H) as (d & E & _ & _ & A).
  unfold hashing_search in E. rewrite (search_pointwise hash fused _ [t]) in E. cbn [map] in E. injection E as E.
  unfold real_dist. now rewrite E.
Qed.

(** Where the anomalies of a report come from. *)
Lemma log_anomaly {D} (above : D -> bool) tok search_of (dist_of : list (list bytes) -> bytes -> D) open err_text drain m target r lr c :
  (forall batches, pointwise (search_of batches) (dist_of batches)) -> (forall l, Permutation (drain l) l) ->
  NoDup (map fst m) -> model_report above tok search_of open err_text drain m target = Val r ->
  In lr (log_reports r) -> In c (lr_anomalies lr) ->
  exists sources ix items json, get_sources target = Val sources /\ In (lr_source lr) sources /\
    source_name (lr_source lr) = Some (lr_index lr) /\ has_index m (lr_index lr) ix /\
    open (lr_source lr) = Val items /\ is_json (lr_source lr) = Some json /\
    In (aline c, apos c) (good_prefix (items json)) /\ above (dist_of (ix_batches ix) (tok (aline c))) = true.
Proof.
  intros Hs Hd Hm H Hl Hc.
  destruct (model_report_made above tok search_of dist_of Hs open err_text drain Hd m target r Hm H) as (sources & groups & gs & H1 & H2 & H3 & H4).
  destruct (made_log gs r lr H4 Hl) as (g & ix & outs & s & c0 & cs & err & lines & G1 & G2 & G3 & ->). cbn [lr_anomalies lr_source lr_index] in *.
  destruct (forall2_in_r _ _ _ _ H3 G1) as ([nm l] & R1 & R2 & R3). rewrite G2 in R3. cbn [fst snd] in *. destruct R3 as [R3 R4]. rewrite R2. cbn [fst].
  destruct (group_outcome_analysed above tok dist_of open err_text _ _ _ _ _ _ _ _ R4 G3) as (items & json & known & err' & l1 & l2 & A1 & A2 & A3 & A4 & A5 & _).
  apply (proj2 H2) in R1. destruct R1 as [_ R1]. assert (Hsl : In s l) by (rewrite A5; apply in_elt).
  apply (selected_in _ _ _ s R1) in Hsl. destruct Hsl as [S1 S2].
  destruct (analysis_anomaly above tok _ _ _ _ _ _ c A4 Hc) as (K1 & _ & _ & K2 & _).
  exists sources, ix, items, json. csplit; auto.
Qed.

Lemma selected_unique {A} (P : A -> Prop) l o o' : selected P l o -> selected P l o' -> o = o'.
Proof.
  intros H. revert o'. induction H as [|x l o Hx _ IH|x l o Hx _ IH]; intros o' H'; inversion H' as [|y l' k Py Hk E1 E2|y l' k Py Hk E1 E2]; subst; auto; try contradiction.
  f_equal. now apply IH.
Qed.

(** The lines of an index are the tokenized baseline lines of its name. *)
Lemma indexed_lines tok open contents n l ix x :
  selected (fun s => source_name s = Some n) contents l -> trained_from tok open l ix -> baseline_line open contents n x ->
  In (tok (fst x)) (concat (ix_batches ix)).
Proof.
  intros Hl (_ & json & items & T1 & T2 & T3 & _) (first & rest & s & json' & it & B1 & B2 & B3 & B4 & B5).
  rewrite (selected_unique _ _ _ _ Hl B1) in *. rewrite (T1 _ _ eq_refl) in B2. injection B2 as <-.
  rewrite T3. apply C18_firsts_meaning. split; [|intros []].
  change (tok (fst x)) with ((fun x => tok (fst x)) x). apply in_map. apply in_concat.
  destruct (forall2_in_l _ _ _ _ T2 B3) as (it' & I1 & I2). rewrite B4 in I2. injection I2 as <-.
  exists (good_prefix (it json)). split; [|exact B5]. apply (in_map (fun it => good_prefix (it json))). exact I1.
Qed.

Section Compare.
Context (hash : bytes -> N) (fused : bool) (tok : bytes -> bytes)
  (open : source -> res (bool -> list item)) (err_text : option N -> text)
  (drain drain2 : list (text * list source) -> list (text * list source)).

(** No anomaly has the tokenized text of a baseline line: neither of the lines for its name,
    nor, if its name has no index, of the lines of the only index. *)
Theorem C56_known_content_not_reported : forall baselines target m r,
  (forall l, Permutation (drain l) l) -> (forall l, Permutation (drain2 l) l) ->
  model_train tok open drain baselines = Val m ->
  model_report above_threshold tok (real_search hash fused) open err_text drain2 m target = Val r ->
  exists contents, Forall2 (fun items l => get_sources items = Val l) baselines contents /\
    forall lr c, In lr (log_reports r) -> In c (lr_anomalies lr) ->
      (forall x, baseline_line open (concat contents) (lr_index lr) x -> tok (fst x) <> tok (aline c)) /\
      (forall n x, map fst m = [n] -> baseline_line open (concat contents) n x -> tok (fst x) <> tok (aline c)).
Proof.
  intros baselines target m r Hd Hd2 Ht Hr.
  destruct (C58_model_of_baselines tok open drain baselines m Hd Ht) as (contents & C1 & C2 & C3).
  destruct (model_train_ok tok open drain baselines m Hd Ht) as (_ & _ & _ & _ & Hm & _).
  exists contents. split; [exact C1|]. intros lr c Hl Hc.
  destruct (log_anomaly _ _ _ _ _ _ _ _ _ _ _ c (real_pointwise hash fused) Hd2 Hm Hr Hl Hc) as (sources & ix & items & json & _ & _ & _ & L4 & _ & _ & _ & L8).
  assert (G : forall n x, stored m n ix -> baseline_line open (concat contents) n x -> tok (fst x) <> tok (aline c)).
  { intros n x Hn Hx E. destruct (C2 n ix Hn) as (l & _ & S1 & S2). pose proof (indexed_lines _ _ _ _ _ _ _ S1 S2 Hx) as K.
    rewrite E in K. apply (real_known hash fused) in K. congruence. }
  split.
  - intros x Hx. apply (G (lr_index lr)); [|exact Hx]. destruct L4 as [L4|[L4 _]]; [exact L4|exfalso].
    destruct Hx as (first & rest & s & json' & it & B1 & B2 & _).
    assert (Hf : In first (concat contents) /\ source_name first = Some (lr_index lr)) by (apply (selected_in _ _ _ first B1); now left).
    destruct Hf as [F1 F2]. destruct (C3 first F1) as (n & ix' & N1 & N2 & _); [congruence|]. rewrite F2 in N1. injection N1 as <-. exact (L4 ix' N2).
  - intros n x Hn Hx. apply (G n); [|exact Hx]. unfold stored. destruct m as [|[k v] [|e m']]; try discriminate. cbn in Hn. injection Hn as ->.
    destruct L4 as [[L4|[]]|[_ (k & L4)]]; [injection L4 as _ ->; now left|injection L4 as _ ->; now left].
Qed.

(** A target that is one of the baselines. *)
Theorem C56_baseline_as_target : forall baselines target m r,
  (forall l, Permutation (drain l) l) -> (forall l, Permutation (drain2 l) l) ->
  In target baselines ->
  (forall items items' l l' s s', In items baselines -> In items' baselines -> get_sources items = Val l -> get_sources items' = Val l' ->
     In s l -> In s' l' -> source_name s = source_name s' -> is_json s = is_json s') ->
  model_train tok open drain baselines = Val m ->
  model_report above_threshold tok (real_search hash fused) open err_text drain2 m target = Val r ->
  log_reports r = [] /\ total_anomaly_count r = 0 /\ index_errors r = [].
Proof.
  intros baselines target m r Hd Hd2 Hin Hj Ht Hr.
  destruct (C56_known_content_not_reported baselines target m r Hd Hd2 Ht Hr) as (contents & C1 & K).
  destruct (C58_model_of_baselines tok open drain baselines m Hd Ht) as (contents' & C1' & C2 & C3).
  assert (E : contents' = contents).
  { clear -C1 C1'. revert contents' C1'. induction C1 as [|a b l k H _ IH]; intros c' H'; inversion H' as [|a' b' l' k' H1 H2 E1 E2]; subst; [reflexivity|].
    f_equal; [congruence|now apply IH]. }
  subst contents'. clear C1'.
  destruct (model_train_ok tok open drain baselines m Hd Ht) as (_ & _ & _ & _ & Hm & _).
  assert (Hsrc : forall sources, get_sources target = Val sources -> incl sources (concat contents)).
  { intros sources Hs s Hi. destruct (forall2_in_l _ _ _ _ C1 Hin) as (l & L1 & L2). rewrite Hs in L2. injection L2 as <-. apply in_concat. eauto. }
  assert (Hfrom : forall s, In s (concat contents) -> exists items l, In items baselines /\ get_sources items = Val l /\ In s l).
  { intros s Hs. apply in_concat in Hs. destruct Hs as (l & L1 & L2). destruct (forall2_in_r _ _ _ _ C1 L1) as (items & I1 & I2). eauto. }
  assert (Hlog : log_reports r = []).
  { destruct (log_reports r) as [|lr lrs] eqn:El; [reflexivity|exfalso].
    assert (Hl : In lr (log_reports r)) by (rewrite El; now left).
    destruct (C41_totals above_threshold tok (real_search hash fused) (real_dist hash fused) open err_text drain2 m target r (real_pointwise hash fused) Hd2 Hm Hr) as (_ & _ & T & _).
    destruct (T lr Hl) as (T1 & _). destruct (lr_anomalies lr) as [|c cs] eqn:Ec; [congruence|].
    assert (Hc : In c (lr_anomalies lr)) by (rewrite Ec; now left).
    destruct (log_anomaly _ _ _ _ _ _ _ _ _ _ _ c (real_pointwise hash fused) Hd2 Hm Hr Hl Hc) as (sources & ix & items & json & L1 & L2 & L3 & L4 & L5 & L6 & L7 & _).
    destruct (K lr c (or_introl eq_refl) Hc) as [K1 _]. apply (K1 (aline c, apos c)); [|reflexivity].
    pose proof (Hsrc sources L1 _ L2) as Hs.
    destruct (C3 (lr_source lr) Hs) as (n & ix' & N1 & N2 & _); [congruence|]. rewrite L3 in N1. injection N1 as <-.
    destruct (C2 _ _ N2) as (l & Hne & S1 & _). destruct l as [|first rest]; [congruence|].
    assert (Hi : In (lr_source lr) (first :: rest)) by (apply (selected_in _ _ _ _ S1); auto).
    exists first, rest, (lr_source lr), json, items. csplit; auto.
    rewrite <- L6. assert (Hf : In first (concat contents) /\ source_name first = Some (lr_index lr)) by (apply (selected_in _ _ _ first S1); now left).
    destruct Hf as [F1 F2]. destruct (Hfrom _ F1) as (i1 & l1 & I1 & I2 & I3). destruct (Hfrom _ Hs) as (i2 & l2 & J1 & J2 & J3).
    apply (Hj i1 i2 l1 l2); auto; congruence. }
  split; [exact Hlog|]. split.
  - destruct (C41_totals above_threshold tok (real_search hash fused) (real_dist hash fused) open err_text drain2 m target r (real_pointwise hash fused) Hd2 Hm Hr) as (T & _).
    rewrite T, Hlog. reflexivity.
  - destruct (C42_entries above_threshold tok (real_search hash fused) (real_dist hash fused) open err_text drain2 m target r (real_pointwise hash fused) Hd2 Hm Hr) as (sources & S1 & S2 & _).
    destruct (index_errors r) as [|g gs]; [reflexivity|exfalso]. destruct (S2 g (or_introl eq_refl)) as (n & N1 & N2 & N3).
    destruct g as [|s g]; [congruence|]. assert (Hs : In s sources /\ source_name s = Some n) by (apply (selected_in _ _ _ s N3); now left).
    destruct Hs as [H1 H2]. destruct (C3 s (Hsrc _ S1 _ H1)) as (n' & ix & E1 & E2 & _); [congruence|]. rewrite H2 in E1. injection E1 as <-.
    apply (N2 ix). now left.
Qed.
End Compare.

(** ** Examples and refutation *)
Definition read_file (content : bytes) : res (bool -> list item) :=
  Val (fun json => items_of (all_lines false json [Data content])).
Definition mode_files (s : source) : res (bool -> list item) :=
  match s with
  | Local _ p => if eqb_list p (lit "run/x.json") then read_file (lit "{a,b}") else read_file (lit "red")
  | Remote _ _ => Fail (lit "no network")
  end.
Definition mode_run := [src_e "run/x.json.1"; src_e "run/x.json"].
(** Without the condition on the mode: the first source of the name is not json, and lines of
    the second one are reported although the target is the baseline. *)
Theorem C56_mixed_modes_refuted : exists hash fused open baselines target m r,
  In target baselines /\ model_train tok_id open id_drain baselines = Val m /\
  model_report above_threshold tok_id (real_search hash fused) open error_e id_drain m target = Val r /\
  map (fun lr => (lr_index lr, map (fun c => aline c) (lr_anomalies lr))) (log_reports r) = [(lit "x.json", [lit "a"; lit "b"])].
Proof.
  exists byte_hash, false, mode_files, [mode_run], mode_run. eexists _, _. split; [now left|]. split; [vm_compute; reflexivity|].
  split; [vm_compute; reflexivity|]. vm_compute. reflexivity.
Qed.
(** A target that is a baseline, with another one. *)
Example C56_example_hyps : forall items items' l l' s s', In items [ex_baseline; ex_target] -> In items' [ex_baseline; ex_target] ->
  get_sources items = Val l -> get_sources items' = Val l' -> In s l -> In s' l' -> source_name s = source_name s' -> is_json s = is_json s'.
Proof.
  assert (G : forall items l s, In items [ex_baseline; ex_target] -> get_sources items = Val l -> In s l -> is_json s = Some false).
  { intros items l s H E Hs. destruct H as [<-|[<-|[]]]; vm_compute in E; injection E as <-;
      repeat (destruct Hs as [<-|Hs]; [reflexivity|]); destruct Hs. }
  intros items items' l l' s s' H H' E E' Hs Hs' _. now rewrite (G _ _ _ H E Hs), (G _ _ _ H' E' Hs').
Qed.
Definition all_files := files
  [ (lit "old/app.log", Val [lit "start"; lit "work"]); (lit "old/db.log", Val [lit "open"]);
    (lit "new/app.log", Val [lit "start"; lit "crash"]); (lit "new/app.log.1", Val [lit "burn"]);
    (lit "new/web.log", Val [lit "hello"]); (lit "new/db.log", Val []) ].
Example C56_example : exists m r,
  model_train tok_id all_files id_drain [ex_baseline; ex_target] = Val m /\
  model_report above_threshold tok_id (real_search byte_hash false) all_files error_e id_drain m ex_target = Val r /\ total_line_count r = 4.
Proof. eexists _, _. split; [vm_compute; reflexivity|]. split; [vm_compute; reflexivity|]. reflexivity. Qed.
(** The same target with the old baseline only: the new lines are reported. *)
Example C56_example_new : exists m r,
  model_train tok_id all_files id_drain [ex_baseline] = Val m /\
  model_report above_threshold tok_id (real_search byte_hash false) all_files error_e id_drain m ex_target = Val r /\
  map (fun lr => (lr_index lr, map (fun c => aline c) (lr_anomalies lr))) (log_reports r) = [(lit "app.log", [lit "crash"]); (lit "app.log", [lit "burn"])] /\
  length (index_errors r) = 1%nat.
Proof. eexists _, _. split; [vm_compute; reflexivity|]. split; [vm_compute; reflexivity|]. split; [vm_compute; reflexivity|]. reflexivity. Qed.

Print Assumptions C56_known_content_not_reported.
Print Assumptions C56_baseline_as_target.
Print Assumptions C56_mixed_modes_refuted.
