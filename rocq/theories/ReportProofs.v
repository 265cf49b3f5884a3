(** Proofs about reports. *)
From Coq Require Import String List NArith Arith Bool Lia Permutation ZifyBool ZifyN ZifyNat.
From Verif Require Import Common CommonFacts ProcModel ProcSpec ProcWalk ProcInv ProcMain ProcIndex ProcResult
  FilesModel FilesSpec FilesSources ReportModel ReportSpec.
Import ListNotations.
Open Scope N_scope.

(** ** Hash maps *)
Lemma hm_get_some {V} n (m : list (text * V)) v : hm_get n m = Some v -> In (n, v) m.
Proof.
  induction m as [|[k w] m IH]; cbn; [discriminate|]. destruct (eqb_list k n) eqn:E.
  - intros [= ->]. apply eqb_list_spec in E. subst. auto.
  - auto.
Qed.
Lemma hm_get_none {V} n (m : list (text * V)) : hm_get n m = None <-> forall v, ~ In (n, v) m.
Proof.
  induction m as [|[k w] m IH]; cbn; [split; auto|]. destruct (eqb_list k n) eqn:E.
  - apply eqb_list_spec in E. subst. split; [discriminate|]. intros H. exfalso. eapply H. left. reflexivity.
  - rewrite IH. split; intros H v; [|intros K; apply (H v); now right]. intros [K|K]; [|eapply H; eauto]. injection K as -> ->.
    rewrite eqb_list_refl in E. discriminate.
Qed.
Lemma hm_get_in {V} n (m : list (text * V)) v : NoDup (map fst m) -> In (n, v) m -> hm_get n m = Some v.
Proof.
  induction m as [|[k w] m IH]; cbn; [intros _ []|]. intros Hd [E|E]; inversion Hd as [|? ? Hk Hm]; subst.
  - injection E as -> ->. now rewrite eqb_list_refl.
  - destruct (eqb_list k n) eqn:K; [|auto]. apply eqb_list_spec in K. subst. exfalso. apply Hk.
    apply in_map_iff. exists (n, v). auto.
Qed.

Lemma lookup_some {V} (m : list (text * V)) n v : NoDup (map fst m) ->
  (lookup_or_single m n = Some v <-> has_index m n v).
Proof.
  intros Hd. unfold lookup_or_single, has_index, stored, only_value. destruct (hm_get n m) as [w|] eqn:E.
  - apply hm_get_some in E. split.
    + intros [= ->]. auto.
    + intros [H|[H _]]; [|exfalso; eapply H; eauto]. apply (hm_get_in n m v Hd) in H. apply (hm_get_in n m w Hd) in E. congruence.
  - rewrite hm_get_none in E. split.
    + intros H. right. split; [exact E|]. destruct m as [|[k w] [|[k' w'] m]]; cbn in H; try discriminate. injection H as ->. eauto.
    + intros [H|[_ (k & ->)]]; [exfalso; eapply E; eauto|reflexivity].
Qed.
Lemma lookup_none {V} (m : list (text * V)) n : NoDup (map fst m) ->
  (lookup_or_single m n = None <-> no_index m n).
Proof.
  intros Hd. unfold no_index. split.
  - intros H v K. apply (lookup_some m n v Hd) in K. congruence.
  - intros H. destruct (lookup_or_single m n) as [v|] eqn:E; [|reflexivity]. exfalso. apply (H v). now apply lookup_some.
Qed.

Lemma sum_app a b : sum (a ++ b) = sum a + sum b.
Proof. unfold sum. induction a as [|x a IH]; cbn; [reflexivity|]. rewrite IH. lia. Qed.

Section Report.
Context {D : Type}.
Variable above : D -> bool.
Variable tok : bytes -> bytes.
Variable search_of : list (list bytes) -> list bytes -> list D.
Variable dist_of : list (list bytes) -> bytes -> D.
Hypothesis Hsearch : forall batches, pointwise (search_of batches) (dist_of batches).
Variable open : source -> res (bool -> list item).
Variable err_text : option N -> text.

(** ** One source *)
Lemma rpos_app L l : exists m, rpos above (L ++ l) = rpos (D := D) above L ++ m.
Proof.
  induction l as [|e l IH] using rev_ind; [exists []; now rewrite !app_nil_r|].
  destruct IH as (m & IH). rewrite app_assoc, rpos_snoc, IH, <- app_assoc. eauto.
Qed.

Lemma process_all_analysis batches items known cs stop p :
  process_all above tok (search_of batches) items known = (cs, stop, p) ->
  exists err lines, stop_error stop = Val err /\
    analysis above tok (dist_of batches) known items cs err lines /\
    line_count p = N.of_nat (length lines) /\ byte_count p = total_bytes lines /\
    (forall t, In t (skip p) <-> In t known \/ exists x, In x (without_markers lines) /\ tok (fst x) = t).
Proof.
  intros E.
  pose proof (process_all_spec above tok (search_of batches) (dist_of batches) known (Hsearch batches) false false items (req_none items)) as K.
  rewrite E in K. destruct K as (R & P & X & h & hall & K1 & K2 & K3 & K4).
  destruct K3 as (H1 & H2 & H3 & H4 & HB & (C1 & C2 & C3 & C4) & HL & HBd).
  rewrite K2, app_nil_r in C1.
  assert (Hh : hist_ok above false false (annot tok (dist_of batches) known (without_markers R)) h)
    by (rewrite <- H1; now apply hist_ok_app).
  destruct (hist_forall2 above tok (dist_of batches) known false false _ h Hh) as [F1 F2]. rewrite C1 in F1, F2.
  pose proof (rpos_enumerates above tok (dist_of batches) known (without_markers R)) as He.
  assert (Hskip : forall t, In t (skip p) <-> In t known \/ exists x, In x (without_markers R) /\ tok (fst x) = t)
    by (intros t; rewrite H2; apply seen_after_in).
  destruct stop as [|e| |]; try contradiction.
  - destruct K4 as (E1 & K4 & Hc & Hn). exists None, R. split; [reflexivity|]. split; [|auto].
    rewrite Hc in C3. cbn in C3. subst hall.
    split; [exists (src p); csplit; auto|].
    exists (rev (map fst h)), []. rewrite app_nil_r. csplit; auto.
    assert (Hnr : Forall (nrep above) (map fst X)).
    { apply Forall_map. eapply Forall_impl; [|exact Hn]. cbn. intros x Hx. unfold nrep, rep. now rewrite Hx. }
    rewrite C4, <- (rpos_nrep above P (map fst X) Hnr), H1. exact He.
  - destruct K4 as (bad & E1 & Hf). exists (Some e), R. split; [reflexivity|]. split; [|auto].
    split; [exists (bad :: src p); csplit; eauto|].
    rewrite <- H1 in He. destruct (rpos_app P (map fst X)) as (m & Hm). rewrite Hm, <- C4 in He.
    exists (rev (map fst h)). destruct (current p) as [a|]; cbn in C3.
    + destruct C3 as (j & -> & _). cbn [map rev fst] in He. rewrite <- app_assoc in He.
      exists ([j] ++ m). rewrite H1 in *. csplit; auto. discriminate.
    + subst hall. exists m. csplit; auto. discriminate.
Qed.

(** ** One group *)
Notation report := (@report D).
Notation report_group := (report_group above tok search_of open err_text).
Notation group_outcome := (group_outcome above tok dist_of open err_text).

(** The report [d] of a group added to [r]. *)
Definition radd (r d : report) : report :=
  mkReport (log_reports r ++ log_reports d)
    (index_reports r ++ filter (fun p => match hm_get (fst p) (index_reports r) with Some _ => false | None => true end) (index_reports d))
    (index_errors r ++ index_errors d) (read_errors r ++ read_errors d)
    (total_line_count r + total_line_count d) (total_anomaly_count r + total_anomaly_count d).

Definition index_logs (n : text) (ix : index_of) (l : list (@log_report D)) : list (text * list source) :=
  match l with [] => [] | _ :: _ => [(n, ix_sources ix)] end.

(** The report of a group alone, from its outcomes. *)
Definition group_rep (n : text) (ix : index_of) (outs : list outcome) (r : report) : report :=
  let logs := flat_map (logs_of n) outs in
  mkReport (log_reports r ++ logs)
    (match hm_get n (index_reports r) with Some _ => index_reports r | None => index_reports r ++ index_logs n ix logs end)
    (index_errors r) (read_errors r ++ flat_map errors_of outs)
    (total_line_count r + sum (map lines_of outs)) (total_anomaly_count r + sum (map anomalies_of outs)).

Lemma hm_get_snoc {V} n m (v : V) : hm_get n (m ++ [(n, v)]) <> None.
Proof.
  intros H. rewrite hm_get_none in H. apply (H v). apply in_or_app. right. now left.
Qed.

Lemma group_rep_cons n ix o outs r : group_rep n ix (o :: outs) r = group_rep n ix outs (group_rep n ix [o] r).
Proof.
  unfold group_rep. cbn [flat_map map sum fold_right log_reports index_reports index_errors read_errors total_line_count total_anomaly_count].
  rewrite !app_nil_r, !app_assoc, !N.add_0_r, !N.add_assoc. f_equal.
  destruct (hm_get n (index_reports r)) eqn:E.
  - rewrite E. reflexivity.
  - destruct (logs_of n o) as [|x l]; cbn [app index_logs].
    + rewrite app_nil_r, E. reflexivity.
    + destruct (hm_get n (index_reports r ++ [(n, ix_sources ix)])) eqn:E2; [reflexivity|]. exfalso. eapply hm_get_snoc; eauto.
Qed.

Lemma group_rep_analysed n ix s cs err lines r :
  add_anomalies (match err with Some e => add_read_error r s e | None => r end) ix n s cs (N.of_nat (length lines)) (total_bytes lines) =
  group_rep n ix [Analysed s cs err lines] r.
Proof.
  unfold add_anomalies, group_rep, add_read_error. destruct cs as [|c cs]; destruct err as [e|]; cbn [flat_map logs_of errors_of app index_logs map sum fold_right lines_of anomalies_of length log_reports index_reports index_errors read_errors total_line_count total_anomaly_count]; rewrite ?app_nil_r, ?N.add_0_r;
  destruct (hm_get n (index_reports r)); reflexivity.
Qed.

Lemma lines_skipped l : sum (map lines_of (map (@Skipped D) l)) = 0 /\ sum (map anomalies_of (map (@Skipped D) l)) = 0 /\
  flat_map errors_of (map (@Skipped D) l) = [] /\ forall n, flat_map (logs_of n) (map (@Skipped D) l) = [].
Proof. induction l as [|s l (H1 & H2 & H3 & H4)]; [auto|]. cbn. csplit; auto. Qed.

Lemma report_group_outcome ix n : forall l known r r',
  report_group ix n l known r = Val r' ->
  exists outs, group_outcome (ix_batches ix) known l outs /\ forall r0, report_group ix n l known r0 = Val (group_rep n ix outs r0).
Proof.
  induction l as [|s l IH]; intros known r r' H; cbn [ReportModel.report_group] in *.
  - exists []. split; [constructor|]. intros r0. unfold group_rep. cbn. rewrite !app_nil_r, !N.add_0_r.
    destruct r0 as [a b c d e f]; cbn. destruct (hm_get n b); reflexivity.
  - unfold get_processor in *. destruct (get_relative s) as [rel|] eqn:R; [|discriminate].
    destruct (open s) as [items|e|] eqn:O; [| |discriminate].
    + destruct (is_json s) as [json|] eqn:J; [|discriminate].
      destruct (process_all above tok (search_of (ix_batches ix)) (items json) known) as [[cs stop] p] eqn:E.
      destruct (process_all_analysis _ _ _ _ _ _ E) as (err & lines & S1 & S2 & S3 & S4 & S5).
      rewrite S1 in *. apply IH in H. destruct H as (outs & H1 & H2).
      exists (Analysed s cs (option_map err_text err) lines :: outs). split.
      * econstructor; eauto.
      * intros r0. rewrite H2, group_rep_cons. do 2 f_equal. rewrite <- group_rep_analysed, S3, S4. f_equal. destruct err; reflexivity.
    + exists (NotOpened s e :: map (@Skipped D) l). split; [now constructor|]. intros r0.
      rewrite group_rep_cons. destruct (lines_skipped l) as (L1 & L2 & L3 & L4).
      unfold group_rep, add_read_error. rewrite L1, L2, L3, L4. cbn. rewrite !app_nil_r, !N.add_0_r.
      destruct (hm_get n (index_reports r0)) eqn:E; rewrite ?app_nil_r, ?E, ?app_nil_r; reflexivity.
Qed.

Lemma report_group_val ix n : forall l known r,
  (forall s, In s l -> get_relative s <> None /\ open s <> Panic) ->
  exists r', report_group ix n l known r = Val r'.
Proof.
  induction l as [|s l IH]; intros known r H; cbn [ReportModel.report_group]; [eauto|].
  destruct (H s (or_introl eq_refl)) as [R O]. unfold get_processor. destruct (get_relative s) as [rel|] eqn:Er; [|congruence].
  destruct (open s) as [items|e|] eqn:Eo; [|eauto|congruence].
  unfold is_json. rewrite Er. cbn [option_map].
  destruct (process_all above tok (search_of (ix_batches ix)) (items (ends_with (lit ".json") rel)) known) as [[cs stop] p] eqn:E.
  destruct (process_all_analysis _ _ _ _ _ _ E) as (err & lines & S1 & _). rewrite S1. apply IH. intros s' Hs. apply H. now right.
Qed.

(** ** All groups *)
Notation report_all := (report_all above tok search_of open err_text).
Notation group_result := (@group_result D).

(** ... and [report_group] computes it, whatever the report so far. *)
Definition yields (m : model) (g : text * list source) (gr : group_result) : Prop :=
  fst gr = g /\
  match get_index m (fst g), snd gr with
  | Some ix, Some (ix', outs) => ix' = ix /\ group_outcome (ix_batches ix) [] (snd g) outs /\
      forall r0, report_group ix (fst g) (snd g) [] r0 = Val (group_rep (fst g) ix outs r0)
  | None, None => True
  | _, _ => False
  end.
Lemma yields_result m g gr : NoDup (map fst m) -> yields m g gr -> result_of above tok dist_of open err_text m g gr.
Proof.
  intros Hd [H1 H2]. split; [exact H1|]. unfold get_index in H2.
  destruct (lookup_or_single m (fst g)) as [ix|] eqn:E; destruct (snd gr) as [[ix' outs]|]; try contradiction.
  - destruct H2 as (-> & H2 & _). apply lookup_some in E; auto.
  - now apply lookup_none in E.
Qed.

Definition index_of_result (g : group_result) : list (text * list source) :=
  match snd g with
  | Some (ix, _) => match gr_logs g with [] => [] | _ :: _ => [(fst (fst g), ix_sources ix)] end
  | None => []
  end.

Definition add_results (gs : list group_result) (r : report) : report :=
  mkReport (log_reports r ++ flat_map gr_logs gs) (index_reports r ++ flat_map index_of_result gs)
    (index_errors r ++ flat_map (fun g => match snd g with None => [snd (fst g)] | Some _ => [] end) gs)
    (read_errors r ++ flat_map errors_of (flat_map gr_outs gs))
    (total_line_count r + sum (map lines_of (flat_map gr_outs gs)))
    (total_anomaly_count r + sum (map anomalies_of (flat_map gr_outs gs))).

Lemma report_all_yields m : forall groups gs r,
  NoDup (map fst groups) -> (forall n, In n (map fst groups) -> hm_get n (index_reports r) = None) ->
  Forall2 (yields m) groups gs -> report_all m groups r = Val (add_results gs r).
Proof.
  intros groups gs r Hd Hi H. revert r Hd Hi. induction H as [|[n l] gr groups gs Hy _ IH]; intros r Hd Hi.
  - unfold add_results. cbn. rewrite !app_nil_r, !N.add_0_r. now destruct r.
  - cbn [map fst ReportModel.report_all] in *. inversion Hd as [|? ? Hn Hd']; subst.
    pose proof (Hi n (or_introl eq_refl)) as Hn0. destruct gr as [nl o]. destruct Hy as [E Hy]. cbn in E. subst nl. cbn [fst snd] in Hy.
    destruct (get_index m n) as [ix|]; destruct o as [[ix' outs]|]; try contradiction.
    + destruct Hy as (-> & _ & Hy). rewrite Hy, IH; [|exact Hd'|].
      * unfold add_results, group_rep. rewrite Hn0. cbn [flat_map log_reports index_reports index_errors read_errors total_line_count total_anomaly_count].
        change (gr_outs (n, l, Some (ix, outs))) with outs. change (gr_logs (n, l, Some (ix, outs))) with (flat_map (logs_of n) outs).
        change (index_of_result (n, l, Some (ix, outs))) with (index_logs n ix (flat_map (logs_of n) outs)).
        rewrite flat_map_app, !map_app, !sum_app, !app_assoc, !N.add_assoc. cbn [snd fst]. rewrite app_nil_r. reflexivity.
      * intros n' Hn'. unfold group_rep. rewrite Hn0. cbn [index_reports]. apply hm_get_none. intros v Hv.
        apply in_app_or in Hv. destruct Hv as [Hv|Hv].
        -- apply (proj1 (hm_get_none n' _) (Hi n' (or_intror Hn')) v Hv).
        -- unfold index_logs in Hv. destruct (flat_map (logs_of n) outs); [destruct Hv|]. destruct Hv as [Hv|[]].
           injection Hv as -> _. contradiction.
    + rewrite IH; [|exact Hd'|].
      * unfold add_results. cbn. rewrite <- !app_assoc. reflexivity.
      * intros n' Hn'. cbn [index_reports]. apply Hi. now right.
Qed.
Lemma report_all_val_yields m : forall groups r r', report_all m groups r = Val r' -> exists gs, Forall2 (yields m) groups gs.
Proof.
  induction groups as [|[n l] groups IH]; intros r r' H; cbn [ReportModel.report_all] in H; [exists []; constructor|].
  destruct (get_index m n) as [ix|] eqn:G.
  - destruct (report_group ix n l [] r) as [r1|e|] eqn:E; try discriminate.
    apply report_group_outcome in E. destruct E as (outs & O & Hr). apply IH in H. destruct H as (gs & H).
    exists ((n, l, Some (ix, outs)) :: gs). constructor; [|exact H]. split; [reflexivity|]. cbn. rewrite G. auto.
  - apply IH in H. destruct H as (gs & H). exists ((n, l, None) :: gs). constructor; [|exact H]. split; [reflexivity|]. cbn. now rewrite G.
Qed.

Lemma report_all_val m : forall groups r,
  (forall n l s, In (n, l) groups -> In s l -> get_relative s <> None /\ open s <> Panic) ->
  exists r', report_all m groups r = Val r'.
Proof.
  induction groups as [|[n l] groups IH]; intros r H; cbn [ReportModel.report_all]; [eauto|].
  destruct (get_index m n) as [ix|].
  - destruct (report_group_val ix n l [] r) as (r1 & ->); [intros s Hs; apply (H n l); [now left|exact Hs]|].
    apply IH. intros n' l' s Hi. apply (H n' l'). now right.
  - apply IH. intros n' l' s Hi. apply (H n' l'). now right.
Qed.

Lemma made_of_new gs : made_of gs (add_results gs (report_new (D := D))).
Proof. split; cbn; reflexivity. Qed.

Variable drain : list (text * list source) -> list (text * list source).
Hypothesis Hdrain : forall l, Permutation (drain l) l.

Lemma drain_nodup g : NoDup (map fst g) -> NoDup (map fst (drain g)).
Proof. apply Permutation_NoDup. apply Permutation_map. symmetry. apply Hdrain. Qed.

(** The whole report. *)
Lemma model_report_made m target r : NoDup (map fst m) ->
  model_report above tok search_of open err_text drain m target = Val r ->
  exists sources groups gs, get_sources target = Val sources /\ grouping source_name groups sources /\
    Forall2 (result_of above tok dist_of open err_text m) groups gs /\ made_of gs r.
Proof.
  intros Hm. unfold model_report. destruct (group_sources [target]) as [g|e|] eqn:G; try discriminate.
  intros H. destruct (group_sources_ok _ _ G) as (ls & F & Hg).
  inversion F as [|? l ? ls' F1 F2]; subst. inversion F2; subst. cbn [concat] in Hg. rewrite app_nil_r in Hg.
  destruct Hg as [Hd Hg].
  destruct (report_all_val_yields _ _ _ _ H) as (gs & Hy).
  rewrite (report_all_yields m _ gs) in H; [|now apply drain_nodup|reflexivity|exact Hy]. injection H as <-.
  exists l, (drain g), gs. split; [exact F1|]. split; [|split; [|apply made_of_new]].
  - split; [now apply drain_nodup|]. intros n x. rewrite <- Hg. split; apply Permutation_in; [|symmetry]; apply Hdrain.
  - clear - Hy Hm. induction Hy; constructor; auto. now apply yields_result.
Qed.

Lemma model_report_val m target sources :
  get_sources target = Val sources ->
  (forall s, In s sources -> get_relative s <> None /\ open s <> Panic) ->
  exists r, model_report above tok search_of open err_text drain m target = Val r.
Proof.
  intros H Hs. unfold model_report.
  destruct (group_sources_val [target] [sources]) as (g & G); [auto|cbn; rewrite app_nil_r; intros s Hi; now apply Hs|].
  rewrite G. apply report_all_val. intros n l s Hi Hl.
  destruct (group_sources_ok _ _ G) as (ls & F & Hd & Hg).
  inversion F as [|? l1 ? ls' F1 F2]; subst. inversion F2; subst. cbn [concat] in Hg. rewrite app_nil_r in Hg.
  rewrite H in F1. injection F1 as <-. apply (Permutation_in _ (Hdrain g)) in Hi. apply Hg in Hi. destruct Hi as [_ Hi].
  apply Hs. clear - Hi Hl. induction Hi; [destruct Hl| |right; auto]. destruct Hl as [->|Hl]; [now left|right; auto].
Qed.
End Report.

(** ** The order of the hash maps *)
Lemma Forall2_perm {A B} (R : A -> B -> Prop) l l' : Permutation l l' -> forall k, Forall2 R l k ->
  exists k', Forall2 R l' k' /\ Permutation k k'.
Proof.
  induction 1 as [|x l l' _ IH|x y l|l1 l2 l3 _ IH1 _ IH2]; intros k H.
  - inversion H; subst. exists []. auto.
  - inversion H as [|? b ? k0 H1 H2]; subst. destruct (IH _ H2) as (k' & K1 & K2). exists (b :: k'). auto.
  - inversion H as [|? b ? k0 H1 H2]; subst. inversion H2 as [|? b' ? k1 H3 H4]; subst. exists (b' :: b :: k1). split; [auto|constructor].
  - destruct (IH1 _ H) as (k' & K1 & K2). destruct (IH2 _ K1) as (k2 & K3 & K4). exists k2. split; [auto|]. now transitivity k'.
Qed.
Lemma flat_map_perm {A B} (f : A -> list B) l l' : Permutation l l' -> Permutation (flat_map f l) (flat_map f l').
Proof.
  induction 1 as [|x l l' _ IH|x y l|l1 l2 l3 _ IH1 _ IH2]; cbn; auto.
  - now apply Permutation_app_head.
  - rewrite !app_assoc. apply Permutation_app_tail. apply Permutation_app_comm.
  - now transitivity (flat_map f l2).
Qed.
Lemma sum_perm l l' : Permutation l l' -> sum l = sum l'.
Proof. unfold sum. induction 1; cbn; lia. Qed.

