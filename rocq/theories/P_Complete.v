(** Property C61: every novel line is represented in the report. *)
From Coq Require Import String List NArith Arith Bool Lia Permutation ZifyBool ZifyN ZifyNat.
From Verif Require Import Common CommonFacts ProcModel ProcSpec ProcInv ProcResult ProcRefute FilesModel FilesSpec FilesSources
  ReportModel ReportSpec ReportProofs ReportMore ReportLive P_Report.
Import ListNotations.
Open Scope N_scope.

(** The source [s] can be opened, and all its lines are [lines]: valid, without the marker of
    logreduce's own output. *)
Definition readable (open : source -> res (bool -> list item)) (s : source) (lines : list (bytes * N)) : Prop :=
  exists items json, open s = Val items /\ is_json s = Some json /\ items json = ok_items lines /\ all_valid lines /\ no_marker lines.

Lemma no_marker_id lines : no_marker lines -> without_markers lines = lines.
Proof.
  unfold no_marker, without_markers. induction 1 as [|x l H _ IH]; [reflexivity|]. cbn. rewrite H. cbn. now f_equal.
Qed.
(** The first position with the tokenized form of a line. *)
Lemma first_position (tok : bytes -> bytes) (lines : list (bytes * N)) x : In x lines ->
  exists j b nr, nth_error lines j = Some (b, nr) /\ tok b = tok (fst x) /\
    forall k b' nr', (k < j)%nat -> nth_error lines k = Some (b', nr') -> tok b' <> tok b.
Proof.
  induction lines as [|[b nr] l IH]; intros H; [destruct H|].
  destruct (list_eq_dec N.eq_dec (tok b) (tok (fst x))) as [E|E].
  - exists 0%nat, b, nr. csplit; auto. intros k b' nr' Hk. lia.
  - destruct H as [<-|H]; [now contradiction E|]. destruct (IH H) as (j & b1 & n1 & H1 & H2 & H3).
    exists (S j), b1, n1. csplit; auto. intros [|k] b' nr' Hk Hn.
    + cbn in Hn. injection Hn as <- <-. congruence.
    + apply (H3 k b' nr'); [lia|exact Hn].
Qed.

Section Complete.
Context {D : Type} (above : D -> bool) (tok : bytes -> bytes)
  (search_of : list (list bytes) -> list bytes -> list D) (dist_of : list (list bytes) -> bytes -> D)
  (open : source -> res (bool -> list item)) (err_text : option N -> text)
  (drain : list (text * list source) -> list (text * list source)).

Lemma analysis_complete dist known lines cs err l' x : all_valid lines -> no_marker lines ->
  analysis above tok dist known (ok_items lines) cs err l' -> In x lines -> above (dist (tok (fst x))) = true ->
  In (tok (fst x)) known \/ exists c, In c cs /\ tok (aline c) = tok (fst x).
Proof.
  intros Hv Hm A Hx Ha. destruct (analysis_valid above tok _ _ _ _ _ _ Hv Hm A) as [-> ->].
  destruct (in_dec (list_eq_dec N.eq_dec) (tok (fst x)) known) as [Hk|Hk]; [now left|right].
  destruct A as [_ (ps & more & [_ A1] & A2 & A3 & _)]. rewrite (A2 eq_refl), app_nil_r in A1. rewrite (no_marker_id _ Hm) in *.
  destruct (first_position tok lines x Hx) as (j & b & nr & J1 & J2 & J3).
  assert (Hr : reported above tok dist known lines j).
  { split; [exists b, nr|exists b, nr]; rewrite J2; csplit; auto. intros k b' nr' Hk1 Hk2. rewrite <- J2. eapply J3; eauto. }
  apply A1 in Hr. destruct (forall2_in_r _ _ _ _ A3 Hr) as (c & Hc & D1 & _). exists c. split; [exact Hc|].
  rewrite J1 in D1. injection D1 as <- _. exact J2.
Qed.

Lemma group_complete batches known l outs : group_outcome above tok dist_of open err_text batches known l outs ->
  (forall s, In s l -> exists lines, readable open s lines) ->
  forall s lines x, In s l -> readable open s lines -> In x lines -> above (dist_of batches (tok (fst x))) = true ->
  In (tok (fst x)) known \/ exists s' cs err lines' c, In (Analysed s' cs err lines') outs /\ In c cs /\ tok (aline c) = tok (fst x).
Proof.
  induction 1 as [|known s0 e rest Ho|known s0 items json cs err lines0 known' rest outs Ho Hj Ha Hk Hg IH]; intros Hall s lines x Hs Hr Hx Hab.
  - destruct Hs.
  - destruct (Hall s0 (or_introl eq_refl)) as (ls & items & json & E & _). congruence.
  - destruct (Hall s0 (or_introl eq_refl)) as (ls & items' & json' & E1 & E2 & E3 & E4 & E5).
    rewrite Ho in E1. injection E1 as <-. rewrite Hj in E2. injection E2 as <-. rewrite E3 in Ha.
    destruct (analysis_valid above tok _ _ _ _ _ _ E4 E5 Ha) as [-> ->].
    assert (Here : forall y, In y ls -> above (dist_of batches (tok (fst y))) = true ->
      In (tok (fst y)) known \/ exists s' cs' err lines' c, In (Analysed s' cs' err lines') (Analysed s0 cs (option_map err_text None) ls :: outs) /\ In c cs' /\ tok (aline c) = tok (fst y)).
    { intros y Hy Hay. destruct (analysis_complete _ _ _ _ _ _ y E4 E5 Ha Hy Hay) as [K|(c & C1 & C2)]; [now left|right].
      exists s0, cs, (option_map err_text None), ls, c. csplit; auto. now left. }
    destruct Hs as [<-|Hs].
    + destruct Hr as (it & js & R1 & R2 & R3 & R4 & R5). rewrite Ho in R1. injection R1 as <-. rewrite Hj in R2. injection R2 as <-.
      rewrite E3 in R3. assert (El : lines = ls).
      { clear - R3. revert lines R3. induction ls as [|[a b] ls IH]; intros [|[a' b'] lines] E; try discriminate; [reflexivity|].
        cbn in E. injection E as -> -> E. f_equal. now apply IH. }
      subst lines. exact (Here x Hx Hab).
    + destruct (IH (fun y Hy => Hall y (or_intror Hy)) s lines x Hs Hr Hx Hab) as [K|(s' & cs' & er & l' & c & K1 & K2)].
      * apply Hk in K. destruct K as [K|(y & Y1 & Y2)]; [now left|]. rewrite (no_marker_id _ E5) in Y1. rewrite <- Y2 in Hab |- *. exact (Here y Y1 Hab).
      * right. exists s', cs', er, l', c. split; [now right|exact K2].
Qed.

(** If the sources with the name of [s] can all be read: each line of [s] whose distance to
    the index of its name is above the threshold is in the report, or another line with the
    same tokenized form, of a source with the same name. *)
Theorem C61_novel_lines_represented : forall m target sources r s n ix lines x,
  (forall batches, pointwise (search_of batches) (dist_of batches)) -> (forall l, Permutation (drain l) l) ->
  NoDup (map fst m) -> get_sources target = Val sources ->
  model_report above tok search_of open err_text drain m target = Val r ->
  In s sources -> source_name s = Some n -> has_index m n ix -> readable open s lines -> In x lines ->
  (forall s', In s' sources -> source_name s' = Some n -> exists lines', readable open s' lines') ->
  above (dist_of (ix_batches ix) (tok (fst x))) = true ->
  exists lr c, In lr (log_reports r) /\ lr_index lr = n /\ In c (lr_anomalies lr) /\ tok (aline c) = tok (fst x).
Proof.
  intros m target sources r s n ix lines x Hs Hd Hm Hsrc H Hin Hn Hix Hr Hx Hall Hab.
  destruct (model_report_made above tok search_of dist_of Hs open err_text drain Hd m target r Hm H) as (sources' & groups & gs & H1 & H2 & H3 & H4).
  rewrite Hsrc in H1. injection H1 as <-.
  destruct (grouping_has groups sources s H2 Hin) as (n' & l & E & Hg & Hl); [congruence|]. rewrite Hn in E. injection E as <-.
  destruct (forall2_in_l _ _ _ _ H3 Hg) as (g & G1 & G2 & G3). cbn [fst snd] in *.
  destruct (snd g) as [[ix' outs]|] eqn:Eo; [|exfalso; exact (G3 ix Hix)]. destruct G3 as [G3 G4].
  apply (lookup_some m _ _ Hm) in Hix. apply (lookup_some m _ _ Hm) in G3. rewrite Hix in G3. injection G3 as <-.
  apply (proj2 H2) in Hg. destruct Hg as [_ Hg].
  destruct (group_complete _ _ _ _ G4) with (s := s) (lines := lines) (x := x) as [[]|(s' & cs & err & lines' & c & K1 & K2 & K3)]; auto.
  - intros s' Hs'. apply (selected_in _ _ _ s' Hg) in Hs'. destruct Hs' as [S1 S2]. auto.
  - destruct cs as [|c0 cs]; [destruct K2|].
    exists (mkLog (N.of_nat (length lines')) (total_bytes lines') (c0 :: cs) s' n), c. csplit; auto.
    rewrite (mo_logs _ _ H4). apply in_flat_map. exists g. split; [exact G1|]. unfold gr_logs, gr_outs. rewrite Eo, G2. cbn [fst].
    apply in_flat_map. eexists. split; [exact K1|]. now left.
Qed.

(** And nothing else: an anomaly is a line of its source with a distance above the threshold. *)
Theorem C61_only_novel_lines : forall m target sources r lr c,
  (forall batches, pointwise (search_of batches) (dist_of batches)) -> (forall l, Permutation (drain l) l) ->
  NoDup (map fst m) -> get_sources target = Val sources ->
  model_report above tok search_of open err_text drain m target = Val r ->
  In lr (log_reports r) -> In c (lr_anomalies lr) ->
  exists ix items json, In (lr_source lr) sources /\ source_name (lr_source lr) = Some (lr_index lr) /\ has_index m (lr_index lr) ix /\
    open (lr_source lr) = Val items /\ is_json (lr_source lr) = Some json /\
    In (aline c, apos c) (good_prefix (items json)) /\
    distance c = dist_of (ix_batches ix) (tok (aline c)) /\ above (distance c) = true.
Proof.
  intros m target sources r lr c Hs Hd Hm Hsrc H Hl Hc.
  destruct (model_report_made above tok search_of dist_of Hs open err_text drain Hd m target r Hm H) as (sources' & groups & gs & H1 & H2 & H3 & H4).
  rewrite Hsrc in H1. injection H1 as <-.
  destruct (made_log gs r lr H4 Hl) as (g & ix & outs & s & c0 & cs & err & lines & G1 & G2 & G3 & ->). cbn [lr_anomalies lr_source lr_index] in *.
  destruct (forall2_in_r _ _ _ _ H3 G1) as ([nm l] & R1 & R2 & R3). rewrite G2 in R3. cbn [fst snd] in *. destruct R3 as [R3 R4]. rewrite R2. cbn [fst].
  destruct (group_outcome_analysed above tok dist_of open err_text _ _ _ _ _ _ _ _ R4 G3) as (items & json & known & err' & l1 & l2 & A1 & A2 & A3 & A4 & A5 & _).
  apply (proj2 H2) in R1. destruct R1 as [_ R1]. assert (Hsl : In s l) by (rewrite A5; apply in_elt).
  apply (selected_in _ _ _ s R1) in Hsl. destruct Hsl as [S1 S2].
  destruct (analysis_anomaly above tok _ _ _ _ _ _ c A4 Hc) as (K1 & _ & _ & K2 & _).
  assert (Hdist : distance c = dist_of (ix_batches ix) (tok (aline c))).
  { destruct A4 as [_ (ps & more & _ & _ & A4 & _)]. destruct (forall2_in_l _ _ _ _ A4 Hc) as (i & _ & _ & E). exact E. }
  exists ix, items, json. csplit; auto. now rewrite Hdist.
Qed.
End Complete.

(** The two files of app.log in ex_target can be read. *)
Example C61_example_hyps : forall s', In s' [Local 4 (lit "new/app.log"); Local 4 (lit "new/app.log.1"); Local 4 (lit "new/web.log")] ->
  source_name s' = Some (lit "app.log") -> exists lines', readable ex_files s' lines'.
Proof.
  intros s' H Hn. destruct H as [<-|[<-|[<-|[]]]]; [| |vm_compute in Hn; discriminate];
    eexists; eexists; exists false; repeat split; try reflexivity; repeat constructor.
Qed.

Print Assumptions C61_novel_lines_represented.
Print Assumptions C61_only_novel_lines.
