(** Property C59: the live output of the command line, and how it compares with a report. *)
From Coq Require Import String List NArith Arith Bool Lia Permutation ZifyBool ZifyN ZifyNat.
From Verif Require Import Common CommonFacts ProcModel ProcSpec ProcInv ProcResult ProcRefute FilesModel FilesSpec FilesSources
  ReportModel ReportSpec ReportProofs ReportMore ReportLive P_Report.
Import ListNotations.
Open Scope N_scope.

Section Live.
Context {D : Type} (above : D -> bool) (tok : bytes -> bytes)
  (search_of : list (list bytes) -> list bytes -> list D) (dist_of : list (list bytes) -> bytes -> D)
  (open : source -> res (bool -> list item)) (err_text : option N -> text)
  (drain : list (text * list source) -> list (text * list source)).

(** The output is what its sources give, in order: see [live_outcome] and [analysis], and
    [live_rows] for the rows of a source; the totals are those of the sources. *)
Theorem C59_live_output : forall m target out n k,
  (forall batches, pointwise (search_of batches) (dist_of batches)) -> NoDup (map fst m) ->
  process_live above tok search_of open err_text m target = Val (out, n, k) ->
  exists sources outs, get_sources target = Val sources /\
    live_outcome above tok dist_of open err_text m sources outs /\
    out = flat_map live_rows outs /\ n = sum (map live_lines outs) /\ k = sum (map live_anomalies outs).
Proof.
  intros m target out n k Hs Hm H. unfold process_live in H. destruct (get_sources target) as [sources|e|] eqn:G; try discriminate.
  exists sources. destruct (live_sources_outcome above tok search_of dist_of Hs open err_text m Hm _ _ _ _ H) as (outs & H1 & H2 & H3 & H4).
  exists outs. auto.
Qed.

(** There is an output, with totals, unless the target cannot be listed. *)
Theorem C59_live_exists : forall m target sources,
  (forall batches, pointwise (search_of batches) (dist_of batches)) -> NoDup (map fst m) ->
  get_sources target = Val sources -> (forall s, In s sources -> get_relative s <> None /\ open s <> Panic) ->
  exists x, process_live above tok search_of open err_text m target = Val x.
Proof. intros m target sources Hs Hm G H. unfold process_live. rewrite G. eapply live_sources_val; eauto. Qed.

(** Every anomaly of the report is printed live, with the same distance, number and text, if
    the sources can be opened and read. *)
Theorem C59_live_shows_report : forall m target r out n k,
  (forall batches, pointwise (search_of batches) (dist_of batches)) -> (forall l, Permutation (drain l) l) ->
  NoDup (map fst m) ->
  (forall sources, get_sources target = Val sources -> forall s, In s sources -> exists items, open s = Val items /\
     forall json, exists lines, items json = ok_items lines /\ all_valid lines /\ no_marker lines) ->
  model_report above tok search_of open err_text drain m target = Val r ->
  process_live above tok search_of open err_text m target = Val (out, n, k) ->
  forall lr c, In lr (log_reports r) -> In c (lr_anomalies lr) ->
    In (Printed (Anom (distance c) (apos c) (aline c))) out.
Proof.
  intros m target r out n k Hs Hd Hm Hok Hr Hl lr c Hlr Hc.
  destruct (model_report_made above tok search_of dist_of Hs open err_text drain Hd m target r Hm Hr) as (sources & groups & gs & H1 & H2 & H3 & H4).
  destruct (C59_live_output m target out n k Hs Hm Hl) as (sources' & outs & K1 & K2 & -> & _). rewrite H1 in K1. injection K1 as <-.
  specialize (Hok _ H1).
  destruct (made_log gs r lr H4 Hlr) as (g & ix & gouts & s & c0 & cs & err & lines & G1 & G2 & G3 & ->). cbn [lr_anomalies] in Hc.
  destruct (forall2_in_r _ _ _ _ H3 G1) as ([nm l] & R1 & R2 & R3). rewrite G2 in R3. cbn [fst snd] in *. destruct R3 as [R3 R4].
  destruct (group_outcome_analysed above tok dist_of open err_text _ _ _ _ _ _ _ _ R4 G3) as (items & json & known & err' & l1 & l2 & A1 & A2 & A3 & A4 & A5 & _).
  apply (proj2 H2) in R1. destruct R1 as [_ R1]. assert (Hsl : In s l) by (rewrite A5; apply in_elt).
  apply (selected_in _ _ _ s R1) in Hsl. destruct Hsl as [S1 S2].
  destruct (Hok s S1) as (items' & O1 & O2). rewrite A1 in O1. injection O1 as <-. destruct (O2 json) as (ls & L1 & L2 & L3).
  destruct (live_outcome_in above tok dist_of open err_text m sources outs s K2 S1) as [(n' & N1 & N2)|(n' & ix' & it & js & cs' & e' & lines' & N1 & N2 & N3 & N4 & N5 & N6)].
  { intros x Hx. destruct (Hok x Hx) as (it & E & _). eauto. }
  - exfalso. rewrite S2 in N1. injection N1 as <-. exact (N2 ix R3).
  - rewrite S2 in N1. injection N1 as <-. rewrite A1 in N3. injection N3 as <-. rewrite A2 in N4. injection N4 as <-.
    apply (lookup_some m _ _ Hm) in R3. apply (lookup_some m _ _ Hm) in N2. rewrite R3 in N2. injection N2 as <-.
    rewrite L1 in A4, N5. destruct (analysis_mono above tok _ _ _ _ _ _ _ _ _ c L2 L3 A4 N5 Hc) as (c' & C1 & C2 & C3 & C4).
    apply in_flat_map. eexists. split; [exact N6|]. cbn [live_rows]. apply in_or_app. left. apply in_map. rewrite <- C2, <- C3, <- C4. now apply anomaly_printed.
Qed.
End Live.

(** ** Examples *)
(** Not the other way round: each source starts without known lines, so the line "crash" of
    both files is shown twice. *)
Definition live_files := files
  [ (lit "old/app.log", Val [lit "start"; lit "work"; lit "stop"]); (lit "old/db.log", Val [lit "open"]);
    (lit "new/app.log", Val [lit "start"; lit "crash"; lit "stop"]);
    (lit "new/app.log.1", Val [lit "crash"]) ; (lit "new/web.log", Val [lit "hello"]) ].
Definition live_target := [src_e "new/app.log"; src_e "new/web.log"; src_e "new/app.log.1"].
Example C59_example : exists m r,
  model_train tok_id live_files id_drain [ex_baseline] = Val m /\
  process_live idb tok_id exact_search live_files error_e m live_target =
    Val ([Printed (Ctx 0 (lit "start")); Printed (Anom true 2 (lit "crash")); Printed (Ctx 2 (lit "stop"));
          NoBaselines (Local 4 (lit "new/web.log")); Printed (Anom true 1 (lit "crash"))], 4, 2) /\
  model_report idb tok_id exact_search live_files error_e id_drain m live_target = Val r /\
  map (fun lr => map (fun c => (aline c, apos c)) (lr_anomalies lr)) (log_reports r) = [[(lit "crash", 2)]].
Proof. eexists _, _. split; [vm_compute; reflexivity|]. split; [vm_compute; reflexivity|]. split; [vm_compute; reflexivity|]. reflexivity. Qed.
Example C59_example_hyps : forall sources, get_sources live_target = Val sources -> forall s, In s sources -> exists items, live_files s = Val items /\
  forall json, exists lines, items json = ok_items lines /\ all_valid lines /\ no_marker lines.
Proof.
  intros sources E s Hs. vm_compute in E. injection E as <-.
  repeat (destruct Hs as [<-|Hs]); try destruct Hs; (eexists; split; [reflexivity|]); intros json; eexists;
    (split; [reflexivity|]); (split; [repeat constructor|repeat constructor]).
Qed.

(** A source that cannot be opened hides all the sources after it: their anomalies are not
    printed, and nothing says so. *)
Theorem C59_unopened_refuted : exists open m target sources out n k s,
  model_train tok_id open id_drain [ex_baseline] = Val m /\
  process_live idb tok_id exact_search open error_e m target = Val (out, n, k) /\
  get_sources target = Val sources /\ In s sources /\
  (exists ix, has_index m (lit "db.log") ix /\ source_name s = Some (lit "db.log") /\
     open s = Val (fun _ => ok_items [(lit "burn", 1)]) /\ exact_dist (ix_batches ix) (lit "burn") = true) /\
  out = [CouldNotRead (Local 4 (lit "new/app.log")) (lit "denied")].
Proof.
  set (fs := files [ (lit "old/app.log", Val [lit "start"]); (lit "old/db.log", Val [lit "open"]);
                     (lit "new/app.log", Fail (lit "denied")); (lit "new/db.log", Val [lit "burn"]) ]).
  exists fs. eexists. exists [src_e "new/app.log"; src_e "new/db.log"]. eexists _, _, _, _. exists (Local 4 (lit "new/db.log")).
  split; [vm_compute; reflexivity|]. split; [vm_compute; reflexivity|]. split; [reflexivity|]. split; [right; left; reflexivity|]. split; [|reflexivity].
  eexists. split; [left; right; left; reflexivity|]. repeat split.
Qed.

Print Assumptions C59_live_output.
Print Assumptions C59_live_exists.
Print Assumptions C59_live_shows_report.
Print Assumptions C59_unopened_refuted.
