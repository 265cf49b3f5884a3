(** Proofs about the live output. *)
From Coq Require Import String List NArith Arith Bool Lia Permutation ZifyBool ZifyN ZifyNat.
From Verif Require Import Common CommonFacts ProcModel ProcSpec ProcInv ProcResult FilesModel FilesSpec FilesSources
  ReportModel ReportSpec ReportProofs ReportMore.
Import ListNotations.
Open Scope N_scope.

Section Live.
Context {D : Type}.
Variable above : D -> bool.
Variable tok : bytes -> bytes.
Variable search_of : list (list bytes) -> list bytes -> list D.
Variable dist_of : list (list bytes) -> bytes -> D.
Hypothesis Hsearch : forall batches, pointwise (search_of batches) (dist_of batches).
Variable open : source -> res (bool -> list item).
Variable err_text : option N -> text.

(** The rows of a result; the rows of anomalies are the subject of C43. *)
Definition live_rows (o : @live_result D) : list (@out_line D) :=
  match o with
  | Shown s cs err _ => map Printed (print_anomalies None cs) ++ match err with Some e => [CouldNotRead s e] | None => [] end
  | NoIndex s => [NoBaselines s]
  | Broken s e => [CouldNotRead s e]
  | NotReached _ => []
  end.

Lemma live_sources_outcome (m : model) : NoDup (map fst m) -> forall l out n k,
  live_sources above tok search_of open err_text m l = Val (out, n, k) ->
  exists outs, live_outcome above tok dist_of open err_text m l outs /\
    out = flat_map live_rows outs /\ n = sum (map live_lines outs) /\ k = sum (map live_anomalies outs).
Proof.
  intros Hm. induction l as [|s l IH]; intros out n k H; cbn [live_sources] in H.
  - injection H as <- <- <-. exists []. csplit; auto. constructor.
  - destruct (get_relative s) as [rel|] eqn:R; [|discriminate].
    assert (Sn : source_name s = Some (index_name rel)) by (unfold source_name; now rewrite R).
    unfold get_index in H. destruct (lookup_or_single m (index_name rel)) as [ix|] eqn:G.
    + apply (lookup_some m _ _ Hm) in G. unfold get_processor in H. rewrite R in H.
      destruct (open s) as [items|e|] eqn:O; [| |discriminate].
      * destruct (is_json s) as [json|] eqn:J; [|discriminate].
        destruct (process_all above tok (search_of (ix_batches ix)) (items json) []) as [[cs stop] p] eqn:E.
        destruct (process_all_analysis above tok search_of dist_of Hsearch _ _ _ _ _ _ E) as (err & lines & S1 & S2 & S3 & S4 & S5).
        rewrite S1 in H. destruct (live_sources above tok search_of open err_text m l) as [[[out' n'] k']|e|] eqn:L; try discriminate.
        injection H as <- <- <-. destruct (IH _ _ _ eq_refl) as (outs & I1 & -> & -> & ->).
        exists (Shown s cs (option_map err_text err) lines :: outs). csplit.
        -- econstructor; eauto.
        -- cbn [flat_map live_rows]. rewrite <- app_assoc. f_equal. destruct err; reflexivity.
        -- cbn. now rewrite S3.
        -- reflexivity.
      * injection H as <- <- <-. exists (Broken s e :: map (@NotReached D) l). csplit; [econstructor; eauto|..].
        -- cbn. f_equal. clear. induction l; cbn; auto.
        -- cbn. clear. induction l; cbn; auto.
        -- cbn. clear. induction l; cbn; auto.
    + apply (lookup_none m _ Hm) in G. destruct (live_sources above tok search_of open err_text m l) as [[[out' n'] k']|e|] eqn:L; try discriminate.
      injection H as <- <- <-. destruct (IH _ _ _ eq_refl) as (outs & I1 & -> & -> & ->).
      exists (NoIndex s :: outs). csplit; auto. econstructor; eauto.
Qed.

Lemma live_sources_val (m : model) : NoDup (map fst m) -> forall l,
  (forall s, In s l -> get_relative s <> None /\ open s <> Panic) ->
  exists x, live_sources above tok search_of open err_text m l = Val x.
Proof.
  intros Hm. induction l as [|s l IH]; intros H; [eexists; reflexivity|]. cbn [live_sources].
  destruct IH as ([[out n] k] & IH); [intros x Hx; apply H; now right|]. rewrite IH.
  destruct (H s (or_introl eq_refl)) as [R O]. destruct (get_relative s) as [rel|] eqn:Er; [|congruence].
  destruct (get_index m (index_name rel)) as [ix|]; [|eauto]. unfold get_processor. rewrite Er.
  destruct (open s) as [items|e|] eqn:Eo; [|eauto|congruence]. unfold is_json. rewrite Er. cbn [option_map].
  destruct (process_all above tok (search_of (ix_batches ix)) (items (ends_with (lit ".json") rel)) []) as [[cs stop] p] eqn:E.
  destruct (process_all_analysis above tok search_of dist_of Hsearch _ _ _ _ _ _ E) as (err & lines & S1 & _). rewrite S1. eauto.
Qed.

(** Lines to report are lines to report when fewer lines are known. *)
Lemma reported_mono dist known lines i : reported above tok dist known lines i -> reported above tok dist [] lines i.
Proof.
  intros [(b & nr & H1 & _ & H2) H3]. split; [|exact H3]. exists b, nr. split; [exact H1|]. split; [intros []|exact H2].
Qed.

Lemma analysis_valid dist known lines cs err lines' : all_valid lines -> no_marker lines ->
  analysis above tok dist known (ok_items lines) cs err lines' -> err = None /\ lines' = lines.
Proof.
  intros Hv Hm [(rest & E & Hv' & Hend) _]. apply ok_items_split in E. destruct E as (k & -> & ->).
  destruct err as [e|].
  - exfalso. destruct Hend as (bad & rest' & E & Hf). destruct (skipn k lines) as [|[b n] r] eqn:Es; [discriminate|].
    cbn in E. injection E as <- _. destruct Hf as [Hf _]. unfold all_valid in Hv. rewrite Forall_forall in Hv.
    assert (Hi : In (b, n) lines) by (rewrite <- (firstn_skipn k lines), Es; apply in_or_app; right; now left).
    apply Hv in Hi. cbn in Hi. congruence.
  - split; [reflexivity|]. destruct Hend as [E|(l & mk & E & Hmk)].
    + destruct (skipn k lines) eqn:Es; [|discriminate]. rewrite <- (firstn_skipn k lines) at 2. rewrite Es. symmetry. apply app_nil_r.
    + exfalso. unfold no_marker in Hm. rewrite <- (firstn_skipn k lines), E, !Forall_app in Hm. destruct Hm as [[_ Hm] _].
      inversion Hm; subst. congruence.
Qed.

(** What is found with known lines is found without. *)
Lemma analysis_mono dist known lines cs err l1 cs' err' l2 c : all_valid lines -> no_marker lines ->
  analysis above tok dist known (ok_items lines) cs err l1 -> analysis above tok dist [] (ok_items lines) cs' err' l2 ->
  In c cs -> exists c', In c' cs' /\ aline c' = aline c /\ apos c' = apos c /\ distance c' = distance c.
Proof.
  intros Hv Hm A B Hc. destruct (analysis_valid _ _ _ _ _ _ Hv Hm A) as [-> ->]. destruct (analysis_valid _ _ _ _ _ _ Hv Hm B) as [-> ->].
  destruct A as [_ (ps & more & [_ A1] & _ & A3 & _)]. destruct B as [_ (ps' & more' & [_ B1] & B2 & B3 & _)].
  rewrite (B2 eq_refl), app_nil_r in B1. destruct (forall2_in_l _ _ _ _ A3 Hc) as (i & Hi & D1 & D2).
  assert (Hi' : In i ps') by (apply B1, (reported_mono dist known), A1; apply in_or_app; now left).
  destruct (forall2_in_r _ _ _ _ B3 Hi') as (c' & Hc' & D1' & D2'). exists c'. rewrite D1 in D1'. injection D1' as E1 E2.
  csplit; auto; congruence.
Qed.

Lemma live_outcome_in m l outs s : live_outcome above tok dist_of open err_text m l outs -> In s l ->
  (forall x, In x l -> exists items, open x = Val items) ->
  (exists n, source_name s = Some n /\ no_index m n) \/
  exists n ix items json cs err lines, source_name s = Some n /\ has_index m n ix /\ open s = Val items /\ is_json s = Some json /\
    analysis above tok (dist_of (ix_batches ix)) [] (items json) cs err lines /\ In (Shown s cs (option_map err_text err) lines) outs.
Proof.
  induction 1 as [|s0 n rest outs H1 H2 _ IH|s0 n ix e rest H1 H2 H3|s0 n ix items json cs err lines rest outs H1 H2 H3 H4 H5 _ IH]; intros Hs Ho.
  - destruct Hs.
  - destruct Hs as [->|Hs]; [left; eauto|]. destruct (IH Hs (fun x Hx => Ho x (or_intror Hx))) as [K|(n' & ix & it & js & cs & err & lines & K)]; [now left|].
    right. exists n', ix, it, js, cs, err, lines. destruct K as (K1 & K2 & K3 & K4 & K5 & K6). csplit; auto. now right.
  - destruct (Ho s0 (or_introl eq_refl)) as (it & E). congruence.
  - destruct Hs as [->|Hs]; [right; exists n, ix, items, json, cs, err, lines; csplit; auto; now left|].
    destruct (IH Hs (fun x Hx => Ho x (or_intror Hx))) as [K|(n' & ix' & it & js & cs' & err' & lines' & K)]; [now left|].
    right. exists n', ix', it, js, cs', err', lines'. destruct K as (K1 & K2 & K3 & K4 & K5 & K6). csplit; auto. now right.
Qed.
End Live.

Lemma anomaly_printed {D} (cs : list (@actx D)) c : In c cs -> forall last, In (Anom (distance c) (apos c) (aline c)) (print_anomalies last cs).
Proof.
  induction cs as [|c0 cs IH]; intros H last; [destruct H|]. cbn [print_anomalies]. unfold print_anomaly. apply in_or_app.
  destruct H as [->|H]; [left|right; now apply IH]. apply in_or_app. right. apply in_or_app. right. now left.
Qed.
