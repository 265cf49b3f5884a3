(** More proofs about reports: the order of the groups, training, what is accounted for. *)
From Coq Require Import String List NArith Arith Bool Lia Permutation ZifyBool ZifyN ZifyNat.
From Verif Require Import Common CommonFacts ProcModel ProcSpec ProcWalk ProcInv ProcMain ProcIndex ProcResult P_Proc
  FilesModel FilesSpec FilesSources ReportModel ReportSpec ReportProofs.
Import ListNotations.
Open Scope N_scope.

Section More.
Context {D : Type}.
Variable above : D -> bool.
Variable tok : bytes -> bytes.
Variable search_of : list (list bytes) -> list bytes -> list D.
Variable dist_of : list (list bytes) -> bytes -> D.
Hypothesis Hsearch : forall batches, pointwise (search_of batches) (dist_of batches).
Variable open : source -> res (bool -> list item).
Variable err_text : option N -> text.

(** ** The order of the groups *)
(** Equal up to the order of the entries. *)
Definition same_report (r r' : @report D) : Prop :=
  Permutation (log_reports r) (log_reports r') /\ Permutation (index_reports r) (index_reports r') /\
  Permutation (index_errors r) (index_errors r') /\ Permutation (read_errors r) (read_errors r') /\
  total_line_count r = total_line_count r' /\ total_anomaly_count r = total_anomaly_count r'.

Lemma get_index_perm {B} (m m' : list (text * index_at B)) n : NoDup (map fst m) -> Permutation m m' -> get_index m n = get_index m' n.
Proof.
  intros Hd Hp. assert (Hd' : NoDup (map fst m')) by (eapply Permutation_NoDup; [apply Permutation_map; exact Hp|exact Hd]).
  assert (K : forall v, has_index m n v -> has_index m' n v).
  { intros v [H|[H (k & ->)]].
    - left. apply (Permutation_in _ Hp H).
    - right. split; [|exists k; now apply Permutation_length_1_inv].
      intros w Hw. apply (H w). apply (Permutation_in _ (Permutation_sym Hp) Hw). }
  assert (K' : forall v, has_index m' n v -> has_index m n v).
  { intros v [H|[H (k & ->)]].
    - left. apply (Permutation_in _ (Permutation_sym Hp) H).
    - right. split; [|exists k; apply Permutation_length_1_inv; now symmetry].
      intros w Hw. apply (H w). apply (Permutation_in _ Hp Hw). }
  unfold get_index. destruct (lookup_or_single m n) as [v|] eqn:E.
  - apply (lookup_some m n v Hd) in E. symmetry. apply lookup_some; auto.
  - apply (lookup_none m n Hd) in E. symmetry. apply lookup_none; [exact Hd'|]. intros v Hv. apply (E v). auto.
Qed.

Lemma report_perm d d' m m' target r :
  (forall l, Permutation (d l) l) -> (forall l, Permutation (d' l) l) -> NoDup (map fst m) -> Permutation m m' ->
  model_report above tok search_of open err_text d m target = Val r ->
  exists r', model_report above tok search_of open err_text d' m' target = Val r' /\ same_report r r'.
Proof.
  intros Hd Hd' Hm Hp. unfold model_report. destruct (group_sources [target]) as [g|e|] eqn:G; try discriminate. intros H.
  destruct (group_sources_ok _ _ G) as (ls & _ & Hn & _).
  destruct (report_all_val_yields above tok search_of dist_of Hsearch open err_text _ _ _ _ H) as (gs & Hy).
  rewrite (report_all_yields above tok search_of dist_of open err_text m _ gs) in H; [|now apply drain_nodup|reflexivity|exact Hy].
  injection H as <-.
  assert (Pg : Permutation (d g) (d' g)) by (transitivity g; [apply Hd|symmetry; apply Hd']).
  destruct (Forall2_perm _ _ _ Pg gs Hy) as (gs' & Hy' & Pgs).
  assert (Hy2 : Forall2 (yields above tok search_of dist_of open err_text m') (d' g) gs').
  { clear - Hy' Hm Hp. induction Hy' as [|x y l l' H _ IH]; constructor; auto. unfold yields in *. now rewrite <- (get_index_perm m m'). }
  rewrite (report_all_yields above tok search_of dist_of open err_text m' _ gs'); [|now apply drain_nodup|reflexivity|exact Hy2].
  eexists. split; [reflexivity|]. unfold same_report, add_results, report_new.
  cbn [log_reports index_reports index_errors read_errors total_line_count total_anomaly_count app].
  csplit; try (now apply flat_map_perm).
  - apply flat_map_perm, flat_map_perm, Pgs.
  - f_equal. apply sum_perm, Permutation_map, flat_map_perm, Pgs.
  - f_equal. apply sum_perm, Permutation_map, flat_map_perm, Pgs.
Qed.

(** ** Training *)
Notation index_train := (index_train tok open).
Notation train_group := (train_group tok open).
Lemma train_group_ok json : forall l t t', train_group json l t = Val t' ->
  exists items, Forall2 (fun s it => open s = Val it) l items /\ t' = train_sources tok (map (fun it => it json) items) t.
Proof.
  induction l as [|s l IH]; intros t t' H; cbn [ReportModel.train_group] in H.
  - injection H as <-. exists []. auto.
  - destruct (open s) as [it|e|] eqn:E; try discriminate. apply IH in H. destruct H as (items & H1 & ->).
    exists (it :: items). split; [constructor; auto|reflexivity].
Qed.
Lemma index_train_ok l ix : index_train l = Val ix -> trained_from tok open l ix.
Proof.
  unfold ReportModel.index_train. destruct (match l with [] => Some false | s :: _ => is_json s end) as [json|] eqn:J; [|discriminate].
  destruct (train_group json l trainer_new) as [t|e|] eqn:E; try discriminate. intros [= <-].
  apply train_group_ok in E. destruct E as (items & E1 & ->). split; [reflexivity|].
  exists json, items. split; [intros s r ->; exact J|]. split; [exact E1|]. cbn zeta.
  pose proof (C18_trained_exactly_once tok (map (fun it => it json) items)) as (K1 & _).
  pose proof (C15_trainer_counters tok (map (fun it => it json) items)) as (K2 & K3).
  rewrite !map_map in K1, K2, K3. cbn [ix_batches ix_lines ix_bytes]. auto.
Qed.
Lemma train_all_ok : forall groups m, train_all tok open groups = Val m ->
  Forall2 (fun g e => fst e = fst g /\ index_train (snd g) = Val (snd e)) groups m.
Proof.
  induction groups as [|[n l] groups IH]; intros m H; cbn [train_all] in H.
  - injection H as <-. constructor.
  - destruct (index_train l) as [ix|e|] eqn:E; try discriminate.
    destruct (train_all tok open groups) as [m'|e|]; try discriminate. injection H as <-. constructor; auto.
Qed.
Lemma train_all_val groups m : Forall2 (fun g e => fst e = fst g /\ index_train (snd g) = Val (snd e)) groups m ->
  train_all tok open groups = Val m.
Proof.
  induction 1 as [|[n l] [n' ix] groups m [H1 H2] _ IH]; cbn in *; [reflexivity|]. subst n'. now rewrite H2, IH.
Qed.
Lemma forall2_fst {A B C} (R : A * B -> A * C -> Prop) l k : (forall x y, R x y -> fst y = fst x) -> Forall2 R l k -> map fst k = map fst l.
Proof. intros H. induction 1; cbn; f_equal; auto. Qed.

(** The model of the baselines. *)
Lemma model_train_ok drain baselines m : (forall l, Permutation (drain l) l) ->
  model_train tok open drain baselines = Val m ->
  exists ls groups, Forall2 (fun items l => get_sources items = Val l) baselines ls /\
    grouping source_name groups (concat ls) /\ NoDup (map fst m) /\
    Forall2 (fun g e => fst e = fst g /\ trained_from tok open (snd g) (snd e)) groups m.
Proof.
  intros Hdr. unfold model_train. destruct (group_sources baselines) as [g|e|] eqn:G; try discriminate. intros H.
  destruct (group_sources_ok _ _ G) as (ls & F & Hd & Hg). apply train_all_ok in H.
  exists ls, (drain g). split; [exact F|]. split; [split; [now apply drain_nodup|]|split].
  - intros n x. rewrite <- Hg. split; apply Permutation_in; [|symmetry]; apply Hdr.
  - rewrite (forall2_fst _ _ _ (fun x y H => proj1 H) H). now apply drain_nodup.
  - clear - H. induction H as [|x y l k [H1 H2] _ IH]; constructor; auto. split; [exact H1|now apply index_train_ok].
Qed.
Lemma model_train_perm d d' baselines m : (forall l, Permutation (d l) l) -> (forall l, Permutation (d' l) l) ->
  model_train tok open d baselines = Val m ->
  exists m', model_train tok open d' baselines = Val m' /\ Permutation m m'.
Proof.
  intros Hd Hd'. unfold model_train. destruct (group_sources baselines) as [g|e|]; try discriminate. intros H.
  apply train_all_ok in H. assert (Pg : Permutation (d g) (d' g)) by (transitivity g; [apply Hd|symmetry; apply Hd']).
  destruct (Forall2_perm _ _ _ Pg m H) as (m' & H1 & H2). exists m'. split; [now apply train_all_val|exact H2].
Qed.

(** ** Looking for a source *)
Lemma selected_in {A} (P : A -> Prop) l o x : selected P l o -> (In x o <-> In x l /\ P x).
Proof.
  induction 1 as [|y l o Hy _ IH|y l o Hy _ IH]; cbn; [tauto|rewrite IH|rewrite IH].
  - split; [intros [->|[? ?]]; auto|]. intros [[->|?] ?]; auto.
  - split; [intros [? ?]; auto|]. intros [[->|?] ?]; [contradiction|auto].
Qed.
Lemma selected_exists {A} (P : A -> Prop) (Pd : forall x, {P x} + {~ P x}) l : exists o, selected P l o.
Proof. induction l as [|x l (o & IH)]; [exists []; constructor|]. destruct (Pd x); [exists (x :: o)|exists o]; constructor; auto. Qed.
Lemma grouping_has groups sources s : grouping source_name groups sources -> In s sources -> source_name s <> None ->
  exists n l, source_name s = Some n /\ In (n, l) groups /\ In s l.
Proof.
  intros [Hd Hg] Hs Hn. destruct (source_name s) as [n|] eqn:E; [|congruence].
  destruct (selected_exists (fun s => source_name s = Some n)) with (l := sources) as (o & Ho).
  { intros x. destruct (source_name x) as [n'|]; [|right; discriminate]. destruct (list_eq_dec N.eq_dec n' n) as [->|]; [now left|right; congruence]. }
  assert (Hi : In s o) by (apply (selected_in _ _ _ _ Ho); auto).
  exists n, o. split; [reflexivity|]. split; [|exact Hi]. apply Hg. split; [|exact Ho]. intros ->. destruct Hi.
Qed.
Lemma forall2_in_l {A B} (R : A -> B -> Prop) l k x : Forall2 R l k -> In x l -> exists y, In y k /\ R x y.
Proof. induction 1 as [|a b l k H _ IH]; [intros []|]. intros [->|Hi]; [exists b; split; [now left|exact H]|]. destruct (IH Hi) as (y & H1 & H2). exists y. split; [now right|exact H2]. Qed.
Lemma forall2_in_r {A B} (R : A -> B -> Prop) l k y : Forall2 R l k -> In y k -> exists x, In x l /\ R x y.
Proof. induction 1 as [|a b l k H _ IH]; [intros []|]. intros [->|Hi]; [exists a; split; [now left|exact H]|]. destruct (IH Hi) as (x & H1 & H2). exists x. split; [now right|exact H2]. Qed.

(** ** Groups *)
Notation group_outcome := (group_outcome above tok dist_of open err_text).
(** The outcomes of a group: analysed sources, then a source that was not opened and those skipped. *)
Lemma group_outcome_shape batches known l outs : group_outcome batches known l outs ->
  exists done tail, outs = done ++ tail /\
    Forall (fun o => exists s cs err lines, o = Analysed s cs err lines) done /\
    (tail = [] \/ exists s e rest, tail = NotOpened s e :: map (@Skipped D) rest /\ open s = Fail e).
Proof.
  induction 1 as [|known s e rest Ho|known s items json cs err lines known' rest outs Ho Hj Ha Hk Hg (done & tail & -> & H1 & H2)].
  - exists [], []. auto.
  - exists [], (NotOpened s e :: map (@Skipped D) rest). csplit; auto. right. eauto 6.
  - exists (Analysed s cs (option_map err_text err) lines :: done), tail. csplit; auto. constructor; eauto 6.
Qed.
Definition outcome_source (o : @outcome D) : source :=
  match o with Analysed s _ _ _ => s | NotOpened s _ => s | Skipped s => s end.
Lemma group_outcome_sources batches known l outs : group_outcome batches known l outs -> map outcome_source outs = l.
Proof.
  induction 1 as [|known s e rest Ho|known s items json cs err lines known' rest outs Ho Hj Ha Hk Hg IH]; [reflexivity| |cbn; now rewrite IH].
  cbn. f_equal. rewrite map_map. apply map_id.
Qed.
Lemma blocked_skipped batches known l outs s s' e : group_outcome batches known l outs -> NoDup l -> open s' = Fail e ->
  forall a c, l = a ++ s' :: c -> In s c -> forall o, In o outs -> outcome_source o = s -> o = Skipped s.
Proof.
  intros Hg Hd He. induction Hg as [|known s0 e0 rest Ho|known s0 items json cs err lines known' rest outs Ho Hj Ha Hk Hg IH]; intros a c El Hs o Hin Eo.
  - destruct Hin.
  - inversion Hd as [|? ? Hn _]; subst. destruct Hin as [<-|Hin]; cbn in *.
    + destruct Hn. destruct a as [|x a]; cbn in El; injection El as -> ->; [exact Hs|]. apply in_or_app. right. now right.
    + apply in_map_iff in Hin. destruct Hin as (x & <- & _). reflexivity.
  - inversion Hd as [|? ? Hn Hd']; subst. destruct a as [|x a]; cbn in El; injection El as -> ->; [congruence|].
    destruct Hin as [<-|Hin].
    + cbn in *. destruct Hn. apply in_or_app. right. now right.
    + eapply IH; eauto.
Qed.
(** The lines known to a source are those of earlier sources of its group. *)
Definition line_of (x : source) (t : bytes) : Prop :=
  exists items json b, open x = Val items /\ is_json x = Some json /\ In b (good_prefix (items json)) /\ tok (fst b) = t.
Lemma good_prefix_in lines rest x : all_valid lines -> In x (without_markers lines) -> In x (good_prefix (ok_items lines ++ rest)).
Proof.
  intros Hv Hx. unfold without_markers in Hx. apply filter_In in Hx. destruct Hx as [Hx _].
  induction Hv as [|[b n] l Hb _ IH]; [destruct Hx|]. cbn. cbn in Hb. rewrite Hb. destruct Hx as [Hx|Hx]; [now left|right; auto].
Qed.
Lemma group_outcome_analysed batches known l outs s cs err lines : group_outcome batches known l outs ->
  In (Analysed s cs err lines) outs ->
  exists items json known' err' l1 l2, open s = Val items /\ is_json s = Some json /\ err = option_map err_text err' /\
    analysis above tok (dist_of batches) known' (items json) cs err' lines /\
    l = l1 ++ s :: l2 /\ forall t, In t known' -> In t known \/ exists s', In s' l1 /\ line_of s' t.
Proof.
  induction 1 as [|known s0 e rest Ho|known s0 items json cs0 err0 lines0 known' rest outs Ho Hj Ha Hk Hg IH]; [intros []| |].
  - intros [H|H]; [discriminate|]. apply in_map_iff in H. destruct H as (x & H & _). discriminate.
  - intros [H|H].
    + injection H as <- <- <- <-. exists items, json, known, err0, [], rest. csplit; auto.
    + destruct (IH H) as (items' & json' & kn & err' & l1 & l2 & A1 & A2 & A3 & A4 & -> & A6).
      exists items', json', kn, err', (s0 :: l1), l2. csplit; auto. intros t Ht.
      destruct (A6 t Ht) as [K|(s' & K1 & K2)]; [|right; exists s'; split; [now right|exact K2]].
      apply Hk in K. destruct K as [K|(x & K1 & K2)]; [now left|]. right. exists s0. split; [now left|].
      exists items, json, x. destruct Ha as [(rst & E & V & _) _]. csplit; auto. rewrite E. now apply good_prefix_in.
Qed.
Lemma selected_split {A} (P : A -> Prop) x y l2 : forall l1 o, selected P (l1 ++ y :: l2) o -> In x l1 -> P x -> P y ->
  exists a c, o = a ++ x :: c /\ In y c.
Proof.
  induction l1 as [|z l1 IH]; intros o H Hx Px Py; [destruct Hx|]. cbn in H. inversion H as [|z' l' o' Hz Ho E1 E2|z' l' o' Hz Ho E1 E2]; subst.
  - destruct Hx as [->|Hx].
    + exists [], o'. split; [reflexivity|]. apply (selected_in _ _ _ _ Ho). split; [apply in_or_app; right; now left|exact Py].
    + destruct (IH _ Ho Hx Px Py) as (a & c & -> & ?). exists (z :: a), c. auto.
  - destruct Hx as [->|Hx]; [contradiction|]. eauto.
Qed.
Lemma selected_nodup {A} (P : A -> Prop) l o : selected P l o -> NoDup l -> NoDup o.
Proof.
  induction 1 as [|x l o Hx Ho IH|x l o Hx Ho IH]; intros Hd; [constructor| |]; inversion Hd; subst; [constructor; auto|auto].
  intros Hi. apply (selected_in _ _ _ _ Ho) in Hi. tauto.
Qed.
Lemma selected_before {A} (P : A -> Prop) l a x b y : selected P l (a ++ x :: b) -> In y b ->
  exists l1 l2, l = l1 ++ x :: l2 /\ In y l2 /\ P x.
Proof.
  revert a. induction l as [|z l IH]; intros a H Hy; [inversion H; destruct a; discriminate|].
  inversion H as [|x' l' o Hp Ho Ex Eo|x' l' o Hp Ho Ex Eo]; subst x' l'.
  - destruct a as [|w a]; cbn in *.
    + injection Eo as -> ->. exists [], l. split; [reflexivity|]. split; [|exact Hp]. now apply (selected_in _ _ _ y Ho).
    + injection Eo as -> ->. destruct (IH _ Ho Hy) as (l1 & l2 & -> & ?). exists (w :: l1), l2. auto.
  - subst o. destruct (IH _ Ho Hy) as (l1 & l2 & -> & ?). exists (z :: l1), l2. auto.
Qed.

(** An anomaly is about a line that was read, and its distance is above the threshold. *)
Lemma analysis_anomaly dist known items cs err lines c : analysis above tok dist known items cs err lines -> In c cs ->
  In (aline c, apos c) (good_prefix items) /\ In (aline c, apos c) lines /\ is_marker (aline c) = false /\
  above (dist (tok (aline c))) = true /\ ~ In (tok (aline c)) known.
Proof.
  intros [(rest & -> & Hv & _) (ps & more & [_ He] & _ & Hd & _)] Hc.
  destruct (forall2_in_l _ _ _ _ Hd Hc) as (i & Hi & D1 & D2).
  assert (Hr : reported above tok dist known (without_markers lines) i) by (apply He; apply in_or_app; now left).
  destruct Hr as ((b & nr & N1 & N2 & _) & (b' & nr' & N3 & N4)).
  rewrite D1 in N1, N3. injection N1 as <- <-. injection N3 as <- <-.
  apply nth_error_In in D1. unfold without_markers in D1. apply filter_In in D1. destruct D1 as [D1 Dm].
  csplit; auto.
  - clear - Hv D1. induction Hv as [|[b n] l Hb _ IH]; [destruct D1|]. cbn. cbn in Hb. rewrite Hb. destruct D1 as [D1|D1]; [now left|right; auto].
  - now apply negb_true_iff in Dm.
Qed.

End More.

(** ** Totals *)
Section Totals.
Context {D : Type}.
Lemma flat_map_nil {A B} (f : A -> list B) l : (forall x, In x l -> f x = []) -> flat_map f l = [].
Proof. induction l as [|x l IH]; cbn; intros H; [reflexivity|]. rewrite (H x), IH; auto. Qed.
Lemma logs_anomalies n o : sum (map (fun lr => N.of_nat (length (lr_anomalies lr))) (@logs_of D n o)) = anomalies_of o.
Proof. destruct o as [s [|c cs] err lines| |]; cbn; auto. Qed.
Lemma logs_lines n o : sum (map (fun lr => lr_lines lr) (@logs_of D n o)) <= lines_of o.
Proof. destruct o as [s [|c cs] err lines| |]; cbn; lia. Qed.
Lemma sum_flat {A B} (f : A -> list B) (w : B -> N) (l : list A) : sum (map w (flat_map f l)) = sum (map (fun x => sum (map w (f x))) l).
Proof. induction l as [|x l IH]; [reflexivity|]. cbn [flat_map map]. rewrite map_app, sum_app, IH. reflexivity. Qed.
Lemma sum_le {A} (f g : A -> N) l : (forall x, In x l -> f x <= g x) -> sum (map f l) <= sum (map g l).
Proof.
  intros H. induction l as [|x l IH]; cbn; [lia|]. assert (f x <= g x) by (apply H; now left).
  assert (sum (map f l) <= sum (map g l)) by (apply IH; intros y Hy; apply H; now right). unfold sum in *. lia.
Qed.
Lemma made_totals gs r : made_of gs r ->
  total_anomaly_count r = sum (map (fun lr => N.of_nat (length (lr_anomalies (D := D) lr))) (log_reports r)) /\
  sum (map (fun lr => lr_lines lr) (log_reports r)) <= total_line_count r.
Proof.
  intros H. rewrite (mo_anomalies _ _ H), (mo_logs _ _ H), (mo_lines _ _ H), !sum_flat. unfold gr_logs. split.
  - f_equal. apply map_ext. intros g. rewrite sum_flat. f_equal. apply map_ext. intros o. symmetry. apply logs_anomalies.
  - apply sum_le. intros g _. rewrite sum_flat. apply sum_le. intros o _. apply logs_lines.
Qed.
Lemma made_log gs r lr : made_of gs r -> In lr (log_reports r) ->
  exists g ix outs s c cs err lines, In g gs /\ snd g = Some (ix, outs) /\ In (Analysed s (c :: cs) err lines) outs /\
    lr = mkLog (D := D) (N.of_nat (length lines)) (total_bytes lines) (c :: cs) s (fst (fst g)).
Proof.
  intros H. rewrite (mo_logs _ _ H). intros Hi. apply in_flat_map in Hi. destruct Hi as (g & Hg & Hi).
  unfold gr_logs, gr_outs in Hi. apply in_flat_map in Hi. destruct Hi as (o & Ho & Hi).
  destruct (snd g) as [[ix outs]|] eqn:E; [|destruct Ho].
  destruct o as [s [|c cs] err lines| |]; cbn in Hi; try contradiction. destruct Hi as [<-|[]].
  exists g, ix, outs, s, c, cs, err, lines. auto.
Qed.
Lemma made_index gs r n l : made_of gs r -> In (n, l) (index_reports (D := D) r) <->
  exists g ix outs, In g gs /\ snd g = Some (ix, outs) /\ gr_logs g <> [] /\ fst (fst g) = n /\ ix_sources ix = l.
Proof.
  intros H. rewrite (mo_index _ _ H). rewrite in_flat_map. split.
  - intros (g & Hg & Hi). destruct (snd g) as [[ix outs]|] eqn:E; [|destruct Hi]. destruct (gr_logs g) eqn:L; [destruct Hi|].
    destruct Hi as [Hi|[]]. injection Hi as <- <-. exists g, ix, outs. rewrite L. csplit; auto. discriminate.
  - intros (g & ix & outs & H1 & H2 & H3 & <- & <-). exists g. split; [exact H1|]. rewrite H2. destruct (gr_logs g); [congruence|now left].
Qed.
End Totals.
