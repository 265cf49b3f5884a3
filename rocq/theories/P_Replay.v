(** Property C97: analysing a source again from the cache gives what the first analysis gave, also
    when the first one stopped before the end of the source, so that only a part of it is in the
    cache. *)
From Coq Require Import String List NArith Bool Lia ZifyBool ZifyN ZifyNat.
From Verif Require Import Common CommonFacts FilesModel CacheModel CacheSpec P_Cache.
From Verif Require Import IterModel IterSpec IterProofs IterSafety IterMain P_Iter ProcModel ProcSpec ProcRefute P_Proc LazyModel LazyIter LazyProofs.
Import ListNotations.
Open Scope N_scope.

Ltac csplit := repeat match goal with |- _ /\ _ => split end.

(** Reads of a source: data that fits in the buffer of 8192 bytes, or a failure. *)
Definition proper_reads (r : reader) : Prop :=
  Forall (fun e => match e with Data d => 1 <= N.of_nat (length d) <= 8192 | Fail _ => True end) r.
(** No line is longer than [n] bytes. *)
Definition lines_up_to (n : N) (json : bool) (s : bytes) : Prop := Forall (fun x => N.of_nat (length (fst x)) <= n) (segments json s).

Lemma proper_good json r : proper_reads r -> good (new json) r.
Proof.
  intros H. apply good_new; unfold no_empty, fits; (eapply Forall_impl; [|exact H]); intros [d|e] Hd.
  - intros X. injection X as ->. cbn in Hd. lia.
  - discriminate.
  - unfold blen. lia.
  - exact I.
Qed.
Lemma sizes_proper chunks : read_sizes chunks -> proper_reads (map Data chunks).
Proof. unfold read_sizes, proper_reads. intros H. apply Forall_map. exact H. Qed.
Lemma left_chunks chunks left : left_of (map Data chunks) left -> exists taken rest, chunks = taken ++ rest /\ left = map Data rest.
Proof. intros [pre E]. apply map_eq_app in E as (a & b & -> & _ & <-). eauto. Qed.
(** The lines of a part of a source. *)
Lemma part_lines n json a b : lines_up_to n json (a ++ b) -> lines_up_to (n + 1) json a.
Proof.
  unfold lines_up_to, segments. rewrite lex_app. set (x := lex (lex0 json) a).
  assert (E : IterSpec.esc (snd x) = true -> IterSpec.cur (snd x) <> []) by (apply lex_esc_cur; discriminate).
  destruct (lex_extend (snd x) E b) as (seg & k & Hi & Hle). destruct x as [l L]. cbn [fst snd] in *.
  destruct (lex L b) as [l2 L2]. cbn [fst snd] in *. intros H. apply Forall_app in H as [H H2]. apply Forall_app in H as [H1 H].
  apply Forall_app. split; [eapply Forall_impl; [|exact H1]; cbn; intros; lia|].
  destruct (IterSpec.cur L) as [|c0 c] eqn:Ec; constructor; [|constructor]. cbn [fst]. unfold blen in Hle.
  apply in_app_or in Hi as [Hi|[Hi|[]]].
  - rewrite Forall_forall in H. specialize (H _ Hi). cbn [fst] in H. lia.
  - injection Hi as <- <-. destruct (IterSpec.cur L2) as [|d0 d] eqn:Ed; [cbn [length] in *; lia|]. inversion H2; subst. cbn [fst] in *. lia.
Qed.

(** ** What has been read *)
Section Analysis.
Context {D : Type}.
Variable above : D -> bool.
Variable tok : bytes -> bytes.
Variable search : list bytes -> list D.

(** The lines are asked for one by one, the source is read when it must be: the analysis is the one
    of the list of all lines, for any number of findings that are asked for. *)
Theorem C97_lazy : forall ovf json n r known found stop final,
  proper_reads r -> snd (all_lines ovf json r) <> SPanic ->
  pdrain above tok search n (proc_new (items_of (all_lines ovf json r)) known) = (found, stop, final) ->
  exists left p, analyse above tok search ovf json n r known = (found, stop, left, p) /\
    skip p = skip final /\ line_count p = line_count final /\ byte_count p = byte_count final.
Proof.
  intros ovf json n r known found stop final Hr Hp E.
  assert (Y : yields ovf (new json) r (items_of (all_lines ovf json r))).
  { apply (collect_yields ovf (4 + reader_weight r)); [now apply proper_good|apply all_lines_total|exact Hp]. }
  destruct (ldrain_drains above tok search ovf n (new json) r (proc_new (items_of (all_lines ovf json r)) known) found stop final) as (left & X); auto; [now apply proper_good|].
  exists left, (strip final). csplit; auto.
Qed.

(** The analysis has taken some of the reads; without the others it is the same. *)
Theorem C97_unread : forall ovf json n chunks known found stop left p,
  read_sizes chunks -> analyse above tok search ovf json n (map Data chunks) known = (found, stop, left, p) -> stop <> PSPanic ->
  exists taken rest, chunks = taken ++ rest /\ left = map Data rest /\
    analyse above tok search ovf json n (map Data taken) known = (found, stop, [], p).
Proof.
  intros ovf json n chunks known found stop left p Hs E Hp. unfold analyse in *.
  pose proof (proper_good json _ (sizes_proper _ Hs)) as G.
  destruct (left_chunks chunks left (ldrain_left _ _ _ _ _ _ _ _ _ _ _ _ G E)) as (taken & rest & -> & ->). exists taken, rest. csplit; auto.
  destruct rest as [|d rest]; [rewrite app_nil_r in E; exact E|]. rewrite map_app in G, E.
  destruct (ldrain_local above tok search ovf n (new json) (map Data taken) (map Data (d :: rest)) _ _ _ _ _ G ltac:(discriminate) E Hp (le_n _)) as (r1 & E1 & E2).
  assert (r1 = []) as ->; [|exact E2]. destruct r1 as [|x r1]; [reflexivity|]. exfalso. apply (f_equal (@length _)) in E1. rewrite app_length in E1. cbn [length] in E1. lia.
Qed.

(** How the same bytes are delivered does not matter. *)
Theorem C97_delivery : forall ovf json n a b known found stop left p,
  read_sizes a -> read_sizes b -> concat a = concat b -> lines_up_to 5999 json (concat a) ->
  analyse above tok search ovf json n (map Data a) known = (found, stop, left, p) ->
  exists left' p', analyse above tok search ovf json n (map Data b) known = (found, stop, left', p') /\
    skip p' = skip p /\ line_count p' = line_count p /\ byte_count p' = byte_count p.
Proof.
  intros ovf json n a b known found stop left p Ha Hb E S R.
  pose proof (C01_reads_do_not_matter ovf json a b Ha Hb E S) as Same.
  assert (En : snd (all_lines ovf json (map Data a)) <> SPanic).
  { rewrite C01_split_exact; [discriminate|exact Ha|now apply short_no_long_pending]. }
  destruct (pdrain above tok search n (proc_new (items_of (all_lines ovf json (map Data a))) known)) as [[l e] f] eqn:P.
  destruct (C97_lazy _ _ _ _ _ _ _ _ (sizes_proper _ Ha) En P) as (la & pa & Ea & A1 & A2 & A3). rewrite R in Ea. injection Ea as -> -> -> ->.
  rewrite Same in En, P. destruct (C97_lazy _ _ _ _ _ _ _ _ (sizes_proper _ Hb) En P) as (lb & pb & Eb & B1 & B2 & B3).
  exists lb, pb. csplit; congruence.
Qed.

End Analysis.

(** The same for training on a baseline. *)
Section Training.
Variable tok : bytes -> bytes.
Theorem C97_training_unread : forall ovf json chunks t ok left t',
  read_sizes chunks -> train tok ovf json (map Data chunks) t = TDone ok left t' ->
  exists taken rest, chunks = taken ++ rest /\ left = map Data rest /\ train tok ovf json (map Data taken) t = TDone ok [] t'.
Proof.
  intros ovf json chunks t ok left t' Hs E. unfold train in *. pose proof (proper_good json _ (sizes_proper _ Hs)) as G.
  destruct (left_chunks chunks left (ltadd_left _ _ _ _ _ _ _ _ _ G E)) as (taken & rest & -> & ->). exists taken, rest. csplit; auto.
  destruct rest as [|d rest]; [rewrite app_nil_r in E; exact E|]. rewrite map_app in G, E.
  destruct (ltadd_local tok ovf _ (new json) (map Data taken) (map Data (d :: rest)) _ _ _ _ G ltac:(discriminate) E (le_n _)) as (r1 & E1 & E2).
  assert (r1 = []) as ->. { destruct r1 as [|x r1]; [reflexivity|]. exfalso. apply (f_equal (@length _)) in E1. rewrite app_length in E1. cbn [length] in E1. lia. }
  assert (T : ltadd tok ovf (fuel_for (new json) (map Data taken)) (new json) (map Data taken) t <> TFuel).
  { apply ltadd_total; [now apply good_app in G| |right]; unfold fuel_for, Psi; lia. }
  apply (ltadd_more tok ovf _ (3 * reader_weight (map Data (d :: rest)))) in T. rewrite <- T.
  replace (fuel_for (new json) (map Data taken) + _)%nat with (fuel_for (new json) (map Data taken ++ map Data (d :: rest))) by (unfold fuel_for; rewrite weight_app; lia). exact E2.
Qed.
Theorem C97_training_delivery : forall ovf json a b t ok left t',
  read_sizes a -> read_sizes b -> concat a = concat b -> lines_up_to 5999 json (concat a) ->
  train tok ovf json (map Data a) t = TDone ok left t' -> exists left', train tok ovf json (map Data b) t = TDone ok left' t'.
Proof.
  intros ovf json a b t ok left t' Ha Hb E S R.
  pose proof (C01_reads_do_not_matter ovf json a b Ha Hb E S) as Same.
  assert (En : snd (all_lines ovf json (map Data a)) <> SPanic).
  { rewrite C01_split_exact; [discriminate|exact Ha|now apply short_no_long_pending]. }
  assert (Y : forall c, read_sizes c -> snd (all_lines ovf json (map Data c)) <> SPanic ->
    exists k left t', train tok ovf json (map Data c) t = TDone k left t' /\ tadd tok (items_of (all_lines ovf json (map Data c))) t = (k, t')).
  { intros c Hc Hp. assert (Y : yields ovf (new json) (map Data c) (items_of (all_lines ovf json (map Data c)))).
    { apply (collect_yields ovf (4 + reader_weight (map Data c))); [now apply proper_good, sizes_proper|apply all_lines_total|exact Hp]. }
    pose proof (ltadd_adds tok ovf (fuel_for (new json) (map Data c)) _ _ _ t Y) as X. unfold train.
    assert (T : ltadd tok ovf (fuel_for (new json) (map Data c)) (new json) (map Data c) t <> TFuel).
    { apply ltadd_total; [now apply proper_good, sizes_proper| |right]; unfold fuel_for, Psi; lia. }
    destruct (ltadd tok ovf _ _ _ t) as [| |k l2 t2]; [destruct X|now destruct T|eauto]. }
  destruct (Y a Ha En) as (k1 & l1 & t1 & E1 & F1). rewrite R in E1. injection E1 as <- <- <-.
  rewrite Same in En. destruct (Y b Hb En) as (k2 & l2 & t2 & E2 & F2). exists l2. rewrite Same in F1. congruence.
Qed.
End Training.

(** An analysis does not need more than what a training has read. *)
Theorem C97_trained_enough : forall {D : Type} (above : D -> bool) tok search ovf json sent t ok left t' n known found stop left' p,
  read_sizes sent -> train tok ovf json (map Data sent) t = TDone ok left t' ->
  analyse above tok search ovf json n (map Data sent) known = (found, stop, left', p) -> stop <> PSPanic ->
  forall taken rest, sent = taken ++ rest -> left = map Data rest ->
  exists left'', analyse above tok search ovf json n (map Data taken) known = (found, stop, left'', p).
Proof.
  intros D above tok search ovf json sent t ok left t' n known found stop left' p Hs T A Hp taken rest -> ->.
  pose proof (proper_good json _ (sizes_proper _ Hs)) as G. destruct rest as [|d rest]; [rewrite app_nil_r in A; eauto|].
  assert (L : left_of left' (map Data (d :: rest))).
  { eapply (ldrain_trains above tok search ovf ok (map Data (d :: rest)) ltac:(discriminate)); [exact G|do 3 eexists; exact T|exact A]. }
  apply left_weight in L. unfold analyse in *. rewrite map_app in G, A.
  destruct (ldrain_local above tok search ovf n (new json) (map Data taken) (map Data (d :: rest)) _ _ _ _ _ G ltac:(discriminate) A Hp L) as (r1 & _ & E2). eauto.
Qed.

(** ** Through the cache *)
Section Cache.
Variable digest : FilesModel.text -> FilesModel.text.
Variable parse_url : FilesModel.text -> option FilesModel.text.
Variable enc_write : list bytes -> bytes -> bytes.
Variable enc_finish : list bytes -> bytes.
Variable gunzip : bytes -> bytes * bool.
Hypothesis sized : fixed_size digest.
Hypothesis codec : gzip_codec enc_write enc_finish gunzip.
Notation step := (CacheModel.step digest parse_url enc_write enc_finish).
Notation exec := (CacheModel.exec digest parse_url enc_write enc_finish).
Context {D : Type}.
Variable above : D -> bool.
Variable tok : bytes -> bytes.
Variable search : list bytes -> list D.

(** A url is downloaded through the cache by the reader [h] and analysed: the server sends [sent],
    the analysis takes as many reads as it needs, and the reader is dropped.  From then on the url
    is found in the cache, however that is delivered an analysis of it ends and finds the same. *)
Theorem C97_again : forall tr1 st1 b u h st2 tr2 st3 st4 tr3 st5 k st6 ovf json n sent known found stop left p,
  exec CacheModel.init tr1 st1 -> step st1 (EMiss b u h) st2 -> exec st2 tr2 st3 -> Forall (keeps h) tr2 -> Forall (saved h) tr2 -> step st3 (EClose h) st4 -> exec st4 tr3 st5 ->
  Forall (undropped digest b u) (tr2 ++ tr3) -> step st5 (EHit b u k) st6 ->
  read_sizes sent -> lines_up_to 5998 json (concat sent) ->
  analyse above tok search ovf json n (map Data sent) known = (found, stop, left, p) -> stop <> PSPanic ->
  (forall taken rest, sent = taken ++ rest -> left = map Data rest -> concat (CacheSpec.chunks h tr2) = concat taken) ->
  exists text, delivers gunzip st6 k = Some (text, true) /\ (exists unread, concat sent = text ++ unread) /\
    forall served, read_sizes served -> concat served = text ->
    exists left' p', analyse above tok search ovf json n (map Data served) known = (found, stop, left', p') /\
      skip p' = skip p /\ line_count p' = line_count p /\ byte_count p' = byte_count p.
Proof.
  intros tr1 st1 b u h st2 tr2 st3 st4 tr3 st5 k st6 ovf json n sent known found stop left p E1 S1 E2 K Sv S2 E3 U S5 Hs Hl A Hp T.
  destruct (C47_replay digest parse_url enc_write enc_finish gunzip sized codec _ _ _ _ _ _ _ _ _ _ _ E1 S1 E2 K Sv S2 E3 U) as (_ & R & _).
  destruct (C97_unread above tok search _ _ _ _ _ _ _ _ _ Hs A Hp) as (taken & rest & Es & El & At).
  specialize (T taken rest Es El). exists (concat taken). csplit.
  - rewrite (R k st6 S5). now rewrite T.
  - exists (concat rest). now rewrite Es, concat_app.
  - intros served Hv Ev. rewrite Es, concat_app in Hl. apply part_lines in Hl. change (5998 + 1) with 5999 in Hl.
    rewrite Es in Hs. apply Forall_app in Hs as [Ht _].
    exact (C97_delivery above tok search ovf json n taken served known found stop [] p Ht Hv (eq_sym Ev) Hl At).
Qed.
(** The same for training. *)
Theorem C97_training_again : forall tr1 st1 b u h st2 tr2 st3 st4 tr3 st5 k st6 ovf json sent t ok left t',
  exec CacheModel.init tr1 st1 -> step st1 (EMiss b u h) st2 -> exec st2 tr2 st3 -> Forall (keeps h) tr2 -> Forall (saved h) tr2 -> step st3 (EClose h) st4 -> exec st4 tr3 st5 ->
  Forall (undropped digest b u) (tr2 ++ tr3) -> step st5 (EHit b u k) st6 ->
  read_sizes sent -> lines_up_to 5998 json (concat sent) ->
  train tok ovf json (map Data sent) t = TDone ok left t' ->
  (forall taken rest, sent = taken ++ rest -> left = map Data rest -> concat (CacheSpec.chunks h tr2) = concat taken) ->
  exists text, delivers gunzip st6 k = Some (text, true) /\ (exists unread, concat sent = text ++ unread) /\
    forall served, read_sizes served -> concat served = text -> exists left', train tok ovf json (map Data served) t = TDone ok left' t'.
Proof.
  intros tr1 st1 b u h st2 tr2 st3 st4 tr3 st5 k st6 ovf json sent t ok left t' E1 S1 E2 K Sv S2 E3 U S5 Hs Hl A T.
  destruct (C47_replay digest parse_url enc_write enc_finish gunzip sized codec _ _ _ _ _ _ _ _ _ _ _ E1 S1 E2 K Sv S2 E3 U) as (_ & R & _).
  destruct (C97_training_unread tok _ _ _ _ _ _ _ Hs A) as (taken & rest & Es & El & At).
  specialize (T taken rest Es El). exists (concat taken). csplit.
  - rewrite (R k st6 S5). now rewrite T.
  - exists (concat rest). now rewrite Es, concat_app.
  - intros served Hv Ev. rewrite Es, concat_app in Hl. apply part_lines in Hl. change (5998 + 1) with 5999 in Hl.
    rewrite Es in Hs. apply Forall_app in Hs as [Ht _].
    exact (C97_training_delivery tok ovf json taken served t ok [] t' Ht Hv (eq_sym Ev) Hl At).
Qed.
(** A url that was used for training is then analysed from the cache as if it were downloaded. *)
Theorem C97_analysed_after_training : forall tr1 st1 b u h st2 tr2 st3 st4 tr3 st5 k st6 ovf json sent t ok left t' n known found stop left0 p,
  exec CacheModel.init tr1 st1 -> step st1 (EMiss b u h) st2 -> exec st2 tr2 st3 -> Forall (keeps h) tr2 -> Forall (saved h) tr2 -> step st3 (EClose h) st4 -> exec st4 tr3 st5 ->
  Forall (undropped digest b u) (tr2 ++ tr3) -> step st5 (EHit b u k) st6 ->
  read_sizes sent -> lines_up_to 5998 json (concat sent) ->
  train tok ovf json (map Data sent) t = TDone ok left t' ->
  (forall taken rest, sent = taken ++ rest -> left = map Data rest -> concat (CacheSpec.chunks h tr2) = concat taken) ->
  analyse above tok search ovf json n (map Data sent) known = (found, stop, left0, p) -> stop <> PSPanic ->
  exists text, delivers gunzip st6 k = Some (text, true) /\ (exists unread, concat sent = text ++ unread) /\
    forall served, read_sizes served -> concat served = text ->
    exists left' p', analyse above tok search ovf json n (map Data served) known = (found, stop, left', p') /\
      skip p' = skip p /\ line_count p' = line_count p /\ byte_count p' = byte_count p.
Proof.
  intros tr1 st1 b u h st2 tr2 st3 st4 tr3 st5 k st6 ovf json sent t ok left t' n known found stop left0 p E1 S1 E2 K Sv S2 E3 U S5 Hs Hl T Tk A Hp.
  destruct (C47_replay digest parse_url enc_write enc_finish gunzip sized codec _ _ _ _ _ _ _ _ _ _ _ E1 S1 E2 K Sv S2 E3 U) as (_ & R & _).
  destruct (C97_training_unread tok _ _ _ _ _ _ _ Hs T) as (taken & rest & Es & El & _).
  destruct (C97_trained_enough above tok search _ _ _ _ _ _ _ _ _ _ _ _ _ Hs T A Hp taken rest Es El) as (l2 & At).
  specialize (Tk taken rest Es El). exists (concat taken). csplit.
  - rewrite (R k st6 S5). now rewrite Tk.
  - exists (concat rest). now rewrite Es, concat_app.
  - intros served Hv Ev. rewrite Es, concat_app in Hl. apply part_lines in Hl. change (5998 + 1) with 5999 in Hl.
    rewrite Es in Hs. apply Forall_app in Hs as [Ht _].
    exact (C97_delivery above tok search ovf json n taken served known found stop l2 p Ht Hv (eq_sym Ev) Hl At).
Qed.
End Cache.

(** Two reads are sent.  The marker in the first one ends the analysis: the second is not taken and
    is not in the cache. *)
Definition taken_e : bytes := lit "x" ++ [10] ++ lit "TASK [log-classify" ++ [10].
Definition unread_e : bytes := lit "E2" ++ [10].
Lemma stored digest parse_url enc_write enc_finish gunzip : fixed_size digest -> gzip_codec enc_write enc_finish gunzip -> forall b u w,
  exists st, CacheModel.exec digest parse_url enc_write enc_finish CacheModel.init [EMiss b u 0; ERead 0 (FilesModel.Val w) (FilesModel.Val w); EClose 0] st /\
  exists st', CacheModel.step digest parse_url enc_write enc_finish st (EHit b u 0) st' /\ delivers gunzip st' 0 = Some (w, true).
Proof.
  intros Hs Hc b u w. destruct (create empty_store (http_name digest b u)) as [[s0 i]|] eqn:C; [|discriminate].
  assert (X : exists st2 st3 st4, CacheModel.step digest parse_url enc_write enc_finish CacheModel.init (EMiss b u 0) st2 /\
    CacheModel.step digest parse_url enc_write enc_finish st2 (ERead 0 (FilesModel.Val w) (FilesModel.Val w)) st3 /\
    CacheModel.step digest parse_url enc_write enc_finish st3 (EClose 0) st4 /\ readers st4 0%nat = None).
  { do 3 eexists. csplit; [eapply SMiss; [reflexivity|reflexivity|exact C]|eapply (SRead _ _ _ _ _ 0 _ 0 [] (FilesModel.Val w) w); reflexivity|eapply SClose; reflexivity|reflexivity]. }
  destruct X as (st2 & st3 & st4 & S1 & E2 & S2 & R). exists st4. split.
  - eapply ExecStep; [exact S1|]. eapply ExecStep; [exact E2|]. eapply ExecStep; [exact S2|apply ExecNow].
  - destruct (C47_replay digest parse_url enc_write enc_finish gunzip Hs Hc [] CacheModel.init b u 0 st2 [ERead 0 (FilesModel.Val w) (FilesModel.Val w)] st3 st4 [] st4) as (P1 & P2 & _);
      [apply ExecNow|exact S1|eapply ExecStep; [exact E2|apply ExecNow]|repeat constructor|repeat constructor|exact S2|apply ExecNow|repeat constructor|].
    destruct (P1 0%nat R) as [st' S']. exists st'. split; [exact S'|]. rewrite (P2 _ _ S'). cbn. now rewrite app_nil_r.
Qed.

(** The other order loses lines.  The analysis of a log ends where logreduce's own output begins, a
    training on it does not: if the log has been analysed first, a training through the cache gets
    the lines before that only, and nothing tells that there are more. *)
Theorem C97_trained_after_analysis_refuted : forall digest parse_url enc_write enc_finish gunzip, fixed_size digest -> gzip_codec enc_write enc_finish gunzip ->
  forall b u, exists sent first, read_sizes sent /\ lines_up_to 5998 false (concat sent) /\ (exists second, sent = [first; second] /\
  (exists p, analyse idb tok_id search_e true false 9 (map Data sent) [] = ([], PSEnd, [Data second], p))) /\
  (exists st, CacheModel.exec digest parse_url enc_write enc_finish CacheModel.init [EMiss b u 0; ERead 0 (FilesModel.Val first) (FilesModel.Val first); EClose 0] st /\
    exists st', CacheModel.step digest parse_url enc_write enc_finish st (EHit b u 0) st' /\ delivers gunzip st' 0 = Some (first, true)) /\
  (exists t, train tok_id true false (map Data sent) trainer_new = TDone true [] t /\ In (lit "E2") (baselines t)) /\
  (exists t, train tok_id true false [Data first] trainer_new = TDone true [] t /\ ~ In (lit "E2") (baselines t)).
Proof.
  intros digest parse_url enc_write enc_finish gunzip Hs Hc b u. exists [taken_e; unread_e], taken_e.
  split; [repeat constructor; vm_compute; discriminate|].
  split; [unfold lines_up_to; vm_compute segments; repeat constructor; vm_compute; discriminate|].
  split; [exists unread_e; split; [reflexivity|]; eexists; vm_compute; reflexivity|].
  split; [apply stored; assumption|].
  split; eexists; (split; [vm_compute; reflexivity|]); cbn [baselines]; [right; right; left; reflexivity|].
  intros [X|[X|[]]]; discriminate.
Qed.

(** The hypothesis on failures is needed.  When the connection fails after a line that differs from
    the baselines the first analysis ends with the error and finds nothing.  What was read is in the
    cache as if it were all: the second analysis finds the line, and no error. *)
Theorem C97_failed_download_refuted : forall digest parse_url enc_write enc_finish gunzip, fixed_size digest -> gzip_codec enc_write enc_finish gunzip ->
  forall b u e message, let text := lit "E1" ++ [10] in
  (exists left p, analyse idb tok_id search_e true false 9 [Data text; Fail e] [] = ([], PSErr (Some e), left, p)) /\
  exists st, CacheModel.exec digest parse_url enc_write enc_finish CacheModel.init
    [EMiss b u 0; ERead 0 (FilesModel.Val text) (FilesModel.Val text); ERead 0 (FilesModel.Fail message) (FilesModel.Fail message); EClose 0] st /\
  exists st', CacheModel.step digest parse_url enc_write enc_finish st (EHit b u 0) st' /\ delivers gunzip st' 0 = Some (text, true) /\
  exists finding left p, analyse idb tok_id search_e true false 9 [Data text] [] = ([finding], PSEnd, left, p).
Proof.
  intros digest parse_url enc_write enc_finish gunzip Hs Hc b u e message text. split; [vm_compute; do 2 eexists; reflexivity|].
  destruct (C48_connection_failure_refuted digest parse_url enc_write enc_finish gunzip Hs Hc b u text message) as (st & E & st' & S & Dl).
  exists st. split; [exact E|]. exists st'. split; [exact S|]. split; [exact Dl|]. vm_compute. do 3 eexists. reflexivity.
Qed.

(** ** Examples *)
Example C97_example_sizes : read_sizes [taken_e; unread_e] /\ lines_up_to 5998 false (concat [taken_e; unread_e]) /\ lines_up_to 5999 false (concat [taken_e; unread_e]).
Proof. csplit; unfold lines_up_to; try (vm_compute segments); repeat constructor; vm_compute; discriminate. Qed.
Example C97_example_analysis : exists p, analyse idb tok_id search_e true false 9 (map Data [taken_e; unread_e]) [] = ([], PSEnd, map Data [unread_e], p).
Proof. eexists. vm_compute. reflexivity. Qed.
Example C97_example_left : forall taken rest, [taken_e; unread_e] = taken ++ rest -> map Data [unread_e] = map Data rest ->
  concat (CacheSpec.chunks 0 [ERead 0 (FilesModel.Val taken_e) (FilesModel.Val taken_e)]) = concat taken.
Proof.
  intros taken rest E El. destruct rest as [|x [|y rest]]; try discriminate. injection El as <-.
  change [taken_e; unread_e] with ([taken_e] ++ [unread_e]) in E. apply app_inj_tail in E as [<- _]. reflexivity.
Qed.
Example C97_example_trace : exists st1 st2 st3 st4, CacheModel.step toy_digest Some toy_write toy_finish CacheModel.init (EMiss u1 u1 0) st1 /\
  CacheModel.exec toy_digest Some toy_write toy_finish st1 [ERead 0 (FilesModel.Val taken_e) (FilesModel.Val taken_e)] st2 /\
  CacheModel.step toy_digest Some toy_write toy_finish st2 (EClose 0) st3 /\ CacheModel.step toy_digest Some toy_write toy_finish st3 (EHit u1 u1 1) st4 /\
  delivers toy_gunzip st4 1 = Some (taken_e, true).
Proof.
  assert (X : exists st1 st2 st3, CacheModel.step toy_digest Some toy_write toy_finish CacheModel.init (EMiss u1 u1 0) st1 /\
    CacheModel.exec toy_digest Some toy_write toy_finish st1 [ERead 0 (FilesModel.Val taken_e) (FilesModel.Val taken_e)] st2 /\
    CacheModel.step toy_digest Some toy_write toy_finish st2 (EClose 0) st3 /\ readers st3 1 = None).
  { do 3 eexists. csplit; [eapply SMiss; reflexivity|eapply ExecStep; [eapply (SRead _ _ _ _ _ 0 _ _ _ (FilesModel.Val taken_e)); reflexivity|apply ExecNow]|eapply SClose; reflexivity|reflexivity]. }
  destruct X as (st1 & st2 & st3 & S1 & E2 & S2 & R).
  destruct (C47_replay toy_digest Some toy_write toy_finish toy_gunzip toy_sized toy_codec [] _ _ _ _ _ _ _ _ [] _ (ExecNow _ _ _ _ _) S1 E2 ltac:(repeat constructor) ltac:(repeat constructor) S2 (ExecNow _ _ _ _ _) ltac:(repeat constructor)) as (P1 & P2 & _).
  destruct (P1 1%nat R) as [st4 S4]. exists st1, st2, st3, st4. csplit; auto; exact (P2 _ _ S4).
Qed.
(** A line of a baseline that is not text ends the training of it. *)
Example C97_example_training : exists t, train tok_id true false (map Data [lit "x" ++ [10; 255; 10]; unread_e]) trainer_new = TDone false (map Data [unread_e]) t.
Proof. eexists. vm_compute. reflexivity. Qed.
Example C97_example_analysed_after_training : exists p, analyse idb tok_id search_e true false 9 (map Data [lit "x" ++ [10; 255; 10]; unread_e]) [] = ([], PSErr None, map Data [unread_e], p).
Proof. eexists. vm_compute. reflexivity. Qed.
Example C97_example_failing : proper_reads [Data taken_e; Fail 3] /\ snd (all_lines true false [Data taken_e; Fail 3]) <> SPanic.
Proof. split; [repeat constructor; vm_compute; discriminate|vm_compute; discriminate]. Qed.

Print Assumptions C97_lazy.
Print Assumptions C97_unread.
Print Assumptions C97_delivery.
Print Assumptions C97_training_unread.
Print Assumptions C97_training_delivery.
Print Assumptions C97_again.
Print Assumptions C97_training_again.
Print Assumptions C97_trained_enough.
Print Assumptions C97_analysed_after_training.
Print Assumptions C97_trained_after_analysis_refuted.
Print Assumptions C97_failed_download_refuted.
