(** Single batches, the stop marker, failing sources and the trainer. *)
From Coq Require Import String List NArith Arith Bool Lia Sorting ZifyBool ZifyN ZifyNat.
From Verif Require Import Common CommonFacts ProcModel ProcSpec ProcWalk ProcInv ProcMain ProcIndex ProcResult ProcSafe.
Import ListNotations.
Open Scope nat_scope.
#[local] Arguments mem_set : simpl never.

Section More.
Context {D : Type}.
Variable above : D -> bool.
Variable tok : bytes -> bytes.
Variable search : list bytes -> list D.
Variable dist : bytes -> D.
Variable known : list bytes.
Hypothesis Hsearch : pointwise search dist.
Notation annot := (annot tok dist).
Notation seen_after := (seen_after tok).
Notation actx := (@actx D).
Notation proc := (@proc D).
Notation read := (read_anomalies above tok search).

(** ** Reading without completing a batch *)
Fixpoint pushes (lines : list (bytes * N)) (rest : list item) (p : proc) : proc :=
  match lines with
  | [] => p
  | (b, nr) :: l => pushes l rest (push_line tok (count_line p b (ok_items l ++ rest)) b nr)
  end.

Lemma push_line_fields (p : proc) b nr items :
  let p2 := push_line tok (count_line p b items) b nr in
  src p2 = items /\ anomalies p2 = anomalies p /\ current p2 = current p /\
  length (buffer p2) = S (length (buffer p)) /\
  (if mem_set (tok b) (skip p) then skip p2 = skip p /\ targets p2 = targets p
   else skip p2 = tok b :: skip p /\ targets p2 = targets p ++ [tok b]).
Proof.
  cbn zeta. unfold push_line. cbn [count_line skip].
  destruct (mem_set (tok b) (skip p)); cbn; rewrite app_length; cbn; csplit; auto; lia.
Qed.

Definition news (seen : list bytes) (lines : list (bytes * N)) : list bytes := firsts seen (map (fun x => tok (fst x)) lines).

Lemma firsts_cons seen t l : firsts seen (t :: l) = if mem_set t seen then firsts seen l else t :: firsts (t :: seen) l.
Proof.
  cbn [firsts]. destruct (in_dec (list_eq_dec N.eq_dec) t seen) as [H|H].
  - apply mem_set_spec in H. now rewrite H.
  - rewrite <- mem_set_spec, not_true_iff_false in H. now rewrite H.
Qed.

Lemma read_pushes lines : forall rest p,
  all_valid lines -> no_marker lines ->
  length (targets p) + length (news (skip p) lines) < N.to_nat 512 ->
  length (buffer p) + length lines <= N.to_nat 5120 ->
  read (ok_items lines ++ rest) p = read rest (pushes lines rest p) /\
  targets (pushes lines rest p) = targets p ++ news (skip p) lines /\
  anomalies (pushes lines rest p) = anomalies p /\ current (pushes lines rest p) = current p.
Proof.
  induction lines as [|[b nr] l IH]; intros rest p Hv Hm Ht Hb.
  - cbn. rewrite app_nil_r. auto.
  - inversion Hv as [|? ? Hv1 Hv2]; subst. inversion Hm as [|? ? Hm1 Hm2]; subst. cbn [fst] in *.
    cbn [ok_items map app fst snd read_anomalies pushes]. fold (ok_items l). rewrite Hv1, Hm1.
    set (p1 := count_line p b (ok_items l ++ rest)). set (p2 := push_line tok p1 b nr).
    destruct (push_line_fields p b nr (ok_items l ++ rest)) as (F1 & F2 & F3 & F4 & F5).
    fold p1 in F1, F2, F3, F4, F5. fold p2 in F1, F2, F3, F4, F5.
    change (skip p1) with (skip p). unfold news in *. cbn [map] in *. rewrite firsts_cons in *. cbn [fst] in *.
    destruct (mem_set (tok b) (skip p)) eqn:Ek; destruct F5 as [F5 F6].
    + assert (Ef : batch_full true p2 = false).
      { unfold batch_full, CHUNK_SIZE. cbn [length] in Hb. lia. }
      rewrite Ef. specialize (IH rest p2 Hv2 Hm2). rewrite F5, F6, F4 in IH. cbn [length] in Hb.
      rewrite F2, F3 in IH. apply IH; lia.
    + cbn [length] in *. assert (Ef : batch_full false p2 = false).
      { unfold batch_full, CHUNK_SIZE. rewrite F6, app_length. cbn [length]. lia. }
      rewrite Ef. specialize (IH rest p2 Hv2 Hm2). rewrite F5, F6, F4, app_length in IH. cbn [length] in IH.
      rewrite F2, F3, <- app_assoc in IH. apply IH; lia.
Qed.

Lemma annot_none lines : forall seen, news seen lines = [] -> Forall (fun e => etgt e = None) (annot seen lines).
Proof.
  induction lines as [|[b nr] l IH]; intros seen H; cbn; [constructor|].
  unfold news in *. cbn [map fst] in H. rewrite firsts_cons in H.
  destruct (mem_set (tok b) seen); [|discriminate]. constructor; [reflexivity|]. auto.
Qed.

Lemma pdrain_at_end n : forall p cs q, pdrain above tok search n p = (cs, PSEnd, q) ->
  src p = [] -> targets p = [] -> current p = None -> buffer q = buffer p.
Proof.
  induction n as [|n IH]; intros p cs q H Hs Ht Hc; [discriminate|].
  cbn [pdrain] in H. unfold pnext in H. destruct (anomalies p) as [|a l] eqn:Ea.
  - rewrite Hs in H. cbn [read_anomalies] in H. unfold read_end in H.
    cbn [targets current anomalies] in H. rewrite Ht in H. cbn [current] in H. rewrite Hc in H.
    cbn [anomalies] in H. rewrite Ea in H. injection H as _ <-. reflexivity.
  - destruct (pdrain above tok search n (set_anomalies p l)) as [[l1 s1] f1] eqn:Ed.
    injection H as <- -> <-. apply IH in Ed; auto.
Qed.

Lemma single_batch_buffer lines cs p' :
  all_valid lines -> no_marker lines -> length (news known lines) < N.to_nat 512 ->
  length lines <= N.to_nat 5120 ->
  process_all above tok search (ok_items lines) known = (cs, PSEnd, p') ->
  buffer p' = [] \/ news known lines = [].
Proof.
  intros Hv Hm Hn Hl H. unfold process_all in H. cbn [Nat.add pdrain] in H. unfold pnext at 1 in H.
  cbn [proc_new anomalies src] in H. fold (@proc_new D (ok_items lines) known) in H.
  destruct (read_pushes lines [] (proc_new (ok_items lines) known) Hv Hm) as (E1 & E2 & E3 & E4);
    [cbn; exact Hn|cbn; exact Hl|].
  rewrite app_nil_r in E1. rewrite E1 in H. clear E1. set (q := pushes lines [] _) in *.
  cbn [read_anomalies] in H. unfold read_end in H. cbn [targets] in H. rewrite E2 in H.
  cbn [proc_new targets skip app] in H. destruct (news known lines) as [|t ts] eqn:En; [auto|]. left.
  destruct (do_search above search _) as [p1|] eqn:Es; [|discriminate].
  assert (Hp1 : src p1 = [] /\ targets p1 = [] /\ buffer p1 = []).
  { unfold do_search in Es. destruct (outer _ _ _ _ _) as [st|]; [|discriminate].
    set (f := match cur st with Some _ => _ | None => _ end) in *.
    destruct f as [[c' f']|]; [|discriminate]. destruct (reset_left_overs _ _); [|discriminate].
    injection Es as <-. auto. }
  destruct Hp1 as (S1 & S2 & S3).
  assert (Hgo : forall p2 : proc, src p2 = [] -> targets p2 = [] -> current p2 = None -> buffer p2 = [] ->
    (let (p, q0) := match anomalies p2 with [] => (PNone, p2) | a :: l => (PItem a, set_anomalies p2 l) end in
     match p with
     | PNone => ([], PSEnd, q0)
     | PItem c => let '(l, e, pf) := pdrain above tok search (S (length (ok_items lines))) q0 in (c :: l, e, pf)
     | PErr e => ([], PSErr e, q0)
     | PPanic => ([], PSPanic, q0)
     end) = (cs, PSEnd, p') -> buffer p' = []).
  { intros p2 G1 G2 G3 G4 G. destruct (anomalies p2) as [|a l] eqn:Ea.
    - injection G as _ <-. exact G4.
    - destruct (pdrain above tok search (S (length (ok_items lines))) (set_anomalies p2 l)) as [[l1 s1] f1] eqn:Ed.
      injection G as _ -> <-. apply pdrain_at_end in Ed; auto. rewrite Ed. exact G4. }
  destruct (current p1) as [a|] eqn:Ec.
  - eapply Hgo; [| | | |exact H]; cbn; auto.
  - eapply Hgo; [| | | |exact H]; auto.
Qed.

Lemma single_batch lines : all_valid lines -> no_marker lines ->
  length (news known lines) < N.to_nat 512 -> length lines <= N.to_nat 5120 ->
  exists cs p' idxs, process_all above tok search (ok_items lines) known = (cs, PSEnd, p') /\
    enumerates above tok dist known lines idxs /\ length cs = length idxs /\
    Forall2 (describes tok dist lines) cs idxs /\
    before_maximal (combine cs idxs) /\ after_maximal (combine cs idxs) /\
    last_after_maximal lines (combine cs idxs) /\ disjoint_contexts (combine cs idxs).
Proof.
  intros Hv Hm Hn Hl. assert (HR : Req true true (ok_items lines) []).
  { split; [intros _; apply (proj1 (req_no_marker lines Hm)); auto|]. intros Ho.
    unfold ok_items. rewrite map_length. cbn [length]. auto. }
  destruct (drained_no_marker above tok search dist known Hsearch true true lines Hv Hm HR)
    as (cs & p' & P & X & h & E & K1 & K2 & K3 & K4 & K5 & K6 & K7 & K8 & Ecs & K10 & K11).
  pose proof (single_batch_buffer lines cs p' Hv Hm Hn Hl E) as HS. subst cs.
  exists (rev (map snd h)), p', (rev (map fst h)). split; [exact E|].
  destruct (hist_contexts _ _ _ _ _ _ _ _ K8) as [L1 L2]. specialize (L2 eq_refl). destruct L2 as [L2 L3].
  destruct (hist_forall2 _ _ _ _ _ _ _ _ K8) as [L4 L5].
  csplit; auto.
  - rewrite K10. apply rpos_enumerates.
  - now rewrite !rev_length, !map_length.
  - intros l1 x El. rewrite combine_rev_swap in El. apply split_hist in El.
    destruct El as (h1 & h2 & Eh & _ & E2). destruct h1; [|discriminate]. cbn in Eh.
    assert (Hbound : stop_of x <= length lines).
    { subst h. cbn [hist_ok] in K8. destruct K8 as (Hc & _). apply ctx_ok_spec in Hc. destruct Hc as [Hc1 Hc2].
      destruct Hc1 as [Hc1 _]. destruct Hc2 as (_ & _ & Ha & _).
      assert (snd x < length lines) by (apply nth_error_Some; rewrite Hc1; discriminate).
      apply (f_equal (@length _)) in Ha. rewrite map_length, firstn_length, skipn_length in Ha.
      unfold stop_of. lia. }
    destruct HS as [HS|HS].
    + rewrite K6 in HS. destruct X; [|discriminate]. cbn in K5. rewrite app_nil_r in K5. subst P.
      specialize (K11 eq_refl). rewrite Eh in K11. cbn in K11. destruct K11 as [K|K]; [auto|]. right.
      rewrite annot_length in K. unfold stop_of in *. lia.
    + exfalso. pose proof (annot_none lines known HS) as Hno.
      assert (Hin : In (snd x) (rpos above (annot known lines))).
      { rewrite <- K10, <- in_rev, Eh. left. reflexivity. }
      unfold rpos in Hin. apply filter_In in Hin. destruct Hin as [_ Hin].
      destruct (nth_error (annot known lines) (snd x)) as [e|] eqn:En; [|discriminate].
      apply nth_error_In in En. rewrite Forall_forall in Hno. specialize (Hno _ En).
      unfold rep in Hin. rewrite Hno in Hin. discriminate.
Qed.

(** ** Failing sources *)
Lemma ok_items_prefix R : forall x pre bad rest e, all_valid R -> failing bad e ->
  ok_items R ++ x = ok_items pre ++ bad :: rest -> exists k, R = firstn k pre.
Proof.
  induction R as [|[b n] R IH]; intros x pre bad rest e Hv Hf E.
  - exists 0. reflexivity.
  - inversion Hv; subst. destruct pre as [|[b' n'] pre]; cbn in E.
    + injection E as E _. subst bad. cbn in *. destruct Hf. congruence.
    + injection E as -> -> E. destruct (IH x pre bad rest e H2 Hf E) as (k & ->). exists (S k). reflexivity.
Qed.

Lemma failing_read bad e rest p : failing bad e -> exists q, read (bad :: rest) p = RFail e q.
Proof.
  destruct bad as [b n|e']; cbn.
  - intros [H ->]. rewrite H. eauto.
  - intros ->. eauto.
Qed.

Lemma failing_source pre bad rest e :
  all_valid pre -> no_marker pre -> failing bad e ->
  exists cs p', process_all above tok search (ok_items pre ++ bad :: rest) known = (cs, PSErr e, p') /\
    src p' = rest /\ line_count p' = N.of_nat (length pre) /\ byte_count p' = total_bytes pre /\
    (forall t, In t (skip p') <-> In t known \/ exists x, In x pre /\ tok (fst x) = t) /\
    forall more, exists tl stop2 p2,
      process_all above tok search (ok_items pre ++ more) known = (cs ++ tl, stop2, p2).
Proof.
  intros Hv Hm Hf.
  pose proof (drained above tok search dist known Hsearch false false (ok_items pre ++ bad :: rest) (req_none _)) as K.
  destruct (process_all above tok search (ok_items pre ++ bad :: rest) known) as [[cs stop] p'] eqn:E.
  destruct stop as [|e'| |]; try contradiction.
  - exfalso. destruct K as (R & P & X & h & E1 & KV & Kend & _).
    destruct (ok_items_prefix R _ _ _ _ _ KV Hf (eq_sym E1)) as (k & ->).
    destruct Kend as [Kend|(R0 & m & Kend & Hmk)].
    + rewrite Kend, app_nil_r in E1. apply (f_equal (@length _)) in E1. unfold ok_items in E1.
      rewrite app_length, !map_length, firstn_length in E1. cbn in E1. lia.
    + unfold no_marker in Hm. rewrite <- (firstn_skipn k pre), Kend in Hm.
      rewrite !Forall_app in Hm. destruct Hm as [[_ Hm] _]. inversion Hm; subst. congruence.
  - destruct K as (R & bad' & E1 & KV & Kf & K2 & K3 & K4).
    assert (HR : R = pre /\ bad' = bad /\ src p' = rest).
    { destruct (ok_items_prefix R _ _ _ _ _ KV Hf (eq_sym E1)) as (k & ->).
      destruct (ok_items_prefix pre _ _ _ _ _ Hv Kf E1) as (k' & E2).
      assert (E3 : firstn k pre = pre).
      { apply firstn_all2. apply (f_equal (@length _)) in E2. rewrite firstn_firstn, firstn_length in E2. lia. }
      rewrite E3 in *. apply app_inv_head in E1. injection E1 as -> ->. auto. }
    destruct HR as (-> & -> & Hsrc).
    assert (Ee : e' = e).
    { destruct bad; cbn in Kf, Hf; [destruct Kf, Hf|]; congruence. }
    subst e'. rewrite (without_markers_id pre Hm) in *.
    exists cs, p'. split; [reflexivity|]. csplit; auto.
    + intros t. rewrite K2. apply seen_after_in.
    + intros more.
      pose proof (drained above tok search dist known Hsearch false false (ok_items pre ++ more) (req_none _)) as KM.
      destruct (process_all above tok search (ok_items pre ++ more) known) as [[cs2 stop2] p2] eqn:E2.
      unfold process_all in E, E2.
      set (n1 := 2 + length (ok_items pre ++ bad :: rest)) in E.
      set (n2 := 2 + length (ok_items pre ++ more)) in E2.
      assert (F1 := pdrain_more above tok search n1 _ (Nat.max n1 n2) _ _ _ E ltac:(discriminate) ltac:(lia)).
      assert (Hs2 : stop2 <> PSFuel) by (intros ->; exact KM).
      assert (F2 := pdrain_more above tok search n2 _ (Nat.max n1 n2) _ _ _ E2 Hs2 ltac:(lia)).
      assert (Hbad : forall p0, exists e q0, read (bad :: rest) p0 = RFail e q0).
      { intros p0. destruct (failing_read bad e rest p0 Hf) as (q0 & Eq). eauto. }
      destruct (drain_prefix above tok search (bad :: rest) more Hbad (Nat.max n1 n2) pre
        (proc_new (ok_items pre ++ bad :: rest) known) (proc_new (ok_items pre ++ more) known) cs p' cs2 stop2 p2 e
        eq_refl eq_refl F1 F2) as (tl & ->).
      exists tl, stop2, p2. reflexivity.
Qed.

(** ** The stop marker *)
Lemma do_search_keeps (p q : proc) : do_search above search p = Some q ->
  src q = src p /\ targets q = [] /\ buffer q = [].
Proof.
  unfold do_search. destruct (outer _ _ _ _ _) as [st|]; [|discriminate].
  set (f := match cur st with Some _ => _ | None => _ end).
  destruct f as [[c' f']|]; [|discriminate]. destruct (reset_left_overs _ _); [|discriminate].
  intros E. injection E as <-. auto.
Qed.

Lemma read_end_keeps (p q : proc) : read_end above search p = ROk q ->
  src q = src p /\ targets q = [] /\ current q = None.
Proof.
  unfold read_end. destruct (targets p) as [|t ts] eqn:Et.
  - destruct (current p) eqn:Ec; intros E; injection E as <-; auto.
  - destruct (do_search above search p) as [p1|] eqn:Es; [|discriminate].
    apply do_search_keeps in Es. destruct Es as (S1 & S2 & S3).
    destruct (current p1) eqn:Ec; intros E; injection E as <-; auto.
Qed.

(** A call reads up to the first marker at most, and there (or at the end) it leaves no
    pending anomaly. *)
Lemma read_shape items : forall p p', read items p = ROk p' ->
  exists R', items = ok_items R' ++ src p' /\
    ((no_marker R' /\ anomalies p' <> []) \/
     (targets p' = [] /\ current p' = None /\
      (no_marker R' /\ src p' = [] \/ exists R0 m, R' = R0 ++ [m] /\ no_marker R0 /\ is_marker (fst m) = true))).
Proof.
  induction items as [|[b nr|e] items IH]; intros p p' H; cbn [read_anomalies] in H; [|destruct (valid_utf8 b) eqn:Hv; [|discriminate]|discriminate].
  - apply read_end_keeps in H. destruct H as (H1 & H2 & H3). exists []. cbn in H1. rewrite H1.
    split; [reflexivity|]. right. csplit; auto. left. split; [constructor|reflexivity].
  - destruct (is_marker b) eqn:Hm.
    + apply read_end_keeps in H. destruct H as (H1 & H2 & H3). exists [(b, nr)]. cbn in H1. rewrite H1.
      split; [reflexivity|]. right. csplit; auto. right. exists [], (b, nr). csplit; auto. constructor.
    + set (p1 := count_line p b items) in *.
      destruct (push_line_fields p b nr items) as (F1 & _). fold p1 in F1.
      set (p2 := push_line tok p1 b nr) in *.
      assert (Hrec : forall q, read items q = ROk p' -> exists R', ILine b nr :: items = ok_items R' ++ src p' /\
        ((no_marker R' /\ anomalies p' <> []) \/ (targets p' = [] /\ current p' = None /\
        (no_marker R' /\ src p' = [] \/ exists R0 m, R' = R0 ++ [m] /\ no_marker R0 /\ is_marker (fst m) = true)))).
      { intros q Hq. destruct (IH q p' Hq) as (R' & E & K). exists ((b, nr) :: R'). split; [cbn; now rewrite E|].
        destruct K as [[K1 K2]|(K1 & K2 & [[K3 K4]|(R0 & m & -> & K3 & K4)])].
        - left. split; [constructor; assumption|assumption].
        - right. csplit; auto. left. split; [constructor; assumption|assumption].
        - right. csplit; auto. right. exists ((b, nr) :: R0), m. csplit; auto. constructor; assumption. }
      destruct (batch_full _ p2); [|eauto].
      destruct (do_search above search p2) as [p3|] eqn:E3; [|discriminate].
      destruct (anomalies p3) as [|a l] eqn:Ea; [eauto|]. injection H as <-.
      apply do_search_keeps in E3. destruct E3 as (S1 & _).
      exists [(b, nr)]. rewrite S1, F1. split; [reflexivity|]. left.
      split; [constructor; [assumption|constructor]|congruence].
Qed.

Lemma ok_items_inj a b s : ok_items a ++ s = ok_items b ++ s -> a = b.
Proof.
  intros H. apply app_inv_tail in H. revert b H. induction a as [|[x n] a IH]; intros [|[y m] b] H; try discriminate; [reflexivity|].
  cbn in H. injection H as -> -> H. f_equal. auto.
Qed.

Lemma ok_items_cmp a : forall x b y, ok_items a ++ x = ok_items b ++ y ->
  (exists c, b = a ++ c /\ x = ok_items c ++ y) \/ (exists c, a = b ++ c /\ y = ok_items c ++ x).
Proof.
  induction a as [|[t n] a IH]; intros x b y H.
  - left. exists b. auto.
  - destruct b as [|[t' n'] b].
    + right. exists ((t, n) :: a). auto.
    + cbn in H. injection H as -> -> H. apply IH in H. destruct H as [(c & -> & ->)|(c & -> & ->)]; [left|right]; exists c; auto.
Qed.

Lemma read_fail_shape items : forall p e p', read items p = RFail e p' ->
  exists R' bad, items = ok_items R' ++ bad :: src p' /\ failing bad e /\ no_marker R'.
Proof.
  assert (Hre : forall (q : proc) e p', read_end above search q = RFail e p' -> False).
  { intros q e p'. unfold read_end. destruct (match targets q with [] => _ | _ :: _ => _ end) as [p1|]; [|discriminate].
    destruct (current p1); discriminate. }
  induction items as [|[b nr|e0] items IH]; intros p e p' H; cbn [read_anomalies] in H.
  - exfalso. eapply Hre; exact H.
  - destruct (valid_utf8 b) eqn:Hv.
    + destruct (is_marker b) eqn:Hm; [exfalso; eapply Hre; exact H|].
      assert (Hrec : forall q, read items q = RFail e p' ->
        exists R' bad, ILine b nr :: items = ok_items R' ++ bad :: src p' /\ failing bad e /\ no_marker R').
      { intros q Hq. destruct (IH q e p' Hq) as (R' & bad & E & K1 & K2). exists ((b, nr) :: R'), bad.
        split; [cbn; now rewrite E|]. split; [exact K1|]. constructor; assumption. }
      destruct (batch_full _ _); [|eauto].
      destruct (do_search above search _) as [p3|]; [|discriminate]. destruct (anomalies p3); [eauto|discriminate].
    + injection H as <- <-. exists [], (ILine b nr). csplit; auto; [split; auto|constructor].
  - injection H as <- <-. exists [], (IErr e0). csplit; auto; [reflexivity|constructor].
Qed.

Lemma rpos_mono L L' : length (rpos above L) <= length (rpos above (L ++ L')).
Proof.
  induction L' as [|e L' IH] using rev_ind; [now rewrite app_nil_r|].
  rewrite app_assoc, rpos_snoc, app_length. lia.
Qed.

Lemma without_markers_app a b : without_markers (a ++ b) = without_markers a ++ without_markers b.
Proof. apply filter_app. Qed.

(** Between two calls: everything found was delivered. *)
Definition Idle (R : list (bytes * N)) (p : proc) (P : list entry) (X : list (entry * N)) (Y : list actx) (h hall : hist) : Prop :=
  PInv above tok dist known false false (src p) R p P X Y h hall /\
  anomalies p = [] /\ current p = None /\ Forall (fun x => etgt (fst x) = None) X.

Lemma none_of_targets (p : proc) X : BufInv tok dist p X -> targets p = [] -> Forall (fun x => etgt (fst x) = None) X.
Proof.
  intros (_ & B2 & _) Et. rewrite Et in B2.
  apply Forall_forall. intros x Hx. destruct (etgt (fst x)) eqn:E; [|reflexivity].
  assert (Hin : In x (filter is_tgt X)) by (apply filter_In; unfold is_tgt; rewrite E; auto).
  destruct (filter is_tgt X); [contradiction|discriminate].
Qed.

Lemma rpos_none L l : Forall (fun e : entry => etgt e = None) l -> rpos above (L ++ l) = rpos above L.
Proof.
  intros H. apply rpos_nrep. eapply Forall_impl; [|exact H]. intros e He. unfold nrep, rep. now rewrite He.
Qed.

(** A section without reported lines up to a marker ends the iteration. *)
Lemma quiet_section n p R P X Y h hall B m rest :
  Idle R p P X Y h hall -> src p = ok_items (B ++ [m]) ++ rest -> all_valid (B ++ [m]) ->
  no_marker B -> is_marker (fst m) = true ->
  rpos above (annot known (without_markers R ++ B)) = rpos above (annot known (without_markers R)) ->
  exists q, pdrain above tok search (S n) p = ([], PSEnd, q) /\ src q = rest.
Proof.
  intros (HI & Ha & Hc & HX) Es Hv Hm Hmk Hq. cbn [pdrain]. unfold pnext. rewrite Ha.
  pose proof (read_spec above tok search dist known Hsearch false false (src p) p R P X Y h hall HI Ha) as K.
  assert (HR : Req false false (src p) R) by (split; [intros [|]; discriminate|discriminate]).
  specialize (K HR). destruct (read (src p) p) as [|p'|e p'] eqn:Er; [contradiction| |].
  - destruct K as (R' & P' & X' & h' & hall' & E1 & KV & KI & K4).
    destruct (read_shape _ _ _ Er) as (R2 & E2 & Ksh).
    assert (R2 = R') by (rewrite E1 in E2; symmetry; eapply ok_items_inj; exact E2). subst R2. clear E2.
    assert (Hcmp : (exists B2, B = R' ++ B2 /\ src p' = ok_items (B2 ++ [m]) ++ rest) \/
                   (exists R3, R' = (B ++ [m]) ++ R3 /\ rest = ok_items R3 ++ src p')).
    { rewrite Es in E1. apply ok_items_cmp in E1. destruct E1 as [E1|(c & E1 & E2)]; [right; exact E1|].
      destruct c as [|x c] using rev_ind.
      - right. exists []. rewrite app_nil_r in *. cbn in *. auto.
      - left. rewrite app_assoc in E1. apply app_inj_tail in E1. destruct E1 as [-> ->]. eauto. }
    (* nothing new was reported among R' *)
    assert (Hno : forall l, rpos above (annot known (without_markers R ++ l)) = rpos above (annot known (without_markers R)) ->
       without_markers R' = l -> anomalies p' = []).
    { intros l Hl El. destruct KI as (J1 & _ & _ & _ & _ & (C1 & _ & C3 & C4) & _).
      destruct HI as (I1 & _ & _ & _ & _ & (D1 & _ & D3 & D4) & _).
      rewrite Hc in D3. cbn in D3. subst hall. rewrite Ha, app_nil_r in D1.
      assert (Hlen : length Y = length (rpos above (annot known (without_markers R)))).
      { rewrite <- D1, rev_length, map_length. rewrite <- I1, rpos_none; [|apply Forall_map; exact HX].
        rewrite <- D4, rev_length, map_length. reflexivity. }
      rewrite without_markers_app, El in J1.
      assert (Hle : length (rpos above P') <= length Y).
      { rewrite Hlen, <- Hl, <- J1. apply rpos_mono. }
      rewrite <- C4, rev_length, map_length in Hle.
      apply (f_equal (@length _)) in C1. rewrite rev_length, map_length, app_length in C1.
      assert (length h' <= length hall').
      { destruct (current p'); cbn in C3; [destruct C3 as (j & -> & _)|subst]; cbn; lia. }
      destruct (anomalies p'); [reflexivity|]. cbn in C1. lia. }
    destruct Hcmp as [(B2 & EB & Hsrc)|(R3 & ER & Hrest)].
    + (* the call would have returned before the marker *)
      exfalso. assert (HmR : no_marker R') by (unfold no_marker in *; rewrite EB in Hm; apply Forall_app in Hm; tauto).
      assert (Hn : anomalies p' = []).
      { apply (Hno R'); [|now apply without_markers_id].
        (* rpos between *)
        assert (S1 : exists l1, rpos above (annot known (without_markers R ++ R')) = rpos above (annot known (without_markers R)) ++ l1).
        { rewrite annot_app. clear. generalize (annot (seen_after known (without_markers R)) R'). intros l.
          induction l as [|e l IH] using rev_ind; [exists []; now rewrite !app_nil_r|].
          destruct IH as (l1 & IH). rewrite app_assoc, rpos_snoc, IH. eexists. rewrite <- app_assoc. reflexivity. }
        destruct S1 as (l1 & S1).
        pose proof (rpos_mono (annot known (without_markers R ++ R')) (annot (seen_after known (without_markers R ++ R')) B2)) as M.
        rewrite <- annot_app, <- app_assoc, <- EB, Hq, S1, app_length in M.
        destruct l1; [now rewrite app_nil_r in S1|cbn in M; lia]. }
      destruct Ksh as [[_ K]|(_ & _ & [[_ K]|(R0 & m0 & -> & _ & K)])].
      * congruence.
      * rewrite K in Hsrc. destruct B2; discriminate.
      * unfold no_marker in HmR. apply Forall_app in HmR. destruct HmR as [_ HmR]. inversion HmR; congruence.
    + assert (R3 = []).
      { destruct Ksh as [[K _]|(_ & _ & [[K _]|(R0 & m0 & E0 & K & _)])].
        - exfalso. rewrite ER in K. unfold no_marker in K. rewrite !Forall_app in K. destruct K as [[_ K] _]. inversion K; congruence.
        - exfalso. rewrite ER in K. unfold no_marker in K. rewrite !Forall_app in K. destruct K as [[_ K] _]. inversion K; congruence.
        - destruct R3 as [|r R3] using rev_ind; [reflexivity|]. exfalso.
          rewrite ER, app_assoc in E0. apply app_inj_tail in E0. destruct E0 as [<- _].
          unfold no_marker in K. rewrite !Forall_app in K. destruct K as [[_ K] _]. inversion K; congruence. }
      subst R3. rewrite app_nil_r in ER. cbn in Hrest.
      assert (Hn : anomalies p' = []).
      { apply (Hno B Hq). rewrite ER, without_markers_app, (without_markers_id B Hm). unfold without_markers.
        cbn [filter]. rewrite Hmk. apply app_nil_r. }
      rewrite Hn. eauto.
  - exfalso. destruct K as (R' & P' & X' & h' & hall' & bad & E1 & Kf & KV & _).
    clear R' P' X' h' hall' bad E1 Kf KV.
    destruct (read_fail_shape _ _ _ _ Er) as (R' & bad & E1 & Kf & Km).
    rewrite Es in E1. apply ok_items_cmp in E1. destruct E1 as [(c & E1 & E2)|(c & E1 & E2)].
    + rewrite E1 in Km. unfold no_marker in Km. rewrite !Forall_app in Km. destruct Km as [[_ K] _]. inversion K; congruence.
    + destruct c as [|[b nr] c].
      * rewrite app_nil_r in E1. rewrite <- E1 in Km. unfold no_marker in Km. rewrite Forall_app in Km.
        destruct Km as [_ K]. inversion K; congruence.
      * cbn in E2. injection E2 as -> _. unfold all_valid in Hv. rewrite E1 in Hv. apply Forall_app in Hv.
        destruct Hv as [_ Hv]. inversion Hv; subst. cbn in *. destruct Kf. congruence.
Qed.

Lemma pop_all l : forall n p cs q, anomalies p = l -> pdrain above tok search n p = (cs, PSEnd, q) ->
  exists n' cs', cs = l ++ cs' /\ pdrain above tok search (S n') (set_anomalies p []) = (cs', PSEnd, q).
Proof.
  induction l as [|a l IH]; intros n p cs q Ha H; (destruct n as [|n]; [discriminate|]).
  - exists n, cs. split; [reflexivity|]. rewrite <- H. f_equal. destruct p. cbn in *. now subst.
  - cbn [pdrain] in H. unfold pnext in H. rewrite Ha in H.
    destruct (pdrain above tok search n (set_anomalies p l)) as [[l1 s1] f1] eqn:Ed. injection H as <- -> <-.
    destruct (IH n (set_anomalies p l) l1 f1 eq_refl Ed) as (n' & cs' & -> & E). exists n', cs'. split; [reflexivity|exact E].
Qed.

Lemma pinv_pop_all items R p P X Y h hall :
  PInv above tok dist known false false items R p P X Y h hall ->
  PInv above tok dist known false false items R (set_anomalies p []) P X (Y ++ anomalies p) h hall.
Proof.
  remember (anomalies p) as l eqn:El. revert p Y El. induction l as [|a l IH]; intros p Y El H.
  - rewrite app_nil_r. replace (set_anomalies p []) with p; [exact H|]. destruct p; cbn in *; now subst.
  - apply (pinv_pop above tok dist known false false _ _ _ _ _ _ _ _ a l) in H; [|auto].
    apply (IH (set_anomalies p l)) in H; [|reflexivity]. rewrite <- app_assoc in H. exact H.
Qed.

Lemma reach_marker rest m1 : is_marker (fst m1) = true -> forall n p R P X Y h hall A cs q,
  PInv above tok dist known false false (src p) R p P X Y h hall ->
  src p = ok_items (A ++ [m1]) ++ rest -> all_valid (A ++ [m1]) ->
  pdrain above tok search n p = (cs, PSEnd, q) ->
  (exists A2, src q = ok_items A2 ++ rest /\ length A2 <= length A) \/
  (exists n' p1 cs1 cs2 P1 X1 h1 hall1, pdrain above tok search (S n') p1 = (cs2, PSEnd, q) /\
     cs = cs1 ++ cs2 /\ src p1 = rest /\ Idle (R ++ A ++ [m1]) p1 P1 X1 (Y ++ cs1) h1 hall1).
Proof.
  intros Hmk. induction n as [|n IH]; intros p R P X Y h hall A cs q HI Es Hv H; [discriminate|].
  cbn [pdrain] in H. unfold pnext in H. destruct (anomalies p) as [|a l] eqn:Ea.
  - pose proof (read_spec above tok search dist known Hsearch false false (src p) p R P X Y h hall HI Ea) as K.
    assert (HR : Req false false (src p) R) by (split; [intros [|]; discriminate|discriminate]).
    specialize (K HR). destruct (read (src p) p) as [|p'|e p'] eqn:Er; [contradiction| |discriminate].
    destruct K as (R' & P' & X' & h' & hall' & E1 & KV & KI & K4).
    destruct (read_shape _ _ _ Er) as (R2 & E2 & Ksh).
    assert (R2 = R') by (rewrite E1 in E2; symmetry; eapply ok_items_inj; exact E2). subst R2. clear E2.
    pose proof E1 as E1'. rewrite Es in E1'. apply ok_items_cmp in E1'.
    assert (Hcmp : (exists A2, A = R' ++ A2 /\ src p' = ok_items (A2 ++ [m1]) ++ rest) \/
                   (exists R3, R' = (A ++ [m1]) ++ R3 /\ rest = ok_items R3 ++ src p')).
    { destruct E1' as [E1'|(c & E1' & E2)]; [right; exact E1'|].
      destruct c as [|x c] using rev_ind.
      - right. exists []. rewrite app_nil_r in *. cbn in *. auto.
      - left. rewrite app_assoc in E1'. apply app_inj_tail in E1'. destruct E1' as [-> ->]. eauto. }
    destruct Hcmp as [(A2 & EA & Hsrc)|(R3 & ER & Hrest)].
    + destruct (anomalies p') as [|a l] eqn:Ea'.
      * left. destruct (K4 eq_refl) as ([K|(R0 & m & -> & K)] & _).
        { rewrite K in Hsrc. destruct A2; discriminate. }
        injection H as _ <-. exists (A2 ++ [m1]). split; [exact Hsrc|].
        rewrite EA, !app_length. cbn. lia.
      * destruct (pdrain above tok search n (set_anomalies p' l)) as [[l1 s1] f1] eqn:Ed. injection H as <- -> <-.
        apply (pinv_pop above tok dist known false false _ _ _ _ _ _ _ _ a l) in KI; [|exact Ea'].
        assert (Hv2 : all_valid (A2 ++ [m1])).
        { unfold all_valid in *. rewrite EA, <- app_assoc in Hv. apply Forall_app in Hv. tauto. }
        destruct (IH (set_anomalies p' l) (R ++ R') P' X' (Y ++ [a]) h' hall' A2 l1 f1 KI Hsrc Hv2 Ed)
          as [(A3 & F1 & F2)|(n' & p1 & cs1 & cs2 & P1 & X1 & h1 & hall1 & F1 & F2 & F3 & F4)].
        -- left. exists A3. split; [exact F1|]. rewrite EA, app_length. lia.
        -- right. exists n', p1, (a :: cs1), cs2, P1, X1, h1, hall1. csplit; auto.
           ++ cbn. now rewrite F2.
           ++ rewrite EA. rewrite <- !app_assoc in *. exact F4.
    + assert (R3 = []).
      { destruct Ksh as [[K _]|(_ & _ & [[K _]|(R0 & m0 & E0 & K & _)])].
        - exfalso. rewrite ER in K. unfold no_marker in K. rewrite !Forall_app in K. destruct K as [[_ K] _]. inversion K; congruence.
        - exfalso. rewrite ER in K. unfold no_marker in K. rewrite !Forall_app in K. destruct K as [[_ K] _]. inversion K; congruence.
        - destruct R3 as [|r R3] using rev_ind; [reflexivity|]. exfalso.
          rewrite ER, app_assoc in E0. apply app_inj_tail in E0. destruct E0 as [<- _].
          unfold no_marker in K. rewrite !Forall_app in K. destruct K as [[_ K] _]. inversion K; congruence. }
      subst R3. rewrite app_nil_r in ER. cbn in Hrest. symmetry in Hrest.
      assert (Hend : targets p' = [] /\ current p' = None).
      { destruct Ksh as [[K _]|(K1 & K2 & _)]; [|auto]. exfalso.
        rewrite ER in K. unfold no_marker in K. rewrite !Forall_app in K. destruct K as [_ K]. inversion K; congruence. }
      destruct (anomalies p') as [|a l] eqn:Ea'.
      * left. exists []. injection H as _ <-. cbn. split; [exact Hrest|lia].
      * destruct (pdrain above tok search n (set_anomalies p' l)) as [[l1 s1] f1] eqn:Ed. injection H as <- -> <-.
        right. destruct (pop_all l n (set_anomalies p' l) l1 f1 eq_refl Ed) as (n' & cs' & -> & F).
        exists n', (set_anomalies p' []), (a :: l), cs', P', X', h', hall'. csplit; auto.
        unfold Idle. csplit; auto.
        -- pose proof (pinv_pop_all _ _ _ _ _ _ _ _ KI) as KP. rewrite Ea', ER in KP. exact KP.
        -- apply Hend.
        -- destruct KI as (_ & _ & _ & _ & HB & _). eapply none_of_targets; [exact HB|apply Hend].
  - destruct (pdrain above tok search n (set_anomalies p l)) as [[l1 s1] f1] eqn:Ed. injection H as <- -> <-.
    apply (pinv_pop above tok dist known false false _ _ _ _ _ _ _ _ a l) in HI; [|exact Ea].
    destruct (IH (set_anomalies p l) R P X (Y ++ [a]) h hall A l1 f1 HI Es Hv Ed)
      as [F|(n' & p1 & cs1 & cs2 & P1 & X1 & h1 & hall1 & F1 & F2 & F3 & F4)]; [left; exact F|].
    right. exists n', p1, (a :: cs1), cs2, P1, X1, h1, hall1. csplit; auto.
    + cbn. now rewrite F2.
    + rewrite <- app_assoc in F4. exact F4.
Qed.

Lemma quiet_rpos L B : (forall i, length L <= i < length L + length B -> ~ reported above tok dist known (L ++ B) i) ->
  rpos above (annot known (L ++ B)) = rpos above (annot known L).
Proof.
  intros H. rewrite annot_app. apply rpos_nrep. apply Forall_forall. intros e He.
  apply In_nth_error in He. destruct He as (j & Hj). unfold nrep. destruct (rep above e) eqn:Er; [|reflexivity].
  exfalso. assert (Hlt : j < length B).
  { assert (j < length (annot (seen_after known L) B)) by (apply nth_error_Some; congruence).
    rewrite annot_length in *. assumption. }
  apply (H (length L + j)); [lia|]. apply reported_iff. exists e. split; [|exact Er].
  rewrite annot_app, nth_error_app2 by (rewrite annot_length; lia). rewrite annot_length.
  replace (length L + j - length L) with j by lia. exact Hj.
Qed.

Lemma first_marker B m rest : all_valid (B ++ [m]) -> no_marker B -> is_marker (fst m) = true ->
  (forall i, ~ reported above tok dist known B i) ->
  exists p', process_all above tok search (ok_items (B ++ [m]) ++ rest) known = ([], PSEnd, p') /\ src p' = rest.
Proof.
  intros Hv Hm Hmk Hq. unfold process_all. cbn [Nat.add].
  apply (quiet_section _ _ [] [] [] [] [] [] B m rest); auto.
  - unfold Idle. csplit; auto. apply pinv_new.
  - cbn [without_markers filter app]. apply (quiet_rpos [] B). cbn. intros i _. apply Hq.
Qed.

Lemma quiet_marker A m1 B m2 C : all_valid (A ++ m1 :: B ++ m2 :: C) -> no_marker B ->
  is_marker (fst m1) = true -> is_marker (fst m2) = true ->
  (forall i, length (without_markers A) <= i -> ~ reported above tok dist known (without_markers A ++ B) i) ->
  exists cs p' U, process_all above tok search (ok_items (A ++ m1 :: B ++ m2 :: C)) known = (cs, PSEnd, p') /\
    src p' = ok_items (U ++ C).
Proof.
  intros Hv Hm Hk1 Hk2 Hq.
  destruct (process_all_about_markers above tok search dist known Hsearch _ Hv) as (k & cs & p' & E & _).
  assert (Hv1 : all_valid (A ++ [m1]) /\ all_valid (B ++ [m2])).
  { unfold all_valid in *. rewrite !Forall_app in *. destruct Hv as [H1 H2].
    inversion H2 as [|? ? H3 H4]; subst. apply Forall_app in H4. destruct H4 as [H4 H5]. inversion H5; subst.
    repeat split; auto. }
  assert (Eit : ok_items (A ++ m1 :: B ++ m2 :: C) = ok_items (A ++ [m1]) ++ ok_items (B ++ [m2]) ++ ok_items C).
  { unfold ok_items. rewrite <- !map_app, <- !app_assoc. reflexivity. }
  unfold process_all in E.
  destruct (reach_marker (ok_items (B ++ [m2]) ++ ok_items C) m1 Hk1 _ (proc_new (ok_items (A ++ m1 :: B ++ m2 :: C)) known) [] [] [] [] [] [] A cs p'
     (pinv_new above tok dist known false false _) Eit (proj1 Hv1) E)
    as [(A2 & F1 & F2)|(n' & p1 & cs1 & cs2 & P1 & X1 & h1 & hall1 & F1 & F2 & F3 & F4)].
  - exists cs, p', (A2 ++ B ++ [m2]). split; [exact E|]. rewrite F1. unfold ok_items.
    rewrite !map_app, <- !app_assoc. reflexivity.
  - exists cs, p', []. split; [exact E|]. cbn [app] in F4.
    destruct (quiet_section n' _ _ _ _ _ _ _ B m2 (ok_items C) F4 F3 (proj2 Hv1) Hm Hk2) as (q & G1 & G2).
    + assert (Ew : without_markers (A ++ [m1]) = without_markers A).
      { rewrite without_markers_app. unfold without_markers at 2. cbn [filter]. rewrite Hk1. apply app_nil_r. }
      rewrite Ew. apply quiet_rpos. intros i Hi. apply Hq. lia.
    + rewrite G1 in F1. injection F1 as _ <-. exact G2.
Qed.
End More.

(** ** The trainer *)
Section Train.
Variable tok : bytes -> bytes.

Definition TInv (l : list (bytes * N)) (t : trainer) : Prop :=
  concat (added t) ++ baselines t = firsts [] (map (fun x => tok (fst x)) l) /\
  (forall x, In x (tskip t) <-> In x (map (fun x => tok (fst x)) l)) /\
  Forall (fun b => length b = N.to_nat 512) (added t) /\ length (baselines t) < N.to_nat 512 /\
  tline_count t = N.of_nat (length l) /\ tbyte_count t = total_bytes l.

Lemma firsts_snoc l : forall seen t, firsts seen (l ++ [t]) =
  firsts seen l ++ (if in_dec (list_eq_dec N.eq_dec) t (seen ++ l) then [] else [t]).
Proof.
  induction l as [|x l IH]; intros seen t; cbn [app firsts].
  - rewrite app_nil_r. destruct (in_dec (list_eq_dec N.eq_dec) t seen); reflexivity.
  - destruct (in_dec (list_eq_dec N.eq_dec) x seen) as [H|H].
    + rewrite IH. f_equal.
      destruct (in_dec (list_eq_dec N.eq_dec) t (seen ++ l)) as [K|K], (in_dec (list_eq_dec N.eq_dec) t (seen ++ x :: l)) as [K'|K']; try reflexivity; exfalso.
      * apply K'. apply in_app_iff in K. apply in_app_iff. destruct K; [auto|right; right; assumption].
      * apply K. apply in_app_iff in K'. apply in_app_iff. destruct K' as [|[->|]]; auto.
    + rewrite IH. cbn [app]. f_equal. f_equal.
      destruct (in_dec (list_eq_dec N.eq_dec) t (x :: seen ++ l)) as [K|K], (in_dec (list_eq_dec N.eq_dec) t (seen ++ x :: l)) as [K'|K']; try reflexivity; exfalso.
      * apply K'. cbn in K. rewrite in_app_iff in K. apply in_app_iff. cbn. tauto.
      * apply K. cbn. rewrite in_app_iff in *. cbn in K'. tauto.
Qed.

Lemma tadd_inv items : forall l t, TInv l t -> TInv (l ++ good_prefix items) (snd (tadd tok items t)).
Proof.
  induction items as [|[b nr|e] items IH]; intros l t H; cbn [tadd good_prefix].
  - now rewrite app_nil_r.
  - destruct (valid_utf8 b) eqn:Hv; [|now rewrite app_nil_r].
    destruct H as (H1 & H2 & H3 & H4 & H5 & H6).
    replace (l ++ (b, nr) :: good_prefix items) with ((l ++ [(b, nr)]) ++ good_prefix items) by (rewrite <- app_assoc; reflexivity).
    pose proof (firsts_snoc (map (fun x => tok (fst x)) l) [] (tok b)) as Hf. cbn [app] in Hf.
    assert (Hin : forall x, In x (map (fun x => tok (fst x)) (l ++ [(b, nr)])) <-> In x (tskip t) \/ x = tok b).
    { intros x. rewrite map_app, in_app_iff, <- H2. cbn. intuition congruence. }
    destruct (mem_set (tok b) (tskip t)) eqn:Ek.
    + apply IH. unfold TInv. cbn [added tskip baselines tline_count tbyte_count].
      rewrite map_app. cbn [map fst]. rewrite Hf.
      apply mem_set_spec in Ek. apply H2 in Ek as Ek'.
      destruct (in_dec (list_eq_dec N.eq_dec) (tok b) _) as [K|K]; [|contradiction]. rewrite app_nil_r.
      csplit; auto.
      * intros x. specialize (Hin x). rewrite map_app in Hin. cbn [map fst] in Hin. rewrite Hin. intuition congruence.
      * rewrite app_length. cbn [length]. lia.
      * rewrite H6, (total_bytes_snoc tok). reflexivity.
    + assert (K0 : ~ In (tok b) (tskip t)) by (rewrite <- mem_set_spec, Ek; discriminate).
      destruct (in_dec (list_eq_dec N.eq_dec) (tok b) (map (fun x => tok (fst x)) l)) as [K|_]; [apply H2 in K; contradiction|].
      rewrite <- H1, <- app_assoc in Hf.
      assert (Hin' : forall x, In x (tok b :: tskip t) <-> In x (map (fun x => tok (fst x)) (l ++ [(b, nr)]))).
      { intros x. rewrite Hin. cbn. intuition congruence. }
      destruct (N.eqb_spec (N.of_nat (length (baselines t ++ [tok b]))) CHUNK_SIZE) as [E|E];
        unfold CHUNK_SIZE in E; apply IH; unfold TInv; cbn [added tskip baselines tline_count tbyte_count].
      * rewrite concat_app. cbn [concat]. rewrite !app_nil_r. rewrite map_app in *. cbn [map fst] in *. csplit; auto.
        -- apply Forall_app. split; [assumption|]. constructor; [|constructor]. lia.
        -- cbn [length]. lia.
        -- rewrite app_length. cbn [length]. lia.
        -- rewrite H6, (total_bytes_snoc tok). reflexivity.
      * rewrite map_app in *. cbn [map fst] in *. csplit; auto.
        -- rewrite app_length in *. cbn [length] in *. lia.
        -- rewrite app_length. cbn [length]. lia.
        -- rewrite H6, (total_bytes_snoc tok). reflexivity.
  - now rewrite app_nil_r.
Qed.

Lemma train_inv sources : forall l t, TInv l t ->
  let t' := train_sources tok sources t in
  let l' := l ++ concat (map good_prefix sources) in
  concat (added t') = firsts [] (map (fun x => tok (fst x)) l') /\
  (exists full last, added t' = full ++ last /\ Forall (fun b => length b = N.to_nat 512) full /\
     (last = [] \/ exists b, last = [b] /\ 0 < length b < N.to_nat 512)) /\
  tline_count t' = N.of_nat (length l') /\ tbyte_count t' = total_bytes l'.
Proof.
  induction sources as [|s sources IH]; intros l t H; cbn [train_sources map concat].
  - rewrite app_nil_r. destruct H as (H1 & H2 & H3 & H4 & H5 & H6). unfold tcomplete.
    destruct (baselines t) as [|x bl] eqn:Eb.
    + rewrite app_nil_r in H1. csplit; auto. exists (added t), []. rewrite app_nil_r. auto.
    + cbn [added tline_count tbyte_count]. rewrite concat_app. cbn [concat]. rewrite app_nil_r. csplit; auto.
      exists (added t), [x :: bl]. csplit; auto. right. exists (x :: bl). csplit; auto. cbn. lia.
  - rewrite app_assoc. apply IH. now apply tadd_inv.
Qed.

Lemma tinv_new : TInv [] trainer_new.
Proof. unfold TInv. cbn. csplit; auto; try reflexivity; lia. Qed.
End Train.
