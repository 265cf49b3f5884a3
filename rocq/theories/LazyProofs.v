(** Lemmas about the analysis that reads lazily: it is the analysis of the list of all lines, and
    what it has not read does not matter. *)
From Coq Require Import List NArith Bool Lia.
From Verif Require Import Common IterModel IterSpec IterProofs IterSafety IterMain LazyIter ProcModel LazyModel.
Import ListNotations.
Open Scope N_scope.

Lemma weight_app a b : reader_weight (a ++ b) = (reader_weight a + reader_weight b)%nat.
Proof. induction a as [|[d|e] a IH]; cbn [app reader_weight]; [reflexivity| |]; rewrite IH; lia. Qed.
(** What is left of a reader. *)
Definition left_of (r r' : reader) : Prop := exists pre, r = pre ++ r'.
Lemma left_refl r : left_of r r.
Proof. exists []. reflexivity. Qed.
Lemma left_trans a b c : left_of a b -> left_of b c -> left_of a c.
Proof. intros [p ->] [q ->]. exists (p ++ q). apply app_assoc. Qed.
Lemma left_weight a b : left_of a b -> (reader_weight b <= reader_weight a)%nat.
Proof. intros [p ->]. rewrite weight_app. lia. Qed.

(** The lines that a source will give, and how it ends. *)
Inductive yields (ovf : bool) : iter -> reader -> list item -> Prop :=
| YEnd s r s' : next ovf s r = (ONone, s', []) -> finished_state s' -> yields ovf s r []
| YErr s r e s' r' items : next ovf s r = (OErr e, s', r') -> yields ovf s r (IErr e :: items)
| YLine s r b nr s' r' items : next ovf s r = (OLine b nr, s', r') -> yields ovf s' r' items -> yields ovf s r (ILine b nr :: items).
Lemma yields_finished ovf s : finished_state s -> yields ovf s [] [].
Proof. intros H. destruct (next_finished ovf s H) as (s' & E & F). econstructor; eauto. Qed.

Definition items_from (x : list (bytes * N) * stop) : list item :=
  map (fun y => ILine (fst y) (snd y)) (fst x) ++ match snd x with SErr e => [IErr e] | _ => [] end.
Lemma collect_yields ovf : forall n s r, good s r -> snd (collect ovf n s r) <> SFuel -> snd (collect ovf n s r) <> SPanic ->
  yields ovf s r (items_from (collect ovf n s r)).
Proof.
  induction n as [|n IH]; intros s r G Hf Hp; [now destruct Hf|]. cbn [collect] in *.
  destruct (next ovf s r) as [[o s'] r'] eqn:E. destruct o.
  - destruct (next_good _ _ _ _ _ _ G E ltac:(discriminate)) as (_ & _ & X & _). destruct (X eq_refl) as [-> X']. cbn. econstructor; eauto.
  - destruct (next_good _ _ _ _ _ _ G E ltac:(discriminate)) as (G' & _). specialize (IH s' r' G').
    destruct (collect ovf n s' r') as [ls e]. cbn [snd] in *. unfold items_from in *. cbn [fst snd map app] in *. econstructor; eauto.
  - cbn. econstructor; eauto.
  - now destruct Hp.
  - now destruct Hf.
Qed.

Section Processor.
Context {D : Type}.
Variable above : D -> bool.
Variable tokenize : bytes -> bytes.
Variable search : list bytes -> list D.
Notation proc := (@proc D).
Notation lread := (lread above tokenize search).
Notation lnext := (lnext above tokenize search).
Notation ldrain := (ldrain above tokenize search).

Definition put_src (l : list item) (p : proc) : proc :=
  mkProc l (buffer p) (targets p) (targets_coord p) (left_overs p) (current p) (anomalies p) (skip p) (coord p) (line_count p) (byte_count p).
Definition strip : proc -> proc := put_src [].
Definition strip_res (x : @rres D) : @rres D := match x with RPanic => RPanic | ROk p => ROk (strip p) | RFail e p => RFail e (strip p) end.
Lemma strip_search p : do_search above search (strip p) = option_map strip (do_search above search p).
Proof.
  unfold do_search. cbn [targets targets_coord buffer left_overs current anomalies src skip coord line_count byte_count strip put_src].
  destruct (outer _ _ _ _ _) as [x|]; [|reflexivity]. destruct (match cur x with Some _ => _ | None => _ end) as [[? ?]|]; [|reflexivity].
  destruct (reset_left_overs _ _); reflexivity.
Qed.
Lemma strip_end p : read_end above search (strip p) = strip_res (read_end above search p).
Proof.
  unfold read_end. rewrite strip_search. change (targets (strip p)) with (targets p). destruct (targets p).
  - change (current (strip p)) with (current p). destruct (current p); reflexivity.
  - destruct (do_search above search p) as [q|]; [|reflexivity]. cbn [option_map]. change (current (strip q)) with (current q). destruct (current q); reflexivity.
Qed.
Lemma end_src p p' : read_end above search p = ROk p' -> src p' = src p.
Proof.
  assert (S : forall q, do_search above search p = Some q -> src q = src p).
  { intros q. unfold do_search. destruct (outer _ _ _ _ _) as [x|]; [|discriminate].
    destruct (match cur x with Some _ => _ | None => _ end) as [[? ?]|]; [|discriminate]. destruct (reset_left_overs _ _); [|discriminate]. intros E. injection E as <-. reflexivity. }
  unfold read_end. destruct (targets p).
  - destruct (current p); intros E; injection E as <-; reflexivity.
  - destruct (do_search above search p) as [q|]; [|discriminate]. specialize (S q eq_refl). destruct (current q); intros E; injection E as <-; exact S.
Qed.
Lemma end_no_fail p e p' : read_end above search p <> RFail e p'.
Proof. unfold read_end. destruct (match targets p with [] => _ | _ :: _ => _ end) as [q|]; [|discriminate]. destruct (current q); discriminate. Qed.
Lemma search_src p q : do_search above search p = Some q -> src q = src p.
Proof.
  unfold do_search. destruct (outer _ _ _ _ _) as [x|]; [|discriminate].
  destruct (match cur x with Some _ => _ | None => _ end) as [[? ?]|]; [|discriminate]. destruct (reset_left_overs _ _); [|discriminate]. intros E. injection E as <-. reflexivity.
Qed.
Lemma strip_count p b items : count_line (strip p) b [] = strip (count_line p b items).
Proof. reflexivity. Qed.
Lemma strip_push p b nr : push_line tokenize (strip p) b nr = strip (push_line tokenize p b nr).
Proof. unfold push_line. change (skip (strip p)) with (skip p). destruct (mem_set _ _); reflexivity. Qed.
Lemma put_src_same p : put_src (src p) p = p.
Proof. destruct p; reflexivity. Qed.

Lemma read_src items p : read_anomalies above tokenize search items p = read_anomalies above tokenize search items (strip p).
Proof. destruct items as [|[b nr|e] items]; reflexivity. Qed.

(** The analysis of the lines that a source yields, call by call. *)
Lemma lread_reads ovf : forall m s r p items, yields ovf s r items ->
  match lread ovf m s r (strip p) with
  | LFuel => True
  | LPanic => read_anomalies above tokenize search items p = RPanic
  | LOk s' r' q => exists p', read_anomalies above tokenize search items p = ROk p' /\ q = strip p' /\ yields ovf s' r' (src p')
  | LFail e s' r' q => exists p', read_anomalies above tokenize search items p = RFail e p' /\ q = strip p'
  end.
Proof.
  assert (End : forall s' r' p, yields ovf s' r' (src p) ->
    match with_reader s' r' (read_end above search (strip p)) with
    | LFuel => True
    | LPanic => read_end above search p = RPanic
    | LOk s' r' q => exists p', read_end above search p = ROk p' /\ q = strip p' /\ yields ovf s' r' (src p')
    | LFail e s' r' q => exists p', read_end above search p = RFail e p' /\ q = strip p'
    end).
  { intros s' r' p Y. rewrite strip_end. destruct (read_end above search p) as [|p'|e p'] eqn:E; cbn [strip_res with_reader]; eauto.
    exists p'. csplit; auto. now rewrite (end_src _ _ E). }
  induction m as [|m IH]; intros s r p items Y; [exact I|]. cbn [LazyModel.lread].
  destruct Y as [s r s' E F|s r e s' r' items E|s r b nr s' r' items E Y]; rewrite E.
  - apply (End s' [] (strip p)). apply yields_finished. exact F.
  - eexists. split; reflexivity.
  - cbn [read_anomalies]. destruct (valid_utf8 b); [|eexists; split; reflexivity].
    rewrite (strip_count p b items). cbv zeta. destruct (is_marker b).
    + apply (End s' r' (count_line p b items)). exact Y.
    + rewrite strip_push. change (skip (strip (count_line p b items))) with (skip (count_line p b items)).
      set (p2 := push_line tokenize (count_line p b items) b nr).
      assert (S2 : src p2 = items) by (unfold p2, push_line; destruct (mem_set _ _); reflexivity).
      change (batch_full (mem_set (tokenize b) (skip (count_line p b items))) (strip p2)) with (batch_full (mem_set (tokenize b) (skip (count_line p b items))) p2).
      destruct (batch_full _ _); [|apply IH; exact Y].
      rewrite strip_search. destruct (do_search above search p2) as [p3|] eqn:E3; [|reflexivity]. cbn [option_map].
      change (anomalies (strip p3)) with (anomalies p3). destruct (anomalies p3) eqn:A3.
      * apply IH. exact Y.
      * exists p3. csplit; auto. rewrite (search_src _ _ E3), S2. exact Y.
Qed.

Lemma lread_total ovf : forall m s r p, good s r -> (1 <= m)%nat -> (st s = EoF \/ Psi s r + 3 <= m)%nat -> lread ovf m s r p <> LFuel.
Proof.
  assert (W : forall s r x, with_reader s r x <> @LFuel D) by (intros s r [|q|e q]; discriminate).
  induction m as [|m IH]; intros s r p G H1 Hm; [lia|]. cbn [LazyModel.lread].
  destruct (next ovf s r) as [[o s'] r'] eqn:E. destruct o; try discriminate; try apply W.
  - destruct (next_good _ _ _ _ _ _ G E ltac:(discriminate)) as (G' & _ & _ & _ & X). specialize (X _ _ eq_refl).
    destruct Hm as [Hm|Hm]; [rewrite next_eof in E by exact Hm; discriminate|].
    destruct (valid_utf8 l); [|discriminate]. cbv zeta. destruct (is_marker l); [apply W|].
    assert (R : forall q, lread ovf m s' r' q <> LFuel) by (intros q; apply IH; [exact G'|lia|destruct X; [auto|right; lia]]).
    destruct (batch_full _ _); [|apply R]. destruct (do_search _ _ _) as [q|]; [|discriminate]. destruct (anomalies q); [apply R|discriminate].
  - destruct (next_good _ _ _ _ _ _ G E ltac:(discriminate)) as (_ & X & _). now destruct X.
Qed.
Lemma lread_fuel_for ovf s r p : good s r -> lread ovf (fuel_for s r) s r p <> LFuel.
Proof. intros G. apply lread_total; [exact G| |right]; unfold fuel_for, Psi; lia. Qed.

Lemma lread_more ovf : forall m k s r p, lread ovf m s r p <> LFuel -> lread ovf (m + k) s r p = lread ovf m s r p.
Proof.
  induction m as [|m IH]; intros k s r p H; [now destruct H|]. rewrite PeanoNat.Nat.add_succ_l. cbn [LazyModel.lread] in *.
  destruct (next ovf s r) as [[o s'] r']. destruct o; try reflexivity. destruct (valid_utf8 l); [|reflexivity]. cbv zeta in *. destruct (is_marker l); [reflexivity|].
  destruct (batch_full _ _); [|now apply IH]. destruct (do_search _ _ _) as [q|]; [|reflexivity]. destruct (anomalies q); [now apply IH|reflexivity].
Qed.

(** The end state of a method, and the reader that is left. *)
Definition leaves (x : @lres D) (s : iter) (r : reader) : Prop :=
  match x with LOk s' r' _ | LFail _ s' r' _ => s' = s /\ r' = r | _ => False end.
Lemma leaves_with s r x s' r' : leaves (with_reader s r x) s' r' -> s' = s /\ r' = r.
Proof. destruct x as [|q|e q]; cbn; try tauto; intros [-> ->]; auto. Qed.
Lemma lread_left ovf : forall m s r p s' r', good s r -> leaves (lread ovf m s r p) s' r' ->
  good s' r' /\ left_of r r'.
Proof.
  induction m as [|m IH]; intros s r p s' r' G L; [destruct L|]. cbn [LazyModel.lread] in L.
  destruct (next ovf s r) as [[o s1] r1] eqn:E. destruct o; try (destruct L; fail);
    destruct (next_good _ _ _ _ _ _ G E ltac:(discriminate)) as (G' & _ & _ & W & _).
  - apply leaves_with in L as [-> ->]. auto.
  - assert (R : forall q, leaves (lread ovf m s1 r1 q) s' r' -> good s' r' /\ left_of r r').
    { intros q X. destruct (IH _ _ _ _ _ G' X) as [X1 X2]. split; [exact X1|]. eapply left_trans; eauto. }
    destruct (valid_utf8 l); [|destruct L as [<- <-]; auto]. cbv zeta in L. destruct (is_marker l); [apply leaves_with in L as [-> ->]; auto|].
    destruct (batch_full _ _); [|eauto]. destruct (do_search _ _ _) as [q|]; [|destruct L]. destruct (anomalies q); [eauto|destruct L as [<- <-]; auto].
  - destruct L as [<- <-]. auto.
Qed.

Definition swap_reader (r : reader) (x : @lres D) : @lres D :=
  match x with LOk s _ p => LOk s r p | LFail e s _ p => LFail e s r p | y => y end.
Lemma lread_local ovf : forall m s r1 x p s' r', good s (r1 ++ x) -> x <> [] -> leaves (lread ovf m s (r1 ++ x) p) s' r' ->
  (reader_weight x <= reader_weight r')%nat -> exists r1', r' = r1' ++ x /\ lread ovf m s r1 p = swap_reader r1' (lread ovf m s (r1 ++ x) p).
Proof.
  induction m as [|m IH]; intros s r1 x p s' r' G Hx L W; [destruct L|].
  cbn [LazyModel.lread] in L |- *. destruct (next ovf s (r1 ++ x)) as [[o s1] r2] eqn:E.
  assert (No : o <> OPanic /\ (reader_weight x <= reader_weight r2)%nat /\ good s1 r2).
  { assert (Hp : o <> OPanic) by (intros ->; destruct L).
    destruct (next_good _ _ _ _ _ _ G E Hp) as (G' & _). csplit; auto.
    destruct o; try (destruct L; fail).
    - apply leaves_with in L as [-> ->]; auto.
    - assert (R : forall q, leaves (lread ovf m s1 r2 q) s' r' -> (reader_weight x <= reader_weight r2)%nat).
      { intros q X. apply lread_left in X; [|exact G']. destruct X as [_ X]. apply left_weight in X. lia. }
      destruct (valid_utf8 l); [|destruct L as [<- <-]; auto]. cbv zeta in L. destruct (is_marker l); [apply leaves_with in L as [-> ->]; auto|].
      destruct (batch_full _ _); [|eauto]. destruct (do_search _ _ _) as [q|]; [|destruct L]. destruct (anomalies q); [eauto|destruct L as [<- <-]; auto].
    - destruct L as [<- <-]; auto. }
  destruct No as (Hp & W2 & G').
  destruct (next_local _ _ _ _ _ _ _ G Hx E W2) as (r1' & -> & ->).
  assert (Sw : forall y, leaves (with_reader s1 (r1' ++ x) y) s' r' -> exists z, r' = z ++ x /\ with_reader s1 r1' y = swap_reader z (with_reader s1 (r1' ++ x) y)).
  { intros y Ly. exists r1'. apply leaves_with in Ly as [-> ->]. split; [reflexivity|]. destruct y; reflexivity. }
  destruct o; try (destruct L; fail).
  - now apply Sw.
  - destruct (valid_utf8 l); [|destruct L as [<- <-]; eauto]. cbv zeta in L |- *. destruct (is_marker l); [now apply Sw|].
    destruct (batch_full _ _); [|eauto]. destruct (do_search _ _ _) as [q|]; [|destruct L]. destruct (anomalies q); [eauto|destruct L as [<- <-]; eauto].
  - destruct L as [<- <-]. eauto.
Qed.

Lemma good_app s a b : good s (a ++ b) -> good s a.
Proof.
  intros (H1 & H2 & H3 & H4 & H5). unfold good. csplit; auto; [now apply no_empty_app in H3| |now apply Forall_app in H5]. intros E. specialize (H4 E). now apply app_eq_nil in H4.
Qed.

Lemma ldrain_left ovf : forall n s r p l e rf pf, good s r -> ldrain ovf n s r p = (l, e, rf, pf) -> left_of r rf.
Proof.
  induction n as [|n IH]; intros s r p l e rf pf G E; [injection E as <- <- <- <-; apply left_refl|]. cbn [LazyModel.ldrain] in E. unfold LazyModel.lnext in E.
  destruct (anomalies p) as [|a rest].
  - destruct (lread ovf (fuel_for s r) s r p) as [| |s' r' p'|e' s' r' p'] eqn:R.
    1,2: injection E as <- <- <- <-; apply left_refl.
    + destruct (lread_left ovf (fuel_for s r) s r p s' r' G) as [G' W]; [rewrite R; cbn; auto|]. destruct (anomalies p'); [injection E as <- <- <- <-; exact W|].
      destruct (ldrain ovf n s' r' _) as [[[l2 e2] r2] p2] eqn:E2. injection E as <- <- <- <-. apply IH in E2; [eapply left_trans; eauto|exact G'].
    + destruct (lread_left ovf (fuel_for s r) s r p s' r' G) as [G' W]; [rewrite R; cbn; auto|]. injection E as <- <- <- <-. exact W.
  - destruct (ldrain ovf n s r _) as [[[l2 e2] r2] p2] eqn:E2. injection E as <- <- <- <-. now apply IH in E2.
Qed.

(** What was not read does not matter. *)
Lemma ldrain_local ovf : forall n s r1 x p l e rf pf, good s (r1 ++ x) -> x <> [] -> ldrain ovf n s (r1 ++ x) p = (l, e, rf, pf) -> e <> PSPanic ->
  (reader_weight x <= reader_weight rf)%nat -> exists r1', rf = r1' ++ x /\ ldrain ovf n s r1 p = (l, e, r1', pf).
Proof.
  induction n as [|n IH]; intros s r1 x p l e rf pf G Hx E He W; [injection E as <- <- <- <-; eexists; split; reflexivity|].
  cbn [LazyModel.ldrain] in E |- *. unfold LazyModel.lnext in E |- *. destruct (anomalies p) as [|a rest].
  - pose proof (lread_fuel_for ovf _ _ p G) as T. pose proof (lread_fuel_for ovf _ _ p (good_app _ _ _ G)) as T1.
    assert (F : lread ovf (fuel_for s (r1 ++ x)) s r1 p = lread ovf (fuel_for s r1) s r1 p).
    { replace (fuel_for s (r1 ++ x)) with (fuel_for s r1 + 3 * reader_weight x)%nat by (unfold fuel_for; rewrite weight_app; lia). now apply lread_more. }
    destruct (lread ovf (fuel_for s (r1 ++ x)) s (r1 ++ x) p) as [| |s' r' p'|e' s' r' p'] eqn:R.
    1,2: injection E as <- <- <- <-; now destruct He.
    + assert (L : leaves (lread ovf (fuel_for s (r1 ++ x)) s (r1 ++ x) p) s' r') by (rewrite R; cbn; auto).
      destruct (lread_left _ _ _ _ _ _ _ G L) as [G' W'].
      assert (Wr : (reader_weight x <= reader_weight r')%nat).
      { destruct (anomalies p'); [injection E as <- <- <- <-; exact W|]. destruct (ldrain ovf n s' r' _) as [[[l2 e2] r2] p2] eqn:E2. injection E as <- <- <- <-. apply ldrain_left in E2; [|exact G']. apply left_weight in E2. lia. }
      destruct (lread_local _ _ _ _ _ _ _ _ G Hx L Wr) as (r1' & -> & R1). rewrite R in R1. cbn [swap_reader] in R1. rewrite <- F, R1.
      destruct (anomalies p'); [injection E as <- <- <- <-; eauto|]. destruct (ldrain ovf n s' (r1' ++ x) _) as [[[l2 e2] r2] p2] eqn:E2. injection E as <- <- <- <-.
      destruct (IH _ _ _ _ _ _ _ _ G' Hx E2 He W) as (z & -> & ->). eauto.
    + assert (L : leaves (lread ovf (fuel_for s (r1 ++ x)) s (r1 ++ x) p) s' r') by (rewrite R; cbn; auto).
      injection E as <- <- <- <-. destruct (lread_local _ _ _ _ _ _ _ _ G Hx L W) as (r1' & -> & R1). rewrite R in R1. cbn [swap_reader] in R1. rewrite <- F, R1. eauto.
  - destruct (ldrain ovf n s (r1 ++ x) _) as [[[l2 e2] r2] p2] eqn:E2. injection E as <- <- <- <-. destruct (IH _ _ _ _ _ _ _ _ G Hx E2 He W) as (z & -> & ->). eauto.
Qed.

(** Reading lazily is reading the list. *)
Lemma ldrain_drains ovf : forall n s r p l e pf, good s r -> yields ovf s r (src p) -> pdrain above tokenize search n p = (l, e, pf) ->
  exists rf, ldrain ovf n s r (strip p) = (l, e, rf, strip pf).
Proof.
  induction n as [|n IH]; intros s r p l e pf G Y E; [injection E as <- <- <-; eexists; reflexivity|].
  cbn [pdrain LazyModel.ldrain] in E |- *. unfold pnext in E. unfold LazyModel.lnext. change (anomalies (strip p)) with (anomalies p).
  destruct (anomalies p) as [|a rest].
  - pose proof (lread_reads ovf (fuel_for s r) s r p (src p) Y) as R. pose proof (lread_fuel_for ovf s r (strip p) G) as T.
    destruct (lread ovf (fuel_for s r) s r (strip p)) as [| |s' r' q|e' s' r' q] eqn:L.
    + rewrite R in E. injection E as <- <- <-. eexists. reflexivity.
    + now destruct T.
    + destruct R as (p' & R & -> & Y'). rewrite R in E. change (anomalies (strip p')) with (anomalies p').
      destruct (anomalies p') as [|a rest] eqn:A; [injection E as <- <- <-; eexists; reflexivity|].
      destruct (pdrain above tokenize search n (set_anomalies p' rest)) as [[l2 e2] p2] eqn:E2. injection E as <- <- <-.
      destruct (IH s' r' (set_anomalies p' rest) l2 e2 p2) as (rf & X); [|exact Y'|exact E2|].
      * apply (lread_left ovf (fuel_for s r) s r (strip p)); [exact G|rewrite L; cbn; auto].
      * exists rf. change (set_anomalies (strip p') rest) with (strip (set_anomalies p' rest)). now rewrite X.
    + destruct R as (p' & R & ->). rewrite R in E. injection E as <- <- <-. eexists. reflexivity.
  - destruct (pdrain above tokenize search n (set_anomalies p rest)) as [[l2 e2] p2] eqn:E2. injection E as <- <- <-.
    destruct (IH s r (set_anomalies p rest) _ _ _ G Y E2) as (rf & X). exists rf. change (set_anomalies (strip p) rest) with (strip (set_anomalies p rest)). now rewrite X.
Qed.
End Processor.

Section Trainer.
Variable tokenize : bytes -> bytes.
Notation ltadd := (ltadd tokenize).
Lemma tadd_line b nr items t : valid_utf8 b = true -> tadd tokenize (ILine b nr :: items) t = tadd tokenize items (snd (tadd tokenize [ILine b 0] t)).
Proof.
  intros V. cbn [tadd]. rewrite V. cbv zeta. destruct (mem_set _ _); [reflexivity|]. destruct (_ =? CHUNK_SIZE); reflexivity.
Qed.
Lemma ltadd_adds ovf : forall m s r items t, yields ovf s r items ->
  match ltadd ovf m s r t with
  | TPanic => False
  | TFuel => True
  | TDone ok _ t' => tadd tokenize items t = (ok, t')
  end.
Proof.
  induction m as [|m IH]; intros s r items t Y; [exact I|]. cbn [LazyModel.ltadd].
  destruct Y as [s r s' E F|s r e s' r' items E|s r b nr s' r' items E Y]; rewrite E.
  - reflexivity.
  - reflexivity.
  - destruct (valid_utf8 b) eqn:V; [|cbn [tadd]; now rewrite V]. rewrite (tadd_line b nr items t V). now apply IH.
Qed.
Lemma ltadd_total ovf : forall m s r t, good s r -> (1 <= m)%nat -> (st s = EoF \/ Psi s r + 3 <= m)%nat -> ltadd ovf m s r t <> TFuel.
Proof.
  induction m as [|m IH]; intros s r t G H1 Hm; [lia|]. cbn [LazyModel.ltadd].
  destruct (next ovf s r) as [[o s'] r'] eqn:E. destruct o; try discriminate.
  - destruct (next_good _ _ _ _ _ _ G E ltac:(discriminate)) as (G' & _ & _ & _ & X). specialize (X _ _ eq_refl).
    destruct Hm as [Hm|Hm]; [rewrite next_eof in E by exact Hm; discriminate|].
    destruct (valid_utf8 l); [|discriminate]. apply IH; [exact G'|lia|destruct X; [auto|right; lia]].
  - destruct (next_good _ _ _ _ _ _ G E ltac:(discriminate)) as (_ & X & _). now destruct X.
Qed.
Lemma ltadd_more ovf : forall m k s r t, ltadd ovf m s r t <> TFuel -> ltadd ovf (m + k) s r t = ltadd ovf m s r t.
Proof.
  induction m as [|m IH]; intros k s r t H; [now destruct H|]. rewrite PeanoNat.Nat.add_succ_l. cbn [LazyModel.ltadd] in *.
  destruct (next ovf s r) as [[o s'] r']. destruct o; try reflexivity. destruct (valid_utf8 l); [|reflexivity]. now apply IH.
Qed.
Lemma ltadd_left ovf : forall m s r t ok r' t', good s r -> ltadd ovf m s r t = TDone ok r' t' -> left_of r r'.
Proof.
  induction m as [|m IH]; intros s r t ok r' t' G L; [discriminate|]. cbn [LazyModel.ltadd] in L.
  destruct (next ovf s r) as [[o s1] r1] eqn:E. destruct o; try discriminate;
    destruct (next_good _ _ _ _ _ _ G E ltac:(discriminate)) as (G' & _ & _ & W & _); try (injection L as <- <- <-; exact W).
  destruct (valid_utf8 l); [|injection L as <- <- <-; exact W]. apply IH in L; [eapply left_trans; eauto|exact G'].
Qed.
Lemma ltadd_local ovf : forall m s r1 x t ok r' t', good s (r1 ++ x) -> x <> [] -> ltadd ovf m s (r1 ++ x) t = TDone ok r' t' ->
  (reader_weight x <= reader_weight r')%nat -> exists r1', r' = r1' ++ x /\ ltadd ovf m s r1 t = TDone ok r1' t'.
Proof.
  induction m as [|m IH]; intros s r1 x t ok r' t' G Hx L W; [discriminate|].
  cbn [LazyModel.ltadd] in L |- *. destruct (next ovf s (r1 ++ x)) as [[o s1] r2] eqn:E.
  assert (No : (reader_weight x <= reader_weight r2)%nat /\ good s1 r2).
  { assert (Hp : o <> OPanic) by (intros ->; discriminate). destruct (next_good _ _ _ _ _ _ G E Hp) as (G' & _). split; [|exact G'].
    destruct o; try discriminate; try (injection L as <- <- <-; exact W).
    destruct (valid_utf8 l); [|injection L as <- <- <-; exact W]. apply ltadd_left in L; [|exact G']. apply left_weight in L. lia. }
  destruct No as (W2 & G'). destruct (next_local _ _ _ _ _ _ _ G Hx E W2) as (r1' & -> & ->).
  destruct o; try discriminate; try (injection L as <- <- <-; eauto).
  destruct (valid_utf8 l); [|injection L as <- <- <-; eauto]. now apply IH in L.
Qed.
End Trainer.

(** An analysis reads no further than a training. *)
Section Both.
Context {D : Type}.
Variable above : D -> bool.
Variable tokenize : bytes -> bytes.
Variable search : list bytes -> list D.
Definition trains (ovf : bool) (s : iter) (r : reader) (ok : bool) (rt : reader) : Prop := exists m t t', ltadd tokenize ovf m s r t = TDone ok rt t'.
Lemma read_end_no_fail p e q : read_end above search p <> @RFail D e q.
Proof. unfold read_end. destruct (match targets p with [] => _ | _ => _ end); [destruct (current _)|]; discriminate. Qed.
Lemma lread_trains ovf ok rt : rt <> [] -> forall n s r p, good s r -> trains ovf s r ok rt ->
  match lread above tokenize search ovf n s r p with
  | LOk s' r' _ => trains ovf s' r' ok rt
  | LFail _ _ r' _ => r' = rt
  | _ => True
  end.
Proof.
  intros Hr. induction n as [|n IH]; intros s r p G (m & t & t' & T); [exact I|]. destruct m as [|m]; [discriminate|].
  cbn [ltadd lread] in *. destruct (next ovf s r) as [[o s1] r1] eqn:E. destruct o; try exact I.
  - exfalso. destruct (next_good _ _ _ _ _ _ G E ltac:(discriminate)) as (_ & _ & X & _). destruct (X eq_refl) as [-> _]. injection T as _ <- _. now destruct Hr.
  - destruct (next_good _ _ _ _ _ _ G E ltac:(discriminate)) as (G' & _).
    destruct (valid_utf8 l); [|injection T as _ <- _; reflexivity].
    assert (T1 : trains ovf s1 r1 ok rt) by (do 3 eexists; exact T).
    cbv zeta. destruct (is_marker l); [destruct (read_end above search _) as [|q|e q] eqn:R; cbn; auto; now apply read_end_no_fail in R|].
    destruct (batch_full _ _); [|now apply IH]. destruct (do_search _ _ _) as [q|]; [|exact I]. destruct (anomalies q); [now apply IH|exact T1].
  - injection T as _ <- _. reflexivity.
Qed.
Lemma ldrain_trains ovf ok rt : rt <> [] -> forall n s r p l e rf pf, good s r -> trains ovf s r ok rt ->
  ldrain above tokenize search ovf n s r p = (l, e, rf, pf) -> left_of rf rt.
Proof.
  intros Hr.
  assert (Le : forall s r, good s r -> trains ovf s r ok rt -> left_of r rt).
  { intros s r G (m & t & t' & T). eapply ltadd_left; eauto. }
  induction n as [|n IH]; intros s r p l e rf pf G T E; [injection E as <- <- <- <-; eauto|].
  cbn [ldrain] in E. unfold lnext in E. destruct (anomalies p) as [|a rest].
  - pose proof (lread_trains ovf ok rt Hr (fuel_for s r) s r p G T) as X.
    destruct (lread above tokenize search ovf (fuel_for s r) s r p) as [| |s' r' p'|e' s' r' p'] eqn:R.
    1,2: injection E as <- <- <- <-; eauto.
    + destruct (lread_left above tokenize search ovf (fuel_for s r) s r p s' r' G) as [G' W]; [rewrite R; cbn; auto|].
      destruct (anomalies p'); [injection E as <- <- <- <-; eauto|].
      destruct (ldrain above tokenize search ovf n s' r' _) as [[[l2 e2] r2] p2] eqn:E2. injection E as <- <- <- <-. eapply IH; eauto.
    + injection E as <- <- <- <-. subst r'. apply left_refl.
  - destruct (ldrain above tokenize search ovf n s r _) as [[[l2 e2] r2] p2] eqn:E2. injection E as <- <- <- <-. eapply IH; eauto.
Qed.
End Both.
