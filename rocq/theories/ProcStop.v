(** Where reading stops: proofs. *)
From Coq Require Import String List NArith Arith Bool Lia ZifyBool ZifyN ZifyNat.
From Verif Require Import Common ProcModel ProcSpec ProcStopSpec ProcWalk ProcInv ProcMain ProcResult.
Import ListNotations.
Open Scope nat_scope.
Ltac csplit := repeat match goal with |- _ /\ _ => split end.

Section Stop.
Context {D : Type}.
Variable above : D -> bool.
Variable tok : bytes -> bytes.
Variable search : list bytes -> list D.
Variable dist : bytes -> D.
Hypothesis Hsearch : pointwise search dist.
Notation entry := (@entry D).
Notation proc := (@proc D).
Notation actx := (@actx D).
Notation rep := (rep above).
Notation BufInv := (@BufInv D tok dist).

(** The number of lines behind the open anomaly. *)
Definition behind (c : option actx) : option N := option_map (fun a => N.of_nat (length (after a))) c.
Definition sstep (o : option N) (e : entry) : option N := if rep e then Some 0%N else option_map N.succ o.
Definition cap (o : option N) : option N := match o with Some n => if (n <? 3)%N then Some n else None | None => None end.
Definition capped (o : option N) : Prop := cap o = o.

Lemma cap_capped o : capped (cap o).
Proof. unfold capped. destruct o as [n|]; [|reflexivity]. cbn. destruct (n <? 3)%N eqn:E; cbn; now rewrite ?E. Qed.
Lemma cap_step o e : cap (sstep (cap o) e) = cap (sstep o e).
Proof.
  unfold sstep. destruct (rep e); [reflexivity|]. destruct o as [n|]; [|reflexivity]. cbn [cap].
  destruct (N.ltb_spec n 3); [reflexivity|]. cbn [option_map cap]. destruct (N.ltb_spec (N.succ n) 3); [lia|reflexivity].
Qed.
Lemma cap_fold l : forall o, cap (fold_left sstep l (cap o)) = cap (fold_left sstep l o).
Proof.
  induction l as [|e l IH]; intros o; cbn [fold_left].
  - destruct o as [n|]; [|reflexivity]. cbn. destruct (n <? 3)%N eqn:E; cbn; now rewrite ?E.
  - rewrite <- (IH (sstep (cap o) e)), <- (IH (sstep o e)), cap_step. reflexivity.
Qed.
Lemma push_behind (a : actx) b f : behind (fst (push_after a b f)) = cap (option_map N.succ (behind (Some a))).
Proof.
  rewrite push_after_cases. cbn [behind option_map cap]. destruct (Nat.leb_spec 3 (S (length (after a)))) as [H|H]; cbn [fst].
  - destruct (N.ltb_spec (N.succ (N.of_nat (length (after a)))) 3); [lia|reflexivity].
  - destruct (N.ltb_spec (N.succ (N.of_nat (length (after a)))) 3); [|lia]. cbn. rewrite app_length. cbn [length]. f_equal. lia.
Qed.
Lemma plain_behind (s : @sst D) b : behind (cur (plain_step s b)) = cap (option_map N.succ (behind (cur s))).
Proof.
  unfold plain_step. destruct (cur s) as [a|] eqn:E; [|reflexivity].
  pose proof (push_behind a b (found s)) as H. destruct (push_after a b (found s)) as [a' f']. exact H.
Qed.
Lemma wstep_behind texts lo (s : @sst D) e : behind (cur (wstep above texts lo s e)) = cap (sstep (behind (cur s)) e).
Proof.
  unfold wstep, sstep, ProcWalk.rep. destruct (etgt e) as [d|]; [destruct (above d)|]; try apply plain_behind. reflexivity.
Qed.
Lemma fold_behind texts lo l : forall s : @sst D, capped (behind (cur s)) ->
  behind (cur (fold_left (wstep above texts lo) l s)) = cap (fold_left sstep l (behind (cur s))).
Proof.
  induction l as [|e l IH]; intros s Hs; cbn [fold_left]; [now rewrite Hs|].
  rewrite IH.
  - rewrite wstep_behind. apply cap_fold.
  - rewrite wstep_behind. unfold capped. destruct (sstep (behind (cur s)) e) as [n|]; [|reflexivity]. cbn.
    destruct (n <? 3)%N eqn:E; cbn; now rewrite ?E.
Qed.
Lemma fold_none l : Forall (fun e : entry => rep e = false) l -> fold_left sstep l None = None.
Proof. induction 1 as [|e l He _ IH]; [reflexivity|]. cbn [fold_left]. unfold sstep at 2. now rewrite He. Qed.
Lemma fin_behind l : Forall (fun e : entry => rep e = false) l -> forall (a : actx) f, capped (behind (Some a)) ->
  behind (fst (fin a (map etext l) f)) = cap (fold_left sstep l (behind (Some a))).
Proof.
  induction 1 as [|e l He Hl IH]; intros a f Ha; cbn [map fin fold_left]; [now rewrite Ha|].
  pose proof (push_behind a (etext e) f) as P. destruct (push_after a (etext e) f) as [[a'|] f']; cbn [fst] in P.
  - assert (Hc : capped (behind (Some a'))).
    { rewrite P. unfold capped. destruct (option_map N.succ (behind (Some a))) as [n|]; [|reflexivity]. cbn. destruct (n <? 3)%N eqn:E; cbn; now rewrite ?E. }
    rewrite IH by exact Hc. rewrite P. unfold sstep at 3. rewrite He. apply cap_fold.
  - unfold sstep at 2. rewrite He, <- cap_fold, <- P. cbn [fst behind option_map]. now rewrite fold_none.
Qed.

(** The number of anomalies. *)
Definition total (c : option actx) (f : list actx) : nat := length f + match c with Some _ => 1 | None => 0 end.
Definition reps (l : list entry) : nat := length (filter rep l).
Lemma push_total (a : actx) b f : total (fst (push_after a b f)) (snd (push_after a b f)) = S (length f).
Proof. rewrite push_after_cases. destruct (Nat.leb 3 _); cbn; rewrite ?app_length; cbn; lia. Qed.
Lemma plain_total (s : @sst D) b : total (cur (plain_step s b)) (found (plain_step s b)) = total (cur s) (found s).
Proof.
  unfold plain_step. destruct (cur s) as [a|] eqn:E; [|reflexivity].
  pose proof (push_total a b (found s)) as H. destruct (push_after a b (found s)) as [a' f']. cbn [fst snd cur found] in *.
  unfold total in *. lia.
Qed.
Lemma wstep_total texts lo (s : @sst D) e :
  total (cur (wstep above texts lo s e)) (found (wstep above texts lo s e)) = total (cur s) (found s) + (if rep e then 1 else 0).
Proof.
  unfold wstep, ProcWalk.rep. destruct (etgt e) as [d|]; [destruct (above d)|]; try (rewrite plain_total; lia).
  cbn [cur found]. unfold total. destruct (cur s); rewrite ?app_length; cbn [length]; lia.
Qed.
Lemma fold_total texts lo l : forall s : @sst D,
  total (cur (fold_left (wstep above texts lo) l s)) (found (fold_left (wstep above texts lo) l s)) = total (cur s) (found s) + reps l.
Proof.
  induction l as [|e l IH]; intros s; cbn [fold_left]; [unfold reps; cbn; lia|].
  rewrite IH, wstep_total. unfold reps. cbn [filter]. destruct (rep e); cbn [length]; lia.
Qed.
Lemma fin_total texts : forall (a : actx) f, total (fst (fin a texts f)) (snd (fin a texts f)) = S (length f).
Proof.
  induction texts as [|t texts IH]; intros a f; cbn [fin]; [cbn; lia|].
  pose proof (push_total a t f) as P. destruct (push_after a t f) as [[a'|] f']; cbn [fst snd] in P.
  - rewrite IH. unfold total in P. lia.
  - exact P.
Qed.

Lemma search_effect (p : proc) X : BufInv p X -> capped (behind (current p)) ->
  exists p', do_search above search p = Some p' /\ buffer p' = [] /\ targets p' = [] /\ targets_coord p' = [] /\
    skip p' = skip p /\ src p' = src p /\ coord p' = coord p /\
    behind (current p') = cap (fold_left sstep (map fst X) (behind (current p))) /\
    total (current p') (anomalies p') = total (current p) (anomalies p) + reps (map fst X).
Proof.
  intros HB Hc. destruct (group_split X) as (X1 & X2 & EX & Hg & Hn).
  pose proof (xpairs_search tok search dist Hsearch X p HB) as Hp. destruct HB as (B1 & B2 & B3 & B4 & B5 & B6 & B7).
  pose proof (do_search_walk above search p X X1 X2 B1 Hp EX Hg Hn B5 B6) as HS. cbn zeta in HS.
  eexists. split; [exact HS|]. cbn [buffer targets targets_coord skip src coord current anomalies]. csplit; try reflexivity.
  - set (s := fold_left _ _ _). assert (Hs : behind (cur s) = cap (fold_left sstep (map fst X1) (behind (current p)))) by (apply (fold_behind _ _ _ (mkSst 0 0 (current p) (anomalies p))); exact Hc).
    assert (Hr : Forall (fun e : entry => rep e = false) (map fst X2)).
    { apply Forall_map. eapply Forall_impl; [|exact Hn]. intros x Hx. unfold ProcWalk.rep. now rewrite Hx. }
    rewrite EX, map_app, fold_left_app, <- cap_fold, <- Hs. unfold fin_opt. destruct (cur s) as [a|].
    + unfold xtexts. rewrite <- map_map. apply fin_behind; [exact Hr|]. rewrite Hs. apply cap_capped.
    + cbn [fst behind option_map]. now rewrite fold_none.
  - set (s := fold_left _ _ _). pose proof (fold_total (xtexts X) (left_overs p) (map fst X1) (mkSst 0 0 (current p) (anomalies p))) as T.
    fold s in T. cbn [cur found] in T.
    assert (Er : reps (map fst X) = reps (map fst X1)).
    { rewrite EX, map_app. unfold reps. rewrite filter_app, app_length.
      assert (E0 : filter rep (map fst X2) = []) ; [|rewrite E0; cbn; lia].
      clear - Hn. induction Hn as [|x X2 Hx _ IH]; [reflexivity|]. cbn [map filter]. unfold ProcWalk.rep at 1. now rewrite Hx. }
    rewrite Er, <- T. unfold fin_opt. destruct (cur s) as [a|]; [|reflexivity].
    rewrite fin_total. unfold total. lia.
Qed.

#[local] Arguments mem_set : simpl never.
Lemma push_buf (p : proc) X b nr items : BufInv p X -> valid_utf8 b = true ->
  let p2 := push_line tok (count_line p b items) b nr in
  let kl := mem_set (tok b) (skip p) in
  let e := if kl then mkE b nr None else mkE b nr (Some (dist (tok b))) in
  BufInv p2 (X ++ [(e, coord p2)]) /\ src p2 = items /\ current p2 = current p /\ anomalies p2 = anomalies p /\
  skip p2 = (if kl then skip p else tok b :: skip p) /\ length (targets p2) = length (targets p) + (if kl then 0 else 1).
Proof.
  intros (B1 & B2 & B3 & B4 & B5 & B6 & B7) Hv p2 kl e.
  assert (Hp2 : buffer p2 = buffer p ++ [((b, nr), (coord p + 1)%N)] /\ coord p2 = (coord p + 1)%N /\ skip p2 = (if kl then skip p else tok b :: skip p) /\
     src p2 = items /\ current p2 = current p /\ anomalies p2 = anomalies p /\
     targets p2 = targets p ++ (if kl then [] else [tok b]) /\
     targets_coord p2 = targets_coord p ++ (if kl then [] else [(coord p + 1)%N])).
  { unfold p2, push_line, kl. cbn. destruct (mem_set (tok b) (skip p)); cbn; rewrite ?app_nil_r; auto 10. }
  destruct Hp2 as (P1 & P2 & P3 & P4 & P5 & P6 & P7 & P8).
  assert (Eb : etext e = b /\ enr e = nr) by (unfold e; destruct kl; auto). destruct Eb as [Eb En].
  csplit; auto.
  - unfold ProcMain.BufInv. rewrite P1, P2, P7, P8, B1, B2, B3, filter_app. cbn [filter].
    assert (Ht : is_tgt (e, (coord p + 1)%N) = negb kl) by (unfold is_tgt, e; destruct kl; reflexivity).
    rewrite Ht. csplit.
    + rewrite xbuf_app. cbn. now rewrite Eb, En.
    + rewrite map_app. destruct kl; cbn; rewrite ?Eb; reflexivity.
    + rewrite map_app. destruct kl; cbn; reflexivity.
    + apply Forall_app. split; [assumption|]. constructor; [|constructor]. unfold dist_ok, e. destruct kl; cbn; auto.
    + unfold xvalid. apply Forall_app. split; [assumption|]. constructor; [|constructor]. cbn. now rewrite Eb.
    + rewrite map_app. cbn. apply NoDup_snoc; [assumption|]. intros Hin. apply in_map_iff in Hin.
      destruct Hin as (x & Ex & Hx). rewrite Forall_forall in B7. specialize (B7 x Hx). lia.
    + apply Forall_app. split; [|constructor; [cbn; lia|constructor]].
      eapply Forall_impl; [|exact B7]. cbn. intros. lia.
  - rewrite P7, app_length. destruct kl; reflexivity.
Qed.

(** A processor at a pace. *)
Definition At (p : proc) (X : list (entry * N)) (s : pace) : Prop :=
  BufInv p X /\ seen s = skip p /\ size s = N.of_nat (length X) /\ fresh s = N.of_nat (length (targets p)) /\
  since s = fold_left sstep (map fst X) (behind (current p)) /\ capped (behind (current p)).

Lemma at_nil (p : proc) o : buffer p = [] -> targets p = [] -> targets_coord p = [] -> behind (current p) = o -> capped o ->
  At p [] (mkPace (skip p) 0 0 o).
Proof. intros H1 H2 H3 H4 H5. unfold At. cbn. rewrite H2. csplit; auto; [now apply bufinv_nil|now rewrite H4]. Qed.

Lemma reps_none l : reps l = 0 <-> Forall (fun e => rep e = false) l.
Proof.
  unfold reps. induction l as [|e l IH]; [cbn; split; [constructor|reflexivity]|]. cbn [filter]. destruct (rep e) eqn:E; cbn [length].
  - split; [discriminate|]. intros H. inversion H. congruence.
  - rewrite IH. split; [now constructor|]. intros H. now inversion H.
Qed.
Lemma fold_some l : forall n, fold_left sstep l (Some n) <> None.
Proof. induction l as [|e l IH]; intros n; [discriminate|]. cbn [fold_left]. unfold sstep at 2. destruct (rep e); apply IH. Qed.
Lemma since_none l o : fold_left sstep l o = None <-> o = None /\ reps l = 0.
Proof.
  split.
  - intros H. destruct o as [n|]; [now apply fold_some in H|]. split; [reflexivity|]. apply reps_none. revert H.
    induction l as [|e l IH]; [constructor|]. cbn [fold_left]. unfold sstep at 2. destruct (rep e) eqn:E.
    + intros H. now apply fold_some in H.
    + intros H. constructor; [exact E|now apply IH].
  - intros [-> H]. apply fold_none. now apply reps_none.
Qed.

(** The end of a call. *)
Lemma end_effect (p : proc) X s : At p X s -> anomalies p = [] ->
  exists p' X', read_end above search p = ROk p' /\ src p' = src p /\ At p' X' (pace_marker s) /\ (anomalies p' = [] <-> since s = None).
Proof.
  intros (HB & A1 & A2 & A3 & A4 & A5) Ha. unfold read_end. destruct (targets p) as [|t ts] eqn:Et.
  - assert (Hx : Forall (fun e : entry => rep e = false) (map fst X)).
    { apply Forall_map. destruct HB as (_ & B2 & _). rewrite Et in B2. apply Forall_forall. intros x Hx. unfold ProcWalk.rep.
      destruct (etgt (fst x)) eqn:E; [|reflexivity].
      assert (Hin : In x (filter is_tgt X)) by (apply filter_In; unfold is_tgt; rewrite E; auto).
      destruct (filter is_tgt X); [contradiction|discriminate]. }
    assert (Hs : since s = None <-> behind (current p) = None).
    { rewrite A4, since_none. apply reps_none in Hx. tauto. }
    destruct (current p) as [a|] eqn:Ec.
    + eexists _, X. split; [reflexivity|]. cbn [src]. csplit; auto.
      * unfold At, pace_marker. cbn [skip targets current seen size fresh since]. rewrite A3, Et. cbn [length]. csplit; auto.
        -- unfold ProcMain.BufInv in HB. rewrite Et in HB. exact HB.
        -- cbn [behind option_map]. now rewrite fold_none.
        -- reflexivity.
      * cbn [anomalies]. rewrite Hs. cbn. split; [destruct (anomalies p); discriminate|discriminate].
    + exists p, X. csplit; auto.
      * unfold At, pace_marker. cbn [seen size fresh since]. rewrite A3, Et. cbn [length]. csplit; auto.
        rewrite Ec. cbn [behind option_map]. now rewrite fold_none.
        now rewrite Ec.
      * rewrite Hs. split; auto.
  - destruct (search_effect p X HB A5) as (p1 & E1 & S1 & S2 & S3 & S4 & S5 & S6 & S7 & S8). rewrite E1.
    assert (Hz : since s = None <-> total (current p1) (anomalies p1) = 0).
    { rewrite S8, A4, since_none, Ha. unfold total, behind. cbn [length]. destruct (current p); cbn [option_map]; split.
      - intros [H _]. discriminate.
      - lia.
      - intros [_ H]. lia.
      - intros H. split; [reflexivity|lia]. }
    assert (Hf : (fresh s =? 0)%N = false) by (rewrite A3; cbn [length]; lia).
    destruct (current p1) as [a|] eqn:Ec.
    + eexists _, []. split; [reflexivity|]. cbn [src anomalies]. csplit; auto.
      * unfold At, pace_marker. rewrite Hf. cbn [skip targets current seen size fresh since length map fold_left behind option_map]. rewrite S2. csplit; auto; try congruence; [now apply bufinv_nil|reflexivity].
      * rewrite Hz. unfold total. split; [destruct (anomalies p1); discriminate|lia].
    + exists p1, []. csplit; auto.
      * unfold At, pace_marker. rewrite Hf, Ec. cbn [seen size fresh since length map fold_left behind option_map]. rewrite S2. csplit; auto; try congruence; [now apply bufinv_nil|reflexivity].
      * rewrite Hz. unfold total. destruct (anomalies p1); cbn; split; try lia; try discriminate; auto.
Qed.

(** One call. *)
Lemma call_effect : forall lines p X s, all_valid lines -> At p X s -> anomalies p = [] ->
  exists p' n, read_anomalies above tok search (ok_items lines) p = ROk p' /\ src p' = ok_items (skipn n lines) /\
    (anomalies p' = [] -> n = lines_read above tok dist s lines) /\
    (anomalies p' <> [] -> exists X' s', At p' X' s' /\ lines_read above tok dist s lines = n + lines_read above tok dist s' (skipn n lines)).
Proof.
  induction lines as [|[b nr] lines IH]; intros p X s Hv HA Ha; cbn [ok_items map read_anomalies fst snd].
  - set (p0 := mkProc _ _ _ _ _ _ _ _ _ _ _). assert (HA0 : At p0 X s) by exact HA.
    destruct (end_effect p0 X s HA0 Ha) as (p' & X' & E & S & A' & F). exists p', 0. cbn. csplit; auto. intros _. exists X', (pace_marker s). auto.
  - inversion Hv as [|? ? Hb Hv']; subst. cbn [fst] in Hb. rewrite Hb. cbn [lines_read]. destruct (is_marker b) eqn:Em.
    + assert (HA1 : At (count_line p b (map (fun x => ILine (fst x) (snd x)) lines)) X s).
      { destruct HA as ((B1 & B2 & B3 & B4 & B5 & B6 & B7) & HA). split; [|exact HA]. unfold ProcMain.BufInv, count_line. cbn. csplit; auto.
        eapply Forall_impl; [|exact B7]. cbn. intros. lia. }
      destruct (end_effect _ X s HA1 Ha) as (p' & X' & E & S & A' & F). exists p', 1. cbn [skipn]. csplit; auto.
      * intros H. apply F in H. now rewrite H.
      * intros H. exists X', (pace_marker s). split; [exact A'|]. destruct (since s); [reflexivity|]. destruct H. now apply F.
    + destruct HA as (HB & A1 & A2 & A3 & A4 & A5).
      destruct (push_buf p X b nr (map (fun x => ILine (fst x) (snd x)) lines) HB Hb) as (HB2 & P1 & P2 & P3 & P4 & P5).
      set (p1 := count_line p b _) in *. set (p2 := push_line tok p1 b nr) in *. change (skip p1) with (skip p).
      set (kl := mem_set (tok b) (skip p)) in *. set (e := if kl then _ else _) in *.
      set (s2 := mkPace (if negb kl then tok b :: seen s else seen s) (size s + 1) (if negb kl then fresh s + 1 else fresh s)
                   (if negb kl && above (dist (tok b)) then Some 0%N else option_map N.succ (since s))).
      assert (Hre : rep e = negb kl && above (dist (tok b))) by (unfold e, ProcWalk.rep; destruct kl; reflexivity).
      assert (HA2 : At p2 (X ++ [(e, coord p2)]) s2).
      { unfold At, s2. cbn [seen size fresh since]. rewrite P2, P4, P5, A1, A2, A3, A4, app_length, map_app, fold_left_app. cbn [map fold_left fst length].
        csplit; auto.
        - destruct kl; reflexivity.
        - lia.
        - destruct kl; cbn [negb]; lia.
        - unfold sstep at 2. now rewrite Hre. }
      assert (Hful : batch_full kl p2 = batch_ends (negb kl) s2).
      { destruct HA2 as (HB' & _ & Z1 & Z2 & _). unfold batch_full, batch_ends, CHUNK_SIZE. destruct HB' as (B1 & _). rewrite B1, xbuf_length. rewrite Z1, Z2.
        destruct kl; reflexivity. }
      assert (Hpl : pace_line above tok dist s b = if batch_ends (negb kl) s2 then end_batch s2 else s2).
      { unfold pace_line, s2, kl. rewrite A1. reflexivity. }
      rewrite Hful, Hpl. destruct (batch_ends (negb kl) s2).
      * destruct HA2 as (_ & Z1 & Z2 & Z3 & Z4 & Z5). destruct (search_effect p2 _ HB2 Z5) as (p3 & E3 & S1 & S2 & S3 & S4 & S5 & S6 & S7 & S8).
        rewrite E3.
        assert (HA3 : At p3 [] (end_batch s2)).
        { unfold end_batch. rewrite Z1, <- S4. apply at_nil; auto.
          - rewrite S7, Z4. reflexivity.
          - apply (cap_capped (since s2)). }
        destruct (anomalies p3) as [|a0 an] eqn:Ea3.
        -- destruct (IH p3 [] (end_batch s2) Hv' HA3 Ea3) as (p' & n & E & Hsr & F1 & F2). exists p', (S n). cbn [skipn]. csplit; auto.
           intros H. destruct (F2 H) as (X' & s' & G1 & G2). exists X', s'. split; [exact G1|]. rewrite G2. reflexivity.
        -- exists p3, 1. cbn [skipn]. csplit.
           ++ reflexivity.
           ++ rewrite S5, P1. reflexivity.
           ++ congruence.
           ++ intros _. exists [], (end_batch s2). auto.
      * destruct (IH p2 _ s2 Hv' HA2 ltac:(congruence)) as (p' & n & E & Hsr & F1 & F2). exists p', (S n). cbn [skipn]. csplit; auto.
        intros H. destruct (F2 H) as (X' & s' & G1 & G2). exists X', s'. split; [exact G1|]. rewrite G2. reflexivity.
Qed.

Lemma skipn_add {A} n m (l : list A) : skipn m (skipn n l) = skipn (n + m) l.
Proof. rewrite skipn_skipn'. f_equal. lia. Qed.
Lemma valid_skipn n lines : all_valid lines -> all_valid (skipn n lines).
Proof. intros H. unfold all_valid in *. rewrite <- (firstn_skipn n lines) in H. apply Forall_app in H. tauto. Qed.

(** All calls. *)
Lemma drain_effect : forall n lines p X s cs p', all_valid lines -> At p X s -> src p = ok_items lines ->
  pdrain above tok search n p = (cs, PSEnd, p') -> src p' = ok_items (skipn (lines_read above tok dist s lines) lines).
Proof.
  induction n as [|n IH]; intros lines p X s cs p' Hv HA Hs Hd; cbn [pdrain] in Hd; [discriminate|].
  unfold pnext in Hd. destruct (anomalies p) as [|a rest] eqn:Ea.
  - rewrite Hs in Hd. destruct (call_effect lines p X s Hv HA Ea) as (p1 & k & E & S & F1 & F2). rewrite E in Hd.
    destruct (anomalies p1) as [|a rest] eqn:Ea1.
    + injection Hd as _ <-. rewrite S. now rewrite F1.
    + destruct (F2 ltac:(discriminate)) as (X' & s' & G1 & G2).
      destruct (pdrain above tok search n (set_anomalies p1 rest)) as [[l st] pf] eqn:Ed. injection Hd as _ -> ->.
      rewrite G2, <- skipn_add. apply (IH _ (set_anomalies p1 rest) X' s' l p'); [now apply valid_skipn|exact G1|exact S|exact Ed].
  - destruct (pdrain above tok search n (set_anomalies p rest)) as [[l st] pf] eqn:Ed. injection Hd as _ -> ->.
    apply (IH _ (set_anomalies p rest) X s l p'); [exact Hv|exact HA|exact Hs|exact Ed].
Qed.
Lemma lines_read_le lines : forall s, lines_read above tok dist s lines <= length lines.
Proof.
  induction lines as [|[b nr] lines IH]; intros s; cbn [lines_read length]; [lia|].
  destruct (is_marker b); [destruct (since s); [|lia]; specialize (IH (pace_marker s))|specialize (IH (pace_line above tok dist s b))]; lia.
Qed.
Lemma process_stop known lines cs p' : all_valid lines ->
  process_all above tok search (ok_items lines) known = (cs, PSEnd, p') ->
  src p' = ok_items (skipn (lines_read above tok dist (pace_new known) lines) lines).
Proof.
  intros Hv H. unfold process_all in H. eapply (drain_effect _ lines (proc_new (ok_items lines) known) [] (pace_new known) cs p'); [exact Hv| |reflexivity|exact H].
  apply (at_nil (proc_new (ok_items lines) known)); reflexivity.
Qed.
End Stop.
