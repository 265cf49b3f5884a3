(** No panic for any index, and the effect of a failure in the stream. *)
From Coq Require Import String List NArith Arith Bool Lia Sorting ZifyBool ZifyN ZifyNat.
From Verif Require Import Common CommonFacts ProcModel ProcSpec ProcWalk ProcInv.
Import ListNotations.
Open Scope nat_scope.

(** [sub a b]: [a] is a subsequence of [b]. *)
Inductive sub {A} : list A -> list A -> Prop :=
| sub_nil : sub [] []
| sub_skip x a b : sub a b -> sub a (x :: b)
| sub_take x a b : sub a b -> sub (x :: a) (x :: b).

Lemma sub_snoc {A} (a b : list A) x : sub a b -> sub a (b ++ [x]) /\ sub (a ++ [x]) (b ++ [x]).
Proof.
  induction 1 as [|y a b H IH|y a b H IH]; cbn.
  - split; [apply sub_skip, sub_nil|apply sub_take, sub_nil].
  - destruct IH. split; now constructor.
  - destruct IH. split; now constructor.
Qed.

Section Safe.
Context {D : Type}.
Variable above : D -> bool.
Variable tok : bytes -> bytes.
Variable search : list bytes -> list D.
Notation proc := (@proc D).

Lemma label (B : list bline) : forall tc (ds : list D), sub tc (map snd B) ->
  exists X : list (entry * N), xbuf X = B /\ combine ds tc = xpairs X.
Proof.
  induction B as [|[[b nr] c] B IH]; intros tc ds H; cbn in H.
  - inversion H; subst. exists []. destruct ds; auto.
  - inversion H as [|? ? ? H'|? ? ? H']; subst.
    + destruct (IH _ ds H') as (X & E1 & E2). exists ((mkE b nr None, c) :: X). cbn. rewrite <- E1. split; [reflexivity|assumption].
    + destruct ds as [|d ds].
      * destruct (IH _ [] H') as (X & E1 & E2). exists ((mkE b nr None, c) :: X). cbn. rewrite <- E1.
        split; [reflexivity|]. destruct a; exact E2.
      * destruct (IH _ ds H') as (X & E1 & E2). exists ((mkE b nr (Some d), c) :: X). cbn. rewrite <- E1.
        split; [reflexivity|]. now f_equal.
Qed.

Definition BV (p : proc) : Prop :=
  sub (targets_coord p) (map snd (buffer p)) /\ NoDup (map snd (buffer p)) /\
  Forall (fun x => valid_utf8 (btext x) = true) (buffer p) /\
  Forall (fun x => (snd x <= coord p)%N) (buffer p).

Lemma bv_search p : BV p -> exists p', do_search above search p = Some p' /\ BV p' /\
  src p' = src p /\ coord p' = coord p.
Proof.
  intros (H1 & H2 & H3 & H4).
  destruct (label (buffer p) (targets_coord p) (search (targets p)) H1) as (X & E1 & E2).
  destruct (group_split X) as (X1 & X2 & EX & Hg & Hn).
  eexists. split; [apply (do_search_walk above search p X X1 X2); auto|].
  - unfold xvalid. rewrite <- E1 in H3. unfold xbuf in H3. apply Forall_map in H3. exact H3.
  - rewrite <- E1 in H2. unfold xbuf in H2. rewrite map_map in H2. exact H2.
  - unfold BV. cbn. csplit; try constructor; auto.
Qed.

Lemma bv_read_end p : BV p -> exists p', read_end above search p = ROk p' /\ BV p'.
Proof.
  intros H. unfold read_end.
  assert (K : exists p1, (match targets p with [] => Some p | _ :: _ => do_search above search p end) = Some p1 /\ BV p1).
  { destruct (targets p); [eauto|]. destruct (bv_search p H) as (p' & E & Hp & _). eauto. }
  destruct K as (p1 & -> & H1). destruct (current p1); eexists; split; try reflexivity; exact H1.
Qed.

Lemma bv_read items : forall p, BV p ->
  match read_anomalies above tok search items p with
  | RPanic => False
  | ROk p' => BV p'
  | RFail _ p' => BV p'
  end.
Proof.
  induction items as [|it items IH]; intros p H; cbn [read_anomalies].
  - set (p0 := mkProc _ _ _ _ _ _ _ _ _ _ _). destruct (bv_read_end p0 H) as (p' & -> & H'). exact H'.
  - destruct it as [b nr|e]; [|exact H].
    destruct (valid_utf8 b) eqn:Hv; [|exact H].
    set (p1 := count_line p b items).
    assert (H1 : BV p1).
    { destruct H as (A1 & A2 & A3 & A4). unfold BV, p1. cbn. csplit; auto.
      eapply Forall_impl; [|exact A4]. cbn. intros. lia. }
    destruct (is_marker b); [destruct (bv_read_end p1 H1) as (p' & -> & H'); exact H'|].
    set (p2 := push_line tok p1 b nr).
    assert (H2 : BV p2).
    { destruct H as (A1 & A2 & A3 & A4). unfold p2, push_line.
      assert (B1 : NoDup (map snd (buffer p1 ++ [(b, nr, coord p1)]))).
      { rewrite map_app. cbn. apply NoDup_snoc; [assumption|]. intros Hin. apply in_map_iff in Hin.
        destruct Hin as (x & Ex & Hx). rewrite Forall_forall in A4. specialize (A4 x Hx). lia. }
      assert (B2 : Forall (fun x : bline => valid_utf8 (btext x) = true) (buffer p1 ++ [(b, nr, coord p1)])).
      { apply Forall_app. split; [assumption|]. constructor; [exact Hv|constructor]. }
      assert (B3 : Forall (fun x : bline => (snd x <= coord p1)%N) (buffer p1 ++ [(b, nr, coord p1)])).
      { apply Forall_app. split; [destruct H1; tauto|]. constructor; [cbn; lia|constructor]. }
      destruct (sub_snoc _ _ (coord p1) A1) as [S1 S2].
      destruct (mem_set (tok b) (skip p1)); unfold BV;
        cbn [targets_coord buffer coord]; csplit; auto; rewrite map_app; assumption. }
    destruct (batch_full _ p2); [|apply IH; exact H2].
    destruct (bv_search p2 H2) as (p3 & -> & H3 & _).
    destruct (anomalies p3); [apply IH; exact H3|exact H3].
Qed.

Lemma bv_next p : BV p -> fst (pnext above tok search p) <> PPanic /\ BV (snd (pnext above tok search p)).
Proof.
  intros H. unfold pnext. destruct (anomalies p) as [|a l]; [|split; [discriminate|exact H]].
  pose proof (bv_read (src p) p H) as K.
  destruct (read_anomalies above tok search (src p) p) as [|p'|e p'].
  - contradiction.
  - destruct (anomalies p'); (split; [discriminate|exact K]).
  - split; [discriminate|exact K].
Qed.

(** The state after [n] calls of next, whatever they returned. *)
Fixpoint after_calls (n : nat) (p : proc) : proc :=
  match n with O => p | S n' => snd (pnext above tok search (after_calls n' p)) end.

Lemma never_panics items known n : fst (pnext above tok search (after_calls n (proc_new items known))) <> PPanic.
Proof.
  assert (H : BV (after_calls n (proc_new items known))).
  { induction n as [|n IH]; cbn [after_calls].
    - unfold BV. cbn. csplit; constructor.
    - now apply bv_next. }
  now apply bv_next.
Qed.

(** ** The source only matters through what is read from it. *)
Definition set_src (p : proc) (s : list item) : proc :=
  mkProc s (buffer p) (targets p) (targets_coord p) (left_overs p) (current p)
         (anomalies p) (skip p) (coord p) (line_count p) (byte_count p).

Lemma do_search_src p s : do_search above search (set_src p s) =
  option_map (fun q => set_src q s) (do_search above search p).
Proof.
  unfold do_search. cbn [set_src targets targets_coord buffer left_overs current anomalies src skip coord line_count byte_count].
  destruct (outer _ _ _ _ _) as [st|]; [|reflexivity].
  set (f := match cur st with Some _ => _ | None => _ end).
  destruct f as [[c' f']|]; [|reflexivity]. destruct (reset_left_overs _ _); reflexivity.
Qed.

Lemma read_end_src p s : read_end above search (set_src p s) =
  match read_end above search p with ROk q => ROk (set_src q s) | RPanic => RPanic | RFail e q => RFail e (set_src q s) end.
Proof.
  unfold read_end. cbn [set_src targets]. rewrite do_search_src.
  destruct (targets p); cbn [option_map].
  - cbn [set_src current]. destruct (current p); reflexivity.
  - destruct (do_search above search p) as [q|]; [|reflexivity]. cbn. destruct (current q); reflexivity.
Qed.

(** Reading the same lines followed by something else. *)
Lemma read_same A : forall rest1 rest2 p q p', q = set_src p (src q) ->
  read_anomalies above tok search (ok_items A ++ rest1) p = ROk p' ->
  (forall p0, exists e q0, read_anomalies above tok search rest1 p0 = RFail e q0) ->
  exists A', src p' = ok_items A' ++ rest1 /\
     read_anomalies above tok search (ok_items A ++ rest2) q = ROk (set_src p' (ok_items A' ++ rest2)).
Proof.
  induction A as [|[b nr] A IH]; intros rest1 rest2 p q p' Hq H Hbad.
  - exfalso. destruct (Hbad p) as (e & q0 & E). cbn in H. congruence.
  - cbn [ok_items map app fst snd read_anomalies] in *. fold (ok_items A) in *.
    destruct (valid_utf8 b); [|discriminate].
    set (p1 := count_line p b (ok_items A ++ rest1)) in *.
    set (q1 := count_line q b (ok_items A ++ rest2)) in *.
    assert (E1 : q1 = set_src p1 (ok_items A ++ rest2)) by (unfold q1; rewrite Hq; reflexivity).
    destruct (is_marker b).
    + exists A.
      assert (Hs : forall r r', read_end above search r = ROk r' -> src r' = src r).
      { intros r r'. unfold read_end, do_search. intros E.
        destruct (targets r); [destruct (current r); injection E as <-; reflexivity|].
        destruct (outer _ _ _ _ _) as [st|]; [|discriminate].
        set (f := match cur st with Some _ => _ | None => _ end) in *.
        destruct f as [[c' f']|]; [|discriminate]. destruct (reset_left_overs _ _); [|discriminate].
        cbn [current] in E. destruct c'; injection E as <-; reflexivity. }
      split; [apply (Hs _ _ H)|]. rewrite E1, read_end_src, H. reflexivity.
    + set (p2 := push_line tok p1 b nr) in *. set (q2 := push_line tok q1 b nr) in *.
      assert (E2 : q2 = set_src p2 (ok_items A ++ rest2)).
      { unfold q2, p2. rewrite E1. unfold push_line. cbn [set_src skip].
        destruct (mem_set (tok b) (skip p1)); reflexivity. }
      assert (Ef : batch_full (mem_set (tok b) (skip q1)) q2 = batch_full (mem_set (tok b) (skip p1)) p2).
      { rewrite E2, E1. reflexivity. }
      rewrite Ef. destruct (batch_full (mem_set (tok b) (skip p1)) p2).
      * rewrite E2, do_search_src. destruct (do_search above search p2) as [p3|] eqn:E3; [|discriminate].
        cbn [option_map]. cbn [set_src anomalies]. destruct (anomalies p3) eqn:Ea.
        -- apply (IH rest1 rest2 p3); [reflexivity|exact H|exact Hbad].
        -- injection H as <-. exists A. split; [|reflexivity].
           unfold do_search in E3. destruct (outer _ _ _ _ _) as [st|]; [|discriminate].
           set (f := match cur st with Some _ => _ | None => _ end) in *.
           destruct f as [[c' f']|]; [|discriminate]. destruct (reset_left_overs _ _); [|discriminate].
           injection E3 as <-. cbn [src]. unfold p2, push_line. destruct (mem_set (tok b) (skip p1)); reflexivity.
      * apply (IH rest1 rest2 p2); [rewrite E2; reflexivity|exact H|exact Hbad].
Qed.

(** More calls than needed change nothing. *)
Lemma pdrain_more n : forall p m cs stop p', pdrain above tok search n p = (cs, stop, p') ->
  stop <> PSFuel -> n <= m -> pdrain above tok search m p = (cs, stop, p').
Proof.
  induction n as [|n IH]; intros p m cs stop p' H Hs Hm.
  - injection H as <- <- <-. congruence.
  - destruct m as [|m]; [lia|]. cbn [pdrain] in *.
    destruct (pnext above tok search p) as [[|c|e|] q]; try exact H.
    destruct (pdrain above tok search n q) as [[l e] pf] eqn:E. injection H as <- <- <-.
    rewrite (IH _ m _ _ _ E Hs) by lia. reflexivity.
Qed.

Lemma drain_prefix rest1 rest2 :
  (forall p0, exists e q0, read_anomalies above tok search rest1 p0 = RFail e q0) ->
  forall n A p q cs1 p1 cs2 stop2 p2 e,
  src p = ok_items A ++ rest1 -> q = set_src p (ok_items A ++ rest2) ->
  pdrain above tok search n p = (cs1, PSErr e, p1) ->
  pdrain above tok search n q = (cs2, stop2, p2) ->
  exists tl, cs2 = cs1 ++ tl.
Proof.
  intros Hbad. induction n as [|n IH]; intros A p q cs1 p1 cs2 stop2 p2 e Hp Hq H1 H2; [discriminate|].
  cbn [pdrain] in *. unfold pnext in *.
  assert (Ea : anomalies q = anomalies p) by (rewrite Hq; reflexivity). rewrite Ea in H2.
  destruct (anomalies p) as [|a l] eqn:Eap.
  - rewrite Hp in H1. rewrite Hq in H2. cbn [set_src src] in H2. rewrite <- Hq in H2.
    destruct (read_anomalies above tok search (ok_items A ++ rest1) p) as [|p'|e' p'] eqn:Er; [discriminate| |].
    + destruct (read_same A rest1 rest2 p q p') as (A' & E1 & E2); [rewrite Hq; reflexivity|exact Er|exact Hbad|].
      rewrite E2 in H2. cbn [set_src anomalies] in H2. destruct (anomalies p') as [|a l] eqn:Eap'; [discriminate|].
      destruct (pdrain above tok search n (set_anomalies p' l)) as [[l1 s1] f1] eqn:D1.
      match type of H2 with context [pdrain _ _ _ n ?q'] =>
        destruct (pdrain above tok search n q') as [[l2 s2] f2] eqn:D2 end.
      injection H1 as <- -> <-. injection H2 as <- <- <-.
      destruct (IH A' (set_anomalies p' l) _ l1 f1 l2 s2 f2 e E1 eq_refl D1) as (tl & ->); [exact D2|].
      exists tl. reflexivity.
    + injection H1 as <- _ _. exists cs2. reflexivity.
  - destruct (pdrain above tok search n (set_anomalies p l)) as [[l1 s1] f1] eqn:D1.
    match type of H2 with context [pdrain _ _ _ n ?q'] =>
      destruct (pdrain above tok search n q') as [[l2 s2] f2] eqn:D2 end.
    injection H1 as <- -> <-. injection H2 as <- <- <-.
    destruct (IH A (set_anomalies p l) (set_anomalies q l) l1 f1 l2 s2 f2 e Hp) as (tl & ->);
      [rewrite Hq; reflexivity|exact D1|exact D2|].
    exists tl. reflexivity.
Qed.
End Safe.
