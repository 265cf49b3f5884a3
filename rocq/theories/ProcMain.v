(** The read loop and the consumer: invariants over whole streams. *)
From Coq Require Import String List NArith Arith Bool Lia Sorting ZifyBool ZifyN ZifyNat.
From Verif Require Import Common ProcModel ProcSpec ProcWalk ProcInv.
Import ListNotations.
Open Scope nat_scope.

Lemma filter_length_le' {A} (f : A -> bool) l : length (filter f l) <= length l.
Proof. induction l; cbn; [lia|]. destruct (f a); cbn; lia. Qed.

Lemma wm_length R : length (without_markers R) <= length R.
Proof. apply filter_length_le'. Qed.

Section Main.
Context {D : Type}.
Variable above : D -> bool.
Variable tok : bytes -> bytes.
Variable search : list bytes -> list D.
Variable dist : bytes -> D.
Variable known : list bytes.
Hypothesis Hsearch : pointwise search dist.
Variables mx ov : bool.
Notation entry := (@entry D).
Notation proc := (@proc D).
Notation actx := (@actx D).

Fixpoint annot (seen : list bytes) (l : list (bytes * N)) : list entry :=
  match l with
  | [] => []
  | (b, nr) :: l' =>
    if mem_set (tok b) seen then mkE b nr None :: annot seen l'
    else mkE b nr (Some (dist (tok b))) :: annot (tok b :: seen) l'
  end.
Fixpoint seen_after (seen : list bytes) (l : list (bytes * N)) : list bytes :=
  match l with
  | [] => seen
  | (b, _) :: l' => if mem_set (tok b) seen then seen_after seen l' else seen_after (tok b :: seen) l'
  end.

Lemma annot_app l1 : forall seen l2,
  annot seen (l1 ++ l2) = annot seen l1 ++ annot (seen_after seen l1) l2.
Proof.
  induction l1 as [|[b nr] l1 IH]; intros seen l2; cbn; [reflexivity|].
  destruct (mem_set (tok b) seen); cbn; now rewrite IH.
Qed.
Lemma seen_after_app l1 : forall seen l2,
  seen_after seen (l1 ++ l2) = seen_after (seen_after seen l1) l2.
Proof.
  induction l1 as [|[b nr] l1 IH]; intros seen l2; cbn; [reflexivity|].
  destruct (mem_set (tok b) seen); apply IH.
Qed.
Lemma annot_length l : forall seen, length (annot seen l) = length l.
Proof.
  induction l as [|[b nr] l IH]; intros seen; cbn; [reflexivity|].
  destruct (mem_set (tok b) seen); cbn; now rewrite IH.
Qed.

Definition is_tgt (x : entry * N) : bool := match etgt (fst x) with Some _ => true | None => false end.
Definition dist_ok (x : entry * N) : Prop :=
  match etgt (fst x) with Some d => d = dist (tok (etext (fst x))) | None => True end.

(** The buffer part of the invariant. *)
Definition BufInv (p : proc) (X : list (entry * N)) : Prop :=
  buffer p = xbuf X /\ targets p = map (fun x => tok (etext (fst x))) (filter is_tgt X) /\
  targets_coord p = map snd (filter is_tgt X) /\ Forall dist_ok X /\
  xvalid X /\ NoDup (map snd X) /\ Forall (fun x => (snd x <= coord p)%N) X.

Definition PInv (items : list item) (R : list (bytes * N)) (p : proc)
    (P : list entry) (X : list (entry * N)) (Y : list actx) (h hall : hist) : Prop :=
  P ++ map fst X = annot known (without_markers R) /\
  skip p = seen_after known (without_markers R) /\
  line_count p = N.of_nat (length R) /\ byte_count p = total_bytes R /\
  BufInv p X /\
  Core above mx ov P (current p) (anomalies p) Y h hall /\ lo_ok above P (left_overs p) /\
  (Bound mx ov P (left_overs p) (current p) hall \/
   items = [] /\ targets p = [] /\ current p = None /\ (mx = true -> Last P hall)).

Definition Req (items : list item) (R : list (bytes * N)) : Prop :=
  (mx = true \/ ov = true -> Forall (fun x => match x with ILine b _ => is_marker b = false | IErr _ => True end) items) /\
  (ov = true -> length R + length items <= N.to_nat 5120).

Lemma xpairs_search X p : BufInv p X -> combine (search (targets p)) (targets_coord p) = xpairs X.
Proof.
  intros (_ & -> & -> & Hd & _). rewrite Hsearch, map_map.
  induction Hd as [|x X Hx _ IH]; [reflexivity|]. unfold xpairs in *. cbn [filter flat_map].
  unfold dist_ok in Hx. destruct (is_tgt x) eqn:E; unfold is_tgt in E; destruct (etgt (fst x)) as [d|]; try discriminate.
  - cbn [map combine app]. rewrite IH, Hx. reflexivity.
  - exact IH.
Qed.

Lemma xtexts_map X : xtexts X = map etext (map fst (X : list (entry * N))).
Proof. unfold xtexts. now rewrite map_map. Qed.

(** One batch search. *)
Lemma do_search_spec items R p P X Y h hall :
  PInv items R p P X Y h hall -> Bound mx ov P (left_overs p) (current p) hall ->
  exists p' h' hall', do_search above search p = Some p' /\
    src p' = src p /\ buffer p' = [] /\ targets p' = [] /\ targets_coord p' = [] /\
    skip p' = skip p /\ coord p' = coord p /\ line_count p' = line_count p /\ byte_count p' = byte_count p /\
    Core above mx ov (P ++ map fst X) (current p') (anomalies p') Y h' hall' /\
    lo_ok above (P ++ map fst X) (left_overs p') /\
    (mx = true -> current p' = None -> match hall' with [] => True | (_, c) :: _ => length (after c) = 3 end) /\
    (3 <= length X -> (ov = true -> exists X0 e c d, X = X0 ++ [(e, c)] /\ etgt e = Some d) ->
     Bound mx ov (P ++ map fst X) (left_overs p') (current p') hall').
Proof.
  intros (H1 & H2 & H3 & H4 & HB & HC & HL & _) HBd.
  destruct (group_split X) as (X1 & X2 & EX & Hg & Hn).
  pose proof (xpairs_search X p HB) as Hp. destruct HB as (B1 & B2 & B3 & B4 & B5 & B6 & B7).
  pose proof (do_search_walk above search p X X1 X2 B1 Hp EX Hg Hn B5 B6) as HS. cbn zeta in HS.
  assert (Hn' : Forall (fun e : entry => etgt e = None) (map fst X2)) by (apply Forall_map; exact Hn).
  pose proof (batch_spec above mx ov P (left_overs p) (current p) (anomalies p) Y h hall
    (map fst X1) (map fst X2) HC HL HBd Hn') as HQ. cbn zeta in HQ.
  rewrite <- !map_app, <- EX, map_length in HQ.
  rewrite !xtexts_map in HS.
  destruct HQ as (h' & hall' & Q1 & Q2 & Q4 & Q3).
  eexists. exists h', hall'. split; [exact HS|].
  cbn [src buffer targets targets_coord skip coord line_count byte_count current anomalies left_overs].
  repeat (split; [reflexivity|]).
  split; [exact Q1|]. split; [exact Q2|]. split; [exact Q4|]. intros L3 Hov.
  apply Q3; [exact L3|]. intros Ho. destruct (Hov Ho) as (X0 & e & c & d & EX0 & He).
  destruct X2 as [|x X2] using rev_ind; [reflexivity|]. exfalso.
  rewrite EX in EX0. rewrite app_assoc in EX0. apply app_inj_tail in EX0. destruct EX0 as [_ ->].
  apply Forall_app in Hn. destruct Hn as [_ Hn]. inversion Hn as [|? ? Hx]; subst. cbn in Hx. congruence.
Qed.

Lemma core_close L a f Y h hall : Core above mx ov L (Some a) f Y h hall ->
  Core above mx ov L None (f ++ [a]) Y hall hall.
Proof.
  intros (C1 & C2 & (j & -> & Ho & Hk) & C4). unfold Core. cbn [full]. csplit; auto.
  - cbn [map rev snd]. now rewrite C1, app_assoc.
  - cbn [hist_ok]. split; [apply open_closed; assumption|split; assumption].
Qed.

Lemma core_last L a f Y h hall : Core above mx ov L (Some a) f Y h hall -> Last L hall.
Proof.
  intros (C1 & C2 & (j & -> & Ho & Hk) & C4). unfold Last, ctxend. right.
  apply open_end in Ho. lia.
Qed.

Lemma core_pop L c a f Y h hall : Core above mx ov L c (a :: f) Y h hall ->
  Core above mx ov L c f (Y ++ [a]) h hall.
Proof.
  intros (C1 & C2 & C3 & C4). unfold Core. csplit; auto. rewrite C1, <- app_assoc. reflexivity.
Qed.

Lemma bufinv_nil (p : proc) : buffer p = [] -> targets p = [] -> targets_coord p = [] -> BufInv p [].
Proof. intros H1 H2 H3. unfold BufInv. rewrite H1, H2, H3. cbn. csplit; auto; constructor. Qed.

(** The end of read_anomalies. *)
Lemma read_end_spec items R p P X Y h hall :
  PInv items R p P X Y h hall -> anomalies p = [] -> (items <> [] -> mx = false /\ ov = false) ->
  exists p' P' X' h' hall', read_end above search p = ROk p' /\ src p' = src p /\
    PInv items R p' P' X' Y h' hall' /\ current p' = None /\ Forall (fun x => etgt (fst x) = None) X'.
Proof.
  intros HI Ha Hit. unfold read_end.
  assert (Hb : forall (P' : list entry) lo c hall', Bound mx ov P' lo c hall' \/ items = []).
  { intros. destruct items; [auto|]. left. destruct Hit as [-> ->]; [discriminate|].
    repeat split; discriminate. }
  destruct (targets p) as [|t ts] eqn:Et.
  - assert (Hnone : Forall (fun x => etgt (fst x) = None) X).
    { destruct HI as (_ & _ & _ & _ & (_ & B2 & _) & _). rewrite Et in B2.
      apply Forall_forall. intros x Hx. destruct (etgt (fst x)) eqn:E; [|reflexivity].
      assert (Hin : In x (filter is_tgt X)) by (apply filter_In; unfold is_tgt; rewrite E; auto).
      destruct (filter is_tgt X); [contradiction|discriminate]. }
    destruct (current p) as [a|] eqn:Ec.
    + destruct HI as (H1 & H2 & H3 & H4 & HB & HC & HL & HBd). rewrite Ec in *.
      eexists _, P, X, hall, hall. split; [reflexivity|]. cbn [src current].
      csplit; auto. unfold PInv.
      cbn [src buffer targets targets_coord skip coord line_count byte_count current anomalies left_overs].
      csplit; auto. * eapply core_close; eassumption.
      * destruct (Hb P (left_overs p) None hall); auto. right. csplit; auto. intros _. eapply core_last; eassumption.
    + exists p, P, X, h, hall. csplit; auto.
  - destruct (do_search_spec items R p P X Y h hall HI) as
      (p1 & h1 & hall1 & E1 & S1 & S2 & S3 & S4 & S5 & S6 & S7 & S8 & S9 & S10 & S12 & _).
    { destruct HI as (_ & _ & _ & _ & _ & _ & _ & [HBd|(_ & K & _)]); [exact HBd|congruence]. }
    rewrite E1. destruct HI as (H1 & H2 & H3 & H4 & HB & HC & HL & HBd).
    destruct (current p1) as [a|] eqn:Ec.
    + eexists _, (P ++ map fst X), [], hall1, hall1. split; [reflexivity|]. cbn [src current].
      csplit; auto. unfold PInv.
      cbn [src buffer targets targets_coord skip coord line_count byte_count current anomalies left_overs].
      csplit; auto; try congruence.
      * cbn. now rewrite app_nil_r.
      * apply bufinv_nil; assumption.
      * eapply core_close; eassumption.
      * destruct (Hb (P ++ map fst X) (left_overs p1) None hall1); auto.
        right. csplit; auto. intros _. eapply core_last; eassumption.
    + exists p1, (P ++ map fst X), [], h1, hall1. csplit; auto. unfold PInv. rewrite Ec.
      csplit; auto; try congruence.
      * cbn. now rewrite app_nil_r.
      * apply bufinv_nil; assumption.
      * destruct (Hb (P ++ map fst X) (left_overs p1) None hall1); auto.
        right. csplit; auto. intros Hm. specialize (S12 Hm eq_refl). unfold Last.
        destruct hall1 as [|[? ?] ?]; auto.
Qed.

Lemma without_markers_snoc R b nr : is_marker b = false ->
  without_markers (R ++ [(b, nr)]) = without_markers R ++ [(b, nr)].
Proof. intros H. unfold without_markers. rewrite filter_app. cbn [filter fst]. rewrite H. cbn [negb]. reflexivity. Qed.
Lemma without_markers_marker R b nr : is_marker b = true ->
  without_markers (R ++ [(b, nr)]) = without_markers R.
Proof. intros H. unfold without_markers. rewrite filter_app. cbn [filter fst]. rewrite H. cbn [negb]. apply app_nil_r. Qed.
Lemma total_bytes_snoc R b nr :
  total_bytes (R ++ [(b, nr)]) = (total_bytes R + N.of_nat (length b))%N.
Proof.
  unfold total_bytes. induction R as [|x R IH]; cbn [app fold_right fst].
  - lia.
  - rewrite IH. lia.
Qed.

#[local] Arguments mem_set : simpl never.
(** One more line. *)
Lemma push_line_spec items R p P X Y h hall b nr :
  PInv (ILine b nr :: items) R p P X Y h hall -> valid_utf8 b = true -> is_marker b = false ->
  let p2 := push_line tok (count_line p b items) b nr in
  let known_line := mem_set (tok b) (skip p) in
  exists e, PInv items (R ++ [(b, nr)]) p2 P (X ++ [(e, coord p2)]) Y h hall /\
    src p2 = items /\ anomalies p2 = anomalies p /\ (known_line = false -> etgt e <> None) /\
    Bound mx ov P (left_overs p2) (current p2) hall /\
    length (buffer p2) = S (length X) /\
    (known_line = false -> length (targets p2) <= length (buffer p2)).
Proof.
  intros (H1 & H2 & H3 & H4 & (B1 & B2 & B3 & B4 & B5 & B6 & B7) & HC & HL & HBd) Hv Hm p2 kl.
  destruct HBd as [HBd|(K & _)]; [|discriminate].
  set (e := if kl then mkE b nr None else mkE b nr (Some (dist (tok b)))).
  assert (Eb : etext e = b /\ enr e = nr) by (unfold e; destruct kl; auto). destruct Eb as [Eb En].
  assert (Hc2 : coord p2 = (coord p + 1)%N) by (unfold p2, push_line; cbn; destruct (mem_set _ _); reflexivity).
  assert (Htl : length (filter is_tgt X) <= length X).
  { clear. induction X as [|x X IH]; cbn; [lia|]. destruct (is_tgt x); cbn; lia. }
  assert (Hbuf : buffer p2 = xbuf (X ++ [(e, coord p2)])).
  { rewrite Hc2, xbuf_app, <- B1. unfold p2, push_line. cbn. rewrite Eb, En. destruct (mem_set _ _); reflexivity. }
  exists e. assert (Hlen : length (buffer p2) = S (length X)).
  { rewrite Hbuf, xbuf_length, app_length. cbn. lia. }
  split; [|csplit].
  - unfold PInv. rewrite without_markers_snoc, annot_app, seen_after_app, <- H1, <- H2, total_bytes_snoc by assumption.
    rewrite map_app, app_assoc, app_length. cbn [map fst annot seen_after length].
    assert (Hp2 : skip p2 = (if kl then skip p else tok b :: skip p) /\
       line_count p2 = (line_count p + 1)%N /\ byte_count p2 = (byte_count p + N.of_nat (length b))%N /\
       current p2 = current p /\ anomalies p2 = anomalies p /\ left_overs p2 = left_overs p /\
       targets p2 = targets p ++ (if kl then [] else [tok b]) /\
       targets_coord p2 = targets_coord p ++ (if kl then [] else [(coord p + 1)%N])).
    { unfold p2, push_line, kl. cbn. destruct (mem_set (tok b) (skip p)); cbn; rewrite ?app_nil_r; auto 10. }
    destruct Hp2 as (P1 & P2 & P3 & P4 & P5 & P6 & P7 & P8).
    rewrite P1, P2, P3, P4, P5, P6. fold kl.
    csplit; auto; try lia.
    + unfold e. destruct kl; reflexivity.
    + unfold BufInv. rewrite P7, P8, B2, B3, filter_app, Hc2. cbn [filter].
      assert (Ht : is_tgt (e, (coord p + 1)%N) = negb kl) by (unfold is_tgt, e; destruct kl; reflexivity).
      rewrite Ht. csplit.
      * now rewrite <- Hc2.
      * rewrite map_app. destruct kl; cbn; rewrite ?Eb; reflexivity.
      * rewrite map_app. destruct kl; cbn; reflexivity.
      * apply Forall_app. split; [assumption|]. constructor; [|constructor].
        unfold dist_ok, e. destruct kl; cbn; auto.
      * unfold xvalid. apply Forall_app. split; [assumption|]. constructor; [|constructor]. cbn. now rewrite Eb.
      * rewrite map_app. cbn. apply NoDup_snoc; [assumption|]. intros Hin. apply in_map_iff in Hin.
        destruct Hin as (x & Ex & Hx). rewrite Forall_forall in B7. specialize (B7 x Hx). lia.
      * apply Forall_app. split; [|constructor; [cbn; lia|constructor]].
        eapply Forall_impl; [|exact B7]. cbn. intros. lia.
  - unfold p2, push_line. cbn. destruct (mem_set _ _); reflexivity.
  - unfold p2, push_line. cbn. destruct (mem_set _ _); reflexivity.
  - intros Ek. unfold e. rewrite Ek. discriminate.
  - unfold p2, push_line. cbn. destruct (mem_set _ _); assumption.
  - assumption.
  - intros _. rewrite Hlen. unfold p2, push_line. cbn.
    destruct (mem_set _ _); cbn; rewrite ?app_length, B2, map_length; cbn; lia.
Qed.

Lemma read_spec : forall items p R P X Y h hall,
  PInv items R p P X Y h hall -> anomalies p = [] -> Req items R ->
  match read_anomalies above tok search items p with
  | RPanic => False
  | ROk p' => exists R' P' X' h' hall', items = ok_items R' ++ src p' /\ all_valid R' /\
      PInv (src p') (R ++ R') p' P' X' Y h' hall' /\
      (anomalies p' = [] ->
        (src p' = [] \/ exists R0 m, R' = R0 ++ [m] /\ is_marker (fst m) = true) /\
        current p' = None /\ Forall (fun x => etgt (fst x) = None) X')
  | RFail e p' => exists R' P' X' h' hall' bad, items = ok_items R' ++ bad :: src p' /\ failing bad e /\
      all_valid R' /\ PInv (src p') (R ++ R') p' P' X' Y h' hall' /\ anomalies p' = []
  end.
Proof.
  induction items as [|it items IH]; intros p R P X Y h hall HI Ha HR; cbn [read_anomalies].
  - set (p0 := mkProc _ _ _ _ _ _ _ _ _ _ _).
    assert (HI0 : PInv [] R p0 P X Y h hall) by exact HI.
    destruct (read_end_spec [] R p0 P X Y h hall HI0 Ha) as (p' & P' & X' & h' & hall' & E & S & I & C & N);
      [congruence|].
    rewrite E. exists [], P', X', h', hall'. rewrite app_nil_r, S. csplit; auto; try constructor; try exact I.
  - destruct it as [b nr|e].
    + destruct (valid_utf8 b) eqn:Hv.
      * destruct (is_marker b) eqn:Hm.
        -- (* marker *)
           assert (Hf : mx = false /\ ov = false).
           { destruct HR as [HR _]. destruct mx, ov; auto; exfalso;
               (assert (X0 := HR ltac:(auto)); inversion X0; congruence). }
           set (p1 := count_line p b items).
           assert (HI1 : PInv items (R ++ [(b, nr)]) p1 P X Y h hall).
           { destruct HI as (H1 & H2 & H3 & H4 & (B1 & B2 & B3 & B4 & B5 & B6 & B7) & HC & HL & HBd).
             unfold PInv, p1. rewrite without_markers_marker, total_bytes_snoc by assumption.
             rewrite app_length. cbn [length count_line src buffer targets targets_coord skip coord line_count byte_count current anomalies left_overs].
             csplit; auto; try lia.
             - unfold BufInv. cbn [count_line src buffer targets targets_coord skip coord]. csplit; auto.
               eapply Forall_impl; [|exact B7]. cbn. intros. lia.
             - left. destruct Hf as [-> ->]. repeat split; discriminate. }
           destruct (read_end_spec items (R ++ [(b, nr)]) p1 P X Y h hall HI1) as
             (p' & P' & X' & h' & hall' & E & S & I & C & N); [exact Ha|auto|].
           rewrite E. exists [(b, nr)], P', X', h', hall'. rewrite S. csplit; auto.
           ++ constructor; [assumption|constructor].
           ++ intros _. csplit; auto. right. exists [], (b, nr). auto.
        -- destruct (push_line_spec items R p P X Y h hall b nr HI Hv Hm)
             as (e & HI2 & S2 & A2 & T2 & Bd2 & L2 & L3).
           set (p1 := count_line p b items) in *. set (p2 := push_line tok p1 b nr) in *.
           assert (HR2 : Req items (R ++ [(b, nr)])).
           { destruct HR as [R1 R2]. split.
             - intros Hx. specialize (R1 Hx). inversion R1; assumption.
             - intros Ho. specialize (R2 Ho). rewrite app_length. cbn [length] in *. lia. }
           change (skip p1) with (skip p).
           destruct (batch_full (mem_set (tok b) (skip p)) p2) eqn:Hfull.
           ++ destruct (do_search_spec _ _ _ _ _ _ _ _ HI2) as
                (p3 & h3 & hall3 & E3 & S31 & S32 & S33 & S34 & S35 & S36 & S37 & S38 & S39 & S310 & _ & S311).
              { exact Bd2. }
              rewrite E3.
              assert (Hlen : 3 <= length (X ++ [(e, coord p2)])).
              { rewrite app_length. cbn [length]. unfold batch_full, CHUNK_SIZE in Hfull.
                destruct (mem_set (tok b) (skip p)) eqn:Ek; [|specialize (L3 eq_refl)]; lia. }
              assert (Hlast : ov = true -> exists X0 e0 c d, X ++ [(e, coord p2)] = X0 ++ [(e0, c)] /\ etgt e0 = Some d).
              { intros Ho. destruct (mem_set (tok b) (skip p)) eqn:Ek.
                - exfalso. unfold batch_full, CHUNK_SIZE in Hfull. rewrite L2 in Hfull.
                  destruct HR as [_ HR]. specialize (HR Ho).
                  destruct HI as (H1 & _). apply (f_equal (@length _)) in H1.
                  rewrite app_length, map_length, annot_length in H1.
                  pose proof (wm_length R) as K. cbn [length] in HR. lia.
                - destruct (etgt e) as [d|] eqn:Et; [|destruct (T2 eq_refl); reflexivity].
                  exists X, e, (coord p2), d. auto. }
              specialize (S311 Hlen Hlast).
              assert (HI3 : PInv (src p3) (R ++ [(b, nr)]) p3 (P ++ map fst (X ++ [(e, coord p2)])) [] Y h3 hall3).
              { destruct HI2 as (H1 & H2 & H3 & H4 & _). unfold PInv. csplit; auto; try congruence.
                - cbn. now rewrite app_nil_r.
                - now apply bufinv_nil. }
              rewrite S2 in S31.
              destruct (anomalies p3) as [|a0 an] eqn:Ea3.
              ** rewrite S31 in HI3. specialize (IH _ _ _ _ _ _ _ HI3 Ea3 HR2).
                 destruct (read_anomalies above tok search items p3) as [|p'|er p'].
                 --- exact IH.
                 --- destruct IH as (R' & P' & X' & h' & hall' & I1 & I2 & I3 & I4).
                     exists ((b, nr) :: R'), P', X', h', hall'. rewrite <- app_assoc in I3.
                     csplit; auto.
                     { cbn. now rewrite I1. } { now constructor. }
                     { intros Hn. destruct (I4 Hn) as (J1 & J2 & J3). csplit; auto.
                       destruct J1 as [J1|(R0 & m & -> & J1)]; [auto|]. right. exists ((b, nr) :: R0), m. auto. }
                 --- destruct IH as (R' & P' & X' & h' & hall' & bad & I1 & I2 & I3 & I4 & I5).
                     exists ((b, nr) :: R'), P', X', h', hall', bad. rewrite <- app_assoc in I4.
                     csplit; auto.
                     { cbn. now rewrite I1. } { now constructor. }
              ** exists [(b, nr)], (P ++ map fst (X ++ [(e, coord p2)])), [], h3, hall3.
                 csplit; auto.
                 { cbn. now rewrite S31. } { now constructor. }
                 { intros K. congruence. }
           ++ specialize (IH p2 (R ++ [(b, nr)]) _ _ Y h hall HI2 ltac:(congruence) HR2).
              destruct (read_anomalies above tok search items p2) as [|p'|er p'].
              ** exact IH.
              ** destruct IH as (R' & P' & X' & h' & hall' & I1 & I2 & I3 & I4).
                 exists ((b, nr) :: R'), P', X', h', hall'. rewrite <- app_assoc in I3.
                 csplit; auto.
                 { cbn. now rewrite I1. } { now constructor. }
                 { intros Hn. destruct (I4 Hn) as (J1 & J2 & J3). csplit; auto.
                   destruct J1 as [J1|(R0 & m & -> & J1)]; [auto|]. right. exists ((b, nr) :: R0), m. auto. }
              ** destruct IH as (R' & P' & X' & h' & hall' & bad & I1 & I2 & I3 & I4 & I5).
                 exists ((b, nr) :: R'), P', X', h', hall', bad. rewrite <- app_assoc in I4.
                 csplit; auto.
                 { cbn. now rewrite I1. } { now constructor. }
      * exists [], P, X, h, hall, (ILine b nr). rewrite app_nil_r. csplit; auto.
        -- now split.
        -- constructor.
        -- destruct HI as (H1 & H2 & H3 & H4 & HB & HC & HL & [HBd|(K & _)]); [|discriminate].
           unfold PInv. cbn [src buffer targets targets_coord skip coord line_count byte_count current anomalies left_overs].
           csplit; auto.
    + exists [], P, X, h, hall, (IErr e). rewrite app_nil_r. csplit; auto.
      * reflexivity.
      * constructor.
      * destruct HI as (H1 & H2 & H3 & H4 & HB & HC & HL & [HBd|(K & _)]); [|discriminate].
        unfold PInv. cbn [src buffer targets targets_coord skip coord line_count byte_count current anomalies left_overs].
        csplit; auto.
Qed.

Lemma count_bound items R p P X Y h hall : PInv items R p P X Y h hall -> length (Y ++ anomalies p) <= length R.
Proof.
  intros (H1 & _ & _ & _ & _ & (C1 & _ & C3 & C4) & _).
  rewrite <- C1, rev_length, map_length.
  assert (Hh : length h <= length hall).
  { destruct (current p); cbn in C3; [destruct C3 as (j & -> & _)|subst]; cbn; lia. }
  apply (f_equal (@length _)) in C4. rewrite rev_length, map_length in C4.
  unfold rpos in C4.
  pose proof (filter_length_le' (fun i => match nth_error P i with Some e => rep above e | None => false end) (seq 0 (length P))) as K.
  rewrite <- C4, seq_length in K.
  apply (f_equal (@length _)) in H1. rewrite app_length, annot_length in H1.
  pose proof (wm_length R). lia.
Qed.

Lemma pinv_pop items R p P X Y h hall a l : PInv items R p P X Y h hall -> anomalies p = a :: l ->
  PInv items R (set_anomalies p l) P X (Y ++ [a]) h hall.
Proof.
  intros (H1 & H2 & H3 & H4 & HB & HC & HL & HBd) Ha. unfold PInv, set_anomalies.
  cbn [src buffer targets targets_coord skip coord line_count byte_count current anomalies left_overs].
  rewrite Ha in HC. csplit; auto. now apply core_pop.
Qed.

Lemma req_app R' items R : Req (ok_items R' ++ items) R -> Req items (R ++ R').
Proof.
  intros [H1 H2]. split.
  - intros Hx. specialize (H1 Hx). apply Forall_app in H1. tauto.
  - intros Ho. specialize (H2 Ho). unfold ok_items in H2. rewrite !app_length, map_length in *. lia.
Qed.

Lemma drain_spec : forall n p R P X Y h hall,
  PInv (src p) R p P X Y h hall -> Req (src p) R -> length R + length (src p) < n + length Y ->
  let '(cs, stop, p') := pdrain above tok search n p in
  exists R' P' X' h' hall', all_valid R' /\ anomalies p' = [] /\
    PInv (src p') (R ++ R') p' P' X' (Y ++ cs) h' hall' /\
    match stop with
    | PSEnd => src p = ok_items R' ++ src p' /\
        (src p' = [] \/ exists R0 m, R ++ R' = R0 ++ [m] /\ is_marker (fst m) = true) /\
        current p' = None /\ Forall (fun x => etgt (fst x) = None) X'
    | PSErr e => exists bad, src p = ok_items R' ++ bad :: src p' /\ failing bad e
    | _ => False
    end.
Proof.
  induction n as [|n IH]; intros p R P X Y h hall HI HR Hn.
  { exfalso. apply count_bound in HI. rewrite app_length in HI. lia. }
  cbn [pdrain]. unfold pnext. destruct (anomalies p) as [|a l] eqn:Ea.
  - pose proof (read_spec (src p) p R P X Y h hall HI Ea HR) as K.
    destruct (read_anomalies above tok search (src p) p) as [|p'|e p'].
    + contradiction.
    + destruct K as (R1 & P1 & X1 & h1 & hall1 & K1 & K2 & K3 & K4).
      destruct (anomalies p') as [|a l] eqn:Ea'.
      * exists R1, P1, X1, h1, hall1. rewrite app_nil_r. destruct (K4 eq_refl) as (J1 & J2 & J3).
        csplit; auto. destruct J1 as [J1|(R0 & m & -> & J1)]; [auto|]. right. exists (R ++ R0), m.
        rewrite app_assoc. auto.
      * pose proof (pinv_pop _ _ _ _ _ _ _ _ _ _ K3 Ea') as HI'.
        rewrite K1 in HR. pose proof (req_app _ _ _ HR) as HR'.
        specialize (IH (set_anomalies p' l) (R ++ R1) P1 X1 (Y ++ [a]) h1 hall1 HI' HR').
        cbn [set_anomalies src] in IH.
        assert (Hlt : length (R ++ R1) + length (src p') < n + length (Y ++ [a])).
        { rewrite K1 in Hn. unfold ok_items in Hn. rewrite !app_length, map_length in *. cbn [length]. lia. }
        specialize (IH Hlt). destruct (pdrain above tok search n (set_anomalies p' l)) as [[cs stop] pf].
        destruct IH as (R2 & P2 & X2 & h2 & hall2 & I1 & I2 & I3 & I4).
        exists (R1 ++ R2), P2, X2, h2, hall2. rewrite app_assoc.
        rewrite <- (app_assoc Y) in I3.
        split; [now apply Forall_app|]. split; [exact I2|]. split; [exact I3|]. destruct stop as [|e| |]; auto.
           -- destruct I4 as (J1 & J2). split; [|exact J2].
              rewrite K1, J1. unfold ok_items. now rewrite map_app, app_assoc.
           -- destruct I4 as (bad & J1 & J2). exists bad. split; [|exact J2].
              rewrite K1, J1. unfold ok_items. now rewrite map_app, app_assoc.
    + destruct K as (R1 & P1 & X1 & h1 & hall1 & bad & K1 & K2 & K3 & K4 & K5).
      exists R1, P1, X1, h1, hall1. rewrite app_nil_r. csplit; auto. exists bad. auto.
  - pose proof (pinv_pop _ _ _ _ _ _ _ _ _ _ HI Ea) as HI'.
    specialize (IH (set_anomalies p l) R P X (Y ++ [a]) h hall HI' HR).
    cbn [set_anomalies src] in IH.
    assert (Hlt : length R + length (src p) < n + length (Y ++ [a])).
    { rewrite app_length. cbn [length]. lia. }
    specialize (IH Hlt). destruct (pdrain above tok search n (set_anomalies p l)) as [[cs stop] pf].
    destruct IH as (R2 & P2 & X2 & h2 & hall2 & I1 & I2 & I3 & I4).
    exists R2, P2, X2, h2, hall2. rewrite <- (app_assoc Y) in I3. auto.
Qed.

Lemma pinv_new items : PInv items [] (proc_new items known) [] [] [] [] [].
Proof.
  unfold PInv, proc_new.
  cbn [src buffer targets targets_coord skip coord line_count byte_count current anomalies left_overs].
  csplit; try reflexivity.
  - apply bufinv_nil; reflexivity.
  - unfold Core. cbn. csplit; auto.
  - exists [], []. cbn. csplit; auto.
  - left. unfold Bound. cbn. csplit; auto; intros; lia.
Qed.

Lemma process_all_spec items : Req items [] ->
  let '(cs, stop, p') := process_all above tok search items known in
  exists R P X h hall, all_valid R /\ anomalies p' = [] /\
    PInv (src p') R p' P X cs h hall /\
    match stop with
    | PSEnd => items = ok_items R ++ src p' /\
        (src p' = [] \/ exists R0 m, R = R0 ++ [m] /\ is_marker (fst m) = true) /\
        current p' = None /\ Forall (fun x => etgt (fst x) = None) X
    | PSErr e => exists bad, items = ok_items R ++ bad :: src p' /\ failing bad e
    | _ => False
    end.
Proof.
  intros HR.
  pose proof (drain_spec (2 + length items) (proc_new items known) [] [] [] [] [] [] (pinv_new items) HR) as K.
  cbn [proc_new src length Nat.add app] in K. specialize (K ltac:(lia)). exact K.
Qed.
End Main.
