(** Concrete executions that refute general claims about the processor. *)
From Coq Require Import String List NArith Arith Bool Lia Sorting ZifyBool ZifyN ZifyNat.
From Verif Require Import Common CommonFacts ProcModel ProcSpec ProcWalk ProcInv ProcMain ProcIndex ProcResult ProcSafe ProcMore.
Import ListNotations.
Open Scope nat_scope.
#[local] Arguments mem_set : simpl never.

Section Refute.
Context {D : Type}.
Variable above : D -> bool.
Variable tok : bytes -> bytes.
Variable search : list bytes -> list D.
Variable dist : bytes -> D.
Variable known : list bytes.
Hypothesis Hsearch : pointwise search dist.
Notation annot := (annot tok dist).
Notation proc := (@proc D).
Notation PI := (PInv above tok dist known false false).

Lemma pushes_spec lines : forall rest R p P X Y h hall,
  PI (ok_items lines ++ rest) R p P X Y h hall -> all_valid lines -> no_marker lines ->
  exists X', PI rest (R ++ lines) (pushes tok lines rest p) P (X ++ X') Y h hall /\ length X' = length lines /\
    (lines <> [] -> src (pushes tok lines rest p) = rest) /\
    anomalies (pushes tok lines rest p) = anomalies p.
Proof.
  induction lines as [|[b nr] l IH]; intros rest R p P X Y h hall HI Hv Hm.
  - exists []. rewrite !app_nil_r. csplit; auto. congruence.
  - inversion Hv as [|? ? Hv1 Hv2]; subst. inversion Hm as [|? ? Hm1 Hm2]; subst. cbn [pushes]. cbn [fst] in *.
    cbn [ok_items map fst snd app] in HI. fold (ok_items l) in HI.
    destruct (push_line_spec above tok dist known false false _ _ _ _ _ _ _ _ b nr HI Hv1 Hm1)
      as (e & H1 & H2 & H3 & _).
    destruct (IH rest _ _ _ _ _ _ _ H1 Hv2 Hm2) as (X' & K1 & K2 & K3 & K4).
    exists ((e, coord (push_line tok (count_line p b (ok_items l ++ rest)) b nr)) :: X').
    rewrite <- !app_assoc in K1. cbn [app] in K1. split; [exact K1|]. split; [cbn; now rewrite K2|].
    split.
    + intros _. destruct l as [|x l]; [exact H2|]. apply K3. discriminate.
    + now rewrite K4.
Qed.

Lemma fold_quiet texts lo l : Forall (nrep above) l -> forall k lp f,
  fold_left (wstep above texts lo) l (mkSst k lp None f) = mkSst (k + length l) lp None f.
Proof.
  induction 1 as [|e l He _ IH]; intros k lp f; cbn [fold_left length].
  - now rewrite Nat.add_0_r.
  - unfold wstep at 2. unfold nrep, rep in He. rewrite Nat.add_succ_r.
    destruct (etgt e) as [d|]; [rewrite He|]; unfold plain_step; cbn; apply IH.
Qed.

Lemma all_targets_grouped (X : list (@entry D * N)) : Forall (fun x => etgt (fst x) <> None) X -> grouped X.
Proof.
  induction 1 as [|[e c] X Hx _ IH]; [constructor|]. cbn in Hx. destruct (etgt e) as [d|] eqn:E; [|congruence].
  apply (g_cons [] e c d X); auto.
Qed.

(** A batch with one anomaly, still waiting for its after context. *)
Lemma flush_one p Xa e c Xb d :
  BufInv tok dist p (Xa ++ (e, c) :: Xb) -> grouped (Xa ++ [(e, c)]) ->
  etgt e = Some d -> above d = true -> Forall (fun x => nrep above (fst x)) Xa ->
  Forall (fun x => etgt (fst x) = None) Xb -> length Xb < 3 -> current p = None -> anomalies p = [] ->
  let texts := xtexts (Xa ++ (e, c) :: Xb) in
  do_search above search p =
  Some (mkProc (src p) [] [] [] (skipn (Nat.max (S (length Xa)) (length Xa + S (length Xb) - 3)) texts)
    (Some (mkCtx (cb (length Xa) 0 texts (left_overs p)) (xtexts Xb) d (enr e) (etext e))) []
    (skip p) (coord p) (line_count p) (byte_count p)).
Proof.
  intros HB Hg Hd Ha HXa HXb Hlen Hc Han texts.
  pose proof (xpairs_search tok search dist Hsearch _ _ HB) as Hp.
  destruct HB as (B1 & _ & _ & _ & B5 & B6 & _).
  assert (EX : Xa ++ (e, c) :: Xb = (Xa ++ [(e, c)]) ++ Xb) by (rewrite <- app_assoc; reflexivity).
  rewrite (do_search_walk above search p _ _ Xb B1 Hp EX Hg HXb B5 B6). fold texts.
  rewrite Hc, Han, map_app, fold_left_app, fold_quiet by (apply Forall_map; assumption).
  cbn [map fst fold_left]. unfold wstep. rewrite Hd, Ha. cbn [buffer_pos last_pos cur found Nat.add].
  rewrite map_length, app_length. cbn [length]. unfold fin_opt.
  assert (Hfin : fin (mkCtx (cb (length Xa) 0 texts (left_overs p)) [] d (enr e) (etext e)) (xtexts Xb) [] =
    (Some (mkCtx (cb (length Xa) 0 texts (left_overs p)) (xtexts Xb) d (enr e) (etext e)), [])).
  { destruct Xb as [|x1 [|x2 [|x3 Xb]]]; cbn in Hlen; try lia; cbn; rewrite ?push_after_cases; reflexivity. }
  rewrite Hfin. reflexivity.
Qed.

Lemma drain_end n : forall p l, anomalies p = l -> src p = [] -> targets p = [] -> current p = None -> length l < n ->
  exists q, pdrain above tok search n p = (l, PSEnd, q).
Proof.
  induction n as [|n IH]; intros p l Ha Hs Ht Hc Hl; [lia|]. cbn [pdrain]. unfold pnext. rewrite Ha.
  destruct l as [|a l].
  - rewrite Hs. cbn [read_anomalies]. unfold read_end. cbn [targets current]. rewrite Ht. cbn [current]. rewrite Hc.
    cbn [anomalies]. rewrite Ha. eauto.
  - cbn [length] in Hl. destruct (IH (set_anomalies p l) l) as (q & E); auto; [lia|]. rewrite E. eauto.
Qed.

Lemma drain_all items p' c l :
  read_anomalies above tok search items (proc_new items known) = ROk p' ->
  anomalies p' = c :: l -> src p' = [] -> targets p' = [] -> current p' = None -> length l <= length items ->
  exists q, process_all above tok search items known = (c :: l, PSEnd, q).
Proof.
  intros H Ha Hs Ht Hc Hl. unfold process_all. cbn [Nat.add]. remember (S (length items)) as k eqn:Ek.
  cbn [pdrain]. unfold pnext. cbn [proc_new anomalies src].
  fold (@proc_new D items known). rewrite H, Ha.
  destruct (drain_end k (set_anomalies p' l) l) as (q & E); auto; [lia|]. rewrite E. eauto.
Qed.
End Refute.

(** ** The after context lost behind a full batch *)
Definition idb (b : bool) : bool := b.
Definition tok_id (b : bytes) : bytes := b.
(** Only lines starting with 'E' (69) are far from the baselines. *)
Definition dist_e (t : bytes) : bool := match t with c :: _ => (c =? 69)%N | [] => false end.
Definition search_e (ts : list bytes) : list bool := map dist_e ts.
Lemma search_e_pointwise : pointwise search_e dist_e.
Proof. intros ts. reflexivity. Qed.

Definition plain_line (i : nat) : bytes * N := (repeat 97%N (S i), N.of_nat i).
Definition e_line : bytes * N := (lit "E", 0%N).
Definition a_line : bytes * N := (lit "a", 0%N).
Definition uniq_lines : list (bytes * N) := map plain_line (seq 0 (N.to_nat 511)).
Definition lost_lines : list (bytes * N) := uniq_lines ++ e_line :: [a_line; a_line; a_line].

Lemma valid_as n : valid_utf8 (repeat 97%N n) = true.
Proof.
  unfold valid_utf8. assert (H : utf8_decode (repeat 97%N n) = Some (repeat 97%N n)).
  { induction n as [|n IH]; [reflexivity|]. cbn [repeat utf8_decode]. rewrite IH. reflexivity. }
  now rewrite H.
Qed.
Lemma marker_as n : is_marker (repeat 97%N n) = false.
Proof.
  unfold is_marker. induction n as [|n IH]; [reflexivity|]. cbn [repeat contains]. rewrite IH. reflexivity.
Qed.
Lemma uniq_valid : all_valid uniq_lines.
Proof. unfold uniq_lines. apply Forall_map, Forall_forall. intros i _. apply valid_as. Qed.
Lemma uniq_no_marker : no_marker uniq_lines.
Proof. unfold uniq_lines. apply Forall_map, Forall_forall. intros i _. apply marker_as. Qed.
Lemma uniq_length : length uniq_lines = N.to_nat 511.
Proof. unfold uniq_lines. now rewrite map_length, seq_length. Qed.

Lemma firsts_nodup l : forall seen, NoDup l -> (forall x, In x l -> ~ In x seen) -> firsts seen l = l.
Proof.
  induction l as [|x l IH]; intros seen Hn Hs; [reflexivity|]. cbn [firsts].
  destruct (in_dec (list_eq_dec N.eq_dec) x seen) as [K|K].
  - exfalso. apply (Hs x); [left; reflexivity|exact K].
  - inversion Hn; subst. f_equal. apply IH; [assumption|]. intros y Hy [->|Hy']; [contradiction|].
    apply (Hs y); [right; assumption|assumption].
Qed.

Lemma uniq_news : news tok_id [] uniq_lines = map fst uniq_lines.
Proof.
  unfold news, tok_id. apply firsts_nodup; [|auto].
  unfold uniq_lines. rewrite map_map. cbn [plain_line fst].
  apply FinFun.Injective_map_NoDup; [|apply seq_NoDup].
  intros i j E. apply (f_equal (@length _)) in E. rewrite !repeat_length in E. lia.
Qed.
Lemma uniq_targets : Forall (fun e => etgt e <> None) (annot tok_id dist_e [] uniq_lines).
Proof.
  assert (H : forall l seen, NoDup (map fst l) -> (forall x, In x (map fst l) -> ~ In x seen) ->
    Forall (fun e => etgt e <> None) (annot tok_id dist_e seen l)).
  { induction l as [|[b nr] l IH]; intros seen Hn Hs; cbn; [constructor|]. unfold tok_id at 1.
    destruct (mem_set b seen) eqn:E.
    - exfalso. apply mem_set_spec in E. apply (Hs b); [left; reflexivity|exact E].
    - cbn in Hn. inversion Hn; subst. constructor; [discriminate|]. apply IH; [assumption|].
      unfold tok_id. intros y Hy [->|Hy']; [contradiction|]. apply (Hs y); [right; assumption|assumption]. }
  apply H; [|auto]. unfold uniq_lines. rewrite map_map. cbn [plain_line fst].
  apply FinFun.Injective_map_NoDup; [|apply seq_NoDup].
  intros i j E. apply (f_equal (@length _)) in E. rewrite !repeat_length in E. lia.
Qed.
Lemma uniq_quiet : Forall (nrep idb) (annot tok_id dist_e [] uniq_lines).
Proof.
  assert (H : forall l seen, Forall (fun x => dist_e (fst x) = false) l ->
    Forall (nrep idb) (annot tok_id dist_e seen l)).
  { induction l as [|[b nr] l IH]; intros seen Hl; cbn; [constructor|]. inversion Hl; subst.
    destruct (mem_set (tok_id b) seen); constructor; auto. reflexivity. }
  apply H. unfold uniq_lines. apply Forall_map, Forall_forall. intros i _. reflexivity.
Qed.

Lemma lost_read_gen (U : list (bytes * N)) : all_valid U -> no_marker U -> length U = N.to_nat 511 ->
  length (news tok_id [] U) = N.to_nat 511 ->
  Forall (fun e => etgt e <> None) (annot tok_id dist_e [] U) ->
  Forall (nrep idb) (annot tok_id dist_e [] U) ->
  (exists x, In x U /\ fst x = lit "a") -> (forall x, In x U -> fst x <> lit "E") ->
  exists c p',
  read_anomalies idb tok_id search_e (ok_items (U ++ e_line :: [a_line; a_line; a_line])) (proc_new (ok_items (U ++ e_line :: [a_line; a_line; a_line])) []) = ROk p' /\
  anomalies p' = [c] /\ src p' = [] /\ targets p' = [] /\ current p' = None /\ after c = [].
Proof.
  intros U_valid U_no_marker U_length U_news U_targets U_quiet U_a U_e.
  set (rest0 := ok_items [a_line; a_line; a_line]).
  set (rest := ILine (lit "E") 0 :: rest0).
  assert (Eit : ok_items (U ++ e_line :: [a_line; a_line; a_line]) = ok_items U ++ rest).
  { unfold ok_items. rewrite map_app. reflexivity. }
  rewrite Eit. clear Eit. set (p0 := proc_new _ _).
  destruct (read_pushes idb tok_id search_e U rest p0 U_valid U_no_marker) as (E1 & E2 & E3 & E4).
  { cbn [p0 proc_new targets skip length]. rewrite U_news. clear. lia. }
  { cbn [p0 proc_new buffer length]. rewrite U_length. clear. lia. }
  destruct (pushes_spec idb tok_id dist_e [] U rest [] p0 [] [] [] [] []
    (pinv_new idb tok_id dist_e [] false false _) U_valid U_no_marker) as (Xa & K1 & K2 & K3 & K4).
  set (q := pushes tok_id U rest p0) in *. clearbody q. cbn [app] in K1.
  rewrite E1. clear E1. unfold rest at 1. cbn [read_anomalies].
  change (valid_utf8 (lit "E")) with true. change (is_marker (lit "E")) with false. cbn iota.
  destruct (push_line_spec idb tok_id dist_e [] false false rest0 _ _ _ _ _ _ _ (lit "E") 0%N K1 eq_refl eq_refl)
    as (e & H1 & H2 & H3 & H4 & _ & H6 & _).
  destruct (push_line_fields tok_id q (lit "E") 0%N rest0) as (F1 & F2 & F3 & F4 & F5).
  change (skip (count_line q (lit "E") rest0)) with (skip q).
  set (q2 := push_line tok_id (count_line q (lit "E") rest0) (lit "E") 0%N) in *. clearbody q2.
  assert (Hmem : mem_set (tok_id (lit "E")) (skip q) = false).
  { apply not_true_iff_false. rewrite mem_set_spec. destruct K1 as (_ & K & _). rewrite K.
    rewrite without_markers_id by exact U_no_marker. rewrite seen_after_in.
    intros [[]|(x & Hx & Ex)]. exact (U_e x Hx Ex). }
  rewrite Hmem in *.
  assert (Efull : batch_full false q2 = true).
  { unfold batch_full, CHUNK_SIZE. destruct F5 as [_ ->]. rewrite E2, app_length. cbn [p0 proc_new targets skip app].
    rewrite U_news. cbn [length]. clear. lia. }
  rewrite Efull.
  assert (HaX : map fst Xa = annot tok_id dist_e [] U).
  { destruct K1 as (K & _). cbn [app] in K. rewrite without_markers_id in K by exact U_no_marker. exact K. }
  assert (He : e = mkE (lit "E") 0%N (Some true)).
  { destruct H1 as (K & _). cbn [app] in K. rewrite map_app, HaX in K.
    rewrite without_markers_snoc in K by (exact (fun x => x) || reflexivity).
    rewrite without_markers_id in K by exact U_no_marker.
    rewrite annot_app in K. apply app_inv_head in K. cbn [map fst] in K.
    destruct K1 as (_ & Ks & _). rewrite without_markers_id in Ks by exact U_no_marker. rewrite <- Ks in K.
    cbn [ProcMain.annot] in K. rewrite Hmem in K. injection K as K. exact K. }
  destruct H1 as (_ & _ & _ & _ & HB & HC & _).
  assert (Hcur : current q2 = None) by (rewrite F3, E4; reflexivity).
  assert (Hano : anomalies q2 = []) by (rewrite F2, E3; reflexivity).
  assert (Hfl := flush_one idb tok_id search_e dist_e search_e_pointwise q2 Xa e (coord q2) [] true HB).
  cbn zeta in Hfl. rewrite Hfl; auto; clear Hfl.
  2:{ apply all_targets_grouped. apply Forall_app. split; [|constructor; [rewrite He; discriminate|constructor]].
      apply (proj1 (Forall_map fst (fun e => etgt e <> None) Xa)). rewrite HaX. exact U_targets. }
  2:{ rewrite He. reflexivity. }
  2:{ apply (proj1 (Forall_map fst (nrep idb) Xa)). rewrite HaX. exact U_quiet. }
  cbn [anomalies]. unfold rest0.
  match goal with |- context [read_anomalies _ _ _ _ ?q] => 
    assert (HF3 : skip q = skip q2 /\ targets q = [] /\ buffer q = [] /\ anomalies q = [] /\
      exists c, current q = Some c /\ after c = []) by (csplit; try reflexivity; eexists; split; reflexivity);
    set (q3 := q) in * end.
  clearbody q3. destruct HF3 as (Q1 & Q2 & Q3 & Q4 & c & Q5 & Q6).
  assert (Hmem2 : mem_set (tok_id (lit "a")) (skip q3) = true).
  { apply mem_set_spec. rewrite Q1. destruct F5 as [-> _]. right.
    destruct K1 as (_ & Ks & _). rewrite Ks, without_markers_id by exact U_no_marker.
    rewrite seen_after_in. right. exact U_a. }
  assert (Hnews : news tok_id (skip q3) [a_line; a_line; a_line] = []).
  { unfold news. cbn [map fst a_line]. rewrite !firsts_cons, Hmem2. reflexivity. }
  destruct (read_pushes idb tok_id search_e [a_line; a_line; a_line] [] q3) as (G1 & G2 & G3 & G4).
  { repeat constructor. } { repeat constructor. }
  { rewrite Hnews, Q2. clear. cbn [length]. lia. } { rewrite Q3. clear. cbn [length]. lia. }
  rewrite app_nil_r in G1. set (q4 := pushes tok_id [a_line; a_line; a_line] [] q3) in *. clearbody q4.
  rewrite G1. clear G1. cbn [read_anomalies]. unfold read_end. cbn [targets].
  rewrite G2, Hnews, Q2. cbn [app current]. rewrite G4, Q5.
  exists c. eexists. split; [reflexivity|]. cbn [anomalies src targets current]. rewrite G3, Q4. csplit; auto.
Qed.

Lemma lost_result : exists c p',
  process_all idb tok_id search_e (ok_items lost_lines) [] = ([c], PSEnd, p') /\ after c = [].
Proof.
  destruct (lost_read_gen uniq_lines) as (c & p' & E & H1 & H2 & H3 & H4 & H5).
  - apply uniq_valid.
  - apply uniq_no_marker.
  - apply uniq_length.
  - now rewrite uniq_news, map_length, uniq_length.
  - apply uniq_targets.
  - apply uniq_quiet.
  - exists (plain_line 0). split; [|reflexivity]. unfold uniq_lines. apply in_map. rewrite in_seq. clear. lia.
  - intros x Hx. unfold uniq_lines in Hx. apply in_map_iff in Hx. destruct Hx as (i & <- & _). discriminate.
  - fold lost_lines in E.
    destruct (drain_all idb tok_id search_e [] (ok_items lost_lines) p' c []) as (q & Eq); auto.
    { cbn [length]. apply Nat.le_0_l. }
    exists c, q. auto.
Qed.

(** ** Contexts that overlap behind a full buffer *)
Definition e2_line : bytes * N := (lit "E2", 0%N).
Definition overlap_lines : list (bytes * N) := repeat a_line (N.to_nat 5118) ++ [e_line; a_line; a_line; e2_line].

Lemma overlap_tail (q : @proc bool) c : buffer q = [] -> targets q = [] -> targets_coord q = [] ->
  left_overs q = [lit "a"; lit "a"] -> current q = Some c -> anomalies q = [] ->
  mem_set (lit "E2") (skip q) = false ->
  exists c2 p', read_anomalies idb tok_id search_e [ILine (lit "E2") 0%N] q = ROk p' /\
    anomalies p' = [c; c2] /\ before c2 = [lit "a"; lit "a"] /\ after c2 = [] /\ aline c2 = lit "E2" /\
    src p' = [] /\ targets p' = [] /\ current p' = None.
Proof.
  intros H1 H2 H3 H4 H5 H6 H7. destruct q as [s b t tc lo cu an sk co lc bc]. cbn [buffer targets targets_coord left_overs current anomalies skip] in *. subst.
  assert (H8 : mem_set (tok_id (lit "E2")) sk = false) by exact H7.
  cbn [read_anomalies]. change (valid_utf8 (lit "E2")) with true. change (is_marker (lit "E2")) with false. cbn iota.
  unfold push_line. cbn [count_line skip]. rewrite H8.
  unfold batch_full. cbn [targets buffer app targets_coord coord].
  change (N.of_nat (length [tok_id (lit "E2")]) =? CHUNK_SIZE)%N with false. cbn iota.
  unfold read_end. cbn [targets]. unfold do_search.
  cbn [count_line src buffer targets targets_coord left_overs current anomalies skip coord line_count byte_count app].
  generalize (co + 1)%N as k. intros k. cbn. rewrite N.eqb_refl. cbn.
  eexists. eexists. split; [reflexivity|]. cbn. csplit; reflexivity.
Qed.

Lemma a_annot n : forall tail, annot tok_id dist_e [lit "a"] (repeat a_line n ++ tail) =
  repeat (mkE (lit "a") 0%N None) n ++ annot tok_id dist_e [lit "a"] tail.
Proof. induction n as [|n IH]; intros tail; [reflexivity|]. cbn [repeat app]. rewrite <- IH. reflexivity. Qed.
Lemma a_seen n : forall tail, seen_after tok_id [lit "a"] (repeat a_line n ++ tail) = seen_after tok_id [lit "a"] tail.
Proof. induction n as [|n IH]; intros tail; [reflexivity|]. transitivity (seen_after tok_id [lit "a"] (repeat a_line n ++ tail)); [reflexivity|apply IH]. Qed.
Lemma a_news n : forall tail, news tok_id [lit "a"] (repeat a_line n ++ tail) = news tok_id [lit "a"] tail.
Proof. induction n as [|n IH]; intros tail; [reflexivity|]. transitivity (news tok_id [lit "a"] (repeat a_line n ++ tail)); [reflexivity|apply IH]. Qed.

Lemma overlap_read_gen (V : list (bytes * N)) m : all_valid V -> no_marker V -> length V = N.to_nat 5120 ->
  annot tok_id dist_e [lit "a"] V =
    repeat (mkE (lit "a") 0%N None) m ++ [mkE (lit "E") 0%N (Some true); mkE (lit "a") 0%N None] ->
  seen_after tok_id [lit "a"] V = [lit "E"; lit "a"] -> length (news tok_id [lit "a"] V) = 1 ->
  let items := ok_items V ++ ok_items [a_line; e2_line] in
  exists c c2 p', read_anomalies idb tok_id search_e items (proc_new items [lit "a"]) = ROk p' /\
    anomalies p' = [c; c2] /\ after c = [lit "a"; lit "a"] /\ before c2 = [lit "a"; lit "a"] /\
    src p' = [] /\ targets p' = [] /\ current p' = None.
Proof.
  intros V_valid V_no_marker V_length V_annot V_seen V_news items. unfold items. clear items.
  set (rest := ok_items [a_line; e2_line]). set (rest0 := [ILine (lit "E2") 0%N]).
  set (p0 := proc_new _ _).
  destruct (read_pushes idb tok_id search_e V rest p0 V_valid V_no_marker) as (E1 & E2 & E3 & E4).
  { cbn [p0 proc_new targets skip length]. rewrite V_news. clear. lia. }
  { cbn [p0 proc_new buffer length]. rewrite V_length. clear. lia. }
  destruct (pushes_spec idb tok_id dist_e [lit "a"] V rest [] p0 [] [] [] [] []
    (pinv_new idb tok_id dist_e [lit "a"] false false _) V_valid V_no_marker) as (Xa & K1 & K2 & K3 & K4).
  set (q := pushes tok_id V rest p0) in *. clearbody q. cbn [app] in K1.
  rewrite E1. clear E1. 
  match goal with |- context [read_anomalies _ _ _ rest q] =>
    change (read_anomalies idb tok_id search_e rest q) with (read_anomalies idb tok_id search_e (ILine (lit "a") 0%N :: rest0) q) end.
  cbn [read_anomalies].
  change (valid_utf8 (lit "a")) with true. change (is_marker (lit "a")) with false. cbn iota.
  destruct (push_line_spec idb tok_id dist_e [lit "a"] false false rest0 _ _ _ _ _ _ _ (lit "a") 0%N K1 eq_refl eq_refl)
    as (e & H1 & H2 & H3 & H4 & _ & H6 & _).
  destruct (push_line_fields tok_id q (lit "a") 0%N rest0) as (F1 & F2 & F3 & F4 & F5).
  change (skip (count_line q (lit "a") rest0)) with (skip q).
  set (q2 := push_line tok_id (count_line q (lit "a") rest0) (lit "a") 0%N) in *. clearbody q2.
  assert (Hskip : skip q = [lit "E"; lit "a"]).
  { destruct K1 as (_ & K & _). rewrite K, without_markers_id by exact V_no_marker. exact V_seen. }
  assert (Hmem : mem_set (tok_id (lit "a")) (skip q) = true) by (rewrite Hskip; reflexivity).
  rewrite Hmem in *. destruct F5 as [F5 F6].
  assert (HaX : map fst Xa = annot tok_id dist_e [lit "a"] V).
  { destruct K1 as (K & _). cbn [app] in K. rewrite without_markers_id in K by exact V_no_marker. exact K. }
  assert (HlX : length Xa = N.to_nat 5120) by (rewrite K2; exact V_length).
  assert (Efull : batch_full true q2 = true).
  { unfold batch_full, CHUNK_SIZE. rewrite H6. rewrite HlX. reflexivity. }
  rewrite Efull.
  assert (He : e = mkE (lit "a") 0%N None).
  { destruct H1 as (K & _). cbn [app] in K. rewrite map_app, HaX in K.
    rewrite without_markers_snoc in K by (exact (fun x => x) || reflexivity).
    rewrite without_markers_id in K by exact V_no_marker.
    rewrite annot_app in K. apply app_inv_head in K. cbn [map fst] in K.
    rewrite V_seen in K. injection K as K. exact K. }
  destruct H1 as (_ & _ & _ & _ & HB & HC & _).
  assert (Hcur : current q2 = None) by (rewrite F3, E4; reflexivity).
  assert (Hano : anomalies q2 = []) by (rewrite F2, E3; reflexivity).
  (* split the buffer at the anomaly *)
  assert (HX : exists Xd c1 c2, Xa = Xd ++ [(mkE (lit "E") 0%N (Some true), c1); (mkE (lit "a") 0%N None, c2)] /\
    map fst Xd = repeat (mkE (lit "a") 0%N None) m).
  { rewrite V_annot in HaX. clear - HaX. apply map_eq_app in HaX. destruct HaX as (Xd & Xr & -> & H1 & H2).
    destruct Xr as [|[e1 c1] [|[e2 c2] [|]]]; try discriminate. cbn in H2. injection H2 as -> ->. eauto. }
  destruct HX as (Xd & c1 & c2 & -> & HXd).
  rewrite <- app_assoc in HB. cbn [app] in HB.
  assert (HN : Forall (fun x => etgt (fst x) = None) Xd).
  { apply (proj1 (Forall_map fst (fun e : @entry bool => etgt e = None) Xd)). rewrite HXd. clear.
    induction m; constructor; auto. }
  assert (Hfl := flush_one idb tok_id search_e dist_e search_e_pointwise q2 Xd _ c1 _ true HB).
  cbn zeta in Hfl. rewrite Hfl; auto; clear Hfl.
  2:{ apply (g_cons Xd _ c1 true []); [exact HN|reflexivity|constructor]. }
  2:{ eapply Forall_impl; [|exact HN]. intros x Hx. unfold nrep, rep. rewrite Hx. reflexivity. }
  2:{ rewrite He. repeat constructor. }
  cbn [anomalies]. unfold rest0.
  match goal with |- context [skipn ?n ?t] =>
    assert (Hlo : skipn n t = [lit "a"; lit "a"]) end.
  { rewrite He. clear. cbn [length].
    assert (EX : forall Y Z : list (@entry bool * N), xtexts (Y ++ Z) = xtexts Y ++ xtexts Z)
      by (intros; unfold xtexts; apply map_app).
    replace (Nat.max (S (length Xd)) (length Xd + 3 - 3)) with (length (xtexts Xd) + 1)
      by (unfold xtexts; rewrite map_length; lia).
    rewrite EX, skipn_app, skipn_all2 by (clear; lia).
    replace (length (xtexts Xd) + 1 - length (xtexts Xd)) with 1 by (clear; lia). reflexivity. }
  rewrite Hlo. clear Hlo.
  match goal with |- context [read_anomalies _ _ _ _ ?q] =>
    assert (HF3 : skip q = skip q2 /\ targets q = [] /\ targets_coord q = [] /\ buffer q = [] /\ anomalies q = [] /\
      left_overs q = [lit "a"; lit "a"] /\
      exists c, current q = Some c /\ after c = [lit "a"; lit "a"])
      by (csplit; try reflexivity; eexists; split; [reflexivity|]; rewrite He; reflexivity);
    set (q3 := q) in * end.
  clearbody q3. destruct HF3 as (Q1 & Q2 & Q3 & Q4 & Q5 & Q6 & c & Q7 & Q8).
  destruct (overlap_tail q3 c) as (d & p' & R1 & R2 & R3 & R4 & R5 & R6 & R7 & R8); auto.
  { rewrite Q1, F5, Hskip. reflexivity. }
  rewrite R1. exists c, d, p'. csplit; auto.
Qed.

Lemma overlap_result : exists c c2 p',
  process_all idb tok_id search_e (ok_items overlap_lines) [lit "a"] = ([c; c2], PSEnd, p') /\
  after c = [lit "a"; lit "a"] /\ before c2 = [lit "a"; lit "a"].
Proof.
  set (V := repeat a_line (N.to_nat 5118) ++ [e_line; a_line]).
  assert (EL : overlap_lines = V ++ [a_line; e2_line]).
  { unfold overlap_lines, V. rewrite <- app_assoc. reflexivity. }
  assert (Eit : ok_items overlap_lines = ok_items V ++ ok_items [a_line; e2_line]).
  { rewrite EL. unfold ok_items. apply map_app. }
  destruct (overlap_read_gen V (N.to_nat 5118)) as (c & c2 & p' & E & H1 & H2 & H3 & H4 & H5 & H6).
  - apply Forall_app. split; [|repeat constructor]. apply Forall_forall. intros x Hx.
    apply repeat_spec in Hx. subst. reflexivity.
  - apply Forall_app. split; [|repeat constructor]. apply Forall_forall. intros x Hx.
    apply repeat_spec in Hx. subst. reflexivity.
  - unfold V. rewrite app_length, repeat_length. clear. cbn [length]. lia.
  - unfold V. apply a_annot.
  - unfold V. rewrite a_seen. reflexivity.
  - unfold V. rewrite a_news. reflexivity.
  - rewrite <- Eit in E.
    destruct (drain_all idb tok_id search_e [lit "a"] (ok_items overlap_lines) p' c [c2]) as (q & Eq); auto.
    { rewrite Eit, app_length. clear. cbn [length ok_items map]. lia. }
    exists c, c2, q. auto.
Qed.

(** Positions in the two witnesses. *)
Lemma lost_valid : all_valid lost_lines.
Proof. apply Forall_app. split; [exact uniq_valid|repeat constructor]. Qed.
Lemma lost_no_marker : no_marker lost_lines.
Proof. apply Forall_app. split; [exact uniq_no_marker|repeat constructor]. Qed.
Lemma lost_not_last i : reported idb tok_id dist_e [] lost_lines i -> S i <> length lost_lines.
Proof.
  intros (_ & b & nr & Hn & Ha) E. unfold lost_lines in *. rewrite app_length in E.
  rewrite nth_error_app2 in Hn by (cbn [length] in E; lia).
  replace (i - length uniq_lines) with 3 in Hn by (cbn [length] in E; lia).
  cbn in Hn. injection Hn as <- <-. discriminate.
Qed.
Lemma overlap_valid : all_valid overlap_lines.
Proof.
  apply Forall_app. split; [|repeat constructor]. apply Forall_forall. intros x Hx.
  apply repeat_spec in Hx. subst. reflexivity.
Qed.
Lemma overlap_no_marker : no_marker overlap_lines.
Proof.
  apply Forall_app. split; [|repeat constructor]. apply Forall_forall. intros x Hx.
  apply repeat_spec in Hx. subst. reflexivity.
Qed.
Lemma overlap_pos i : reported idb tok_id dist_e [lit "a"] overlap_lines i ->
  i = N.to_nat 5118 \/ i = N.to_nat 5118 + 3.
Proof.
  intros (_ & b & nr & Hn & Ha). unfold overlap_lines in Hn.
  destruct (Nat.lt_ge_cases i (N.to_nat 5118)) as [H|H].
  - exfalso. rewrite nth_error_app1 in Hn by (rewrite repeat_length; exact H).
    apply nth_error_In, repeat_spec in Hn. injection Hn as -> ->. discriminate.
  - rewrite nth_error_app2, repeat_length in Hn by (rewrite repeat_length; exact H).
    destruct (i - N.to_nat 5118) as [|[|[|[|k]]]] eqn:E.
    + left. lia.
    + cbn in Hn. injection Hn as <- <-. discriminate.
    + cbn in Hn. injection Hn as <- <-. discriminate.
    + right. lia.
    + cbn in Hn. destruct k; discriminate.
Qed.
Lemma overlap_close i j : reported idb tok_id dist_e [lit "a"] overlap_lines i ->
  reported idb tok_id dist_e [lit "a"] overlap_lines j /\ i < j -> j = i + 3 /\ i = N.to_nat 5118.
Proof.
  intros H1 [H2 H3]. apply overlap_pos in H1. apply overlap_pos in H2. lia.
Qed.

Lemma firsts_in l : forall seen t, In t (firsts seen l) <-> In t l /\ ~ In t seen.
Proof.
  induction l as [|x l IH]; intros seen t; cbn [firsts].
  - cbn. tauto.
  - destruct (in_dec (list_eq_dec N.eq_dec) x seen) as [H|H].
    + rewrite IH. cbn. split; [tauto|]. intros [[->|K] K2]; tauto.
    + cbn [In]. rewrite IH. cbn [In]. destruct (list_eq_dec N.eq_dec x t) as [->|E]; tauto.
Qed.
Lemma firsts_app l1 : forall seen l2, exists l3, firsts seen (l1 ++ l2) = firsts seen l1 ++ l3 /\
  (forall t l4, l2 = t :: l4 -> ~ In t l1 -> ~ In t seen -> exists l5, l3 = t :: l5).
Proof.
  induction l1 as [|x l1 IH]; intros seen l2.
  - exists (firsts seen l2). split; [reflexivity|]. intros t l4 -> _ Hs. cbn [firsts].
    destruct (in_dec (list_eq_dec N.eq_dec) t seen); [contradiction|eauto].
  - cbn [app firsts]. destruct (in_dec (list_eq_dec N.eq_dec) x seen) as [H|H].
    + destruct (IH seen l2) as (l3 & E & K). exists l3. split; [exact E|]. intros t l4 E2 H1 H2.
      eapply K; eauto. cbn in H1. tauto.
    + destruct (IH (x :: seen) l2) as (l3 & E & K). exists l3. split; [rewrite E; reflexivity|].
      intros t l4 E2 H1 H2. eapply K; eauto; cbn in *; tauto.
Qed.
Lemma firsts_meaning seen l :
  NoDup (firsts seen l) /\
  (forall t, In t (firsts seen l) <-> In t l /\ ~ In t seen) /\
  (forall l1 t l2, l = l1 ++ t :: l2 -> ~ In t l1 -> ~ In t seen ->
     exists l3, firsts seen l = firsts seen l1 ++ t :: l3).
Proof.
  split; [|split; [apply firsts_in|]].
  - revert seen. induction l as [|x l IH]; intros seen; cbn [firsts]; [constructor|].
    destruct (in_dec (list_eq_dec N.eq_dec) x seen); [apply IH|]. constructor; [|apply IH].
    rewrite firsts_in. cbn. tauto.
  - intros l1 t l2 -> H1 H2. destruct (firsts_app l1 seen (t :: l2)) as (l3 & E & K).
    destruct (K t l2 eq_refl H1 H2) as (l5 & ->). eauto.
Qed.
