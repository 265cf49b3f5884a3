(** Invariant of the walk over a batch: what the contexts found so far are. *)
From Coq Require Import String List NArith Arith Bool Lia ZifyBool ZifyN ZifyNat.
From Verif Require Import Common ProcModel ProcWalk.
Import ListNotations.
Open Scope nat_scope.

Ltac csplit := repeat match goal with |- _ /\ _ => split end.

Section Inv.
Context {D : Type}.
Variable above : D -> bool.
Variables mx ov : bool.       (* claim maximality / claim disjointness of contexts *)
Notation entry := (@entry D).
Notation actx := (@actx D).
Notation rep := (rep above).
Notation nrep := (nrep above).

Definition matches (c : actx) (x : entry) : Prop :=
  aline c = etext x /\ apos c = enr x /\ etgt x = Some (distance c).

Definition before_ok (c : actx) (p : list entry) : Prop :=
  exists p0 p1, p = p0 ++ p1 /\ before c = map etext p1 /\ length p1 <= 3 /\ Forall nrep p1.

(** The anomaly [c] at position [i] of [L]. *)
Definition ctx_ok (L : list entry) (i : nat) (c : actx) : Prop :=
  exists p x q, L = p ++ x :: q /\ length p = i /\ rep x = true /\ matches c x /\ before_ok c p /\
    exists q0 q1, q = q0 ++ q1 /\ after c = map etext q0 /\ length q0 <= 3 /\ Forall nrep q0.

(** ... still collecting its after context. *)
Definition open_ok (L : list entry) (i : nat) (c : actx) : Prop :=
  exists p x q, L = p ++ x :: q /\ length p = i /\ rep x = true /\ matches c x /\ before_ok c p /\
    after c = map etext q /\ length q < 3 /\ Forall nrep q.

Definition hist := list (nat * actx).     (* most recent first *)

Definition ctxend (h : hist) : nat :=
  match h with [] => 0 | (j, c) :: _ => j + S (length (after c)) end.

Definition link (h : hist) (i : nat) (c : actx) : Prop :=
  (mx = true -> h <> [] -> ctxend h = i \/ match h with (_, c') :: _ => length (after c') = 3 | [] => False end) /\
  (mx = true -> length (before c) = 3 \/ i <= ctxend h + length (before c)) /\
  (ov = true -> ctxend h + length (before c) <= i).

Fixpoint hist_ok (L : list entry) (h : hist) : Prop :=
  match h with
  | [] => True
  | (i, c) :: h' => ctx_ok L i c /\ link h' i c /\ hist_ok L h'
  end.

Definition rpos (L : list entry) : list nat :=
  filter (fun i => match nth_error L i with Some e => rep e | None => false end) (seq 0 (length L)).

Lemma rpos_snoc L e : rpos (L ++ [e]) = rpos L ++ (if rep e then [length L] else []).
Proof.
  unfold rpos. rewrite app_length. cbn [length]. rewrite Nat.add_1_r, seq_S, filter_app. f_equal.
  - apply filter_ext_in. intros i Hi. apply in_seq in Hi. rewrite nth_error_app1 by lia. reflexivity.
  - cbn [filter Nat.add]. rewrite nth_error_app2, Nat.sub_diag by lia. reflexivity.
Qed.

Lemma rpos_nrep L l : Forall nrep l -> rpos (L ++ l) = rpos L.
Proof.
  intros H. revert L. induction H as [|e l He Hl IH]; intros L; [now rewrite app_nil_r|].
  replace (L ++ e :: l) with ((L ++ [e]) ++ l) by (rewrite <- app_assoc; reflexivity).
  rewrite IH, rpos_snoc. unfold ProcWalk.nrep in He. rewrite He. apply app_nil_r.
Qed.

Lemma ctx_ok_app L l i c : ctx_ok L i c -> ctx_ok (L ++ l) i c.
Proof.
  intros (p & x & q & -> & Hi & Hr & Hm & Hb & q0 & q1 & -> & Ha).
  exists p, x, (q0 ++ q1 ++ l). split; [rewrite <- app_assoc; cbn [app]; rewrite <- app_assoc; reflexivity|].
  repeat (split; [assumption|]). exists q0, (q1 ++ l). auto.
Qed.

Lemma hist_ok_app L l h : hist_ok L h -> hist_ok (L ++ l) h.
Proof. induction h as [|[i c] h IH]; cbn; [auto|]. intros (H1 & H2 & H3). auto using ctx_ok_app. Qed.

Lemma open_closed L i c : open_ok L i c -> ctx_ok L i c.
Proof.
  intros (p & x & q & -> & Hi & Hr & Hm & Hb & Ha & Hl & Hn).
  exists p, x, q. repeat (split; [auto|]). exists q, []. rewrite app_nil_r. repeat split; auto. lia.
Qed.

Lemma open_end L i c : open_ok L i c -> i + S (length (after c)) = length L.
Proof.
  intros (p & x & q & -> & Hi & Hr & Hm & Hb & Ha & Hl & Hn).
  rewrite Ha, map_length, app_length. cbn. lia.
Qed.

(** The full history, with the open anomaly. *)
Definition full (cur : option actx) (h hall : hist) (L : list entry) : Prop :=
  match cur with
  | None => hall = h
  | Some a => exists j, hall = (j, a) :: h /\ open_ok L j a /\ link h j a
  end.

Definition lo_ok (P : list entry) (lo : list bytes) : Prop :=
  exists P0 l, P = P0 ++ l /\ lo = map etext l /\ Forall nrep l /\ length l <= 3.

(** Basic facts at any point: history of [L], with [Y] already yielded. *)
Definition Core (L : list entry) (cur : option actx) (found Y : list actx) (h hall : hist) : Prop :=
  rev (map snd h) = Y ++ found /\ hist_ok L h /\ full cur h hall L /\
  rev (map fst hall) = rpos L.

(** Claims at a batch boundary that maximality and disjointness need. *)
Definition Bound (P : list entry) (lo : list bytes) (cur : option actx) (hall : hist) : Prop :=
  (ov = true -> ctxend hall + length lo <= length P) /\
  (mx = true -> length lo = 3 \/ length P <= ctxend hall + length lo) /\
  (mx = true -> cur = None -> match hall with [] => True | (_, c) :: _ => length (after c) = 3 end).

(** The last anomaly has all its after context, as far as [P] goes. *)
Definition Last (P : list entry) (hall : hist) : Prop :=
  match hall with [] => True | (_, c) :: _ => length (after c) = 3 \/ length P <= ctxend hall end.

Definition WInv (P pre : list entry) (lo : list bytes) (s : @sst D) (Y : list actx) (h hall : hist) : Prop :=
  Core (P ++ pre) (cur s) (found s) Y h hall /\
  lo_ok P lo /\ wst_ok s /\ buffer_pos s = length pre /\
  Forall nrep (skipn (last_pos s) pre) /\
  (0 < last_pos s -> ctxend hall = length P + last_pos s) /\
  (last_pos s = 0 -> ov = true -> ctxend hall + length lo <= length P) /\
  (last_pos s = 0 -> mx = true -> length lo = 3 \/ length P <= ctxend hall + length lo) /\
  (mx = true -> cur s = None -> match hall with [] => True | (_, c) :: _ => length (after c) = 3 end).

Lemma WInv_start P lo cur0 f Y h hall :
  Core P cur0 f Y h hall -> lo_ok P lo -> Bound P lo cur0 hall ->
  WInv P [] lo (mkSst 0 0 cur0 f) Y h hall.
Proof.
  intros HC HL (B1 & B2 & B3). unfold WInv. rewrite app_nil_r. cbn.
  split; [assumption|]. split; [assumption|]. split; [split; cbn; auto|].
  repeat split; auto; lia.
Qed.

Lemma Forall_snoc {A} (Q : A -> Prop) l x : Forall Q l -> Q x -> Forall Q (l ++ [x]).
Proof. intros. apply Forall_app. auto. Qed.

Lemma skipn_snoc_forall (Q : entry -> Prop) k pre e : Forall Q (skipn k pre) -> Q e -> Forall Q (skipn k (pre ++ [e])).
Proof.
  intros H He. destruct (Nat.le_gt_cases k (length pre)).
  - rewrite skipn_app_le by assumption. now apply Forall_snoc.
  - rewrite skipn_all2 by (rewrite app_length; cbn; lia). constructor.
Qed.

Lemma push_after_cases (a : actx) b f :
  let a' := mkCtx (before a) (after a ++ [b]) (distance a) (apos a) (aline a) in
  push_after a b f = if Nat.leb 3 (S (length (after a))) then (None, f ++ [a']) else (Some a', f).
Proof. unfold push_after, CTX_DISTANCE. cbn [after]. rewrite app_length, Nat.add_1_r. reflexivity. Qed.

(** Extending the open anomaly by one line that is not reported. *)
Lemma extend_open L j a h e : open_ok L j a -> nrep e -> link h j a ->
  let a' := mkCtx (before a) (after a ++ [etext e]) (distance a) (apos a) (aline a) in
  link h j a' /\ ctx_ok (L ++ [e]) j a' /\
  (length (after a) < 2 -> open_ok (L ++ [e]) j a') /\ (2 <= length (after a) -> length (after a') = 3).
Proof.
  intros (p & x & q & -> & Hi & Hr & (M1 & M2 & M3) & Hb & Ha & Hl & Hn) He (K1 & K2 & K3) a'.
  split; [repeat split; assumption|].
  assert (Hq : length (after a) = length q) by (rewrite Ha; apply map_length).
  split; [|split].
  - exists p, x, (q ++ [e]). split; [rewrite <- app_assoc; reflexivity|].
    repeat (split; [first [assumption|repeat split; assumption]|]).
    exists (q ++ [e]), []. rewrite app_nil_r. subst a'. cbn [after].
    rewrite Ha, map_app, app_length. cbn. repeat split; auto; [lia|]. now apply Forall_snoc.
  - intros H2. exists p, x, (q ++ [e]). split; [rewrite <- app_assoc; reflexivity|].
    repeat (split; [first [assumption|repeat split; assumption]|]).
    subst a'. cbn [after]. rewrite Ha, map_app, app_length. cbn. repeat split; auto; [lia|].
    now apply Forall_snoc.
  - intros H2. subst a'. cbn [after]. rewrite app_length. cbn. lia.
Qed.

(** One line that is not reported. *)
Lemma WInv_plain P pre lo s Y h hall e : WInv P pre lo s Y h hall -> nrep e ->
  exists h' hall', WInv P (pre ++ [e]) lo (plain_step s (etext e)) Y h' hall'.
Proof.
  intros ((C1 & C2 & C3 & C4) & HL & Hs & Hp & Hn & H1 & H2 & H3 & H4) He.
  destruct (plain_ok s (etext e) Hs) as [Hs' Hp'].
  assert (Hlen : length (pre ++ [e]) = S (length pre)) by (rewrite app_length; cbn; lia).
  unfold plain_step in *. destruct (cur s) as [a|] eqn:Ec.
  - destruct C3 as (j & -> & Ho & Hk).
    rewrite push_after_cases in *.
    destruct (extend_open _ _ _ _ e Ho He Hk) as (E1 & E2 & E3 & E4).
    pose proof (open_end _ _ _ Ho) as Hend. rewrite app_length in Hend.
    set (a' := mkCtx (before a) (after a ++ [etext e]) (distance a) (apos a) (aline a)) in *.
    assert (Ha' : length (after a') = S (length (after a))) by (subst a'; cbn; rewrite app_length; cbn; lia).
    assert (Hrp : rev (map fst ((j, a') :: h)) = rpos (P ++ pre ++ [e])).
    { rewrite app_assoc, rpos_snoc. unfold ProcWalk.nrep in He. rewrite He, app_nil_r. exact C4. }
    destruct (Nat.leb_spec 3 (S (length (after a)))) as [H3'|H3'].
    + exists ((j, a') :: h), ((j, a') :: h). unfold WInv, Core. cbn [cur found last_pos buffer_pos full].
      csplit; try assumption; try lia; try reflexivity.
      * cbn [map rev snd]. rewrite C1, app_assoc. reflexivity.
      * rewrite app_assoc. cbn [hist_ok]. csplit; try assumption. now apply hist_ok_app.
      * rewrite skipn_all2 by lia. constructor.
      * intros _. cbn [ctxend]. lia.
    + exists h, ((j, a') :: h). unfold WInv, Core. cbn [cur found last_pos buffer_pos full].
      csplit; try assumption; try lia; try reflexivity.
      * rewrite app_assoc. now apply hist_ok_app.
      * exists j. split; [reflexivity|]. split; [rewrite app_assoc; apply E3; lia|assumption].
      * rewrite skipn_all2 by lia. constructor.
      * intros _. cbn [ctxend]. lia.
      * intros _ K. discriminate K.
  - exists h, hall. unfold WInv, Core. cbn [cur found last_pos buffer_pos full] in *. subst hall.
    csplit; try assumption; try lia; try reflexivity; try apply Hs'.
    + rewrite app_assoc. now apply hist_ok_app.
    + rewrite app_assoc, rpos_snoc. unfold ProcWalk.nrep in He. rewrite He, app_nil_r. exact C4.
    + now apply skipn_snoc_forall.
Qed.

(** The before context of a new anomaly. *)
Lemma cb_spec P pre rest lo last hall :
  lo_ok P lo -> last <= length pre -> Forall nrep (skipn last pre) ->
  (0 < last -> ctxend hall = length P + last) ->
  (last = 0 -> ov = true -> ctxend hall + length lo <= length P) ->
  (last = 0 -> mx = true -> length lo = 3 \/ length P <= ctxend hall + length lo) ->
  let bef := cb (length pre) last (map etext (pre ++ rest)) lo in
  (exists p0 p1, P ++ pre = p0 ++ p1 /\ bef = map etext p1 /\ length p1 <= 3 /\ Forall nrep p1) /\
  (mx = true -> length bef = 3 \/ length P + length pre <= ctxend hall + length bef) /\
  (ov = true -> ctxend hall + length bef <= length P + length pre).
Proof.
  intros (P0 & l & -> & -> & Hl & Hl3) Hlast Hn H1 H2 H3. unfold cb.
  set (k := Nat.max last (length pre - 3)). assert (Hk : last <= k <= length pre) by (unfold k; lia).
  rewrite map_app, firstn_skipn_app by (rewrite ?map_length; lia).
  rewrite skipn_map, map_length, skipn_length.
  assert (Hnk : Forall nrep (skipn k pre)).
  { replace k with (last + (k - last)) by lia.
    rewrite <- (firstn_skipn (k - last) (skipn last pre)) in Hn. apply Forall_app in Hn.
    destruct Hn as [_ Hn]. revert Hn. rewrite skipn_skipn'. now rewrite Nat.add_comm. }
  destruct (Nat.eqb_spec k 0) as [Ek|Ek]; cbn [andb].
  - assert (last = 0) by lia. subst last.
    assert (Hp3 : length pre <= 3) by lia.
    destruct (Nat.ltb_spec (length pre - k) 3) as [Hlt|Hge].
    + set (w := length l - (3 - (length pre - k))).
      rewrite map_length. fold w. rewrite skipn_map.
      rewrite app_length, !map_length, !skipn_length.
      rewrite map_length in H2, H3. rewrite app_length in *.
      split; [|split].
      * exists (P0 ++ firstn w l), (skipn w l ++ pre). rewrite Ek. cbn [skipn].
        split; [|split; [|split]].
        -- rewrite <- !app_assoc. f_equal. rewrite app_assoc, firstn_skipn. reflexivity.
        -- now rewrite map_app.
        -- rewrite app_length, skipn_length. lia.
        -- apply Forall_app. split.
           ++ rewrite <- (firstn_skipn w l) in Hl. apply Forall_app in Hl. tauto.
           ++ rewrite Ek in Hnk. exact Hnk.
      * intros Hm. specialize (H3 eq_refl Hm). lia.
      * intros Ho. specialize (H2 eq_refl Ho). lia.
    + rewrite map_length, skipn_length. rewrite map_length in H2, H3. rewrite app_length in *.
      split; [|split].
      * exists (P0 ++ l), pre. rewrite Ek in *. cbn [skipn] in *. csplit; auto.
      * intros Hm. left. lia.
      * intros Ho. specialize (H2 eq_refl Ho). lia.
  - rewrite map_length, skipn_length. rewrite app_length in *.
    split; [|split].
    + exists ((P0 ++ l) ++ firstn k pre), (skipn k pre).
      rewrite <- (app_assoc (P0 ++ l) (firstn k pre) (skipn k pre)), firstn_skipn. csplit; auto. rewrite skipn_length. lia.
    + intros Hm. destruct (Nat.eq_dec last k).
      * right. rewrite H1 by lia. lia.
      * left. lia.
    + intros Ho. destruct (Nat.eq_dec last 0) as [->|].
      * specialize (H2 eq_refl Ho). rewrite map_length in H2. lia.
      * rewrite H1 by lia. lia.
Qed.

(** One line that is reported. *)
Lemma WInv_rep P pre rest lo s Y h hall e d : WInv P pre lo s Y h hall ->
  etgt e = Some d -> above d = true ->
  exists h' hall', WInv P (pre ++ [e]) lo
    (wstep above (map etext (pre ++ rest)) lo s e) Y h' hall'.
Proof.
  intros ((C1 & C2 & C3 & C4) & HL & Hs & Hp & Hn & H1 & H2 & H3 & H4) Ed Ha.
  destruct (wstep_ok above (map etext (pre ++ rest)) lo s e Hs) as [Hs' Hp'].
  destruct (cb_spec P pre rest lo (last_pos s) hall HL ltac:(rewrite <- Hp; apply Hs) Hn H1 H2 H3)
    as (B1 & B2 & B3).
  unfold wstep in *. rewrite Ed, Ha in *. rewrite Hp in *.
  set (bef := cb (length pre) (last_pos s) (map etext (pre ++ rest)) lo) in *.
  set (i := length P + length pre) in *.
  set (c := mkCtx bef [] d (enr e) (etext e)).
  assert (Hlen : length (pre ++ [e]) = S (length pre)) by (rewrite app_length; cbn; lia).
  assert (Hrep : rep e = true) by (unfold ProcWalk.rep; now rewrite Ed).
  assert (Hop : open_ok (P ++ pre ++ [e]) i c).
  { exists (P ++ pre), e, []. split; [now rewrite app_assoc|]. split; [apply app_length|].
    split; [assumption|]. split; [repeat split; assumption|]. split; [exact B1|].
    cbn. csplit; auto; lia. }
  (* the history once the previous open anomaly is closed is [hall] *)
  assert (Hall : hist_ok (P ++ pre ++ [e]) hall /\
    rev (map snd hall) = Y ++ match cur s with Some a => found s ++ [a] | None => found s end /\
    link hall i c).
  { rewrite app_assoc. unfold full in C3. destruct (cur s) as [a|] eqn:Ec.
    - destruct C3 as (j & -> & Ho & Hk). pose proof (open_end _ _ _ Ho) as Hend.
      rewrite app_length in Hend. split; [|split].
      + cbn [hist_ok]. split; [apply ctx_ok_app, open_closed; assumption|].
        split; [assumption|now apply hist_ok_app].
      + cbn [map rev snd]. rewrite C1, app_assoc. reflexivity.
      + split; [|split; assumption]. intros _ _. left. cbn [ctxend]. unfold i. lia.
    - subst hall. split; [now apply hist_ok_app|]. split; [exact C1|].
      split; [|split; assumption]. intros Hm Hne. right. specialize (H4 Hm eq_refl).
      destruct h as [|[? ?] ?]; [congruence|exact H4]. }
  destruct Hall as (A1 & A2 & A3).
  exists hall, ((i, c) :: hall). unfold WInv, Core. cbn [cur found last_pos buffer_pos full].
  csplit; try assumption; try lia; try reflexivity.
  - exists i. auto.
  - cbn [map rev fst]. rewrite C4, app_assoc, rpos_snoc, Hrep, app_length. reflexivity.
  - rewrite skipn_all2 by lia. constructor.
  - intros _. cbn [ctxend after c length]. unfold i. lia.
  - intros _ K. discriminate K.
Qed.

Lemma WInv_step P pre rest lo s Y h hall e : WInv P pre lo s Y h hall ->
  exists h' hall', WInv P (pre ++ [e]) lo
    (wstep above (map etext (pre ++ rest)) lo s e) Y h' hall'.
Proof.
  intros H. destruct (etgt e) as [d|] eqn:E; [destruct (above d) eqn:Ea|].
  - eapply WInv_rep; eauto.
  - unfold wstep. rewrite E, Ea. eapply WInv_plain; [eassumption|].
    unfold ProcWalk.nrep, ProcWalk.rep. now rewrite E.
  - unfold wstep. rewrite E. eapply WInv_plain; [eassumption|].
    unfold ProcWalk.nrep, ProcWalk.rep. now rewrite E.
Qed.

Lemma WInv_fold P lo Y tail l : forall pre s h hall, WInv P pre lo s Y h hall ->
  exists h' hall', WInv P (pre ++ l) lo
    (fold_left (wstep above (map etext (pre ++ l ++ tail)) lo) l s) Y h' hall'.
Proof.
  induction l as [|e l IH]; intros pre s h hall H; cbn [fold_left].
  - rewrite app_nil_r. eauto.
  - destruct (WInv_step P pre ((e :: l) ++ tail) lo s Y h hall e H) as (h1 & hall1 & H').
    destruct (IH _ _ _ _ H') as (h2 & hall2 & H2).
    rewrite <- !app_assoc in H2. cbn [app] in *. eauto.
Qed.

(** The completion loop. *)
Lemma fin_spec Y l : Forall nrep l -> forall L a f h j,
  rev (map snd h) = Y ++ f -> hist_ok L h -> open_ok L j a -> link h j a ->
  rev (map fst ((j, a) :: h)) = rpos L ->
  let cf := fin a (map etext l) f in
  exists h' hall', Core (L ++ l) (fst cf) (snd cf) Y h' hall' /\
    ctxend ((j, a) :: h) <= ctxend hall' /\ (l = [] -> hall' = (j, a) :: h) /\
    (fst cf = None -> match hall' with [] => True | (_, c) :: _ => length (after c) = 3 end).
Proof.
  induction 1 as [|e l He Hl IH]; intros L a f h j C1 C2 Ho Hk C4; cbn [fin map].
  - exists h, ((j, a) :: h). rewrite app_nil_r. unfold Core. cbn [fst snd full].
    csplit; eauto. discriminate.
  - rewrite push_after_cases.
    destruct (extend_open L j a h e Ho He Hk) as (E1 & E2 & E3 & E4).
    set (a' := mkCtx (before a) (after a ++ [etext e]) (distance a) (apos a) (aline a)) in *.
    assert (Ha' : length (after a') = S (length (after a))) by (subst a'; cbn; rewrite app_length; cbn; lia).
    replace (L ++ e :: l) with ((L ++ [e]) ++ l) by (rewrite <- app_assoc; reflexivity).
    destruct (Nat.leb_spec 3 (S (length (after a)))) as [H3'|H3'].
    + exists ((j, a') :: h), ((j, a') :: h). unfold Core. cbn [fst snd full ctxend].
      csplit; auto.
      * cbn [map rev snd]. now rewrite C1, app_assoc.
      * cbn [hist_ok]. csplit; [now apply ctx_ok_app|assumption|]. rewrite <- app_assoc. now apply hist_ok_app.
      * rewrite rpos_nrep, rpos_snoc by assumption. unfold ProcWalk.nrep in He. rewrite He, app_nil_r. exact C4.
      * lia.
      * discriminate.
      * intros _. apply E4. lia.
    + destruct (IH (L ++ [e]) a' f h j C1) as (h' & hall' & I1 & I2 & I3 & I4); auto.
      * now apply hist_ok_app.
      * apply E3. lia.
      * rewrite rpos_snoc. unfold ProcWalk.nrep in He. rewrite He, app_nil_r. exact C4.
      * exists h', hall'. csplit; auto; try discriminate. cbn [ctxend] in *. lia.
Qed.

(** A whole batch [X1 ++ X2] (all the lines of [X2] known). *)
Lemma batch_spec P lo cur0 f0 Y h hall X1 X2 :
  Core P cur0 f0 Y h hall -> lo_ok P lo -> Bound P lo cur0 hall ->
  Forall (fun e : entry => etgt e = None) X2 ->
  let s := fold_left (wstep above (map etext (X1 ++ X2)) lo) X1 (mkSst 0 0 cur0 f0) in
  let cf := fin_opt (cur s) (map etext X2) (found s) in
  let lo' := skipn (Nat.max (last_pos s) (length (X1 ++ X2) - 3)) (map etext (X1 ++ X2)) in
  exists h' hall', Core (P ++ X1 ++ X2) (fst cf) (snd cf) Y h' hall' /\
    lo_ok (P ++ X1 ++ X2) lo' /\
    (mx = true -> fst cf = None -> match hall' with [] => True | (_, c) :: _ => length (after c) = 3 end) /\
    (3 <= length (X1 ++ X2) -> (ov = true -> X2 = []) -> Bound (P ++ X1 ++ X2) lo' (fst cf) hall').
Proof.
  intros HC HL HB HX2 s cf lo'.
  pose proof (WInv_start _ _ _ _ _ _ _ HC HL HB) as H0.
  destruct (WInv_fold P lo Y X2 X1 [] _ _ _ H0) as (h1 & hall1 & HW). cbn [app] in HW.
  fold s in HW. destruct HW as ((C1 & C2 & C3 & C4) & _ & [Hs1 Hs2] & Hp & Hn & W1 & W2 & W3 & W4).
  assert (HX2n : Forall nrep X2).
  { eapply Forall_impl; [|exact HX2]. intros e He. unfold ProcWalk.nrep, ProcWalk.rep. now rewrite He. }
  set (k := Nat.max (last_pos s) (length (X1 ++ X2) - 3)) in *.
  assert (Hlo : lo_ok (P ++ X1 ++ X2) lo').
  { exists (P ++ firstn k (X1 ++ X2)), (skipn k (X1 ++ X2)).
    split; [rewrite <- app_assoc, firstn_skipn; reflexivity|].
    split; [unfold lo'; now rewrite skipn_map|]. split; [|rewrite skipn_length; lia].
    assert (Hall : Forall nrep (skipn (last_pos s) (X1 ++ X2))).
    { rewrite skipn_app_le by (rewrite <- Hp; assumption). apply Forall_app. auto. }
    replace k with ((k - last_pos s) + last_pos s) by lia.
    rewrite <- skipn_skipn'. rewrite <- (firstn_skipn (k - last_pos s) (skipn _ _)) in Hall.
    apply Forall_app in Hall. tauto. }
  assert (Hlo' : length lo' = length (X1 ++ X2) - k).
  { unfold lo'. rewrite skipn_length, map_length. reflexivity. }
  assert (Hres : exists h' hall', Core (P ++ X1 ++ X2) (fst cf) (snd cf) Y h' hall' /\
     ctxend hall1 <= ctxend hall' /\ (X2 = [] -> hall' = hall1) /\
     (mx = true -> fst cf = None -> match hall' with [] => True | (_, c) :: _ => length (after c) = 3 end)).
  { subst cf. unfold fin_opt, full in *. destruct (cur s) as [a|] eqn:Ec.
    - destruct C3 as (j & -> & Ho & Hk).
      destruct (fin_spec Y X2 HX2n (P ++ X1) a (found s) h1 j C1 C2 Ho Hk C4)
        as (h' & hall' & I1 & I2 & I3 & I4).
      rewrite <- app_assoc in I1. exists h', hall'. auto.
    - subst hall1. exists h1, h1. cbn [fst snd]. rewrite app_assoc. unfold Core; csplit; auto; try reflexivity.
      + now apply hist_ok_app.
      + now rewrite rpos_nrep. }
  destruct Hres as (h' & hall' & R1 & R2 & R3 & R4).
  exists h', hall'. split; [assumption|]. split; [assumption|]. split; [assumption|]. intros H3 Hov.
  assert (HlenX : length (P ++ X1 ++ X2) = length P + length (X1 ++ X2)) by apply app_length.
  assert (Hls : last_pos s <= length (X1 ++ X2)) by (rewrite app_length; lia).
  unfold Bound. rewrite Hlo', HlenX. split; [|split].
  - intros Ho. rewrite (R3 (Hov Ho)). destruct (Nat.eq_dec (last_pos s) 0) as [E|E].
    + specialize (W2 E Ho). lia.
    + rewrite W1 by lia. lia.
  - intros Hm. destruct (Nat.eq_dec k (last_pos s)) as [E|E].
    + destruct (Nat.eq_dec (last_pos s) 0) as [E0|E0]; [left; lia|].
      right. rewrite W1 in R2 by lia. lia.
    + left. lia.
  - exact R4.
Qed.

End Inv.
