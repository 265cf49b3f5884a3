(** The batch search as a one-pass walk over annotated lines, and its invariant. *)
From Coq Require Import String List NArith Arith Bool Lia ZifyBool ZifyN ZifyNat.
From Verif Require Import Common ProcModel.
Import ListNotations.
Open Scope nat_scope.

Lemma skipn_app_le {A} n (a b : list A) : n <= length a -> skipn n (a ++ b) = skipn n a ++ b.
Proof. intros. rewrite skipn_app. replace (n - length a) with 0 by lia. reflexivity. Qed.

Lemma skipn_skipn' {A} a b (l : list A) : skipn a (skipn b l) = skipn (a + b) l.
Proof.
  revert l. induction b; intros l; [now rewrite Nat.add_0_r|].
  destruct l; [now rewrite !skipn_nil|]. rewrite Nat.add_succ_r. apply IHb.
Qed.

Lemma firstn_skipn_app {A} k n (a b : list A) : n = length a -> k <= n ->
  firstn (n - k) (skipn k (a ++ b)) = skipn k a.
Proof.
  intros -> Hk. rewrite skipn_app_le by assumption.
  rewrite firstn_app, skipn_length, firstn_all2 by (rewrite skipn_length; lia).
  replace (length a - k - (length a - k)) with 0 by lia. cbn. apply app_nil_r.
Qed.

Lemma NoDup_app_right {A} (a b : list A) : NoDup (a ++ b) -> NoDup b.
Proof. induction a; cbn; intros H; [assumption|]. inversion H; auto. Qed.

Lemma NoDup_snoc {A} (l : list A) x : NoDup l -> ~ In x l -> NoDup (l ++ [x]).
Proof.
  intros H Hx. apply NoDup_rev in H. rewrite <- (rev_involutive (l ++ [x])), rev_app_distr.
  apply NoDup_rev. cbn. constructor; [|assumption]. now rewrite <- in_rev.
Qed.

Section Walk.
Context {D : Type}.
Variable above : D -> bool.

(** A line with, if it is searched (a target), its distance. *)
Record entry := mkE { etext : bytes; enr : N; etgt : option D }.
Definition rep (e : entry) : bool := match etgt e with Some d => above d | None => false end.
Definition nrep (e : entry) : Prop := rep e = false.

Definition xbuf (X : list (entry * N)) : list bline :=
  map (fun x => ((etext (fst x), enr (fst x)), snd x)) X.
Definition xtexts (X : list (entry * N)) : list bytes := map (fun x => etext (fst x)) X.
Definition xpairs (X : list (entry * N)) : list (D * N) :=
  flat_map (fun x => match etgt (fst x) with Some d => [(d, snd x)] | None => [] end) X.
Definition xvalid (X : list (entry * N)) : Prop :=
  Forall (fun x => valid_utf8 (etext (fst x)) = true) X.

Definition cb (pos last : nat) (texts lo : list bytes) : list bytes :=
  let k := Nat.max last (pos - 3) in
  let bef := firstn (pos - k) (skipn k texts) in
  if Nat.eqb k 0 && Nat.ltb (length bef) 3
  then skipn (length lo - (3 - length bef)) lo ++ bef else bef.

Definition plain_step (s : @sst D) (b : bytes) : sst :=
  let bp := S (buffer_pos s) in
  match cur s with
  | Some a => let (a', f') := push_after a b (found s) in mkSst bp bp a' f'
  | None => mkSst bp (last_pos s) (cur s) (found s)
  end.

Definition wstep (texts lo : list bytes) (s : @sst D) (e : entry) : sst :=
  let bp := S (buffer_pos s) in
  match etgt e with
  | Some d =>
    if above d then
      mkSst bp bp (Some (mkCtx (cb (buffer_pos s) (last_pos s) texts lo) [] d (enr e) (etext e)))
            (match cur s with Some a => found s ++ [a] | None => found s end)
    else plain_step s (etext e)
  | None => plain_step s (etext e)
  end.

Definition wst_ok (s : @sst D) : Prop :=
  last_pos s <= buffer_pos s /\ (cur s <> None -> last_pos s = buffer_pos s).

Lemma plain_ok s b : wst_ok s -> wst_ok (plain_step s b) /\ buffer_pos (plain_step s b) = S (buffer_pos s).
Proof.
  intros [H1 H2]. unfold plain_step, wst_ok. destruct (cur s) as [a|] eqn:E.
  - destruct (push_after a b (found s)) as [a' f']. cbn. repeat split; auto.
  - cbn. repeat split; auto. congruence.
Qed.

Lemma wstep_ok texts lo s e : wst_ok s ->
  wst_ok (wstep texts lo s e) /\ buffer_pos (wstep texts lo s e) = S (buffer_pos s).
Proof.
  intros H. unfold wstep. destruct (etgt e) as [d|]; [destruct (above d)|]; try apply plain_ok; auto.
  unfold wst_ok. cbn. auto.
Qed.

Lemma fold_wstep_ok texts lo l : forall s, wst_ok s ->
  wst_ok (fold_left (wstep texts lo) l s) /\
  buffer_pos (fold_left (wstep texts lo) l s) = buffer_pos s + length l.
Proof.
  induction l as [|e l IH]; intros s H; cbn [fold_left length]; [split; [assumption|lia]|].
  destruct (wstep_ok texts lo s e H) as [H1 H2]. destruct (IH _ H1) as [H3 H4].
  split; [assumption|]. rewrite H4, H2. lia.
Qed.

Lemma fold_plain_wstep texts lo l : Forall (fun e => etgt e = None) l -> forall s,
  fold_left (wstep texts lo) l s = fold_left plain_step (map etext l) s.
Proof.
  induction 1 as [|e l He Hl IH]; intros s; cbn; [reflexivity|].
  unfold wstep at 2. rewrite He. apply IH.
Qed.

(** ** The model's loops are this walk *)
Lemma to_strings_valid X : xvalid X -> to_strings (xbuf X) = Some (xtexts X).
Proof.
  induction 1 as [|[e c] X H _ IH]; [reflexivity|]. cbn [fst] in H.
  change (xbuf ((e, c) :: X)) with (((etext e, enr e), c) :: xbuf X). cbn [to_strings].
  unfold to_string, btext. cbn [fst]. rewrite H, IH. reflexivity.
Qed.

Lemma xvalid_skipn n X : xvalid X -> xvalid (skipn n X).
Proof.
  intros H. unfold xvalid in *. rewrite <- (firstn_skipn n X) in H. apply Forall_app in H. tauto.
Qed.
Lemma xvalid_firstn n X : xvalid X -> xvalid (firstn n X).
Proof.
  intros H. unfold xvalid in *. rewrite <- (firstn_skipn n X) in H. apply Forall_app in H. tauto.
Qed.

Lemma collect_before_cb pos last X lo : xvalid X -> last <= pos -> pos <= length X ->
  collect_before pos last (xbuf X) lo = Some (cb pos last (xtexts X) lo).
Proof.
  intros HV H1 H2. unfold collect_before, cb, CTX_DISTANCE.
  replace (if Nat.ltb pos 3 then 0 else pos - 3) with (pos - 3) by (destruct (Nat.ltb_spec pos 3); lia).
  set (k := Nat.max last (pos - 3)). assert (Hk : k <= pos) by (unfold k; lia).
  unfold slice. unfold xbuf at 1. rewrite map_length.
  replace (Nat.leb k pos && Nat.leb pos (length X)) with true by lia.
  unfold xbuf. rewrite skipn_map, firstn_map. fold (xbuf (firstn (pos - k) (skipn k X))).
  rewrite to_strings_valid by (apply xvalid_firstn, xvalid_skipn; assumption).
  unfold xtexts at 1 2 3 4. rewrite <- !firstn_map, <- !skipn_map. fold (xtexts X).
  destruct (Nat.eqb k 0 && Nat.ltb _ 3); [|reflexivity].
  f_equal. f_equal. f_equal. lia.
Qed.

Lemma inner_skip an c X : Forall (fun x => snd x <> c) X -> xvalid X -> forall s t rest,
  inner an c (xbuf X ++ rest) s t = inner an c rest (fold_left plain_step (xtexts X) s) t.
Proof.
  induction X as [|[e c'] X IH]; intros H HV s t rest; cbn [xbuf map app xtexts fold_left]; [reflexivity|].
  inversion H as [|? ? Hc H']; subst. inversion HV as [|? ? Hv HV']; subst. cbn [fst snd] in *.
  cbn [inner]. apply N.eqb_neq in Hc. rewrite Hc. cbn [andb].
  unfold to_string. rewrite Hv. unfold plain_step at 2.
  destruct (cur s) as [a|] eqn:Ec; cbn [etext].
  - destruct (push_after a (etext e) (found s)) as [a' f']. apply IH; assumption.
  - apply IH; assumption.
Qed.

Lemma inner_hit an c e rest s t : valid_utf8 (etext e) = true ->
  inner an c (((etext e, enr e), c) :: rest) s t =
  Some (if an then (mkSst (S (buffer_pos s)) (last_pos s) (cur s) (found s), Some (etext e, enr e))
        else (plain_step s (etext e), t)).
Proof.
  intros Hv. cbn [inner]. rewrite N.eqb_refl. cbn [andb]. unfold to_string. rewrite Hv.
  destruct an; [reflexivity|]. unfold plain_step.
  destruct (cur s) as [a|]; [destruct (push_after a (etext e) (found s))|]; reflexivity.
Qed.

Inductive grouped : list (entry * N) -> Prop :=
| g_nil : grouped []
| g_cons : forall dups e c d rest, Forall (fun x => etgt (fst x) = None) dups ->
    etgt e = Some d -> grouped rest -> grouped (dups ++ (e, c) :: rest).

Lemma group_split X : exists X1 X2, X = X1 ++ X2 /\ grouped X1 /\ Forall (fun x => etgt (fst x) = None) X2.
Proof.
  induction X as [|[e c] X (X1 & X2 & -> & H1 & H2)].
  - exists [], []. repeat constructor.
  - destruct (etgt e) as [d|] eqn:E.
    + exists ((e, c) :: X1), X2. split; [reflexivity|]. split; [|assumption].
      apply (g_cons [] e c d X1); auto.
    + destruct H1 as [|dups e' c' d' rest Hd He Hr].
      * exists [], ((e, c) :: X2). split; [reflexivity|]. split; constructor; auto.
      * exists (((e, c) :: dups) ++ (e', c') :: rest), X2. split; [reflexivity|]. split; [|assumption].
        apply (g_cons _ e' c' d'); auto.
Qed.

Lemma xpairs_app X Y : xpairs (X ++ Y) = xpairs X ++ xpairs Y.
Proof. apply flat_map_app. Qed.
Lemma xpairs_none X : Forall (fun x => etgt (fst x) = None) X -> xpairs X = [].
Proof. induction 1 as [|x X H _ IH]; cbn; [reflexivity|]. rewrite H. exact IH. Qed.
Lemma xbuf_app X Y : xbuf (X ++ Y) = xbuf X ++ xbuf Y.
Proof. apply map_app. Qed.
Lemma xtexts_app X Y : xtexts (X ++ Y) = xtexts X ++ xtexts Y.
Proof. apply map_app. Qed.
Lemma xbuf_length X : length (xbuf X) = length X.
Proof. apply map_length. Qed.

Lemma outer_walk lo X1 : grouped X1 -> forall pre X2 s, xvalid (pre ++ X1 ++ X2) ->
  NoDup (map snd (pre ++ X1 ++ X2)) -> wst_ok s -> buffer_pos s = length pre ->
  outer above (xpairs X1) (xbuf (pre ++ X1 ++ X2)) lo s =
  Some (fold_left (wstep (xtexts (pre ++ X1 ++ X2)) lo) (map fst X1) s).
Proof.
  induction 1 as [|dups e c d rest Hd He Hr IH]; intros pre X2 s HV HN Hs Hp; [reflexivity|].
  set (X := pre ++ (dups ++ (e, c) :: rest) ++ X2) in *.
  rewrite xpairs_app, (xpairs_none dups) by assumption. cbn [app xpairs flat_map fst snd].
  rewrite He. cbn [app outer]. unfold slice_from.
  assert (HX : X = pre ++ dups ++ (e, c) :: rest ++ X2) by (unfold X; now rewrite <- app_assoc).
  replace (Nat.leb (buffer_pos s) (length (xbuf X))) with true
    by (rewrite xbuf_length, HX, app_length; lia).
  assert (Hsk : skipn (buffer_pos s) (xbuf X) =
                xbuf dups ++ ((etext e, enr e), c) :: xbuf (rest ++ X2)).
  { rewrite HX, xbuf_app, skipn_app, skipn_all2 by (rewrite xbuf_length; lia).
    rewrite xbuf_length, Hp, Nat.sub_diag. cbn [skipn app]. rewrite xbuf_app. reflexivity. }
  rewrite Hsk.
  assert (HVd : xvalid dups /\ valid_utf8 (etext e) = true).
  { unfold xvalid in *. rewrite HX in HV. apply Forall_app in HV. destruct HV as [_ HV].
    apply Forall_app in HV. destruct HV as [HV1 HV2]. inversion HV2; auto. }
  destruct HVd as [HVd HVe].
  assert (Hcd : Forall (fun x => snd x <> c) dups).
  { rewrite HX, !map_app in HN. apply NoDup_app_right in HN.
    cbn [map snd] in HN. apply NoDup_remove_2 in HN.
    apply Forall_forall. intros x Hx Ex. apply HN, in_or_app. left. rewrite <- Ex. now apply in_map. }
  rewrite inner_skip by assumption. rewrite inner_hit by assumption.
  rewrite map_app, fold_left_app. cbn [map fst fold_left].
  assert (Hdm : Forall (fun e => etgt e = None) (map fst dups)) by (apply Forall_map; exact Hd).
  rewrite (fold_plain_wstep (xtexts X) lo _ Hdm s), map_map. change (map (fun x => etext (fst x)) dups) with (xtexts dups).
  destruct (fold_wstep_ok (xtexts X) lo (map fst dups) s Hs) as [Hs1 Hp1].
  rewrite (fold_plain_wstep (xtexts X) lo _ Hdm s), map_map in Hs1, Hp1.
  change (map (fun x => etext (fst x)) dups) with (xtexts dups) in Hs1, Hp1.
  set (s1 := fold_left plain_step (xtexts dups) s) in *. rewrite map_length in Hp1.
  assert (HX' : X = (pre ++ dups ++ [(e, c)]) ++ rest ++ X2).
  { rewrite HX, <- !app_assoc. reflexivity. }
  assert (Hlen : length (pre ++ dups ++ [(e, c)]) = S (buffer_pos s1)).
  { rewrite !app_length. cbn [length]. lia. }
  unfold wstep at 2. rewrite He. destruct (above d) eqn:Ea.
  - cbn [buffer_pos last_pos cur found]. destruct Hs1 as [Hl Hc].
    rewrite collect_before_cb; [|assumption|assumption|].
    2:{ rewrite HX', app_length. lia. }
    rewrite HX'. rewrite HX' in HV, HN. apply IH; auto.
    split; cbn; auto.
  - rewrite HX'. rewrite HX' in HV, HN.
    destruct (plain_ok s1 (etext e) Hs1) as [Ho Hb].
    apply IH; auto. lia.
Qed.

(** The completion loop as a fold. *)
Fixpoint fin (a : @actx D) (texts : list bytes) (f : list actx) : option actx * list actx :=
  match texts with
  | [] => (Some a, f)
  | t :: texts' =>
    match push_after a t f with
    | (Some a', f') => fin a' texts' f'
    | (None, f') => (None, f')
    end
  end.

Lemma finish_fin X : xvalid X -> forall a f, finish a (xbuf X) f = Some (fin a (xtexts X) f).
Proof.
  induction 1 as [|[e c] X Hv _ IH]; intros a f; cbn [xbuf map finish xtexts fin]; [reflexivity|].
  unfold btext, to_string. cbn [fst] in *. rewrite Hv.
  destruct (push_after a (etext e) f) as [[a'|] f']; [apply IH|reflexivity].
Qed.

Definition fin_opt (c : option (@actx D)) (texts : list bytes) (f : list actx) :=
  match c with Some a => fin a texts f | None => (None, f) end.

Lemma reset_lo X last : xvalid X -> last <= length X ->
  reset_left_overs (xbuf X) last = Some (skipn (Nat.max last (length X - 3)) (xtexts X)).
Proof.
  intros HV Hl. unfold reset_left_overs, CTX_DISTANCE, slice_from. rewrite xbuf_length.
  replace (if Nat.ltb (length X) 3 then 0 else length X - 3) with (length X - 3)
    by (destruct (Nat.ltb_spec (length X) 3); lia).
  replace (Nat.leb (Nat.max last (length X - 3)) (length X)) with true by lia.
  unfold xbuf. rewrite skipn_map. fold (xbuf (skipn (Nat.max last (length X - 3)) X)).
  rewrite to_strings_valid by (apply xvalid_skipn; assumption).
  unfold xtexts. now rewrite skipn_map.
Qed.

Lemma do_search_walk search (p : @proc D) X X1 X2 :
  buffer p = xbuf X -> combine (search (targets p)) (targets_coord p) = xpairs X ->
  X = X1 ++ X2 -> grouped X1 -> Forall (fun x => etgt (fst x) = None) X2 ->
  xvalid X -> NoDup (map snd X) ->
  let s := fold_left (wstep (xtexts X) (left_overs p)) (map fst X1) (mkSst 0 0 (current p) (anomalies p)) in
  let cf := fin_opt (cur s) (xtexts X2) (found s) in
  do_search above search p =
  Some (mkProc (src p) [] [] [] (skipn (Nat.max (last_pos s) (length X - 3)) (xtexts X))
               (fst cf) (snd cf) (skip p) (coord p) (line_count p) (byte_count p)).
Proof.
  intros Hb Hp HX Hg Hn HV HN s cf. unfold do_search. rewrite Hp, Hb.
  replace (xpairs X) with (xpairs X1) by (rewrite HX, xpairs_app, (xpairs_none X2), app_nil_r; auto).
  assert (H0 : wst_ok (mkSst 0 0 (current p) (anomalies p))) by (split; cbn; auto).
  pose proof (outer_walk (left_overs p) X1 Hg [] X2 (mkSst 0 0 (current p) (anomalies p))) as HO.
  cbn [app length] in HO. rewrite <- HX in HO. rewrite HO; auto. fold s.
  destruct (fold_wstep_ok (xtexts X) (left_overs p) (map fst X1) _ H0) as [[Hl Hc] Hbp].
  fold s in Hl, Hc, Hbp. cbn [buffer_pos] in Hbp. rewrite map_length in Hbp.
  assert (HL : length X = length X1 + length X2) by (rewrite HX, app_length; reflexivity).
  rewrite reset_lo by (auto; lia).
  subst cf. unfold fin_opt. destruct (cur s) as [a|] eqn:Ec; [|reflexivity].
  rewrite xbuf_length. rewrite (Hc ltac:(discriminate)), Hbp.
  assert (HV2 : xvalid X2) by (unfold xvalid in *; rewrite HX in HV; apply Forall_app in HV; tauto).
  destruct (Nat.ltb_spec (0 + length X1) (length X)) as [Hlt|Hge].
  - rewrite HX at 1. rewrite xbuf_app, skipn_app, skipn_all2 by (rewrite xbuf_length; lia).
    rewrite xbuf_length. replace (0 + length X1 - length X1) with 0 by lia. cbn [skipn app].
    rewrite finish_fin by assumption.
    destruct (fin a (xtexts X2) (found s)) as [c' f']. reflexivity.
  - assert (X2 = []) as -> by (destruct X2; [reflexivity|cbn in HL; lia]). reflexivity.
Qed.

End Walk.
