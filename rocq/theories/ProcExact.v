(** The exact contexts: proofs. *)
From Coq Require Import String List NArith Arith Bool Lia Sorting ZifyBool ZifyN ZifyNat.
From Verif Require Import Common CommonFacts ProcModel ProcSpec ProcStopSpec ProcExactSpec ProcWalk ProcInv ProcMain ProcIndex ProcResult ProcStop.
Import ListNotations.
Open Scope nat_scope.

Section Walk.
Context {D : Type}.
Variable above : D -> bool.
Notation entry := (@entry D).
Notation actx := (@actx D).
Notation rep := (rep above).
Variable L : list entry.              (* the whole stream *)
Variable bs T : nat -> nat.           (* batch starts; positions behind the last target *)

Definition seg (a b : nat) : list bytes := map etext (firstn (b - a) (skipn a L)).

Lemma skipn_seg d a b : skipn d (seg a b) = seg (a + d) b.
Proof.
  unfold seg. rewrite skipn_map, skipn_firstn_comm, skipn_skipn'. f_equal. replace (b - (a + d)) with (b - a - d) by lia. f_equal. f_equal. lia.
Qed.
Lemma firstn_seg m a b : a + m <= b -> firstn m (seg a b) = seg a (a + m).
Proof. intros H. unfold seg. rewrite firstn_map, firstn_firstn. f_equal. f_equal. lia. Qed.
Lemma seg_length a b : b <= length L -> length (seg a b) = b - a.
Proof. intros H. unfold seg. rewrite map_length, firstn_length, skipn_length. lia. Qed.
Lemma seg_app a b c : a <= b -> b <= c -> seg a b ++ seg b c = seg a c.
Proof.
  intros H1 H2. unfold seg. rewrite <- map_app. f_equal. replace (c - a) with ((b - a) + (c - b)) by lia.
  rewrite <- (firstn_skipn (b - a) (firstn (b - a + (c - b)) (skipn a L))).
  rewrite firstn_firstn, skipn_firstn_comm, skipn_skipn'. f_equal; f_equal; try lia. f_equal. lia.
Qed.
Lemma seg_nil a b : b <= a -> seg a b = [].
Proof. intros H. unfold seg. replace (b - a) with 0 by lia. reflexivity. Qed.
Lemma nth_skipn {A} n (l : list A) e : nth_error l n = Some e -> skipn n l = e :: skipn (S n) l.
Proof. revert l. induction n; intros [|x l] H; try discriminate; cbn in *; [congruence|]. now apply IHn. Qed.
Lemma seg_one n e : nth_error L n = Some e -> seg n (S n) = [etext e].
Proof. intros H. unfold seg. replace (S n - n) with 1 by lia. rewrite (nth_skipn _ _ _ H). reflexivity. Qed.
Lemma seg_snoc a n e : a <= n -> nth_error L n = Some e -> seg a (S n) = seg a n ++ [etext e].
Proof. intros H1 H2. rewrite <- (seg_one n e H2). symmetry. apply seg_app; lia. Qed.

(** All anomalies so far, the last one first, after [n] lines. *)
Definition top (h : list (nat * actx)) : option nat := match h with [] => None | (j, _) :: _ => Some j end.
Definition stop (t : option nat) (n : nat) : nat := match t with None => 0 | Some j => Nat.min (j + 4) n end.
Definition lim (t : option nat) (i : nat) : nat :=
  match t with
  | None => 0
  | Some j => let e := Nat.min (j + 4) i in if bs i <? e then e else Nat.min e (T (bs i))
  end.
Fixpoint good (n : nat) (h : list (nat * actx)) : Prop :=
  match h with
  | [] => forall k e, k < n -> nth_error L k = Some e -> rep e = false
  | (j, c) :: h' =>
    j < n /\ (exists e, nth_error L j = Some e /\ rep e = true /\ matches c e) /\
    before c = seg (Nat.max (j - 3) (lim (top h') j)) j /\ after c = seg (j + 1) (Nat.min (j + 4) n) /\
    (forall k e, j < k < n -> nth_error L k = Some e -> rep e = false) /\ good j h'
  end.

Definition opt (c : option actx) : list actx := match c with Some a => [a] | None => [] end.
Definition waits (c : option actx) (h : list (nat * actx)) (n : nat) : Prop :=
  match c with
  | Some a => exists j h', h = (j, a) :: h' /\ n < j + 4
  | None => match h with [] => True | (j, _) :: _ => j + 4 <= n end
  end.

Section Batch.
Variable b : nat.                     (* the start of the batch *)
Variable t0 : option nat.             (* the last anomaly before it *)
Variable Y : list actx.               (* anomalies already returned *)

Definition St (n : nat) (s : @sst D) (h : list (nat * actx)) : Prop :=
  b <= n /\ good n h /\ waits (cur s) h n /\ rev (map snd h) = Y ++ found s ++ opt (cur s) /\
  buffer_pos s = n - b /\ last_pos s = stop (top h) n - b /\
  (top h = t0 \/ exists j, top h = Some j /\ b <= j < n).

Lemma good_len n j c h : good n ((j, c) :: h) -> n <= length L -> length (after c) = Nat.min (j + 4) n - (j + 1).
Proof. intros (_ & _ & _ & H & _) Hn. rewrite H. apply seg_length. lia. Qed.

Lemma st_plain n s h e : St n s h -> n < length L -> nth_error L n = Some e -> rep e = false ->
  exists h', St (S n) (plain_step s (etext e)) h' /\ top h' = top h.
Proof.
  intros (S1 & S2 & S3 & S4 & S5 & S6 & S7) Hn He Hr. unfold plain_step. destruct (cur s) as [a|] eqn:Ec; cbn [waits] in S3.
  - destruct S3 as (j & h' & -> & Hj). pose proof (good_len _ _ _ _ S2 ltac:(lia)) as Hlen. cbn [good] in S2.
    destruct S2 as (G1 & G2 & G3 & G4 & G5 & G6).
    set (a' := mkCtx (before a) (after a ++ [etext e]) (distance a) (apos a) (aline a)).
    assert (G : good (S n) ((j, a') :: h')).
    { cbn [good]. split; [lia|]. split; [exact G2|]. split; [exact G3|]. split; [|split; [|exact G6]].
      - cbn [after a']. rewrite G4. replace (Nat.min (j + 4) (S n)) with (S n) by lia. replace (Nat.min (j + 4) n) with n by lia.
        symmetry. apply seg_snoc; [lia|exact He].
      - intros k e' Hk He'. destruct (Nat.eq_dec k n) as [->|Hne]; [congruence|]. apply (G5 k); [lia|exact He']. }
    exists ((j, a') :: h'). split; [|reflexivity]. rewrite push_after_cases. cbn [top stop] in *.
    assert (HL : Nat.leb 3 (S (length (after a))) = Nat.leb (j + 4) (S n)) by (rewrite Hlen; lia).
    rewrite HL. fold a'. cbn [map rev snd] in S4.
    assert (Hm : rev (map snd h') = Y ++ found s) by (rewrite app_assoc in S4; apply app_inj_tail in S4; tauto).
    destruct (Nat.leb_spec (j + 4) (S n)) as [H|H]; unfold St; cbn [cur found buffer_pos last_pos waits opt map rev snd top stop]; rewrite S5.
    + split; [lia|]. split; [exact G|]. split; [lia|]. split; [rewrite Hm, app_nil_r, app_assoc; reflexivity|]. split; [lia|]. split; [lia|].
      destruct S7 as [S7|(j' & E & Hb)]; [left; exact S7|right; exists j'; split; [exact E|lia]].
    + split; [lia|]. split; [exact G|]. split; [exists j, h'; split; [reflexivity|lia]|]. split; [rewrite Hm, app_assoc; reflexivity|]. split; [lia|]. split; [lia|].
      destruct S7 as [S7|(j' & E & Hb)]; [left; exact S7|right; exists j'; split; [exact E|lia]].
  - exists h. split; [|reflexivity]. unfold St. cbn [cur found buffer_pos last_pos waits opt]. split; [lia|]. split.
    + destruct h as [|[j c] h']; cbn [good] in *.
      * intros k e' Hk He'. destruct (Nat.eq_dec k n) as [->|Hne]; [congruence|]. apply (S2 k); [lia|exact He'].
      * destruct S2 as (G1 & G2 & G3 & G4 & G5 & G6). split; [lia|]. split; [exact G2|]. split; [exact G3|]. split; [|split; [|exact G6]].
        -- rewrite G4. f_equal. lia.
        -- intros k e' Hk He'. destruct (Nat.eq_dec k n) as [->|Hne]; [congruence|]. apply (G5 k); [lia|exact He'].
    + split; [destruct h as [|[j c] h']; [exact I|lia]|]. split; [exact S4|]. split; [lia|]. split.
      * rewrite S6. destruct h as [|[j c] h']; cbn [top stop]; lia.
      * destruct S7 as [S7|(j' & E & Hb)]; [left; exact S7|right; exists j'; split; [exact E|lia]].
Qed.

Definition lo_start : nat := Nat.max (b - 3) (Nat.min (stop t0 b) (T b)).

Lemma cb_exact n x t last : b <= n -> n < b + x -> b + x <= length L -> bs n = b -> last = stop t n - b ->
  (t = t0 \/ exists j, t = Some j /\ b <= j < n) ->
  cb (n - b) last (seg b (b + x)) (seg lo_start b) = seg (Nat.max (n - 3) (lim t n)) n.
Proof.
  intros H1 H2 H3 Hb Hl Ht. unfold cb. set (k := Nat.max last (n - b - 3)).
  assert (Hlim : lim t n <= n).
  { unfold lim. destruct t as [j|]; [|lia]. destruct (bs n <? _); lia. }
  assert (Hbef : firstn (n - b - k) (skipn k (seg b (b + x))) = seg (b + k) n).
  { rewrite skipn_seg. assert (Hk : k <= n - b) by (unfold k, stop in *; destruct t; lia).
    rewrite firstn_seg by lia. f_equal. lia. }
  rewrite Hbef. rewrite seg_length by lia. destruct (Nat.eqb_spec k 0) as [Hk|Hk]; cbn [andb].
  - assert (Hst : stop t n <= b) by lia.
    assert (Ht' : t = t0).
    { destruct Ht as [Ht|(j & -> & Hj)]; [exact Ht|]. cbn [stop] in Hst. lia. }
    assert (Hq : lim t n = Nat.min (stop t0 b) (T b)).
    { subst t. unfold lim, stop in *. destruct t0 as [j|]; [|lia]. rewrite Hb. destruct (Nat.ltb_spec b (Nat.min (j + 4) n)); lia. }
    destruct (Nat.ltb_spec (n - (b + k)) 3) as [H|H].
    + rewrite seg_length by lia. rewrite skipn_seg. assert (lo_start <= b) by (unfold lo_start, stop; destruct t0; lia).
      rewrite Hk, Nat.add_0_r. rewrite seg_app by lia. f_equal. unfold lo_start in *. lia.
    + f_equal. rewrite Hq. unfold stop. destruct t0; lia.
  - f_equal. unfold lim, stop in *. destruct t as [j|]; [|lia]. rewrite Hb. destruct (Nat.ltb_spec b (Nat.min (j + 4) n)); lia.
Qed.

Lemma st_rep n s h e d x : St n s h -> n < b + x -> b + x <= length L -> nth_error L n = Some e -> etgt e = Some d -> above d = true ->
  bs n = b ->
  let c := mkCtx (cb (buffer_pos s) (last_pos s) (seg b (b + x)) (seg lo_start b)) [] d (enr e) (etext e) in
  St (S n) (mkSst (S (buffer_pos s)) (S (buffer_pos s)) (Some c) (match cur s with Some a => found s ++ [a] | None => found s end)) ((n, c) :: h).
Proof.
  intros (S1 & S2 & S3 & S4 & S5 & S6 & S7) Hn Hx He Ht Ha Hb c. unfold St. cbn [cur found buffer_pos last_pos waits opt top stop].
  assert (Hbc : before c = seg (Nat.max (n - 3) (lim (top h) n)) n).
  { cbn [before c]. rewrite S5. apply cb_exact; auto. }
  split; [lia|]. split.
  - cbn [good]. split; [lia|]. split.
    + exists e. split; [exact He|]. split; [unfold ProcWalk.rep; rewrite Ht; exact Ha|]. unfold matches. cbn. auto.
    + split; [exact Hbc|]. split; [cbn [after c]; rewrite seg_nil; [reflexivity|lia]|]. split; [intros; lia|exact S2].
  - split; [exists n, h; split; [reflexivity|lia]|]. split; [|split; [lia|split; [lia|right; exists n; split; [reflexivity|lia]]]].
    cbn [map rev snd]. rewrite S4. destruct (cur s); cbn [opt]; rewrite ?app_nil_r, ?app_assoc; reflexivity.
Qed.

Lemma st_fold x l : b + x <= length L -> (forall n, b <= n < b + x -> bs n = b) -> forall n s h,
  (forall i e, nth_error l i = Some e -> nth_error L (n + i) = Some e) -> n + length l <= b + x -> St n s h ->
  exists h', St (n + length l) (fold_left (wstep above (seg b (b + x)) (seg lo_start b)) l s) h'.
Proof.
  intros Hx Hbs. induction l as [|e l IH]; intros n s h Hl Hn HS; cbn [fold_left length] in *.
  - exists h. now rewrite Nat.add_0_r.
  - assert (He : nth_error L n = Some e) by (rewrite <- (Nat.add_0_r n); now apply Hl).
    assert (Hl' : forall i e', nth_error l i = Some e' -> nth_error L (S n + i) = Some e').
    { intros i e' H. replace (S n + i) with (n + S i) by lia. now apply Hl. }
    assert (Hb : b <= n) by (destruct HS; assumption).
    replace (n + S (length l)) with (S n + length l) by lia.
    destruct (rep e) eqn:Er.
    + unfold ProcWalk.rep in Er. destruct (etgt e) as [d|] eqn:Et; [|discriminate].
      eapply IH; [exact Hl'|lia|]. unfold wstep. rewrite Et, Er. apply (st_rep n s h e d x); auto; try lia. apply Hbs. lia.
    + destruct (st_plain n s h e HS ltac:(lia) He Er) as (h1 & H1 & _).
      assert (Ew : wstep above (seg b (b + x)) (seg lo_start b) s e = plain_step s (etext e)).
      { unfold wstep. unfold ProcWalk.rep in Er. destruct (etgt e); [rewrite Er|]; reflexivity. }
      rewrite Ew. eapply IH; [exact Hl'|lia|exact H1].
Qed.

Lemma st_plains l : forall n s h, (forall i e, nth_error l i = Some e -> nth_error L (n + i) = Some e) ->
  Forall (fun e => etgt e = None) l -> n + length l <= length L -> St n s h ->
  exists h', St (n + length l) (fold_left plain_step (map etext l) s) h' /\ top h' = top h.
Proof.
  induction l as [|e l IH]; intros n s h Hl Hf Hn HS; cbn [fold_left length map] in *.
  - exists h. now rewrite Nat.add_0_r.
  - inversion Hf as [|? ? Hf1 Hf2]; subst. assert (He : nth_error L n = Some e) by (rewrite <- (Nat.add_0_r n); now apply Hl).
    assert (Hl' : forall i e', nth_error l i = Some e' -> nth_error L (S n + i) = Some e').
    { intros i e' H. replace (S n + i) with (n + S i) by lia. now apply Hl. }
    assert (Hr : rep e = false) by (unfold ProcWalk.rep; now rewrite Hf1).
    replace (n + S (length l)) with (S n + length l) by lia.
    destruct (st_plain n s h e HS ltac:(lia) He Hr) as (h1 & H1 & T1).
    destruct (IH (S n) _ h1 Hl' Hf2 ltac:(lia) H1) as (h2 & H2 & T2). exists h2. split; [exact H2|congruence].
Qed.
End Batch.

(** The completion loop is the walk without positions. *)
Lemma plains_none l : forall s : @sst D, cur s = None ->
  cur (fold_left plain_step l s) = None /\ found (fold_left plain_step l s) = found s.
Proof.
  induction l as [|t l IH]; intros s H; cbn [fold_left]; [auto|]. unfold plain_step at 2 4. rewrite H.
  apply (IH (mkSst _ _ None _)). reflexivity.
Qed.
Lemma fin_plains l : forall s : @sst D,
  fin_opt (cur s) l (found s) = (cur (fold_left plain_step l s), found (fold_left plain_step l s)).
Proof.
  induction l as [|t l IH]; intros s.
  - cbn. destruct (cur s); reflexivity.
  - destruct (cur s) as [a|] eqn:Ec.
    + cbn [fin_opt fin fold_left]. unfold plain_step at 2 4. rewrite Ec. destruct (push_after a t (found s)) as [[a'|] f'].
      * specialize (IH (mkSst (S (buffer_pos s)) (S (buffer_pos s)) (Some a') f')). exact IH.
      * destruct (plains_none l (mkSst (S (buffer_pos s)) (S (buffer_pos s)) None f') eq_refl) as [-> ->]. reflexivity.
    + destruct (plains_none (t :: l) s Ec) as [-> ->]. reflexivity.
Qed.

Hypothesis HT : forall n, n <= length L -> T n <= n /\
  (forall i e, T n <= i < n -> nth_error L i = Some e -> etgt e = None) /\
  (forall i, T n = S i -> exists e, nth_error L i = Some e /\ etgt e <> None).

Lemma grouped_last (X : list (entry * N)) : grouped X -> X = [] \/ exists X0 e c d, X = X0 ++ [(e, c)] /\ etgt e = Some d.
Proof.
  induction 1 as [|dups e c d rest Hd He Hr [->|(X0 & e' & c' & d' & -> & H')]]; [left; reflexivity| |]; right.
  - exists dups, e, c, d. auto.
  - exists (dups ++ (e, c) :: X0), e', c', d'. rewrite <- app_assoc. auto.
Qed.

(** A processor at the batch that starts at [b]. *)
Variable tok : bytes -> bytes.
Variable search : list bytes -> list D.
Variable dist : bytes -> D.
Hypothesis Hsearch : pointwise search dist.
Definition PI (p : @proc D) (b : nat) (X : list (entry * N)) (Y : list actx) (h : list (nat * actx)) : Prop :=
  BufInv tok dist p X /\ (forall i x, nth_error X i = Some x -> nth_error L (b + i) = Some (fst x)) /\
  b + length X <= length L /\ good b h /\ waits (current p) h b /\
  rev (map snd h) = Y ++ anomalies p ++ opt (current p) /\
  left_overs p = seg (lo_start b (top h)) b /\ (forall k, b <= k < b + length X -> bs k = b).

Lemma nth_seg (X : list (entry * N)) b :
  (forall i x, nth_error X i = Some x -> nth_error L (b + i) = Some (fst x)) -> xtexts X = seg b (b + length X).
Proof.
  revert b. induction X as [|x X IH]; intros b H; cbn [length xtexts map].
  - now rewrite seg_nil by lia.
  - rewrite <- (seg_app b (S b)) by lia. rewrite (seg_one b (fst x)) by (rewrite <- (Nat.add_0_r b); now apply H).
    cbn [app]. f_equal. fold (xtexts X). rewrite (IH (S b)).
    + f_equal. lia.
    + intros i y Hy. replace (S b + i) with (b + S i) by lia. now apply H.
Qed.

Lemma search_exact p b X Y h : PI p b X Y h ->
  exists p' h', do_search above search p = Some p' /\ buffer p' = [] /\ targets p' = [] /\ targets_coord p' = [] /\
    skip p' = skip p /\ src p' = src p /\
    good (b + length X) h' /\ waits (current p') h' (b + length X) /\
    rev (map snd h') = Y ++ anomalies p' ++ opt (current p') /\
    (3 <= length X -> left_overs p' = seg (lo_start (b + length X) (top h')) (b + length X)).
Proof.
  intros (HB & HX & Hle & Hg & Hw & HY & Hlo & Hbs). destruct (group_split X) as (X1 & X2 & EX & Hgr & Hn).
  pose proof (xpairs_search tok search dist Hsearch X p HB) as Hp. destruct HB as (B1 & B2 & B3 & B4 & B5 & B6 & B7).
  pose proof (do_search_walk above search p X X1 X2 B1 Hp EX Hgr Hn B5 B6) as HS. cbn zeta in HS.
  rewrite (nth_seg X b HX), Hlo in HS. set (s := fold_left _ _ _) in HS.
  assert (HL : length X = length X1 + length X2) by (rewrite EX, app_length; reflexivity).
  assert (H0 : St b (top h) Y b (mkSst 0 0 (current p) (anomalies p)) h).
  { unfold St. cbn [cur found buffer_pos last_pos]. split; [lia|]. split; [exact Hg|]. split; [exact Hw|]. split; [exact HY|]. split; [lia|].
    split; [unfold stop; destruct (top h); lia|left; reflexivity]. }
  destruct (st_fold b (top h) Y (length X) (map fst X1) Hle ltac:(intros; apply Hbs; lia) b (mkSst 0 0 (current p) (anomalies p)) h) as (h1 & H1); [| |exact H0|].
  { intros i e Hi. rewrite nth_error_map in Hi. destruct (nth_error X1 i) as [x|] eqn:Ei; [|discriminate]. injection Hi as <-.
    apply HX. rewrite EX. rewrite nth_error_app1; [exact Ei|]. apply nth_error_Some. congruence. }
  { rewrite map_length. lia. }
  fold s in H1. rewrite map_length in H1.
  assert (HX2 : forall i e, nth_error (map fst X2) i = Some e -> nth_error L (b + length X1 + i) = Some e).
  { intros i e Hi. rewrite nth_error_map in Hi. destruct (nth_error X2 i) as [x|] eqn:Ei; [|discriminate]. injection Hi as <-.
    rewrite <- Nat.add_assoc. apply HX. rewrite EX, nth_error_app2 by lia. replace (length X1 + i - length X1) with i by lia. exact Ei. }
  destruct (st_plains b (top h) Y (map fst X2) (b + length X1) s h1 HX2) as (h2 & H2 & T2); [now apply Forall_map|rewrite map_length; lia|exact H1|].
  rewrite map_map in H2. fold (xtexts X2) in H2. rewrite map_length in H2. change (map (fun x => etext (fst x)) X2) with (xtexts X2) in H2.
  rewrite (fin_plains (xtexts X2) s) in HS. cbn [fst snd] in HS. set (s2 := fold_left plain_step (xtexts X2) s) in *.
  replace (b + length X1 + length X2) with (b + length X) in H2 by lia.
  destruct H2 as (_ & G2 & W2 & Y2 & _). eexists. exists h2. split; [exact HS|].
  cbn [buffer targets targets_coord skip src current anomalies left_overs]. repeat (split; [reflexivity|]).
  split; [exact G2|]. split; [exact W2|]. split; [exact Y2|]. intros H3. rewrite skipn_seg. f_equal.
  destruct H1 as (_ & _ & _ & _ & _ & L1 & _). rewrite L1, T2. unfold lo_start. set (n := b + length X).
  destruct (HT n Hle) as (T_1 & T_2 & T_3). destruct (grouped_last X1 Hgr) as [E1|(X0 & e & c & d & E1 & He)].
  - assert (Tb : T n <= b).
    { destruct (T n) as [|i] eqn:ET; [lia|]. destruct (Nat.le_gt_cases (S i) b) as [H|H]; [exact H|]. exfalso.
      destruct (T_3 i eq_refl) as (e & Ei & Hne). apply Hne.
      assert (Hi : i - b < length X) by (unfold n in *; lia). apply nth_error_Some in Hi. destruct (nth_error X (i - b)) as [x|] eqn:Ex; [|congruence].
      pose proof (HX _ _ Ex) as HE. replace (b + (i - b)) with i in HE by lia. rewrite Ei in HE. injection HE as ->.
      rewrite EX, E1 in Ex. cbn [app] in Ex. apply nth_error_In in Ex. rewrite Forall_forall in Hn. now apply Hn. }
    rewrite E1 in *. cbn [length] in *. assert (Hz : stop (top h1) (b + 0) - b = 0) by (unfold stop; destruct (top h1); lia). rewrite Hz. unfold n in *. lia.
  - assert (TX : T n = b + length X1).
    { assert (Hlast : nth_error L (b + (length X1 - 1)) = Some e).
      { change e with (fst (e, c)). apply HX. rewrite EX, nth_error_app1 by (rewrite E1, app_length; cbn [length]; lia).
        rewrite E1, app_length, nth_error_app2 by (cbn [length]; lia). cbn [length].
        replace (length X0 + 1 - 1 - length X0) with 0 by lia. reflexivity. }
      assert (HX1 : 1 <= length X1) by (rewrite E1, app_length; cbn [length]; lia).
      destruct (Nat.lt_trichotomy (T n) (b + length X1)) as [H|[H|H]]; [|exact H|]; exfalso.
      - assert (etgt e = None) by (apply (T_2 (b + (length X1 - 1))); [unfold n in *; lia|exact Hlast]). congruence.
      - destruct (T n) as [|i] eqn:ET; [lia|]. destruct (T_3 i eq_refl) as (e' & Ei & Hne). apply Hne.
        assert (Hi : i - (b + length X1) < length X2) by (unfold n in *; lia). apply nth_error_Some in Hi.
        destruct (nth_error X2 (i - (b + length X1))) as [x|] eqn:Ex; [|congruence].
        assert (HE : nth_error (map fst X2) (i - (b + length X1)) = Some (fst x)) by (rewrite nth_error_map, Ex; reflexivity).
        apply HX2 in HE. replace (b + length X1 + (i - (b + length X1))) with i in HE by lia. rewrite Ei in HE. injection HE as ->.
        apply nth_error_In in Ex. rewrite Forall_forall in Hn. now apply Hn. }
    rewrite TX. unfold stop, n. destruct (top h1); lia.
Qed.
End Walk.

(** ** Whole streams *)
Section Stream.
Context {D : Type}.
Variable above : D -> bool.
Variable tok : bytes -> bytes.
Variable search : list bytes -> list D.
Variable dist : bytes -> D.
Hypothesis Hsearch : pointwise search dist.
Variable known : list bytes.
Variable lines : list (bytes * N).
Notation proc := (@proc D).
Notation actx := (@actx D).
Notation L := (annot tok dist known lines).
Notation bs := (batch_start above tok dist known lines).
Notation T := (behind_new tok known lines).
Notation good := (good above L bs T).
Notation PI := (PI above L bs T tok dist).
Notation searched := (searched above tok dist known lines).

Lemma new_at_tgt i e : nth_error L i = Some e -> (new_at tok known lines i = true <-> etgt e <> None).
Proof.
  intros He. assert (Hi : i < length lines) by (rewrite <- (annot_length tok dist lines known); apply nth_error_Some; congruence).
  apply nth_error_Some in Hi. destruct (nth_error lines i) as [[b nr]|] eqn:E; [|congruence]. clear Hi.
  rewrite (annot_nth above tok dist known lines i b nr E) in He. injection He as <-. cbn [etgt]. unfold new_at. rewrite E.
  assert (Hm : mem_set (tok b) (known ++ map (fun x => tok (fst x)) (firstn i lines)) = mem_set (tok b) (seen_after tok known (firstn i lines))).
  { apply eq_true_iff_eq. rewrite !mem_set_spec, seen_after_in, in_app_iff, in_map_iff. firstorder. }
  rewrite Hm. destruct (mem_set (tok b) (seen_after tok known (firstn i lines))); cbn [negb]; split; try discriminate; try reflexivity. intros H. now destruct H.
Qed.
Lemma find_rev_seq (f : nat -> bool) n : match find f (rev (seq 0 n)) with
  | Some i => i < n /\ f i = true /\ forall k, i < k < n -> f k = false
  | None => forall k, k < n -> f k = false
  end.
Proof.
  induction n as [|n IH]; [cbn; intros; lia|]. rewrite seq_S, rev_app_distr. cbn [rev app find Nat.add]. destruct (f n) eqn:E.
  - split; [lia|]. split; [exact E|]. intros. lia.
  - destruct (find f (rev (seq 0 n))) as [i|].
    + destruct IH as (I1 & I2 & I3). split; [lia|]. split; [exact I2|]. intros k Hk. destruct (Nat.eq_dec k n) as [->|]; [exact E|]. apply I3. lia.
    + intros k Hk. destruct (Nat.eq_dec k n) as [->|]; [exact E|]. apply IH. lia.
Qed.
Lemma behind_new_spec n : n <= length L -> T n <= n /\
  (forall i e, T n <= i < n -> nth_error L i = Some e -> etgt e = None) /\
  (forall i, T n = S i -> exists e, nth_error L i = Some e /\ etgt e <> None).
Proof.
  intros Hn. unfold behind_new. pose proof (find_rev_seq (new_at tok known lines) n) as F. destruct (find _ _) as [i|].
  - destruct F as (F1 & F2 & F3). split; [lia|]. split.
    + intros k e Hk He. destruct (etgt e) eqn:Ee; [|reflexivity]. assert (new_at tok known lines k = true) by (apply (new_at_tgt k e He); congruence).
      rewrite F3 in H by lia. discriminate.
    + intros k Hk. injection Hk as <-. destruct (nth_error L i) as [e|] eqn:Ei.
      * exists e. split; [reflexivity|]. now apply (new_at_tgt i e Ei).
      * apply nth_error_None in Ei. lia.
  - split; [lia|]. split; [|intros; discriminate].
    intros k e Hk He. destruct (etgt e) eqn:Ee; [|reflexivity]. assert (new_at tok known lines k = true) by (apply (new_at_tgt k e He); congruence).
    rewrite F in H by lia. discriminate.
Qed.

(** A processor that has read [done]. *)
Definition pace_of (l : list (bytes * N)) : pace := fold_left (pace_line above tok dist) (map fst l) (pace_new known).
Definition Reading (p : proc) (done rest : list (bytes * N)) (Y : list actx) : Prop :=
  exists b X h, PI p b X Y h /\ lines = done ++ rest /\ b + length X = length done /\
    skip p = seen_after tok known done /\ seen (pace_of done) = skip p /\
    size (pace_of done) = N.of_nat (length X) /\ fresh (pace_of done) = N.of_nat (length (targets p)).
Definition Done (p : proc) (Y : list actx) : Prop :=
  src p = [] /\ targets p = [] /\ current p = None /\
  exists h, good searched h /\ (forall k e, searched <= k -> nth_error L k = Some e -> ProcWalk.rep above e = false) /\
    rev (map snd h) = Y ++ anomalies p.

Lemma start_at done rest : lines = done ++ rest -> bs (length done) = length done - N.to_nat (size (pace_of done)).
Proof. intros E. unfold batch_start. rewrite E, firstn_app, Nat.sub_diag, firstn_all. cbn [firstn]. rewrite app_nil_r. reflexivity. Qed.

Lemma end_exact (p : proc) Y : Reading p lines [] Y -> anomalies p = [] -> src p = [] ->
  exists p', read_end above search p = ROk p' /\ Done p' Y.
Proof.
  intros (b & X & h & HP & _ & Hb & _ & _ & Hz & _) Ha Hs. pose proof HP as (HB & HX & Hle & Hg & Hw & HY & Hlo & Hbs).
  assert (Ebs : bs (length lines) = b) by (rewrite (start_at lines []) by (now rewrite app_nil_r); rewrite Hz; lia).
  destruct (behind_new_spec (length lines) ltac:(rewrite annot_length; lia)) as (T1 & T2 & T3).
  unfold read_end. destruct (targets p) as [|t ts] eqn:Et.
  - assert (HN : forall x, In x X -> etgt (fst x) = None).
    { intros x Hx. destruct (etgt (fst x)) eqn:E; [|reflexivity]. destruct HB as (_ & B2 & _). rewrite Et in B2.
      assert (Hin : In x (filter is_tgt X)) by (apply filter_In; unfold is_tgt; rewrite E; auto).
      destruct (filter is_tgt X); [contradiction|discriminate]. }
    assert (HNb : forall k e, b <= k -> nth_error L k = Some e -> etgt e = None).
    { intros k e Hk He. assert (Hk' : k - b < length X).
      { assert (k < length L) by (apply nth_error_Some; congruence). rewrite annot_length in *. lia. }
      apply nth_error_Some in Hk'. destruct (nth_error X (k - b)) as [x|] eqn:Ex; [|congruence].
      pose proof (HX _ _ Ex) as H. replace (b + (k - b)) with k in H by lia. rewrite He in H. injection H as ->.
      apply HN. eapply nth_error_In. exact Ex. }
    assert (ES : searched = b).
    { unfold ProcExactSpec.searched. rewrite Ebs. destruct (Nat.ltb_spec b (T (length lines))) as [H|H]; [|reflexivity]. exfalso.
      destruct (T (length lines)) as [|i] eqn:ET; [lia|]. destruct (T3 i eq_refl) as (e & E1 & E2). apply E2. apply (HNb i); [lia|exact E1]. }
    assert (HR : forall k e, searched <= k -> nth_error L k = Some e -> ProcWalk.rep above e = false).
    { intros k e Hk He. unfold ProcWalk.rep. rewrite (HNb k e); [reflexivity|lia|exact He]. }
    destruct (current p) as [a|] eqn:Ec; (eexists; split; [reflexivity|]); unfold Done; cbn [src targets current anomalies].
    + split; [exact Hs|]. split; [exact Et|]. split; [reflexivity|]. exists h. split; [rewrite ES; exact Hg|]. split; [exact HR|]. exact HY.
    + split; [exact Hs|]. split; [exact Et|]. split; [exact Ec|]. exists h. split; [rewrite ES; exact Hg|]. split; [exact HR|]. rewrite HY. cbn [opt]. now rewrite app_nil_r.
  - destruct (search_exact above L bs T behind_new_spec tok search dist Hsearch p b X Y h HP)
      as (p1 & h1 & E1 & S1 & S2 & S3 & S4 & S5 & G1 & W1 & Y1 & _). rewrite E1.
    assert (ES : searched = b + length X).
    { unfold ProcExactSpec.searched. rewrite Ebs. destruct (Nat.ltb_spec b (T (length lines))) as [H|H]; [lia|]. exfalso.
      destruct HB as (_ & B2 & _). rewrite Et in B2. destruct (filter is_tgt X) as [|x l] eqn:Ef; [discriminate|].
      assert (Hin : In x (filter is_tgt X)) by (rewrite Ef; left; reflexivity). apply filter_In in Hin. destruct Hin as [Hin Ht].
      apply In_nth_error in Hin. destruct Hin as (i & Hi). assert (Hlt : i < length X) by (apply nth_error_Some; congruence).
      pose proof (HX _ _ Hi) as He. unfold is_tgt in Ht. rewrite (T2 (b + i) (fst x)) in Ht; [discriminate|lia|exact He]. }
    assert (HR : forall k e, searched <= k -> nth_error L k = Some e -> ProcWalk.rep above e = false).
    { intros k e Hk He. assert (k < length L) by (apply nth_error_Some; congruence). rewrite annot_length in *. lia. }
    destruct (current p1) as [a|] eqn:Ec; (eexists; split; [reflexivity|]); unfold Done; cbn [src targets current anomalies].
    + split; [congruence|]. split; [exact S2|]. split; [reflexivity|]. exists h1. split; [rewrite ES; exact G1|]. split; [exact HR|]. exact Y1.
    + split; [congruence|]. split; [exact S2|]. split; [exact Ec|]. exists h1. split; [rewrite ES; exact G1|]. split; [exact HR|]. rewrite Y1. cbn [opt]. now rewrite app_nil_r.
Qed.

#[local] Arguments mem_set : simpl never.
Lemma seen_after_snoc l b nr : seen_after tok known (l ++ [(b, nr)]) =
  if mem_set (tok b) (seen_after tok known l) then seen_after tok known l else tok b :: seen_after tok known l.
Proof. rewrite seen_after_app. cbn [seen_after]. destruct (mem_set _ _); reflexivity. Qed.

Lemma read_exact : forall rest done (p : proc) Y, all_valid rest -> no_marker rest -> Reading p done rest Y -> anomalies p = [] ->
  exists p', read_anomalies above tok search (ok_items rest) p = ROk p' /\
    (Done p' Y \/
     anomalies p' <> [] /\ exists done' rest', Reading p' done' rest' Y /\ src p' = ok_items rest' /\ all_valid rest' /\ no_marker rest').
Proof.
  induction rest as [|[b nr] rest IH]; intros done p Y Hv Hm HR Ha; cbn [ok_items map read_anomalies fst snd].
  - set (p0 := mkProc _ _ _ _ _ _ _ _ _ _ _).
    assert (Hl : done = lines) by (destruct HR as (? & ? & ? & _ & E & _); now rewrite E, app_nil_r). subst done.
    destruct (end_exact p0 Y HR Ha eq_refl) as (p' & E & F). exists p'. auto.
  - inversion Hv as [|? ? Hb Hv']; subst. inversion Hm as [|? ? Hk Hm']; subst. cbn [fst] in Hb, Hk. rewrite Hb, Hk.
    destruct HR as (s & X & h & (HB & HX & Hle & Hg & Hw & HY & Hlo & Hbs) & EL & Hs & Hsk & Hse & Hsz & Hfr).
    destruct (push_buf tok dist p X b nr (map (fun x => ILine (fst x) (snd x)) rest) HB Hb) as (HB2 & P1 & P2 & P3 & P4 & P5).
    set (p1 := count_line p b _) in *. set (p2 := push_line tok p1 b nr) in *. change (skip p1) with (skip p).
    set (kl := mem_set (tok b) (skip p)) in *. set (e := if kl then _ else _) in *.
    assert (P6 : left_overs p2 = left_overs p) by (unfold p2, p1, push_line, count_line; cbn; destruct (mem_set _ _); reflexivity).
    assert (EL' : lines = (done ++ [(b, nr)]) ++ rest) by (now rewrite <- app_assoc).
    assert (He : nth_error L (length done) = Some e).
    { rewrite (annot_nth above tok dist known lines (length done) b nr).
      - unfold e, kl. rewrite EL, firstn_app, Nat.sub_diag, firstn_all. cbn [firstn]. rewrite app_nil_r, Hsk. destruct (mem_set (tok b) (seen_after tok known done)); reflexivity.
      - rewrite EL, nth_error_app2, Nat.sub_diag by lia. reflexivity. }
    assert (HX2 : forall i x, nth_error (X ++ [(e, coord p2)]) i = Some x -> nth_error L (s + i) = Some (fst x)).
    { intros i x Hi. destruct (Nat.lt_ge_cases i (length X)) as [Hlt|Hge].
      - rewrite nth_error_app1 in Hi by exact Hlt. now apply HX.
      - rewrite nth_error_app2 in Hi by exact Hge. destruct (i - length X) as [|i'] eqn:Ei; [|destruct i'; discriminate].
        injection Hi as <-. replace (s + i) with (length done) by lia. exact He. }
    set (s2 := mkPace (if negb kl then tok b :: seen (pace_of done) else seen (pace_of done)) (size (pace_of done) + 1) (if negb kl then fresh (pace_of done) + 1 else fresh (pace_of done))
                 (if negb kl && above (dist (tok b)) then Some 0%N else option_map N.succ (since (pace_of done)))).
    assert (Hpl : pace_of (done ++ [(b, nr)]) = if batch_ends (negb kl) s2 then end_batch s2 else s2).
    { unfold pace_of at 1. rewrite map_app, fold_left_app. cbn [map fold_left fst]. fold (pace_of done). unfold pace_line, s2, kl. rewrite Hse. reflexivity. }
    assert (Hful : batch_full kl p2 = batch_ends (negb kl) s2).
    { unfold batch_full, batch_ends, CHUNK_SIZE. destruct HB2 as (B1 & _). rewrite B1, xbuf_length, app_length. cbn [length].
      unfold s2. cbn [size fresh]. rewrite Hsz, Hfr. destruct kl; cbn [negb]; lia. }
    assert (Hsk2 : skip p2 = seen_after tok known (done ++ [(b, nr)])).
    { rewrite P4, seen_after_snoc, <- Hsk. fold kl. reflexivity. }
    assert (Hse2 : seen s2 = skip p2) by (unfold s2; cbn [seen]; rewrite P4, Hse; destruct kl; reflexivity).
    assert (Hlen2 : length (done ++ [(b, nr)]) = S (length done)) by (rewrite app_length; cbn [length]; lia).
    assert (HlX : length (X ++ [(e, coord p2)]) = S (length X)) by (rewrite app_length; cbn [length]; lia).
    assert (Hll : S (length done) <= length L) by (rewrite annot_length, EL', app_length, Hlen2; lia).
    assert (HPb : forall k, s <= k < s + length (X ++ [(e, coord p2)]) -> bs k = s).
    { intros k Hk'. rewrite HlX in Hk'. destruct (Nat.eq_dec k (length done)) as [->|Hne]; [|apply Hbs; lia].
      rewrite (start_at _ _ EL), Hsz. lia. }
    rewrite Hful. destruct (batch_ends (negb kl) s2) eqn:Eb.
    + (* the batch ends; the search does not look at the start of the next batch *)
      assert (HP2 : exists p3 h3, do_search above search p2 = Some p3 /\ buffer p3 = [] /\ targets p3 = [] /\ targets_coord p3 = [] /\
        skip p3 = skip p2 /\ src p3 = src p2 /\ good (S (length done)) h3 /\ waits (current p3) h3 (S (length done)) /\
        rev (map snd h3) = Y ++ anomalies p3 ++ opt (current p3) /\
        left_overs p3 = seg L (lo_start T (S (length done)) (top h3)) (S (length done))).
      { pose proof (search_exact above L bs T behind_new_spec tok search dist Hsearch p2 s (X ++ [(e, coord p2)]) Y h) as SE.
        destruct SE as (p3 & h3 & E3 & S1 & S2 & S3 & S4 & S5 & G3 & W3 & Y3 & L3).
        - unfold ProcExact.PI. split; [exact HB2|]. split; [exact HX2|]. split; [lia|]. split; [exact Hg|]. rewrite P2, P3, P6.
          split; [exact Hw|]. split; [exact HY|]. split; [exact Hlo|]. exact HPb.
        - rewrite HlX in *. replace (s + S (length X)) with (S (length done)) in * by lia. exists p3, h3. csplit; auto. apply L3. 
          unfold batch_ends, s2 in Eb. cbn [size fresh] in Eb. rewrite Hsz, Hfr in Eb.
          assert (length (targets p2) <= length (X ++ [(e, coord p2)])).
          { destruct HB2 as (_ & B2 & _). rewrite B2, map_length. apply filter_length_le'. }
          rewrite HlX, P5 in H. destruct kl; cbn [negb] in Eb; lia. }
      destruct HP2 as (p3 & h3 & E3 & S1 & S2 & S3 & S4 & S5 & G3 & W3 & Y3 & L3). rewrite E3.
      assert (HR3 : Reading p3 (done ++ [(b, nr)]) rest Y).
      { exists (S (length done)), [], h3. rewrite Hpl. cbn [length end_batch seen size fresh]. rewrite Nat.add_0_r.
        split; [|split; [exact EL'|split; [lia|split; [congruence|split; [congruence|split; [reflexivity|rewrite S2; reflexivity]]]]]].
        unfold ProcExact.PI. cbn [length]. rewrite Nat.add_0_r. split; [now apply bufinv_nil|]. split; [intros [|i] x H; discriminate|]. split; [lia|].
        split; [exact G3|]. split; [exact W3|]. split; [exact Y3|]. split; [exact L3|]. intros k Hk'. lia. }
      destruct (anomalies p3) as [|a0 an] eqn:Ea3.
      * apply (IH (done ++ [(b, nr)]) p3 Y Hv' Hm' HR3 Ea3).
      * exists p3. split; [reflexivity|]. right. split; [congruence|]. exists (done ++ [(b, nr)]), rest. split; [exact HR3|]. split; [|auto]. rewrite S5, P1. reflexivity.
    + apply (IH (done ++ [(b, nr)]) p2 Y Hv' Hm'); [|congruence].
      exists s, (X ++ [(e, coord p2)]), h. rewrite Hpl.
      split; [|split; [exact EL'|split; [lia|split; [exact Hsk2|split; [exact Hse2|]]]]].
      * unfold ProcExact.PI. split; [exact HB2|]. split; [exact HX2|]. split; [lia|]. split; [exact Hg|]. rewrite P2, P3, P6.
        split; [exact Hw|]. split; [exact HY|]. split; [exact Hlo|]. exact HPb.
      * unfold s2. cbn [size fresh]. rewrite Hsz, Hfr, HlX, P5. split; [lia|]. destruct kl; cbn [negb]; lia.
Qed.

Lemma drain_exact : forall n (p : proc) Y cs p', pdrain above tok search n p = (cs, PSEnd, p') ->
  (Done p Y \/ exists done rest, Reading p done rest Y /\ src p = ok_items rest /\ all_valid rest /\ no_marker rest) ->
  exists h, good searched h /\ (forall k e, searched <= k -> nth_error L k = Some e -> ProcWalk.rep above e = false) /\
    rev (map snd h) = Y ++ cs.
Proof.
  induction n as [|n IH]; intros p Y cs p' Hd HS; cbn [pdrain] in Hd; [discriminate|]. unfold pnext in Hd.
  assert (Hpop : forall (q : proc) a l, anomalies q = a :: l ->
    (Done q Y \/ exists done rest, Reading q done rest Y /\ src q = ok_items rest /\ all_valid rest /\ no_marker rest) ->
    (Done (set_anomalies q l) (Y ++ [a]) \/ exists done rest, Reading (set_anomalies q l) done rest (Y ++ [a]) /\ src (set_anomalies q l) = ok_items rest /\ all_valid rest /\ no_marker rest)).
  { intros q a l Eq [(D1 & D2 & D3 & h & D4 & D5 & D6)|(dn & rs & (b & X & h & (HB & HX & Hle & Hg & Hw & HY & Hlo & Hbs) & HR) & Hq)].
    - left. unfold Done. cbn. csplit; auto. exists h. csplit; auto. rewrite D6, Eq, <- app_assoc. reflexivity.
    - right. exists dn, rs. split; [|exact Hq]. exists b, X, h. split; [|exact HR]. unfold ProcExact.PI. csplit; auto.
      rewrite HY, Eq, <- app_assoc. reflexivity. }
  destruct (anomalies p) as [|a rest] eqn:Ea.
  - destruct HS as [HD|(dn & rs & HR & Hs & Hv & Hm)].
    + pose proof HD as (D1 & D2 & D3 & h & D4 & D5 & D6). rewrite D1 in Hd. cbn [read_anomalies] in Hd. unfold read_end in Hd. cbn [targets] in Hd. rewrite D2 in Hd.
      cbn [current] in Hd. rewrite D3 in Hd. cbn [anomalies] in Hd. rewrite Ea in Hd. injection Hd as <- _. exists h. rewrite Ea in D6. auto.
    + rewrite Hs in Hd. destruct (read_exact rs dn p Y Hv Hm HR Ea) as (p1 & E1 & HO). rewrite E1 in Hd.
      destruct (anomalies p1) as [|a l] eqn:Ea1.
      * injection Hd as <- _. destruct HO as [(_ & _ & _ & h & D4 & D5 & D6)|[H _]]; [|congruence]. exists h. rewrite Ea1 in D6. auto.
      * destruct (pdrain above tok search n (set_anomalies p1 l)) as [[l1 st] pf] eqn:Ed. injection Hd as <- -> ->.
        destruct (IH _ (Y ++ [a]) _ _ Ed) as (h & G1 & G2 & G3).
        -- apply Hpop; [exact Ea1|]. destruct HO as [HO|[_ HO]]; auto.
        -- exists h. rewrite <- app_assoc in G3. auto.
  - destruct (pdrain above tok search n (set_anomalies p rest)) as [[l1 st] pf] eqn:Ed. injection Hd as <- -> ->.
    destruct (IH _ (Y ++ [a]) _ _ Ed) as (h & G1 & G2 & G3); [now apply Hpop|]. exists h. rewrite <- app_assoc in G3. auto.
Qed.

(** ** From the history to the statement *)
Lemma seg_texts a b : seg L a b = texts lines a b.
Proof.
  unfold seg, texts. rewrite <- !firstn_map, <- !skipn_map. f_equal. f_equal. generalize known. clear.
  induction lines as [|[b nr] l IH]; intros seen; cbn; [reflexivity|]. destruct (mem_set (tok b) seen); cbn [map etext]; now rewrite IH.
Qed.
Fixpoint above_of (n : nat) (h : list (nat * actx)) : nat := match h with [] => n | (j, _) :: h' => above_of j h' end.
Lemma good_split n h1 : forall h2, good n (h1 ++ h2) -> good (above_of n h1) h2.
Proof.
  revert n. induction h1 as [|[j c] h1 IH]; intros n h2 H; cbn [app above_of] in *; [exact H|]. apply IH. destruct H as (_ & _ & _ & _ & _ & H). exact H.
Qed.
Lemma above_of_snoc n h j c : above_of n (h ++ [(j, c)]) = j.
Proof. revert n. induction h as [|[i d] h IH]; intros n; cbn; [reflexivity|apply IH]. Qed.
Lemma nth_rev {A} (l : list A) k x : nth_error (rev l) k = Some x -> exists l1 l2, l = l1 ++ x :: l2 /\ length l2 = k.
Proof.
  intros H. apply nth_error_split in H. destruct H as (a & b & E & Hl). exists (rev b), (rev a).
  rewrite rev_length. split; [|exact Hl]. rewrite <- (rev_involutive l), E, rev_app_distr. cbn [rev]. rewrite <- app_assoc. reflexivity.
Qed.

Lemma good_sorted n h : good n h -> StronglySorted lt (rev (map fst h)) /\ Forall (fun i => i < n) (map fst h).
Proof.
  revert n. induction h as [|[j c] h IH]; intros n H; cbn [map rev fst]; [split; constructor|].
  destruct H as (H1 & _ & _ & _ & _ & H). destruct (IH j H) as [I1 I2]. split.
  - clear - I1 I2. apply Forall_rev in I2. induction I1 as [|x l I1' IH' Hx]; cbn; [repeat constructor|].
    inversion I2; subst. constructor; [now apply IH'|]. apply Forall_app. split; [exact Hx|]. repeat constructor. assumption.
  - constructor; [exact H1|]. eapply Forall_impl; [|exact I2]. cbn. intros. lia.
Qed.
Lemma good_in n h i : good n h -> (In i (map fst h) <-> i < n /\ exists e, nth_error L i = Some e /\ ProcWalk.rep above e = true).
Proof.
  revert n. induction h as [|[j c] h IH]; intros n H; cbn [map fst In].
  - cbn [ProcExact.good] in H. split; [contradiction|]. intros (H1 & e & H2 & H3). rewrite (H i e) in H3; [discriminate|exact H1|exact H2].
  - destruct H as (H1 & (e & He & Hr & _) & _ & _ & H5 & H6). rewrite (IH j H6). split.
    + intros [<-|(Hi & Hx)]; [split; [exact H1|exists e; auto]|split; [lia|exact Hx]].
    + intros (Hi & e' & He' & Hr'). destruct (Nat.lt_trichotomy i j) as [Hij|[Hij|Hij]]; [right; eauto|left; auto|].
      rewrite (H5 i e') in Hr'; [discriminate|lia|exact He'].
Qed.

Lemma exact_of_good cs h : good searched h -> (forall k e, searched <= k -> nth_error L k = Some e -> ProcWalk.rep above e = false) ->
  rev (map snd h) = cs ->
  enumerates above tok dist known lines (rev (map fst h)) /\ Forall2 (describes tok dist lines) cs (rev (map fst h)) /\
  exact_contexts above tok dist known lines cs (rev (map fst h)).
Proof.
  intros Hg Hn <-. split; [split; [apply (good_sorted _ _ Hg)|]|split].
  - intros i. rewrite <- in_rev, (good_in _ _ i Hg), (reported_iff above tok dist known lines i). split.
    + intros [_ H]. exact H.
    + intros (e & He & Hr). split; [|exists e; auto]. destruct (Nat.lt_ge_cases i searched) as [H|H]; [exact H|]. rewrite (Hn i e H He) in Hr. discriminate.
  - assert (HF : Forall (fun x => describes tok dist lines (snd x) (fst x)) h).
    { clear Hn. revert Hg. generalize searched. induction h as [|[j c] h IH]; intros n Hg; [constructor|].
      destruct Hg as (_ & (e & He & _ & (M1 & M2 & M3)) & _ & _ & _ & Hg). constructor; [|eapply IH; exact Hg]. cbn [fst snd]. unfold describes.
      assert (Hi : j < length lines) by (rewrite <- (annot_length tok dist lines known); apply nth_error_Some; congruence).
      apply nth_error_Some in Hi. destruct (nth_error lines j) as [[b nr]|] eqn:E; [|congruence].
      rewrite (annot_nth above tok dist known lines j b nr E) in He. injection He as <-. cbn [etext enr etgt] in *. rewrite M1, M2. split; [reflexivity|].
      destruct (mem_set (tok b) (seen_after tok known (firstn j lines))); congruence. }
    clear - HF. induction HF as [|x l H _ IH]; cbn [map rev]; [constructor|]. apply Forall2_app; [exact IH|]. constructor; [exact H|constructor].
  - intros k c i Hc Hi. rewrite <- map_rev in Hc, Hi. rewrite nth_error_map in Hc, Hi. destruct (nth_error (rev h) k) as [[i' c']|] eqn:E; [|discriminate].
    injection Hc as <-. injection Hi as <-. cbn [fst snd]. apply nth_rev in E. destruct E as (h1 & h2 & -> & Hk).
    pose proof (good_split _ h1 _ Hg) as G. cbn [ProcExact.good] in G. destruct G as (G1 & _ & G3 & G4 & _ & _).
    assert (Hprev : match k with 0 => None | S k' => nth_error (rev (map fst (h1 ++ (i', c') :: h2))) k' end = top h2).
    { rewrite map_app, rev_app_distr. cbn [map rev fst]. destruct h2 as [|[j d] h2]; cbn [length] in Hk; subst k; [reflexivity|].
      rewrite <- app_assoc, nth_error_app1 by (cbn [map rev]; rewrite app_length, rev_length, map_length; cbn; lia).
      cbn [map rev fst top]. rewrite nth_error_app2 by (rewrite rev_length, map_length; lia). rewrite rev_length, map_length, Nat.sub_diag. reflexivity. }
    assert (Hnext : above_of searched h1 = match nth_error (rev (map fst (h1 ++ (i', c') :: h2))) (S k) with Some j => j | None => searched end).
    { rewrite map_app, rev_app_distr. cbn [map rev fst]. rewrite <- app_assoc, nth_error_app2 by (rewrite rev_length, map_length; lia).
      rewrite rev_length, map_length. replace (S k - length h2) with 1 by lia. cbn [app nth_error].
      destruct h1 as [|[j d] h1 _] using rev_ind; [reflexivity|]. rewrite above_of_snoc, map_app, rev_app_distr. reflexivity. }
    unfold exact_context. rewrite Hprev. split.
    + rewrite G3, seg_texts. reflexivity.
    + rewrite G4, seg_texts. unfold context_end. rewrite <- Hnext. reflexivity.
Qed.

Theorem process_exact : all_valid lines -> no_marker lines ->
  exists cs p' idxs, process_all above tok search (ok_items lines) known = (cs, PSEnd, p') /\
    enumerates above tok dist known lines idxs /\ Forall2 (describes tok dist lines) cs idxs /\
    exact_contexts above tok dist known lines cs idxs.
Proof.
  intros Hv Hm. destruct (process_all_about above tok search dist known Hsearch lines Hv Hm) as (cs & p' & E & _).
  pose proof E as E0. unfold process_all in E.
  destruct (drain_exact _ _ [] cs p' E) as (h & G1 & G2 & G3).
  - right. exists [], lines. split; [|split; [reflexivity|split; assumption]].
    exists 0, [], []. unfold ProcExact.PI. cbn. split; [|auto 10]. csplit; auto; try lia.
    + now apply bufinv_nil.
    + intros [|i] x H; discriminate.
  - exists cs, p', (rev (map fst h)). split; [exact E0|]. apply exact_of_good; assumption.
Qed.
End Stream.
