(** Consequences of IterProofs and IterSafety for next(), histories of calls and
    complete iterations. *)
From Coq Require Import List NArith Bool Lia ZifyBool ZifyN ZifyNat Sorted.
From Verif Require Import Common IterModel IterSpec IterProofs IterSafety.
Import ListNotations.
Open Scope N_scope.

Lemma OK_new json : OK (new json).
Proof.
  unfold OK, new. cbn. split; [lia|]. split; [lia|]. right.
  unfold OKread. cbn. repeat split; auto; try discriminate; cbn; lia.
Qed.

Lemma next_safe ovf s r : OK s -> st s <> EoF -> post ovf s r (next ovf s r).
Proof.
  intros (Hpk & Hl & H) Hst. unfold next.
  destruct (st s) as [|sp] eqn:Es; [congruence|].
  destruct H as [H|H]; [congruence|].
  destruct (buf s) as [|b0 b] eqn:Eb.
  - apply run_safe; [exact H|]. unfold mu, fuel_for. lia.
  - apply run_safe; [exact H|]. unfold mu, fuel_for. lia.
Qed.

Lemma next_eof ovf s r : st s = EoF -> next ovf s r = (ONone, s, r).
Proof. unfold next. now intros ->. Qed.

(** What one call guarantees in a good state. *)
Lemma next_OK ovf s r o s' r' : OK s -> next ovf s r = (o, s', r') -> o <> OPanic ->
  OK s' /\ o <> OFuel /\ K s' r' <= K s r /\ line_count s <= line_count s'.
Proof.
  intros HO E Hp. destruct (st s) as [|sp] eqn:Es.
  - rewrite next_eof in E by assumption. inversion E; subst.
    split; [assumption|]. split; [discriminate|]. lia.
  - pose proof (next_safe ovf s r HO) as Hs. rewrite E, Es in Hs.
    specialize (Hs ltac:(discriminate)). destruct Hs as [H1 H2]. specialize (H2 Hp).
    destruct o; try tauto; try (split; [tauto|split; [discriminate|lia]]).
Qed.

Lemma reachable_OK ovf json r0 s r : reachable ovf json r0 s r ->
  OK s /\ K s r <= 1 + rd_newlines r0.
Proof.
  induction 1 as [|s r o s' r' Hr [IH1 IH2] E Hp].
  - split; [apply OK_new|]. unfold K, q, new. cbn. destruct json; cbn; unfold newlines; cbn; lia.
  - destruct (next_OK _ _ _ _ _ _ IH1 E Hp) as (H1 & _ & H3 & _). split; [assumption|lia].
Qed.

Lemma next_line ovf s r l n s' r' : OK s -> next ovf s r = (OLine l n, s', r') ->
  1 <= blen l <= 6000 /\ 1 <= n /\ line_count s <= n /\ n = line_count s' /\
  n + rd_newlines r' <= K s r.
Proof.
  intros HO E. destruct (st s) as [|sp] eqn:Es.
  - rewrite next_eof in E by assumption. discriminate.
  - pose proof (next_safe ovf s r HO) as Hs. rewrite E, Es in Hs.
    specialize (Hs ltac:(discriminate)). destruct Hs as [H1 H2]. tauto.
Qed.

Lemma next_panic ovf s r s' r' : OK s -> next ovf s r = (OPanic, s', r') -> ovf = true.
Proof.
  intros HO E. destruct (st s) as [|sp] eqn:Es.
  - rewrite next_eof in E by assumption. discriminate.
  - pose proof (next_safe ovf s r HO) as Hs. rewrite E, Es in Hs.
    specialize (Hs ltac:(discriminate)). destruct Hs as [H1 H2]. tauto.
Qed.

(** ** None is final *)
Definition finished_state (s : iter) : Prop :=
  OK s /\ (st s = EoF \/ buf s = zeros 8192).

Lemma next_finished ovf s : finished_state s ->
  exists s', next ovf s [] = (ONone, s', []) /\ finished_state s'.
Proof.
  intros (HO & [H|H]).
  - exists s. rewrite next_eof by assumption. split; [reflexivity|]. split; auto.
  - destruct (st s) as [|sp] eqn:Es.
    { exists s. rewrite next_eof by assumption. split; [reflexivity|]. split; auto. }
    unfold next. rewrite Es, H. destruct (zeros 8192) as [|z zs] eqn:Ez; [discriminate|].
    rewrite <- Ez in *. clear Ez z zs.
    pose proof HO as (Hpk & Hl & [H1|H1]); [congruence|].
    rewrite H in H1. destruct (zeros 8192) as [|z zs] eqn:Ez; [discriminate|].
    rewrite <- Ez in *. clear Ez z zs.
    destruct H1 as (B & Hpos & _ & _).
    unfold fuel_for. rewrite H, nonzeros_zeros. cbn [reader_weight Nat.mul Nat.add].
    cbn [run]. unfold find_next_line. rewrite H, blen_zeros in *.
    destruct (N.ltb_spec 8192 (prev_pos s)); [lia|].
    rewrite skipn_zeros.
    destruct (scan_zeros (8192 - prev_pos s) 0 (escaped s) (split_json s)) as (e & j & ->).
    cbn [set_lex buf]. rewrite H, blen_zeros, (b_max _ B). change (6000 <? 8192) with true. cbv iota.
    cbn [run chunk_size set_buf set_prev set_lex buf]. rewrite (b_chunk _ B).
    cbn [do_read].
    eexists. split; [reflexivity|].
    assert (Hf : firstn (N.to_nat 8192) ([] ++ zeros 8192) = zeros 8192).
    { apply firstn_all2. cbn [app]. unfold zeros. rewrite repeat_length. lia. }
    rewrite Hf. split; [|right; reflexivity].
    set (s' := set_buf (set_buf (set_prev (set_lex s e j) 0) []) (zeros 8192)).
    assert (Hb' : buf s' = zeros 8192) by reflexivity.
    assert (Hpk' : peak s' <= 14192).
    { unfold s'. iter_simpl. rewrite blen_zeros, blen_nil. pose proof (b_peak _ B). lia. }
    unfold OK. rewrite Hb', blen_zeros. split; [lia|]. split; [lia|]. right.
    assert (OKget s').
    { split; [|split; [|split]].
      - apply base_intro with sp; auto; try apply B.
      - rewrite Hb', blen_zeros. unfold s'. iter_simpl. lia.
      - rewrite Hb', blen_zeros. lia.
      - rewrite Hb'. intros _ _. split; discriminate. }
    destruct (zeros 8192) as [|z zs] eqn:Ez; [discriminate|assumption].
Qed.

Lemma none_finished ovf s r s' r' : OK s -> next ovf s r = (ONone, s', r') -> r' = [] ->
  finished_state s'.
Proof.
  intros HO E Hr. destruct (st s) as [|sp] eqn:Es.
  - rewrite next_eof in E by assumption. inversion E; subst. split; auto.
  - pose proof (next_safe ovf s r HO) as Hs. rewrite E, Es in Hs.
    specialize (Hs ltac:(discriminate)). destruct Hs as [H1 H2].
    destruct H1 as [H1 H3]. split; auto.
Qed.

Lemma calls_finished ovf n : forall s, finished_state s -> calls ovf n s [] = repeat ONone n.
Proof.
  induction n as [|n IH]; intros s Hf; [reflexivity|]. cbn [calls repeat].
  destruct (next_finished ovf s Hf) as (s' & -> & Hf'). f_equal. auto.
Qed.

(** ** Complete iterations *)
Lemma collect_total ovf : forall n s r, OK s -> (st s = EoF \/ Psi s r + 3 <= n)%nat -> (1 <= n)%nat ->
  snd (collect ovf n s r) <> SFuel.
Proof.
  induction n as [|n IH]; intros s r HO Hn H1; [lia|].
  cbn [collect]. destruct (st s) as [|sp] eqn:Es.
  - rewrite next_eof by assumption. discriminate.
  - destruct Hn as [Hn|Hn]; [discriminate|].
    pose proof (next_safe ovf s r HO) as Hs. rewrite Es in Hs.
    specialize (Hs ltac:(discriminate)).
    destruct (next ovf s r) as [[o s'] r']. destruct Hs as [Ho Hk].
    destruct o; try discriminate; [|contradiction].
    destruct Ho as (HO' & _ & _ & _ & _ & _ & _ & Hd).
    specialize (IH s' r' HO').
    destruct (collect ovf n s' r') as [ls e]. cbn [snd] in *.
    apply IH; [|lia]. destruct Hd; [left; auto|right; lia].
Qed.

Lemma all_lines_total ovf json r : snd (all_lines ovf json r) <> SFuel.
Proof.
  unfold all_lines. apply collect_total; [apply OK_new| |lia].
  right. unfold Psi, new. cbn [buf nonzeros filter length]. lia.
Qed.

Lemma between_OK s L rest : between s L rest -> 1 <= q s -> peak s <= 14192 -> OK s.
Proof.
  intros (I & Hc) Hq Hp. unfold OK. split; [assumption|]. split; [apply I|]. right.
  destruct (inv_nr _ _ _ I) as (sp & Hst & _).
  assert (base s) by (apply base_intro with sp; auto; apply I).
  assert (He : escaped s = true -> False).
  { intros He. rewrite (inv_esc _ _ _ I) in He. now apply (inv_bs _ _ _ I He). }
  assert (Hpos : prev_pos s = 0) by (rewrite (inv_pos _ _ _ I), Hc; reflexivity).
  destruct (buf s) eqn:Eb.
  - split; [assumption|]. rewrite Eb, Hpos. repeat split; try tauto. cbn. lia.
  - split; [assumption|]. rewrite Eb, Hpos. split; [lia|]. split; [|tauto].
    rewrite <- Eb. apply I.
Qed.

Definition tail_stop (tail : reader) : stop :=
  match tail with Fail e :: _ => SErr e | _ => SEnd end.

Lemma next_correct ovf tail s L rest chunks : good_tail tail ->
  between s L rest -> read_sizes chunks -> bound_ok L rest chunks ->
  run_post tail (deliver (is_eof tail) L (rest ++ concat chunks))
           (next ovf s (map Data chunks ++ tail)).
Proof.
  intros Gt (I & Hc) Hs Hb. unfold next.
  destruct (inv_nr _ _ _ I) as (sp & -> & _).
  destruct (buf s) as [|z zs] eqn:Eb.
  - assert (rest = []) as -> by (rewrite (inv_buf _ _ _ I) in Eb; now apply app_eq_nil in Eb).
    apply run_correct; auto. rewrite Eb. cbn. lia.
  - apply run_correct; auto.
Qed.

Lemma collect_correct ovf tail : good_tail tail -> forall n s L rest chunks,
  between s L rest -> read_sizes chunks -> bound_ok L rest chunks ->
  snd (collect ovf n s (map Data chunks ++ tail)) = SFuel \/
  collect ovf n s (map Data chunks ++ tail) =
    (deliver (is_eof tail) L (rest ++ concat chunks), tail_stop tail).
Proof.
  intros Gt. induction n as [|n IH]; intros s L rest chunks Hbt Hs Hb; [left; reflexivity|].
  cbn [collect]. pose proof (next_correct ovf tail s L rest chunks Gt Hbt Hs Hb) as Hp.
  destruct (next ovf s (map Data chunks ++ tail)) as [[o s'] r'].
  destruct o; cbn [run_post] in Hp.
  - right. destruct Hp as [-> ->]. reflexivity.
  - destruct Hp as [(-> & Hst & ->)|(L' & rest' & chunks' & Hbt' & -> & Hs' & Hb' & ->)].
    + destruct n as [|n]; [left; reflexivity|]. cbn [collect]. right.
      rewrite next_eof by assumption. reflexivity.
    + destruct (IH s' L' rest' chunks' Hbt' Hs' Hb') as [IH'|IH'].
      * left. destruct (collect ovf n s' (map Data chunks' ++ tail)). exact IH'.
      * right. rewrite IH'. reflexivity.
  - right. destruct Hp as [(t & ->) ->]. reflexivity.
  - contradiction.
  - left. reflexivity.
Qed.

Lemma between_new json : between (new json) (lex0 json) [].
Proof.
  split; [|reflexivity]. constructor; cbn; try reflexivity; try lia; try discriminate.
  exists NewLine. split; reflexivity.
Qed.

Lemma all_lines_correct ovf json chunks tail : good_tail tail ->
  read_sizes chunks -> no_long_pending json chunks ->
  all_lines ovf json (map Data chunks ++ tail) =
  (deliver (is_eof tail) (lex0 json) (concat chunks), tail_stop tail).
Proof.
  intros Gt Hs Hb. unfold all_lines.
  destruct (collect_correct ovf tail Gt (4 + reader_weight (map Data chunks ++ tail))
              (new json) (lex0 json) [] chunks) as [H|H]; auto using between_new.
  - exfalso. now apply (all_lines_total ovf json (map Data chunks ++ tail)).
Qed.

Lemma deliver_segments json s : deliver true (lex0 json) s = filter deliverable (segments json s).
Proof.
  unfold deliver, segments. destruct (lex (lex0 json) s) as [l L]. cbn [fst snd].
  destruct (cur L); reflexivity.
Qed.
Lemma deliver_finished json s : deliver false (lex0 json) s = filter deliverable (finished json s).
Proof. unfold deliver, finished. now rewrite app_nil_r. Qed.

(** ** Short segments make every segmentation harmless *)
Lemma lex_extend L : (esc L = true -> cur L <> []) -> forall b,
  exists seg n, In (seg, n) (fst (lex L b) ++ [(cur (snd (lex L b)), nr (snd (lex L b)))]) /\
    blen (cur L) <= blen seg + 1.
Proof.
  intros Hb b. revert L Hb. induction b as [|c b IH]; intros L Hb.
  - exists (cur L), (nr L). cbn. split; [auto|lia].
  - cbn [lex]. 
    assert (Hf : match feed L c with
                 | (Some (seg, _), _) => blen (cur L) <= blen seg + 1
                 | (None, L1) => cur L1 = cur L ++ [c]
                 end).
    { unfold feed. destruct (esc L).
      - destruct (c =? 110).
        + specialize (Hb eq_refl). rewrite (removelast_split _ Hb) at 1. rewrite blen_app. cbn. lia.
        + reflexivity.
      - destruct (c =? 92); [reflexivity|]. destruct (c =? 10); [lia|].
        destruct (js L) as [b0|]; [|reflexivity]. destruct (c =? 34); [reflexivity|].
        destruct (negb b0 && _); [lia|reflexivity]. }
    destruct (feed L c) as [[[seg m]|] L1].
    + exists seg, m. destruct (lex L1 b) as [l L2]. cbn. split; auto.
    + destruct (IH L1) as (seg & m & Hi & Hle).
      { intros _. rewrite Hf. now destruct (cur L). }
      exists seg, m. split; [exact Hi|]. rewrite Hf, blen_app in Hle. lia.
Qed.

Lemma lex_esc_cur s : forall L, (esc L = true -> cur L <> []) ->
  esc (snd (lex L s)) = true -> cur (snd (lex L s)) <> [].
Proof.
  induction s as [|c s IH]; intros L H; [exact H|]. cbn [lex].
  assert (Hf : forall o L1, feed L c = (o, L1) -> esc L1 = true -> cur L1 <> []).
  { unfold feed. intros o L1.
    destruct (esc L); [destruct (c =? 110); intros E; inversion E; subst; cbn; intros; try discriminate|].
    destruct (c =? 92); [intros E; inversion E; subst; cbn; intros _; now destruct (cur L)|].
    destruct (c =? 10); [intros E; inversion E; subst; cbn; discriminate|].
    destruct (js L) as [b0|].
    - destruct (c =? 34); [|destruct (negb b0 && _)]; intros E; inversion E; subst; cbn; discriminate.
    - intros E; inversion E; subst; cbn; discriminate. }
  destruct (feed L c) as [[x|] L1] eqn:E.
  - specialize (IH L1 (Hf _ _ eq_refl)). now destruct (lex L1 s).
  - apply IH. eapply Hf. reflexivity.
Qed.

Lemma short_no_long_pending json chunks :
  Forall (fun x => N.of_nat (length (fst x)) <= 5999) (segments json (concat chunks)) ->
  no_long_pending json chunks.
Proof.
  intros Hf before after -> Ha. rewrite concat_app in Hf. unfold pending.
  unfold segments in Hf. rewrite lex_app in Hf.
  set (L := snd (lex (lex0 json) (concat before))) in *.
  assert (HL : esc L = true -> cur L <> []) by (apply lex_esc_cur; discriminate).
  destruct (lex_extend L HL (concat after)) as (seg & n & Hi & Hle).
  fold (blen (cur L)).
  destruct (lex L (concat after)) as [l2 L2]. cbn [fst snd] in *.
  apply in_app_or in Hi. rewrite Forall_forall in Hf.
  destruct Hi as [Hi|[Hi|[]]].
  - specialize (Hf (seg, n)). cbn [fst] in Hf. fold (blen seg) in Hf.
    assert (blen seg <= 5999); [|lia]. apply Hf. rewrite !in_app_iff. auto.
  - inversion Hi; subst. destruct (cur L2) as [|z zs] eqn:E.
    + cbn in Hle. lia.
    + specialize (Hf (z :: zs, nr L2)). cbn [fst] in Hf. fold (blen (z :: zs)) in Hf.
      assert (blen (z :: zs) <= 5999); [|lia]. apply Hf. rewrite !in_app_iff. right. now left.
Qed.

(** A decision procedure for [no_long_pending] (for examples). *)
Fixpoint check_pending (L : lexer) (chunks : list bytes) : bool :=
  match chunks with
  | [] => true
  | c :: r => (blen (cur L) <=? 6000) && check_pending (snd (lex L c)) r
  end.
Lemma check_pending_sound json chunks :
  check_pending (lex0 json) chunks = true -> no_long_pending json chunks.
Proof.
  unfold no_long_pending, pending. generalize (lex0 json) as L.
  induction chunks as [|c chunks IH]; intros L H before after E Ha.
  - destruct before; [|discriminate]. cbn in E. congruence.
  - cbn [check_pending] in H. apply andb_prop in H. destruct H as [H1 H2].
    destruct before as [|b before].
    + cbn [concat lex snd]. fold (blen (cur L)). lia.
    + inversion E; subst. cbn [concat]. rewrite lex_app. cbn [snd]. eapply IH; eauto.
Qed.

(** Line numbers of a history of calls. *)
Definition numbers (os : list outcome) : list N :=
  flat_map (fun o => match o with OLine _ n => [n] | _ => [] end) os.

Lemma calls_sorted ovf n : forall s r, OK s ->
  StronglySorted N.le (numbers (calls ovf n s r)) /\
  Forall (fun k => line_count s <= k) (numbers (calls ovf n s r)).
Proof.
  induction n as [|n IH]; intros s r HO; [split; constructor|]. cbn [calls].
  destruct (next ovf s r) as [[o s'] r'] eqn:E.
  destruct o.
  1,3,5: destruct (next_OK _ _ _ _ _ _ HO E ltac:(discriminate)) as (HO' & _ & _ & Hl);
    destruct (IH s' r' HO') as [I1 I2]; cbn [numbers flat_map app]; split; [assumption|];
    eapply Forall_impl; [|exact I2]; cbn; intros; lia.
  - destruct (next_OK _ _ _ _ _ _ HO E ltac:(discriminate)) as (HO' & _ & _ & Hl).
    destruct (next_line _ _ _ _ _ _ _ HO E) as (_ & _ & Hle & Heq & _).
    destruct (IH s' r' HO') as [I1 I2]. cbn [numbers flat_map app]. rewrite <- Heq in I2.
    split; [constructor; assumption|]. constructor; [assumption|].
    eapply Forall_impl; [|exact I2]; cbn; intros; lia.
  - cbn. split; constructor.
Qed.

Lemma reachable_buffer ovf json r0 s r : reachable ovf json r0 s r ->
  blen (buf s) <= 14192 /\ peak s <= 14192.
Proof. intros H. destruct (reachable_OK _ _ _ _ _ H) as [(H1 & H2 & _) _]. auto. Qed.
