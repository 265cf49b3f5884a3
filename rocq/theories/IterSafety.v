(** Proofs about the line iterator: what holds for every reader. *)
From Coq Require Import List NArith Bool Lia ZifyBool ZifyN ZifyNat.
From Verif Require Import Common IterModel IterSpec IterProofs.
Import ListNotations.
Open Scope N_scope.

Lemma newlines_app a b : newlines (a ++ b) = newlines a + newlines b.
Proof. unfold newlines. rewrite filter_app, app_length. lia. Qed.
Lemma newlines_cons c b : newlines (c :: b) = (if c =? 10 then 1 else 0) + newlines b.
Proof. unfold newlines. cbn [filter]. destruct (c =? 10); cbn [length]; lia. Qed.
Lemma newlines_zeros n : newlines (zeros n) = 0.
Proof.
  unfold newlines, zeros. induction (N.to_nat n) as [|k IH]; [reflexivity|].
  cbn [repeat filter]. exact IH.
Qed.
Lemma nonzeros_app a b : nonzeros (a ++ b) = (nonzeros a + nonzeros b)%nat.
Proof. unfold nonzeros. rewrite filter_app, app_length. lia. Qed.
Lemma nonzeros_cons c b : nonzeros (c :: b) = ((if c =? 0 then 0 else 1) + nonzeros b)%nat.
Proof. unfold nonzeros. cbn [filter]. destruct (c =? 0); cbn [length negb]; lia. Qed.
Lemma nonzeros_zeros n : nonzeros (zeros n) = 0%nat.
Proof.
  unfold nonzeros, zeros. induction (N.to_nat n) as [|k IH]; [reflexivity|].
  cbn [repeat filter]. exact IH.
Qed.
Lemma nonzeros_le l : (nonzeros l <= length l)%nat.
Proof.
  unfold nonzeros. induction l as [|c l IH]; [easy|]. cbn [filter].
  destruct (negb (c =? 0)); cbn [length]; lia.
Qed.
Lemma newlines_skipn n l : newlines (skipn n l) <= newlines l.
Proof.
  rewrite <- (firstn_skipn n l) at 2. rewrite newlines_app. lia.
Qed.
Lemma nonzeros_skipn n l : (nonzeros (skipn n l) <= nonzeros l)%nat.
Proof. rewrite <- (firstn_skipn n l) at 2. rewrite nonzeros_app. lia. Qed.

Lemma skipn_zeros k n : skipn (N.to_nat k) (zeros n) = zeros (n - k).
Proof.
  unfold zeros. rewrite Nnat.N2Nat.inj_sub.
  generalize (N.to_nat k) as a. generalize (N.to_nat n) as b.
  induction b as [|b IH]; intros [|a]; cbn; auto. 
Qed.

Lemma skipn_skipn {A} x y (l : list A) : skipn x (skipn y l) = skipn (x + y) l.
Proof.
  revert l. induction y as [|y IH]; intros l; [now rewrite PeanoNat.Nat.add_0_r|].
  rewrite PeanoNat.Nat.add_succ_r. destruct l; [now rewrite !skipn_nil|]. apply IH.
Qed.

(** Newline bytes still in the reader. *)
Fixpoint rd_newlines (r : reader) : N :=
  match r with
  | [] => 0
  | Data d :: r' => newlines d + rd_newlines r'
  | Fail _ :: r' => rd_newlines r'
  end.

Lemma do_read_cases cap r : 0 < cap ->
  (exists e r', do_read cap r = (RErr e, r') /\
     (reader_weight r' < reader_weight r)%nat /\ rd_newlines r' = rd_newlines r) \/
  (exists r', do_read cap r = (ROk [], r') /\ (r = [] /\ r' = [] \/ r = Data [] :: r') /\
     (reader_weight r' <= reader_weight r)%nat /\ rd_newlines r' = rd_newlines r) \/
  (exists b d r', do_read cap r = (ROk (b :: d), r') /\ blen (b :: d) <= cap /\
     (reader_weight r' + length (b :: d) <= reader_weight r)%nat /\
     rd_newlines r = newlines (b :: d) + rd_newlines r').
Proof.
  intros Hc. destruct r as [|[d|e] r].
  - right; left. exists []. cbn. auto.
  - cbn [do_read]. destruct (N.leb_spec (blen d) cap).
    + destruct d as [|b d].
      * right; left. exists r. cbn. repeat split; auto; lia.
      * right; right. exists b, d, r. repeat split; auto.
        cbn [reader_weight length]. lia.
    + right; right.
      assert (Hl : blen (firstn (N.to_nat cap) d) = cap) by (rewrite blen_firstn; lia).
      pose proof (firstn_skipn (N.to_nat cap) d) as Hd.
      destruct (firstn (N.to_nat cap) d) as [|b d'] eqn:E; [cbn in Hl; lia|].
      exists b, d'. eexists. split; [reflexivity|]. split; [lia|].
      split.
      * cbn [reader_weight]. rewrite <- Hd at 2. rewrite app_length. lia.
      * cbn [rd_newlines]. rewrite <- Hd at 1. rewrite newlines_app. lia.
  - left. exists e, r. cbn. repeat split; auto; lia.
Qed.

(** ** Scanning *)
Lemma scan_byte_some esc js c sp e' j' :
  scan_byte esc js c = (Some sp, e', j') ->
  e' = false /\ c <> 0 /\ (sp = NewLine -> c = 10) /\ (sp = SubLine -> esc = true /\ c = 110).
Proof.
  unfold scan_byte, ch_n, ch_bs, ch_lf. destruct esc.
  - destruct (N.eqb_spec c 110); intros H; inversion H; subst.
    repeat split; try discriminate; auto.
  - destruct (N.eqb_spec c 92); [discriminate|].
    destruct (N.eqb_spec c 10).
    + intros H; inversion H; subst. repeat split; try discriminate; auto.
    + destruct js as [b|]; [|discriminate]. unfold match_json_kv.
      destruct (c =? 34); [discriminate|].
      destruct (negb b && memb c [44; 91; 93; 123; 125]) eqn:E; [|discriminate].
      intros H; inversion H; subst. repeat split; try discriminate; auto.
      intros ->. rewrite andb_false_r in E. discriminate.
Qed.

Lemma scan_byte_none_esc esc js c e' j' :
  scan_byte esc js c = (None, e', j') -> e' = true -> esc = false.
Proof.
  unfold scan_byte. destruct esc; [|auto].
  intros H; inversion H; subst. discriminate.
Qed.

Lemma scan_safe rest : forall pos esc js,
  match scan rest pos esc js with
  | (None, e', j') => e' = true -> esc = true \/ rest <> []
  | (Some (p, sp), e', j') =>
      exists a c b, rest = a ++ c :: b /\ p = pos + blen a /\ e' = false /\ c <> 0 /\
        (sp = NewLine -> c = 10) /\ (sp = SubLine -> a = [] -> esc = true /\ c = 110)
  end.
Proof.
  induction rest as [|c rest IH]; intros pos esc js; cbn [scan]; [auto|].
  destruct (scan_byte esc js c) as [[[sp|] e'] j'] eqn:E.
  - destruct (scan_byte_some _ _ _ _ _ _ E) as (-> & H2 & H3 & H4).
    exists [], c, rest. rewrite blen_nil, N.add_0_r. repeat split; auto; intros; now apply H4.
  - specialize (IH (pos + 1) e' j').
    destruct (scan rest (pos + 1) e' j') as [[[[p sp]|] e''] j''].
    + destruct IH as (a & c' & b & -> & -> & He & Hc & H3 & H4).
      exists (c :: a), c', b. rewrite blen_cons. repeat split; auto; try lia; discriminate.
    + intros _. right. discriminate.
Qed.

Lemma scan_zeros n : forall pos esc js, exists e' j', scan (zeros n) pos esc js = (None, e', j').
Proof.
  unfold zeros. induction (N.to_nat n) as [|k IH]; intros pos esc js; cbn [repeat scan]; [eauto|].
  replace (scan_byte esc js 0) with (@None sep, false, js).
  - apply IH.
  - unfold scan_byte. cbn. destruct esc; [reflexivity|]. destruct js as [b|]; [|reflexivity].
    unfold match_json_kv. cbn. now rewrite andb_false_r.
Qed.

(** ** Invariants *)
Definition q (s : iter) : N :=
  match st s with Scanning NewLine => line_count s + 1 | _ => line_count s end.

Record base (s : iter) : Prop := {
  b_chunk : chunk_size s = 8192;
  b_max : max_line_length s = 6000;
  b_peak : peak s <= 14192;
  b_st : st s <> EoF;
  b_q : 1 <= q s
}.
Definition OKread (s : iter) : Prop :=
  base s /\ prev_pos s = blen (buf s) /\ blen (buf s) <= 6000 /\
  (escaped s = true -> buf s <> []).
Definition OKget (s : iter) : Prop :=
  base s /\ prev_pos s <= blen (buf s) /\ blen (buf s) <= 14192 /\
  (escaped s = true -> prev_pos s = 0 -> buf s <> [] /\ hd 0 (buf s) <> 110).
Definition OKdrop (s : iter) : Prop := base s /\ buf s = [] /\ prev_pos s = 0.
Definition OKmode (m : mode) (s : iter) : Prop :=
  match m with MRead => OKread s | MGet => OKget s | MDrop => OKdrop s end.

(** Between two calls. *)
Definition OK (s : iter) : Prop :=
  peak s <= 14192 /\ blen (buf s) <= 14192 /\
  (st s = EoF \/ match buf s with [] => OKread s | _ :: _ => OKget s end).

(** Line numbers that can still be given out. *)
Definition K (s : iter) (r : reader) : N :=
  q s + newlines (skipn (N.to_nat (prev_pos s)) (buf s)) + rd_newlines r.
Definition Psi (s : iter) (r : reader) : nat := (nonzeros (buf s) + reader_weight r)%nat.
Definition mu (m : mode) (s : iter) (r : reader) : nat :=
  (match m with MRead => 1 | MGet => 2 | MDrop => 1 end + nonzeros (buf s) + 3 * reader_weight r)%nat.

Lemma find_safe ovf s : chunk_size s = 8192 -> prev_pos s <= blen (buf s) -> blen (buf s) <= 14192 ->
  (exists e j, find_next_line ovf s = FNone (set_lex s e j) /\
     (e = true -> escaped s = true \/ skipn (N.to_nat (prev_pos s)) (buf s) <> [])) \/
  (exists sp j p a c b,
     let s1 := update_line_counter (set_lex s false j) (Scanning sp) in
     skipn (N.to_nat (prev_pos s)) (buf s) = a ++ c :: b /\ c <> 0 /\ (sp = NewLine -> c = 10) /\
     blen (buf s) = prev_pos s + blen a + 1 + blen b /\
     b = skipn (N.to_nat (prev_pos s + blen a + 1)) (buf s) /\
     ((find_next_line ovf s = FSome p sp s1 /\ p + sep_len sp = prev_pos s + blen a + 1) \/
      (sp = SubLine /\ escaped s = true /\ prev_pos s = 0 /\ a = [] /\ c = 110 /\
       find_next_line ovf s = (if ovf then FPanic else FSome (word - 1) sp s1)))).
Proof.
  intros Hc Hp Hl. unfold find_next_line.
  destruct (N.ltb_spec (blen (buf s)) (prev_pos s)); [lia|].
  pose proof (scan_safe (skipn (N.to_nat (prev_pos s)) (buf s)) 0 (escaped s) (split_json s)) as Hs.
  destruct (scan (skipn (N.to_nat (prev_pos s)) (buf s)) 0 (escaped s) (split_json s))
    as [[[[p sp]|] e'] j'].
  2:{ left. exists e', j'. split; [reflexivity|exact Hs]. }
  right. destruct Hs as (a & c & b & Hr & -> & -> & Hc0 & Hn & Hsub).
  assert (Hlen : blen (buf s) = prev_pos s + blen a + 1 + blen b).
  { rewrite <- (firstn_skipn (N.to_nat (prev_pos s)) (buf s)), Hr, !blen_app, blen_firstn, blen_cons. lia. }
  assert (Hb : b = skipn (N.to_nat (prev_pos s + blen a + 1)) (buf s)).
  { replace (N.to_nat (prev_pos s + blen a + 1))
      with (N.to_nat (blen a + 1) + N.to_nat (prev_pos s))%nat by lia.
    rewrite <- skipn_skipn, Hr, skipn_blen_S_app. reflexivity. }
  assert (D : sp <> SubLine \/ sp = SubLine) by (destruct sp; auto; left; discriminate).
  destruct D as [D|D].
  - exists sp, j', (prev_pos s + blen a), a, c, b. cbn zeta. repeat split; auto.
    left. destruct sp; cbn [sep_len]; try congruence; split; try lia; f_equal; lia.
  - subst sp. unfold usize_sub.
    destruct (N.leb_spec 1 (prev_pos s + (0 + blen a))).
    + exists SubLine, j', (prev_pos s + blen a - 1), a, c, b. cbn zeta. repeat split; auto.
      left. cbn [sep_len]. split; [f_equal|]; lia.
    + assert (a = []) as -> by (apply blen_0; lia).
      destruct (Hsub eq_refl eq_refl) as [He Hcc].
      exists SubLine, j', 0, [], c, b. cbn zeta. rewrite blen_nil in *. repeat split; auto.
      right. repeat split; auto; try lia.
      destruct ovf; [reflexivity|]. f_equal. unfold word. lia.
Qed.

Lemma q_update s e j sp :
  let s1 := update_line_counter (set_lex s e j) (Scanning sp) in
  line_count s1 = q s /\ q s1 = q s + sep_nl sp.
Proof.
  unfold q, update_line_counter, set_lex. cbn.
  destruct (st s) as [|[| |]]; destruct sp; cbn [sep_nl]; split; lia.
Qed.

Definition post (ovf : bool) (s : iter) (r : reader) (res : outcome * iter * reader) : Prop :=
  match res with
  | (o, s', r') =>
    match o with
    | OFuel => False
    | OPanic => ovf = true
    | ONone => OK s' /\ (r' = [] -> st s' = EoF \/ buf s' = zeros 8192)
    | OErr _ => OK s'
    | OLine l n => OK s' /\ 1 <= blen l /\ blen l <= 6000 /\ 1 <= n /\ line_count s <= n /\
                   n = line_count s' /\ n + rd_newlines r' <= K s r /\
                   (st s' = EoF \/ (Psi s' r' < Psi s r)%nat)
    end /\
    (o <> OPanic -> K s' r' <= K s r /\ line_count s <= line_count s' /\ (Psi s' r' <= Psi s r)%nat)
  end.

Lemma post_trans ovf s r s1 r1 res :
  post ovf s1 r1 res -> K s1 r1 <= K s r -> line_count s <= line_count s1 ->
  (Psi s1 r1 <= Psi s r)%nat -> post ovf s r res.
Proof.
  destruct res as [[o s'] r']. unfold post. intros [H1 H2] HK HL HP. split.
  - destruct o; auto. destruct H1 as (A1 & A2 & A3 & A4 & A5 & A6 & A7 & A8).
    repeat split; auto; try lia; try apply A1. destruct A8; [left; auto|right; lia].
  - intros Ho. specialize (H2 Ho). lia.
Qed.

Ltac iter_simpl :=
  cbn [chunk_size max_line_length buf st line_count split_json prev_pos escaped peak
       set_buf set_prev set_lex update_line_counter] in *.

Lemma base_intro s sp : chunk_size s = 8192 -> max_line_length s = 6000 -> peak s <= 14192 ->
  st s = Scanning sp -> 1 <= q s -> base s.
Proof. intros. constructor; auto. congruence. Qed.

Lemma run_safe ovf : forall fuel m s r, OKmode m s -> (mu m s r <= fuel)%nat ->
  post ovf s r (run ovf fuel m s r).
Proof.
  induction fuel as [|fuel IH]; intros m s r Hm Hfuel.
  { destruct m; cbn in Hfuel; lia. }
  destruct m; cbn [run].
  - (* read_slice *)
    destruct Hm as (B & Hpos & Hlen & Hesc).
    rewrite (b_chunk _ B).
    destruct (do_read_cases 8192 r) as
      [(e & r' & -> & Hw & Hn)|[(r' & -> & Hr & Hw & Hn)|(b & d & r' & -> & Hlb & Hw & Hn)]]; [lia| | |].
    + (* error *)
      assert (Hlen' : blen (buf s ++ zeros 8192) = blen (buf s) + 8192)
        by (rewrite blen_app, blen_zeros; reflexivity).
      split; [|intros _; split; [|split]].
      * unfold OK. iter_simpl. rewrite Hlen'. pose proof (b_peak _ B).
        split; [lia|]. split; [lia|]. right.
        assert (OKget (set_buf s (buf s ++ zeros 8192))).
        { split; [|split; [|split]]; iter_simpl; try lia.
          - destruct B. constructor; unfold q in *; iter_simpl; auto; lia.
          - intros He Hz. exfalso. apply (Hesc He). apply blen_0. lia. }
        destruct (buf s ++ zeros 8192); [cbn in Hlen'; lia|assumption].
      * unfold K, q. iter_simpl. rewrite Hpos.
        rewrite skipn_blen_app, newlines_zeros.
        replace (skipn (N.to_nat (blen (buf s))) (buf s)) with (@nil N).
        2:{ symmetry. pose proof (skipn_blen_app (buf s) []) as H. now rewrite app_nil_r in H. }
        unfold newlines at 1. cbn [filter length]. lia.
      * iter_simpl. lia.
      * unfold Psi. iter_simpl. rewrite nonzeros_app, nonzeros_zeros. lia.
    + assert (Hlen' : blen (buf s ++ zeros 8192) = blen (buf s) + 8192)
        by (rewrite blen_app, blen_zeros; reflexivity).
      pose proof (b_peak _ B) as Hpk.
      destruct (N.ltb_spec 0 (blen (buf s))).
      * (* last line *)
        iter_simpl. rewrite firstn_blen_app, skipn_blen_app.
        set (lc := match st s with Scanning NewLine => line_count s + 1 | _ => line_count s end).
        assert (Hlc : lc = q s) by reflexivity.
        assert (Hq0 : line_count s <= q s) by (unfold q; destruct (st s) as [|[| |]]; lia).
        pose proof (b_q _ B) as Hq1.
        assert (Hsk : newlines (skipn (N.to_nat (prev_pos s)) (zeros 8192)) = 0)
          by (rewrite skipn_zeros; apply newlines_zeros).
        split; [|intros _; split; [|split]].
        -- split; [|repeat split; try lia].
           ++ unfold OK. iter_simpl. rewrite blen_zeros, Hlen'. repeat split; try lia. left; reflexivity.
           ++ iter_simpl. unfold K. lia.
           ++ left. reflexivity.
        -- unfold K. unfold q at 1. iter_simpl. rewrite Hsk. lia.
        -- iter_simpl. lia.
        -- unfold Psi. iter_simpl. rewrite nonzeros_zeros. lia.
      * (* end of the reader *)
        assert (Hb : buf s = []) by (apply blen_0; lia).
        rewrite Hb in *. cbn [app] in *. rewrite blen_nil in *.
        split; [|intros _; split; [|split]].
        -- split; [|intros _; right; reflexivity].
           unfold OK. iter_simpl. rewrite blen_zeros. split; [lia|]. split; [lia|]. right.
           assert (OKget (set_buf s (zeros 8192))).
           { split; [|split; [|split]]; iter_simpl; try (rewrite ?blen_zeros; lia).
             - destruct B. constructor; unfold q in *; iter_simpl; auto. rewrite blen_zeros. lia.
             - intros He. exfalso. now apply (Hesc He). }
           destruct (zeros 8192) eqn:Ez; [discriminate|assumption].
        -- unfold K, q. iter_simpl. rewrite Hb, skipn_zeros, newlines_zeros. lia.
        -- iter_simpl. lia.
        -- unfold Psi. iter_simpl. rewrite nonzeros_zeros. lia.
    + (* data *)
      set (s2 := set_buf (set_buf s (buf s ++ zeros 8192)) (buf s ++ b :: d)).
      assert (Hnz : (nonzeros (buf s ++ b :: d) <= nonzeros (buf s) + length (b :: d))%nat)
        by (rewrite nonzeros_app; pose proof (nonzeros_le (b :: d)); lia).
      assert (1 <= length (b :: d))%nat by (cbn [length]; lia).
      apply post_trans with (s1 := s2) (r1 := r').
      * apply IH.
        -- pose proof (b_peak _ B).
           split; [|split; [|split]]; unfold s2; iter_simpl; rewrite ?blen_app; try lia.
           ++ destruct B. constructor; unfold q in *; iter_simpl; auto. rewrite !blen_app, blen_zeros. lia.
           ++ intros He Hz. exfalso. apply (Hesc He). apply blen_0. lia.
        -- unfold mu in *. unfold s2. iter_simpl. lia.
      * unfold K, q, s2. iter_simpl. rewrite Hpos, skipn_blen_app. lia.
      * unfold s2. iter_simpl. lia.
      * unfold Psi, s2. iter_simpl. lia.
  - (* get_slice *)
    destruct Hm as (B & Hpos & Hlen & Hesc).
    pose proof (b_peak _ B) as Hpk.
    rewrite (b_max _ B).
    destruct (find_safe ovf s (b_chunk _ B) Hpos Hlen) as
      [(e & j & -> & He)|(sp & j & p & a & c & b & Hsk & Hc & Hnl & Hbl & Hb & Hf)].
    + iter_simpl. destruct (N.ltb_spec 6000 (blen (buf s))).
      * (* Step J *)
        eapply post_trans.
        -- apply IH; [|unfold mu in *; iter_simpl; cbn [nonzeros filter length]; lia].
           split; [|split; reflexivity].
           destruct B. constructor; unfold q in *; iter_simpl; auto. rewrite blen_nil. lia.
        -- unfold K, q. iter_simpl. rewrite skipn_nil. unfold newlines at 1. cbn [filter length]. lia.
        -- iter_simpl. lia.
        -- unfold Psi. iter_simpl. cbn [nonzeros filter length]. lia.
      * (* Step E *)
        eapply post_trans.
        -- apply IH; [|unfold mu in *; iter_simpl; lia].
           split; [|split; [|split]]; iter_simpl; auto.
           ++ destruct B. constructor; unfold q in *; iter_simpl; auto.
           ++ intros ->. specialize (He eq_refl). intros Hnil. rewrite Hnil in *.
              rewrite blen_nil in *. destruct He as [He|He].
              ** assert (Hz : prev_pos s = 0) by lia. now destruct (Hesc He Hz).
              ** rewrite skipn_nil in He. congruence.
        -- unfold K, q. iter_simpl.
           replace (skipn (N.to_nat (blen (buf s))) (buf s)) with (@nil N).
           2:{ symmetry. pose proof (skipn_blen_app (buf s) []) as H1. now rewrite app_nil_r in H1. }
           unfold newlines at 1. cbn [filter length]. lia.
        -- iter_simpl. lia.
        -- unfold Psi. iter_simpl. lia.
    + assert (Hsub : find_next_line ovf s = FSome p sp
                 (update_line_counter (set_lex s false j) (Scanning sp)) /\
               p + sep_len sp = prev_pos s + blen a + 1).
      { destruct Hf as [Hf|(-> & He & Hz & -> & -> & _)]; [exact Hf|exfalso].
        destruct (Hesc He Hz) as [_ Hh]. apply Hh. rewrite Hz in Hsk. cbn in Hsk. now rewrite Hsk. }
      clear Hf. destruct Hsub as [-> Hp].
      destruct (q_update s false j sp) as [Hlc Hq].
      set (s1 := update_line_counter (set_lex s false j) (Scanning sp)) in *.
      assert (Hq0 : line_count s <= q s) by (unfold q; destruct (st s) as [|[| |]]; lia).
      pose proof (b_q _ B) as Hq1.
      assert (Hadd : usize_add ovf p (sep_len sp) = Some (p + sep_len sp)).
      { unfold usize_add, word. destruct (N.ltb_spec (p + sep_len sp) (2 ^ 64)); [reflexivity|].
        change (2 ^ 64) with 18446744073709551616 in *. lia. }
      assert (Hadd0 : usize_add ovf 0 (sep_len sp) = Some (sep_len sp))
        by (unfold usize_add, word; destruct sp; reflexivity).
      assert (Hnlb : newlines (skipn (N.to_nat (prev_pos s)) (buf s)) >= sep_nl sp + newlines b).
      { rewrite Hsk, newlines_app, newlines_cons. destruct sp; cbn [sep_nl]; try lia.
        rewrite (Hnl eq_refl). cbn. lia. }
      assert (Hnzb : (nonzeros b + 1 <= nonzeros (buf s))%nat).
      { pose proof (nonzeros_skipn (N.to_nat (prev_pos s)) (buf s)) as H.
        rewrite Hsk, nonzeros_app, nonzeros_cons in H. destruct (N.eqb_spec c 0); [congruence|]. lia. }
      assert (Hgen : forall s4, chunk_size s4 = 8192 -> max_line_length s4 = 6000 ->
                peak s4 <= 14192 -> buf s4 = b -> st s4 = Scanning sp -> line_count s4 = q s ->
                prev_pos s4 = 0 -> escaped s4 = false ->
                base s4 /\ K s4 r <= K s r /\ line_count s <= line_count s4 /\ (Psi s4 r < Psi s r)%nat
                /\ OKget s4 /\ OK s4 /\ (mu MGet s4 r <= fuel)%nat).
      { intros s4 A1 A2 A3 A4 A5 A6 A7 A8.
        assert (Hq4 : q s4 = q s + sep_nl sp)
          by (unfold q at 1; rewrite A5, A6; destruct sp; cbn [sep_nl]; lia).
        assert (base s4) by (constructor; auto; [congruence|lia]).
        assert (OKget s4).
        { split; [assumption|]. rewrite A4, A7, A8. split; [lia|]. split; [lia|discriminate]. }
        repeat match goal with |- _ /\ _ => split end; auto.
        - unfold K. rewrite Hq4, A4, A7. cbn [N.to_nat skipn]. lia.
        - rewrite A6. lia.
        - unfold Psi. rewrite A4. lia.
        - unfold OK. split; [assumption|]. split; [rewrite A4; lia|]. right.
          destruct (buf s4) eqn:Eb; [|assumption].
          split; [assumption|]. rewrite Eb, A7, A8. repeat split; try discriminate.
        - unfold mu in *. rewrite A4. lia. }
      destruct (N.ltb_spec 6000 p).
      * (* Step I *)
        unfold advance. rewrite Hadd. unfold s1. iter_simpl.
        destruct (N.ltb_spec (blen (buf s)) (p + sep_len sp)); [lia|].
        match goal with |- post _ _ _ (run _ _ _ ?x _) => destruct (Hgen x) as (G1 & G2 & G3 & G4 & G5 & G6 & G7) end;
          iter_simpl; auto; try apply B.
        -- rewrite blen_skipn. lia.
        -- now rewrite Hp.
        -- eapply post_trans; [apply IH; eassumption|assumption|assumption|lia].
      * unfold s1. iter_simpl.
        destruct (N.ltb_spec (blen (buf s)) p); [destruct sp; cbn [sep_len] in *; lia|].
        unfold advance. rewrite Hadd0. iter_simpl.
        assert (Hsk2 : skipn (N.to_nat (sep_len sp)) (skipn (N.to_nat p) (buf s)) = b).
        { rewrite skipn_skipn, Hb. f_equal. lia. }
        destruct (N.ltb_spec (blen (skipn (N.to_nat p) (buf s))) (sep_len sp));
          [rewrite blen_skipn in *; lia|].
        match goal with |- post _ _ _ (match _ with [] => run _ _ _ ?x _ | _ => _ end) =>
          destruct (Hgen x) as (G1 & G2 & G3 & G4 & G5 & G6 & G7) end; iter_simpl; auto; try apply B.
        -- rewrite Hsk2, blen_skipn. lia.
        -- destruct (firstn (N.to_nat p) (buf s)) as [|z zs] eqn:Efn.
           ++ eapply post_trans; [apply IH; eassumption|assumption|assumption|lia].
           ++ assert (Hfl : blen (z :: zs) = p) by (rewrite <- Efn, blen_firstn; lia).
              split; [|intros _; split; [assumption|split; [assumption|lia]]].
              split; [assumption|].
              fold (q s). iter_simpl. rewrite blen_cons in *.
              repeat split; try lia. unfold K. lia.
  - (* drop_until_next_line *)
    destruct Hm as (B & Hb0 & Hpos).
    pose proof (b_peak _ B) as Hpk. rewrite (b_chunk _ B), Hb0. cbn [app].
    assert (Hz : firstn (N.to_nat 8192) (zeros 8192) = zeros 8192).
    { apply firstn_all2. unfold zeros. rewrite repeat_length. lia. }
    rewrite Hz.
    assert (Hzok : OKget (set_buf s (zeros 8192)) /\ OK (set_buf s (zeros 8192)) /\
       forall r', rd_newlines r' = rd_newlines r -> (reader_weight r' <= reader_weight r)%nat ->
       K (set_buf s (zeros 8192)) r' <= K s r /\
       line_count s <= line_count (set_buf s (zeros 8192)) /\
       (Psi (set_buf s (zeros 8192)) r' <= Psi s r)%nat).
    { assert (OKget (set_buf s (zeros 8192))).
      { split; [|split; [|split]]; iter_simpl; rewrite ?blen_zeros; try lia.
        - destruct B. constructor; unfold q in *; iter_simpl; auto. rewrite blen_zeros. lia.
        - intros _ _. split; discriminate. }
      split; [assumption|]. split.
      - unfold OK. iter_simpl. rewrite blen_zeros. split; [lia|]. split; [lia|]. right.
        destruct (zeros 8192) eqn:Ez; [discriminate|assumption].
      - intros r' Hr' Hw'. unfold K, q, Psi. iter_simpl. rewrite skipn_zeros, newlines_zeros, nonzeros_zeros.
        lia. }
    destruct Hzok as (Z1 & Z2 & Z3).
    destruct (do_read_cases 8192 r) as
      [(e & r' & -> & Hw & Hn)|[(r' & -> & Hr & Hw & Hn)|(b & d & r' & -> & Hlb & Hw & Hn)]]; [lia| | |].
    + split; [assumption|]. intros _. apply Z3; auto. lia.
    + split; [split; [assumption|]|].
      * intros _. right. reflexivity.
      * intros _. apply Z3; auto.
    + change (buf (set_buf s (zeros 8192))) with (zeros 8192). rewrite skipn_zeros.
      set (n := blen (b :: d)) in *.
      change (b :: d ++ zeros (8192 - n)) with ((b :: d) ++ zeros (8192 - n)).
      set (s2 := set_buf (set_buf s (zeros 8192)) ((b :: d) ++ zeros (8192 - n))).
      assert (Hl2 : blen (buf s2) = 8192).
      { unfold s2. iter_simpl. rewrite blen_app, blen_zeros. fold n. lia. }
      assert (Hpk2 : peak s2 <= 14192).
      { unfold s2. iter_simpl. rewrite blen_app, !blen_zeros. fold n. lia. }
      assert (Hnz2 : (nonzeros (buf s2) <= length (b :: d))%nat).
      { unfold s2. iter_simpl. rewrite nonzeros_app, nonzeros_zeros. pose proof (nonzeros_le (b :: d)). lia. }
      assert (Hnl2 : newlines (buf s2) = newlines (b :: d)).
      { unfold s2. iter_simpl. rewrite newlines_app, newlines_zeros. lia. }
      assert (1 <= length (b :: d))%nat by (cbn [length]; lia).
      assert (B2 : base s2).
      { destruct B. constructor; unfold s2, q in *; iter_simpl; auto. }
      assert (Hq2 : q s2 = q s) by reflexivity.
      assert (Hlc2 : line_count s2 = line_count s) by reflexivity.
      assert (Hp2 : prev_pos s2 = 0) by (unfold s2; iter_simpl; assumption).
      assert (HKs : K s r = q s + newlines (b :: d) + rd_newlines r').
      { unfold K. rewrite Hb0, skipn_nil, Hn. unfold newlines at 1. cbn [filter length]. lia. }
      assert (HPs : Psi s r = reader_weight r) by (unfold Psi; rewrite Hb0; reflexivity).
      unfold mu in Hfuel. rewrite Hb0 in Hfuel. cbn [nonzeros filter length] in Hfuel.
      destruct (find_safe ovf s2 (b_chunk _ B2)) as
        [(e & j & -> & He)|(sp & j & p & a & c & b' & Hsk & Hc & Hnl & Hbl & Hb & Hf)]; [lia|lia| |].
      * (* keep draining *)
        eapply post_trans.
        -- apply IH; [|unfold mu; iter_simpl; cbn [nonzeros filter length]; lia].
           split; [|split; [reflexivity|exact Hp2]].
           destruct B2. constructor; unfold q in *; iter_simpl; auto. rewrite blen_nil. lia.
        -- rewrite HKs. unfold K. iter_simpl. rewrite skipn_nil. unfold newlines at 1.
           cbn [filter length]. unfold q in *. iter_simpl. lia.
        -- iter_simpl. lia.
        -- rewrite HPs. unfold Psi. iter_simpl. cbn [nonzeros filter length]. lia.
      * destruct (q_update s2 false j sp) as [Hlc Hq].
        set (s3 := update_line_counter (set_lex s2 false j) (Scanning sp)) in *.
        assert (Hq0 : line_count s <= q s) by (unfold q; destruct (st s) as [|[| |]]; lia).
        pose proof (b_q _ B) as Hq1.
        rewrite Hp2 in *. cbn [N.to_nat skipn] in Hsk.
        assert (Hnlb : newlines (b :: d) >= sep_nl sp + newlines b').
        { rewrite <- Hnl2, Hsk, newlines_app, newlines_cons. destruct sp; cbn [sep_nl]; try lia.
          rewrite (Hnl eq_refl). cbn. lia. }
        assert (Hnzb : (nonzeros b' <= length (b :: d))%nat).
        { rewrite Hsk, nonzeros_app, nonzeros_cons in Hnz2. lia. }
        assert (Hfl : forall p', 
          p' = p /\ p + sep_len sp = 0 + blen a + 1 \/ ovf = false /\ p' = word - 1 /\ sp = SubLine /\ a = [] ->
          usize_add ovf p' (sep_len sp) = Some (blen a + 1)).
        { intros p' [[-> Hpp]|(-> & -> & -> & ->)].
          - unfold usize_add, word. destruct (N.ltb_spec (p + sep_len sp) (2 ^ 64)).
            + f_equal. lia.
            + change (2 ^ 64) with 18446744073709551616 in *. lia.
          - reflexivity. }
        assert (Hall : forall p',
          p' = p /\ p + sep_len sp = 0 + blen a + 1 \/ ovf = false /\ p' = word - 1 /\ sp = SubLine /\ a = [] ->
          post ovf s r
            (if n =? 8192 then run ovf fuel MRead (set_buf s3 []) r'
             else match advance ovf s3 p' sp with
                  | Some s4 => run ovf fuel MGet s4 r'
                  | None => (OPanic, s3, r')
                  end)).
        { intros p' Hp'. destruct (n =? 8192).
          - eapply post_trans.
            + apply IH; [|unfold mu; iter_simpl; cbn [nonzeros filter length]; lia].
              split; [|split; [|split]]; iter_simpl; auto; try (rewrite blen_nil; lia).
              * apply base_intro with sp; unfold s3; iter_simpl; auto; try apply B2.
                -- rewrite blen_nil. lia.
                -- change (1 <= q s3). lia.
              * unfold s3. iter_simpl. discriminate.
            + rewrite HKs. unfold K. change (q (set_buf s3 [])) with (q s3). iter_simpl.
              rewrite skipn_nil. unfold newlines at 1. cbn [filter length]. lia.
            + change (line_count s <= line_count s3). lia.
            + rewrite HPs. unfold Psi. iter_simpl. cbn [nonzeros filter length]. lia.
          - unfold advance. rewrite (Hfl p' Hp').
            assert (Hbs3 : buf s3 = buf s2) by reflexivity. rewrite Hbs3.
            destruct (N.ltb_spec (blen (buf s2)) (blen a + 1)); [lia|].
            replace (skipn (N.to_nat (blen a + 1)) (buf s2)) with b' by (rewrite Hb; f_equal; lia).
            assert (Hq3 : q (set_buf s3 b') = q s + sep_nl sp) by (rewrite <- Hq2, <- Hq; reflexivity).
            eapply post_trans.
            + apply IH.
              * split; [|split; [|split]]; iter_simpl; try lia.
                -- apply base_intro with sp; iter_simpl; try apply B2; try reflexivity; [|lia].
                   change (peak s3) with (peak s2). lia.
                -- unfold s3. iter_simpl. lia.
                -- unfold s3. iter_simpl. discriminate.
              * unfold mu. iter_simpl. lia.
            + rewrite HKs. unfold K. rewrite Hq3. iter_simpl.
              pose proof (newlines_skipn (N.to_nat (prev_pos s3)) b'). lia.
            + iter_simpl. rewrite Hlc. lia.
            + rewrite HPs. unfold Psi. iter_simpl. lia. }
        destruct Hf as [[-> Hpp]|(-> & He & _ & -> & -> & ->)].
        -- apply Hall. left. auto.
        -- destruct ovf.
           ++ split; [reflexivity|]. intros Hx. now destruct Hx.
           ++ apply (Hall (word - 1)). right. auto.
Qed.
