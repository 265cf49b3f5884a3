(** Proofs about the line iterator: chunk independence. *)
From Coq Require Import List NArith Bool Lia ZifyBool ZifyN ZifyNat.
From Verif Require Import Common IterModel IterSpec.
Import ListNotations.
Open Scope N_scope.

(** ** Lengths *)
Lemma blen_app a b : blen (a ++ b) = blen a + blen b.
Proof. unfold blen. rewrite app_length. lia. Qed.
Lemma blen_nil : blen [] = 0. Proof. reflexivity. Qed.
Lemma blen_cons c l : blen (c :: l) = 1 + blen l.
Proof. unfold blen. cbn [length]. lia. Qed.
Lemma blen_firstn n l : blen (firstn (N.to_nat n) l) = N.min n (blen l).
Proof. unfold blen. rewrite firstn_length. lia. Qed.
Lemma blen_skipn n l : blen (skipn (N.to_nat n) l) = blen l - n.
Proof. unfold blen. rewrite skipn_length. lia. Qed.
Lemma blen_zeros n : blen (zeros n) = n.
Proof. unfold blen, zeros. rewrite repeat_length. lia. Qed.
Lemma blen_0 l : blen l = 0 -> l = [].
Proof. destruct l; [easy|]. rewrite blen_cons. lia. Qed.

Lemma firstn_blen_app a b : firstn (N.to_nat (blen a)) (a ++ b) = a.
Proof.
  unfold blen. rewrite Nnat.Nat2N.id, firstn_app, firstn_all, PeanoNat.Nat.sub_diag.
  cbn [firstn]. now rewrite app_nil_r.
Qed.
Lemma skipn_blen_app a b : skipn (N.to_nat (blen a)) (a ++ b) = b.
Proof.
  unfold blen. rewrite Nnat.Nat2N.id, skipn_app, skipn_all, PeanoNat.Nat.sub_diag.
  reflexivity.
Qed.
Lemma skipn_blen_S_app a c b : skipn (N.to_nat (blen a + 1)) (a ++ c :: b) = b.
Proof.
  replace (a ++ c :: b) with ((a ++ [c]) ++ b) by (rewrite <- app_assoc; reflexivity).
  replace (blen a + 1) with (blen (a ++ [c])) by (rewrite blen_app; reflexivity).
  apply skipn_blen_app.
Qed.

(** ** The automaton *)
Lemma lex_app a : forall L b,
  lex L (a ++ b) =
  (fst (lex L a) ++ fst (lex (snd (lex L a)) b), snd (lex (snd (lex L a)) b)).
Proof.
  induction a as [|c a IH]; intros L b; cbn [lex app].
  - cbn [fst snd app]. now destruct (lex L b).
  - destruct (feed L c) as [[x|] L1].
    + rewrite (IH L1 b). destruct (lex L1 a) as [l L2]. cbn [fst snd].
      destruct (lex L2 b); reflexivity.
    + apply IH.
Qed.

(** The model's byte classification against the automaton. *)
Lemma scan_byte_feed L c :
  match scan_byte (esc L) (js L) c with
  | (None, e', j') =>
      feed L c = (None, mkLex j' e' (cur L ++ [c]) (nr L))
  | (Some SubLine, e', j') =>
      esc L = true /\ e' = false /\ j' = js L /\
      feed L c = (Some (removelast (cur L), nr L), mkLex (js L) false [] (nr L))
  | (Some NewLine, e', j') =>
      e' = false /\ j' = js L /\
      feed L c = (Some (cur L, nr L), mkLex (js L) false [] (nr L + 1))
  | (Some JsonSep, e', j') =>
      e' = false /\ j' = js L /\
      feed L c = (Some (cur L, nr L), mkLex (js L) false [] (nr L))
  end.
Proof.
  unfold scan_byte, feed, ch_n, ch_bs, ch_lf.
  destruct (esc L) eqn:E.
  - destruct (c =? 110); auto.
  - destruct (c =? 92) eqn:E1; auto.
    destruct (c =? 10) eqn:E2; auto.
    destruct (js L) as [b|]; auto.
    unfold match_json_kv. destruct (c =? 34) eqn:E3; auto.
    cbn [memb existsb]. rewrite orb_false_r, !orb_assoc.
    destruct (negb b && _); auto.
Qed.

Definition sep_nl (sp : sep) : N := match sp with NewLine => 1 | _ => 0 end.

(** The model's scan against the automaton. *)
Lemma scan_lex rest : forall L pos,
  match scan rest pos (esc L) (js L) with
  | (None, e', j') =>
      lex L rest = ([], mkLex j' e' (cur L ++ rest) (nr L))
  | (Some (p, sp), e', j') =>
      exists a c b, rest = a ++ c :: b /\ p = pos + blen a /\ e' = false /\ c <> 0 /\
        (sp = SubLine -> a = [] -> esc L = true) /\
        lex L (a ++ [c]) =
          ([(match sp with SubLine => removelast (cur L ++ a) | _ => cur L ++ a end, nr L)],
           mkLex j' false [] (nr L + sep_nl sp))
  end.
Proof.
  induction rest as [|c rest IH]; intros L pos; cbn [scan].
  - cbn [lex]. rewrite app_nil_r. now destruct L.
  - pose proof (scan_byte_feed L c) as H.
    assert (Hz : forall sp e' j', scan_byte (esc L) (js L) c = (Some sp, e', j') -> c <> 0).
    { intros sp e' j' Hs ->. revert Hs. unfold scan_byte. cbn.
      destruct (esc L); [discriminate|]. destruct (js L) as [bb|]; [|discriminate].
      unfold match_json_kv; cbn; rewrite andb_false_r; discriminate. }
    destruct (scan_byte (esc L) (js L) c) as [[[sp|] e'] j'] eqn:Es.
    + exists [], c, rest. rewrite blen_nil, N.add_0_r. cbn [app lex].
      rewrite app_nil_r.
      specialize (Hz _ _ _ eq_refl).
      destruct sp.
      * destruct H as (-> & -> & H). repeat split; auto; try easy. rewrite H. reflexivity.
      * destruct H as (He & -> & -> & H). repeat split; auto. rewrite H. cbn [sep_nl].
        now rewrite N.add_0_r.
      * destruct H as (-> & -> & H). repeat split; auto; try easy. rewrite H. cbn [sep_nl].
        now rewrite N.add_0_r.
    + specialize (IH (mkLex j' e' (cur L ++ [c]) (nr L)) (pos + 1)).
      cbn [esc js cur nr] in IH.
      destruct (scan rest (pos + 1) e' j') as [[[[p sp]|] e''] j''] eqn:Esc.
      * destruct IH as (a & c' & b & -> & -> & He & Hc & Hsub & Hl).
        exists (c :: a), c', b. rewrite blen_cons. cbn [app lex].
        repeat split; auto; try easy; try lia.
        rewrite H. rewrite Hl. rewrite <- app_assoc. reflexivity.
      * cbn [lex]. rewrite H, IH. rewrite <- app_assoc. reflexivity.
Qed.

(** ** The buffer against the automaton *)
Record Inv (s : iter) (L : lexer) (rest : bytes) : Prop := {
  inv_chunk : chunk_size s = 8192;
  inv_max : max_line_length s = 6000;
  inv_buf : buf s = cur L ++ rest;
  inv_len : blen (buf s) <= 14192;
  inv_pos : prev_pos s = blen (cur L);
  inv_esc : escaped s = esc L;
  inv_js : split_json s = js L;
  inv_nr : exists sp, st s = Scanning sp /\ nr L = line_count s + sep_nl sp;
  inv_bs : esc L = true -> cur L <> []
}.

Lemma removelast_split (l : bytes) : l <> [] -> l = removelast l ++ [last l 0].
Proof. intros H. now apply app_removelast_last. Qed.

Lemma find_inv ovf s L rest : Inv s L rest ->
  (exists s1, find_next_line ovf s = FNone s1 /\ s1 = set_lex s (escaped s1) (split_json s1) /\
     fst (lex L rest) = [] /\
     snd (lex L rest) = mkLex (split_json s1) (escaped s1) (cur L ++ rest) (nr L)) \/
  (exists sp s1 seg x b L1, find_next_line ovf s = FSome (blen seg) sp s1 /\
     rest <> [] /\
     s1 = mkIter 8192 6000 (buf s) (Scanning sp) (nr L) (js L1) (prev_pos s) false (peak s) /\
     buf s = seg ++ x ++ b /\ blen x = sep_len sp /\
     L1 = mkLex (js L1) false [] (nr L + sep_nl sp) /\
     lex L rest = ((seg, nr L) :: fst (lex L1 b), snd (lex L1 b))).
Proof.
  intros I. unfold find_next_line.
  rewrite (inv_esc _ _ _ I), (inv_js _ _ _ I).
  rewrite (inv_pos _ _ _ I).
  assert (Hge : (blen (buf s) <? blen (cur L)) = false).
  { rewrite (inv_buf _ _ _ I), blen_app. lia. }
  rewrite Hge.
  replace (skipn (N.to_nat (blen (cur L))) (buf s)) with rest
    by (rewrite (inv_buf _ _ _ I), skipn_blen_app; reflexivity).
  pose proof (scan_lex rest L 0) as Hs.
  destruct (scan rest 0 (esc L) (js L)) as [[[[p sp]|] e'] j'].
  2:{ left. eexists. split; [reflexivity|]. cbn [escaped split_json set_lex].
      split; [reflexivity|]. now rewrite Hs. }
  right. destruct Hs as (a & c & b & -> & -> & -> & _ & Hsub & Hl).
  destruct (inv_nr _ _ _ I) as (sp0 & Hst & Hnr).
  assert (Hs1 : update_line_counter (set_lex s false j') (Scanning sp) =
    mkIter 8192 6000 (buf s) (Scanning sp) (nr L) j' (prev_pos s) false (peak s)).
  { unfold update_line_counter, set_lex. cbn. rewrite Hst, Hnr.
    rewrite (inv_chunk _ _ _ I), (inv_max _ _ _ I).
    destruct sp0; cbn [sep_nl]; rewrite ?N.add_0_r; reflexivity. }
  rewrite Hs1.
  assert (Hlex : forall seg L1, lex L (a ++ [c]) = ([(seg, nr L)], L1) ->
            lex L (a ++ c :: b) = ((seg, nr L) :: fst (lex L1 b), snd (lex L1 b))).
  { intros seg L1 H. replace (a ++ c :: b) with ((a ++ [c]) ++ b)
      by (rewrite <- app_assoc; reflexivity). rewrite lex_app, H. reflexivity. }
  assert (Hne : a ++ c :: b <> []) by (destruct a; discriminate).
  destruct sp.
  - exists NewLine. eexists. exists (cur L ++ a), [c], b. eexists.
    split; [f_equal; rewrite blen_app; lia|].
    split; [assumption|]. split; [|split; [|split; [reflexivity|split; [|apply Hlex, Hl]]]].
    + cbn [js]. now rewrite <- (inv_pos _ _ _ I).
    + rewrite (inv_buf _ _ _ I), <- !app_assoc. reflexivity.
    + reflexivity.
  - assert (Hne' : cur L ++ a <> []).
    { intros H. apply app_eq_nil in H. destruct H as [H1 ->].
      apply (inv_bs _ _ _ I); auto. }
    assert (Hlen : blen (cur L ++ a) = 1 + blen (removelast (cur L ++ a))).
    { rewrite (removelast_split _ Hne') at 1. rewrite blen_app.
      change (blen [last (cur L ++ a) 0]) with 1. lia. }
    unfold usize_sub.
    assert (E1 : (1 <=? blen (cur L) + (0 + blen a)) = true)
      by (rewrite blen_app in Hlen; lia).
    rewrite E1.
    exists SubLine. eexists. exists (removelast (cur L ++ a)), [last (cur L ++ a) 0; c], b. eexists.
    split; [f_equal; rewrite blen_app in Hlen; lia|].
    split; [assumption|]. split; [|split; [|split; [reflexivity|split; [|apply Hlex, Hl]]]].
    + cbn [js]. now rewrite <- (inv_pos _ _ _ I).
    + rewrite (inv_buf _ _ _ I).
      replace (cur L ++ a ++ c :: b) with ((cur L ++ a) ++ c :: b)
          by (rewrite <- app_assoc; reflexivity).
      rewrite (removelast_split _ Hne') at 1. rewrite <- app_assoc. reflexivity.
    + reflexivity.
  - exists JsonSep. eexists. exists (cur L ++ a), [c], b. eexists.
    split; [f_equal; rewrite blen_app; lia|].
    split; [assumption|]. split; [|split; [|split; [reflexivity|split; [|apply Hlex, Hl]]]].
    + cbn [js]. now rewrite <- (inv_pos _ _ _ I).
    + rewrite (inv_buf _ _ _ I), <- !app_assoc. reflexivity.
    + reflexivity.
Qed.

(** What is still to be delivered: automaton state, unscanned bytes, end of the reader. *)
Definition deliver (eof : bool) (L : lexer) (T : bytes) : list (bytes * N) :=
  filter deliverable
    (fst (lex L T) ++
     if eof then match cur (snd (lex L T)) with
                 | [] => []
                 | _ :: _ => [(cur (snd (lex L T)), nr (snd (lex L T)))]
                 end
     else []).

Definition is_eof (tail : reader) : bool := match tail with [] => true | _ => false end.
Definition good_tail (tail : reader) : Prop :=
  match tail with Data _ :: _ => False | _ => True end.

Definition bound_ok (L : lexer) (rest : bytes) (chunks : list bytes) : Prop :=
  forall before after, chunks = before ++ after -> after <> [] ->
    blen (cur (snd (lex L (rest ++ concat before)))) <= 6000.

Lemma bound_ok_read L chunk chunks :
  bound_ok L [] (chunk :: chunks) -> bound_ok L chunk chunks.
Proof.
  intros H before after -> Ha. specialize (H (chunk :: before) after).
  cbn [concat app] in H. apply H; auto.
Qed.
Lemma bound_ok_scan L rest chunks :
  bound_ok L rest chunks -> bound_ok (snd (lex L rest)) [] chunks.
Proof.
  intros H before after -> Ha. specialize (H before after eq_refl Ha).
  rewrite lex_app in H. exact H.
Qed.
Lemma bound_ok_sep L rest L1 b seg chunks :
  lex L rest = (seg :: fst (lex L1 b), snd (lex L1 b)) ->
  bound_ok L rest chunks -> bound_ok L1 b chunks.
Proof.
  intros E H before after -> Ha. specialize (H before after eq_refl Ha).
  rewrite lex_app, E in H. rewrite lex_app. exact H.
Qed.

Lemma deliver_sep eof L rest L1 b seg T :
  lex L rest = (seg :: fst (lex L1 b), snd (lex L1 b)) ->
  deliver eof L (rest ++ T) =
  if deliverable seg then seg :: deliver eof L1 (b ++ T) else deliver eof L1 (b ++ T).
Proof.
  intros E. unfold deliver. rewrite !lex_app, E. cbn [fst snd app filter].
  destruct (deliverable seg); reflexivity.
Qed.

Lemma deliver_scan eof L rest T :
  fst (lex L rest) = [] -> deliver eof L (rest ++ T) = deliver eof (snd (lex L rest)) T.
Proof.
  intros E. unfold deliver. rewrite !lex_app, E. reflexivity.
Qed.

Lemma deliverable_seg seg n :
  deliverable (seg, n) = (0 <? blen seg) && (blen seg <=? 6000).
Proof.
  unfold deliverable. cbn [fst]. destruct seg; [reflexivity|].
  rewrite blen_cons. fold (blen (n0 :: seg)). rewrite blen_cons.
  destruct (N.ltb_spec 0 (1 + blen seg)); [reflexivity|lia].
Qed.

(** State between two calls. *)
Definition between (s : iter) (L : lexer) (rest : bytes) : Prop :=
  Inv s L rest /\ cur L = [].

Definition run_post (tail : reader) (D : list (bytes * N)) (res : outcome * iter * reader) : Prop :=
  match res with
  | (OFuel, _, _) => True
  | (OPanic, _, _) => False
  | (ONone, _, _) => tail = [] /\ D = []
  | (OErr e, _, _) => (exists t, tail = Fail e :: t) /\ D = []
  | (OLine l n, s', r') =>
    (tail = [] /\ st s' = EoF /\ D = [(l, n)]) \/
    (exists L' rest' chunks',
        between s' L' rest' /\ r' = map Data chunks' ++ tail /\
        read_sizes chunks' /\ bound_ok L' rest' chunks' /\
        D = (l, n) :: deliver (is_eof tail) L' (rest' ++ concat chunks'))
  end.

Lemma run_correct ovf tail : good_tail tail -> forall fuel,
  (forall s L rest chunks, Inv s L rest -> read_sizes chunks -> bound_ok L rest chunks ->
     run_post tail (deliver (is_eof tail) L (rest ++ concat chunks))
              (run ovf fuel MGet s (map Data chunks ++ tail))) /\
  (forall s L chunks, Inv s L [] -> blen (buf s) <= 6000 ->
     read_sizes chunks -> bound_ok L [] chunks ->
     run_post tail (deliver (is_eof tail) L (concat chunks))
              (run ovf fuel MRead s (map Data chunks ++ tail))).
Proof.
  intros Gt. induction fuel as [|fuel IH].
  { split; intros; exact I. }
  destruct IH as [IHg IHr]. split.
  - (* get_slice *)
    intros s L rest chunks I Hsz Hb. cbn [run].
    destruct (find_inv ovf s L rest I) as
      [(s1 & -> & Hs1 & Hf & Hl)|(sp & s1 & seg & x & b & L1 & -> & Hne & Hs1 & Hbuf & Hx & HL1 & Hl)].
    + rewrite (inv_max _ _ _ I).
      assert (Hbs1 : buf s1 = buf s) by (rewrite Hs1; reflexivity).
      assert (Hcur : cur (snd (lex L rest)) = buf s)
        by (rewrite Hl, (inv_buf _ _ _ I); reflexivity).
      rewrite deliver_scan by assumption.
      destruct (6000 <? blen (buf s1)) eqn:Elen.
      * (* drop: no further chunk *)
        assert (chunks = []) as ->.
        { destruct chunks as [|ck chunks]; [reflexivity|exfalso].
          specialize (Hb [] (ck :: chunks) eq_refl). cbn [concat] in Hb.
          rewrite app_nil_r, Hcur in Hb. rewrite Hbs1 in Elen.
          assert (ck :: chunks <> []) by discriminate. specialize (Hb H). lia. }
        cbn [map app concat].
        assert (HD : deliver (is_eof tail) (snd (lex L rest)) [] = []).
        { unfold deliver. cbn [lex fst snd app]. destruct (is_eof tail); [|reflexivity].
          rewrite Hcur, <- Hbs1. destruct (buf s1) as [|z zs] eqn:Eb; [reflexivity|].
          cbn [filter]. rewrite deliverable_seg.
          destruct (blen (z :: zs) <=? 6000) eqn:E6; [lia|]. rewrite andb_false_r. reflexivity. }
        rewrite HD.
        destruct fuel as [|fuel]; [exact I0 || exact Logic.I|]. cbn [run].
        destruct tail as [|[d|e] t]; cbn [do_read]; [|contradiction|].
        -- cbn. auto.
        -- cbn. eauto.
      * apply IHr; auto using bound_ok_scan.
        2:{ cbn [buf set_prev]. lia. }
        assert (Hfields : chunk_size s1 = chunk_size s /\ max_line_length s1 = max_line_length s
          /\ st s1 = st s /\ line_count s1 = line_count s)
          by (rewrite Hs1; cbn; auto).
        destruct Hfields as (F1 & F2 & F3 & F4).
        rewrite Hl. constructor; cbn [chunk_size max_line_length buf prev_pos
          escaped split_json st line_count set_prev set_lex esc cur js nr];
          rewrite ?F1, ?F2, ?F3, ?F4, ?Hbs1, ?app_nil_r; try apply I; auto.
        -- rewrite (inv_buf _ _ _ I). reflexivity.
        -- intros He Hc. apply app_eq_nil in Hc. destruct Hc as [Hc ->].
           cbn [lex snd] in Hl. apply (inv_bs _ _ _ I); auto. now rewrite Hl.
    + assert (Hlenb : blen (buf s) = blen seg + sep_len sp + blen b)
        by (rewrite Hbuf, !blen_app, Hx; lia).
      pose proof (inv_len _ _ _ I) as Hlen.
      rewrite (deliver_sep _ _ _ _ _ _ _ Hl), deliverable_seg.
      rewrite (inv_max _ _ _ I).
      assert (Hin : forall pk, Inv (mkIter 8192 6000 b (Scanning sp) (nr L) (js L1) 0 false pk) L1 b).
      { intros pk. rewrite HL1. constructor; cbn [chunk_size max_line_length buf prev_pos
          escaped split_json st line_count esc cur js nr app]; auto; try discriminate; try lia.
        exists sp. auto. }
      assert (Hb1 : bound_ok L1 b chunks) by eauto using bound_ok_sep.
      assert (Hadv : usize_add ovf (blen seg) (sep_len sp) = Some (blen seg + sep_len sp)).
      { unfold usize_add, word. destruct (N.ltb_spec (blen seg + sep_len sp) (2 ^ 64)); [reflexivity|].
        exfalso. change (2 ^ 64) with 18446744073709551616 in *. lia. }
      assert (Hadv0 : usize_add ovf 0 (sep_len sp) = Some (sep_len sp)).
      { unfold usize_add, word. destruct sp; reflexivity. }
      rewrite Hs1. unfold set_prev, set_buf, advance.
      cbn [buf chunk_size max_line_length st line_count split_json prev_pos escaped peak].
      destruct (6000 <? blen seg) eqn:El.
      * (* Step I *)
        destruct (blen seg <=? 6000) eqn:E6; [lia|]. rewrite andb_false_r.
        rewrite Hadv.
        destruct (N.ltb_spec (blen (buf s)) (blen seg + sep_len sp)); [lia|].
        replace (skipn (N.to_nat (blen seg + sep_len sp)) (buf s)) with b.
        2:{ rewrite Hbuf, app_assoc, <- Hx, <- blen_app, skipn_blen_app. reflexivity. }
        apply (IHg _ L1 b chunks); auto; apply Hin.
      * destruct (N.ltb_spec (blen (buf s)) (blen seg)); [lia|].
        rewrite Hadv0.
        replace (firstn (N.to_nat (blen seg)) (buf s)) with seg
          by (rewrite Hbuf, firstn_blen_app; reflexivity).
        replace (skipn (N.to_nat (blen seg)) (buf s)) with (x ++ b)
          by (rewrite Hbuf, skipn_blen_app; reflexivity).
        rewrite blen_app, Hx.
        destruct (N.ltb_spec (sep_len sp + blen b) (sep_len sp)); [lia|].
        rewrite <- Hx, skipn_blen_app.
        destruct seg as [|z zs].
        -- apply (IHg _ L1 b chunks); auto; apply Hin.
        -- destruct (blen (z :: zs) <=? 6000) eqn:E6; [|lia].
           rewrite blen_cons. destruct (N.ltb_spec 0 (1 + blen zs)); [|lia].
           cbn [andb run_post line_count]. right.
           exists L1, b, chunks.
           split; [split; [apply Hin|now rewrite HL1]|].
           split; [reflexivity|]. split; [assumption|]. split; [assumption|reflexivity].
  - (* read_slice *)
    intros s L chunks I Hl6 Hsz Hb. cbn [run]. rewrite (inv_chunk _ _ _ I).
    destruct chunks as [|ck chunks].
    + cbn [map app concat].
      assert (HD : deliver (is_eof tail) L [] =
        filter deliverable (if is_eof tail then match cur L with [] => [] | _ :: _ => [(cur L, nr L)] end else []))
        by reflexivity.
      rewrite HD.
      pose proof (inv_buf _ _ _ I) as Hbuf. rewrite app_nil_r in Hbuf.
      destruct tail as [|[d|e] t]; cbn [do_read]; [|contradiction|].
      * cbn [is_eof]. rewrite Hbuf. destruct (cur L) as [|z zs] eqn:Ec.
        -- cbn. auto.
        -- rewrite blen_cons. destruct (N.ltb_spec 0 (1 + blen zs)); [|lia].
           cbn [run_post]. left. split; [reflexivity|].
           destruct (inv_nr _ _ _ I) as (sp & Hst & Hnr).
           split; [unfold set_buf, update_line_counter; reflexivity|].
           cbn [filter]. rewrite deliverable_seg.
           rewrite Hbuf, blen_cons in Hl6. rewrite blen_cons.
           destruct (N.ltb_spec 0 (1 + blen zs)); [|lia].
           destruct (N.leb_spec (1 + blen zs) 6000); [|lia]. cbn [andb].
           f_equal. f_equal.
           ++ cbn [buf update_line_counter set_buf]. rewrite <- (blen_cons z), firstn_blen_app. reflexivity.
           ++ unfold update_line_counter, set_buf. cbn [st line_count]. rewrite Hst, Hnr.
              destruct sp; cbn [sep_nl]; rewrite ?N.add_0_r; reflexivity.
      * cbn. split; [eauto|reflexivity].
    + cbn [map app concat]. inversion Hsz as [|? ? Hck Hsz']; subst.
      cbn [do_read]. fold (blen ck) in Hck.
      destruct (N.leb_spec (blen ck) 8192); [|lia].
      destruct ck as [|z zs]; [cbn in Hck; lia|].
      apply (IHg _ L (z :: zs) chunks); auto using bound_ok_read.
      destruct I. constructor; cbn [chunk_size max_line_length buf prev_pos
          escaped split_json st line_count set_buf]; auto.
      * rewrite inv_buf0, app_nil_r. reflexivity.
      * rewrite inv_buf0, app_nil_r, !blen_app in *. cbn [blen] in *. lia.
Qed.
