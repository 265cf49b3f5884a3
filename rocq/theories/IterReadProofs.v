(** The line iterator against the reading machine, for every sequence of reads. *)
From Coq Require Import List NArith Bool Lia.
From Verif Require Import Common IterModel IterSpec IterProofs IterSafety IterMain IterReadSpec.
Import ListNotations.
Open Scope N_scope.

Definition end_tail (e : ending) (after : reader) : reader :=
  match e with Ends => [] | Fails err => Fail err :: after end.

Definition push (l : list (bytes * N)) (x : list (bytes * N) * stop) : list (bytes * N) * stop :=
  (l ++ fst x, snd x).

Lemma push_nil x : push [] x = x.
Proof. destruct x; reflexivity. Qed.
Lemma push_push a b x : push a (push b x) = push (a ++ b) x.
Proof. unfold push. cbn. now rewrite app_assoc. Qed.

(** What is still to come. *)
Definition todo (ovf : bool) (e : ending) (h : head) (chunks : list bytes) :=
  finish e (reads ovf h chunks).
Definition todo_get (ovf : bool) (e : ending) (L : lexer) (rest : bytes) (chunks : list bytes) :=
  push (fst (collect_bytes L rest)) (todo ovf e (snd (collect_bytes L rest)) chunks).

Lemma finish_push e l x o : finish e (l ++ x, o) = push l (finish e (x, o)).
Proof. unfold finish, push. cbn. destruct o, e; cbn; rewrite ?app_assoc; reflexivity. Qed.

Lemma todo_cons ovf e h d chunks :
  todo ovf e h (d :: chunks) =
  if ovf && cut_escape h d then ([], SPanic)
  else push (fst (read_step h d)) (todo ovf e (snd (read_step h d)) chunks).
Proof.
  unfold todo. cbn [reads]. destruct (ovf && cut_escape h d); [reflexivity|].
  destruct (read_step h d) as [l h1]. cbn [fst snd].
  destruct (reads ovf h1 chunks) as [l' o]. apply finish_push.
Qed.

Lemma todo_collecting ovf e L d chunks :
  todo ovf e (Collecting L) (d :: chunks) = todo_get ovf e L d chunks.
Proof. rewrite todo_cons. cbn [cut_escape]. rewrite andb_false_r. reflexivity. Qed.

Lemma collect_bytes_sep L rest L1 b seg :
  lex L rest = (seg :: fst (lex L1 b), snd (lex L1 b)) ->
  collect_bytes L rest =
  ((if deliverable seg then [seg] else []) ++ fst (collect_bytes L1 b), snd (collect_bytes L1 b)).
Proof.
  intros H. unfold collect_bytes. rewrite H. destruct (lex L1 b) as [l L2]. cbn [fst snd filter].
  destruct (deliverable seg); reflexivity.
Qed.

Lemma todo_get_sep ovf e L rest L1 b seg chunks :
  lex L rest = (seg :: fst (lex L1 b), snd (lex L1 b)) ->
  todo_get ovf e L rest chunks =
  push (if deliverable seg then [seg] else []) (todo_get ovf e L1 b chunks).
Proof.
  intros H. unfold todo_get. rewrite (collect_bytes_sep _ _ _ _ _ H). cbn [fst snd].
  now rewrite push_push.
Qed.

(** The scan of a read that is being skipped. *)
Definition cut (L : lexer) (s : bytes) : bool :=
  match s with c :: _ => esc L && (c =? 110) | [] => false end.

Lemma scan_first_sep rest : forall L pos,
  match scan rest pos (esc L) (js L) with
  | (None, e', j') =>
      cut L rest = false /\
      exists L', first_sep L rest = (L', None) /\ esc L' = e' /\ js L' = j' /\ nr L' = nr L
  | (Some (p, sp), e', j') =>
      exists a c b, rest = a ++ c :: b /\ p = pos + blen a /\ e' = false /\
        (cut L rest = true <-> sp = SubLine /\ a = []) /\
        first_sep L rest = (mkLex j' false [] (nr L + sep_nl sp), Some b)
  end.
Proof.
  induction rest as [|c rest IH]; intros L pos; cbn [scan].
  - split; [reflexivity|]. exists L. auto.
  - cbn [first_sep cut]. pose proof (scan_byte_feed L c) as H.
    assert (Hcut : match scan_byte (esc L) (js L) c with
      | (Some SubLine, _, _) => esc L && (c =? 110) = true
      | _ => esc L && (c =? 110) = false end).
    { unfold scan_byte, ch_n. destruct (esc L); cbn [andb].
      - destruct (c =? 110); reflexivity.
      - destruct (c =? ch_bs); [reflexivity|]. destruct (c =? ch_lf); [reflexivity|].
        destruct (js L) as [bb|]; [|reflexivity]. unfold match_json_kv.
        destruct (c =? 34); [reflexivity|]. destruct (negb bb && _); reflexivity. }
    destruct (scan_byte (esc L) (js L) c) as [[[sp|] e'] j'] eqn:Es.
    + exists [], c, rest. rewrite blen_nil, N.add_0_r. cbn [app].
      split; [reflexivity|]. split; [reflexivity|].
      destruct sp; rewrite Hcut.
      * destruct H as (-> & -> & H). rewrite H. cbn [sep_nl].
        split; [reflexivity|]. split; [|reflexivity]. split; [discriminate|]. intros [? _]; discriminate.
      * destruct H as (He & -> & -> & H). rewrite H. cbn [sep_nl]. rewrite N.add_0_r.
        split; [reflexivity|]. split; [|reflexivity]. split; auto.
      * destruct H as (-> & -> & H). rewrite H. cbn [sep_nl]. rewrite N.add_0_r.
        split; [reflexivity|]. split; [|reflexivity]. split; [discriminate|]. intros [? _]; discriminate.
    + specialize (IH (mkLex j' e' (cur L ++ [c]) (nr L)) (pos + 1)).
      cbn [esc js cur nr] in IH. rewrite H.
      destruct (scan rest (pos + 1) e' j') as [[[[p sp]|] e''] j''] eqn:Esc.
      * destruct IH as (a & c' & b & -> & -> & He & _ & Hl).
        exists (c :: a), c', b. rewrite blen_cons. cbn [app].
        split; [reflexivity|]. split; [lia|]. split; [assumption|]. split; [|exact Hl].
        rewrite Hcut. split; [discriminate|]. intros [_ ?]; discriminate.
      * destruct IH as (_ & IH). split; assumption.
Qed.

(** While skipping, the buffer is empty. *)
Record DInv (s : iter) (L : lexer) : Prop := {
  di_chunk : chunk_size s = 8192;
  di_max : max_line_length s = 6000;
  di_buf : buf s = [];
  di_pos : prev_pos s = 0;
  di_esc : escaped s = esc L;
  di_js : split_json s = js L;
  di_nr : exists sp, st s = Scanning sp /\ nr L = line_count s + sep_nl sp;
  di_cur : cur L = []
}.

Definition rpost (ovf : bool) (e : ending) (after : reader) (D : list (bytes * N) * stop)
  (res : outcome * iter * reader) : Prop :=
  match res with
  | (OFuel, _, _) => True
  | (OPanic, _, _) => D = ([], SPanic)
  | (ONone, _, _) => D = ([], SEnd)
  | (OErr err, _, _) => D = ([], SErr err)
  | (OLine l n, s', r') =>
    (st s' = EoF /\ D = ([(l, n)], SEnd)) \/
    (exists L' rest' chunks',
        between s' L' rest' /\ r' = map Data chunks' ++ end_tail e after /\
        read_sizes chunks' /\
        D = push [(l, n)] (todo_get ovf e L' rest' chunks'))
  end.

Lemma zeros_firstn n : firstn (N.to_nat n) ([] ++ zeros n) = zeros n.
Proof. cbn [app]. unfold zeros. rewrite firstn_all2; [reflexivity|]. now rewrite repeat_length. Qed.

Lemma skipn_repeat (x : N) : forall n m, skipn n (repeat x m) = repeat x (m - n).
Proof.
  induction n as [|n IH]; intros m; [now rewrite PeanoNat.Nat.sub_0_r|].
  destruct m as [|m]; [reflexivity|]. cbn [repeat skipn PeanoNat.Nat.sub]. apply IH.
Qed.

Lemma zeros_skipn n d : d ++ skipn (N.to_nat (blen d)) (zeros n) = d ++ repeat 0 (N.to_nat (n - blen d)).
Proof. unfold zeros. rewrite skipn_repeat. f_equal. f_equal. lia. Qed.

Lemma blen_padded d : blen d <= 8192 -> blen (padded d) = 8192.
Proof.
  intros H. unfold padded. rewrite blen_app. unfold blen in *. rewrite repeat_length. lia.
Qed.

Lemma Inv_fresh b sp n j pk : blen b <= 14192 ->
  Inv (mkIter 8192 6000 b (Scanning sp) n j 0 false pk) (mkLex j false [] (n + sep_nl sp)) b.
Proof.
  intros H. constructor; cbn [chunk_size max_line_length buf prev_pos
    escaped split_json st line_count esc cur js nr app]; auto; try discriminate.
  exists sp. auto.
Qed.

Lemma run_exact ovf e after : forall fuel,
  (forall s L rest chunks, Inv s L rest -> read_sizes chunks ->
     rpost ovf e after (todo_get ovf e L rest chunks)
           (run ovf fuel MGet s (map Data chunks ++ end_tail e after))) /\
  (forall s L chunks, Inv s L [] -> blen (buf s) <= 6000 -> read_sizes chunks ->
     rpost ovf e after (todo ovf e (Collecting L) chunks)
           (run ovf fuel MRead s (map Data chunks ++ end_tail e after))) /\
  (forall s L chunks, DInv s L -> read_sizes chunks ->
     rpost ovf e after (todo ovf e (Skipping L) chunks)
           (run ovf fuel MDrop s (map Data chunks ++ end_tail e after))).
Proof.
  induction fuel as [|fuel IH].
  { split; [|split]; intros; exact I. }
  destruct IH as (IHg & IHr & IHd). split; [|split].
  - (* get_slice *)
    intros s L rest chunks I Hsz. cbn [run].
    destruct (find_inv ovf s L rest I) as
      [(s1 & -> & Hs1 & Hf & Hl)|(sp & s1 & seg & x & b & L1 & -> & Hne & Hs1 & Hbuf & Hx & HL1 & Hl)].
    + rewrite (inv_max _ _ _ I).
      assert (Hbs1 : buf s1 = buf s) by (rewrite Hs1; reflexivity).
      assert (Hcur : cur (snd (lex L rest)) = buf s)
        by (rewrite Hl, (inv_buf _ _ _ I); reflexivity).
      assert (HT : todo_get ovf e L rest chunks =
        todo ovf e (if blen (buf s) <=? 6000 then Collecting (snd (lex L rest))
                    else Skipping (forget (snd (lex L rest)))) chunks).
      { unfold todo_get, collect_bytes. destruct (lex L rest) as [l L2]. cbn [fst snd] in *.
        subst l. cbn [filter fst snd]. rewrite push_nil, Hcur. reflexivity. }
      rewrite HT. clear HT. rewrite Hbs1.
      assert (Hfields : chunk_size s1 = chunk_size s /\ max_line_length s1 = max_line_length s
          /\ st s1 = st s /\ line_count s1 = line_count s)
          by (rewrite Hs1; cbn; auto).
      destruct Hfields as (F1 & F2 & F3 & F4).
      destruct (N.ltb_spec 6000 (blen (buf s))) as [Elen|Elen].
      * destruct (N.leb_spec (blen (buf s)) 6000); [lia|].
        apply IHd; [|assumption]. rewrite Hl.
        constructor; cbn [chunk_size max_line_length buf prev_pos
          escaped split_json st line_count set_prev set_buf set_lex forget esc cur js nr];
          rewrite ?F1, ?F2, ?F3, ?F4; try apply I; auto.
      * destruct (N.leb_spec (blen (buf s)) 6000); [|lia].
        apply IHr; auto.
        2:{ cbn [buf set_prev]. rewrite Hbs1. lia. }
        rewrite Hl. constructor; cbn [chunk_size max_line_length buf prev_pos
          escaped split_json st line_count set_prev set_lex esc cur js nr];
          rewrite ?F1, ?F2, ?F3, ?F4, ?Hbs1, ?app_nil_r; try apply I; auto.
        -- rewrite (inv_buf _ _ _ I). reflexivity.
        -- intros He Hc. apply app_eq_nil in Hc. destruct Hc as [Hc ->].
           cbn [lex snd] in Hl. apply (inv_bs _ _ _ I); auto. now rewrite Hl.
    + assert (Hlenb : blen (buf s) = blen seg + sep_len sp + blen b)
        by (rewrite Hbuf, !blen_app, Hx; lia).
      pose proof (inv_len _ _ _ I) as Hlen.
      rewrite (todo_get_sep _ _ _ _ _ _ _ _ Hl), deliverable_seg.
      rewrite (inv_max _ _ _ I).
      assert (Hin : forall pk, Inv (mkIter 8192 6000 b (Scanning sp) (nr L) (js L1) 0 false pk) L1 b).
      { intros pk. rewrite HL1. cbn [js]. apply Inv_fresh. lia. }
      assert (Hadv : usize_add ovf (blen seg) (sep_len sp) = Some (blen seg + sep_len sp)).
      { unfold usize_add, word. destruct (N.ltb_spec (blen seg + sep_len sp) (2 ^ 64)); [reflexivity|].
        exfalso. change (2 ^ 64) with 18446744073709551616 in *. lia. }
      assert (Hadv0 : usize_add ovf 0 (sep_len sp) = Some (sep_len sp)).
      { unfold usize_add, word. destruct sp; reflexivity. }
      rewrite Hs1. unfold set_prev, set_buf, advance.
      cbn [buf chunk_size max_line_length st line_count split_json prev_pos escaped peak].
      destruct (6000 <? blen seg) eqn:El.
      * destruct (blen seg <=? 6000) eqn:E6; [lia|]. rewrite andb_false_r, push_nil.
        rewrite Hadv.
        destruct (N.ltb_spec (blen (buf s)) (blen seg + sep_len sp)); [lia|].
        replace (skipn (N.to_nat (blen seg + sep_len sp)) (buf s)) with b.
        2:{ rewrite Hbuf, app_assoc, <- Hx, <- blen_app, skipn_blen_app. reflexivity. }
        apply (IHg _ L1 b chunks); auto; apply Hin.
      * destruct (N.ltb_spec (blen (buf s)) (blen seg)); [lia|].
        rewrite Hadv0.
        replace (firstn (N.to_nat (blen seg)) (buf s)) with seg
          by (rewrite Hbuf, firstn_blen_app; reflexivity).
        replace (skipn (N.to_nat (blen seg)) (buf s)) with (x ++ b)
          by (rewrite Hbuf, skipn_blen_app; reflexivity).
        rewrite blen_app, Hx.
        destruct (N.ltb_spec (sep_len sp + blen b) (sep_len sp)); [lia|].
        rewrite <- Hx, skipn_blen_app.
        destruct seg as [|z zs].
        -- cbn [andb]. rewrite blen_nil, N.ltb_irrefl. cbn [andb]. rewrite push_nil.
           apply (IHg _ L1 b chunks); auto; apply Hin.
        -- destruct (blen (z :: zs) <=? 6000) eqn:E6; [|lia].
           rewrite blen_cons. destruct (N.ltb_spec 0 (1 + blen zs)); [|lia].
           cbn [andb rpost line_count]. right.
           exists L1, b, chunks.
           split; [split; [apply Hin|now rewrite HL1]|].
           split; [reflexivity|]. split; [assumption|reflexivity].
  - (* read_slice *)
    intros s L chunks I Hl6 Hsz. cbn [run]. rewrite (inv_chunk _ _ _ I).
    destruct chunks as [|ck chunks].
    + cbn [map app].
      pose proof (inv_buf _ _ _ I) as Hbuf. rewrite app_nil_r in Hbuf.
      destruct e as [|err]; cbn [end_tail do_read].
      * unfold todo. cbn [reads finish fst snd app at_end]. rewrite Hbuf.
        destruct (cur L) as [|z zs] eqn:Ec.
        -- reflexivity.
        -- rewrite blen_cons. destruct (N.ltb_spec 0 (1 + blen zs)); [|lia].
           cbn [rpost]. left.
           destruct (inv_nr _ _ _ I) as (sp & Hst & Hnr).
           split; [unfold set_buf, update_line_counter; reflexivity|].
           f_equal. f_equal. f_equal.
           ++ cbn [buf update_line_counter set_buf]. rewrite <- (blen_cons z), firstn_blen_app. reflexivity.
           ++ unfold update_line_counter, set_buf. cbn [st line_count]. rewrite Hst, Hnr.
              destruct sp; cbn [sep_nl]; rewrite ?N.add_0_r; reflexivity.
      * reflexivity.
    + cbn [map app]. inversion Hsz as [|? ? Hck Hsz']; subst.
      cbn [do_read]. fold (blen ck) in Hck.
      destruct (N.leb_spec (blen ck) 8192); [|lia].
      destruct ck as [|z zs]; [cbn in Hck; lia|].
      rewrite todo_collecting.
      apply (IHg _ L (z :: zs) chunks); auto.
      pose proof (inv_buf _ _ _ I) as Hbuf. rewrite app_nil_r in Hbuf.
      constructor; cbn [chunk_size max_line_length buf prev_pos
          escaped split_json st line_count set_buf]; try apply I; auto.
      * now rewrite Hbuf.
      * rewrite blen_app. lia.
  - (* drop_until_next_line *)
    intros s L chunks I Hsz. cbn [run]. rewrite (di_chunk _ _ I), (di_buf _ _ I), zeros_firstn.
    destruct chunks as [|ck chunks].
    + cbn [map app]. destruct e as [|err]; reflexivity.
    + cbn [map app]. inversion Hsz as [|? ? Hck Hsz']; subst.
      cbn [do_read]. fold (blen ck) in Hck.
      destruct (N.leb_spec (blen ck) 8192) as [_|]; [|lia].
      destruct ck as [|z zs]; [cbn in Hck; lia|].
      cbv beta iota zeta.
      change (buf (set_buf s (zeros 8192))) with (zeros 8192).
      change (z :: zs ++ skipn (N.to_nat (blen (z :: zs))) (zeros 8192))
        with ((z :: zs) ++ skipn (N.to_nat (blen (z :: zs))) (zeros 8192)).
      remember (z :: zs) as ck eqn:Eck.
      rewrite zeros_skipn.
      change (ck ++ repeat 0 (N.to_nat (8192 - blen ck))) with (padded ck).
      pose proof (blen_padded ck (proj2 Hck)) as Hpl.
      rewrite todo_cons. cbn [read_step].
      unfold find_next_line. cbn [buf set_buf prev_pos escaped split_json].
      rewrite (di_pos _ _ I), (di_esc _ _ I), (di_js _ _ I), Hpl.
      destruct (N.ltb_spec 8192 0) as [|_]; [lia|].
      change (skipn (N.to_nat 0) (padded ck)) with (padded ck).
      pose proof (scan_first_sep (padded ck) L 0) as Hs.
      destruct (di_nr _ _ I) as (sp0 & Hst & Hnr).
      destruct (scan (padded ck) 0 (esc L) (js L)) as [[[[p sp]|] e'] j'].
      * destruct Hs as (a & c & b & Hpad & -> & -> & Hcut & Hfs).
        rewrite Hfs.
        assert (Hcut' : cut_escape (Skipping L) ck = cut L (padded ck))
          by (rewrite Eck; reflexivity).
        rewrite Hcut'. fold (blen ck).
        assert (Hs1 : forall pk bb, update_line_counter (set_lex (mkIter 8192 6000 bb (st s)
            (line_count s) (js L) 0 (esc L) pk) false j') (Scanning sp) =
            mkIter 8192 6000 bb (Scanning sp) (nr L) j' 0 false pk).
        { intros pk bb. unfold update_line_counter, set_lex. cbn. rewrite Hst, Hnr.
          destruct sp0; cbn [sep_nl]; rewrite ?N.add_0_r; reflexivity. }
        assert (Hb8 : blen a + 1 + blen b = 8192)
          by (rewrite Hpad, blen_app, blen_cons in Hpl; lia).
        set (s2 := set_buf _ (padded ck)).
        assert (Hs2 : exists pk, update_line_counter (set_lex s2 false j') (Scanning sp) =
            mkIter 8192 6000 (padded ck) (Scanning sp) (nr L) j' 0 false pk).
        { eexists. unfold s2, set_buf. cbn [chunk_size max_line_length st line_count split_json
            prev_pos escaped peak]. rewrite (di_chunk _ _ I), (di_max _ _ I), (di_js _ _ I),
            (di_pos _ _ I), (di_esc _ _ I). apply Hs1. }
        destruct Hs2 as (pk & ->). clear Hs1.
        (* the position found, and where the next segment starts *)
        assert (Hpos : (ovf && cut L (padded ck) = true /\ usize_sub ovf (0 + (0 + blen a)) 1 = None /\ sp = SubLine) \/
          (ovf && cut L (padded ck) = false /\ exists pos,
            match sp with SubLine => usize_sub ovf (0 + (0 + blen a)) 1 | _ => Some (0 + (0 + blen a)) end = Some pos
            /\ usize_add ovf pos (sep_len sp) = Some (blen a + 1))).
        { rewrite !N.add_0_l.
          assert (Hadd : forall pos k, pos + k = blen a + 1 -> usize_add ovf pos k = Some (blen a + 1)).
          { intros pos k Hk. rewrite <- Hk. unfold usize_add, word. destruct (N.ltb_spec (pos + k) (2 ^ 64)); [reflexivity|].
            exfalso. change (2 ^ 64) with 18446744073709551616 in H. lia. }
          destruct (cut L (padded ck)).
          - destruct (proj1 Hcut eq_refl) as [-> ->]. rewrite blen_nil. destruct ovf.
            + left. auto.
            + right. split; [reflexivity|]. eexists. split; [reflexivity|]. reflexivity.
          - right. rewrite andb_false_r. split; [reflexivity|].
            destruct sp.
            + eexists. split; [reflexivity|]. apply Hadd. cbn [sep_len]. lia.
            + assert (a <> []) by (intros ->; destruct Hcut as [_ Hc]; discriminate Hc; auto).
              assert (1 <= blen a) by (destruct a; [congruence|rewrite blen_cons; lia]).
              unfold usize_sub. destruct (N.leb_spec 1 (blen a)); [|lia].
              eexists. split; [reflexivity|]. apply Hadd. cbn [sep_len]. lia.
            + eexists. split; [reflexivity|]. apply Hadd. cbn [sep_len]. lia. }
        destruct Hpos as [(-> & Hu & ->)|(-> & pos & Hp & Hadv)].
        -- rewrite Hu. reflexivity.
        -- assert (Hm : match sp with SubLine => match usize_sub ovf (0 + (0 + blen a)) 1 with
               | Some p => FSome p sp (mkIter 8192 6000 (padded ck) (Scanning sp) (nr L) j' 0 false pk)
               | None => FPanic end
             | _ => FSome (0 + (0 + blen a)) sp (mkIter 8192 6000 (padded ck) (Scanning sp) (nr L) j' 0 false pk) end
             = FSome pos sp (mkIter 8192 6000 (padded ck) (Scanning sp) (nr L) j' 0 false pk)).
           { destruct sp; try (injection Hp as <-; reflexivity). rewrite Hp. reflexivity. }
           rewrite Hm. clear Hm.
           destruct (N.eqb_spec (blen ck) 8192) as [E8|E8].
           ++ rewrite push_nil. cbn [fst snd]. apply IHr; auto.
              2:{ cbn [buf set_buf]. rewrite blen_nil. lia. }
              cbn [set_buf chunk_size max_line_length buf st line_count split_json prev_pos escaped].
              apply Inv_fresh. rewrite blen_nil. lia.
           ++ unfold advance. rewrite Hadv. cbn [buf]. rewrite Hpl.
              destruct (N.ltb_spec 8192 (blen a + 1)); [lia|].
              replace (skipn (N.to_nat (blen a + 1)) (padded ck)) with b.
              2:{ rewrite Hpad. symmetry. apply skipn_blen_S_app. }
              cbn [set_buf chunk_size max_line_length buf st line_count split_json prev_pos escaped].
              apply (IHg _ _ b chunks); auto. apply Inv_fresh. lia.
      * destruct Hs as (Hcut & L' & -> & He & Hj & Hn).
        assert (Hcut' : cut_escape (Skipping L) ck = cut L (padded ck))
          by (rewrite Eck; reflexivity).
        rewrite Hcut', Hcut, andb_false_r. cbn [fst snd]. rewrite push_nil.
        apply IHd; [|assumption].
        constructor; cbn [chunk_size max_line_length buf prev_pos
          escaped split_json st line_count set_prev set_buf set_lex forget esc cur js nr];
          try apply I; auto.
        exists sp0. split; [assumption|]. congruence.
Qed.

Lemma next_exact ovf e after s L rest chunks :
  between s L rest -> read_sizes chunks ->
  rpost ovf e after (todo_get ovf e L rest chunks)
        (next ovf s (map Data chunks ++ end_tail e after)).
Proof.
  intros (I & Hc) Hs. unfold next.
  destruct (inv_nr _ _ _ I) as (sp & -> & _).
  destruct (buf s) as [|z zs] eqn:Eb.
  - assert (rest = []) as -> by (rewrite (inv_buf _ _ _ I) in Eb; now apply app_eq_nil in Eb).
    assert (E : todo_get ovf e L [] chunks = todo ovf e (Collecting L) chunks).
    { unfold todo_get, collect_bytes. cbn [lex fst snd filter]. rewrite push_nil, Hc. reflexivity. }
    rewrite E. apply run_exact; auto. rewrite Eb. cbn. lia.
  - apply run_exact; auto.
Qed.

Lemma collect_exact ovf e after : forall n s L rest chunks,
  between s L rest -> read_sizes chunks ->
  snd (collect ovf n s (map Data chunks ++ end_tail e after)) = SFuel \/
  collect ovf n s (map Data chunks ++ end_tail e after) = todo_get ovf e L rest chunks.
Proof.
  induction n as [|n IH]; intros s L rest chunks Hbt Hs; [left; reflexivity|].
  cbn [collect]. pose proof (next_exact ovf e after s L rest chunks Hbt Hs) as Hp.
  destruct (next ovf s (map Data chunks ++ end_tail e after)) as [[o s'] r'].
  destruct o; cbn [rpost] in Hp.
  - right. now rewrite Hp.
  - destruct Hp as [(Hst & ->)|(L' & rest' & chunks' & Hbt' & -> & Hs' & ->)].
    + destruct n as [|n]; [left; reflexivity|]. cbn [collect]. right.
      rewrite next_eof by assumption. reflexivity.
    + destruct (IH s' L' rest' chunks' Hbt' Hs') as [IH'|IH'].
      * left. destruct (collect ovf n s' (map Data chunks' ++ end_tail e after)). exact IH'.
      * right. rewrite IH'. unfold push. destruct (todo_get ovf e L' rest' chunks'). reflexivity.
  - right. now rewrite Hp.
  - right. now rewrite Hp.
  - left. reflexivity.
Qed.

Lemma all_lines_exact ovf json chunks e after : read_sizes chunks ->
  all_lines ovf json (answers chunks e after) = expected ovf json chunks e.
Proof.
  intros Hs. unfold all_lines. change (answers chunks e after) with (map Data chunks ++ end_tail e after).
  destruct (collect_exact ovf e after (4 + reader_weight (map Data chunks ++ end_tail e after))
              (new json) (lex0 json) [] chunks) as [H|H]; auto using between_new.
  - exfalso. now apply (all_lines_total ovf json (map Data chunks ++ end_tail e after)).
  - rewrite H. unfold todo_get, collect_bytes. cbn [lex fst snd filter lex0 cur]. apply push_nil.
Qed.

(** ** Consequences *)
Lemma reads_app c a : forall h b,
  reads c h (a ++ b) =
  match reads c h a with
  | (l, Some h1) => let (l', o) := reads c h1 b in (l ++ l', o)
  | (l, None) => (l, None)
  end.
Proof.
  induction a as [|d a IH]; intros h b; cbn [app reads].
  - destruct (reads c h b); reflexivity.
  - destruct (c && cut_escape h d); [reflexivity|].
    destruct (read_step h d) as [l h1]. rewrite IH.
    destruct (reads c h1 a) as [l1 [h2|]]; [|reflexivity].
    destruct (reads c h2 b) as [l2 o]. now rewrite app_assoc.
Qed.

Lemma filter_app {A} (f : A -> bool) a b : filter f (a ++ b) = filter f a ++ filter f b.
Proof. induction a as [|x a IH]; cbn; [reflexivity|]. destruct (f x); cbn; now rewrite IH. Qed.

(** No over-long pending bytes: no skipping. *)
Lemma reads_bounded c chunks : forall L, bound_ok L [] chunks ->
  exists h, reads c (Collecting L) chunks = (filter deliverable (fst (lex L (concat chunks))), Some h).
Proof.
  induction chunks as [|d chunks IH]; intros L Hb.
  - exists (Collecting L). reflexivity.
  - cbn [reads cut_escape read_step concat]. rewrite andb_false_r. unfold collect_bytes.
    destruct chunks as [|d' chunks'].
    + cbn [reads concat]. rewrite app_nil_r. destruct (lex L d) as [l L1]. cbn [fst].
      eexists. now rewrite app_nil_r.
    + pose proof (Hb [d] (d' :: chunks') eq_refl ltac:(discriminate)) as H1.
      cbn [concat app] in H1. rewrite app_nil_r in H1.
      assert (Hb1 : bound_ok (snd (lex L d)) [] (d' :: chunks')).
      { apply bound_ok_scan, bound_ok_read, Hb. }
      destruct (IH _ Hb1) as (h & Hr).
      rewrite lex_app. destruct (lex L d) as [l L1]. cbn [fst snd] in *.
      fold (blen (cur L1)). destruct (N.leb_spec (blen (cur L1)) 6000); [|lia].
      rewrite Hr. exists h. now rewrite filter_app.
Qed.

Lemma finish_prefix e l l' o : exists l2, fst (finish e (l ++ l', o)) = l ++ l2.
Proof.
  unfold finish. cbn [fst snd]. destruct o as [h|], e; cbn [fst]; rewrite <- ?app_assoc; eauto.
Qed.

(** Order and contiguity. *)
Lemma in_order_later ls : forall a s, in_order ls s -> in_order ls (a ++ s).
Proof.
  destruct ls as [|l ls]; intros a s H; [exact I|].
  destruct H as (x & y & -> & H). exists (a ++ x), y. split; [now rewrite app_assoc|assumption].
Qed.

Lemma removelast_prefix (l : bytes) : exists t, l = removelast l ++ t.
Proof.
  destruct l as [|x l]; [exists []; reflexivity|].
  exists [last (x :: l) 0]. apply app_removelast_last. discriminate.
Qed.

Section Projection.
  Variable f : bytes -> bytes.
  Hypothesis f_nil : f [] = [].
  Hypothesis f_app : forall a b, f (a ++ b) = f a ++ f b.

  Lemma feed_project L c seg n L1 : feed L c = (Some (seg, n), L1) ->
    cur L1 = [] /\ exists t, cur L ++ [c] = seg ++ t.
  Proof.
    unfold feed. intros H.
    destruct (esc L).
    - destruct (c =? 110); inversion H; subst. split; [reflexivity|].
      destruct (removelast_prefix (cur L)) as (t & E). exists (t ++ [c]).
      rewrite E at 1. now rewrite app_assoc.
    - destruct (c =? 92); [discriminate|]. destruct (c =? 10).
      { inversion H; subst. split; [reflexivity|]. eauto. }
      destruct (js L) as [b|]; [|discriminate]. destruct (c =? 34); [discriminate|].
      destruct (negb b && _); inversion H; subst. split; [reflexivity|]. eauto.
  Qed.

  Lemma feed_none L c L1 : feed L c = (None, L1) -> cur L1 = cur L ++ [c].
  Proof.
    unfold feed. intros H.
    destruct (esc L).
    - destruct (c =? 110); inversion H; subst; reflexivity.
    - destruct (c =? 92); [inversion H; subst; reflexivity|].
      destruct (c =? 10); [discriminate|].
      destruct (js L) as [b|]; [|inversion H; subst; reflexivity].
      destruct (c =? 34); [inversion H; subst; reflexivity|].
      destruct (negb b && _); inversion H; subst; reflexivity.
  Qed.

  Lemma in_order_seg seg t s ls : in_order ls s -> in_order (f seg :: ls) (f (seg ++ t) ++ s).
  Proof.
    intros H. exists [], (f t ++ s). split; [rewrite f_app, <- app_assoc; reflexivity|].
    now apply in_order_later.
  Qed.

  Lemma lex_in_order s : forall L T ls,
    in_order ls (f (cur (snd (lex L s))) ++ T) ->
    in_order (map f (map fst (filter deliverable (fst (lex L s)))) ++ ls) (f (cur L) ++ f s ++ T).
  Proof.
    induction s as [|c s IH]; intros L T ls H.
    - cbn [lex fst snd filter map app] in *. rewrite f_nil. exact H.
    - cbn [lex] in *. destruct (feed L c) as [[[seg n]|] L1] eqn:E.
      + destruct (feed_project _ _ _ _ _ E) as (Hc & t & Hseg).
        specialize (IH L1 T ls). destruct (lex L1 s) as [l L2]. cbn [fst snd] in *.
        specialize (IH H). rewrite Hc, f_nil in IH. cbn [app] in IH.
        replace (f (cur L) ++ f (c :: s) ++ T) with (f (seg ++ t) ++ f s ++ T).
        2:{ rewrite <- Hseg, !f_app, <- !app_assoc. change (c :: s) with ([c] ++ s).
            now rewrite f_app, <- app_assoc. }
        cbn [filter]. destruct (deliverable (seg, n)).
        * cbn [map fst app]. now apply in_order_seg.
        * now apply in_order_later.
      + specialize (IH L1 T ls H). rewrite (feed_none _ _ _ E), f_app, <- app_assoc in IH.
        change (c :: s) with ([c] ++ s). rewrite f_app, <- !app_assoc. exact IH.
  Qed.

  Definition pend (h : head) : bytes :=
    match h with Collecting L => f (cur L) | Skipping _ => [] end.

  Lemma collect_in_order L s T ls :
    in_order ls (pend (snd (collect_bytes L s)) ++ T) ->
    in_order (map f (map fst (fst (collect_bytes L s))) ++ ls) (f (cur L) ++ f s ++ T).
  Proof.
    intros H. pose proof (lex_in_order s L T ls) as HL.
    unfold collect_bytes in *. destruct (lex L s) as [l L1]. cbn [fst snd] in *.
    apply HL. destruct (N.of_nat (length (cur L1)) <=? 6000); [exact H|].
    cbn [pend app] in H. now apply in_order_later.
  Qed.

  Lemma first_sep_split s : forall L L1 rest, first_sep L s = (L1, Some rest) ->
    cur L1 = [] /\ exists p, s = p ++ rest.
  Proof.
    induction s as [|c s IH]; intros L L1 rest H; cbn [first_sep] in H; [discriminate|].
    destruct (feed L c) as [[[seg n]|] L2] eqn:E.
    - inversion H; subst. split; [exact (proj1 (feed_project _ _ _ _ _ E))|]. exists [c]. reflexivity.
    - destruct (IH _ _ _ H) as (Hc & p & ->). split; [assumption|]. exists (c :: p). reflexivity.
  Qed.

  Lemma step_in_order h d T ls : f (padded d) = f d ->
    in_order ls (pend (snd (read_step h d)) ++ T) ->
    in_order (map f (map fst (fst (read_step h d))) ++ ls) (pend h ++ f d ++ T).
  Proof.
    intros Hp H. destruct h as [L|L]; cbn [read_step pend] in *.
    - now apply collect_in_order.
    - destruct (first_sep L (padded d)) as [L1 [rest|]] eqn:E.
      + destruct (first_sep_split _ _ _ _ E) as (Hc & p & Hs).
        destruct (N.of_nat (length d) =? 8192).
        * cbn [fst snd map app pend] in *. rewrite Hc, f_nil in H. now apply in_order_later.
        * rewrite <- Hp, Hs, f_app. cbn [app]. rewrite <- app_assoc. apply in_order_later.
          pose proof (collect_in_order L1 rest T ls H) as H1. rewrite Hc, f_nil in H1. exact H1.
      + cbn [fst snd map app pend] in *. now apply in_order_later.
  Qed.

  Lemma reads_in_order c e chunks : forall h,
    Forall (fun d => f (padded d) = f d) chunks ->
    in_order (map f (map fst (fst (finish e (reads c h chunks))))) (pend h ++ f (concat chunks)).
  Proof.
    induction chunks as [|d chunks IH]; intros h Hp.
    - cbn [reads concat]. rewrite f_nil. unfold finish. cbn [fst snd app].
      destruct e; cbn [fst]; [|exact I].
      destruct h as [L|L]; cbn [at_end pend]; [|exact I].
      destruct (cur L) as [|x xs]; [exact I|]. cbn [map fst].
      exists [], []. split; [|exact I]. cbn [app]. reflexivity.
    - inversion Hp as [|? ? Hd Hp']; subst. cbn [reads].
      destruct (c && cut_escape h d).
      { unfold finish. cbn. exact I. }
      pose proof (step_in_order h d (f (concat chunks))) as Hs.
      specialize (IH (snd (read_step h d)) Hp').
      destruct (read_step h d) as [l h1]. cbn [fst snd] in *.
      destruct (reads c h1 chunks) as [l' o].
      rewrite finish_push. unfold push. cbn [fst]. rewrite !map_app.
      cbn [concat]. rewrite f_app. apply Hs; assumption.
  Qed.
End Projection.

Lemma without_nul_padded d : without_nul (padded d) = without_nul d.
Proof.
  unfold without_nul, padded. rewrite filter_app.
  assert (H : forall n, filter (fun c => negb (c =? 0)) (repeat 0 n) = []).
  { induction n; cbn; auto. }
  now rewrite H, app_nil_r.
Qed.

Lemma padded_full d : N.of_nat (length d) = 8192 -> padded d = d.
Proof. intros H. unfold padded. rewrite H, N.sub_diag. cbn [N.to_nat repeat]. apply app_nil_r. Qed.

(** Where a build with overflow checks panics. *)
Lemma reads_panic chunks : forall h,
  snd (reads true h chunks) = None <->
  exists before d after l h', chunks = before ++ d :: after /\
    reads false h before = (l, Some h') /\ cut_escape h' d = true.
Proof.
  induction chunks as [|d chunks IH]; intros h; cbn [reads].
  - split; [discriminate|]. intros (before & d & after & l & h' & E & _). destruct before; discriminate.
  - cbn [andb]. destruct (cut_escape h d) eqn:Ec.
    + split; [|reflexivity]. intros _. exists [], d, chunks, [], h. auto.
    + destruct (read_step h d) as [l h1] eqn:Es. specialize (IH h1).
      destruct (reads true h1 chunks) as [l' o]. cbn [snd] in *. rewrite IH. split.
      * intros (before & d' & after & l2 & h' & -> & Hr & Hc).
        exists (d :: before), d', after, (l ++ l2), h'. split; [reflexivity|]. split; [|assumption].
        cbn [reads andb]. rewrite Es, Hr. reflexivity.
      * intros (before & d' & after & l2 & h' & E & Hr & Hc).
        destruct before as [|d0 before].
        -- cbn in E, Hr. inversion E; inversion Hr; subst. congruence.
        -- cbn [app] in E. inversion E; subst. cbn [reads andb] in Hr. rewrite Es in Hr.
           destruct (reads false h1 before) as [l3 o3] eqn:E3. inversion Hr; subst.
           exists before, d', after, l3, h'. auto.
Qed.

Lemma finish_panic e x : snd (finish e x) = SPanic <-> snd x = None.
Proof. unfold finish. destruct (snd x), e; cbn; split; congruence. Qed.
