(** Property C91: the stack that the line iterator needs. *)
From Coq Require Import String List NArith Bool Lia.
From Verif Require Import Common IterModel IterSpec IterProofs IterSafety IterMain StackModel StackSpec.
Import ListNotations.
Open Scope N_scope.

(** ** Fuel *)
Lemma run_more ovf : forall f f' m s r, (f <= f')%nat ->
  fst (fst (run ovf f m s r)) <> OFuel -> run ovf f' m s r = run ovf f m s r.
Proof.
  induction f as [|f IH]; intros f' m s r L H; [now cbn in H|].
  destruct f' as [|f']; [lia|]. assert (L' : (f <= f')%nat) by lia. cbn [run] in *.
  destruct m.
  - destruct (do_read (chunk_size s) r) as [[[|b d]|e] r']; try reflexivity. now apply IH.
  - destruct (find_next_line ovf s) as [|s1|pos sp s1]; [reflexivity| |].
    + destruct (max_line_length s <? blen (buf s1)); now apply IH.
    + destruct (max_line_length s <? pos).
      * destruct (advance ovf (set_prev s1 0) pos sp); [now apply IH|reflexivity].
      * destruct (blen (buf (set_prev s1 0)) <? pos); [reflexivity|].
        destruct (advance _ _ _ _); [|reflexivity].
        destruct (firstn (N.to_nat pos) (buf (set_prev s1 0))); [now apply IH|reflexivity].
  - destruct (do_read (chunk_size s) r) as [[[|b d]|e] r']; try reflexivity.
    destruct (find_next_line ovf _) as [|s3|pos sp s3]; [reflexivity|now apply IH|].
    destruct (_ =? chunk_size s); [now apply IH|].
    destruct (advance ovf s3 pos sp); [now apply IH|reflexivity].
Qed.

Lemma next_on_more ovf f f' s r : (f <= f')%nat ->
  fst (fst (next_on ovf f s r)) <> OFuel -> next_on ovf f' s r = next_on ovf f s r.
Proof.
  unfold next_on. intros L H. destruct (st s); [reflexivity|].
  destruct (buf s); now apply run_more.
Qed.
Lemma next_is_on ovf s r : next ovf s r = next_on ovf (fuel_for s r) s r.
Proof. reflexivity. Qed.

(** On a stack that is too small a call overflows; otherwise it does what it does. *)
Theorem C91_stack : forall ovf json r0 s r stack, reachable ovf json r0 s r ->
  next_on ovf stack s r = next ovf s r \/ fst (fst (next_on ovf stack s r)) = overflow.
Proof.
  intros ovf json r0 s r stack H.
  destruct (next_on ovf stack s r) as [[o s'] r'] eqn:E.
  destruct (next ovf s r) as [[o2 s2] r2] eqn:E2. cbn [fst].
  assert (Ho : o = OFuel \/ o <> OFuel) by (destruct o; auto; right; discriminate).
  destruct Ho as [Ho|Ho]; [now right|left].
  destruct (PeanoNat.Nat.le_ge_cases stack (fuel_for s r)) as [L|L].
  - rewrite <- E2, next_is_on, (next_on_more _ _ _ _ _ L); rewrite E; [reflexivity|exact Ho].
  - rewrite <- E. rewrite <- E2, next_is_on. apply next_on_more; [exact L|].
    rewrite <- next_is_on, E2. cbn [fst].
    pose proof (proj1 (reachable_OK _ _ _ _ _ H)) as HO. intros ->.
    destruct (next_OK _ _ _ _ _ _ HO E2 ltac:(discriminate)) as (_ & H2 & _). now apply H2.
Qed.

(** A stack in proportion to what is not read yet is enough. *)
Theorem C91_enough : forall ovf json r0 s r stack, reachable ovf json r0 s r ->
  (4 + length (buf s) + 3 * reader_weight r <= stack)%nat ->
  next_on ovf stack s r = next ovf s r.
Proof.
  intros ovf json r0 s r stack H L. rewrite next_is_on. apply next_on_more.
  - unfold fuel_for. pose proof (nonzeros_le (buf s)). lia.
  - rewrite <- next_is_on. destruct (next ovf s r) as [[o s'] r'] eqn:E. cbn [fst]. intros ->.
    pose proof (proj1 (reachable_OK _ _ _ _ _ H)) as HO.
    destruct (next_OK _ _ _ _ _ _ HO E ltac:(discriminate)) as (_ & H2 & _). now apply H2.
Qed.

(** ** Plain text *)
Lemma eqb_no (x y : N) : x <> y -> (x =? y) = false.
Proof. apply N.eqb_neq. Qed.
Lemma scan_plain x : ~ In 10 x -> ~ In 92 x -> forall pos,
  scan x pos false None = (None, false, None) /\
  forall y, scan (x ++ 10 :: y) pos false None = (Some (pos + blen x, NewLine), false, None).
Proof.
  induction x as [|c x IH]; intros H1 H2 pos.
  - split; [reflexivity|]. intros y. cbn. rewrite N.add_0_r. reflexivity.
  - destruct (IH (fun h => H1 (or_intror h)) (fun h => H2 (or_intror h)) (pos + 1)) as [A B].
    assert (E1 : (c =? ch_bs) = false) by (apply eqb_no; intros ->; apply H2; now left).
    assert (E2 : (c =? ch_lf) = false) by (apply eqb_no; intros ->; apply H1; now left).
    assert (E : scan_byte false None c = (None, false, None))
      by (unfold scan_byte; rewrite E1, E2; reflexivity).
    split.
    + cbn [scan]. rewrite E. exact A.
    + intros y. cbn [scan app]. rewrite E, B. rewrite blen_cons. do 3 f_equal. f_equal. lia.
Qed.

(** The state in a plain log: where the search goes on, and the buffer. *)
Record std (s : iter) (p : N) (b : bytes) (n : N) : Prop := mkStd {
  d_chunk : chunk_size s = 8192;
  d_max : max_line_length s = 6000;
  d_st : st s = Scanning NewLine;
  d_js : split_json s = None;
  d_esc : escaped s = false;
  d_prev : prev_pos s = p;
  d_buf : buf s = b;
  d_nr : line_count s = n
}.
Lemma std_new : std (new false) 0 [] 0.
Proof. now constructor. Qed.

Lemma skipn_pre (p : N) (l y : bytes) : p <= blen l ->
  skipn (N.to_nat p) (l ++ y) = skipn (N.to_nat p) l ++ y.
Proof.
  intros H. unfold blen in H. rewrite skipn_app.
  replace (N.to_nat p - length l)%nat with 0%nat by lia. reflexivity.
Qed.
Lemma in_skipn {A} (x : A) n l : In x (skipn n l) -> In x l.
Proof. intros H. rewrite <- (firstn_skipn n l). apply in_or_app. now right. Qed.

Lemma get_found ovf f s r p l b2 n : std s p (l ++ 10 :: b2) n -> p <= blen l -> blen l <= 6000 ->
  ~ In 10 l -> ~ In 92 l ->
  exists s', std s' 0 b2 (n + 1) /\
    run ovf (S f) MGet s r =
      match l with [] => run ovf f MGet s' r | _ :: _ => (OLine l (n + 1), s', r) end.
Proof.
  intros [A1 A2 A3 A4 A5 A6 A7 A8] Hp Hl H1 H2.
  destruct s as [cs ml b0 s0 lc js0 pp es pk]. cbn in A1, A2, A3, A4, A5, A6, A7, A8. subst.
  cbn [run]. unfold find_next_line. cbn [buf prev_pos escaped split_json].
  rewrite (proj2 (N.ltb_ge _ _)) by (rewrite blen_app; lia).
  rewrite skipn_pre by exact Hp.
  destruct (scan_plain (skipn (N.to_nat p) l)) with (pos := 0) as [_ E];
    [intros h; apply in_skipn in h; auto|intros h; apply in_skipn in h; auto|].
  rewrite E. cbn [update_line_counter set_lex set_prev max_line_length buf st line_count chunk_size].
  rewrite blen_skipn. replace (p + (0 + (blen l - p))) with (blen l) by lia.
  rewrite (proj2 (N.ltb_ge _ _)) by exact Hl.
  cbn [update_line_counter set_lex set_prev max_line_length buf st line_count chunk_size].
  rewrite (proj2 (N.ltb_ge _ _)) by (rewrite blen_app; lia).
  rewrite firstn_blen_app, skipn_blen_app.
  unfold advance. change (usize_add ovf 0 (sep_len NewLine)) with (Some 1).
  cbn [set_buf buf chunk_size max_line_length st line_count split_json prev_pos escaped].
  rewrite blen_cons, (proj2 (N.ltb_ge _ _)) by lia.
  change (skipn (N.to_nat 1) (10 :: b2)) with b2.
  eexists. split; [|destruct l; reflexivity]. now constructor.
Qed.

Lemma get_none ovf f s r p b n : std s p b n -> p <= blen b -> blen b <= 6000 ->
  ~ In 10 b -> ~ In 92 b ->
  exists s', std s' (blen b) b n /\ run ovf (S f) MGet s r = run ovf f MRead s' r.
Proof.
  intros [A1 A2 A3 A4 A5 A6 A7 A8] Hp Hl H1 H2.
  destruct s as [cs ml b0 s0 lc js0 pp es pk]. cbn in A1, A2, A3, A4, A5, A6, A7, A8. subst.
  cbn [run]. unfold find_next_line. cbn [buf prev_pos escaped split_json].
  rewrite (proj2 (N.ltb_ge _ _)) by lia.
  destruct (scan_plain (skipn (N.to_nat p) b)) with (pos := 0) as [E _];
    [intros h; apply in_skipn in h; auto|intros h; apply in_skipn in h; auto|].
  rewrite E. cbn [set_lex set_prev max_line_length buf].
  rewrite (proj2 (N.ltb_ge _ _)) by exact Hl.
  eexists. split; [|reflexivity]. now constructor.
Qed.

Lemma read_data ovf f s r p b n d : std s p b n -> 1 <= blen d <= 8192 ->
  exists s', std s' p (b ++ d) n /\ run ovf (S f) MRead s (Data d :: r) = run ovf f MGet s' r.
Proof.
  intros [A1 A2 A3 A4 A5 A6 A7 A8] Hd.
  destruct s as [cs ml b0 s0 lc js0 pp es pk]. cbn in A1, A2, A3, A4, A5, A6, A7, A8. subst.
  cbn [run do_read chunk_size]. rewrite (proj2 (N.leb_le _ _)) by lia.
  destruct d as [|c d]; [rewrite blen_nil in Hd; lia|].
  eexists. split; [|reflexivity]. now constructor.
Qed.

(** Two ways to cut a text. *)
Lemma app_cut (a x l : bytes) rest : a ++ x = l ++ 10 :: rest ->
  (exists b2, a = l ++ 10 :: b2 /\ rest = b2 ++ x) \/
  (blen a <= blen l /\ exists l2, l = a ++ l2 /\ x = l2 ++ 10 :: rest).
Proof.
  revert l. induction a as [|c a IH]; intros l E.
  - right. split; [rewrite blen_nil; lia|]. exists l. auto.
  - destruct l as [|c' l]; cbn [app] in E; injection E as -> E.
    + left. exists a. auto.
    + destruct (IH l E) as [(b2 & -> & ->)|(L & l2 & -> & ->)].
      * left. exists b2. auto.
      * right. rewrite !blen_cons. split; [lia|]. exists l2. auto.
Qed.

(** ** Empty lines *)
Lemma blank_app (a x : bytes) m t : a ++ x = repeat 10 m ++ t -> a <> [] -> (1 <= m)%nat ->
  exists a', a = 10 :: a' /\ a' ++ x = repeat 10 (m - 1) ++ t.
Proof.
  destruct a as [|c a]; [easy|]. intros E _ Hm. destruct m; [lia|]. cbn [repeat app] in E.
  injection E as -> E. exists a. replace (S m - 1)%nat with m by lia. auto.
Qed.
Lemma run_blank ovf : forall f s b n chunks m t, read_sizes chunks -> (f <= m)%nat ->
  b ++ concat chunks = repeat 10 m ++ t ->
  (std s 0 b n -> fst (fst (run ovf f MGet s (map Data chunks))) = OFuel) /\
  (b = [] -> std s 0 b n -> fst (fst (run ovf f MRead s (map Data chunks))) = OFuel).
Proof.
  induction f as [|f IH]; intros s b n chunks m t Hs L E; [now split|]. split.
  - intros D. destruct b as [|c b].
    + destruct (get_none ovf f s (map Data chunks) 0 [] n D) as (s' & D' & ->);
        try (rewrite ?blen_nil; lia); try (now intros []).
      rewrite blen_nil in D'. apply (IH s' [] n chunks m t Hs); auto. lia.
    + destruct (blank_app _ _ _ _ E) as (b' & Eb & E'); [easy|lia|]. rewrite Eb in D.
      destruct (get_found ovf f s (map Data chunks) 0 [] b' n D) as (s' & D' & ->);
        try (rewrite ?blen_nil; lia); try (now intros []).
      apply (proj1 (IH s' b' (n + 1) chunks (m - 1)%nat t Hs ltac:(lia) E') D').
  - intros -> D. destruct chunks as [|d chunks].
    + exfalso. destruct m; [lia|]. discriminate E.
    + inversion Hs as [|x y Hd Hs' Eq]; subst. cbn [map].
      destruct (read_data ovf f s (map Data chunks) 0 [] n d D Hd) as (s' & D' & ->).
      cbn [app concat] in *. apply (proj1 (IH s' d n chunks m t Hs' ltac:(lia) E) D').
Qed.

(** ** A line of a log *)
Lemma run_line ovf l rest : ~ In 10 l -> ~ In 92 l -> blen l <= 6000 -> l <> [] ->
  forall a later f s p b n, std s p b n -> p <= blen b -> p <= blen l ->
  read_sizes a -> b ++ concat a = l ++ 10 :: rest -> (2 * length a + 1 <= f)%nat ->
  exists s' b' a', std s' 0 b' (n + 1) /\ b' ++ concat a' = rest /\
    (exists a0, a = a0 ++ a') /\
    run ovf f MGet s (map Data (a ++ later)) = (OLine l (n + 1), s', map Data (a' ++ later)).
Proof.
  intros H1 H2 Hl Hne. induction a as [|d a IH]; intros later f s p b n D Hp Hpl Hs E L;
    (destruct f as [|f]; [cbn in L; lia|]).
  - cbn [concat] in E. rewrite app_nil_r in E. subst b.
    destruct (get_found ovf f s (map Data ([] ++ later)) p l rest n D Hpl Hl H1 H2) as (s' & D' & R).
    exists s', rest, []. cbn [concat]. rewrite app_nil_r.
    split; [exact D'|]. split; [reflexivity|]. split; [now exists []|].
    rewrite R. destruct l; [easy|reflexivity].
  - destruct (app_cut _ _ _ _ E) as [(b2 & -> & ->)|(Hbl & l2 & -> & E2)].
    + destruct (get_found ovf f s (map Data ((d :: a) ++ later)) p l b2 n D Hpl Hl H1 H2)
        as (s' & D' & R).
      exists s', b2, (d :: a). split; [exact D'|]. split; [reflexivity|].
      split; [now exists []|]. rewrite R. destruct l; [easy|reflexivity].
    + inversion Hs as [|x y Hd Hs' Eq]; subst.
      destruct f as [|f]; [cbn [length] in L; lia|].
      destruct (get_none ovf (S f) s (map Data ((d :: a) ++ later)) p b n D Hp) as (s1 & D1 & ->);
        [lia|intros h; apply H1; apply in_or_app; now left
        |intros h; apply H2; apply in_or_app; now left|].
      destruct (read_data ovf f s1 (map Data (a ++ later)) (blen b) b n d D1 Hd) as (s2 & D2 & R2).
      cbn [map app]. rewrite R2.
      destruct (IH later f s2 (blen b) (b ++ d) n D2) as (s' & b' & a' & D' & E' & (a0 & ->) & R).
      * rewrite blen_app. lia.
      * exact Hbl.
      * exact Hs'.
      * rewrite <- app_assoc. exact E.
      * cbn [length] in L. lia.
      * exists s', b', a'. split; [exact D'|]. split; [exact E'|]. split; [now exists (d :: a0)|].
        exact R.
Qed.

Lemma plain_ne l : plain_line l -> l <> [].
Proof. intros (H & _) ->. cbn in H. lia. Qed.

Lemma on_line ovf l rest : plain_line l ->
  forall a later f s b n, std s 0 b n -> read_sizes a ->
  b ++ concat a = l ++ 10 :: rest -> (2 * length a + 1 <= f)%nat ->
  exists s' b' a', std s' 0 b' (n + 1) /\ b' ++ concat a' = rest /\
    (exists a0, a = a0 ++ a') /\
    next_on ovf f s (map Data (a ++ later)) = (OLine l (n + 1), s', map Data (a' ++ later)).
Proof.
  intros Hp a later f s b n D Hs E L. pose proof (plain_ne l Hp) as Hne.
  destruct Hp as ((_ & Hl) & H1 & H2). unfold next_on. rewrite (d_st _ _ _ _ D), (d_buf _ _ _ _ D).
  destruct b as [|c b].
  - destruct a as [|d a]; [destruct l; discriminate E|].
    inversion Hs as [|x y Hd Hs' Eq]; subst.
    destruct f as [|f]; [cbn [length] in L; lia|].
    destruct (read_data ovf f s (map Data (a ++ later)) 0 [] n d D Hd) as (s1 & D1 & R1).
    cbn [map app]. rewrite R1. cbn [app concat] in *.
    destruct (run_line ovf l rest H1 H2 Hl Hne a later f s1 0 d n D1) as (s' & b' & a' & D' & E' & (a0 & ->) & R);
      [lia|lia|exact Hs'|exact E|cbn [length] in L; lia|].
    exists s', b', a'. split; [exact D'|]. split; [exact E'|]. split; [now exists (d :: a0)|exact R].
  - apply (run_line ovf l rest H1 H2 Hl Hne a later f s 0 (c :: b) n D); auto; lia.
Qed.

Lemma weight_chunks chunks : (2 * length chunks + 1 <= 4 + 3 * reader_weight (map Data chunks))%nat.
Proof. induction chunks as [|d l IH]; cbn [length map reader_weight] in *; lia. Qed.

(** ** C91 *)
(** Empty lines are skipped by nested calls: every one of them takes a part of the stack.
    The loop over the lines gets no line after them, although it goes on. *)
Theorem C91_blank : forall ovf ls n t chunks stack k,
  Forall plain_line ls -> read_sizes chunks ->
  concat chunks = ended ls ++ blank n ++ t ->
  (stack <= n)%nat -> (length ls < k)%nat ->
  exists before, collect_on ovf stack k (new false) (map Data chunks) = (before, SFuel) /\
    (length before <= length ls)%nat.
Proof.
  intros ovf ls n t chunks stack k Hls Hs E L Lk.
  assert (G : forall ls, Forall plain_line ls -> forall k s b c m, (length ls < k)%nat ->
    std s 0 b m -> read_sizes c -> b ++ concat c = ended ls ++ blank n ++ t ->
    exists before, collect_on ovf stack k s (map Data c) = (before, SFuel) /\
      (length before <= length ls)%nat).
  { clear - L. induction 1 as [|l ls Hl Hls IH]; intros k s b c m Lk D Hs E;
      (destruct k as [|k]; [cbn in Lk; lia|]); cbn [collect_on].
    - cbn [ended map concat app] in E. unfold blank in E.
      assert (Ho : fst (fst (next_on ovf stack s (map Data c))) = OFuel).
      { destruct (run_blank ovf stack s b m c n t Hs L E) as [A B].
        unfold next_on. rewrite (d_st _ _ _ _ D), (d_buf _ _ _ _ D). destruct b; auto. }
      destruct (next_on ovf stack s (map Data c)) as [[o s'] r']. cbn [fst] in Ho. subst o. now exists [].
    - assert (E1 : b ++ concat c = l ++ 10 :: (ended ls ++ blank n ++ t)).
      { rewrite E. unfold ended. cbn [map concat]. rewrite <- !app_assoc. reflexivity. }
      destruct (on_line ovf l _ Hl c [] (4 + 3 * reader_weight (map Data c)) s b m D Hs E1
                  (weight_chunks c)) as (s' & b' & c' & D' & E' & (c0 & Hc) & R).
      rewrite !app_nil_r in R.
      assert (Hs' : read_sizes c') by (unfold read_sizes in *; rewrite Hc in Hs; now apply Forall_app in Hs).
      set (big := (4 + 3 * reader_weight (map Data c))%nat) in *.
      assert (Ho : next_on ovf stack s (map Data c) = next_on ovf big s (map Data c) \/
                   fst (fst (next_on ovf stack s (map Data c))) = OFuel).
      { destruct (PeanoNat.Nat.le_ge_cases big stack) as [L1|L1].
        - left. apply next_on_more; [exact L1|]. rewrite R. discriminate.
        - destruct (next_on ovf stack s (map Data c)) as [[o s2] r2] eqn:E2. cbn [fst].
          assert (Ho : o = OFuel \/ o <> OFuel) by (destruct o; auto; right; discriminate).
          destruct Ho as [Ho|Ho]; [now right|left]. rewrite <- E2. symmetry.
          apply next_on_more; [exact L1|]. now rewrite E2. }
      destruct Ho as [->|Ho].
      + rewrite R. specialize (IH k s' b' c' (m + 1)). cbn [length] in Lk.
        specialize (IH ltac:(lia) D' Hs' E').
        destruct IH as (before & -> & Lb). eexists. split; [reflexivity|]. cbn [length]. lia.
      + destruct (next_on ovf stack s (map Data c)) as [[o s2] r2]. cbn [fst] in Ho. subst o.
        exists []. split; [reflexivity|apply PeanoNat.Nat.le_0_l]. }
  exact (G ls Hls k (new false) [] chunks 0 Lk std_new Hs E).
Qed.

(** So no stack is enough for every log, not even for the logs without a long line. *)
Theorem C91_bounded_stack_refuted : forall ovf stack, exists content,
  Forall (fun x => N.of_nat (length (fst x)) <= 1) (segments false content) /\
  forall chunks, read_sizes chunks -> concat chunks = content ->
    fst (fst (next_on ovf stack (new false) (map Data chunks))) = overflow.
Proof.
  intros ovf stack. exists (blank stack). split.
  - unfold segments, blank. assert (G : forall k nr,
      exists nr', Forall (fun x : bytes * N => fst x = []) (fst (lex (mkLex None false [] nr) (repeat 10 k))) /\
        snd (lex (mkLex None false [] nr) (repeat 10 k)) = mkLex None false [] nr').
    { induction k as [|k IH]; intros nr; [exists nr; split; [constructor|reflexivity]|].
      destruct (IH (nr + 1)) as (nr' & A & B). exists nr'. cbn [repeat lex feed js esc cur IterSpec.nr].
      change (10 =? 92) with false. change (10 =? 10) with true. cbn iota.
      destruct (lex (mkLex None false [] (nr + 1)) (repeat 10 k)) as [l L]. cbn [fst snd] in *.
      split; [now constructor|exact B]. }
    destruct (G stack 1) as (nr' & A & B). unfold lex0.
    destruct (lex _ _) as [l L]. cbn [fst snd] in *. subst L. cbn [cur]. rewrite app_nil_r.
    eapply Forall_impl; [|exact A]. intros [x m] H. cbn [fst] in *. rewrite H. cbn. lia.
  - intros chunks Hs E. pose proof (C91_blank ovf [] stack [] chunks stack 1%nat) as H.
    specialize (H (Forall_nil _) Hs). unfold ended in H. cbn [map concat app] in H.
    rewrite app_nil_r in H. specialize (H E (le_n _) ltac:(cbn; lia)). cbn [collect_on] in H.
    destruct (next_on ovf stack (new false) (map Data chunks)) as [[o s'] r'].
    cbn [fst]. destruct H as (before & H & Lb). destruct before; [|cbn in Lb; lia].
    destruct o; try discriminate H. reflexivity.
Qed.

(** ** Files of plain lines *)
Lemma read_end ovf f s p b n : std s p b n -> b <> [] ->
  exists s', st s' = EoF /\ run ovf (S f) MRead s [] = (OLine b (n + 1), s', []).
Proof.
  intros [A1 A2 A3 A4 A5 A6 A7 A8] Hb.
  destruct s as [cs ml b0 s0 lc js0 pp es pk]. cbn in A1, A2, A3, A4, A5, A6, A7, A8. subst.
  cbn [run do_read chunk_size buf].
  rewrite (proj2 (N.ltb_lt _ _)) by (destruct b; [easy|rewrite blen_cons; lia]).
  cbn [update_line_counter set_buf buf st line_count]. rewrite firstn_blen_app.
  eexists. split; [|reflexivity]. reflexivity.
Qed.
Lemma read_nothing ovf f s n : std s 0 [] n ->
  exists s', std s' 0 (zeros 8192) n /\ run ovf (S f) MRead s [] = (ONone, s', []).
Proof.
  intros [A1 A2 A3 A4 A5 A6 A7 A8].
  destruct s as [cs ml b0 s0 lc js0 pp es pk]. cbn in A1, A2, A3, A4, A5, A6, A7, A8. subst.
  cbn [run do_read chunk_size buf]. rewrite blen_nil. change (0 <? 0) with false. cbn iota.
  eexists. split; [|reflexivity]. constructor; try reflexivity.
Qed.
Lemma not_in_zeros c n : c <> 0 -> ~ In c (zeros n).
Proof. intros H h. apply repeat_spec in h. auto. Qed.
Lemma get_zeros ovf f s n : std s 0 (zeros 8192) n ->
  exists s', std s' 0 (zeros 8192) n /\ run ovf (S (S f)) MGet s [] = (ONone, s', []).
Proof.
  intros [A1 A2 A3 A4 A5 A6 A7 A8].
  destruct s as [cs ml b0 s0 lc js0 pp es pk]. cbn in A1, A2, A3, A4, A5, A6, A8.
  cbn [buf] in A7. subst cs ml s0 js0 es pp lc.
  assert (Hz : blen b0 = 8192) by (rewrite A7; apply blen_zeros).
  cbn [run]. unfold find_next_line. cbn [buf prev_pos escaped split_json]. rewrite Hz.
  change (8192 <? 0) with false. cbn iota. change (skipn (N.to_nat 0) b0) with b0.
  destruct (scan_plain b0) with (pos := 0) as [E _];
    [rewrite A7; apply not_in_zeros; discriminate|rewrite A7; apply not_in_zeros; discriminate|].
  rewrite E. cbn [set_lex set_prev max_line_length buf]. rewrite Hz.
  change (6000 <? 8192) with true. cbn iota.
  cbn [do_read set_buf set_prev set_lex chunk_size buf app].
  eexists. split; [|reflexivity]. constructor; try reflexivity.
Qed.

Lemma file_reads_sizes cs : file_reads cs -> read_sizes cs.
Proof. induction 1; repeat constructor; auto; lia. Qed.
Lemma file_reads_suffix a b : file_reads (a ++ b) -> file_reads b.
Proof.
  induction a as [|d a IH]; [auto|]. cbn [app]. intros H.
  inversion H as [|x Hx E|x xs Hx Hxs E]; subst.
  - destruct a, b; try discriminate. constructor.
  - auto.
Qed.

(** The states of an iterator over such a file. *)
Inductive at_file (tail : bytes) : iter -> reader -> Prop :=
| at_line : forall s ls b chunks n, Forall plain_line ls -> std s 0 b n ->
    b ++ concat chunks = ended ls ++ tail -> file_reads chunks ->
    at_file tail s (map Data chunks)
| at_eof : forall s r, st s = EoF -> at_file tail s r
| at_end : forall s n, std s 0 (zeros 8192) n -> at_file tail s [].

Lemma at_file_step ovf tail s r : (tail = [] \/ plain_line tail) -> at_file tail s r ->
  exists o s' r', next_on ovf 4 s r = (o, s', r') /\ o <> OFuel /\ at_file tail s' r'.
Proof.
  intros Ht H. destruct H as [s ls b chunks n Hls D E Hf|s r He|s n D].
  - destruct Hls as [|l ls Hl Hls].
    + cbn [ended map concat app] in E.
      destruct Ht as [->|Ht].
      * destruct b; [|discriminate]. destruct chunks as [|d ds].
        2:{ exfalso. pose proof (file_reads_sizes _ Hf) as Hs. inversion Hs as [|x y Hd _ Eq]; subst.
            cbn [app concat] in E. destruct d; [cbn in Hd; lia|discriminate]. }
        destruct (read_nothing ovf 3 s n D) as (s' & D' & R).
        exists ONone, s', []. unfold next_on. rewrite (d_st _ _ _ _ D), (d_buf _ _ _ _ D).
        cbn [map]. split; [exact R|]. split; [discriminate|]. now apply (at_end _ s' n).
      * assert (Hc : chunks = [] \/ exists d, chunks = [d] /\ 1 <= blen d <= 8192).
        { inversion Hf as [|d Hd|d ds Hd Hds]; subst; [now left|right; eauto|].
          exfalso. destruct Ht as ((_ & H6) & _). revert H6.
          cbn [concat]. rewrite !app_length. lia. }
        pose proof (plain_ne _ Ht) as Hne. destruct Ht as ((_ & H6) & H1 & H2).
        fold (blen tail) in H6.
        destruct Hc as [->|(d & -> & Hd)]; cbn [concat map] in E |- *; rewrite app_nil_r in E.
        -- subst b. unfold next_on. rewrite (d_st _ _ _ _ D), (d_buf _ _ _ _ D).
           destruct tail as [|c tail]; [easy|].
           destruct (get_none ovf 3 s [] 0 (c :: tail) n D) as (s1 & D1 & R1); auto; try lia.
           rewrite R1. destruct (read_end ovf 2 s1 _ _ n D1 Hne) as (s2 & E2 & R2).
           rewrite R2. do 3 eexists. split; [reflexivity|]. split; [discriminate|].
           now apply at_eof.
        --
           assert (G : forall f s p, std s p tail n -> p <= blen tail -> exists o s' r',
             run ovf (S (S f)) MGet s [] = (o, s', r') /\ o <> OFuel /\ at_file tail s' r').
           { intros f s1 p D1 Hp.
             destruct (get_none ovf (S f) s1 [] p tail n D1) as (s2 & D2 & R2); auto.
             rewrite R2. destruct (read_end ovf f s2 _ _ n D2 Hne) as (s3 & E3 & R3).
             rewrite R3. do 3 eexists. split; [reflexivity|]. split; [discriminate|].
             now apply at_eof. }
           unfold next_on. rewrite (d_st _ _ _ _ D), (d_buf _ _ _ _ D).
           destruct b as [|c b].
           ++ destruct (read_data ovf 3 s [] 0 [] n d D Hd) as (s1 & D1 & R1). rewrite R1.
              cbn [app] in *. subst d. apply (G 1%nat s1 0 D1). lia.
           ++ destruct (get_none ovf 3 s [Data d] 0 (c :: b) n D) as (s1 & D1 & R1); try lia.
              ** rewrite <- E, blen_app in H6. lia.
              ** intros h. apply H1. rewrite <- E. apply in_or_app. now left.
              ** intros h. apply H2. rewrite <- E. apply in_or_app. now left.
              ** rewrite R1. destruct (read_data ovf 2 s1 [] _ _ n d D1 Hd) as (s2 & D2 & R2).
                 rewrite R2. rewrite E in D2. apply (G 0%nat s2 _ D2).
                 rewrite <- E, blen_app. lia.
    + assert (E1 : b ++ concat chunks = l ++ 10 :: (ended ls ++ tail)).
      { rewrite E. unfold ended. cbn [map concat]. rewrite <- !app_assoc. reflexivity. }
      assert (Hx : exists a later rest, chunks = a ++ later /\ (length a <= 1)%nat /\
        b ++ concat a = l ++ 10 :: rest).
      { destruct (app_cut _ _ _ _ E1) as [(b2 & -> & _)|(Hbl & l2 & Hl2 & E2)].
        - exists [], chunks, b2. cbn [concat]. rewrite app_nil_r. cbn [length]. auto.
        - destruct Hf as [|d Hd|d ds Hd Hds].
          + destruct l2; discriminate E2.
          + exists [d], [], (ended ls ++ tail). cbn [length]. auto.
          + cbn [concat] in E1.
            rewrite app_assoc in E1. destruct (app_cut _ _ _ _ E1) as [(b2 & Eb & _)|(L & _)].
            * exists [d], ds, b2. cbn [concat length]. rewrite app_nil_r. auto.
            * exfalso. rewrite blen_app in L. destruct Hl as ((_ & H6) & _).
              unfold blen in *. lia. }
      destruct Hx as (a & later & rest & -> & La & Ea).
      pose proof (file_reads_sizes _ Hf) as Hs. unfold read_sizes in Hs.
      apply Forall_app in Hs as [Hsa _].
      destruct (on_line ovf l rest Hl a later 4 s b n D Hsa Ea) as (s' & b' & a' & D' & E' & (a0 & ->) & R);
        [revert La; clear; unfold bytes in *; lia|].
      exists (OLine l (n + 1)), s', (map Data (a' ++ later)). split; [exact R|].
      split; [discriminate|]. apply (at_line tail s' ls b' (a' ++ later) (n + 1) Hls D').
      * rewrite concat_app, app_assoc, E'.
        rewrite concat_app, app_assoc, Ea in E1. rewrite <- app_assoc in E1. cbn [app] in E1.
        apply app_inv_head in E1. now injection E1.
      * rewrite <- app_assoc in Hf. now apply file_reads_suffix in Hf.
  - exists ONone, s, r. unfold next_on. rewrite He. split; [reflexivity|].
    split; [discriminate|now apply at_eof].
  - destruct (get_zeros ovf 2 s n D) as (s' & D' & R). exists ONone, s', [].
    unfold next_on. rewrite (d_st _ _ _ _ D), (d_buf _ _ _ _ D).
    split; [exact R|]. split; [discriminate|now apply (at_end _ s' n)].
Qed.

(** In a file of plain lines no call nests more than four calls, however long it is. *)
Theorem C91_plain_file : forall ovf ls tail chunks s r stack,
  Forall plain_line ls -> (tail = [] \/ plain_line tail) ->
  file_reads chunks -> concat chunks = ended ls ++ tail ->
  reachable ovf false (map Data chunks) s r -> (4 <= stack)%nat ->
  next_on ovf stack s r = next ovf s r.
Proof.
  intros ovf ls tail chunks s r stack Hls Ht Hf E Hr L.
  assert (Q : forall s r s' r' o, at_file tail s r -> next ovf s r = (o, s', r') ->
     next ovf s r = next_on ovf 4 s r /\ at_file tail s' r').
  { clear - Ht. intros s r s' r' o A En.
    destruct (at_file_step ovf tail s r Ht A) as (o1 & s1 & r1 & R & Ho & A1).
    assert (En' : next ovf s r = next_on ovf 4 s r).
    { rewrite next_is_on. apply next_on_more; [unfold fuel_for; lia|now rewrite R]. }
    split; [exact En'|]. rewrite En', R in En. injection En as <- <- <-. exact A1. }
  assert (A : at_file tail s r).
  { revert Hr. induction 1 as [|s r o s' r' Hr IH En Ho].
    - apply (at_line tail (new false) ls [] chunks 0 Hls std_new E Hf).
    - now destruct (Q _ _ _ _ _ IH En). }
  destruct (next ovf s r) as [[o s'] r'] eqn:En.
  destruct (Q _ _ _ _ _ A En) as [E1 _]. rewrite <- En, E1.
  destruct (at_file_step ovf tail s r Ht A) as (o1 & s1 & r1 & R & Ho & _).
  apply next_on_more; [exact L|]. now rewrite R.
Qed.

(** ** Examples *)
Definition c91_lines : list bytes := [lit "a first line"; lit "a second line"].
Lemma c91_plain l : In l c91_lines -> plain_line l.
Proof.
  intros [<-|[<-|[]]]; (split; [cbn; lia|]); split; cbn; intros H;
    repeat (destruct H as [H|H]; [discriminate|]); exact H.
Qed.
(** Two lines, then thirty empty lines, then a third line: with room for thirty nested calls
    the loop gets the two lines and overflows; with room for forty it gets all three. *)
Example C91_example : let log := ended c91_lines ++ blank 30 ++ lit "a third line" in
  Forall plain_line c91_lines /\ read_sizes [log] /\
  collect_on false 30 9 (new false) [Data log] =
    ([(lit "a first line", 1); (lit "a second line", 2)], SFuel) /\
  collect_on false 40 9 (new false) [Data log] =
    ([(lit "a first line", 1); (lit "a second line", 2); (lit "a third line", 33)], SEnd).
Proof.
  intros log. split; [apply Forall_forall; exact c91_plain|]. split.
  - constructor; [|constructor]. vm_compute. split; discriminate.
  - split; vm_compute; reflexivity.
Qed.
Example C91_example_file : let log := ended c91_lines ++ lit "a third line" in
  file_reads [log] /\ plain_line (lit "a third line") /\
  collect_on false 4 9 (new false) [Data log] =
    ([(lit "a first line", 1); (lit "a second line", 2); (lit "a third line", 3)], SEnd).
Proof.
  intros log. split; [|split].
  - apply reads_last. vm_compute. split; discriminate.
  - split; [cbn; lia|]. split; cbn; intros H; repeat (destruct H as [H|H]; [discriminate|]); exact H.
  - vm_compute. reflexivity.
Qed.

Print Assumptions C91_stack.
Print Assumptions C91_enough.
Print Assumptions C91_blank.
Print Assumptions C91_bounded_stack_refuted.
Print Assumptions C91_plain_file.
