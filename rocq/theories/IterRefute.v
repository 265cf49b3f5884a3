(** Symbolic executions for the refuted claims about the line iterator (the
    witnesses have thousands of bytes, so they are not run by computation). *)
From Coq Require Import String List NArith Arith Bool Lia ZifyBool ZifyN ZifyNat.
From Verif Require Import Common IterModel IterSpec IterProofs IterSafety IterMain.
Import ListNotations.
Open Scope N_scope.

Definition plain (c : N) : Prop := c <> 92 /\ c <> 10.

Lemma plain_repeat c n : plain c -> Forall plain (repeat c n).
Proof. intros H. induction n; cbn; constructor; auto. Qed.

Lemma blen_repeat c n : blen (repeat c (N.to_nat n)) = n.
Proof. unfold blen. rewrite repeat_length. lia. Qed.

Lemma skipn_past {A} (a : list A) x b : skipn (length a + 1) (a ++ x :: b) = b.
Proof. induction a; [reflexivity|assumption]. Qed.

Lemma scan_plain l : Forall plain l -> forall pos l',
  scan (l ++ l') pos false None = scan l' (pos + blen l) false None.
Proof.
  induction 1 as [|c l [H1 H2] _ IH]; intros pos l'.
  - unfold blen. cbn [length app]. now rewrite N.add_0_r.
  - cbn [app scan]. unfold scan_byte, ch_bs, ch_lf.
    apply N.eqb_neq in H1. apply N.eqb_neq in H2. rewrite H1, H2, IH. f_equal.
    unfold blen. cbn [length]. lia.
Qed.

Lemma lex_plain l : Forall plain l -> forall cu n l',
  lex (mkLex None false cu n) (l ++ l') = lex (mkLex None false (cu ++ l) n) l'.
Proof.
  induction 1 as [|c l [H1 H2] _ IH]; intros cu n l'.
  - now rewrite app_nil_r.
  - cbn [app lex]. unfold feed. cbn [esc js cur nr].
    apply N.eqb_neq in H1. apply N.eqb_neq in H2. rewrite H1, H2, IH, <- app_assoc. reflexivity.
Qed.

Lemma run_mono ovf : forall f m s r o s' r', run ovf f m s r = (o, s', r') -> o <> OFuel ->
  forall k, run ovf (f + k) m s r = (o, s', r').
Proof.
  induction f as [|f IH]; intros m s r o s' r' E Ho k.
  - cbn in E. inversion E; subst. congruence.
  - cbn [Nat.add run] in *. destruct m.
    + destruct (do_read (chunk_size s) r) as [[[|b d]|e] r1]; auto.
    + destruct (find_next_line ovf s) as [|s1|pos sp s1]; auto.
      * destruct (max_line_length s <? blen (buf s1)); auto.
      * destruct (max_line_length s <? pos).
        -- destruct (advance ovf (set_prev s1 0) pos sp); auto.
        -- destruct (blen (buf (set_prev s1 0)) <? pos); auto.
           destruct (advance ovf _ 0 sp); auto. destruct (firstn _ _); auto.
    + destruct (do_read (chunk_size s) r) as [[[|b d]|e] r1]; auto.
      destruct (find_next_line ovf _) as [|s1|pos sp s1]; auto.
      destruct (blen (b :: d) =? chunk_size s); auto.
      destruct (advance ovf s1 pos sp); auto.
Qed.

Lemma run_at_least ovf f f' m s r o s' r' : run ovf f m s r = (o, s', r') -> o <> OFuel ->
  (f <= f')%nat -> run ovf f' m s r = (o, s', r').
Proof.
  intros E Ho Hf. replace f' with (f + (f' - f))%nat by lia. now apply run_mono.
Qed.

Definition dstate (e : bool) (pk : N) : iter := mkIter 8192 6000 [] (Scanning NewLine) 0 None 0 e pk.

Ltac isimpl := cbn [chunk_size max_line_length buf st line_count split_json prev_pos escaped peak
  set_buf set_prev set_lex update_line_counter new].

(** A full first read without separator starts the draining. *)
Lemma enter_drain ovf f d e r : blen d = 8192 -> scan d 0 false None = (None, e, None) ->
  exists pk, run ovf (S (S f)) MRead (new false) (Data d :: r) = run ovf f MDrop (dstate e pk) r.
Proof.
  intros Hl Hs. destruct d as [|c d]; [discriminate|].
  eexists. cbn [run do_read]. isimpl. rewrite Hl.
  change (8192 <=? 8192) with true. cbv iota.
  unfold find_next_line. isimpl. cbn [app]. change (N.to_nat 0) with 0%nat. cbn [skipn].
  destruct (N.ltb_spec (blen (c :: d)) 0); [lia|].
  rewrite Hs. isimpl. rewrite Hl. change (6000 <? 8192) with true. cbv iota.
  unfold dstate. reflexivity.
Qed.

(** One read while draining, up to the search for the separator. *)
Lemma drain_read ovf f e pk b d r : blen (b :: d) <= 8192 ->
  exists pk', run ovf (S f) MDrop (dstate e pk) (Data (b :: d) :: r) =
  match find_next_line ovf (mkIter 8192 6000 ((b :: d) ++ zeros (8192 - blen (b :: d)))
                                   (Scanning NewLine) 0 None 0 e pk') with
  | FPanic => (OPanic, mkIter 8192 6000 ((b :: d) ++ zeros (8192 - blen (b :: d)))
                                   (Scanning NewLine) 0 None 0 e pk', r)
  | FSome pos sp s3 =>
    if blen (b :: d) =? 8192 then run ovf f MRead (set_buf s3 []) r
    else match advance ovf s3 pos sp with
         | Some s4 => run ovf f MGet s4 r
         | None => (OPanic, s3, r)
         end
  | FNone s3 => run ovf f MDrop (set_buf s3 []) r
  end.
Proof.
  intros Hl. eexists. cbn [run do_read]. unfold dstate. isimpl.
  destruct (N.leb_spec (blen (b :: d)) 8192); [|lia]. cbv iota.
  replace (skipn (N.to_nat (blen (b :: d))) (firstn (N.to_nat 8192) ([] ++ zeros 8192)))
    with (zeros (8192 - blen (b :: d))).
  - reflexivity.
  - cbn [app]. unfold zeros. rewrite firstn_all2 by (rewrite repeat_length; lia).
    replace (N.to_nat 8192) with (N.to_nat (blen (b :: d)) + N.to_nat (8192 - blen (b :: d)))%nat by lia.
    rewrite repeat_app, skipn_app, skipn_all2 by (rewrite repeat_length; lia).
    rewrite repeat_length, Nat.sub_diag. reflexivity.
Qed.

Lemma next_fuel ovf f r o s' r' : run ovf f MRead (new false) r = (o, s', r') -> o <> OFuel ->
  (f <= 4 + 3 * reader_weight r)%nat -> next ovf (new false) r = (o, s', r').
Proof.
  intros E Ho Hf. unfold next. isimpl. eapply run_at_least; [exact E|assumption|].
  unfold fuel_for. lia.
Qed.

Lemma scan_x n : scan (repeat 120 n) 0 false None = (None, false, None).
Proof.
  rewrite <- (app_nil_r (repeat 120 n)), scan_plain by (apply plain_repeat; split; discriminate).
  reflexivity.
Qed.

(** ** A backslash at the end of the discarded bytes *)
Definition panic_chunks : list bytes := [repeat 120 (N.to_nat 8191) ++ [92]; lit "n"].

Lemma panic_sizes : read_sizes panic_chunks.
Proof.
  unfold read_sizes, panic_chunks. apply Forall_cons; [|apply Forall_cons; [|constructor]].
  - rewrite app_length, repeat_length. cbn [length]. lia.
  - cbn. lia.
Qed.

Lemma panic_run : all_lines true false (map Data panic_chunks) = ([], SPanic).
Proof.
  assert (H : exists s' r', run true 3 MRead (new false) (map Data panic_chunks) = (OPanic, s', r')).
  { unfold panic_chunks. cbn [map].
    destruct (enter_drain true 1 (repeat 120 (N.to_nat 8191) ++ [92]) true [Data (lit "n")]) as [pk E].
    - unfold blen. rewrite app_length, repeat_length. cbn [length]. lia.
    - rewrite scan_plain by (apply plain_repeat; split; discriminate). reflexivity.
    - destruct (drain_read true 0 true pk 110 [] []) as [pk' E2]; [cbn; lia|].
      change (lit "n") with [110] in *. rewrite E, E2.
      unfold find_next_line. isimpl. cbn [app]. change (N.to_nat 0) with 0%nat. cbn [skipn scan].
      destruct (N.ltb_spec (blen (110 :: zeros (8192 - blen [110]))) 0); [lia|].
      unfold scan_byte, ch_n. change (110 =? 110) with true. cbv iota.
      change (usize_sub true (0 + 0) 1) with (@None N). cbv iota. eauto. }
  destruct H as (s' & r' & H). unfold all_lines. cbn [Nat.add collect].
  rewrite (next_fuel _ _ _ _ _ _ H); [reflexivity|discriminate|lia].
Qed.

(** ** A full read whose first separator ends the long line *)
Definition lost_chunks : list bytes :=
  [repeat 120 (N.to_nat 8192);
   120 :: 10 :: lit "lost" ++ 10 :: repeat 121 (N.to_nat 8184) ++ [10]; lit "kept"].

Lemma lost_len : blen (120 :: 10 :: lit "lost" ++ 10 :: repeat 121 (N.to_nat 8184) ++ [10]) = 8192.
Proof.
  unfold blen. cbn [length]. rewrite app_length. cbn [length]. rewrite app_length, repeat_length.
  change (length (lit "lost")) with 4%nat. cbn [length]. lia.
Qed.

Lemma lost_sizes : read_sizes lost_chunks.
Proof.
  unfold read_sizes, lost_chunks. apply Forall_cons; [|apply Forall_cons; [|apply Forall_cons; [|constructor]]].
  - rewrite repeat_length. lia.
  - pose proof lost_len as H. unfold blen in H. rewrite H. lia.
  - change (length (lit "kept")) with 4%nat. lia.
Qed.

Lemma lost_segments : In (lit "lost", 2) (segments false (concat lost_chunks)).
Proof.
  unfold segments, lost_chunks, lex0. cbn [concat]. rewrite app_nil_r.
  rewrite lex_plain by (apply plain_repeat; split; discriminate). cbn [app].
  change (120 :: 10 :: ?l) with ([120] ++ 10 :: l).
  change ([120] ++ 10 :: ?l) with ([120] ++ [10] ++ l).
  rewrite lex_plain by (repeat constructor; discriminate). cbn [app lex].
  unfold feed at 1. cbn [esc js cur nr]. change (10 =? 92) with false. change (10 =? 10) with true. cbv iota.
  change (nr ?x + 1) with 2.
  rewrite <- app_assoc, lex_plain by (repeat constructor; discriminate). cbn [app lex].
  unfold feed at 1. cbn [esc js cur nr]. change (10 =? 92) with false. change (10 =? 10) with true. cbv iota.
  destruct (lex _ _) as [l1 L1]. cbn. tauto.
Qed.

Lemma lost_run : all_lines false false (map Data lost_chunks) = ([(lit "kept", 2)], SEnd).
Proof.
  assert (H : exists s', run false 6 MRead (new false) (map Data lost_chunks) = (OLine (lit "kept") 2, s', [])
                         /\ st s' = EoF).
  { unfold lost_chunks. cbn [map].
    destruct (enter_drain false 4 (repeat 120 (N.to_nat 8192)) false
      [Data (120 :: 10 :: lit "lost" ++ 10 :: repeat 121 (N.to_nat 8184) ++ [10]); Data (lit "kept")]) as [pk E];
      [apply blen_repeat|apply scan_x|].
    pose proof lost_len as HL.
    remember (lit "lost" ++ 10 :: repeat 121 (N.to_nat 8184) ++ [10]) as rest eqn:Hrest.
    destruct (drain_read false 3 false pk 120 (10 :: rest) [Data (lit "kept")]) as [pk' E2]; [rewrite HL; lia|].
    rewrite E, E2. unfold find_next_line. isimpl. cbn [app]. change (N.to_nat 0) with 0%nat. cbn [skipn].
    destruct (N.ltb_spec (blen (120 :: 10 :: rest ++ zeros (8192 - blen (120 :: 10 :: rest)))) 0); [lia|].
    replace (scan (120 :: 10 :: rest ++ zeros (8192 - blen (120 :: 10 :: rest))) 0 false None)
      with (Some (1, NewLine), false, @None bool) by reflexivity.
    rewrite HL. change (8192 =? 8192) with true. cbv iota. isimpl.
    eexists. split.
    - cbn [run do_read]. isimpl. change (blen (lit "kept") <=? 8192) with true. cbv iota.
      change (lit "kept") with [107; 101; 112; 116] at 1. cbv iota beta. isimpl. cbn [app].
      unfold find_next_line. isimpl. change (N.to_nat 0) with 0%nat. cbn [skipn].
      change (blen [107; 101; 112; 116] <? 0) with false. cbv iota.
      replace (scan [107; 101; 112; 116] 0 false None) with (@None (N * sep), false, @None bool) by reflexivity.
      isimpl. change (6000 <? blen [107; 101; 112; 116]) with false. cbv iota. isimpl.
      change (0 <? blen [107; 101; 112; 116]) with true. cbv iota. isimpl.
      replace (firstn (N.to_nat (blen [107; 101; 112; 116])) ([107; 101; 112; 116] ++ zeros 8192))
        with (lit "kept"); [reflexivity|].
      change (N.to_nat (blen [107; 101; 112; 116])) with 4%nat.
      rewrite firstn_app. cbn [length Nat.sub firstn]. now rewrite app_nil_r.
    - reflexivity. }
  destruct H as (s' & H & Hst). unfold all_lines. cbn [Nat.add collect].
  rewrite (next_fuel _ _ _ _ _ _ H); [|discriminate|unfold lost_chunks; cbn [map reader_weight]; lia].
  unfold next. now rewrite Hst.
Qed.

(** ** A short read while draining *)
Definition padding_chunks : list bytes :=
  [repeat 120 (N.to_nat 8192); repeat 120 (N.to_nat 3000) ++ 10 :: lit "abc"].

Lemma padding_sizes : read_sizes padding_chunks.
Proof.
  unfold read_sizes, padding_chunks. apply Forall_cons; [|apply Forall_cons; [|constructor]].
  - rewrite repeat_length. lia.
  - rewrite app_length, repeat_length. cbn [length]. change (length (lit "abc")) with 3%nat. lia.
Qed.

Lemma padding_no_zero : ~ In 0 (concat padding_chunks).
Proof.
  unfold padding_chunks. cbn [concat]. rewrite app_nil_r, in_app_iff. intros [H|H].
  - apply repeat_spec in H. discriminate.
  - apply in_app_iff in H. destruct H as [H|H].
    + apply repeat_spec in H. discriminate.
    + cbn in H. decompose [or] H; try discriminate; contradiction.
Qed.

Lemma padding_run :
  all_lines false false (map Data padding_chunks) = ([(lit "abc" ++ zeros 5188, 2)], SEnd).
Proof.
  assert (H : exists s', run false 5 MRead (new false) (map Data padding_chunks)
                         = (OLine (lit "abc" ++ zeros 5188) 2, s', []) /\ st s' = EoF).
  { unfold padding_chunks. cbn [map].
    destruct (enter_drain false 3 (repeat 120 (N.to_nat 8192)) false
      [Data (repeat 120 (N.to_nat 3000) ++ 10 :: lit "abc")]) as [pk E];
      [apply blen_repeat|apply scan_x|].
    assert (HL : blen (repeat 120 (N.to_nat 3000) ++ 10 :: lit "abc") = 3004).
    { unfold blen. rewrite app_length, repeat_length. cbn [length]. change (length (lit "abc")) with 3%nat. lia. }
    destruct (repeat 120 (N.to_nat 3000) ++ 10 :: lit "abc") as [|b d] eqn:Ebd; [discriminate|].
    destruct (drain_read false 2 false pk b d []) as [pk' E2]; [rewrite HL; lia|].
    rewrite E, E2. unfold find_next_line at 1. isimpl. change (N.to_nat 0) with 0%nat. cbn [skipn].
    destruct (N.ltb_spec (blen ((b :: d) ++ zeros (8192 - blen (b :: d)))) 0); [lia|].
    rewrite HL, <- Ebd. clear E E2 Ebd HL b d H.
    rewrite <- !app_assoc, scan_plain by (apply plain_repeat; split; discriminate).
    rewrite blen_repeat. cbn [app scan]. unfold scan_byte at 1, ch_bs, ch_lf.
    change (10 =? 92) with false. change (10 =? 10) with true. cbv iota.
    change (3004 =? 8192) with false. cbv iota. change (0 + (0 + 3000)) with 3000. change (0 + 3000) with 3000.
    unfold advance, usize_add. cbn [sep_len]. change (3000 + 1) with 3001.
    change (3001 <? word) with true. cbv iota. isimpl.
    set (Z := zeros (8192 - 3004)).
    assert (HZ : Z = zeros 5188) by reflexivity.
    assert (Hlen : blen (repeat 120 (N.to_nat 3000) ++ 10 :: lit "abc" ++ Z) = 8192).
    { subst Z. unfold blen, zeros. rewrite app_length. cbn [length].
      rewrite app_length, !repeat_length. change (length (lit "abc")) with 3%nat. lia. }
    rewrite Hlen. change (8192 <? 3001) with false. cbv iota.
    replace (skipn (N.to_nat 3001) (repeat 120 (N.to_nat 3000) ++ 10 :: lit "abc" ++ Z)) with (lit "abc" ++ Z).
    2:{ replace (N.to_nat 3001) with (length (repeat 120%N (N.to_nat 3000)) + 1)%nat by (rewrite repeat_length; lia).
        now rewrite skipn_past. }
    rewrite HZ in *. clear Z HZ. set (L := lit "abc" ++ zeros 5188) in *.
    assert (HLl : blen L = 5191).
    { unfold L, blen, zeros. rewrite app_length, repeat_length. change (length (lit "abc")) with 3%nat. lia. }
    assert (HLs : scan L 0 false None = (None, false, None)).
    { unfold L. rewrite scan_plain by (repeat constructor; discriminate).
      rewrite <- (app_nil_r (zeros 5188)). unfold zeros.
      rewrite scan_plain by (apply plain_repeat; split; discriminate). reflexivity. }
    cbn [run]. unfold find_next_line. isimpl. change (N.to_nat 0) with 0%nat. cbn [skipn].
    rewrite ?HLl. change (5191 <? 0) with false. cbv iota. rewrite HLs. isimpl. rewrite HLl.
    change (6000 <? 5191) with false. cbv iota. cbn [run do_read]. isimpl. rewrite ?HLl.
    change (0 <? 5191) with true. cbv iota. isimpl.
    replace (firstn (N.to_nat 5191) (L ++ zeros 8192)) with L.
    2:{ replace (N.to_nat 5191) with (length L + 0)%nat by (unfold blen in HLl; lia).
        now rewrite firstn_app_2, app_nil_r. }
    eexists. split; reflexivity. }
  destruct H as (s' & H & Hst). unfold all_lines. cbn [Nat.add collect].
  rewrite (next_fuel _ _ _ _ _ _ H); [|discriminate|unfold padding_chunks; cbn [map reader_weight]; lia].
  unfold next. now rewrite Hst.
Qed.
