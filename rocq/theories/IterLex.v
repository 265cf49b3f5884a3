(** Facts about the splitting automaton itself (independent of the code). *)
From Coq Require Import List NArith Bool Lia ZifyBool ZifyN ZifyNat Sorted.
From Verif Require Import Common IterModel IterSpec IterProofs IterSafety IterMain.
Import ListNotations.
Open Scope N_scope.

Lemma rd_newlines_stream r : rd_newlines r = newlines (stream r).
Proof.
  induction r as [|[d|e] r IH]; [reflexivity| |]; cbn [rd_newlines stream].
  - rewrite newlines_app. lia.
  - assumption.
Qed.

(** The cases of [feed]. *)
Inductive feed_case (L : lexer) (c : N) : option (bytes * N) * lexer -> Prop :=
| fc_text : forall j e, (e = true -> esc L = false /\ c = 92) ->
    (c = 10 -> esc L = true) ->
    e = (if c =? 92 then negb (esc L) else false) ->
    j = match js L with
        | Some q => Some (if esc L then q else if c =? 34 then negb q else q)
        | None => None end ->
    (js L = Some false -> In c [44; 91; 93; 123; 125] -> esc L = true) ->
    feed_case L c (None, mkLex j e (cur L ++ [c]) (nr L))
| fc_sub : esc L = true -> c = 110 ->
    feed_case L c (Some (removelast (cur L), nr L), mkLex (js L) false [] (nr L))
| fc_nl : esc L = false -> c = 10 ->
    feed_case L c (Some (cur L, nr L), mkLex (js L) false [] (nr L + 1))
| fc_json : esc L = false -> js L = Some false -> In c [44; 91; 93; 123; 125] ->
    feed_case L c (Some (cur L, nr L), mkLex (js L) false [] (nr L)).

Lemma feed_cases L c : feed_case L c (feed L c).
Proof.
  unfold feed. destruct (esc L) eqn:He.
  - destruct (N.eqb_spec c 110) as [->|Hn]; [apply fc_sub; auto|].
    apply fc_text; rewrite ?He; auto; try discriminate.
    + cbn. now destruct (c =? 92).
    + destruct (js L); reflexivity.
  - destruct (N.eqb_spec c 92) as [->|Hb].
    { apply fc_text; rewrite ?He; auto; try discriminate.
      - destruct (js L); reflexivity.
      - intros _ H. exfalso. cbn in H. repeat (destruct H as [H|H]; [discriminate|]). exact H. }
    destruct (N.eqb_spec c 10) as [->|Hl]; [apply fc_nl; auto|].
    assert (Hb' : (c =? 92) = false) by now apply N.eqb_neq.
    destruct (js L) as [inq|] eqn:Hj.
    2:{ rewrite <- Hj. apply fc_text; rewrite ?He, ?Hb', ?Hj; auto; discriminate. }
    destruct (N.eqb_spec c 34) as [->|Hq].
    { apply fc_text; rewrite ?He, ?Hj; auto; try discriminate.
      intros _ H. exfalso. cbn in H. repeat (destruct H as [H|H]; [discriminate|]). exact H. }
    assert (Hq' : (c =? 34) = false) by now apply N.eqb_neq.
    destruct (negb inq && _) eqn:E.
    + rewrite <- Hj. apply fc_json; auto.
      * rewrite Hj. f_equal. destruct inq; [discriminate|reflexivity].
      * cbn. lia.
    + apply fc_text; rewrite ?He, ?Hb', ?Hq', ?Hj; auto; try discriminate.
      intros H1 H2. exfalso. inversion H1; subst. cbn in E, H2.
      destruct H2 as [<-|[<-|[<-|[<-|[<-|[]]]]]]; discriminate.
Qed.

Lemma lex_cons L c s : lex L (c :: s) =
  (match fst (feed L c) with Some x => [x] | None => [] end ++ fst (lex (snd (feed L c)) s),
   snd (lex (snd (feed L c)) s)).
Proof.
  cbn [lex]. destruct (feed L c) as [[x|] L1]; cbn [fst snd app];
  destruct (lex L1 s); reflexivity.
Qed.

Lemma lex_snoc L s c : lex L (s ++ [c]) =
  (fst (lex L s) ++ match fst (feed (snd (lex L s)) c) with Some x => [x] | None => [] end,
   snd (feed (snd (lex L s)) c)).
Proof.
  rewrite lex_app, lex_cons. cbn [lex fst snd]. now rewrite app_nil_r.
Qed.

(** ** Nothing is lost or invented *)
Lemma lex_pieces s : forall L, (esc L = true -> exists u, cur L = u ++ [92]) ->
  exists seps, length seps = length (fst (lex L s)) /\
    Forall (separator (match js L with Some _ => true | None => false end)) seps /\
    cur L ++ s = interleave (map fst (fst (lex L s))) seps ++ cur (snd (lex L s)).
Proof.
  induction s as [|c s IH]; intros L HL.
  - exists []. cbn. rewrite app_nil_r. auto.
  - rewrite lex_cons. cbn [fst snd].
    destruct (feed_cases L c) as [j e He Hn Heq Hj Hjs|He ->|He ->|He Hj Hin]; cbn [fst snd app].
    + destruct (IH (mkLex j e (cur L ++ [c]) (nr L))) as (seps & H1 & H2 & H3).
      { cbn [esc cur]. intros ->. destruct (He eq_refl) as [_ ->]. now exists (cur L). }
      exists seps. cbn [js cur] in *. split; [assumption|]. split.
      * rewrite Hj in H2. now destruct (js L).
      * rewrite <- H3, <- app_assoc. reflexivity.
    + destruct (IH (mkLex (js L) false [] (nr L))) as (seps & H1 & H2 & H3); [discriminate|].
      exists ([92; 110] :: seps). cbn [js cur length map interleave fst] in *.
      split; [lia|]. split.
      * constructor; [|assumption]. right; left; reflexivity.
      * destruct (HL He) as [u Hu]. rewrite Hu, removelast_last.
        rewrite <- !app_assoc. cbn [app] in *. now rewrite <- H3.
    + destruct (IH (mkLex (js L) false [] (nr L + 1))) as (seps & H1 & H2 & H3); [discriminate|].
      exists ([10] :: seps). cbn [js cur length map interleave fst] in *.
      split; [lia|]. split.
      * constructor; [|assumption]. left; reflexivity.
      * rewrite <- !app_assoc. cbn [app] in *. now rewrite <- H3.
    + destruct (IH (mkLex (js L) false [] (nr L))) as (seps & H1 & H2 & H3); [discriminate|].
      exists ([c] :: seps). cbn [js cur length map interleave fst] in *.
      split; [lia|]. split.
      * constructor; [|assumption]. right; right. rewrite Hj. split; [reflexivity|].
        cbn in Hin. destruct Hin as [<-|[<-|[<-|[<-|[<-|[]]]]]]; cbn; auto 10.
      * rewrite <- !app_assoc. cbn [app] in *. now rewrite <- H3.
Qed.

(** ** Where a segment sits *)
Section Position.
Variable json : bool.
Let L0 := lex0 json.
Let at_ (p : bytes) : lexer := snd (lex L0 p).

(** [seg] is read from position [p] on, within one line number and with no separator. *)
Definition placed (p seg : bytes) (n : N) : Prop :=
  esc (at_ p) = false /\
  forall x y, seg = x ++ y -> cur (at_ (p ++ x)) = x /\ nr (at_ (p ++ x)) = n.

Lemma at_snoc p c : at_ (p ++ [c]) = snd (feed (at_ p) c).
Proof. unfold at_. now rewrite lex_snoc. Qed.

Lemma placed_snoc p x c : placed p x (nr (at_ (p ++ x))) ->
  cur (at_ (p ++ x ++ [c])) = x ++ [c] -> nr (at_ (p ++ x ++ [c])) = nr (at_ (p ++ x)) ->
  placed p (x ++ [c]) (nr (at_ (p ++ x))).
Proof.
  intros (H1 & H2) Hc Hn. split; [assumption|]. intros u v E.
  destruct (rev v) as [|c' v'] eqn:Ev.
  - assert (v = []) as -> by (rewrite <- (rev_involutive v), Ev; reflexivity).
    rewrite app_nil_r in E. subst u. auto.
  - assert (Hv : v = rev v' ++ [c']) by (rewrite <- (rev_involutive v), Ev; reflexivity).
    subst v. rewrite app_assoc in E. apply app_inj_tail in E. destruct E as [E ->].
    apply (H2 u (rev v') E).
Qed.

Lemma placed_prefix p x y n : placed p (x ++ y) n -> placed p x n.
Proof.
  intros (H1 & H2). split; [assumption|]. intros u v E. apply (H2 u (v ++ y)).
  now rewrite E, app_assoc.
Qed.

Lemma seg_placed s : forall p x,
  placed p x (nr (at_ (p ++ x))) ->
  forall seg n,
  In (seg, n) (fst (lex (at_ (p ++ x)) s) ++
               [(cur (snd (lex (at_ (p ++ x)) s)), nr (snd (lex (at_ (p ++ x)) s)))]) ->
  exists p' t, p ++ x ++ s = p' ++ seg ++ t /\ placed p' seg n.
Proof.
  induction s as [|c s IH]; intros p x HP seg n Hin.
  - cbn in Hin. destruct Hin as [Hin|[]]. inversion Hin; subst.
    exists p, []. rewrite !app_nil_r. destruct HP as (H1 & H2).
    destruct (H2 x [] ltac:(now rewrite app_nil_r)) as [Hc Hn]. rewrite Hc. split; [reflexivity|].
    split; assumption.
  - rewrite lex_cons in Hin. cbn [fst snd] in Hin.
    assert (Hat : at_ (p ++ x ++ [c]) = snd (feed (at_ (p ++ x)) c))
      by (rewrite app_assoc; apply at_snoc).
    assert (Hcur : cur (at_ (p ++ x)) = x).
    { destruct HP as (H1 & H2). apply (H2 x []). now rewrite app_nil_r. }
    assert (Hsep : forall seg0 m, fst (feed (at_ (p ++ x)) c) = Some (seg0, m) ->
              cur (snd (feed (at_ (p ++ x)) c)) = [] -> esc (snd (feed (at_ (p ++ x)) c)) = false ->
              m = nr (at_ (p ++ x)) -> (exists w, x = seg0 ++ w) ->
              exists p' t, p ++ x ++ c :: s = p' ++ seg ++ t /\ placed p' seg n).
    { intros seg0 m Hf Hc He -> [w Hw]. rewrite Hf in Hin. rewrite <- app_assoc in Hin.
      cbn [app] in Hin. destruct Hin as [Hin|Hin].
      - inversion Hin; subst. exists p, (w ++ c :: s). split; [now rewrite <- !app_assoc|].
        apply placed_prefix with w. exact HP.
      - destruct (IH (p ++ x ++ [c]) []) with (seg := seg) (n := n) as (p' & t & E & HP').
        + rewrite app_nil_r. split; [now rewrite Hat|]. intros u v Euv.
          symmetry in Euv. apply app_eq_nil in Euv. destruct Euv as [-> ->].
          rewrite app_nil_r, Hat. auto.
        + rewrite app_nil_r, Hat. exact Hin.
        + exists p', t. split; [|assumption]. rewrite <- E, <- !app_assoc. reflexivity. }
    destruct (feed_cases (at_ (p ++ x)) c) as [j e He Hn Heq Hj Hjs|He ->|He ->|He Hj Hj'].
    + cbn [fst snd app] in *. clear Hsep.
      destruct (IH p (x ++ [c])) with (seg := seg) (n := n) as (p' & t & E & HP').
      * rewrite Hat. cbn [nr]. apply placed_snoc; rewrite ?Hat; cbn [nr cur]; auto. now rewrite Hcur.
      * rewrite Hat. exact Hin.
      * exists p', t. split; [|assumption]. rewrite <- E, <- !app_assoc. reflexivity.
    + cbn [fst snd] in Hsep. eapply Hsep; eauto. rewrite Hcur.
      destruct x as [|x0 x'] using rev_ind; [exists []; reflexivity|].
      exists [x0]. now rewrite removelast_last.
    + cbn [fst snd] in Hsep. eapply Hsep; eauto. rewrite Hcur. exists []. now rewrite app_nil_r.
    + cbn [fst snd] in Hsep. eapply Hsep; eauto. rewrite Hcur. exists []. now rewrite app_nil_r.
Qed.

Lemma segments_placed s seg n : In (seg, n) (segments json s) ->
  exists p t, s = p ++ seg ++ t /\ placed p seg n.
Proof.
  intros Hin. destruct (seg_placed s [] []) with (seg := seg) (n := n) as (p & t & E & HP).
  - split; [reflexivity|]. intros u v Euv. symmetry in Euv. apply app_eq_nil in Euv.
    destruct Euv as [-> ->]. cbn. auto.
  - unfold segments in Hin. fold L0 in Hin. unfold at_. cbn [app lex snd].
    destruct (lex L0 s) as [l L]. cbn [fst snd]. apply in_app_or in Hin. apply in_or_app.
    destruct Hin as [Hin|Hin]; [left; assumption|right]. destruct (cur L); [destruct Hin|assumption].
  - exists p, t. auto.
Qed.

(** The escape state is the parity of the trailing backslashes, the string state
    the parity of unescaped quotes. *)
Lemma at_esc p : esc (at_ p) = escapes_next p.
Proof.
  induction p as [|c p IH] using rev_ind; [reflexivity|].
  rewrite at_snoc. unfold escapes_next in *. rewrite fold_left_app. cbn [fold_left].
  rewrite <- IH. destruct (feed_cases (at_ p) c) as [j e He Hn Heq Hj Hjs|He ->|He ->|He Hj Hj']; cbn [snd esc].
  - exact Heq.
  - reflexivity.
  - reflexivity.
  - cbn in Hj'. destruct Hj' as [<-|[<-|[<-|[<-|[<-|[]]]]]]; reflexivity.
Qed.

Lemma in_quotes_snoc p c : forall e inq,
  in_quotes_from e inq (p ++ [c]) =
  (if fold_left (fun e c => if c =? 92 then negb e else false) p e
   then in_quotes_from e inq p
   else if c =? 34 then negb (in_quotes_from e inq p) else in_quotes_from e inq p).
Proof.
  induction p as [|d p IH]; intros e inq; cbn [app in_quotes_from fold_left].
  - destruct e; [reflexivity|]. destruct (N.eqb_spec c 92) as [->|]; [reflexivity|].
    destruct (c =? 34); reflexivity.
  - destruct e.
    + cbn [negb]. replace (if d =? 92 then false else false) with false by now destruct (d =? 92).
      apply IH.
    + destruct (d =? 92); [apply IH|]. destruct (d =? 34); apply IH.
Qed.

Lemma at_js p : js (at_ p) = if json then Some (in_quotes p) else None.
Proof.
  induction p as [|c p IH] using rev_ind; [reflexivity|].
  rewrite at_snoc. unfold in_quotes. rewrite in_quotes_snoc. fold (in_quotes p).
  fold (escapes_next p). rewrite <- at_esc.
  destruct (feed_cases (at_ p) c) as [j e He Hn Heq Hj Hjs|He ->|He ->|He Hj Hj']; cbn [snd js].
  - rewrite Hj, IH. destruct json; [|reflexivity].
    destruct (esc (at_ p)); [reflexivity|]. now destruct (c =? 34).
  - rewrite IH, He. reflexivity.
  - rewrite IH, He. reflexivity.
  - rewrite IH, He. cbn in Hj'. destruct Hj' as [<-|[<-|[<-|[<-|[<-|[]]]]]]; reflexivity.
Qed.

Lemma at_nr p : nr (at_ p) <= 1 + newlines p /\
  (no_escaped_newline p -> nr (at_ p) = 1 + newlines p).
Proof.
  induction p as [|c p IH] using rev_ind; [split; reflexivity|].
  rewrite at_snoc, newlines_app, newlines_cons. change (newlines []) with 0.
  destruct IH as [IH1 IH2].
  assert (Hne : no_escaped_newline (p ++ [c]) -> no_escaped_newline p).
  { intros H a b ->. apply (H a (b ++ [c])). now rewrite <- app_assoc. }
  destruct (feed_cases (at_ p) c) as [j e He Hn Heq Hj Hjs|He ->|He ->|He Hj Hj']; cbn [snd nr].
  - split; [lia|]. intros H. rewrite (IH2 (Hne H)).
    destruct (N.eqb_spec c 10) as [->|]; [|lia]. exfalso.
    specialize (H p [] eq_refl). rewrite <- at_esc, (Hn eq_refl) in H. discriminate.
  - change (110 =? 10) with false. cbv iota. split; [lia|]. intros H. rewrite (IH2 (Hne H)). lia.
  - change (10 =? 10) with true. cbv iota. split; [lia|]. intros H. rewrite (IH2 (Hne H)). lia.
  - assert ((c =? 10) = false) as ->.
    { cbn in Hj'. destruct Hj' as [<-|[<-|[<-|[<-|[<-|[]]]]]]; reflexivity. }
    split; [lia|]. intros H. rewrite (IH2 (Hne H)). lia.
Qed.

(** C05: exact numbers. *)
Lemma segments_numbers s seg n : no_escaped_newline s -> In (seg, n) (segments json s) ->
  exists p t, s = p ++ seg ++ t /\ n = 1 + newlines p /\ newlines seg = 0.
Proof.
  intros Hne Hin. destruct (segments_placed s seg n Hin) as (p & t & E & He & HP).
  exists p, t. split; [assumption|].
  assert (Hsub : forall a b, s = a ++ b -> no_escaped_newline a).
  { intros a b -> u v ->. apply (Hne u (v ++ b)). now rewrite <- app_assoc. }
  assert (Hn1 : n = 1 + newlines p).
  { destruct (HP [] seg eq_refl) as [_ Hn]. rewrite app_nil_r in Hn. rewrite <- Hn.
    apply at_nr. eapply Hsub, E. }
  split; [assumption|].
  destruct (HP seg [] ltac:(now rewrite app_nil_r)) as [_ Hn].
  destruct (at_nr (p ++ seg)) as [_ Hx]. rewrite newlines_app in Hx.
  rewrite Hn in Hx. rewrite E, app_assoc in Hsub. specialize (Hx (Hsub (p ++ seg) t eq_refl)). lia.
Qed.

Lemma segments_numbers_le s seg n : In (seg, n) (segments json s) ->
  exists p t, s = p ++ seg ++ t /\ 1 <= n <= 1 + newlines p.
Proof.
  intros Hin. destruct (segments_placed s seg n Hin) as (p & t & E & He & HP).
  exists p, t. split; [assumption|].
  destruct (HP [] seg eq_refl) as [_ Hn]. rewrite app_nil_r in Hn. rewrite <- Hn.
  split; [|apply at_nr].
  clear. unfold at_. assert (H : forall s L, nr L <= nr (snd (lex L s))).
  { induction s as [|c s IH]; intros L; [cbn; lia|]. rewrite lex_cons. cbn [snd].
    specialize (IH (snd (feed L c))).
    destruct (feed_cases L c); cbn [snd nr] in *; lia. }
  apply (H p L0).
Qed.

(** C09: no separator outside a string within a segment. *)
Lemma segments_no_sep s seg n : In (seg, n) (segments json s) ->
  exists p t, s = p ++ seg ++ t /\
    forall x c y, seg = x ++ c :: y ->
      (c = 10 -> escapes_next (p ++ x) = true) /\
      (json = true -> In c [44; 91; 93; 123; 125] ->
       in_quotes (p ++ x) = true \/ escapes_next (p ++ x) = true).
Proof.
  intros Hin. destruct (segments_placed s seg n Hin) as (p & t & E & He & HP).
  exists p, t. split; [assumption|]. intros x c y Es.
  rewrite <- at_esc.
  assert (Hc : cur (at_ (p ++ x ++ [c])) = x ++ [c]).
  { apply (HP (x ++ [c]) y). now rewrite <- app_assoc. }
  rewrite app_assoc, at_snoc in Hc.
  pose proof (at_js (p ++ x)) as Hj0.
  destruct (feed_cases (at_ (p ++ x)) c) as [j e He' Hn Heq Hj Hjs|_ ->|_ ->|_ Hj Hj'].
  - split; [exact Hn|]. intros Hjson Hin'. rewrite Hjson in Hj0.
    destruct (in_quotes (p ++ x)); [left; reflexivity|right]. apply Hjs; auto.
  - cbn in Hc. now destruct x.
  - cbn in Hc. now destruct x.
  - cbn in Hc. now destruct x.
Qed.

(** C09: a quoted string stays in one segment. *)
Lemma lex_text_run body : forall p, json = true -> esc (at_ p) = false -> in_quotes p = true ->
  string_body body = true ->
  fst (lex L0 (p ++ body)) = fst (lex L0 p) /\ cur (at_ (p ++ body)) = cur (at_ p) ++ body /\
  esc (at_ (p ++ body)) = false /\ in_quotes (p ++ body) = true.
Proof.
  assert (Hstep : forall p c, json = true -> esc (at_ p) = false -> in_quotes p = true ->
     c <> 10 -> fst (lex L0 (p ++ [c])) = fst (lex L0 p) /\ cur (at_ (p ++ [c])) = cur (at_ p) ++ [c] /\
       esc (at_ (p ++ [c])) = (c =? 92) /\ (c <> 34 -> in_quotes (p ++ [c]) = true)).
  { intros p c Hj He Hq Hc. pose proof (at_js p) as Hjs. rewrite Hj, Hq in Hjs.
    pose proof (at_js (p ++ [c])) as Hjs2. rewrite Hj in Hjs2.
    rewrite lex_snoc. rewrite !at_snoc in *. cbn [fst]. fold (at_ p).
    destruct (feed_cases (at_ p) c) as [j e He' Hn Heq Hj' Hjs'|He' ->|_ ->|_ Hj' _];
      cbn [fst snd cur esc js] in *; try congruence.
    rewrite app_nil_r. repeat split; auto.
    - rewrite Heq, He. now destruct (c =? 92).
    - intros Hc34. rewrite Hj', Hjs, He in Hjs2. apply N.eqb_neq in Hc34. rewrite Hc34 in Hjs2.
      congruence. }
  assert (Hgen : forall k body, (length body <= k)%nat -> forall p, json = true ->
     esc (at_ p) = false -> in_quotes p = true -> string_body body = true ->
     fst (lex L0 (p ++ body)) = fst (lex L0 p) /\ cur (at_ (p ++ body)) = cur (at_ p) ++ body /\
     esc (at_ (p ++ body)) = false /\ in_quotes (p ++ body) = true).
  { induction k as [|k IH]; intros bd Hk p Hj He Hq Hb.
    { destruct bd; [|cbn in Hk; lia]. rewrite !app_nil_r. auto. }
    destruct bd as [|c b']; [rewrite !app_nil_r; auto|].
    cbn [string_body] in Hb. cbn [length] in Hk.
    destruct (N.eqb_spec c 92) as [->|Hc].
    - destruct b' as [|d b'']; [discriminate|]. apply andb_prop in Hb. destruct Hb as [Hd Hb].
      destruct (Hstep p 92 Hj He Hq ltac:(discriminate)) as (S1 & S2 & S3 & S4).
      specialize (S4 ltac:(discriminate)).
      (* the escaped byte *)
      assert (Hd' : fst (lex L0 ((p ++ [92]) ++ [d])) = fst (lex L0 p) /\
                    cur (at_ ((p ++ [92]) ++ [d])) = cur (at_ p) ++ [92; d] /\
                    esc (at_ ((p ++ [92]) ++ [d])) = false /\
                    in_quotes ((p ++ [92]) ++ [d]) = true).
      { pose proof (at_js ((p ++ [92]) ++ [d])) as Hjs2. rewrite Hj in Hjs2.
        pose proof (at_js (p ++ [92])) as Hjs. rewrite Hj, S4 in Hjs.
        rewrite lex_snoc. rewrite (at_snoc (p ++ [92]) d) in *. cbn [fst]. fold (at_ (p ++ [92])).
        change (92 =? 92) with true in S3.
        destruct (feed_cases (at_ (p ++ [92])) d) as [j e He' Hn Heq Hj' Hjs'|_ ->|He' _|He' _ _];
          cbn [fst snd cur esc js] in *; try congruence; try discriminate.
        rewrite app_nil_r. repeat split; auto.
        - rewrite S2, <- app_assoc. reflexivity.
        - rewrite Heq, S3. now destruct (d =? 92).
        - rewrite Hj', Hjs, S3 in Hjs2. congruence. }
      destruct Hd' as (D1 & D2 & D3 & D4).
      cbn [length] in Hk.
      destruct (IH b'' ltac:(lia) ((p ++ [92]) ++ [d]) Hj D3 D4 Hb) as (I1 & I2 & I3 & I4).
      replace (p ++ 92 :: d :: b'') with (((p ++ [92]) ++ [d]) ++ b'')
        by (rewrite <- !app_assoc; reflexivity).
      rewrite I1, I2, D1, D2, <- app_assoc. auto.
    - apply andb_prop in Hb. destruct Hb as [Hb Hb3]. apply andb_prop in Hb. destruct Hb as [Hb1 Hb2].
      apply negb_true_iff, N.eqb_neq in Hb1. apply negb_true_iff, N.eqb_neq in Hb2.
      destruct (Hstep p c Hj He Hq Hb2) as (S1 & S2 & S3 & S4).
      apply N.eqb_neq in Hc. rewrite Hc in S3.
      destruct (IH b' ltac:(lia) (p ++ [c]) Hj S3 (S4 Hb1) Hb3) as (I1 & I2 & I3 & I4).
      replace (p ++ c :: b') with ((p ++ [c]) ++ b') by (rewrite <- app_assoc; reflexivity).
      rewrite I1, I2, S1, S2, <- app_assoc. auto. }
  intros p. apply (Hgen (length body)). lia.
Qed.

Lemma lex_cur_infix s : forall L w, (exists a b, cur L = a ++ w ++ b) -> w <> [] -> last w 0 <> 92 ->
  (esc L = true -> exists u, cur L = u ++ [92]) ->
  exists seg n a b, In (seg, n) (fst (lex L s) ++
      match cur (snd (lex L s)) with [] => [] | _ :: _ => [(cur (snd (lex L s)), nr (snd (lex L s)))] end)
    /\ seg = a ++ w ++ b.
Proof.
  induction s as [|c s IH]; intros L w (a & b & Hc) Hw Hlast HL.
  - cbn [lex fst snd app]. exists (cur L), (nr L), a, b. split; [|assumption].
    destruct (cur L) as [|z zs] eqn:E; [|left; reflexivity].
    destruct a; destruct w; try discriminate. congruence.
  - rewrite lex_cons. cbn [fst snd].
    destruct (feed_cases L c) as [j e He Hn Heq Hj Hjs|He ->|He ->|He Hj Hj']; cbn [fst snd app].
    + apply IH; auto; cbn [cur esc].
      * exists a, (b ++ [c]). rewrite Hc, <- !app_assoc. reflexivity.
      * intros ->. destruct (He eq_refl) as [_ ->]. eauto.
    + destruct (HL He) as [u Hu]. exists (removelast (cur L)), (nr L).
      destruct b as [|b0 b'] using rev_ind.
      * exfalso. apply Hlast. rewrite app_nil_r in Hc. rewrite Hu in Hc.
        destruct w as [|w0 w'] using rev_ind; [congruence|].
        rewrite app_assoc in Hc. apply app_inj_tail in Hc. destruct Hc as [_ <-].
        apply last_last.
      * exists a, b'. split; [left; reflexivity|].
        rewrite Hc, !app_assoc, removelast_last. reflexivity.
    + exists (cur L), (nr L), a, b. split; [left; reflexivity|assumption].
    + exists (cur L), (nr L), a, b. split; [left; reflexivity|assumption].
Qed.

Lemma at_esc_cur p : esc (at_ p) = true -> exists u, cur (at_ p) = u ++ [92].
Proof.
  destruct p as [|c p] using rev_ind; [discriminate|]. rewrite at_snoc.
  destruct (feed_cases (at_ p) c) as [j e He Hn Heq Hj Hjs|He ->|He ->|He Hj Hj']; cbn [snd esc cur];
    try discriminate.
  intros ->. destruct (He eq_refl) as [_ ->]. eauto.
Qed.

Lemma segments_string s a body t : json = true ->
  s = a ++ 34 :: body ++ 34 :: t -> in_quotes a = false -> escapes_next a = false ->
  string_body body = true ->
  exists seg n, In (seg, n) (segments json s) /\ infix (34 :: body ++ [34]) seg.
Proof.
  intros Hj -> Hq He Hb.
  rewrite <- at_esc in He.
  (* opening quote *)
  assert (Hquote : forall p, esc (at_ p) = false ->
            cur (at_ (p ++ [34])) = cur (at_ p) ++ [34] /\ esc (at_ (p ++ [34])) = false /\
            in_quotes (p ++ [34]) = negb (in_quotes p)).
  { intros p Hp. rewrite !at_snoc. unfold in_quotes. rewrite in_quotes_snoc.
    fold (escapes_next p). rewrite <- at_esc, Hp. cbn [N.eqb Pos.eqb].
    destruct (feed_cases (at_ p) 34) as [j e He' Hn Heq Hj' Hjs|_ X|_ X|_ _ X];
      try discriminate; cbn [snd cur esc].
    - rewrite Heq. auto.
    - exfalso. cbn in X. repeat (destruct X as [X|X]; [discriminate|]). exact X. }
  destruct (Hquote a He) as (Q1 & Q2 & Q3). rewrite Hq in Q3.
  destruct (lex_text_run body (a ++ [34]) Hj Q2 Q3 Hb) as (B1 & B2 & B3 & B4).
  destruct (Hquote _ B3) as (R1 & R2 & R3).
  set (u := ((a ++ [34]) ++ body) ++ [34]) in *.
  assert (Hcu : cur (at_ u) = cur (at_ a) ++ (34 :: body ++ [34]) ++ []).
  { rewrite R1, B2, Q1, app_nil_r, <- !app_assoc. reflexivity. }
  destruct (lex_cur_infix t (at_ u) (34 :: body ++ [34])) as (seg & n & x & y & Hin & Hs).
  - eauto.
  - discriminate.
  - change (34 :: body ++ [34]) with ((34 :: body) ++ [34]). rewrite last_last. discriminate.
  - apply at_esc_cur.
  - exists seg, n. split; [|exists x, y; exact Hs].
    replace (a ++ 34 :: body ++ 34 :: t) with (u ++ t)
      by (unfold u; rewrite <- !app_assoc; reflexivity).
    unfold segments. fold L0. rewrite lex_app. fold (at_ u). cbn iota beta.
    rewrite <- app_assoc. apply in_or_app. right. exact Hin.
Qed.
End Position.
