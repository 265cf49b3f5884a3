(** The tokenizer on lines. *)
From Coq Require Import String List Arith NArith Bool Lia.
From Verif Require Import Common CommonFacts Regex RegexFacts TokModel TokSpec TokRe TokNoise TokWords TokWord.
Import ListNotations.
Open Scope N_scope.

Lemma spaces_clean o b : spaces true o = Some b ->
  if b then o = [] \/ exists t, o = t ++ [32] /\ t <> [] /\ clean t else o <> [] /\ clean o.
Proof.
  assert (CL : forall o, spaces true o = Some false -> o <> [] /\ clean o).
  { intros x H. split; [intros ->; discriminate|]. split; [intros r ->; discriminate|]. split.
    - intros r ->. rewrite spaces_app in H. destruct (spaces true r) as [[]|]; discriminate.
    - intros (u & v & ->). rewrite spaces_app in H. destruct (spaces true u) as [[]|]; discriminate. }
  intros H. destruct b; [|now apply CL]. destruct o as [|x r]; [now left|]. right.
  destruct (@exists_last _ (x :: r) ltac:(discriminate)) as (t & c & E). rewrite E in *. exists t.
  rewrite spaces_app in H. destruct (spaces true t) as [s|] eqn:S; [|discriminate]. cbn [spaces] in H.
  destruct (c =? 32) eqn:C; [|discriminate]. apply N.eqb_eq in C. subst c. destruct s; [discriminate|]. destruct (CL t S). auto.
Qed.

Lemma infix_trim w : infix (trim w) w.
Proof. destruct (trim_both_dec is_whitespace w) as (a & b & E & _). exists a, b. exact E. Qed.
Lemma pct_infix o : pct false o <> None -> ~ infix [37; 71] o.
Proof. intros H (a & b & ->). apply H. rewrite pct_app. destruct (pct false a) as [p|]; [|reflexivity]. cbn [app pct]. rewrite andb_false_r. reflexivity. Qed.

(** Joining. *)
Definition closed (t : list N) : list N := match t with [] => [] | _ => t ++ [32] end.
Lemma join_closed ts : exists e, concat (map closed ts) = join_space (filter nonempty ts) ++ e /\ (e = [] \/ e = [32]).
Proof.
  induction ts as [|t ts (e & IH & He)]; [exists []; auto|]. cbn [map concat filter]. destruct t as [|c t].
  - cbn. exists e. auto.
  - cbn [nonempty closed]. rewrite IH. destruct (filter nonempty ts) as [|d ds] eqn:F.
    + cbn [join_space]. exists [32]. split; [|now right]. cbn [join_space] in IH. destruct He as [-> | ->].
      * now rewrite !app_nil_r.
      * exfalso. assert (X : concat (map closed ts) = []).
        { clear IH. induction ts as [|t' ts IH]; [reflexivity|]. cbn in F |- *. destruct t'; [cbn in *; now apply IH|discriminate]. }
        rewrite X in IH. discriminate.
    + exists e. split; [|exact He]. cbn [join_space]. now rewrite <- !app_assoc.
Qed.
Lemma join_app xs x ys : exists a b, join_space (xs ++ [x] ++ ys) = a ++ x ++ b /\
  (a = [] \/ exists p, a = p ++ [32]) /\ (b = [] \/ exists q, b = 32 :: q).
Proof.
  induction xs as [|y xs (a & b & E & Ha & Hb)].
  - destruct ys as [|y ys]; [exists [], []; cbn; rewrite app_nil_r; auto|].
    exists [], (32 :: join_space (y :: ys)). split; [reflexivity|]. split; [now left|right; eauto].
  - exists (y ++ [32] ++ a), b. split.
    + cbn [app]. destruct (xs ++ x :: ys) as [|z zs] eqn:Z; [destruct xs; discriminate|]. cbn [join_space] in E |- *. cbn [app] in E. rewrite Z in E.
      cbn [join_space] in E. rewrite E. now rewrite <- !app_assoc.
    + split; [|exact Hb]. right. destruct Ha as [->|(p & ->)]; [exists y; now rewrite app_nil_r|]. exists (y ++ [32] ++ p). now rewrite <- !app_assoc.
Qed.

Lemma error_lower_chars w (P : N -> Prop) c : (forall x, P x -> ascii_lower x = x) -> error_word w -> In c w -> P c ->
  exists e, In e (map lit ["error"; "fatal"; "failure"; "failed"; "warning"; "err"; "fail"; "warn"; "denied";
     "assert"; "assertion"; "non-zero"; "exception"; "traceback"]%string) /\ In c e.
Proof. intros HP He Hc Pc. exists (map ascii_lower w). split; [exact He|]. apply in_map_iff. exists c. split; [now apply HP|exact Hc]. Qed.
Lemma error_no_char w c : error_word w -> In c w -> ascii_lower c = c -> In c (lit "abcdefiklnoprstuwxz-hg").
Proof.
  intros He Hc Hl. destruct (error_lower_chars w (fun x => x = c) c) as (e & Hin & Hce); auto. { now intros x ->. }
  cbn [map In] in Hin. repeat (destruct Hin as [<-|Hin]; [vm_compute in Hce |- *; intuition|]). destruct Hin.
Qed.
Lemma not_char_error w c : error_word w -> In c w -> ascii_lower c = c -> ~ In c (lit "abcdefiklnoprstuwxz-hg") -> False.
Proof. intros H1 H2 H3 H4. apply H4. now apply (error_no_char w). Qed.
Ltac bad_char w c := apply (not_char_error w c); [assumption| |reflexivity|vm_compute; intuition discriminate].
(** ascii_lower keeps everything but capitals. *)
Lemma lower_hex c : hex_char c -> In (ascii_lower c) (lit "0123456789abcdefxz[]").
Proof.
  unfold hex_char, digit, between, one_of, ascii_lower. intros H.
  assert (K : forall l, existsb (N.eqb (if (65 <=? c) && (c <=? 90) then c + 32 else c)) l = true -> In (if (65 <=? c) && (c <=? 90) then c + 32 else c) l).
  { intros l Hl. apply existsb_exists in Hl. destruct Hl as (x & Hx & E). apply N.eqb_eq in E. now rewrite E. }
  apply K. clear K.
  assert (B : exists n, (n < 128)%nat /\ c = N.of_nat n).
  { exists (N.to_nat c). rewrite N2Nat.id. split; [|reflexivity]. assert (c < 128); [|lia].
    destruct H as [H|[H|[H|H]]]; try lia. vm_compute in H. intuition (subst; reflexivity). }
  destruct B as (n & Hn & ->). clear - H Hn.
  assert (G : forallb (fun n => implb (((48 <=? N.of_nat n) && (N.of_nat n <=? 57)) || ((97 <=? N.of_nat n) && (N.of_nat n <=? 102)) ||
     ((65 <=? N.of_nat n) && (N.of_nat n <=? 70)) || existsb (N.eqb (N.of_nat n)) (lit "[]xZ"))
     (existsb (N.eqb (if (65 <=? N.of_nat n) && (N.of_nat n <=? 90) then N.of_nat n + 32 else N.of_nat n)) (lit "0123456789abcdefxz[]"))) (seq 0 128) = true) by (vm_compute; reflexivity).
  rewrite forallb_forall in G. specialize (G n). assert (Hin : In n (seq 0 128)) by (apply in_seq; lia). specialize (G Hin).
  apply implb_true_iff with (1 := G) || (rewrite implb_true_iff in G; apply G). rewrite !orb_true_iff, !andb_true_iff, !N.leb_le.
  destruct H as [H|[H|[H|H]]]; auto. right. apply existsb_exists. eexists. split; [exact H|apply N.eqb_refl].
Qed.
Lemma prefix_length p w : prefix p w -> (length p <= length w)%nat.
Proof. intros (r & ->). rewrite app_length. lia. Qed.

(** Numbers. *)
Lemma is_digit_ok c : is_digit c = true <-> digit c.
Proof. unfold is_digit, digit, between. rewrite andb_true_iff, !N.leb_le. tauto. Qed.
Lemma is_digit_no c : ~ digit c -> is_digit c = false.
Proof. intros H. destruct (is_digit c) eqn:E; [|reflexivity]. apply is_digit_ok in E. contradiction. Qed.
Lemma rn_digits st d r : st <> 0%nat -> Forall digit d -> remove_numbers_go st (d ++ r) = remove_numbers_go st r.
Proof.
  intros Hs. induction 1 as [|c d Hc _ IH]; [reflexivity|]. cbn [app remove_numbers_go]. rewrite (proj2 (is_digit_ok c) Hc). destruct st; [congruence|exact IH].
Qed.
Lemma rn_start d r : d <> [] -> Forall digit d -> remove_numbers_go 0 (d ++ r) = 78 :: remove_numbers_go 1 r.
Proof.
  intros Hne Hd. destruct d as [|c d]; [congruence|]. inversion Hd; subst. cbn [app remove_numbers_go]. rewrite (proj2 (is_digit_ok c)) by assumption.
  f_equal. now apply rn_digits.
Qed.
Lemma collapsed_ok w s : collapsed w s -> remove_numbers w = s.
Proof.
  unfold remove_numbers. induction 1 as [|c w s Hc _ IH|n r s Hn _ IH]; [reflexivity|..].
  - cbn [remove_numbers_go]. now rewrite (is_digit_no c Hc), IH.
  - destruct Hn as [d r Hne Hd H1 H2|d e r Hne Hd Hne' He H1].
    + rewrite rn_start by assumption. cbn. f_equal. rewrite <- IH. destruct r as [|c r]; [reflexivity|]. cbn [remove_numbers_go].
      rewrite (is_digit_no c (H1 c r eq_refl)). destruct (c =? 46) eqn:E; [|reflexivity]. apply N.eqb_eq in E. subst c. destruct r as [|x r]; [reflexivity|].
      now rewrite (is_digit_no x (H2 x r eq_refl)).
    + rewrite <- !app_assoc. rewrite rn_start by assumption. change (lit "N" ++ s) with (78 :: s). f_equal. destruct e as [|x e]; [congruence|].
      inversion He; subst. cbn [app]. cbn [remove_numbers_go]. change (is_digit 46) with false. cbn [N.eqb]. change (46 =? 46) with true. rewrite (proj2 (is_digit_ok x)) by assumption.
      cbn [andb]. rewrite rn_digits by (auto; lia). destruct r as [|c r]; [reflexivity|]. cbn [remove_numbers_go]. now rewrite (is_digit_no c (H1 c r eq_refl)).
Qed.
Lemma digit_run w : exists d r, w = d ++ r /\ Forall digit d /\ (forall c x, r = c :: x -> ~ digit c).
Proof.
  induction w as [|c w (d & r & -> & Hd & Hr)]; [exists [], []; split; [reflexivity|]; split; [constructor|discriminate]|].
  destruct (is_digit c) eqn:E.
  - exists (c :: d), r. split; [reflexivity|]. split; [constructor; [now apply is_digit_ok|exact Hd]|exact Hr].
  - exists [], (c :: d ++ r). split; [reflexivity|]. split; [constructor|]. intros x y [= <- _] Hx. apply is_digit_ok in Hx. congruence.
Qed.
Lemma collapsed_exists w : exists s, collapsed w s.
Proof.
  remember (length w) as n eqn:Hn. revert w Hn. induction n as [n IH] using lt_wf_ind. intros w ->. destruct w as [|c w]; [exists []; constructor|].
  destruct (digit_run (c :: w)) as (d & r & E & Hd & Hr). destruct d as [|x d].
  - cbn in E. subst r. destruct (IH (length w)) with (w := w) as (s & Hs); [cbn; lia|reflexivity|]. exists (c :: s). constructor; [now apply (Hr c w)|exact Hs].
  - assert (L : (length r < length (c :: w))%nat) by (rewrite E, app_length; cbn; lia).
    assert (D : (exists c' x, r = 46 :: c' :: x /\ digit c') \/ (forall c' x, r = 46 :: c' :: x -> ~ digit c')).
    { destruct r as [|y [|z r]]; try (right; discriminate). destruct (y =? 46) eqn:Y, (is_digit z) eqn:Z.
      - left. apply N.eqb_eq in Y. subst. exists z, r. split; [reflexivity|now apply is_digit_ok].
      - right. intros c' x' [= -> <- _] Hc. apply is_digit_ok in Hc. congruence.
      - right. intros c' x' [= -> _ _]. discriminate.
      - right. intros c' x' [= -> _ _]. discriminate. }
    destruct D as [(c' & x' & -> & Hc)|D].
    + destruct (digit_run (c' :: x')) as (e & r' & E' & He & Hr'). destruct e as [|y e]; [exfalso; cbn in E'; subst r'; now apply (Hr' c' x')|].
      destruct (IH (length r')) with (w := r') as (s & Hs); [rewrite E' in L; cbn [length] in L; rewrite app_length in L; cbn [length] in L |- *; lia|reflexivity|].
      exists (lit "N" ++ s). rewrite E, E'. change ((x :: d) ++ 46 :: (y :: e) ++ r') with ((x :: d) ++ [46] ++ (y :: e) ++ r').
      replace ((x :: d) ++ [46] ++ (y :: e) ++ r') with (((x :: d) ++ [46] ++ (y :: e)) ++ r') by now rewrite <- !app_assoc.
      constructor; [|exact Hs]. apply Decimal; auto; discriminate.
    + destruct (IH (length r) L r eq_refl) as (s & Hs). exists (lit "N" ++ s). rewrite E. constructor; [|exact Hs]. apply Whole; auto; discriminate.
Qed.

Lemma identifier_range c : identifier_char c -> (48 <= c <= 57 \/ 65 <= c <= 90 \/ 97 <= c <= 122) \/ c = 95 \/ c = 46.
Proof. unfold identifier_char, alnum, letter, lower_letter, upper_letter, digit, between, one_of. cbn. intuition. Qed.
Lemma no_split (p : N -> bool) w : Forall (fun c => p c = false) w -> split_once p w = None.
Proof. induction 1 as [|c w Hc _ IH]; [reflexivity|]. cbn [split_once]. now rewrite Hc, IH. Qed.

Section Word.
Variable word_char : N -> bool.
Notation do_process := (do_process word_char).
Notation piece := (piece word_char).
Notation pieces := (pieces word_char).
Notation process := (process word_char).
Notation tok := (tok word_char).
Notation tq := trim_quote_and_punctuation.

(** The text of a word: what [do_process] appends, without a space at the end. *)
Definition word_text (w t : list N) : Prop :=
  exists o added, do_process (S (length w)) w = Some (o, added) /\ (o = t \/ o = t ++ [32]) /\ clean t.

Lemma clean_nil : clean [].
Proof. split; [discriminate|]. split; [intros [|] E; discriminate|]. intros (a & b & E). destruct a; discriminate. Qed.
Lemma word_piece w : no_space w -> exists t, word_text w t /\ piece w = Some (closed t).
Proof.
  intros Hw. destruct (do_process_tok word_char (S (length w)) w ltac:(lia)) as (o & a & E & T).
  pose proof (spaces_clean o (negb a) (tok_spaces word_char w o a T Hw)) as S. unfold TokModel.piece, word_text. rewrite E.
  destruct a; cbn [negb] in S.
  - destruct S as [Hne Hc]. exists o. split; [exists o, true; auto|]. unfold closed. destruct o; [congruence|reflexivity].
  - destruct S as [->|(t & -> & Hne & Hc)].
    + exists []. split; [|reflexivity]. exists [], false. split; [reflexivity|]. split; [now left|apply clean_nil].
    + exists t. split; [exists (t ++ [32]), false; auto|]. rewrite app_nil_r. unfold closed. destruct t; [congruence|reflexivity].
Qed.
Lemma word_text_fun w t t' : word_text w t -> word_text w t' -> t = t'.
Proof.
  intros (o & a & E & H & (_ & C & _)) (o' & a' & E' & H' & (_ & C' & _)). rewrite E in E'. injection E' as <- <-.
  destruct H as [->|H], H' as [H'|H']; subst; auto.
  - destruct (C _ eq_refl).
  - destruct (C' _ eq_refl).
  - now apply app_inj_tail in H'.
Qed.
Lemma words_no_space l w : In w (words l) -> no_space w.
Proof. intros Hw c Hc. now apply (words_chars l w c). Qed.
Lemma pieces_texts ws : (forall w, In w ws -> no_space w) -> exists ts, Forall2 word_text ws ts /\ pieces ws = Some (concat (map closed ts)).
Proof.
  induction ws as [|w ws IH]; intros H; [exists []; split; [constructor|reflexivity]|].
  destruct (word_piece w (H w (or_introl eq_refl))) as (t & Ht & Hp). destruct IH as (ts & Hts & Hps); [intros; apply H; now right|].
  exists (t :: ts). split; [now constructor|]. cbn [TokModel.pieces]. now rewrite Hp, Hps.
Qed.

Lemma dropped_iff line t : trimmed_of t line -> (dropped word_char line <-> global_filter word_char t = true).
Proof.
  intros Ht. rewrite global_filter_ok. split; [|intros H; exists t; auto]. intros (t' & Ht' & H).
  apply trimmed_unique in Ht, Ht'. congruence.
Qed.
Lemma process_dropped line : dropped word_char line -> process line = Some (lit "%GL_FILTER").
Proof.
  intros H. pose proof (trim_ok line) as T. apply (dropped_iff _ _ T) in H. unfold TokModel.process. now rewrite H.
Qed.
Lemma process_kept line : ~ dropped word_char line -> exists ts out, Forall2 word_text (words (trim line)) ts /\
  process line = Some out /\ out = trim (join_space (filter nonempty ts)).
Proof.
  intros H. pose proof (trim_ok line) as T. rewrite (dropped_iff _ _ T) in H. unfold TokModel.process.
  destruct (global_filter word_char (trim line)); [congruence|].
  destruct (pieces_texts (words (trim line)) (words_no_space _)) as (ts & Hts & ->). eexists ts, _. split; [exact Hts|]. split; [reflexivity|].
  destruct (join_closed ts) as (e & -> & He). change (join_space (filter nonempty ts) ++ e) with ([] ++ join_space (filter nonempty ts) ++ e). apply trim_around; [constructor|].
  destruct He as [-> | ->]; [constructor|]. constructor; [|constructor]. right. now left.
Qed.

(** ** C26 *)
Lemma words_len l : fold_right N.add 0 (map utf8_len (words l)) <= utf8_len l.
Proof.
  pose proof (words_splits l) as S. induction S as [w _|w s rest ws _ _ _ _ IH]; cbn [map fold_right]; [lia|]. rewrite !utf8_len_app. lia.
Qed.
Lemma process_total line : exists out, process line = Some out /\ utf8_len out <= 14 * utf8_len line + 10.
Proof.
  unfold TokModel.process. destruct (global_filter word_char (trim line)).
  - eexists. split; [reflexivity|]. replace (utf8_len (lit "%GL_FILTER")) with 10 by reflexivity. lia.
  - assert (P : forall ws, exists r, pieces ws = Some r /\ utf8_len r <= 14 * fold_right N.add 0 (map utf8_len ws)).
    { induction ws as [|w ws (r & Er & Hr)]; [exists []; split; [reflexivity|cbn; lia]|]. cbn [TokModel.pieces map fold_right]. unfold TokModel.piece.
      destruct (do_process_tok word_char (S (length w)) w ltac:(lia)) as (o & a & E & T). rewrite E, Er. eexists. split; [reflexivity|].
      pose proof (tok_len _ _ _ _ T) as L. rewrite !utf8_len_app.
      assert (utf8_len (if a then [32] else []) <= utf8_len w); [|lia].
      destruct a; [|cbn; lia]. replace (utf8_len [32]) with 1 by reflexivity.
      destruct w as [|c w]; [|cbn [utf8_len]; pose proof (utf8_len1_pos c); lia]. exfalso.
      assert (X : do_process 1 [] = Some ([], false)) by reflexivity. change (S (length (@nil N))) with 1%nat in E. congruence. }
    destruct (P (words (trim line))) as (r & -> & Hr). eexists. split; [reflexivity|].
    pose proof (proj2 (part_len _ _ (infix_trim r))). pose proof (words_len (trim line)). pose proof (proj2 (part_len _ _ (infix_trim line))). lia.
Qed.

(** ** C29 *)
Lemma digits_part_white w t : trimmed_of t w -> digits_of t = digits_of w.
Proof.
  intros (a & b & -> & Ha & Hb & _). rewrite !digits_app.
  assert (Z : forall x, Forall white x -> digits_of x = []).
  { induction 1 as [|c x Hc _ IH]; [reflexivity|]. unfold digits_of in *. cbn [filter]. destruct ((48 <=? c) && (c <=? 57)) eqn:D; [|exact IH].
    exfalso. apply andb_prop in D. destruct D as [D1 D2]. apply N.leb_le in D1, D2. unfold white, between in Hc. lia. }
  now rewrite (Z a Ha), (Z b Hb), app_nil_r.
Qed.
Lemma pieces_inv (P : list N -> Prop) ws r : P [] -> (forall a b, P a -> P b -> P (a ++ b)) ->
  (forall w o a, tok w o a -> P (o ++ if a then [32] else [])) -> pieces ws = Some r -> P r.
Proof.
  intros P0 PA PT. revert r. induction ws as [|w ws IH]; intros r; cbn [TokModel.pieces]; [now intros [= <-]|].
  unfold TokModel.piece. destruct (do_process_tok word_char (S (length w)) w ltac:(lia)) as (o & a & -> & T).
  destruct (pieces ws) as [b|]; [|discriminate]. intros [= <-]. apply PA; [now apply (PT w)|now apply IH].
Qed.
Lemma process_digits line out : process line = Some out -> digits64 out.
Proof.
  unfold TokModel.process. destruct (global_filter word_char (trim line)); [intros [= <-]; now apply digits64_none|].
  destruct (pieces (words (trim line))) as [r|] eqn:E; [|discriminate]. intros [= <-].
  assert (digits64 r).
  { apply (pieces_inv digits64) with (ws := words (trim line)); [now apply digits64_none|apply digits64_app| |exact E].
    intros w o a T. apply digits64_app; [now apply (tok_digits word_char w o a)|]. apply digits64_none. now destruct a. }
  destruct H as (n & Hn). exists n. rewrite <- Hn. apply digits_part_white, trim_ok.
Qed.

(** ** C32 *)
Lemma process_not_filter line : process line = Some (lit "%GL_FILTER") -> dropped word_char line.
Proof.
  intros H. pose proof (trim_ok line) as T. apply (dropped_iff _ _ T). unfold TokModel.process in H.
  destruct (global_filter word_char (trim line)); [reflexivity|]. destruct (pieces (words (trim line))) as [r|] eqn:E; [|discriminate]. exfalso.
  injection H as H.
  assert (pct false r = Some false).
  { apply (pieces_inv (fun r => pct false r = Some false)) with (ws := words (trim line)); [reflexivity| | |exact E].
    - intros a b Ha Hb. now rewrite pct_app, Ha.
    - intros w o a To. rewrite pct_app, (tok_pct word_char w o a To). now destruct a. }
  apply (pct_infix r); [rewrite H0; discriminate|]. eapply part_trans; [|apply infix_trim]. rewrite H. exists [], (lit "L_FILTER"). reflexivity.
Qed.
Lemma process_trim a line b : Forall white a -> Forall white b -> process (a ++ line ++ b) = process line.
Proof. intros Ha Hb. unfold TokModel.process. now rewrite trim_around. Qed.

(** ** Words in context *)
Lemma is_punct_ok c : is_punct c = true <-> punct c.
Proof.
  unfold is_punct, punct, one_of, memb. rewrite existsb_exists. split; [intros (x & Hx & E); apply N.eqb_eq in E; now subst|].
  intros H. exists c. split; [exact H|apply N.eqb_refl].
Qed.
Lemma trim_start2_keep a b w : ~ prefix [a; b] w -> trim_start2 a b w = w.
Proof.
  intros H. destruct w as [|x [|y w]]; try reflexivity. cbn [trim_start2]. destruct ((x =? a) && (y =? b)) eqn:E; [|reflexivity].
  apply andb_prop in E. destruct E as [E1 E2]. apply N.eqb_eq in E1, E2. subst. destruct H. exists w. reflexivity.
Qed.
Lemma tq_surrounded core w : surrounded core w -> tq w = core.
Proof.
  intros ((u & p & q & -> & Hu & Hp & Hq & U1 & U2) & Hne & H1 & H2). unfold trim_quote_and_punctuation.
  assert (UE : trim_start2 117 39 (trim_start2 117 34 (u ++ p ++ core ++ q)) = p ++ core ++ q).
  { destruct Hu as [<-|[<-|[<-|[]]]].
    - cbn [app]. now rewrite (trim_start2_keep 117 34), (trim_start2_keep 117 39).
    - rewrite (trim_start2_keep 117 34) by (intros (r & E); discriminate). change (trim_start2 117 39 (p ++ core ++ q) = p ++ core ++ q). now apply trim_start2_keep.
    - change (trim_start2 117 39 (trim_start2 117 34 (p ++ core ++ q)) = p ++ core ++ q). now rewrite (trim_start2_keep 117 34), (trim_start2_keep 117 39). }
  rewrite UE.
  assert (F : forall c, ~ punct c -> is_punct c = false).
  { intros c Hc. destruct (is_punct c) eqn:E; [|reflexivity]. apply is_punct_ok in E. destruct (Hc E). }
  rewrite trim_both_app.
  - apply trim_both_keep; intros; apply F; eauto.
  - revert Hp. apply Forall_impl. intros c. apply is_punct_ok.
  - revert Hq. apply Forall_impl. intros c. apply is_punct_ok.
Qed.
Lemma alone_in_line pre post : ends_blank pre -> starts_blank post -> exists xs ys, forall a, plain_word a ->
  words (trim (pre ++ a ++ post)) = xs ++ [a] ++ ys.
Proof.
  intros Hp Hq. destruct (words_alone (trim_start is_whitespace pre) (trim_end is_whitespace post)) as (xs & ys & H).
  - now apply before_trim.
  - now apply after_trim.
  - exists xs, ys. intros a (Hne & Hn & Hw). unfold trim. rewrite trim_both_around; [now apply H|exact Hne|..].
    + intros c r ->. apply not_white, Hw. now left.
    + intros c r ->. apply not_white, Hw, in_or_app. right. now left.
Qed.
Lemma texts_exist ws : (forall w, In w ws -> no_space w) -> exists ts, Forall2 word_text ws ts.
Proof. intros H. destruct (pieces_texts ws H) as (ts & Hts & _). eauto. Qed.
Lemma Forall2_fun ws ts ts' : Forall2 word_text ws ts -> Forall2 word_text ws ts' -> ts = ts'.
Proof.
  intros H. revert ts'. induction H; intros ts' H'; inversion H'; subst; [reflexivity|]. f_equal; [now apply (word_text_fun x)|now apply IHForall2].
Qed.
Lemma plain_no_space a : plain_word a -> no_space a.
Proof. intros (_ & _ & H) c Hc ->. apply (H 32 Hc). right. now left. Qed.
(** The output around a word standing alone does not depend on it. *)
Lemma process_alone pre post : ends_blank pre -> starts_blank post -> exists xs ys, forall a t out, plain_word a -> word_text a t ->
  ~ dropped word_char (pre ++ a ++ post) -> process (pre ++ a ++ post) = Some out -> out = trim (join_space (filter nonempty (xs ++ [t] ++ ys))).
Proof.
  intros Hp Hq. destruct (alone_in_line pre post Hp Hq) as (wx & wy & HW).
  set (z := [122]).
  assert (Hz : plain_word z).
  { split; [discriminate|]. split; [|intros c [<-|[]] Hw; unfold white, between in Hw; lia].
    intros u Hu (x & y & E). apply sep_unit_cases in Hu. destruct Hu as [(c & -> & Hc)|(c & d & -> & _)].
    - destruct x as [|? [|]]; try discriminate. injection E as E1 _. rewrite <- E1 in Hc. discriminate.
    - destruct x as [|? [|]]; discriminate. }
  assert (NS : forall w, In w wx \/ In w wy -> no_space w).
  { intros w Hw. apply (words_no_space (trim (pre ++ z ++ post))). rewrite (HW z Hz). rewrite in_app_iff. destruct Hw; auto. right. now right. }
  destruct (texts_exist wx) as (xs & Hxs); [auto|]. destruct (texts_exist wy) as (ys & Hys); [auto|].
  exists xs, ys. intros a t out Ha Ht Hd Ho. destruct (process_kept _ Hd) as (ts & out' & Hts & Ho' & ->). rewrite Ho in Ho'. injection Ho' as ->.
  f_equal. f_equal. f_equal. rewrite (HW a Ha) in Hts. apply (Forall2_fun (wx ++ [a] ++ wy)); [exact Hts|]. apply Forall2_app; [exact Hxs|]. now constructor.
Qed.

(** ** C28 *)
Lemma literal_text a core t : surrounded core a -> recognised word_char core t -> word_text a t.
Proof.
  intros Hs Hr. apply tq_surrounded in Hs. pose proof (recognised_token word_char _ _ Hr) as Ht. apply parse_literal_ok in Hr.
  exists t, true. cbn [TokModel.do_process]. rewrite Hs, Hr. split; [reflexivity|]. split; [now left|].
  assert (S : spaces true t = Some false) by (cbn [In] in Ht; repeat (destruct Ht as [<-|Ht]; [reflexivity|]); destruct Ht).
  now apply (spaces_clean t false) in S.
Qed.

(** ** C30 *)
Lemma error_not_literal w : error_word w -> parse_literal word_char w = None.
Proof.
  intros He. destruct (parse_literal word_char w) as [t|] eqn:P; [|reflexivity]. exfalso.
  unfold parse_literal in P. destruct (error_len _ He) as [_ Hlen].
  destruct (is_date word_char w) eqn:B1.
  { apply is_date_ok in B1. unfold DateWord, error_word in *. revert He B1. generalize (map ascii_lower w). intros l He B1. cbn [map In] in He.
    repeat (destruct He as [<-|He]; [vm_compute in B1; intuition discriminate|]). destruct He. }
  destruct (is_hash word_char w) eqn:B2.
  { apply is_hash_ok in B2. destruct B2 as [(p & d & r & E & _)|(a & b & r & E & Hl & _)].
    - bad_char w 58. rewrite E, !in_app_iff. right. right. left. now left.
    - rewrite E, !app_length in Hlen. lia. }
  destruct (is_uid word_char w) eqn:B3.
  { apply is_uid_ok in B3. destruct B3 as (gs & _ & Hg & E).
    assert (F : Forall (fun c => In c (lit "0123456789abcdefxz[]:.-")) (map ascii_lower w)).
    { rewrite E. clear - Hg. induction Hg as [|g gs Hg _ IH]; [constructor|]. cbn [concat]. rewrite map_app. apply Forall_app. split; [|exact IH].
      destruct Hg as (a & h & s & -> & Ha & _ & Hh & Hs). rewrite !map_app, !Forall_app. split; [|split].
      - induction Ha as [|c a Hc _ IHa]; constructor; [subst; vm_compute; auto 30|exact IHa].
      - induction Hh as [|c h Hc _ IHa]; constructor; [|exact IHa]. apply lower_hex in Hc. vm_compute in Hc. vm_compute. intuition.
      - induction Hs as [|c s Hc _ IHa]; constructor; [|exact IHa]. vm_compute in Hc. vm_compute. intuition (subst; auto 30). }
    assert (G : forallb (fun c => existsb (N.eqb c) (lit "0123456789abcdefxz[]:.-")) (map ascii_lower w) = true).
    { apply forallb_forall. intros c Hc. rewrite Forall_forall in F. apply existsb_exists. exists c. split; [now apply F|apply N.eqb_refl]. }
    clear - He G. unfold error_word in He. revert He G. generalize (map ascii_lower w). intros l He G. cbn [map In] in He.
    repeat (destruct He as [<-|He]; [vm_compute in G; discriminate|]). destruct He. }
  assert (FC : forall p, prefix p w -> forall l, In (map ascii_lower w) l -> (forall x, In x l -> starts_with (map ascii_lower p) x = false) -> False).
  { intros p (r & E) l Hin Hl. specialize (Hl _ Hin). rewrite E, map_app in Hl.
    assert (starts_with (map ascii_lower p) (map ascii_lower p ++ map ascii_lower r) = true) by (apply starts_with_spec; eexists; reflexivity). congruence. }
  assert (FD : forall p, prefix p w -> (forall x, In x (map lit ["error"; "fatal"; "failure"; "failed"; "warning"; "err"; "fail"; "warn"; "denied";
     "assert"; "assertion"; "non-zero"; "exception"; "traceback"]%string) -> starts_with (map ascii_lower p) x = false) -> False).
  { intros p Hp. apply (FC p Hp _ He). }
  clear FC.
  destruct (is_cookie word_char w) eqn:B4.
  { apply is_cookie_ok in B4. destruct B4 as [(p & Hp & Hw)|(c & Hc & Hw)].
    - apply (FD p Hw). cbn [map In] in Hp. intros x Hx. repeat (destruct Hp as [<-|Hp]; [cbn [map In] in Hx; repeat (destruct Hx as [<-|Hx]; [reflexivity|]); destruct Hx|]). destruct Hp.
    - apply (FD (lit "tx")); [destruct Hw as (r & ->); exists (c :: r); now rewrite <- app_assoc|]. intros x Hx. cbn [map In] in Hx; repeat (destruct Hx as [<-|Hx]; [reflexivity|]); destruct Hx. }
  destruct (is_uuid word_char w) eqn:B5.
  { apply is_uuid_ok in B5. destruct B5 as (x & m & a & b & c & E & _ & _ & Hg). inversion Hg as [|? ? [Ha _] Hg2]; subst. inversion Hg2 as [|? ? [Hb _] Hg3]; subst. inversion Hg3 as [|? ? [Hc _] _]; subst.
    rewrite !app_length in Hlen. cbn [length] in Hlen. lia. }
  destruct (is_url word_char w) eqn:B6.
  { apply is_url_ok in B6. destruct B6 as (s & r & E & Hs). assert (In 58 s).
    { assert (Hm : In 58 (map fold_lower s)) by (cbn [map In] in Hs; repeat (destruct Hs as [<-|Hs]; [vm_compute; auto 10|]); destruct Hs).
      apply in_map_iff in Hm. destruct Hm as (x & Hx & Hi). assert (x = 58); [|now subst].
      unfold fold_lower, ascii_lower in Hx. destruct (x =? 8490); [discriminate|]. destruct (x =? 383); [discriminate|].
      destruct ((65 <=? x) && (x <=? 90)) eqn:U; [|exact Hx]. apply andb_prop in U. destruct U as [U _]. apply N.leb_le in U. lia. }
    bad_char w 58. rewrite E, in_app_iff. now left. }
  destruct (is_random_path w) eqn:B7.
  { apply is_random_path_ok in B7. destruct B7 as [H|[H|H]].
    - bad_char w 47. eapply part_in; [exact H|vm_compute; auto 10].
    - bad_char w 47. eapply part_in; [exact H|vm_compute; auto 10].
    - bad_char w 109. destruct H as (r & ->). vm_compute. auto. }
  destruct (is_refs word_char w) eqn:B8.
  { apply is_refs_ok in B8. destruct B8 as [H|[H|(a & b & E & _)]].
    - bad_char w 47. destruct H as (r & ->). vm_compute. auto 10.
    - bad_char w 47. destruct H as (r & ->). vm_compute. auto 10.
    - bad_char w 46. rewrite E, !in_app_iff. right. left. now left. }
  destruct (is_base64 word_char w) eqn:B9; [|discriminate].
  apply is_base64_ok in B9. destruct B9 as [(a & E)|[H _]].
  - bad_char w 61. rewrite E, in_app_iff. right. now left.
  - assert (A : forall c, In c w -> utf8_len1 c = 1).
    { intros c Hc. assert (In (ascii_lower c) (map ascii_lower w)) by now apply in_map. unfold error_word in He.
      assert (ascii_lower c < 128).
      { match type of He with In _ ?l => assert (G : forallb (forallb (fun x => x <? 128)) l = true) by (vm_compute; reflexivity) end.
        rewrite forallb_forall in G. specialize (G _ He). rewrite forallb_forall in G. apply N.ltb_lt. now apply G. }
      unfold ascii_lower in H1. destruct ((65 <=? c) && (c <=? 90)) eqn:U; unfold utf8_len1.
      - apply andb_prop in U. destruct U as [_ U]. apply N.leb_le in U. replace (c <? 128) with true; [reflexivity|]. symmetry. apply N.ltb_lt. lia.
      - replace (c <? 128) with true; [reflexivity|]. symmetry. now apply N.ltb_lt. }
    assert (U : utf8_len w = N.of_nat (length w)).
    { clear - A. induction w as [|c w IH]; [reflexivity|]. cbn [utf8_len length]. rewrite (A c) by now left. rewrite IH; [lia|]. intros x Hx. apply A. now right. }
    lia.
Qed.
Lemma error_text a core : surrounded core a -> no_space a -> error_word core -> word_text a (amplified core).
Proof.
  intros Hs Hn He. apply tq_surrounded in Hs.
  destruct (do_process_tok word_char (S (length a)) a ltac:(lia)) as (o & ad & E & T).
  assert (X : do_process (S (length a)) a = Some (push_error core, true)).
  { cbn [TokModel.do_process]. rewrite Hs, (error_not_literal _ He). apply (is_error_ok word_char) in He. now rewrite He. }
  rewrite X in E. injection E as <- <-. apply tok_spaces in T; [|exact Hn]. apply (spaces_clean _ false) in T. destruct T as [_ T].
  exists (push_error core), true. split; [exact X|].
  assert (push_error core = amplified core) as <-.
  { unfold push_error, amplified. cbn [join_space]. rewrite <- !app_assoc. reflexivity. }
  split; [now left|exact T].
Qed.
Lemma amplified_ends core : error_word core -> amplified core <> [] /\ (forall c r, amplified core = c :: r -> ~ white c) /\
  (forall c r, amplified core = r ++ [c] -> ~ white c).
Proof.
  intros He. assert (NW : forall c, In c core -> ~ white c).
  { intros c Hc Hw. assert (L : ascii_lower c = c).
    { unfold ascii_lower. destruct ((65 <=? c) && (c <=? 90)) eqn:U; [|reflexivity]. apply andb_prop in U. destruct U as [U1 U2]. apply N.leb_le in U1, U2. unfold white, between in Hw. lia. }
    pose proof (error_no_char core c He Hc L) as X. clear - X Hw. assert (97 <= c <= 122 \/ c = 45); [|unfold white, between in Hw; lia].
    vm_compute in X. intuition (subst; lia). }
  assert (Hne : core <> []) by (intros ->; destruct (error_len _ He) as [X _]; cbn in X; lia).
  split; [|split].
  - unfold amplified. cbn [join_space]. destruct core; [congruence|discriminate].
  - intros c r E. unfold amplified in E. cbn [join_space] in E. destruct core as [|x core]; [congruence|]. injection E as <- _. apply NW. now left.
  - intros c r E. unfold amplified in E. cbn [join_space] in E. change (lit "%D") with ([37] ++ [68]) in E. rewrite !app_assoc in E.
    apply app_inj_tail in E. destruct E as [_ <-]. unfold white, between. lia.
Qed.
Lemma in_split_filter (ts : list (list N)) t : In t ts -> nonempty t = true -> exists xs ys, filter nonempty ts = xs ++ [t] ++ ys.
Proof.
  intros Hi Hn. assert (In t (filter nonempty ts)) as H by (apply filter_In; auto). apply in_split in H. destruct H as (xs & ys & ->). exists xs, ys. reflexivity.
Qed.
Lemma error_amplified line w core out : ~ dropped word_char line -> In w (words (trim line)) -> surrounded core w -> error_word core ->
  process line = Some out -> exists a b, out = a ++ amplified core ++ b /\ ends_blank a /\ starts_blank b.
Proof.
  intros Hd Hw Hs He Ho. destruct (process_kept line Hd) as (ts & out' & Hts & Ho' & ->). rewrite Ho in Ho'. injection Ho' as ->.
  pose proof (error_text w core Hs (words_no_space _ _ Hw) He) as Ht.
  assert (Hin : In (amplified core) ts).
  { clear - Hts Hw Ht. induction Hts as [|x y xs ys H _ IH]; [destruct Hw|]. destruct Hw as [<-|Hw]; [left; now apply (word_text_fun x)|right; auto]. }
  destruct (amplified_ends core He) as (Hne & H1 & H2).
  destruct (in_split_filter ts (amplified core) Hin) as (xs & ys & ->); [destruct (amplified core); [congruence|reflexivity]|].
  destruct (join_app xs (amplified core) ys) as (a & b & -> & Ha & Hb). unfold trim.
  rewrite trim_both_around; [|exact Hne|intros; apply not_white; eauto|intros; apply not_white; eauto].
  eexists _, _. split; [reflexivity|]. split; [apply before_trim|apply after_trim].
  - destruct Ha as [->|(p & ->)]; [now left|right; exists p, 32; auto].
  - destruct Hb as [->|(q & ->)]; [now left|right; exists 32, q; auto].
Qed.

(** ** C31 *)
Definition tokens : list (list N) :=
  [lit "%DATE"; lit "%HASH"; lit "%ID"; lit "%COOKIE"; lit "%UID"; lit "%URL"; lit "%PATH"; lit "%REF"; lit "%BASE64"; lit "%ODD"; []].
Lemma error_no_eq w : error_word w -> ~ In 61 w /\ ~ In 58 w.
Proof. intros H. split; intros Hi; [bad_char w 61|bad_char w 58]; exact Hi. Qed.
Lemma kv_tq k c v : identifying_key k -> c = 61 \/ c = 58 -> exists v', tq (k ++ c :: v) = k ++ c :: v'.
Proof.
  intros ((x & r & -> & Hx) & Hk & Hm) Hc.
  assert (Hr : r <> []).
  { intros ->. destruct Hm as (a & m & b & E & Hm). assert (L : (length m <= 1)%nat).
    { pose proof (f_equal (@length N) E) as L. rewrite !app_length in L. cbn in L. lia. }
    rewrite <- (map_length fold_lower) in L. cbn [map In] in Hm. repeat (destruct Hm as [Hz|Hm]; [rewrite <- Hz in L; cbn in L; lia|]). destruct Hm. }
  destruct r as [|y r]; [congruence|].
  assert (Hy : y <> 34 /\ y <> 39).
  { inversion Hk as [|? ? _ Hk2]; subst. inversion Hk2 as [|? ? Hy _]; subst. split; intros ->; apply Hy; vm_compute; auto 10. }
  cbn [app]. unfold trim_quote_and_punctuation.
  assert (T2 : forall b z, y <> b -> trim_start2 117 b (x :: y :: z) = x :: y :: z).
  { intros b z Hb. cbn [trim_start2]. replace (y =? b) with false by (symmetry; now apply N.eqb_neq). now rewrite andb_false_r. }
  rewrite T2 by tauto. rewrite T2 by tauto. unfold trim_both.
  assert (PX : is_punct x = false).
  { destruct (is_punct x) eqn:P; [|reflexivity]. apply is_punct_ok in P. exfalso. clear - Hx P. unfold letter, lower_letter, upper_letter, between in Hx.
    vm_compute in P. destruct Hx as [Hx|Hx]; intuition (subst; lia). }
  cbn [trim_start]. rewrite PX.
  destruct (trim_end_dec is_punct (x :: y :: r ++ c :: v)) as (e & E & He & Hl).
  set (t := trim_end is_punct (x :: y :: r ++ c :: v)) in *. clearbody t.
  change (x :: y :: r ++ c :: v) with ((x :: y :: r) ++ c :: v) in E.
  (* e does not reach c *)
  assert (Le : (length e <= length v)%nat).
  { destruct (Nat.le_gt_cases (length e) (length v)) as [L|L]; [exact L|]. exfalso.
    assert (In c e).
    { assert (R : rev ((x :: y :: r) ++ c :: v) = rev e ++ rev t) by (rewrite E; apply rev_app_distr).
      rewrite rev_app_distr in R. cbn [rev] in R. rewrite <- app_assoc in R. apply in_rev.
      assert (F : firstn (length e) (rev e ++ rev t) = rev e) by (rewrite <- (rev_length e), firstn_app, Nat.sub_diag, firstn_all; cbn; apply app_nil_r).
      rewrite <- F, <- R. rewrite firstn_app, rev_length. apply in_or_app. right. cbn [app].
      destruct (length e - length v)%nat eqn:Z; [lia|]. cbn. now left. }
    rewrite Forall_forall in He. specialize (He c H). destruct Hc as [-> | ->]; discriminate. }
  exists (firstn (length v - length e) v).
  assert (F : t = firstn (length ((x :: y :: r) ++ c :: v) - length e) ((x :: y :: r) ++ c :: v)).
  { rewrite E, app_length. replace (length t + length e - length e)%nat with (length t) by lia. rewrite firstn_app, Nat.sub_diag, firstn_all. cbn. now rewrite app_nil_r. }
  rewrite F. clear - Le. set (k := x :: y :: r). change (x :: y :: r ++ c :: firstn (length v - length e) v) with (k ++ c :: firstn (length v - length e) v).
  rewrite firstn_app, app_length. cbn [length]. rewrite firstn_all2 by lia. f_equal.
  replace (length k + S (length v) - length e - length k)%nat with (S (length v - length e)) by lia. reflexivity.
Qed.
Lemma key_value_texts k c ok ak : identifying_key k -> c = 61 \/ c = 58 -> do_process (S (length k)) k = Some (ok, ak) ->
  forall n v, (length v <= n)%nat -> forall o a, do_process (S (length (k ++ c :: v))) (k ++ c :: v) = Some (o, a) ->
  exists t m, In t ((ok ++ lit "%EQ %VALUE_ID") :: tokens) /\ o = t ++ concat (repeat (lit "%PID") m).
Proof.
  intros Hk Hc Eok. assert (NS : forall t, In t ((ok ++ lit "%EQ %VALUE_ID") :: tokens) -> exists t' m, In t' ((ok ++ lit "%EQ %VALUE_ID") :: tokens) /\ t = t' ++ concat (repeat (lit "%PID") m)).
  { intros t Ht. exists t, 0%nat. cbn [repeat concat]. rewrite app_nil_r. auto. }
  induction n as [n IH] using lt_wf_ind. intros v Hv o a E.
  destruct (kv_tq k c v Hk Hc) as (v' & TQ). pose proof (part_len _ _ (tq_part (k ++ c :: v))) as [PL _]. rewrite TQ in PL.
  rewrite !app_length in PL. cbn [length] in PL. cbn [TokModel.do_process] in E. rewrite TQ in E.
  destruct (parse_literal word_char (k ++ c :: v')) as [t|] eqn:P.
  { injection E as <- <-. apply parse_literal_ok, recognised_token in P. apply NS. right. cbn [In tokens] in P |- *. tauto. }
  destruct (is_error word_char (k ++ c :: v')) eqn:PE.
  { exfalso. apply (is_error_ok word_char) in PE. destruct (error_no_eq _ PE) as [Q1 Q2]. destruct Hc as [-> | ->]; [apply Q1|apply Q2]; apply in_or_app; right; now left. }
  destruct (utf8_len (k ++ c :: v') <=? 3); [injection E as <- <-; apply NS; right; cbn [In tokens]; tauto|].
  destruct (trim_pid (k ++ c :: v')) as [s|] eqn:TP.
  { apply trim_pid_dec in TP. destruct TP as (ds & Es & Hd).
    assert (exists v2, s = k ++ c :: v2 /\ (length v2 < length v')%nat) as (v2 & -> & L2).
    { (* the bracket lies in the value *)
      assert (NB : forall x, In x (k ++ [c]) -> x <> 91).
      { intros x Hx ->. rewrite in_app_iff in Hx. destruct Hx as [Hx|[Hx|[]]]; [|destruct Hc; congruence].
        destruct Hk as (_ & Hk & _). rewrite Forall_forall in Hk. apply (Hk 91 Hx). vm_compute. auto 10. }
      assert (L : (length (k ++ [c]) <= length s)%nat).
      { destruct (Nat.le_gt_cases (length (k ++ [c])) (length s)) as [L|L]; [exact L|]. exfalso.
        apply (NB 91); [|reflexivity]. replace (k ++ c :: v') with ((k ++ [c]) ++ v') in Es by now rewrite <- app_assoc.
        assert (F : firstn (length (k ++ [c])) ((k ++ [c]) ++ v') = k ++ [c]) by (rewrite firstn_app, Nat.sub_diag, firstn_all; cbn; apply app_nil_r).
        rewrite <- F, Es, firstn_app. apply in_or_app. right. destruct (length (k ++ [c]) - length s)%nat eqn:Z; [lia|]. cbn. now left. }
      assert (S : s = (k ++ [c]) ++ skipn (length (k ++ [c])) s).
      { rewrite <- (firstn_skipn (length (k ++ [c])) s) at 1. f_equal.
        assert (F : firstn (length (k ++ [c])) ((k ++ [c]) ++ v') = k ++ [c]) by (rewrite firstn_app, Nat.sub_diag, firstn_all; cbn; apply app_nil_r).
        replace (k ++ c :: v') with ((k ++ [c]) ++ v') in Es by now rewrite <- app_assoc. rewrite Es in F. rewrite firstn_app in F.
        replace (length (k ++ [c]) - length s)%nat with 0%nat in F by lia. cbn [firstn] in F. now rewrite app_nil_r in F. }
      set (u := skipn (length (k ++ [c])) s) in S. clearbody u. exists u. rewrite S in *.
      split; [now rewrite <- app_assoc|].
      pose proof (f_equal (@length N) Es) as EL. rewrite !app_length in EL. cbn [length] in EL. lia. }
    destruct (do_process (length (k ++ c :: v)) (k ++ c :: v2)) as [[o' a']|] eqn:E2; [|discriminate]. injection E as <- <-.
    rewrite (do_process_fuel word_char _ (S (length (k ++ c :: v2)))) in E2; [|rewrite !app_length; cbn [length]; lia|lia].
    destruct (IH (length v2) ltac:(lia) v2 (le_n _) o' a' E2) as (t & m & Ht & ->). exists t, (S m). split; [exact Ht|].
    rewrite <- app_assoc. f_equal. clear. induction m as [|m IHm]; [reflexivity|]. cbn [repeat concat] in IHm |- *. rewrite <- app_assoc. now rewrite IHm. }
  destruct (contains_odd_char word_char (k ++ c :: v')); [injection E as <- <-; apply NS; right; cbn [In tokens]; tauto|].
  assert (KV : is_key_value (k ++ c :: v') = Some (k, v')).
  { destruct Hk as ((x & r & -> & Hx) & Hk & _). unfold is_key_value.
    rewrite split_once_app.
    - assert (X : in_ranges r_alpha x || (x =? 95) = true); [|now rewrite X]. destruct Hx as [Hx| ->]; [|apply orb_true_r]. apply orb_true_iff. left.
      now apply (cls_alpha word_char x).
    - revert Hk. apply Forall_impl. intros y Hy. apply orb_false_iff. split; apply N.eqb_neq; intros ->; apply Hy; vm_compute; auto 10.
    - destruct Hc as [-> | ->]; reflexivity. }
  rewrite KV in E.
  rewrite (do_process_fuel word_char _ (S (length k))) in E; [|rewrite app_length; cbn [length]; lia|lia]. rewrite Eok in E.
  assert (KI : is_key_for_id word_char k = true) by (apply is_key_for_id_ok; apply Hk). rewrite KI in E. injection E as <- <-.
  apply NS. now left.
Qed.

(** ** C55 *)
Lemma identifier_text w s : Forall identifier_char w -> (forall t, ~ recognised word_char w t) -> ~ error_word w ->
  (4 <= length w <= 31)%nat -> collapsed w s -> word_text w (if (3 <? length s)%nat then s else []).
Proof.
  intros Hw Hr He Hl Hs. pose proof (proj1 (Forall_forall _ _) Hw) as Hi.
  assert (NI : forall c, In c w -> (48 <= c <= 57 \/ 65 <= c <= 90 \/ 97 <= c <= 122) \/ c = 95 \/ c = 46) by (intros c Hc; now apply identifier_range, Hi).
  assert (NP : forall p, (forall c, ((48 <= c <= 57 \/ 65 <= c <= 90 \/ 97 <= c <= 122) \/ c = 95 \/ c = 46) -> p c = false) -> split_once p w = None).
  { intros p Hp. apply no_split, Forall_forall. intros c Hc. now apply Hp, NI. }
  assert (NM : forall (l : list N), forallb (fun y => negb ((48 <=? y) && (y <=? 57) || (65 <=? y) && (y <=? 90) || (97 <=? y) && (y <=? 122) || (y =? 95) || (y =? 46))) l = true ->
     forall c, ((48 <= c <= 57 \/ 65 <= c <= 90 \/ 97 <= c <= 122) \/ c = 95 \/ c = 46) -> ~ In c l).
  { intros l Hf c Hc Hin. rewrite forallb_forall in Hf. specialize (Hf c Hin). apply negb_true_iff in Hf. rewrite !orb_false_iff, !andb_false_iff, !N.leb_gt, !N.eqb_neq in Hf. lia. }
  assert (MB : forall c l, ~ In c l -> memb c l = false).
  { intros c l H. unfold memb. destruct (existsb (N.eqb c) l) eqn:E; [|reflexivity]. apply existsb_exists in E. destruct E as (y & Hy & Ey). apply N.eqb_eq in Ey. subst. contradiction. }
  assert (EQ : forall y c, negb ((48 <=? y) && (y <=? 57) || (65 <=? y) && (y <=? 90) || (97 <=? y) && (y <=? 122) || (y =? 95) || (y =? 46)) = true ->
     ((48 <= c <= 57 \/ 65 <= c <= 90 \/ 97 <= c <= 122) \/ c = 95 \/ c = 46) -> (c =? y) = false).
  { intros y c Hy Hc. apply N.eqb_neq. intros ->. apply (NM [y]) with (c := y); [cbn [forallb]; now rewrite Hy|exact Hc|now left]. }
  assert (NE : forall y, negb ((48 <=? y) && (y <=? 57) || (65 <=? y) && (y <=? 90) || (97 <=? y) && (y <=? 122) || (y =? 95) || (y =? 46)) = true -> ~ In y w).
  { intros y Hy Hin. specialize (EQ y y Hy (NI y Hin)). now rewrite N.eqb_refl in EQ. }
  assert (TQ : tq w = w).
  { unfold trim_quote_and_punctuation. rewrite (trim_start2_keep 117 34), (trim_start2_keep 117 39).
    - apply trim_both_keep.
      + intros c r E. unfold is_punct. apply MB, NM; [reflexivity|]. apply NI. rewrite E. now left.
      + intros c r E. unfold is_punct. apply MB, NM; [reflexivity|]. apply NI. rewrite E. apply in_or_app. right. now left.
    - intros (r & E). apply (NE 39); [reflexivity|]. rewrite E. right. now left.
    - intros (r & E). apply (NE 34); [reflexivity|]. rewrite E. right. now left. }
  assert (UL : forall l, (forall c, In c l -> c < 128) -> utf8_len l = N.of_nat (length l)).
  { clear. induction l as [|c l IH]; intros H; [reflexivity|]. cbn [utf8_len length]. rewrite IH by (intros; apply H; now right).
    unfold utf8_len1. replace (c <? 128) with true by (symmetry; apply N.ltb_lt, H; now left). lia. }
  assert (UW : utf8_len w = N.of_nat (length w)) by (apply UL; intros c Hc; specialize (NI c Hc); lia).
  exists (if (3 <? length s)%nat then s else []), (3 <? length s)%nat.
  assert (X : do_process (S (length w)) w = Some (if (3 <? length s)%nat then s else [], (3 <? length s)%nat)).
  { cbn [TokModel.do_process]. rewrite TQ.
    destruct (parse_literal word_char w) as [t|] eqn:P; [apply parse_literal_ok in P; destruct (Hr t P)|].
    destruct (is_error word_char w) eqn:PE; [apply is_error_ok in PE; contradiction|].
    replace (utf8_len w <=? 3) with false by (symmetry; apply N.leb_gt; lia).
    destruct (trim_pid w) as [x|] eqn:TP.
    { exfalso. apply trim_pid_dec in TP. destruct TP as (ds & E & _). apply (NE 91); [reflexivity|]. rewrite E. apply in_or_app. right. now left. }
    destruct (contains_odd_char word_char w) eqn:PO.
    { exfalso. apply contains_odd_char_ok in PO. destruct PO as (c & Hc & Ho). revert Ho. apply NM; [reflexivity|now apply NI]. }
    assert (KV : is_key_value w = None).
    { unfold is_key_value. rewrite NP; [reflexivity|]. intros c Hc. apply orb_false_iff. split; now apply EQ. }
    rewrite KV, !NP; [|intros c Hc; rewrite N.eqb_sym; now apply EQ..].
    replace (32 <=? utf8_len w) with false by (symmetry; apply N.leb_gt; lia).
    assert (TW : is_two_words w = None). { unfold is_two_words. rewrite NP; [reflexivity|]. intros c Hc. apply MB, NM; [reflexivity|exact Hc]. }
    rewrite TW, (collapsed_ok w s Hs).
    assert (US : utf8_len s = N.of_nat (length s)).
    { apply UL. intros c Hc. rewrite <- (collapsed_ok w s Hs) in Hc. apply remove_numbers_in in Hc. destruct Hc as [Hc| ->]; [specialize (NI c Hc)|]; lia. }
    rewrite US. destruct (3 <? length s)%nat eqn:L.
    - apply Nat.ltb_lt in L. now replace (3 <? N.of_nat (length s)) with true by (symmetry; apply N.ltb_lt; lia).
    - apply Nat.ltb_ge in L. now replace (3 <? N.of_nat (length s)) with false by (symmetry; apply N.ltb_ge; lia). }
  split; [exact X|]. split; [now left|].
  destruct (do_process_tok word_char (S (length w)) w ltac:(lia)) as (o & ad & E & T). rewrite X in E. injection E as <- <-.
  assert (Hns : no_space w) by (intros c Hc ->; apply (NE 32); [reflexivity|exact Hc]).
  pose proof (spaces_clean _ _ (tok_spaces word_char w _ _ T Hns)) as SC. destruct (3 <? length s)%nat; [now destruct SC|apply clean_nil].
Qed.
Lemma short_text w : utf8_len w <= 3 -> surrounded w w -> (forall t, ~ recognised word_char w t) -> ~ error_word w -> word_text w [].
Proof.
  intros Hl Hs Hr He. exists [], false. split; [|split; [now left|apply clean_nil]]. cbn [TokModel.do_process]. rewrite (tq_surrounded w w Hs).
  destruct (parse_literal word_char w) as [t|] eqn:P; [apply parse_literal_ok in P; destruct (Hr t P)|].
  destruct (is_error word_char w) eqn:PE; [apply is_error_ok in PE; contradiction|]. apply N.leb_le in Hl. now rewrite Hl.
Qed.
End Word.
