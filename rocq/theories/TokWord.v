(** The tokenizer on one word: the recursion always ends, and what holds of the output
    of every branch. *)
From Coq Require Import String List NArith Bool Lia.
From Verif Require Import Common CommonFacts Regex RegexFacts TokModel TokSpec TokRe TokWords.
Import ListNotations.
Open Scope N_scope.

(** ** Pieces of words *)
Definition part (x w : list N) : Prop := infix x w.
Lemma part_refl w : part w w. Proof. exists [], []. now rewrite app_nil_r. Qed.
Lemma part_trans x y z : part x y -> part y z -> part x z.
Proof. intros (a & b & ->) (c & d & ->). exists (c ++ a), (b ++ d). now rewrite !app_assoc. Qed.
Lemma part_in x w c : part x w -> In c x -> In c w.
Proof. intros (a & b & ->) H. apply in_or_app. right. apply in_or_app. now left. Qed.
Lemma utf8_len_app a b : utf8_len (a ++ b) = utf8_len a + utf8_len b.
Proof. induction a as [|c a IH]; [reflexivity|]. cbn [app utf8_len]. rewrite IH. lia. Qed.
Lemma utf8_len1_pos c : 1 <= utf8_len1 c.
Proof. unfold utf8_len1. destruct (c <? 128), (c <? 2048), (c <? 65536); lia. Qed.
Lemma utf8_len_length w : N.of_nat (length w) <= utf8_len w.
Proof. induction w as [|c w IH]; cbn [length utf8_len]; [lia|]. pose proof (utf8_len1_pos c). lia. Qed.
Lemma part_len x w : part x w -> (length x <= length w)%nat /\ utf8_len x <= utf8_len w.
Proof. intros (a & b & ->). rewrite !app_length, !utf8_len_app. lia. Qed.
Lemma trim_start2_part a b w : part (trim_start2 a b w) w.
Proof.
  remember (length w) as n eqn:En. assert (Hn : (length w <= n)%nat) by lia. clear En. revert w Hn.
  induction n as [|n IH]; intros w Hn.
  - destruct w; [apply part_refl|cbn in Hn; lia].
  - destruct w as [|x [|y w]]; try apply part_refl. cbn [trim_start2]. destruct ((x =? a) && (y =? b)); [|apply part_refl].
    eapply part_trans; [apply IH; cbn in Hn; lia|]. exists [x; y], []. now rewrite app_nil_r.
Qed.
Lemma trim_both_part p w : part (trim_both p w) w.
Proof. destruct (trim_both_dec p w) as (a & b & E & _). exists a, b. exact E. Qed.
Lemma tq_part w : part (trim_quote_and_punctuation w) w.
Proof.
  unfold trim_quote_and_punctuation. eapply part_trans; [apply trim_both_part|]. eapply part_trans; apply trim_start2_part.
Qed.
Lemma split_once_dec p w a b : split_once p w = Some (a, b) ->
  exists c, w = a ++ c :: b /\ p c = true /\ Forall (fun x => p x = false) a.
Proof.
  revert a. induction w as [|c w IH]; intros a; cbn; [discriminate|]. destruct (p c) eqn:P.
  - intros [= <- <-]. exists c. auto.
  - destruct (split_once p w) as [[a' b']|]; [|discriminate]. intros [= <- <-]. destruct (IH a' eq_refl) as (d & -> & Hd & Hf).
    exists d. split; [reflexivity|]. split; [exact Hd|]. now constructor.
Qed.
Lemma split_once_app p a c b : Forall (fun x => p x = false) a -> p c = true -> split_once p (a ++ c :: b) = Some (a, b).
Proof. induction 1 as [|x a Hx _ IH]; intros Hc; cbn; [now rewrite Hc|]. now rewrite Hx, IH. Qed.
Lemma split_once_none p w : split_once p w = None -> Forall (fun x => p x = false) w.
Proof.
  induction w as [|c w IH]; cbn; [constructor|]. destruct (p c) eqn:P; [discriminate|]. destruct (split_once p w) as [[]|]; [discriminate|].
  intros _. constructor; auto.
Qed.
Lemma trim_pid_dec w s : trim_pid w = Some s <-> exists ds, w = s ++ [91] ++ ds /\ Forall (fun c => is_digit c = true) ds.
Proof.
  unfold trim_pid. split.
  - destruct (trim_end_dec is_digit w) as (ds & E & Hd & _). destruct (rev (trim_end is_digit w)) as [|x r] eqn:R; [discriminate|].
    intros H. assert (x = 91 /\ s = rev r) as [-> ->].
    { destruct (N.eq_dec x 91) as [->|Hx]; [split; congruence|]. exfalso. clear - H Hx.
      destruct x as [|q]; [discriminate|]. do 7 (destruct q; try discriminate; try congruence). }
    exists ds. split; [|exact Hd]. rewrite E at 1. rewrite <- (rev_involutive (trim_end is_digit w)), R. cbn. now rewrite <- app_assoc.
  - intros (ds & -> & Hd). rewrite app_assoc, trim_end_app by exact Hd. rewrite trim_end_keep.
    + rewrite rev_app_distr. cbn. now rewrite rev_involutive.
    + intros c r E. apply app_inj_tail in E. destruct E as [_ <-]. reflexivity.
Qed.
Lemma two_words_dec w a b : is_two_words w = Some (a, b) -> exists c r, w = a ++ c :: b ++ r.
Proof.
  unfold is_two_words. match goal with |- context [split_once ?p w] => destruct (split_once p w) as [[k v]|] eqn:S end; [|discriminate].
  intros [= <- <-]. apply split_once_dec in S. destruct S as (c & -> & _).
  destruct (trim_end_dec (fun c => (c =? 93) || (c =? 41)) v) as (r & Ev & _). exists c, r. now rewrite <- Ev.
Qed.
Lemma key_value_dec w k v : is_key_value w = Some (k, v) -> exists c, w = k ++ c :: v.
Proof.
  unfold is_key_value. match goal with |- context [split_once ?p w] => destruct (split_once p w) as [[k' v']|] eqn:S end; [|discriminate].
  apply split_once_dec in S. destruct S as (c & E & _). destruct k' as [|x k']; [discriminate|]. destruct (_ || _); [|discriminate]. intros [= <- <-]. eauto.
Qed.

(** ** The branches, as a relation *)
Section Word.
Variable word_char : N -> bool.
Notation tq := trim_quote_and_punctuation.
Notation do_process := (do_process word_char).

Definition no_odd (w : list N) : Prop := forall c, In c w -> ~ one_of "<>{}%$,*" c.
Inductive tok : list N -> list N -> bool -> Prop :=
| TLit w t : recognised word_char (tq w) t -> tok w t true
| TErr w : error_word (tq w) -> tok w (push_error (tq w)) true
| TNone w : tok w [] false
| TPid w s ds o a : tq w = s ++ [91] ++ ds -> tok s o a -> tok w (o ++ lit "%PID") true
| TConst w t : In t [lit "%ODD"; lit "%DASH"; lit "%BIG"] -> 3 < utf8_len (tq w) -> tok w t true
| TKeyId w k c v o a : tq w = k ++ c :: v -> no_odd (tq w) -> tok k o a -> tok w (o ++ lit "%EQ %VALUE_ID") true
| TKey w k c v o a ov av : tq w = k ++ c :: v -> no_odd (tq w) -> tok k o a -> tok v ov av -> tok w (o ++ lit "%EQ " ++ ov) av
| TBoth w w1 c w2 r sep o1 a1 o2 a2 : tq w = w1 ++ c :: w2 ++ r -> no_odd (tq w) -> In sep [lit "/ "; lit "- "; lit "| "; lit " "] ->
    tok w1 o1 a1 -> tok w2 o2 a2 -> tok w (o1 ++ (if a1 then sep else []) ++ o2) a2
| TWord w : no_odd (tq w) -> 3 < utf8_len (remove_numbers (tq w)) -> tok w (remove_numbers (tq w)) true.

Lemma odd_false w : contains_odd_char word_char w = false -> no_odd w.
Proof.
  intros H c Hc Ho. assert (contains_odd_char word_char w = true) by (apply contains_odd_char_ok; eauto). congruence.
Qed.

Theorem do_process_tok : forall fuel w, (length w < fuel)%nat -> exists o a, do_process fuel w = Some (o, a) /\ tok w o a.
Proof.
  induction fuel as [|fuel IH]; intros w Hl; [lia|]. cbn [TokModel.do_process].
  destruct (part_len _ _ (tq_part w)) as [Hq _].
  destruct (parse_literal word_char (tq w)) as [t|] eqn:PL.
  { eexists _, _. split; [reflexivity|]. apply TLit. now apply parse_literal_ok. }
  destruct (is_error word_char (tq w)) eqn:PE.
  { eexists _, _. split; [reflexivity|]. apply TErr. now apply (is_error_ok word_char). }
  destruct (utf8_len (tq w) <=? 3) eqn:LEN; [eexists _, _; split; [reflexivity|]; apply TNone|]. apply N.leb_gt in LEN.
  destruct (trim_pid (tq w)) as [s|] eqn:TP.
  { apply trim_pid_dec in TP. destruct TP as (ds & E & _). pose proof (f_equal (@length N) E) as EL. rewrite !app_length in EL. cbn in EL.
    destruct (IH s ltac:(lia)) as (o & a & -> & Ht). eexists _, _. split; [reflexivity|]. eapply TPid; eauto. }
  destruct (contains_odd_char word_char (tq w)) eqn:PO.
  { eexists _, _. split; [reflexivity|]. apply TConst; [now left|exact LEN]. }
  apply odd_false in PO.
  destruct (is_key_value (tq w)) as [[k v]|] eqn:PK.
  { destruct (key_value_dec _ _ _ PK) as (c & E). pose proof (f_equal (@length N) E) as EL. rewrite !app_length in EL. cbn in EL.
    destruct (IH k ltac:(lia)) as (ok & ak & -> & Hk). destruct (is_key_for_id word_char k).
    - eexists _, _. split; [reflexivity|]. eapply TKeyId; eauto.
    - destruct (IH v ltac:(lia)) as (ov & av & -> & Hv). eexists _, _. split; [reflexivity|]. eapply TKey; eauto. }
  assert (BOTH : forall w1 c w2 r sep, tq w = w1 ++ c :: w2 ++ r -> In sep [lit "/ "; lit "- "; lit "| "; lit " "] ->
    exists o a, match do_process fuel w1, do_process fuel w2 with
      | Some (o1, added1), Some (o2, added2) => Some (o1 ++ (if added1 then sep else []) ++ o2, added2)
      | _, _ => None end = Some (o, a) /\ tok w o a).
  { intros w1 c w2 r sep E Hsep. pose proof (f_equal (@length N) E) as EL. rewrite app_length in EL. cbn [length] in EL. rewrite app_length in EL.
    destruct (IH w1 ltac:(lia)) as (o1 & a1 & -> & H1). destruct (IH w2 ltac:(lia)) as (o2 & a2 & -> & H2).
    eexists _, _. split; [reflexivity|]. eapply TBoth; eauto. }
  destruct (split_once (N.eqb 47) (tq w)) as [[w1 w2]|] eqn:S1.
  { apply split_once_dec in S1. destruct S1 as (c & E & _). apply (BOTH w1 c w2 []); [now rewrite app_nil_r|cbn [In]; tauto]. }
  destruct (split_once (N.eqb 45) (tq w)) as [[w1 w2]|] eqn:S2.
  { destruct (has_many_dash word_char w2); [eexists _, _; split; [reflexivity|]; apply TConst; [now right; left|exact LEN]|].
    apply split_once_dec in S2. destruct S2 as (c & E & _). apply (BOTH w1 c w2 []); [now rewrite app_nil_r|cbn [In]; tauto]. }
  destruct (split_once (N.eqb 124) (tq w)) as [[w1 w2]|] eqn:S3.
  { apply split_once_dec in S3. destruct S3 as (c & E & _). apply (BOTH w1 c w2 []); [now rewrite app_nil_r|cbn [In]; tauto]. }
  destruct (32 <=? utf8_len (tq w)); [eexists _, _; split; [reflexivity|]; apply TConst; [now right; right; left|exact LEN]|].
  destruct (is_two_words (tq w)) as [[w1 w2]|] eqn:S4.
  { apply two_words_dec in S4. destruct S4 as (c & r & E). apply (BOTH w1 c w2 r); [exact E|cbn [In]; tauto]. }
  destruct (3 <? utf8_len (remove_numbers (tq w))) eqn:L3.
  - eexists _, _. split; [reflexivity|]. apply TWord; [exact PO|now apply N.ltb_lt].
  - eexists _, _. split; [reflexivity|]. apply TNone.
Qed.
(** More fuel changes nothing. *)
Lemma do_process_fuel : forall fuel fuel' w, (length w < fuel)%nat -> (length w < fuel')%nat -> do_process fuel w = do_process fuel' w.
Proof.
  induction fuel as [|fuel IH]; intros fuel' w Hl Hl'; [lia|]. destruct fuel' as [|fuel']; [lia|]. cbn [TokModel.do_process].
  destruct (part_len _ _ (tq_part w)) as [Hq _].
  destruct (parse_literal word_char (tq w)); [reflexivity|].
  destruct (is_error word_char (tq w)); [reflexivity|].
  destruct (utf8_len (tq w) <=? 3); [reflexivity|].
  destruct (trim_pid (tq w)) as [s|] eqn:TP.
  { apply trim_pid_dec in TP. destruct TP as (ds & E & _). pose proof (f_equal (@length N) E) as EL. rewrite !app_length in EL. cbn in EL.
    rewrite (IH fuel' s) by lia. reflexivity. }
  destruct (contains_odd_char word_char (tq w)); [reflexivity|].
  destruct (is_key_value (tq w)) as [[k v]|] eqn:PK.
  { destruct (key_value_dec _ _ _ PK) as (c & E).
    pose proof (f_equal (@length N) E) as EL. rewrite !app_length in EL. cbn in EL. rewrite (IH fuel' k), (IH fuel' v) by lia. reflexivity. }
  assert (BOTH : forall w1 c w2 r, tq w = w1 ++ c :: w2 ++ r -> do_process fuel w1 = do_process fuel' w1 /\ do_process fuel w2 = do_process fuel' w2).
  { intros w1 c w2 r E. pose proof (f_equal (@length N) E) as EL. rewrite app_length in EL. cbn [length] in EL. rewrite app_length in EL.
    split; apply IH; lia. }
  destruct (split_once (N.eqb 47) (tq w)) as [[w1 w2]|] eqn:S1.
  { apply split_once_dec in S1. destruct S1 as (c & E & _). destruct (BOTH w1 c w2 []) as [-> ->]; [now rewrite app_nil_r|reflexivity]. }
  destruct (split_once (N.eqb 45) (tq w)) as [[w1 w2]|] eqn:S2.
  { destruct (has_many_dash word_char w2); [reflexivity|].
    apply split_once_dec in S2. destruct S2 as (c & E & _). destruct (BOTH w1 c w2 []) as [-> ->]; [now rewrite app_nil_r|reflexivity]. }
  destruct (split_once (N.eqb 124) (tq w)) as [[w1 w2]|] eqn:S3.
  { apply split_once_dec in S3. destruct S3 as (c & E & _). destruct (BOTH w1 c w2 []) as [-> ->]; [now rewrite app_nil_r|reflexivity]. }
  destruct (32 <=? utf8_len (tq w)); [reflexivity|].
  destruct (is_two_words (tq w)) as [[w1 w2]|] eqn:S4; [|reflexivity].
  apply two_words_dec in S4. destruct S4 as (c & r & E). destruct (BOTH w1 c w2 r E) as [-> ->]. reflexivity.
Qed.

(** ** Recognised words *)
Lemma recognised_token w t : recognised word_char w t ->
  In t [lit "%DATE"; lit "%HASH"; lit "%ID"; lit "%COOKIE"; lit "%UID"; lit "%URL"; lit "%PATH"; lit "%REF"; lit "%BASE64"].
Proof.
  intros H. apply parse_literal_ok in H. unfold parse_literal in H.
  repeat match type of H with (if ?b then _ else _) = _ => destruct b; [injection H as <-; cbn [In]; tauto|] end. discriminate.
Qed.
Lemma recognised_nonempty w t : recognised word_char w t -> w <> [].
Proof.
  intros H ->. apply parse_literal_ok in H. vm_compute in H. discriminate.
Qed.
Lemma error_len w : error_word w -> 3 <= utf8_len w /\ (length w <= 9)%nat.
Proof.
  intros H. unfold error_word in H. pose proof (utf8_len_length w) as L. rewrite <- (map_length ascii_lower w) in L |- *.
  cbn [map In] in H.
  repeat (destruct H as [H|H]; [rewrite <- H in L |- *; vm_compute (length _) in L |- *; lia|]). destruct H.
Qed.

(** ** Length *)
Lemma remove_numbers_len st w : utf8_len (remove_numbers_go st w) <= utf8_len w.
Proof.
  revert st. induction w as [|c w IH]; intros st; [cbn; lia|]. cbn [remove_numbers_go utf8_len]. pose proof (utf8_len1_pos c) as P.
  destruct (is_digit c).
  - destruct st; [|pose proof (IH (S st)); lia]. cbn [utf8_len]. replace (utf8_len1 78) with 1 by reflexivity. pose proof (IH 1%nat). lia.
  - destruct st as [|[|st]]; [cbn [utf8_len]; pose proof (IH 0%nat); lia| |cbn [utf8_len]; pose proof (IH 0%nat); lia].
    destruct (_ && _); [pose proof (IH 2%nat); lia|]. cbn [utf8_len]. pose proof (IH 0%nat). lia.
Qed.
Lemma tok_len w o a : tok w o a -> utf8_len o <= 13 * utf8_len w.
Proof.
  assert (TQ : forall w, utf8_len (tq w) <= utf8_len w) by (intros; apply part_len, tq_part).
  induction 1 as [w t H|w H|w|w s ds o a E _ IH|w t H L|w k c v o a E _ _ IH|w k c v o a ov av E _ _ IH _ IH2|w w1 c w2 r sep o1 a1 o2 a2 E _ Hs _ IH1 _ IH2|w _ H].
  - assert (1 <= utf8_len (tq w)).
    { pose proof (recognised_nonempty _ _ H) as Hne. destruct (tq w) as [|c r]; [congruence|]. cbn [utf8_len]. pose proof (utf8_len1_pos c). lia. }
    pose proof (TQ w). apply recognised_token in H. cbn [In] in H.
    repeat (destruct H as [<-|H]; [match goal with |- utf8_len ?x <= _ => let v := eval vm_compute in (utf8_len x) in change (utf8_len x) with v end; lia|]). destruct H.
  - pose proof (TQ w). destruct (error_len _ H) as [H3 _]. unfold push_error. rewrite !utf8_len_app.
    replace (utf8_len (lit " ")) with 1 by reflexivity. replace (utf8_len (lit "%A ")) with 3 by reflexivity.
    replace (utf8_len (lit "%B ")) with 3 by reflexivity. replace (utf8_len (lit "%C ")) with 3 by reflexivity. replace (utf8_len (lit "%D")) with 2 by reflexivity. lia.
  - cbn. lia.
  - pose proof (TQ w). rewrite E, !utf8_len_app in H. rewrite utf8_len_app. replace (utf8_len (lit "%PID")) with 4 by reflexivity.
    replace (utf8_len [91]) with 1 in H by reflexivity. lia.
  - pose proof (TQ w). cbn [In] in H.
    repeat (destruct H as [<-|H]; [match goal with |- utf8_len ?x <= _ => let v := eval vm_compute in (utf8_len x) in change (utf8_len x) with v end; lia|]). destruct H.
  - pose proof (TQ w). rewrite E, utf8_len_app in H. cbn [utf8_len] in H. pose proof (utf8_len1_pos c). rewrite utf8_len_app.
    replace (utf8_len (lit "%EQ %VALUE_ID")) with 13 by reflexivity. lia.
  - pose proof (TQ w). rewrite E, utf8_len_app in H. cbn [utf8_len] in H. pose proof (utf8_len1_pos c). rewrite !utf8_len_app.
    replace (utf8_len (lit "%EQ ")) with 4 by reflexivity. lia.
  - pose proof (TQ w). rewrite E, utf8_len_app in H. cbn [utf8_len] in H. rewrite utf8_len_app in H. pose proof (utf8_len1_pos c). rewrite !utf8_len_app.
    assert (utf8_len (if a1 then sep else []) <= 2).
    { destruct a1; [|cbn; lia]. cbn [In] in Hs. repeat (destruct Hs as [<-|Hs]; [vm_compute; discriminate|]). destruct Hs. }
    lia.
  - pose proof (TQ w). unfold remove_numbers. pose proof (remove_numbers_len 0 (tq w)). lia.
Qed.

(** ** Digits *)
Lemma digits_app a b : digits_of (a ++ b) = digits_of a ++ digits_of b.
Proof. apply filter_app. Qed.
Lemma remove_numbers_digits st w : digits_of (remove_numbers_go st w) = [].
Proof.
  revert st. induction w as [|c w IH]; intros st; [reflexivity|]. cbn [remove_numbers_go]. destruct (is_digit c) eqn:D.
  - destruct st; [|apply IH]. unfold digits_of. cbn [filter]. replace ((48 <=? 78) && (78 <=? 57)) with false by reflexivity. apply IH.
  - assert (K : forall n, digits_of (c :: remove_numbers_go n w) = []).
    { intros n. unfold digits_of. cbn [filter]. unfold is_digit in D. rewrite D. apply IH. }
    destruct st as [|[|st]]; [apply K| |apply K]. destruct (_ && _); [apply IH|apply K].
Qed.
Lemma error_digits w : error_word w -> digits_of w = [].
Proof.
  intros H. assert (digits_of (map ascii_lower w) = []).
  { unfold error_word in H. cbn [map In] in H. repeat (destruct H as [H|H]; [rewrite <- H; reflexivity|]). destruct H. }
  clear H. induction w as [|c w IH]; [reflexivity|]. unfold digits_of in *. cbn [map filter] in *.
  unfold ascii_lower at 1 2 3 in H0. destruct ((65 <=? c) && (c <=? 90)) eqn:U.
  - apply andb_prop in U. destruct U as [U1 U2]. apply N.leb_le in U1, U2.
    replace ((48 <=? c) && (c <=? 57)) with false by (symmetry; apply andb_false_iff; right; apply N.leb_gt; lia).
    apply IH. destruct ((48 <=? c + 32) && (c + 32 <=? 57)); [discriminate|exact H0].
  - destruct ((48 <=? c) && (c <=? 57)); [discriminate|]. now apply IH.
Qed.
Definition digits64 (o : list N) : Prop := exists n, digits_of o = concat (repeat (lit "64") n).
Lemma digits64_app a b : digits64 a -> digits64 b -> digits64 (a ++ b).
Proof. intros (n & Hn) (m & Hm). exists (n + m)%nat. now rewrite digits_app, Hn, Hm, repeat_app, concat_app. Qed.
Lemma digits64_none a : digits_of a = [] -> digits64 a. Proof. intros H. exists 0%nat. exact H. Qed.
Lemma tok_digits w o a : tok w o a -> digits64 o.
Proof.
  induction 1 as [w t H|w H|w|w s ds o a E _ IH|w t H L|w k c v o a E _ _ IH|w k c v o a ov av E _ _ IH _ IH2|w w1 c w2 r sep o1 a1 o2 a2 E _ Hs _ IH1 _ IH2|w _ H].
  - apply recognised_token in H. cbn [In] in H.
    repeat (destruct H as [<-|H]; [first [apply digits64_none; reflexivity|exists 1%nat; reflexivity]|]). destruct H.
  - apply digits64_none. unfold push_error. rewrite !digits_app, (error_digits _ H). reflexivity.
  - now apply digits64_none.
  - apply digits64_app; [exact IH|now apply digits64_none].
  - cbn [In] in H. repeat (destruct H as [<-|H]; [now apply digits64_none|]). destruct H.
  - apply digits64_app; [exact IH|now apply digits64_none].
  - apply digits64_app; [exact IH|]. apply digits64_app; [now apply digits64_none|exact IH2].
  - apply digits64_app; [exact IH1|]. apply digits64_app; [|exact IH2]. apply digits64_none. destruct a1; [|reflexivity].
    cbn [In] in Hs. repeat (destruct Hs as [<-|Hs]; [reflexivity|]). destruct Hs.
  - apply digits64_none, remove_numbers_digits.
Qed.

(** ** Spaces: reading a text, whether the last character was a space (or there was none);
    a space after a space is an error. *)
Fixpoint spaces (sp : bool) (o : list N) : option bool :=
  match o with
  | [] => Some sp
  | c :: r => if c =? 32 then (if sp then None else spaces true r) else spaces false r
  end.
Lemma spaces_app a : forall b sp, spaces sp (a ++ b) = match spaces sp a with Some s => spaces s b | None => None end.
Proof. induction a as [|c a IH]; intros b sp; [reflexivity|]. cbn [app spaces]. destruct (c =? 32); [destruct sp; [reflexivity|]|]; apply IH. Qed.
Definition no_space (w : list N) : Prop := forall c, In c w -> c <> 32.
Lemma spaces_none w sp : no_space w -> w <> [] -> spaces sp w = Some false.
Proof.
  revert sp. induction w as [|c w IH]; intros sp H Hne; [congruence|]. cbn [spaces].
  assert (E : c =? 32 = false) by (apply N.eqb_neq, H; now left). rewrite E.
  destruct w as [|d w]; [reflexivity|]. apply IH; [|discriminate]. intros x Hx. apply H. now right.
Qed.
Lemma remove_numbers_in st w c : In c (remove_numbers_go st w) -> In c w \/ c = 78.
Proof.
  revert st. induction w as [|x w IH]; intros st; [intros []|]. cbn [remove_numbers_go]. destruct (is_digit x).
  - destruct st; [intros [<-|H]; [now right|]|intros H]; apply IH in H; destruct H; auto using in_cons.
  - assert (K : forall n, In c (x :: remove_numbers_go n w) -> In c (x :: w) \/ c = 78).
    { intros n [<-|H]; [left; now left|]. apply IH in H. destruct H; auto using in_cons. }
    destruct st as [|[|st]]; [apply K| |apply K]. destruct (_ && _); [|apply K]. intros H. apply IH in H. destruct H; auto using in_cons.
Qed.
Lemma no_space_part x w : part x w -> no_space w -> no_space x.
Proof. intros H Hw c Hc. apply Hw. now apply (part_in x). Qed.
Lemma tok_spaces w o a : tok w o a -> no_space w -> spaces true o = Some (negb a).
Proof.
  assert (TQ : forall w, no_space w -> no_space (tq w)) by (intros x; apply no_space_part, tq_part).
  induction 1 as [w t H|w H|w|w s ds o a E _ IH|w t H L|w k c v o a E _ _ IH|w k c v o a ov av E _ _ IH _ IH2|w w1 c w2 r sep o1 a1 o2 a2 E _ Hs _ IH1 _ IH2|w _ H]; intros Hw.
  - apply recognised_token in H. cbn [In] in H. repeat (destruct H as [<-|H]; [reflexivity|]). destruct H.
  - apply TQ in Hw. assert (tq w <> []) by (intros Z; rewrite Z in H; destruct (error_len _ H) as [X _]; cbn in X; lia).
    unfold push_error. assert (SW : forall sp r, spaces sp (tq w ++ r) = spaces false r) by (intros; now rewrite spaces_app, spaces_none).
    revert SW. generalize (tq w). intros x SW. repeat (rewrite SW; cbn). reflexivity.
  - reflexivity.
  - assert (no_space s) as Hs by (apply (no_space_part s w); [|exact Hw]; eapply part_trans; [|apply tq_part]; rewrite E; exists [], ([91] ++ ds); reflexivity).
    rewrite spaces_app, (IH Hs). destruct a; reflexivity.
  - cbn [In] in H. repeat (destruct H as [<-|H]; [reflexivity|]). destruct H.
  - assert (no_space k) as Hs by (apply (no_space_part k w); [|exact Hw]; eapply part_trans; [|apply tq_part]; rewrite E; exists [], (c :: v); reflexivity).
    rewrite spaces_app, (IH Hs). destruct a; reflexivity.
  - assert (no_space k) as Hs by (apply (no_space_part k w); [|exact Hw]; eapply part_trans; [|apply tq_part]; rewrite E; exists [], (c :: v); reflexivity).
    assert (no_space v) as Hv.
    { apply (no_space_part v w); [|exact Hw]. eapply part_trans; [|apply tq_part]. rewrite E. exists (k ++ [c]), []. now rewrite app_nil_r, <- app_assoc. }
    rewrite !spaces_app, (IH Hs). replace (spaces (negb a) (lit "%EQ ")) with (Some true) by (destruct a; reflexivity). now apply IH2.
  - assert (no_space w1) as H1 by (apply (no_space_part w1 w); [|exact Hw]; eapply part_trans; [|apply tq_part]; rewrite E; exists [], (c :: w2 ++ r); reflexivity).
    assert (no_space w2) as H2.
    { apply (no_space_part w2 w); [|exact Hw]. eapply part_trans; [|apply tq_part]. rewrite E. exists (w1 ++ [c]), r. now rewrite <- app_assoc. }
    rewrite spaces_app, (IH1 H1), spaces_app. destruct a1; cbn [negb].
    + replace (spaces false sep) with (Some true); [now apply IH2|]. cbn [In] in Hs. repeat (destruct Hs as [<-|Hs]; [reflexivity|]). destruct Hs.
    + cbn [spaces]. now apply IH2.
  - apply spaces_none.
    + intros x Hx. apply remove_numbers_in in Hx. destruct Hx as [Hx| ->]; [now apply (TQ w Hw)|discriminate].
    + intros Z. rewrite Z in H. cbn in H. lia.
Qed.

(** ** A percent sign is never followed by G *)
Fixpoint pct (p : bool) (o : list N) : option bool :=
  match o with
  | [] => Some p
  | c :: r => if p && (c =? 71) then None else pct (c =? 37) r
  end.
Lemma pct_app a : forall b p, pct p (a ++ b) = match pct p a with Some s => pct s b | None => None end.
Proof. induction a as [|c a IH]; intros b p; [reflexivity|]. cbn [app pct]. destruct (p && (c =? 71)); [reflexivity|apply IH]. Qed.
Lemma pct_none w : ~ In 37 w -> pct false w = Some false.
Proof.
  induction w as [|c w IH]; intros H; [reflexivity|]. cbn [pct andb]. destruct (c =? 37) eqn:E; [apply N.eqb_eq in E; subst; destruct H; now left|].
  apply IH. intros Hi. apply H. now right.
Qed.
Lemma error_no_pct w : error_word w -> ~ In 37 w.
Proof.
  intros H Hi. assert (Hj : In 37 (map ascii_lower w)) by (apply in_map_iff; exists 37; split; [reflexivity|exact Hi]).
  unfold error_word in H. cbn [map In] in H. repeat (destruct H as [H|H]; [rewrite <- H in Hj; vm_compute in Hj; intuition discriminate|]). destruct H.
Qed.
Lemma tok_pct w o a : tok w o a -> pct false o = Some false.
Proof.
  induction 1 as [w t H|w H|w|w s ds o a E _ IH|w t H L|w k c v o a E _ _ IH|w k c v o a ov av E _ _ IH _ IH2|w w1 c w2 r sep o1 a1 o2 a2 E _ Hs _ IH1 _ IH2|w O H].
  - apply recognised_token in H. cbn [In] in H. repeat (destruct H as [<-|H]; [reflexivity|]). destruct H.
  - apply error_no_pct in H. unfold push_error. assert (SW : forall r, pct false (tq w ++ r) = pct false r) by (intros; now rewrite pct_app, pct_none).
    revert SW. generalize (tq w). intros x SW. repeat (rewrite SW; cbn). reflexivity.
  - reflexivity.
  - now rewrite pct_app, IH.
  - cbn [In] in H. repeat (destruct H as [<-|H]; [reflexivity|]). destruct H.
  - now rewrite pct_app, IH.
  - now rewrite pct_app, IH.
  - rewrite pct_app, IH1, pct_app. replace (pct false (if a1 then sep else [])) with (Some false); [exact IH2|]. destruct a1; [|reflexivity].
    cbn [In] in Hs. repeat (destruct Hs as [<-|Hs]; [reflexivity|]). destruct Hs.
  - apply pct_none. intros Hi. apply remove_numbers_in in Hi. destruct Hi as [Hi|Hi]; [|discriminate]. apply (O 37 Hi). now vm_compute; auto 10.
Qed.
End Word.
