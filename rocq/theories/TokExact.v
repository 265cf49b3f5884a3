(** The recursion on words does exactly what the grammar of TokExactSpec says. *)
From Coq Require Import String List Arith NArith Bool Lia.
From Verif Require Import Common CommonFacts Regex RegexFacts TokModel TokSpec TokRe TokNoise TokWords TokWord TokLine TokExactSpec.
Import ListNotations.
Open Scope N_scope.

(** ** Cutting and trimming *)
Section Sets.
Variable P : N -> Prop.
Variable p : N -> bool.
Hypothesis PP : forall c, p c = true <-> P c.
Lemma not_in c : ~ P c <-> p c = false.
Proof. rewrite <- PP. destruct (p c); split; congruence. Qed.
Lemma never_ok w : split_once p w = None <-> never P w.
Proof.
  split.
  - intros H. apply split_once_none in H. revert H. apply Forall_impl. intros c. apply not_in.
  - induction 1 as [|c w H _ IH]; [reflexivity|]. cbn [split_once]. apply not_in in H. now rewrite H, IH.
Qed.
Lemma cut_ok w a b : split_once p w = Some (a, b) <-> cut P w a b.
Proof.
  split.
  - intros H. apply split_once_dec in H. destruct H as (c & -> & Hc & Ha). exists c. split; [reflexivity|]. split; [now apply PP|].
    revert Ha. apply Forall_impl. intros x. apply not_in.
  - intros (c & -> & Hc & Ha). apply split_once_app; [|now apply PP]. revert Ha. apply Forall_impl. intros x. apply not_in.
Qed.
Lemma peeled_end_ok t w : trim_end p w = t <-> peeled_end P t w.
Proof.
  split.
  - intros <-. destruct (trim_end_dec p w) as (b & E & Hb & H). exists b. split; [exact E|]. split.
    + revert Hb. apply Forall_impl. intros c. apply PP.
    + intros c r Ec. apply not_in. eapply H; eauto.
  - intros (b & -> & Hb & H). rewrite trim_end_app; [|revert Hb; apply Forall_impl; intros c; apply PP].
    apply trim_end_keep. intros c r E. apply not_in. eapply H; eauto.
Qed.
Lemma peeled_ok t w : trim_both p w = t <-> peeled P t w.
Proof.
  assert (F : forall l, Forall (fun c => p c = true) l <-> Forall P l) by (intros l; split; apply Forall_impl; intros c; apply PP).
  split.
  - intros <-. destruct (trim_both_dec p w) as (a & b & E & Ha & Hb & H1 & H2). exists a, b. rewrite <- !F.
    split; [exact E|]. split; [exact Ha|]. split; [exact Hb|]. split; intros c r Ec; apply not_in; eauto.
  - intros (a & b & -> & Ha & Hb & H1 & H2). rewrite <- F in Ha, Hb. rewrite trim_both_app by assumption.
    apply trim_both_keep; intros c r E; apply not_in; eauto.
Qed.
End Sets.

Lemma trim_start2_ok x y t w : trim_start2 x y w = t <-> unprefixed [x; y] t w.
Proof.
  split.
  - intros <-. remember (length w) as n eqn:En. assert (Hn : (length w <= n)%nat) by lia. clear En. revert w Hn.
    induction n as [|n IH]; intros w Hn.
    + destruct w; [|cbn in Hn; lia]. exists 0%nat. split; [reflexivity|]. intros (r & E). discriminate.
    + destruct w as [|a [|b w]].
      * exists 0%nat. split; [reflexivity|]. intros (r & E). discriminate.
      * exists 0%nat. split; [reflexivity|]. intros (r & E). discriminate.
      * cbn [trim_start2]. destruct ((a =? x) && (b =? y)) eqn:E.
        -- apply andb_prop in E. destruct E as [E1 E2]. apply N.eqb_eq in E1, E2. subst. destruct (IH w ltac:(cbn in Hn; lia)) as (k & Ew & Hk).
           exists (S k). split; [|exact Hk]. cbn [repeat concat]. rewrite <- app_assoc, <- Ew. reflexivity.
        -- exists 0%nat. split; [reflexivity|]. intros (r & Er). injection Er as -> -> _. now rewrite !N.eqb_refl in E.
  - intros (n & -> & H). induction n as [|n IH]; [now apply trim_start2_keep|]. cbn [repeat concat app trim_start2]. now rewrite !N.eqb_refl.
Qed.
Lemma stripped_ok c w : stripped c w <-> trim_quote_and_punctuation w = c.
Proof.
  unfold stripped, trim_quote_and_punctuation. split.
  - intros (x & y & Hx & Hy & Hc). apply (trim_start2_ok 117 34) in Hx. apply (trim_start2_ok 117 39) in Hy. rewrite Hx, Hy. now apply (peeled_ok punct is_punct is_punct_ok).
  - intros <-. eexists _, _. split; [now apply (trim_start2_ok 117 34)|]. split; [now apply (trim_start2_ok 117 39)|]. now apply (peeled_ok punct is_punct is_punct_ok).
Qed.

(** ** Shapes *)
Lemma memb_ok s c : memb c (lit s) = true <-> one_of s c.
Proof.
  unfold memb, one_of. rewrite existsb_exists. split; [intros (x & Hx & E); apply N.eqb_eq in E; now subst|].
  intros H. exists c. split; [exact H|apply N.eqb_refl].
Qed.
Lemma eqb_one_of k s c : lit s = [k] -> (N.eqb k c = true <-> one_of s c).
Proof. intros E. unfold one_of. rewrite E, N.eqb_eq. cbn [In]. intuition. Qed.
Lemma pair_ok w k v : is_key_value w = Some (k, v) <-> pair w k v.
Proof.
  assert (Q : forall c, ((c =? 61) || (c =? 58)) = true <-> one_of "=:" c).
  { intros c. rewrite orb_true_iff, !N.eqb_eq. unfold one_of. cbn [lit map list_ascii_of_string In]. cbv. intuition. }
  assert (R : forall c, (in_ranges r_alpha c || (c =? 95)) = true <-> letter c \/ c = 95).
  { intros c. rewrite orb_true_iff, N.eqb_eq. unfold r_alpha. assert (in_ranges [(97, 122); (65, 90)] c = true <-> letter c) by ranges. tauto. }
  unfold is_key_value, pair. rewrite <- (cut_ok _ _ Q). split.
  - destruct (split_once _ w) as [[k' v']|]; [|discriminate]. destruct k' as [|c r]; [discriminate|].
    destruct (in_ranges r_alpha c || (c =? 95)) eqn:E; [|discriminate]. intros [= <- <-]. split; [reflexivity|]. exists c, r. split; [reflexivity|]. now apply R.
  - intros (-> & c & r & -> & H). apply R in H. now rewrite H.
Qed.
Lemma two_words_ok w x y : is_two_words w = Some (x, y) <-> exists y', cut (one_of "[(\@") w x y' /\ peeled_end (one_of "])") y y'.
Proof.
  assert (Q : forall c, ((c =? 93) || (c =? 41)) = true <-> one_of "])" c).
  { intros c. rewrite orb_true_iff, !N.eqb_eq. unfold one_of. cbn [lit map list_ascii_of_string In]. cbv. intuition. }
  unfold is_two_words. split.
  - destruct (split_once _ w) as [[k v]|] eqn:S; [|discriminate]. intros [= <- <-]. exists v. split.
    + now apply (cut_ok _ _ (memb_ok "[(\@")).
    + now apply (peeled_end_ok _ _ Q).
  - intros (y' & Hc & Hp). apply (cut_ok _ _ (memb_ok "[(\@")) in Hc. apply (peeled_end_ok _ _ Q) in Hp. now rewrite Hc, Hp.
Qed.
Lemma two_words_none w : is_two_words w = None <-> never (one_of "[(\@") w.
Proof.
  rewrite <- (never_ok _ _ (memb_ok "[(\@")). unfold is_two_words. destruct (split_once _ w) as [[]|]; split; congruence.
Qed.
Lemma process_number_ok w n : trim_pid w = Some n <-> process_number w n.
Proof.
  rewrite trim_pid_dec. unfold process_number. split; intros (ds & -> & H); exists ds; (split; [reflexivity|]);
    revert H; apply Forall_impl; intros c; apply is_digit_ok.
Qed.
Lemma process_number_none w : trim_pid w = None <-> forall n, ~ process_number w n.
Proof.
  split; [intros H n Hn; apply process_number_ok in Hn; congruence|]. intros H. destruct (trim_pid w) as [n|] eqn:E; [|reflexivity].
  apply process_number_ok in E. destruct (H n E).
Qed.
Lemma pair_none w : is_key_value w = None <-> forall k v, ~ pair w k v.
Proof.
  split; [intros H k v Hn; apply pair_ok in Hn; congruence|]. intros H. destruct (is_key_value w) as [[k v]|] eqn:E; [|reflexivity].
  apply pair_ok in E. destruct (H k v E).
Qed.
Lemma collapsed_iff w s : remove_numbers w = s <-> collapsed w s.
Proof. split; [|apply collapsed_ok]. intros <-. destruct (collapsed_exists w) as (s & H). now rewrite (collapsed_ok w s H). Qed.

Section Word.
Variable word_char : N -> bool.
Notation tq := trim_quote_and_punctuation.
Notation do_process := (do_process word_char).
Notation process := (process word_char).

Lemma lang_plus_dot u : lang word_char (plus dot) u <-> u <> [] /\ no_newline u.
Proof.
  unfold dot. rewrite lang_plus_cls. rewrite <- (lang_star_dot word_char). unfold dot. now rewrite lang_star_cls.
Qed.
Lemma dashed_ok w : has_many_dash word_char w = true <-> dashed w.
Proof.
  unfold has_many_dash. rewrite matchb_ok, lang_search_from_start. unfold dashed, no_newline. split.
  - intros (m & r & -> & H).
    apply lang_cat in H. destruct H as (a & m1 & -> & Ha & H). apply lang_cat in H. destruct H as (d1 & m2 & -> & D1 & H).
    apply lang_cat in H. destruct H as (b & m3 & -> & Hb & H). apply lang_cat in H. destruct H as (d2 & m4 & -> & D2 & H).
    apply lang_cat in H. destruct H as (c & m5 & -> & Hc & H). apply lang_cat in H. destruct H as (d3 & m6 & -> & D3 & H).
    apply lang_ch in D1, D2, D3. apply lang_dot in H. destruct H as (x & -> & Hx). subst.
    apply lang_plus_dot in Ha, Hb, Hc. destruct Ha as [A1 A2], Hb as [B1 B2], Hc as [C1 C2].
    exists a, b, c, x, r. split; [rewrite <- !app_assoc; reflexivity|]. repeat (split; [assumption|]).
    rewrite !in_app_iff. cbn [In]. unfold no_newline in *. intuition.
  - intros (a & b & c & x & r & -> & A & B & C & NL). rewrite !in_app_iff in NL. cbn [In] in NL.
    exists (a ++ lit "-" ++ b ++ lit "-" ++ c ++ lit "-" ++ [x]), r. split; [rewrite <- !app_assoc; reflexivity|].
    apply lang_cat. eexists a, _. split; [reflexivity|]. split; [apply lang_plus_dot; unfold no_newline; intuition|].
    apply lang_cat. eexists (lit "-"), _. split; [reflexivity|]. split; [now apply lang_ch|].
    apply lang_cat. eexists b, _. split; [reflexivity|]. split; [apply lang_plus_dot; unfold no_newline; intuition|].
    apply lang_cat. eexists (lit "-"), _. split; [reflexivity|]. split; [now apply lang_ch|].
    apply lang_cat. eexists c, _. split; [reflexivity|]. split; [apply lang_plus_dot; unfold no_newline; intuition|].
    apply lang_cat. eexists (lit "-"), _. split; [reflexivity|]. split; [now apply lang_ch|].
    apply lang_dot. exists x. split; [reflexivity|]. intuition.
Qed.
Lemma secret_ok k : is_key_for_id word_char k = true <-> names_secret k.
Proof.
  rewrite is_key_for_id_ok. unfold names_secret, infix. split.
  - intros (a & m & b & -> & H). exists m. eauto.
  - intros (m & (a & b & ->) & H). exists a, m, b. auto.
Qed.
Lemma literal_none w : parse_literal word_char w = None <-> forall t, ~ recognised word_char w t.
Proof.
  split; [intros H t Ht; apply parse_literal_ok in Ht; congruence|]. intros H. destruct (parse_literal word_char w) as [t|] eqn:E; [|reflexivity].
  apply parse_literal_ok in E. destruct (H t E).
Qed.
Lemma bool_no b Q : (b = true <-> Q) -> (b = false <-> ~ Q).
Proof. intros H. rewrite <- H. destruct b; split; congruence. Qed.
Lemma ordinary_ok w : ordinary word_char w <-> parse_literal word_char w = None /\ is_error word_char w = false /\ (utf8_len w <=? 3) = false.
Proof. unfold ordinary. now rewrite literal_none, (bool_no _ _ (is_error_ok word_char w)), N.leb_gt. Qed.
Lemma odd_ok w : contains_odd_char word_char w = true <-> odd w.
Proof. apply contains_odd_char_ok. Qed.
Lemma simple_ok w : simple word_char w <-> ordinary word_char w /\ trim_pid w = None /\ contains_odd_char word_char w = false /\ is_key_value w = None.
Proof. unfold simple. now rewrite process_number_none, (bool_no _ _ (odd_ok w)), pair_none. Qed.
Lemma amplified_push w : push_error w = amplified w.
Proof. unfold push_error, amplified. cbn [join_space]. now rewrite <- !app_assoc. Qed.
Lemma never_one s c w : lit s = [c] -> (never (one_of s) w <-> split_once (N.eqb c) w = None).
Proof. intros E. symmetry. apply never_ok. intros x. now apply eqb_one_of. Qed.
Lemma cut_one s c w a b : lit s = [c] -> (cut (one_of s) w a b <-> split_once (N.eqb c) w = Some (a, b)).
Proof. intros E. symmetry. apply cut_ok. intros x. now apply eqb_one_of. Qed.
Lemma never_more s s1 s2 w : lit s = lit s1 ++ lit s2 -> (never (one_of s) w <-> never (one_of s1) w /\ never (one_of s2) w).
Proof.
  intros E. unfold never, one_of. rewrite E.
  rewrite !Forall_forall. setoid_rewrite in_app_iff. split.
  - intros H. split; intros x Hx Hi; apply (H x Hx); auto.
  - intros [H1 H2] x Hx [Hi|Hi]; [apply (H1 x Hx Hi)|apply (H2 x Hx Hi)].
Qed.
Lemma never2 w : never (one_of "/-") w <-> split_once (N.eqb 47) w = None /\ split_once (N.eqb 45) w = None.
Proof. rewrite (never_more "/-" "/" "-") by reflexivity. rewrite (never_one "/" 47), (never_one "-" 45) by reflexivity. reflexivity. Qed.
Lemma never3 w : never (one_of "/-|") w <-> split_once (N.eqb 47) w = None /\ split_once (N.eqb 45) w = None /\ split_once (N.eqb 124) w = None.
Proof. rewrite (never_more "/-|" "/-" "|") by reflexivity. rewrite never2, (never_one "|" 124) by reflexivity. tauto. Qed.
Lemma never4 w : never (one_of "/-|[(\@") w <->
  split_once (N.eqb 47) w = None /\ split_once (N.eqb 45) w = None /\ split_once (N.eqb 124) w = None /\ is_two_words w = None.
Proof. rewrite (never_more "/-|[(\@" "/-|" "[(\@") by reflexivity. rewrite never3, two_words_none. tauto. Qed.

(** Every word is read. *)
Theorem do_process_reads : forall fuel w, (length w < fuel)%nat -> exists t b, do_process fuel w = Some (t, b) /\ reads word_char w t b.
Proof.
  induction fuel as [|fuel IH]; intros w Hl; [lia|]. cbn [TokModel.do_process].
  destruct (part_len _ _ (tq_part w)) as [Hq _]. assert (ST : stripped (tq w) w) by now apply stripped_ok.
  destruct (parse_literal word_char (tq w)) as [t|] eqn:PL.
  { eexists _, _. split; [reflexivity|]. eapply ReadsToken; [exact ST|]. now apply parse_literal_ok. }
  pose proof (proj1 (literal_none _) PL) as NL.
  destruct (is_error word_char (tq w)) eqn:PE.
  { eexists _, _. split; [reflexivity|]. rewrite amplified_push. eapply ReadsError; [exact ST|exact NL|]. now apply (is_error_ok word_char). }
  pose proof (proj1 (bool_no _ _ (is_error_ok word_char _)) PE) as NE.
  destruct (utf8_len (tq w) <=? 3) eqn:LEN.
  { eexists _, _; split; [reflexivity|]. apply N.leb_le in LEN. eapply ReadsShort; eauto. }
  assert (OR : ordinary word_char (tq w)) by (apply ordinary_ok; auto).
  destruct (trim_pid (tq w)) as [s|] eqn:TP.
  { pose proof TP as TP'. apply trim_pid_dec in TP'. destruct TP' as (ds & E & _). pose proof (f_equal (@length N) E) as EL. rewrite !app_length in EL. cbn in EL.
    destruct (IH s ltac:(lia)) as (o & a & -> & Ht). eexists _, _. split; [reflexivity|]. eapply ReadsProcess; eauto. now apply process_number_ok. }
  pose proof (proj1 (process_number_none _) TP) as NP.
  destruct (contains_odd_char word_char (tq w)) eqn:PO.
  { eexists _, _. split; [reflexivity|]. eapply ReadsOdd; eauto. now apply odd_ok. }
  pose proof (proj1 (bool_no _ _ (odd_ok _)) PO) as NO.
  destruct (is_key_value (tq w)) as [[k v]|] eqn:PK.
  { destruct (key_value_dec _ _ _ PK) as (c & E). pose proof (f_equal (@length N) E) as EL. rewrite !app_length in EL. cbn in EL. apply pair_ok in PK.
    destruct (IH k ltac:(lia)) as (ok & ak & -> & Hk). destruct (is_key_for_id word_char k) eqn:KI.
    - eexists _, _. split; [reflexivity|]. eapply ReadsSecret; eauto. now apply secret_ok.
    - destruct (IH v ltac:(lia)) as (ov & av & -> & Hv). eexists _, _. split; [reflexivity|]. eapply ReadsPair; eauto.
      now apply (bool_no _ _ (secret_ok k)). }
  assert (SI : simple word_char (tq w)) by (apply simple_ok; auto).
  assert (BOTH : forall x c y r sep, tq w = x ++ c :: y ++ r ->
    (forall tx bx ty b, reads word_char x tx bx -> reads word_char y ty b -> reads word_char w (both tx bx sep ty) b) ->
    exists o a, match do_process fuel x, do_process fuel y with
      | Some (o1, added1), Some (o2, added2) => Some (o1 ++ (if added1 then sep else []) ++ o2, added2)
      | _, _ => None end = Some (o, a) /\ reads word_char w o a).
  { intros x c y r sep E Hr. pose proof (f_equal (@length N) E) as EL. rewrite app_length in EL. cbn [length] in EL. rewrite app_length in EL.
    destruct (IH x ltac:(lia)) as (o1 & a1 & -> & H1). destruct (IH y ltac:(lia)) as (o2 & a2 & -> & H2).
    eexists _, _. split; [reflexivity|]. now apply Hr. }
  destruct (split_once (N.eqb 47) (tq w)) as [[x y]|] eqn:S1.
  { pose proof S1 as S. apply split_once_dec in S. destruct S as (c & E & _). apply (BOTH x c y []); [now rewrite app_nil_r|].
    intros tx bx ty b Hx Hy. eapply (ReadsSlash _ w (tq w) x y); eauto. now apply (cut_one "/" 47). }
  assert (N1 : never (one_of "/") (tq w)) by (now apply (never_one "/" 47)).
  destruct (split_once (N.eqb 45) (tq w)) as [[x y]|] eqn:S2.
  { pose proof S2 as S. apply split_once_dec in S. destruct S as (c & E & _).
    assert (CU : cut (one_of "-") (tq w) x y) by (now apply (cut_one "-" 45)).
    destruct (has_many_dash word_char y) eqn:MD.
    - eexists _, _; split; [reflexivity|]. eapply ReadsDashes; eauto. now apply dashed_ok.
    - apply (BOTH x c y []); [now rewrite app_nil_r|]. intros tx bx ty b Hx Hy. eapply (ReadsDash _ w (tq w) x y); eauto.
      now apply (bool_no _ _ (dashed_ok y)). }
  destruct (split_once (N.eqb 124) (tq w)) as [[x y]|] eqn:S3.
  { pose proof S3 as S. apply split_once_dec in S. destruct S as (c & E & _). apply (BOTH x c y []); [now rewrite app_nil_r|].
    intros tx bx ty b Hx Hy. eapply (ReadsBar _ w (tq w) x y); eauto; [now apply never2|now apply (cut_one "|" 124)]. }
  assert (N3 : never (one_of "/-|") (tq w)) by (apply never3; auto).
  destruct (32 <=? utf8_len (tq w)) eqn:BIG.
  { eexists _, _; split; [reflexivity|]. eapply ReadsBig; eauto. now apply N.leb_le. }
  apply N.leb_gt in BIG.
  destruct (is_two_words (tq w)) as [[x y]|] eqn:S4.
  { pose proof S4 as S. apply two_words_dec in S. destruct S as (c & r & E). apply (BOTH x c y r); [exact E|].
    apply two_words_ok in S4. destruct S4 as (y' & Hc & Hp). intros tx bx ty b Hx Hy. eapply (ReadsTwo _ w (tq w) x y y'); eauto. }
  assert (N4 : never (one_of "/-|[(\@") (tq w)) by (apply never4; auto).
  destruct (3 <? utf8_len (remove_numbers (tq w))) eqn:L3.
  - eexists _, _. split; [reflexivity|]. eapply ReadsWord; eauto; [now apply collapsed_iff|now apply N.ltb_lt].
  - eexists _, _. split; [reflexivity|]. eapply ReadsSmall; eauto; [now apply collapsed_iff|now apply N.ltb_ge].
Qed.

(** And read as the model does. *)
Theorem reads_do_process : forall w t b, reads word_char w t b -> forall fuel, (length w < fuel)%nat -> do_process fuel w = Some (t, b).
Proof.
  assert (Q : forall c w, stripped c w -> (length c <= length w)%nat).
  { intros c w H. apply stripped_ok in H. subst. apply part_len, tq_part. }
  assert (CL : forall s w a b, cut s w a b -> length w = S (length a + length b)).
  { intros s w a b (c & -> & _). rewrite !app_length. cbn [length]. lia. }
  induction 1 as [w c t ST R|w c ST NL ER|w c ST NL NE LEN|w c n t b ST OR PN Rn IHn|w c ST OR NP OD|w c k v t b ST OR NP NO PA SE Rk IHk
    |w c k v tk bk tv bv ST OR NP NO PA SE Rk IHk Rv IHv|w c x y tx bx ty b ST SI CU Rx IHx Ry IHy|w c x y ST SI NV CU DA|w c x y tx bx ty b ST SI NV CU DA Rx IHx Ry IHy
    |w c x y tx bx ty b ST SI NV CU Rx IHx Ry IHy|w c ST SI NV BIG|w c x y y' tx bx ty b ST SI NV BIG CU PE Rx IHx Ry IHy|w c t ST SI NV BIG CO L3|w c t ST SI NV BIG CO L3];
    intros fuel Hl; pose proof (Q c w ST) as Hc; apply stripped_ok in ST; (destruct fuel as [|fuel]; [lia|]); cbn [TokModel.do_process]; rewrite ST;
    try (apply simple_ok in SI; destruct SI as (OR & NP' & NO' & PA'));
    try (apply ordinary_ok in OR; destruct OR as (-> & -> & ->));
    try (rewrite NP', NO', PA');
    try (apply process_number_none in NP; rewrite NP);
    try (apply (bool_no _ _ (odd_ok c)) in NO; rewrite NO).
  - apply parse_literal_ok in R. now rewrite R.
  - apply literal_none in NL. apply (is_error_ok word_char) in ER. now rewrite NL, ER, amplified_push.
  - apply literal_none in NL. apply (bool_no _ _ (is_error_ok word_char c)) in NE. apply N.leb_le in LEN. now rewrite NL, NE, LEN.
  - assert (length n < length c)%nat by (destruct PN as (ds & -> & _); rewrite !app_length; cbn; lia). apply process_number_ok in PN. rewrite PN, IHn by lia. reflexivity.
  - apply odd_ok in OD. now rewrite OD.
  - pose proof (CL _ _ _ _ (proj1 PA)). apply pair_ok in PA. apply secret_ok in SE. rewrite PA, IHk, SE by lia. reflexivity.
  - pose proof (CL _ _ _ _ (proj1 PA)). apply pair_ok in PA. apply (bool_no _ _ (secret_ok k)) in SE. rewrite PA, IHk, SE, IHv by lia. reflexivity.
  - pose proof (CL _ _ _ _ CU). apply (cut_one "/" 47) in CU; [|reflexivity]. rewrite CU, IHx, IHy by lia. reflexivity.
  - pose proof (CL _ _ _ _ CU). apply (never_one "/" 47) in NV; [|reflexivity]. apply (cut_one "-" 45) in CU; [|reflexivity]. apply dashed_ok in DA. now rewrite NV, CU, DA.
  - pose proof (CL _ _ _ _ CU). apply (never_one "/" 47) in NV; [|reflexivity]. apply (cut_one "-" 45) in CU; [|reflexivity].
    apply (bool_no _ _ (dashed_ok y)) in DA. rewrite NV, CU, DA, IHx, IHy by lia. reflexivity.
  - pose proof (CL _ _ _ _ CU). apply never2 in NV. destruct NV as [N1 N2]. apply (cut_one "|" 124) in CU; [|reflexivity]. rewrite N1, N2, CU, IHx, IHy by lia. reflexivity.
  - apply never3 in NV. destruct NV as (N1 & N2 & N3). apply N.leb_le in BIG. now rewrite N1, N2, N3, BIG.
  - pose proof (CL _ _ _ _ CU). apply never3 in NV. destruct NV as (N1 & N2 & N3). apply N.leb_gt in BIG. rewrite N1, N2, N3, BIG.
    assert (length y <= length y')%nat by (destruct PE as (e & -> & _); rewrite app_length; lia).
    rewrite (proj2 (two_words_ok c x y)) by eauto. rewrite IHx, IHy by lia. reflexivity.
  - apply never4 in NV. destruct NV as (N1 & N2 & N3 & N4). apply N.leb_gt in BIG. rewrite N1, N2, N3, N4, BIG.
    apply collapsed_iff in CO. rewrite CO. apply N.ltb_lt in L3. now rewrite L3.
  - apply never4 in NV. destruct NV as (N1 & N2 & N3 & N4). apply N.leb_gt in BIG. rewrite N1, N2, N3, N4, BIG.
    apply collapsed_iff in CO. rewrite CO. apply N.ltb_ge in L3. now rewrite L3.
Qed.

Theorem do_process_exact w t b : do_process (S (length w)) w = Some (t, b) <-> reads word_char w t b.
Proof.
  split; [|intros H; apply reads_do_process with (1 := H); lia]. intros H.
  destruct (do_process_reads (S (length w)) w ltac:(lia)) as (t' & b' & E & R). rewrite H in E. now injection E as -> ->.
Qed.
Lemma written_text w t : no_space w -> (written word_char w t <-> word_text word_char w t).
Proof.
  intros Hw. assert (F : forall t, word_text word_char w t -> written word_char w t).
  { intros x (o & b & E & H & (_ & C & _)). exists o, b. split; [now apply do_process_exact|]. split; [exact H|exact C]. }
  split; [|apply F]. intros Hx. destruct (word_piece word_char w Hw) as (t' & Ht & _). replace t with t'; [exact Ht|]. apply F in Ht.
  destruct Hx as (o & b & E & H & C), Ht as (o' & b' & E' & H' & C'). apply do_process_exact in E, E'. rewrite E in E'. injection E' as <- <-.
  destruct H as [->|H], H' as [H'|H']; subst; auto.
  - destruct (C _ eq_refl).
  - destruct (C' _ eq_refl).
  - symmetry. now apply app_inj_tail in H'.
Qed.
Lemma Forall2_written ws ts : (forall w, In w ws -> no_space w) -> (Forall2 (written word_char) ws ts <-> Forall2 (word_text word_char) ws ts).
Proof.
  intros H. split; intros F; (induction F as [|w t ws ts Hw _ IH]; constructor; [apply written_text in Hw; auto; apply H; now left|apply IH; intros; apply H; now right]).
Qed.
Theorem process_exact line out : process line = Some out <-> tokenized word_char line out.
Proof.
  split.
  - intros E. destruct (global_filter word_char (trim line)) eqn:G.
    + assert (D : dropped word_char line) by (apply (dropped_iff word_char line (trim line)); [apply trim_ok|exact G]).
      rewrite (process_dropped word_char line D) in E. injection E as <-. now apply TokenizedDropped.
    + assert (D : ~ dropped word_char line) by (intros D; apply (dropped_iff word_char line (trim line) (trim_ok line)) in D; congruence).
      destruct (process_kept word_char line D) as (ts & o & F & Eo & Ho). rewrite E in Eo. injection Eo as <-.
      eapply (TokenizedKept _ line (trim line) (words (trim line)) ts); [exact D|apply trim_ok|apply words_splits| |].
      * apply Forall2_written; [apply words_no_space|exact F].
      * rewrite Ho. apply trim_ok.
  - intros [l D|l t ws ts o D Ht Hs F Ho]; [now apply process_dropped|].
    destruct (process_kept word_char l D) as (ts' & o' & F' & Eo & Ho'). rewrite Eo. f_equal.
    rewrite (trimmed_unique _ _ Ht), (splits_words _ _ Hs) in F'.
    apply Forall2_written in F; [|intros w Hw; rewrite <- (splits_words _ _ Hs) in Hw; exact (words_no_space _ _ Hw)].
    rewrite Ho'. apply trimmed_unique in Ho. rewrite <- Ho. f_equal. f_equal. f_equal.
    clear - F F'. revert ts F. induction F' as [|w t' ws ts' H' _ IH]; intros ts F; inversion F as [|? t ? ts0 Hw Hr]; subst; [reflexivity|].
    f_equal; [now apply (word_text_fun word_char w)|now apply IH].
Qed.
End Word.
