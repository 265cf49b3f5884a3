(** The tokenizer's regular expressions mean what TokSpec.v says. *)
From Coq Require Import String List NArith Bool Lia.
From Verif Require Import Common CommonFacts Regex RegexFacts TokModel TokSpec.
Import ListNotations.
Open Scope N_scope.

Lemma Forall_iff {A} (P Q : A -> Prop) l : (forall x, P x <-> Q x) -> (Forall P l <-> Forall Q l).
Proof. intros H. split; apply Forall_impl; intros x; apply H. Qed.
Lemma iff_trans' (A B C : Prop) : (A <-> B) -> (B <-> C) -> (A <-> C). Proof. tauto. Qed.

Lemma false_true : false = true <-> False. Proof. split; [discriminate|tauto]. Qed.
Ltac norm_ranges :=
  unfold in_cls, in_ranges, r_alnum, r_alpha, r_lower, r_digit, hex_char, alnum, letter, upper_letter, lower_letter, digit, between,
    one_of, lit in *;
  cbn [existsb fst snd app map list_ascii_of_string Ascii.N_of_ascii Ascii.N_of_digits In N.add N.mul Pos.mul Pos.add] in *;
  rewrite ?orb_true_iff, ?andb_true_iff, ?N.leb_le, ?negb_true_iff, ?orb_false_iff, ?andb_false_iff, ?N.leb_gt, ?false_true in *.
Ltac ranges := repeat match goal with H : N -> bool |- _ => clear H end; norm_ranges; intuition (try discriminate; try lia).

Section Word.
Variable word_char : N -> bool.
Notation lang := (lang word_char).
Notation matchb := (matchb word_char).
Notation in_cls := (in_cls word_char).

Lemma cls_digit c : in_cls r_digit c = true <-> digit c.
Proof. ranges. Qed.
Lemma cls_alnum c : in_cls (Ranges r_alnum) c = true <-> alnum c.
Proof. ranges. Qed.
Lemma cls_alpha c : in_cls (Ranges r_alpha) c = true <-> letter c.
Proof. ranges. Qed.
Lemma cls_lower c : in_cls (Ranges r_lower) c = true <-> lower_letter c.
Proof. ranges. Qed.
Lemma cls_dot c : in_cls (NotRanges [(10, 10)]) c = true <-> c <> 10.
Proof. ranges. Qed.
Lemma lang_dot u : lang dot u <-> exists c, u = [c] /\ c <> 10.
Proof.
  unfold dot. rewrite lang_cls. split; intros (c & -> & H); exists c; split; try reflexivity; now apply cls_dot.
Qed.
Lemma lang_star_dot u : lang (Star dot) u <-> no_newline u.
Proof.
  unfold dot. rewrite lang_star_cls, Forall_forall. unfold no_newline. split.
  - intros H Hi. apply H, cls_dot in Hi. congruence.
  - intros H c Hc. apply cls_dot. intros ->. now apply H.
Qed.

(** *** Letter case *)
Lemma lang_ich c u : ~ upper_letter c -> (lang (ich c) u <-> exists x, u = [x] /\ ascii_lower x = c).
Proof.
  intros Hc. unfold ich. rewrite lang_cls.
  assert (G : forall x, in_cls (Ranges [(c, c); (upper c, upper c)]) x = true <-> ascii_lower x = c).
  { intros x. unfold Regex.in_cls, in_ranges, upper, ascii_lower, upper_letter, between in *. cbn [existsb fst snd].
    rewrite !orb_true_iff, !andb_true_iff, !N.leb_le.
    destruct (97 <=? c) eqn:E1, (c <=? 122) eqn:E2, (65 <=? x) eqn:E3, (x <=? 90) eqn:E4; cbn [andb];
      rewrite ?N.leb_le, ?N.leb_gt in *; intuition (try discriminate; try lia). }
  split; intros (x & -> & H); exists x; split; try reflexivity; now apply G.
Qed.
Lemma lang_istr s : Forall (fun c => ~ upper_letter c) s -> forall u, lang (istr s) u <-> map ascii_lower u = s.
Proof.
  induction s as [|c s IH]; intros Hs u.
  - cbn. rewrite lang_eps. split; [now intros ->|apply map_eq_nil].
  - inversion Hs as [|? ? Hc Hs']; subst. destruct s as [|d s].
    + cbn. rewrite lang_ich by exact Hc. split.
      * intros (x & -> & <-). reflexivity.
      * intros H. destruct u as [|x [|y u]]; cbn in H; try discriminate. exists x. split; [reflexivity|congruence].
    + change (istr (c :: d :: s)) with (Cat (ich c) (istr (d :: s))). rewrite lang_cat. split.
      * intros (v & w & -> & H1 & H2). apply lang_ich in H1; [|exact Hc]. destruct H1 as (x & -> & <-). apply IH in H2; [|exact Hs'].
        cbn [map app]. now rewrite H2.
      * intros H. destruct u as [|x u]; [discriminate|]. cbn [map] in H. injection H as H1 H2. exists [x], u.
        split; [reflexivity|]. split; [apply lang_ich; [exact Hc|]; eauto|]. apply IH; [exact Hs'|exact H2].
Qed.
Lemma lang_uch c u : ~ upper_letter c -> c <> 8490 -> c <> 383 -> (lang (uch c) u <-> exists x, u = [x] /\ fold_lower x = c).
Proof.
  intros Hc Hk Hs. unfold uch. rewrite lang_cls.
  assert (G : forall x, in_cls (Ranges ((c, c) :: (upper c, upper c) ::
    (if c =? 107 then [(8490, 8490)] else if c =? 115 then [(383, 383)] else []))) x = true <-> fold_lower x = c).
  { intros x. unfold Regex.in_cls, in_ranges, upper, fold_lower, ascii_lower, upper_letter, between in *.
    destruct (c =? 107) eqn:K; [|destruct (c =? 115) eqn:S]; cbn [existsb fst snd];
    rewrite !orb_true_iff, !andb_true_iff, !N.leb_le; rewrite ?N.eqb_eq, ?N.eqb_neq in *;
    destruct (x =? 8490) eqn:E5; rewrite ?N.eqb_eq, ?N.eqb_neq in *;
    try (destruct (x =? 383) eqn:E6; rewrite ?N.eqb_eq, ?N.eqb_neq in * );
    destruct (97 <=? c) eqn:E1, (c <=? 122) eqn:E2, (65 <=? x) eqn:E3, (x <=? 90) eqn:E4; cbn [andb];
      rewrite ?N.leb_le, ?N.leb_gt in *; intuition (try discriminate; try lia). }
  split; intros (x & -> & H); exists x; split; try reflexivity; now apply G.
Qed.
Definition plain (c : N) : Prop := ~ upper_letter c /\ c < 128.
Lemma lang_ustr s : Forall plain s -> forall u, lang (ustr s) u <-> map fold_lower u = s.
Proof.
  induction s as [|c s IH]; intros Hs u.
  - cbn. rewrite lang_eps. split; [now intros ->|apply map_eq_nil].
  - inversion Hs as [|? ? Hc Hs']; subst. destruct Hc as [Hc Hc2]. assert (c <> 8490 /\ c <> 383) as [Hk Hk2] by lia.
    destruct s as [|d s].
    + cbn. rewrite lang_uch by assumption. split.
      * intros (x & -> & <-). reflexivity.
      * intros H. destruct u as [|x [|y u]]; cbn in H; try discriminate. exists x. split; [reflexivity|congruence].
    + change (ustr (c :: d :: s)) with (Cat (uch c) (ustr (d :: s))). rewrite lang_cat. split.
      * intros (v & w & -> & H1 & H2). apply lang_uch in H1; try assumption. destruct H1 as (x & -> & <-). apply IH in H2; [|exact Hs'].
        cbn [map app]. now rewrite H2.
      * intros H. destruct u as [|x u]; [discriminate|]. cbn [map] in H. injection H as H1 H2. exists [x], u.
        split; [reflexivity|]. split; [apply lang_uch; try assumption; eauto|]. apply IH; [exact Hs'|exact H2].
Qed.
Lemma plain_dec s : forallb (fun c => negb ((65 <=? c) && (c <=? 90)) && (c <? 128)) s = true -> Forall plain s.
Proof.
  rewrite forallb_forall, Forall_forall. intros H c Hc. specialize (H c Hc). apply andb_prop in H. destruct H as [H1 H2].
  apply N.ltb_lt in H2. split; [|exact H2]. apply negb_true_iff, andb_false_iff in H1. rewrite !N.leb_gt in H1.
  unfold upper_letter, between. lia.
Qed.
Lemma lang_alts_istr l w : Forall (Forall plain) l -> (lang (alts (map istr l)) w <-> In (map ascii_lower w) l).
Proof.
  intros Hl. rewrite lang_alts. split.
  - intros (r & Hr & H). apply in_map_iff in Hr. destruct Hr as (s & <- & Hs). rewrite Forall_forall in Hl.
    apply lang_istr in H; [now rewrite H|]. eapply Forall_impl; [|apply Hl; exact Hs]. now intros c [Hc _].
  - intros H. exists (istr (map ascii_lower w)). split; [now apply in_map|]. apply lang_istr; [|reflexivity].
    rewrite Forall_forall in Hl. eapply Forall_impl; [|apply Hl; exact H]. now intros c [Hc _].
Qed.
Lemma lang_alts_ustr (l : list string) w : Forall (fun s => Forall plain (lit s)) l ->
  (lang (alts (map (fun s => ustr (lit s)) l)) w <-> In (map fold_lower w) (map lit l)).
Proof.
  intros Hl. rewrite lang_alts. rewrite Forall_forall in Hl. split.
  - intros (r & Hr & H). apply in_map_iff in Hr. destruct Hr as (s & <- & Hs). apply in_map_iff.
    exists s. split; [|exact Hs]. symmetry. apply lang_ustr in H; [exact H|now apply Hl].
  - intros H. apply in_map_iff in H. destruct H as (s & E & Hs). exists (ustr (lit s)). split; [now apply (in_map (fun s => ustr (lit s)))|].
    apply lang_ustr; [now apply Hl|now symmetry].
Qed.
Ltac plains := repeat first [apply plain_dec; reflexivity | constructor].

(** *** The classes *)
Lemma is_date_ok w : is_date word_char w = true <-> DateWord w.
Proof. unfold is_date, search_whole. rewrite matchb_ok. apply lang_alts_istr. unfold date_words. cbn [map]. plains. Qed.
Lemma is_error_ok w : is_error word_char w = true <-> error_word w.
Proof. unfold is_error, search_whole. rewrite matchb_ok. apply lang_alts_istr. unfold error_words. cbn [map]. plains. Qed.
Lemma is_hash_ok w : is_hash word_char w = true <-> HashWord w.
Proof.
  unfold is_hash, HashWord. rewrite matchb_ok, lang_alt, lang_search_from_start, lang_search. split; (intros [H|H]; [left|right]).
  - destruct H as (b & c & -> & H). apply lang_cat in H. destruct H as (p & e & -> & Hp & H). apply lang_cat in H.
    destruct H as (d & f & -> & Hd & Hf). apply lang_ch in Hf. subst f. exists p, d, c. rewrite <- !app_assoc. split; [reflexivity|].
    split; [apply lang_alts_ustr in Hp; [exact Hp|plains]|]. apply lang_star_cls in Hd. revert Hd. apply Forall_impl. intros x. apply cls_digit.
  - destruct H as (a & b & c & -> & H). apply lang_cat in H. destruct H as (o & r & -> & _ & H). apply lang_rep_from_cls in H.
    destruct H as [Hl Hf]. exists (a ++ o), (firstn 64 r), (skipn 64 r ++ c). split.
    + rewrite <- (firstn_skipn 64 r) at 1. now rewrite !app_assoc.
    + split; [now apply firstn_length_le|]. rewrite <- (firstn_skipn 64 r) in Hf. apply Forall_app in Hf. destruct Hf as [Hf _].
      revert Hf. apply Forall_impl. intros x. ranges.
  - destruct H as (p & d & r & -> & Hp & Hd). exists (p ++ d ++ [58]), r. split; [now rewrite <- !app_assoc|].
    apply lang_cat. exists p, (d ++ [58]). split; [reflexivity|]. split; [apply lang_alts_ustr; [plains|exact Hp]|].
    apply lang_cat. exists d, [58]. split; [reflexivity|]. split; [|now apply lang_ch]. apply lang_star_cls. revert Hd. apply Forall_impl. intros x. apply cls_digit.
  - destruct H as (a & b & r & -> & Hl & Hf). exists a, b, r. split; [reflexivity|]. apply lang_cat. exists [], b. split; [reflexivity|].
    split; [now apply lang_opt; right|]. apply lang_rep_from_cls. split; [rewrite Hl; apply le_n|]. revert Hf. apply Forall_impl. intros x. ranges.
Qed.
Lemma group_ok g : lang (Cat (Star (ch 58)) (Cat (plus (Cls (Ranges [(91, 91); (93, 93); (48, 57); (97, 102); (65, 70); (120, 120); (90, 90)])))
         (Star (Cls (Ranges [(58, 58); (46, 46); (45, 45)]))))) g <-> uid_group g.
Proof.
  unfold uid_group, ch. split.
  - intros H. apply lang_cat in H. destruct H as (a & e & -> & Ha & H). apply lang_cat in H. destruct H as (h & s & -> & Hh & Hs).
    apply lang_star_cls in Ha, Hs. apply lang_plus_cls in Hh. destruct Hh as [Hne Hh]. exists a, h, s. split; [reflexivity|].
    split; [revert Ha; apply Forall_impl; intros x; ranges|]. split; [exact Hne|].
    split; [revert Hh; apply Forall_impl; intros x; ranges|]. revert Hs; apply Forall_impl; intros x; ranges.
  - intros (a & h & s & -> & Ha & Hne & Hh & Hs). apply lang_cat. exists a, (h ++ s). split; [reflexivity|].
    split; [apply lang_star_cls; revert Ha; apply Forall_impl; intros x; ranges|]. apply lang_cat. exists h, s. split; [reflexivity|].
    split; [apply lang_plus_cls; split; [exact Hne|]; revert Hh; apply Forall_impl; intros x; ranges|].
    apply lang_star_cls; revert Hs; apply Forall_impl; intros x; ranges.
Qed.
Lemma lang_star_concat r w : lang (Star r) w <-> exists gs, Forall (lang r) gs /\ w = concat gs.
Proof.
  split.
  - intros H. remember (Star r) as q eqn:E. revert E. induction H; intros E; try discriminate.
    + exists []. split; [constructor|reflexivity].
    + injection E as ->. destruct (IHlang2 eq_refl) as (gs & Hg & ->). exists (u :: gs). split; [now constructor|reflexivity].
  - intros (gs & Hg & ->). induction Hg; cbn; [constructor|now constructor].
Qed.
Lemma is_uid_ok w : is_uid word_char w = true <-> UidWord w.
Proof.
  unfold is_uid, UidWord, search_whole, plus at 1. rewrite matchb_ok, lang_cat. split.
  - intros (g & v & -> & Hg & Hv). apply lang_star_concat in Hv. destruct Hv as (gs & Hgs & ->). exists (g :: gs). split; [discriminate|].
    split; [|reflexivity]. constructor; [now apply group_ok|]. revert Hgs. apply Forall_impl. intros x. apply group_ok.
  - intros (gs & Hne & Hg & ->). destruct gs as [|g gs]; [congruence|]. inversion Hg; subst. exists g, (concat gs). split; [reflexivity|].
    split; [now apply group_ok|]. apply lang_star_concat. exists gs. split; [|reflexivity]. revert H2. apply Forall_impl. intros x. apply group_ok.
Qed.
Lemma is_cookie_ok w : is_cookie word_char w = true <-> CookieWord w.
Proof.
  unfold is_cookie, CookieWord. rewrite matchb_ok, lang_search_from_start. split.
  - intros (b & c & -> & H). apply lang_alts in H. destruct H as (r & Hr & H). cbn [In] in Hr.
    destruct Hr as [<-|[<-|[<-|[<-|[<-|[<-|[]]]]]]]; try (apply lang_str in H; subst b; left; eexists; split; [|exists c; reflexivity]; cbn [map In]; tauto).
    apply lang_cat in H. destruct H as (v & x & -> & Hv & Hx). apply lang_str in Hv. subst v. apply lang_cls in Hx. destruct Hx as (y & -> & Hy).
    right. exists y. split; [now apply cls_lower|]. exists c. reflexivity.
  - intros [(p & Hp & r & ->)|(c & Hc & r & ->)].
    + exists p, r. split; [reflexivity|]. apply lang_alts. cbn [map In] in Hp.
      destruct Hp as [<-|[<-|[<-|[<-|[<-|[]]]]]]; eexists; (split; [|apply lang_str; reflexivity]); cbn [In]; tauto.
    + exists (lit "tx" ++ [c]), r. split; [reflexivity|]. apply lang_alts. exists (Cat (str (lit "tx")) (Cls (Ranges r_lower))).
      split; [cbn [In]; tauto|]. apply lang_cat. exists (lit "tx"), [c]. split; [reflexivity|]. split; [now apply lang_str|].
      apply lang_cls. exists c. split; [reflexivity|now apply cls_lower].
Qed.
Lemma lang_four u : lang (rep 4 (Cls (Ranges r_alnum))) u <-> length u = 4%nat /\ Forall alnum u.
Proof. rewrite lang_rep_cls, (Forall_iff _ _ u cls_alnum). reflexivity. Qed.
Lemma is_uuid_ok w : is_uuid word_char w = true <-> UuidWord w.
Proof.
  unfold is_uuid, UuidWord, search_whole. cbn zeta. rewrite matchb_ok.
  assert (D : forall u v, lang (Cat (Cat (ch 45) (rep 4 (Cls (Ranges r_alnum)))) v) u <->
     exists a b, u = [45] ++ a ++ b /\ (length a = 4%nat /\ Forall alnum a) /\ lang v b).
  { intros u v. rewrite lang_cat. split.
    - intros (x & y & -> & H & Hv). apply lang_cat in H. destruct H as (p & a & -> & Hp & Ha). apply lang_ch in Hp. subst p. apply lang_four in Ha.
      exists a, y. rewrite <- app_assoc. auto.
    - intros (a & b & -> & Ha & Hv). exists ([45] ++ a), b. split; [now rewrite app_assoc|]. split; [|exact Hv].
      apply lang_cat. exists [45], a. split; [reflexivity|]. split; [now apply lang_ch|now apply lang_four]. }
  split.
  - intros H. apply lang_cat in H. destruct H as (x & r & -> & Hx & H). apply lang_cls in Hx. destruct Hx as (x' & -> & Hx).
    apply lang_cat in H. destruct H as (m & r2 & -> & Hm & H). apply lang_star_dot in Hm.
    apply D in H. destruct H as (a & r3 & -> & Ha & H). apply D in H. destruct H as (b & r4 & -> & Hb & H). apply D in H. destruct H as (c & r5 & -> & Hc & H).
    apply lang_ch in H. subst r5. exists x', m, a, b, c. split; [reflexivity|]. split; [now apply cls_alnum|].
    split; [|now repeat constructor]. apply Forall_forall. intros y Hy ->. now apply Hm.
  - intros (x & m & a & b & c & -> & Hx & Hm & Hg). inversion Hg as [|? ? Ha Hg2]; subst. inversion Hg2 as [|? ? Hb Hg3]; subst. inversion Hg3 as [|? ? Hc _]; subst.
    apply lang_cat. eexists [x], _. split; [reflexivity|]. split; [apply lang_cls; exists x; split; [reflexivity|now apply cls_alnum]|].
    apply lang_cat. eexists m, _. split; [reflexivity|]. split; [apply lang_star_dot; intros Hi; rewrite Forall_forall in Hm; now apply (Hm 10)|].
    apply D. eexists a, _. split; [reflexivity|]. split; [exact Ha|]. apply D. eexists b, _. split; [reflexivity|]. split; [exact Hb|].
    apply D. eexists c, _. split; [reflexivity|]. split; [exact Hc|]. now apply lang_ch.
Qed.
Lemma is_url_ok w : is_url word_char w = true <-> UrlWord w.
Proof.
  unfold is_url, UrlWord. rewrite matchb_ok, lang_search_from_start. split.
  - intros (b & r & -> & H). apply lang_cat in H. destruct H as (s & t & -> & Hs & Ht). apply lang_alts_ustr in Hs; [|plains].
    apply lang_ustr in Ht; [|plains]. exists (s ++ t), r. split; [reflexivity|]. rewrite map_app, Ht. cbn [map In] in Hs.
    destruct Hs as [<-|[<-|[<-|[<-|[]]]]]; cbn [map In]; auto 6.
  - intros (s & r & -> & Hs).
    assert (G : exists a b, s = a ++ b /\ In (map fold_lower a) (map lit ["https"; "http"; "ftp"; "ssh"]%string) /\ map fold_lower b = lit "://").
    { assert (C : forall p q, map fold_lower s = p ++ q -> exists a b, s = a ++ b /\ map fold_lower a = p /\ map fold_lower b = q).
      { clear. induction s as [|c s IH]; intros p q H.
        - symmetry in H. apply app_eq_nil in H. destruct H as [-> ->]. exists [], []. auto.
        - destruct p as [|x p]; [exists [], (c :: s); auto|]. cbn in H. injection H as H1 H2. destruct (IH p q H2) as (a & b & -> & Ha & Hb).
          exists (c :: a), b. cbn. rewrite H1, Ha. auto. }
      cbn [map In] in Hs.
      destruct Hs as [Hs|[Hs|[Hs|[Hs|[]]]]]; symmetry in Hs;
        [destruct (C (lit "https") (lit "://") Hs) as (a & b & -> & Ha & Hb)
        |destruct (C (lit "http") (lit "://") Hs) as (a & b & -> & Ha & Hb)
        |destruct (C (lit "ftp") (lit "://") Hs) as (a & b & -> & Ha & Hb)
        |destruct (C (lit "ssh") (lit "://") Hs) as (a & b & -> & Ha & Hb)];
      exists a, b; (split; [reflexivity|]); split; try exact Hb; rewrite Ha; cbn [map In]; tauto. }
    destruct G as (a & b & -> & Ha & Hb). exists (a ++ b), r. split; [reflexivity|]. apply lang_cat. exists a, b.
    split; [reflexivity|]. split; [apply lang_alts_ustr; [plains|exact Ha]|apply lang_ustr; [plains|exact Hb]].
Qed.
Lemma prefix_ok p w : starts_with p w = true <-> prefix p w.
Proof. apply starts_with_spec. Qed.
Lemma infix_ok p w : contains p w = true <-> infix p w.
Proof. apply contains_spec. Qed.
Lemma suffix_ok p w : ends_with p w = true <-> suffix p w.
Proof.
  unfold ends_with, suffix. rewrite starts_with_spec. split.
  - intros (r & H). exists (rev r). rewrite <- (rev_involutive w), H, rev_app_distr, rev_involutive. reflexivity.
  - intros (a & ->). exists (rev a). apply rev_app_distr.
Qed.
Lemma is_random_path_ok w : is_random_path w = true <-> PathWord w.
Proof. unfold is_random_path, PathWord. rewrite !orb_true_iff, !infix_ok, prefix_ok. tauto. Qed.
Lemma is_refs_ok w : is_refs word_char w = true <-> RefWord word_char w.
Proof.
  unfold is_refs, RefWord, search_whole. rewrite !orb_true_iff, !prefix_ok, matchb_ok, lang_cat.
  assert (G : (exists v u, w = v ++ u /\ lang (rep 7 (Cls WordClass)) v /\ lang (Cat (str (lit "..")) (rep 7 (Cls WordClass))) u) <->
    (exists a b, w = a ++ lit ".." ++ b /\ length a = 7%nat /\ length b = 7%nat /\ Forall (fun c => word_char c = true) (a ++ b))).
  { split.
    - intros (a & u & -> & Ha & Hu). apply lang_cat in Hu. destruct Hu as (d & b & -> & Hd & Hb). apply lang_str in Hd. subst d.
      apply lang_rep_cls in Ha, Hb. destruct Ha, Hb. exists a, b. rewrite Forall_app. auto.
    - intros (a & b & -> & Ha & Hb & Hf). apply Forall_app in Hf. destruct Hf. exists a, (lit ".." ++ b). split; [reflexivity|].
      split; [apply lang_rep_cls; auto|]. apply lang_cat. exists (lit ".."), b. split; [reflexivity|]. split; [now apply lang_str|apply lang_rep_cls; auto]. }
  rewrite G. tauto.
Qed.
Lemma is_base64_ok w : is_base64 word_char w = true <-> Base64Word w.
Proof.
  unfold is_base64, Base64Word, search_whole. rewrite orb_true_iff, suffix_ok, andb_true_iff, N.ltb_lt, matchb_ok, lang_plus_cls.
  assert (G : forall x, in_cls (Ranges [(65, 90); (97, 122); (48, 57); (43, 43); (47, 47); (61, 61)]) x = true <-> (alnum x \/ one_of "+/=" x)).
  { intros x. ranges. }
  rewrite (Forall_iff _ _ w G). split; intros [H|[H1 H2]]; auto; right; split; auto; [tauto|]. split; [|exact H2]. intros ->. discriminate.
Qed.
Lemma is_key_for_id_ok w : is_key_for_id word_char w = true <-> exists a m b, w = a ++ m ++ b /\
    In (map fold_lower m) (map lit ["id"; "key"; "ref"; "region"; "token"; "secret"; "password"]%string).
Proof.
  unfold is_key_for_id. rewrite matchb_ok, lang_search. split; intros (a & m & b & -> & H); exists a, m, b; (split; [reflexivity|]);
    (apply lang_alts_ustr in H || apply lang_alts_ustr); try assumption; plains.
Qed.
Lemma contains_odd_char_ok w : contains_odd_char word_char w = true <-> exists c, In c w /\ one_of "<>{}%$,*" c.
Proof.
  unfold contains_odd_char. rewrite matchb_ok, lang_search. split.
  - intros (a & m & b & -> & H). apply lang_cls in H. destruct H as (c & -> & H). exists c. split; [apply in_or_app; right; now left|]. ranges.
  - intros (c & Hi & Hc). apply in_split in Hi. destruct Hi as (a & b & ->). exists a, [c], b. split; [reflexivity|]. apply lang_cls. exists c. split; [reflexivity|]. ranges.
Qed.
Lemma is_whitespace_ok c : is_whitespace c = true <-> white c.
Proof. unfold is_whitespace, white. ranges. Qed.

Theorem parse_literal_ok w t : parse_literal word_char w = Some t <-> recognised word_char w t.
Proof.
  unfold recognised, literal_classes.
  assert (STEP : forall C b tok l (e : option (list N)), (b = true <-> C w) ->
    (e = Some t <-> first_class l w t) -> ((if b then Some tok else e) = Some t <-> first_class ((C, tok) :: l) w t)).
  { intros C b tok l e Hb He. destruct b.
    - split; [intros [= ->]; constructor; now apply Hb|]. intros H. inversion H; subst; [reflexivity|]. exfalso. match goal with H : ~ C w |- _ => apply H, Hb; reflexivity end.
    - rewrite He. split.
      + intros H. constructor; [|exact H]. intros Hc. apply Hb in Hc. discriminate.
      + intros H. inversion H; subst; [|assumption]. exfalso. match goal with H : C w |- _ => apply Hb in H; discriminate end. }
  unfold parse_literal.
  apply STEP; [apply is_date_ok|]. apply STEP; [apply is_hash_ok|]. apply STEP; [apply is_uid_ok|]. apply STEP; [apply is_cookie_ok|].
  apply STEP; [apply is_uuid_ok|]. apply STEP; [apply is_url_ok|]. apply STEP; [apply is_random_path_ok|]. apply STEP; [apply is_refs_ok|].
  apply STEP; [apply is_base64_ok|]. split; [discriminate|]. intros H. inversion H.
Qed.
End Word.
