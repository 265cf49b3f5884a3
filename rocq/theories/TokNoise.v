(** The global filter's expression matches exactly the noise lines of TokSpec.v. *)
From Coq Require Import String List NArith Bool Lia.
From Verif Require Import Common CommonFacts Regex RegexFacts TokModel TokSpec TokRe.
Import ListNotations.
Open Scope N_scope.

Section Word.
Variable word_char : N -> bool.
Notation lang := (lang word_char).
Notation matchb := (matchb word_char).
Notation in_cls := (in_cls word_char).

Ltac cat H u v := apply lang_cat in H; let H1 := fresh "H" in destruct H as (u & v & -> & H1 & H).
Ltac strs := repeat match goal with H : lang (str _) _ |- _ => apply lang_str in H; subst end.
Ltac cats := repeat match goal with |- lang (Cat _ _) (_ ++ _) => apply lang_cat; eexists _, _; split; [reflexivity|split] end.

Lemma boundary_ok b : (b = [] \/ exists x c', b = x :: c' /\ word_char x = false) <-> ends_a_word word_char b.
Proof.
  unfold ends_a_word. split.
  - intros [->|(x & c & -> & H)]; [exact I|exact H].
  - destruct b as [|x c]; [now left|]. intros H. right. eauto.
Qed.
Lemma echo_cls w : Forall (fun c => in_cls (NotRanges [(32, 32)]) c = true) w <-> ~ In 32 w.
Proof.
  rewrite Forall_forall. split.
  - intros H Hi. apply H in Hi. discriminate Hi.
  - intros H c Hc. assert (c <> 32) by (intros ->; auto). clear - H0. ranges.
Qed.
Lemma rep_dot n w : lang (rep n dot) w <-> length w = n /\ no_newline w.
Proof.
  unfold dot. rewrite lang_rep_cls, Forall_forall. unfold no_newline. split; intros [Hl H]; (split; [exact Hl|]).
  - intros Hi. apply H in Hi. discriminate Hi.
  - intros c Hc. apply cls_dot. intros ->. auto.
Qed.
Definition art_cls : re := Cls (Ranges [(32, 32); (39, 39); (34, 34); (44, 44)]).
Lemma art_ok w : lang (Star art_cls) w <-> Forall (one_of " '"",") w.
Proof. unfold art_cls. rewrite lang_star_cls. apply Forall_iff. intros x. ranges. Qed.

Theorem noise_ok line : matchb re_noise line = true <-> noise word_char line.
Proof.
  rewrite matchb_ok. unfold re_noise. rewrite lang_alts. split.
  - intros (r & Hr & H). cbn [In] in Hr.
    destruct Hr as [<-|[<-|[<-|[<-|[<-|[<-|[<-|[<-|[<-|[]]]]]]]]]].
    + apply lang_search in H. destruct H as (a & m & b & -> & H). cat H u v. cat H v1 v2. strs. apply lang_dot in H1. destruct H1 as (c & -> & Hc).
      rewrite <- !app_assoc. now apply NoiseGet.
    + apply lang_search_to_end in H. destruct H as (a & b & -> & H). cat H u v. cat H k v2. cat H v3 v4. strs.
      apply lang_plus_cls in H1. destruct H1 as [H1 H2]. apply lang_star_cls in H. apply NoiseMirror; [exact H1|..].
      * revert H2. apply Forall_impl. intros x. apply cls_alpha.
      * revert H. apply Forall_impl. intros x. ranges.
    + apply lang_search in H. destruct H as (a & m & b & -> & H). cat H u v. strs. apply lang_dot in H. destruct H as (c & -> & Hc).
      rewrite <- !app_assoc. now apply NoiseTrying.
    + apply lang_search_boundary in H. destruct H as (a & m & b & -> & H & Hb). cat H u v. cat H v1 v2. cat H v3 v4. strs.
      apply lang_star_dot in H1. apply boundary_ok in Hb. apply lang_alts in H. destruct H as (q & Hq & H). rewrite <- !app_assoc.
      apply NoiseOvs; try assumption. cbn [In map] in Hq |- *. destruct Hq as [<-|[<-|[<-|[]]]]; apply lang_str in H; subst; tauto.
    + apply lang_search_boundary in H. destruct H as (a & m & b & -> & H & Hb). cat H u v. cat H v1 v2. cat H v3 v4. strs.
      apply lang_star_dot in H2. apply boundary_ok in Hb. apply lang_alts in H0. destruct H0 as (q & Hq & H0). rewrite <- !app_assoc.
      rewrite (app_assoc u). apply NoiseTables; try assumption. cbn [In map] in Hq |- *. destruct Hq as [<-|[<-|[]]]; apply lang_str in H0; subst; auto.
    + apply lang_search_from_start in H. destruct H as (m & b & -> & H). cat H u v. cat H v1 v2. cat H v3 v4. cat H v5 v6. cat H v7 v8. strs.
      apply lang_cls in H1, H. destruct H1 as (x & -> & Hx). destruct H as (d & -> & Hd). apply lang_rep_from_cls in H3. destruct H3 as [Hl Hf].
      rewrite <- !app_assoc. apply NoiseChrony.
      * clear - Hx. ranges.
      * exact Hl.
      * revert Hf. apply Forall_impl. intros y. ranges.
      * now apply cls_digit in Hd.
    + apply lang_search_from_start in H. destruct H as (m & b & -> & H). cat H u v. cat H v1 v2. cat H v3 v4. strs.
      apply lang_plus_cls in H0, H2. destruct H0 as [H0 H1]. destruct H2 as [H2 H3]. rewrite <- !app_assoc. apply NoiseMemcached; try assumption.
      * revert H1. apply Forall_impl. intros y. ranges.
      * revert H3. apply Forall_impl. intros y. apply cls_digit.
    + unfold search_whole in H. cat H u v. strs. apply lang_plus_cls in H. destruct H as [H1 H2]. apply NoiseEcho; [exact H1|now apply echo_cls].
    + unfold search_whole in H. cat H u v. cat H v1 v2. cat H v3 v4. cat H v5 v6. strs. apply art_ok in H0, H. apply rep_dot in H2. destruct H2.
      now apply NoiseArt.
  - assert (NTH : forall n r, nth_error [
    search (Cat (str (lit "GET / HTTP/1")) (Cat dot (str (lit "1"))));
    search_to_end (Cat (str (lit "* ")) (Cat (plus (Cls (Ranges r_alpha)))
      (Cat (str (lit ": ")) (Star (Cls (Ranges (r_alnum ++ [(46, 46); (45, 45)])))))));
    search (Cat (str (lit "Trying other mirror")) dot);
    search_boundary (Cat (str (lit "ovs-ofctl ")) (Cat (Star dot) (Cat (str (lit " "))
      (alts [str (lit "dump-ports"); str (lit "dump-flows"); str (lit "show")]))));
    search_boundary (Cat (alts [str (lit "ip"); str (lit "eb")]) (Cat (str (lit "tables "))
      (Cat (Star dot) (str (lit " -L")))));
    search_from_start (Cat (str (lit "^")) (Cat (Cls (Ranges [(43, 43); (42, 42); (45, 45)]))
      (Cat (str (lit " ")) (Cat (rep_from 5 (Cls (Ranges [(97, 122); (48, 57); (46, 46); (62, 62); (45, 45)])))
      (Cat (str (lit " ")) (Cls r_digit))))));
    search_from_start (Cat (plus (Cls (Ranges [(97, 102); (48, 57); (115, 115); (47, 47)])))
      (Cat (str (lit ">")) (Cat (plus (Cls r_digit)) (str (lit " ")))));
    search_whole (Cat (str (lit "++ echo ")) (plus (Cls (NotRanges [(32, 32)]))));
    search_whole (Cat (Star art_cls) (Cat (str (lit "|"))
      (Cat (rep 17 dot) (Cat (str (lit "|")) (Star art_cls)))))] n = Some r -> lang r line -> exists q, In q [
    search (Cat (str (lit "GET / HTTP/1")) (Cat dot (str (lit "1"))));
    search_to_end (Cat (str (lit "* ")) (Cat (plus (Cls (Ranges r_alpha)))
      (Cat (str (lit ": ")) (Star (Cls (Ranges (r_alnum ++ [(46, 46); (45, 45)])))))));
    search (Cat (str (lit "Trying other mirror")) dot);
    search_boundary (Cat (str (lit "ovs-ofctl ")) (Cat (Star dot) (Cat (str (lit " "))
      (alts [str (lit "dump-ports"); str (lit "dump-flows"); str (lit "show")]))));
    search_boundary (Cat (alts [str (lit "ip"); str (lit "eb")]) (Cat (str (lit "tables "))
      (Cat (Star dot) (str (lit " -L")))));
    search_from_start (Cat (str (lit "^")) (Cat (Cls (Ranges [(43, 43); (42, 42); (45, 45)]))
      (Cat (str (lit " ")) (Cat (rep_from 5 (Cls (Ranges [(97, 122); (48, 57); (46, 46); (62, 62); (45, 45)])))
      (Cat (str (lit " ")) (Cls r_digit))))));
    search_from_start (Cat (plus (Cls (Ranges [(97, 102); (48, 57); (115, 115); (47, 47)])))
      (Cat (str (lit ">")) (Cat (plus (Cls r_digit)) (str (lit " ")))));
    search_whole (Cat (str (lit "++ echo ")) (plus (Cls (NotRanges [(32, 32)]))));
    search_whole (Cat (Star art_cls) (Cat (str (lit "|"))
      (Cat (rep 17 dot) (Cat (str (lit "|")) (Star art_cls)))))] /\ lang q line).
    { intros n r Hn Hl. apply nth_error_In in Hn. eauto. }
    intros H. destruct H.
    + apply (NTH 0%nat _ eq_refl). apply lang_search. exists a, (lit "GET / HTTP/1" ++ [c] ++ lit "1"), b. split; [rewrite <- !app_assoc; reflexivity|]. cats; try (now apply lang_str). apply lang_dot. eauto.
    + apply (NTH 1%nat _ eq_refl). apply lang_search_to_end. eexists a, _. split; [reflexivity|]. cats; try (now apply lang_str).
      * apply lang_plus_cls. split; [assumption|]. revert H0. apply Forall_impl. intros x. apply cls_alpha.
      * apply lang_star_cls. revert H1. apply Forall_impl. intros x. ranges.
    + apply (NTH 2%nat _ eq_refl). apply lang_search. exists a, (lit "Trying other mirror" ++ [c]), b. split; [rewrite <- !app_assoc; reflexivity|]. cats; try (now apply lang_str). apply lang_dot. eauto.
    + apply (NTH 3%nat _ eq_refl). apply lang_search_boundary. exists a, (lit "ovs-ofctl " ++ m ++ lit " " ++ cmd), b. split; [rewrite <- !app_assoc; reflexivity|]. split; [|now apply boundary_ok].
      cats; try (now apply lang_str); [now apply lang_star_dot|]. apply lang_alts. exists (str cmd). split; [|now apply lang_str].
      cbn [map In] in H0 |- *. destruct H0 as [<-|[<-|[<-|[]]]]; tauto.
    + apply (NTH 4%nat _ eq_refl). apply lang_search_boundary. cbn [map In] in H.
      assert (T : exists p, t = p ++ lit "tables " /\ lang (alts [str (lit "ip"); str (lit "eb")]) p).
      { destruct H as [<-|[<-|[]]]; [exists (lit "ip")|exists (lit "eb")]; (split; [reflexivity|]); apply lang_alts; eexists; (split; [|now apply lang_str]); cbn [In]; auto. }
      destruct T as (p & -> & Hp). exists a, (p ++ lit "tables " ++ m ++ lit " -L"), b. split; [rewrite <- !app_assoc; reflexivity|]. split; [|now apply boundary_ok].
      cats; try (now apply lang_str); [exact Hp|now apply lang_star_dot].
    + apply (NTH 5%nat _ eq_refl). apply lang_search_from_start. exists (lit "^" ++ [x] ++ lit " " ++ h ++ lit " " ++ [d]), b. split; [rewrite <- !app_assoc; reflexivity|].
      cats; try (now apply lang_str).
      * apply lang_cls. exists x. split; [reflexivity|]. clear - H. ranges.
      * apply lang_rep_from_cls. split; [assumption|]. revert H1. apply Forall_impl. intros y. ranges.
      * apply lang_cls. exists d. split; [reflexivity|now apply cls_digit].
    + apply (NTH 6%nat _ eq_refl). apply lang_search_from_start. exists (k ++ lit ">" ++ n ++ lit " "), b. split; [rewrite <- !app_assoc; reflexivity|].
      cats; try (now apply lang_str); apply lang_plus_cls; (split; [assumption|]).
      * revert H0. apply Forall_impl. intros y. ranges.
      * revert H2. apply Forall_impl. intros y. apply cls_digit.
    + apply (NTH 7%nat _ eq_refl). unfold search_whole. cats; [now apply lang_str|]. apply lang_plus_cls. split; [assumption|now apply echo_cls].
    + apply (NTH 8%nat _ eq_refl). unfold search_whole. cats; try (now apply lang_str); try (now apply art_ok). now apply rep_dot.
Qed.
Theorem global_filter_ok line : global_filter word_char line = true <-> single_word line \/ noise word_char line.
Proof.
  unfold global_filter. rewrite orb_true_iff, noise_ok, negb_true_iff.
  assert (G : existsb is_whitespace line = false <-> single_word line).
  { unfold single_word. split.
    - intros H c Hc Hw. apply is_whitespace_ok in Hw. assert (existsb is_whitespace line = true) by (apply existsb_exists; eauto). congruence.
    - intros H. destruct (existsb is_whitespace line) eqn:E; [|reflexivity]. apply existsb_exists in E. destruct E as (c & Hc & Hw).
      apply is_whitespace_ok in Hw. destruct (H c Hc Hw). }
  rewrite G. tauto.
Qed.
End Word.
