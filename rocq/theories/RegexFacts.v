(** The matcher decides the language. *)
From Coq Require Import List NArith Bool Lia.
From Verif Require Import Common Regex.
Import ListNotations.
Open Scope N_scope.

Lemma eqb_ranges_eq a : forall b, eqb_ranges a b = true -> a = b.
Proof.
  induction a as [|[x y] a IH]; intros [|[z w] b]; cbn; try discriminate; [reflexivity|].
  intros H. apply andb_prop in H. destruct H as [H1 H2]. apply andb_prop in H1. destruct H1 as [H0 H1].
  apply N.eqb_eq in H0, H1. subst. f_equal. now apply IH.
Qed.
Lemma eqb_cls_eq a b : eqb_cls a b = true -> a = b.
Proof.
  destruct a, b; cbn; try discriminate; intros H; try reflexivity; f_equal; now apply eqb_ranges_eq.
Qed.
Lemma eqb_re_eq a : forall b, eqb_re a b = true -> a = b.
Proof.
  induction a; intros []; cbn; try discriminate; intros H; try reflexivity.
  - f_equal. now apply eqb_cls_eq.
  - apply andb_prop in H. destruct H. f_equal; auto.
  - apply andb_prop in H. destruct H. f_equal; auto.
  - f_equal; auto.
Qed.

Section Word.
Variable word_char : N -> bool.
Notation lang := (lang word_char).
Notation matchb := (matchb word_char).
Notation der := (der word_char).

Lemma lang_emp u : lang Emp u <-> False.
Proof. split; [intros H; inversion H|tauto]. Qed.
Lemma lang_eps u : lang Eps u <-> u = [].
Proof. split; [intros H; inversion H; reflexivity|intros ->; constructor]. Qed.
Lemma lang_cls k u : lang (Cls k) u <-> exists c, u = [c] /\ in_cls word_char k c = true.
Proof. split; [intros H; inversion H; subst; eauto|intros (c & -> & H); now constructor]. Qed.
Lemma lang_cat r s u : lang (Cat r s) u <-> exists v w, u = v ++ w /\ lang r v /\ lang s w.
Proof. split; [intros H; inversion H; subst; eauto|intros (v & w & -> & H1 & H2); now constructor]. Qed.
Lemma lang_alt r s u : lang (Alt r s) u <-> lang r u \/ lang s u.
Proof. split; [intros H; inversion H; subst; auto|intros [H|H]; [now apply LAltL|now apply LAltR]]. Qed.
Lemma lang_star_nonempty r u : lang (Star r) u <->
  u = [] \/ exists v w, u = v ++ w /\ v <> [] /\ lang r v /\ lang (Star r) w.
Proof.
  split.
  - intros H. remember (Star r) as q eqn:E. revert E. induction H; intros E; try discriminate.
    + left. reflexivity.
    + injection E as ->. destruct u as [|c u].
      * now apply IHlang2.
      * right. exists (c :: u), v. repeat split; auto; discriminate.
  - intros [-> | (v & w & -> & _ & H1 & H2)]; [constructor|now constructor].
Qed.
Lemma mem_alt_lang r s u : mem_alt r s = true -> lang r u -> lang s u.
Proof.
  revert r. induction s; intros r; cbn [mem_alt]; intros H Hu; try (apply eqb_re_eq in H; subst; exact Hu).
  apply orb_prop in H. rewrite lang_alt. destruct H as [H|H].
  - apply eqb_re_eq in H. subst. now left.
  - right. now apply (IHs2 r).
Qed.
Lemma alt_base r s u : lang (match s with Emp => r | _ => if mem_alt r s then s else Alt r s end) u <-> lang r u \/ lang s u.
Proof.
  assert (G : lang (if mem_alt r s then s else Alt r s) u <-> lang r u \/ lang s u).
  { destruct (mem_alt r s) eqn:E; [|apply lang_alt]. split; [now right|intros [H|H]; [|exact H]]. now apply (mem_alt_lang r). }
  destruct s; try exact G. rewrite lang_emp. tauto.
Qed.
Lemma lang_alt' r : forall s u, lang (alt r s) u <-> lang r u \/ lang s u.
Proof.
  induction r; intros s u; cbn [alt]; try apply alt_base.
  - rewrite lang_emp. tauto.
  - rewrite IHr1, IHr2, lang_alt. tauto.
Qed.
Lemma lang_cat' r s u : lang (cat r s) u <-> lang (Cat r s) u.
Proof.
  assert (HE : forall x, lang (Cat Emp x) u <-> lang Emp u).
  { intros x. rewrite lang_cat, lang_emp. split; [intros (v & w & _ & H & _); now apply lang_emp in H|tauto]. }
  assert (HE2 : forall x, lang (Cat x Emp) u <-> lang Emp u).
  { intros x. rewrite lang_cat, lang_emp. split; [intros (v & w & _ & _ & H); now apply lang_emp in H|tauto]. }
  assert (H1 : forall x, lang (Cat Eps x) u <-> lang x u).
  { intros x. rewrite lang_cat. split.
    - intros (v & w & -> & H & Hw). apply lang_eps in H. subst. exact Hw.
    - intros H. exists [], u. split; [reflexivity|]. split; [constructor|exact H]. }
  assert (H2 : forall x, lang (Cat x Eps) u <-> lang x u).
  { intros x. rewrite lang_cat. split.
    - intros (v & w & -> & Hv & H). apply lang_eps in H. subst. now rewrite app_nil_r.
    - intros H. exists u, []. rewrite app_nil_r. split; [reflexivity|]. split; [exact H|constructor]. }
  destruct r, s; cbn [cat]; rewrite ?HE, ?HE2, ?H1, ?H2; reflexivity.
Qed.
Lemma nullable_ok r : nullable r = true <-> lang r [].
Proof.
  induction r; cbn [nullable].
  - rewrite lang_emp. split; [discriminate|tauto].
  - rewrite lang_eps. tauto.
  - rewrite lang_cls. split; [discriminate|intros (x & H & _); discriminate].
  - rewrite andb_true_iff, IHr1, IHr2, lang_cat. split.
    + intros [H1 H2]. exists [], []. auto.
    + intros (v & w & E & H1 & H2). symmetry in E. apply app_eq_nil in E. destruct E as [-> ->]. auto.
  - rewrite orb_true_iff, IHr1, IHr2, lang_alt. tauto.
  - split; [constructor|reflexivity].
Qed.
Lemma der_ok c r : forall u, lang (der c r) u <-> lang r (c :: u).
Proof.
  induction r; intros u; cbn [Regex.der].
  - rewrite !lang_emp. tauto.
  - rewrite lang_emp, lang_eps. split; [tauto|discriminate].
  - rewrite lang_cls. destruct (in_cls word_char c0 c) eqn:E.
    + rewrite lang_eps. split; [intros ->; eauto|intros (x & [= -> ->] & _); reflexivity].
    + rewrite lang_emp. split; [tauto|intros (x & [= -> ->] & H); congruence].
  - assert (G : lang (Cat (der c r1) r2) u \/ (nullable r1 = true /\ lang (der c r2) u) <-> lang (Cat r1 r2) (c :: u)).
    { rewrite !lang_cat. split.
      - intros [(v & w & -> & H1 & H2)|[H1 H2]].
        + exists (c :: v), w. split; [reflexivity|]. split; [now apply IHr1|exact H2].
        + exists [], (c :: u). split; [reflexivity|]. split; [now apply nullable_ok|now apply IHr2].
      - intros (v & w & E & H1 & H2). destruct v as [|x v].
        + cbn in E. subst w. right. split; [now apply nullable_ok|now apply IHr2].
        + injection E as -> ->. left. exists v, w. split; [reflexivity|]. split; [now apply IHr1|exact H2]. }
    destruct (nullable r1) eqn:E; [rewrite lang_alt'|]; rewrite lang_cat', <- G; [tauto|]. split; [tauto|]. intros [H|[H _]]; [exact H|discriminate].
  - rewrite lang_alt', lang_alt, IHr1, IHr2. tauto.
  - rewrite lang_cat', lang_cat, lang_star_nonempty. split.
    + intros (v & w & -> & H1 & H2). right. exists (c :: v), w. split; [reflexivity|]. split; [discriminate|]. split; [now apply IHr|exact H2].
    + intros [E|(v & w & E & Hv & H1 & H2)]; [discriminate|]. destruct v as [|x v]; [congruence|]. injection E as -> ->.
      exists v, w. split; [reflexivity|]. split; [now apply IHr|exact H2].
Qed.
Theorem matchb_ok : forall u r, matchb r u = true <-> lang r u.
Proof.
  induction u as [|c u IH]; intros r; cbn [Regex.matchb].
  - apply nullable_ok.
  - rewrite <- der_ok, <- IH. destruct r; try reflexivity. cbn [Regex.der]. destruct u; cbn; reflexivity.
Qed.

(** ** Languages of the building blocks *)
Lemma lang_any u : lang any u.
Proof.
  induction u as [|c u IH]; [constructor|]. change (c :: u) with ([c] ++ u). constructor; [|exact IH]. now constructor.
Qed.
Lemma lang_ch c u : lang (ch c) u <-> u = [c].
Proof.
  unfold ch. rewrite lang_cls. cbn. split.
  - intros (x & -> & H). rewrite orb_false_r in H. apply andb_prop in H. destruct H as [H1 H2]. apply N.leb_le in H1, H2.
    f_equal. lia.
  - intros ->. exists c. split; [reflexivity|]. rewrite !N.leb_refl. reflexivity.
Qed.
Lemma lang_str s : forall u, lang (str s) u <-> u = s.
Proof.
  induction s as [|c s IH]; intros u; [apply lang_eps|]. destruct s as [|d s]; [apply lang_ch|].
  change (str (c :: d :: s)) with (Cat (ch c) (str (d :: s))). rewrite lang_cat. split.
  - intros (v & w & -> & H1 & H2). apply lang_ch in H1. apply IH in H2. subst. reflexivity.
  - intros ->. exists [c], (d :: s). split; [reflexivity|]. split; [now apply lang_ch|now apply IH].
Qed.
Lemma lang_star_cls k u : lang (Star (Cls k)) u <-> Forall (fun c => in_cls word_char k c = true) u.
Proof.
  split.
  - intros H. remember (Star (Cls k)) as q eqn:E. revert E. induction H; intros E; try discriminate; [constructor|].
    injection E as ->. apply lang_cls in H. destruct H as (c & -> & Hc). constructor; auto.
  - induction 1 as [|c u Hc _ IH]; [constructor|]. change (c :: u) with ([c] ++ u). constructor; [|exact IH]. now constructor.
Qed.
Lemma lang_plus_cls k u : lang (plus (Cls k)) u <-> u <> [] /\ Forall (fun c => in_cls word_char k c = true) u.
Proof.
  unfold plus. rewrite lang_cat. split.
  - intros (v & w & -> & H1 & H2). apply lang_cls in H1. destruct H1 as (c & -> & Hc). apply lang_star_cls in H2.
    split; [discriminate|]. constructor; auto.
  - intros [Hne Hf]. destruct u as [|c u]; [congruence|]. inversion Hf; subst. exists [c], u. split; [reflexivity|].
    split; [now constructor|now apply lang_star_cls].
Qed.
Lemma lang_rep_cls n k : forall u, lang (rep n (Cls k)) u <-> length u = n /\ Forall (fun c => in_cls word_char k c = true) u.
Proof.
  induction n as [|n IH]; intros u; cbn [rep].
  - rewrite lang_eps. split; [intros ->; auto|intros [H _]; now apply length_zero_iff_nil].
  - rewrite lang_cat. split.
    + intros (v & w & -> & H1 & H2). apply lang_cls in H1. destruct H1 as (c & -> & Hc). apply IH in H2. destruct H2 as [H2 H3].
      cbn. split; [now rewrite H2|]. constructor; auto.
    + intros [Hl Hf]. destruct u as [|c u]; [discriminate|]. inversion Hf; subst. injection Hl as Hl.
      exists [c], u. split; [reflexivity|]. split; [now constructor|]. now apply IH.
Qed.
Lemma lang_rep_from_cls n k u : lang (rep_from n (Cls k)) u <-> (n <= length u)%nat /\ Forall (fun c => in_cls word_char k c = true) u.
Proof.
  unfold rep_from. rewrite lang_cat. split.
  - intros (v & w & -> & H1 & H2). apply lang_rep_cls in H1. apply lang_star_cls in H2. destruct H1 as [H0 H1].
    rewrite app_length. split; [lia|]. apply Forall_app. auto.
  - intros [Hl Hf]. exists (firstn n u), (skipn n u). split; [symmetry; apply firstn_skipn|].
    rewrite <- (firstn_skipn n u) in Hf. apply Forall_app in Hf. destruct Hf as [F1 F2].
    split; [apply lang_rep_cls; split; [apply firstn_length_le; exact Hl|exact F1]|now apply lang_star_cls].
Qed.
Lemma lang_alts l u : lang (alts l) u <-> exists r, In r l /\ lang r u.
Proof.
  induction l as [|r l IH]; [cbn; rewrite lang_emp; split; [tauto|intros (r & [] & _)]|].
  destruct l as [|s l].
  - cbn. split; [intros H; exists r; auto|intros (q & [<-|[]] & H); exact H].
  - change (alts (r :: s :: l)) with (Alt r (alts (s :: l))). rewrite lang_alt, IH. split.
    + intros [H|(q & Hq & H)]; [exists r; split; [now left|exact H]|exists q; split; [now right|exact H]].
    + intros (q & [<-|Hq] & H); [now left|right; eauto].
Qed.
Lemma lang_opt r u : lang (opt r) u <-> lang r u \/ u = [].
Proof. unfold opt. rewrite lang_alt, lang_eps. tauto. Qed.
Lemma lang_search r u : lang (search r) u <-> exists a b c, u = a ++ b ++ c /\ lang r b.
Proof.
  unfold search. rewrite lang_cat. split.
  - intros (a & w & -> & _ & H). apply lang_cat in H. destruct H as (b & c & -> & H & _). eauto.
  - intros (a & b & c & -> & H). exists a, (b ++ c). split; [reflexivity|]. split; [apply lang_any|].
    apply lang_cat. exists b, c. split; [reflexivity|]. split; [exact H|apply lang_any].
Qed.
Lemma lang_search_from_start r u : lang (search_from_start r) u <-> exists b c, u = b ++ c /\ lang r b.
Proof.
  unfold search_from_start. rewrite lang_cat. split.
  - intros (b & c & -> & H & _). eauto.
  - intros (b & c & -> & H). exists b, c. split; [reflexivity|]. split; [exact H|apply lang_any].
Qed.
Lemma lang_search_to_end r u : lang (search_to_end r) u <-> exists a b, u = a ++ b /\ lang r b.
Proof.
  unfold search_to_end. rewrite lang_cat. split.
  - intros (a & b & -> & _ & H). eauto.
  - intros (a & b & -> & H). exists a, b. split; [reflexivity|]. split; [apply lang_any|exact H].
Qed.
Lemma lang_search_boundary r u : lang (search_boundary r) u <->
  exists a b c, u = a ++ b ++ c /\ lang r b /\ (c = [] \/ exists x c', c = x :: c' /\ word_char x = false).
Proof.
  unfold search_boundary. rewrite lang_cat. split.
  - intros (a & w & -> & _ & H). apply lang_cat in H. destruct H as (b & c & -> & H & H2). exists a, b, c.
    split; [reflexivity|]. split; [exact H|]. rewrite lang_alt, lang_eps, lang_cat in H2.
    destruct H2 as [->|(v & w & -> & H2 & _)]; [now left|]. right. apply lang_cls in H2. destruct H2 as (x & -> & Hx).
    exists x, w. split; [reflexivity|]. cbn in Hx. now apply negb_true_iff.
  - intros (a & b & c & -> & H & Hc). exists a, (b ++ c). split; [reflexivity|]. split; [apply lang_any|].
    apply lang_cat. exists b, c. split; [reflexivity|]. split; [exact H|]. rewrite lang_alt, lang_eps.
    destruct Hc as [->|(x & c' & -> & Hx)]; [now left|right]. apply lang_cat. exists [x], c'. split; [reflexivity|].
    split; [constructor; cbn; now rewrite Hx|apply lang_any].
Qed.
End Word.
