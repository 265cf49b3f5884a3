(** Sources and their groups. *)
From Coq Require Import String List Arith NArith Bool Lia Permutation.
From Verif Require Import Common CommonFacts Utf8Facts TokModel TokSpec TokRe TokWords TokWord FilesModel FilesSpec FilesNames.
Import ListNotations.
Open Scope N_scope.

(** ** Offsets *)
Lemma drop_bytes_app a b : drop_bytes (utf8_len a) (a ++ b) = Some b.
Proof.
  induction a as [|c a IH]; cbn [utf8_len app].
  - destruct b; reflexivity.
  - cbn [drop_bytes]. pose proof (utf8_len1_pos c). replace (utf8_len1 c + utf8_len a =? 0) with false by (symmetry; apply N.eqb_neq; lia).
    replace (utf8_len1 c <=? utf8_len1 c + utf8_len a) with true by (symmetry; apply N.leb_le; lia).
    replace (utf8_len1 c + utf8_len a - utf8_len1 c) with (utf8_len a) by lia. exact IH.
Qed.
Lemma drop_bytes_some n s r : drop_bytes n s = Some r -> exists a, s = a ++ r /\ utf8_len a = n.
Proof.
  revert n. induction s as [|c s IH]; intros n; cbn [drop_bytes].
  - destruct (n =? 0) eqn:E; [|discriminate]. intros [= <-]. apply N.eqb_eq in E. exists []. auto.
  - destruct (n =? 0) eqn:E. { intros [= <-]. apply N.eqb_eq in E. exists []. auto. }
    destruct (utf8_len1 c <=? n) eqn:L; [|discriminate]. intros H. apply IH in H. destruct H as (a & -> & Ha). exists (c :: a). apply N.leb_le in L. cbn [utf8_len app]. split; [reflexivity|lia].
Qed.
Lemma drop_bytes_ascii n s : Forall (fun c => c < 128) s -> (n <= N.of_nat (length s) <-> drop_bytes n s <> None).
Proof.
  intros H. revert n. induction H as [|c s Hc Hs IH]; intros n; cbn [drop_bytes length].
  - destruct (n =? 0) eqn:E; [apply N.eqb_eq in E|apply N.eqb_neq in E]; split; intros; try congruence; lia.
  - assert (L : utf8_len1 c = 1) by (unfold utf8_len1; apply N.ltb_lt in Hc; now rewrite Hc). rewrite L.
    destruct (n =? 0) eqn:E; [apply N.eqb_eq in E; split; intros; [discriminate|lia]|apply N.eqb_neq in E].
    replace (1 <=? n) with true by (symmetry; apply N.leb_le; lia). rewrite <- IH. lia.
Qed.

(** ** get_sources *)
Lemma as_str_full s : as_str s = full_name s.
Proof. destruct s; reflexivity. Qed.
Lemma is_valid_ok s : is_valid s = true <-> ~ excluded s.
Proof.
  unfold is_valid, excluded. rewrite andb_true_iff, forallb_forall, negb_true_iff, as_str_full.
  assert (C : contains (lit "/etc/") (full_name s) = false <-> ~ infix (lit "/etc/") (full_name s)).
  { rewrite <- infix_ok. destruct (contains (lit "/etc/") (full_name s)); split; intros; congruence. }
  rewrite C. unfold exts, excluded_suffixes. split.
  - intros [H1 H2] [(e & He & Hs)|H]; [|contradiction]. apply in_map_iff in He. destruct He as (x & <- & Hx).
    assert (forall y, In y [lit x; lit x ++ lit ".gz"] -> ~ suffix y (full_name s)).
    { intros y Hy Hsy. specialize (H1 y). rewrite <- suffix_ok in Hsy. rewrite Hsy in H1. cbn [negb] in H1. discriminate H1. apply in_flat_map. exists x. auto. }
    destruct Hs as [Hs|Hs]; [apply (H (lit x))|apply (H (lit x ++ lit ".gz"))]; cbn [In]; auto.
  - intros H. split; [|intros H'; apply H; now right]. intros y Hy. apply in_flat_map in Hy. destruct Hy as (x & Hx & Hy). rewrite negb_true_iff.
    destruct (ends_with y (full_name s)) eqn:E; [|reflexivity]. exfalso. apply H. left. exists (lit x). split; [now apply in_map|]. apply suffix_ok in E.
    destruct Hy as [<-|[<-|[]]]; auto.
Qed.
Lemma excluded_dec s : {excluded s} + {~ excluded s}.
Proof. destruct (is_valid s) eqn:E; [right; now apply is_valid_ok|left]. destruct (is_valid s) eqn:F; [congruence|]. clear E.
  assert (forall P : Prop, (exists e, In e excluded_suffixes /\ (suffix e (full_name s) \/ suffix (e ++ lit ".gz") (full_name s))) \/ infix (lit "/etc/") (full_name s) -> excluded s) by (intros; assumption).
  clear H. unfold is_valid in F. rewrite as_str_full in F. apply andb_false_iff in F. rewrite negb_false_iff in F. unfold excluded.
  destruct F as [F|F]; [left|right; now apply infix_ok].
  assert (G : existsb (fun e => ends_with e (full_name s)) exts = true).
  { clear - F. induction exts as [|e l IH]; [discriminate|]. cbn in *. destruct (ends_with e (full_name s)); [reflexivity|]. now apply IH. }
  apply existsb_exists in G. destruct G as (y & Hy & E). apply in_flat_map in Hy. destruct Hy as (x & Hx & Hy). exists (lit x).
  split; [now apply in_map|]. apply suffix_ok in E. destruct Hy as [<-|[<-|[]]]; auto.
Qed.

Definition keep_item (i : res source) : bool := match i with Val s => is_valid s | _ => true end.
Lemma collect_vals l : collect (map Val l) = Val l.
Proof. induction l as [|s l IH]; [reflexivity|]. cbn. now rewrite IH. Qed.
Lemma collect_val_inv items l : collect items = Val l -> items = map Val l.
Proof.
  revert l. induction items as [|[s|e|] items IH]; intros l; cbn; try discriminate; [now intros [= <-]|].
  destruct (collect items) as [l'|e|] eqn:E; try discriminate. intros [= <-]. cbn. now rewrite (IH l').
Qed.
Lemma collect_fail l e r : collect (map Val l ++ Fail e :: r) = Fail e.
Proof. induction l as [|s l IH]; [reflexivity|]. cbn. now rewrite IH. Qed.
Lemma filter_vals l : filter keep_item (map Val l) = map Val (filter is_valid l).
Proof. induction l as [|s l IH]; [reflexivity|]. cbn. destruct (is_valid s); cbn; now rewrite IH. Qed.
Lemma filter_all_vals items l : filter keep_item items = map Val l -> exists l', items = map Val l'.
Proof.
  revert l. induction items as [|[s|e|] items IH]; intros l E; cbn in E; [exists []; reflexivity|..].
  - destruct (is_valid s).
    + destruct l as [|x l]; [discriminate|]. injection E as <- E. destruct (IH l E) as (l' & ->). exists (s :: l'). reflexivity.
    + destruct (IH l E) as (l' & ->). exists (s :: l'). reflexivity.
  - destruct l; discriminate.
  - destruct l; discriminate.
Qed.
Lemma selected_filter l : selected (fun s => ~ excluded s) l (filter is_valid l).
Proof.
  induction l as [|s l IH]; [constructor|]. cbn. destruct (is_valid s) eqn:E; constructor; auto; rewrite <- is_valid_ok; congruence.
Qed.
Lemma selected_unique {A} (P : A -> Prop) l o o' : selected P l o -> selected P l o' -> o = o'.
Proof. intros H. revert o'. induction H; intros o' H'; inversion H'; subst; try contradiction; [reflexivity|f_equal; auto|auto]. Qed.
Lemma map_val_inj (l l' : list source) : map Val l = map Val l' -> l = l'.
Proof. revert l'. induction l as [|x l IH]; intros [|y l'] E; try discriminate; [reflexivity|]. injection E as -> E. f_equal. now apply IH. Qed.
Lemma get_sources_ok items out : get_sources items = Val out <->
  exists l, items = map Val l /\ selected (fun s => ~ excluded s) l out /\ out <> [].
Proof.
  unfold get_sources. change (fun i : res source => match i with Val s => is_valid s | _ => true end) with keep_item. split.
  - destruct (collect (filter keep_item items)) as [[|s l]|e|] eqn:E; try discriminate. intros [= <-]. apply collect_val_inv in E.
    destruct (filter_all_vals _ _ E) as (l' & ->). exists l'. split; [reflexivity|]. split; [|discriminate].
    rewrite filter_vals in E. rewrite <- (map_val_inj _ _ E). apply selected_filter.
  - intros (l & -> & Hs & Hne). rewrite filter_vals, collect_vals, (selected_unique _ _ _ _ Hs (selected_filter l)) in *. destruct (filter is_valid l); [congruence|reflexivity].
Qed.
Lemma get_sources_fail l e r : get_sources (map Val l ++ Fail e :: r) = Fail e.
Proof. unfold get_sources. change (fun i : res source => match i with Val s => is_valid s | _ => true end) with keep_item. rewrite filter_app_, filter_vals. cbn [filter keep_item]. rewrite (collect_fail (filter is_valid l) e). reflexivity. Qed.
Lemma get_sources_empty l : Forall excluded l -> get_sources (map Val l) = Fail empty_sources.
Proof.
  intros H. unfold get_sources. change (fun i : res source => match i with Val s => is_valid s | _ => true end) with keep_item. rewrite filter_vals, collect_vals.
  replace (filter is_valid l) with (@nil source); [reflexivity|]. induction H as [|s l Hs _ IH]; [reflexivity|]. cbn.
  destruct (is_valid s) eqn:E; [apply is_valid_ok in E; contradiction|exact IH].
Qed.

(** ** Groups *)
(** [g] groups the sources [l] named by [name_of]. *)
Definition grouping (name_of : source -> option text) (g : list (text * list source)) (l : list source) : Prop :=
  NoDup (map fst g) /\ forall n x, In (n, x) g <-> x <> [] /\ selected (fun s => name_of s = Some n) l x.
Definition source_name (s : source) : option text := option_map index_name (get_relative s).

Lemma selected_snoc {A} (P : A -> Prop) l x s : selected P l x -> P s -> selected P (l ++ [s]) (x ++ [s]).
Proof. induction 1; intros; cbn; [repeat constructor; auto|constructor; auto|constructor 3; auto]. Qed.
Lemma selected_snoc_no {A} (P : A -> Prop) l x s : selected P l x -> ~ P s -> selected P (l ++ [s]) x.
Proof. induction 1; intros; cbn; [constructor 3; [auto|constructor]|constructor; auto|constructor 3; auto]. Qed.
Lemma selected_snoc_inv {A} (P : A -> Prop) l x s : selected P (l ++ [s]) x -> (exists y, x = y ++ [s] /\ P s /\ selected P l y) \/ (~ P s /\ selected P l x).
Proof.
  revert x. induction l as [|a l IH]; intros x H; cbn in H.
  - inversion H as [|? ? o Hp Ho|? ? o Hp Ho]; subst; inversion Ho; subst; [left; exists []; repeat split; auto; constructor|right; split; auto; constructor].
  - inversion H as [|? ? o Hp Ho|? ? o Hp Ho]; subst; apply IH in Ho; destruct Ho as [(y & -> & Hs & Hy)|[Hs Hy]].
    + left. exists (a :: y). repeat split; auto. now constructor.
    + right. split; auto. now constructor.
    + left. exists y. repeat split; auto. now constructor 3.
    + right. split; auto. now constructor 3.
Qed.
Lemma group_add_fst g n s : map fst (group_add g n s) = if existsb (fun p => eqb_list (fst p) n) g then map fst g else map fst g ++ [n].
Proof.
  induction g as [|[m l] g IH]; cbn; [reflexivity|]. destruct (eqb_list m n) eqn:E; cbn; [reflexivity|]. rewrite IH. match goal with |- context [existsb ?f g] => now destruct (existsb f g) end.
Qed.
Lemma group_add_in g n s : NoDup (map fst g) -> forall m x, In (m, x) (group_add g n s) <->
  (m <> n /\ In (m, x) g) \/ (m = n /\ exists y, x = y ++ [s] /\ (In (n, y) g \/ (y = [] /\ ~ In n (map fst g)))).
Proof.
  induction g as [|[k l] g IH]; intros Hd m x; cbn [group_add map fst In].
  - split.
    + intros [E|[]]. injection E as <- <-. right. split; [reflexivity|]. exists []. cbn. auto.
    + intros [[_ []]|(-> & y & -> & [[]|[-> _]])]. now left.
  - cbn [map fst] in Hd. inversion Hd as [|? ? Hk Hd']; subst. destruct (eqb_list k n) eqn:E.
    + apply eqb_list_spec in E. subst k. cbn [In]. split.
      * intros [E|H]; [injection E as <- <-; right; split; [reflexivity|]; exists l; auto|]. left. split; [|auto]. intros ->. apply Hk. now apply (in_map fst) in H.
      * intros [[Hmn [E|H]]|(-> & y & -> & [[E|H]|[-> H]])]; [injection E as <- <-; congruence|now right|injection E as <-; now left| |exfalso; apply H; now left].
        exfalso. apply Hk. now apply (in_map fst) in H.
    + assert (Hkn : k <> n) by (intros ->; rewrite eqb_list_refl in E; discriminate). cbn [In]. rewrite (IH Hd' m x). split.
      * intros [E'|[[Hmn H]|(-> & y & -> & [H|[-> H]])]]; [injection E' as <- <-; left; auto|left; auto|right; split; [reflexivity|exists y; auto]|].
        right. split; [reflexivity|]. exists []. split; [reflexivity|]. right. split; [reflexivity|]. intros [H'|H']; auto.
      * intros [[Hmn [E'|H]]|(-> & y & -> & [[E'|H]|[-> H]])]; [injection E' as <- <-; now left|right; left; auto|injection E' as E1 E2; congruence|right; right; split; [reflexivity|exists y; auto]|].
        right. right. split; [reflexivity|]. exists []. split; [reflexivity|]. right. split; [reflexivity|]. intros H'. apply H. now right.
Qed.
Lemma group_add_grouping nf g l n s : grouping nf g l -> nf s = Some n -> grouping nf (group_add g n s) (l ++ [s]).
Proof.
  intros [Hd Hg] Hn. split.
  - rewrite group_add_fst. destruct (existsb (fun p => eqb_list (fst p) n) g) eqn:E; [exact Hd|]. apply NoDup_rev in Hd. rewrite <- (rev_involutive (map fst g ++ [n])). apply NoDup_rev.
    rewrite rev_app_distr. cbn. constructor; [|exact Hd]. rewrite <- in_rev. intros H. apply in_map_iff in H. destruct H as ([k y] & <- & H).
    assert (X : existsb (fun p => eqb_list (fst p) k) g = true) by (apply existsb_exists; exists (k, y); split; [exact H|apply eqb_list_refl]). cbn in E. congruence.
  - intros m x. rewrite (group_add_in g n s Hd). split.
    + intros [[Hmn H]|(-> & y & -> & H)].
      * apply Hg in H. destruct H as [Hne Hs]. split; [exact Hne|]. apply selected_snoc_no; [exact Hs|]. congruence.
      * split; [destruct y; discriminate|]. apply selected_snoc; [|exact Hn]. destruct H as [H|[-> H]]; [now apply Hg in H|].
        (* no element named n *)
        assert (forall s', In s' l -> nf s' <> Some n).
        { intros s' Hs' Hs''. assert (exists y, selected (fun s => nf s = Some n) l y /\ In s' y) as (y & Hy & Hi).
          { clear - Hs' Hs''. induction l as [|a l IH]; [destruct Hs'|].
            assert (D : forall b, {nf b = Some n} + {nf b <> Some n}) by (intros b; repeat decide equality).
            destruct Hs' as [<-|Hs'].
            - assert (exists y, selected (fun s => nf s = Some n) l y) as (y & Hy).
              { clear - D. induction l as [|b l [y IH]]; [exists []; constructor|]. destruct (D b); [exists (b :: y); now constructor|exists y; now constructor 3]. }
              exists (a :: y). split; [now constructor|now left].
            - destruct (IH Hs') as (y & Hy & Hi). destruct (D a); [exists (a :: y); split; [now constructor|now right]|exists y; split; [now constructor 3|exact Hi]]. }
          apply H. assert (In (n, y) g) as Hin by (apply Hg; split; [intros ->; destruct Hi|exact Hy]). now apply (in_map fst) in Hin. }
        clear - H0. induction l as [|a l IH]; [constructor|]. constructor 3; [apply H0; now left|]. apply IH. intros s' Hs'. apply H0. now right.
    + intros [Hne Hs]. apply selected_snoc_inv in Hs. destruct Hs as [(y & -> & Hs & Hy)|[Hs Hy]].
      * assert (m = n) by congruence. subst m. right. split; [reflexivity|]. exists y. split; [reflexivity|].
        destruct y as [|a y]; [right; split; [reflexivity|]|left; apply Hg; split; [discriminate|exact Hy]].
        intros H. apply in_map_iff in H. destruct H as ([k z] & <- & H). apply Hg in H. destruct H as [Hz H]. pose proof (selected_unique _ _ _ _ H Hy). cbn in *. congruence.
      * left. split; [|apply Hg; auto]. intros ->. contradiction.
Qed.
Lemma group_all_ok l0 : forall l g r, grouping source_name g l0 -> group_all g l = Val r -> grouping source_name r (l0 ++ l).
Proof.
  intros l. revert l0. induction l as [|s l IH]; intros l0 g r Hg; cbn [group_all].
  - intros [= <-]. now rewrite app_nil_r.
  - destruct (get_relative s) as [rel|] eqn:R; [|discriminate]. intros H. apply (IH (l0 ++ [s])) in H; [now rewrite <- app_assoc in H|].
    apply group_add_grouping; [exact Hg|]. unfold source_name. now rewrite R.
Qed.
Lemma group_sources_ok contents r : group_sources contents = Val r ->
  exists ls, Forall2 (fun items l => get_sources items = Val l) contents ls /\ grouping source_name r (concat ls).
Proof.
  assert (G : forall contents l0 g r, grouping source_name g l0 -> group_sources_go g contents = Val r ->
    exists ls, Forall2 (fun items l => get_sources items = Val l) contents ls /\ grouping source_name r (l0 ++ concat ls)).
  { clear. induction contents as [|items contents IH]; intros l0 g r Hg; cbn [group_sources_go].
    - intros [= <-]. exists []. split; [constructor|]. now rewrite app_nil_r.
    - destruct (get_sources items) as [l|e|] eqn:E; try discriminate. destruct (group_all g l) as [g'|e|] eqn:A; try discriminate. intros H.
      destruct (IH (l0 ++ l) g' r) as (ls & Hls & Hr); [now apply (group_all_ok l0 l g)|exact H|]. exists (l :: ls). split; [now constructor|]. cbn. now rewrite app_assoc. }
  intros H. apply (G contents [] []); [|exact H]. split; [constructor|]. intros n x. split; [intros []|]. intros [Hne Hs]. inversion Hs; subst. now apply Hne.
Qed.
Lemma group_all_val g l : (forall s, In s l -> get_relative s <> None) -> exists r, group_all g l = Val r.
Proof.
  revert g. induction l as [|s l IH]; intros g H; [exists g; reflexivity|]. cbn. destruct (get_relative s) as [rel|] eqn:R; [|exfalso; apply (H s); [now left|exact R]].
  apply IH. intros s' Hs. apply H. now right.
Qed.
Lemma group_sources_val contents ls : Forall2 (fun items l => get_sources items = Val l) contents ls ->
  (forall s, In s (concat ls) -> get_relative s <> None) -> exists r, group_sources contents = Val r.
Proof.
  unfold group_sources. intros H. generalize (@nil (text * list source)). induction H as [|items l contents ls E _ IH]; intros g Hr; cbn [group_sources_go]; [eauto|].
  rewrite E. destruct (group_all_val g l) as (r & A); [intros s Hs; apply Hr; cbn; apply in_or_app; now left|]. rewrite A. apply IH. intros s Hs. apply Hr. cbn. apply in_or_app. now right.
Qed.
Lemma group_sources_fail contents ls items e rest : Forall2 (fun items l => get_sources items = Val l) contents ls ->
  (forall s, In s (concat ls) -> get_relative s <> None) -> get_sources items = Fail e -> group_sources (contents ++ items :: rest) = Fail e.
Proof.
  unfold group_sources. intros H. generalize (@nil (text * list source)). induction H as [|i l contents ls E _ IH]; intros g Hr Hf; cbn [group_sources_go app].
  - now rewrite Hf.
  - rewrite E. destruct (group_all_val g l) as (r & A); [intros s Hs; apply Hr; cbn; apply in_or_app; now left|]. rewrite A. apply IH; [|exact Hf]. intros s Hs. apply Hr. cbn. apply in_or_app. now right.
Qed.

(** ** Trees *)
Definition way_path (root : bytes) (way : list bytes) : bytes := fold_left join way root.
Fixpoint node_ind' (P : node -> Prop) (H1 : P RegularFile) (H2 : P Symlink) (H3 : P OtherNode) (H4 : forall e, P (Unreadable e))
  (H5 : forall l, (forall name c, In (name, c) l -> P c) -> P (Dir l)) (n : node) : P n :=
  match n with
  | RegularFile => H1 | Symlink => H2 | OtherNode => H3 | Unreadable e => H4 e
  | Dir l => H5 l ((fix go (l : list (bytes * node)) : forall name c, In (name, c) l -> P c :=
      match l with
      | [] => fun name c H => match H with end
      | (nm, ch) :: r => fun name c H => match H with
           | or_introl E => match f_equal snd E in _ = y return P y with eq_refl => node_ind' P H1 H2 H3 H4 H5 ch end
           | or_intror H' => go r name c H'
           end
      end) l)
  end.
Lemma walk_dir path l : walk path (Dir l) = Entry path false false :: flat_map (fun e => walk (join path (fst e)) (snd e)) l.
Proof. cbn [walk]. f_equal. induction l as [|[nm ch] l IH]; [reflexivity|]. cbn [flat_map fst snd]. now rewrite IH. Qed.
Lemma walk_files n : forall root p, In (Entry p false true) (walk root n) <-> exists way, file_at n way /\ p = way_path root way.
Proof.
  induction n as [| | |e|l IH] using node_ind'; intros root p.
  - cbn. split; [intros [E|[]]; injection E as <-; exists []; split; [constructor|reflexivity]|]. intros (way & Hw & ->). inversion Hw; subst. now left.
  - cbn. split; [intros [E|[]]; discriminate|]. intros (way & Hw & _). inversion Hw.
  - cbn. split; [intros [E|[]]; discriminate|]. intros (way & Hw & _). inversion Hw.
  - cbn. split; [intros [E|[E|[]]]; discriminate|]. intros (way & Hw & _). inversion Hw.
  - rewrite walk_dir. cbn [In]. split.
    + intros [E|H]; [discriminate|]. apply in_flat_map in H. destruct H as ([nm ch] & Hi & H). cbn [fst snd] in H. apply (IH nm ch Hi) in H. destruct H as (way & Hw & ->).
      exists (nm :: way). split; [econstructor; eauto|reflexivity].
    + intros (way & Hw & ->). inversion Hw as [|? nm ch w Hi Hc]; subst. right. apply in_flat_map. exists (nm, ch). split; [exact Hi|]. cbn [fst snd]. apply (IH nm ch Hi). exists w. auto.
Qed.
Lemma walk_errors n : forall root e, In (WalkError e) (walk root n) <-> unreadable_in n e.
Proof.
  induction n as [| | |e0|l IH] using node_ind'; intros root e.
  - cbn. split; [intros [E|[]]; discriminate|]. intros H. inversion H.
  - cbn. split; [intros [E|[]]; discriminate|]. intros H. inversion H.
  - cbn. split; [intros [E|[]]; discriminate|]. intros H. inversion H.
  - cbn. split; [intros [E|[E|[]]]; [discriminate|injection E as <-; constructor]|]. intros H. inversion H; subst. auto.
  - rewrite walk_dir. cbn [In]. split.
    + intros [E|H]; [discriminate|]. apply in_flat_map in H. destruct H as ([nm ch] & Hi & H). cbn [fst snd] in H. apply (IH nm ch Hi) in H. econstructor; eauto.
    + intros H. inversion H as [|? nm ch ? Hi Hc]; subst. right. apply in_flat_map. exists (nm, ch). split; [exact Hi|]. cbn [fst snd]. now apply (IH nm ch Hi).
Qed.
Definition base_of (root : bytes) : N := match utf8_decode root with Some t => utf8_len t | None => 0 end.
Lemma dir_iter_val root items s : In (Val s) (dir_iter root items) <-> exists p, In (Entry p false true) items /\ s = Local (base_of root) p.
Proof.
  unfold dir_iter. rewrite in_map_iff. split.
  - intros ([p sy f|e] & E & H); [|discriminate]. injection E as <-. apply filter_In in H. destruct H as [H K]. cbn in K. apply andb_prop in K. destruct K as [K1 K2].
    apply negb_true_iff in K1. subst. exists p. split; [exact H|reflexivity].
  - intros (p & H & ->). exists (Entry p false true). split; [reflexivity|]. apply filter_In. auto.
Qed.
Lemma dir_iter_fail root items e : In (Fail e) (dir_iter root items) <-> In (WalkError e) items.
Proof.
  unfold dir_iter. rewrite in_map_iff. split.
  - intros ([p sy f|e'] & E & H); [discriminate|]. injection E as <-. now apply filter_In in H.
  - intros H. exists (WalkError e). split; [reflexivity|]. now apply filter_In.
Qed.
Lemma join_decode path name t x : utf8_decode path = Some t -> utf8_decode name = Some x ->
  exists y, utf8_decode (join path name) = Some (t ++ y).
Proof.
  intros Ht Hx. unfold join. destruct (rev path) as [|c r] eqn:R.
  - assert (path = []) as -> by (rewrite <- (rev_involutive path), R; reflexivity). injection Ht as <-. exists x. exact Hx.
  - assert (J : join path name = path ++ name \/ join path name = path ++ lit "/" ++ name).
    { unfold join. rewrite R. destruct c as [|c]; [right; reflexivity|]. do 6 (destruct c as [c|c|]; try (right; reflexivity)). left. reflexivity. }
    unfold join in J. rewrite R in J. destruct J as [J|J]; rewrite J.
    + exists x. rewrite (utf8_decode_app _ _ _ Ht), Hx. reflexivity.
    + exists (lit "/" ++ x). rewrite (utf8_decode_app _ _ _ Ht). rewrite (utf8_decode_app (lit "/") name (lit "/")) by reflexivity. now rewrite Hx.
Qed.
Lemma way_decode n way : file_at n way -> utf8_names n -> forall root t, utf8_decode root = Some t ->
  exists y, utf8_decode (way_path root way) = Some (t ++ y).
Proof.
  induction 1 as [|l nm ch way Hi _ IH]; intros Hu root t Ht.
  - exists []. cbn. now rewrite app_nil_r.
  - inversion Hu as [| | | |? Hl]; subst. destruct (Hl _ _ Hi) as [Hnm Hch]. destruct (utf8_decode nm) as [x|] eqn:X; [|congruence].
    destruct (join_decode root nm t x Ht X) as (y & Y). destruct (IH Hch (join root nm) _ Y) as (z & Z). exists (y ++ z). cbn. rewrite app_assoc. exact Z.
Qed.

Lemma selected_iff {A} (P Q : A -> Prop) : (forall x, P x <-> Q x) -> forall l o, selected P l o <-> selected Q l o.
Proof.
  intros H l o. split; intros S; induction S; constructor; auto; try (now apply H); intros X; apply H in X; contradiction.
Qed.
Lemma selected_in {A} (P : A -> Prop) l o : selected P l o -> forall x, In x o <-> In x l /\ P x.
Proof.
  induction 1 as [|a l o Ha _ IH|a l o Ha _ IH]; intros x; cbn; [tauto|..]; rewrite IH; intuition (subst; auto); contradiction.
Qed.
Lemma selected_exists (nf : source -> option text) n l : exists o, selected (fun s => nf s = Some n) l o.
Proof.
  assert (D : forall b, {nf b = Some n} + {nf b <> Some n}) by (intros b; repeat decide equality).
  induction l as [|b l [y IH]]; [exists []; constructor|]. destruct (D b); [exists (b :: y); now constructor|exists y; now constructor 3].
Qed.
Lemma group_all_names g l r : group_all g l = Val r -> forall s, In s l -> source_name s <> None.
Proof.
  revert g. induction l as [|a l IH]; intros g H s; [intros []|]. cbn in H. destruct (get_relative a) as [rel|] eqn:E; [|discriminate].
  intros [<-|Hs]; [unfold source_name; rewrite E; discriminate|]. eapply IH; eauto.
Qed.
Lemma group_sources_names contents r : group_sources contents = Val r ->
  forall ls, Forall2 (fun items l => get_sources items = Val l) contents ls -> forall s, In s (concat ls) -> source_name s <> None.
Proof.
  unfold group_sources. generalize (@nil (text * list source)). intros g H ls F. revert g H. induction F as [|items l contents ls E _ IH]; intros g H s; cbn [concat]; [intros []|].
  cbn [group_sources_go] in H. rewrite E in H. destruct (group_all g l) as [g'| |] eqn:A; try discriminate. intros Hs. apply in_app_or in Hs. destruct Hs as [Hs|Hs]; [eapply group_all_names; eauto|eapply IH; eauto].
Qed.
Lemma trim_slashes base sl : Forall (fun c => c = 47) sl -> ~ suffix (lit "/") base -> trim_end (N.eqb 47) (base ++ sl) = base.
Proof.
  intros Hs Hb. unfold trim_end. rewrite rev_app_distr. assert (R : Forall (fun c => c = 47) (rev sl)) by (apply Forall_rev; exact Hs).
  assert (T : trim_start (N.eqb 47) (rev sl ++ rev base) = trim_start (N.eqb 47) (rev base)).
  { induction R as [|c l -> _ IH]; [reflexivity|exact IH]. }
  rewrite T. destruct (rev base) as [|c r] eqn:E.
  - rewrite <- (rev_involutive base), E. reflexivity.
  - cbn [trim_start]. destruct (47 =? c) eqn:C; [|rewrite <- E; apply rev_involutive]. apply N.eqb_eq in C. subst c. destruct Hb. exists (rev r). rewrite <- (rev_involutive base), E. reflexivity.
Qed.

(** ** Readers *)
Lemma reader_flat path : reader_of_path path = Flat.
Proof.
  unfold reader_of_path. destruct (eqb_list (match extension path with Some e => e | None => [] end) (lit ".gz")) eqn:E; [|reflexivity]. exfalso.
  apply eqb_list_spec in E. unfold extension in E. destruct (file_name (components path)) as [name|]; [|discriminate].
  destruct (split_once (N.eqb 46) (rev name)) as [[after before]|] eqn:S; [|discriminate]. apply split_once_dec in S. destruct S as (c & _ & _ & Ha).
  destruct before as [|b before]; [discriminate|]. apply (f_equal (@rev N)) in E. rewrite rev_involutive in E. subst after. rewrite Forall_forall in Ha. specialize (Ha 46). cbn in Ha.
  assert (true = false) by (apply Ha; auto). discriminate.
Qed.

(** ** Special names *)
Lemma short_not_pod path lab name : labelled path lab name -> normal_name name /\ (lab = [] \/ exists d, lab = d ++ lit "/" /\ ~ In 47 d).
Proof.
  intros H. destruct H as [n Hn|n Hn|p d n _ Hd _ Hn|p d h n _ Hd _ Hn|h n Hh Hn]; (split; [exact Hn|]); auto; right.
  - exists d. split; [reflexivity|apply Hd].
  - exists d. split; [reflexivity|apply Hd].
  - exists []. split; [reflexivity|]. intros [].
Qed.
(** The text up to the first slash of [lab ++ name]. *)
Lemma label_prefix path lab name d q : labelled path lab name -> prefix (d ++ lit "/" ++ q) (lab ++ name) -> ~ In 47 d -> lab = d ++ lit "/".
Proof.
  intros H (r & P) Hd. apply short_not_pod in H. destruct H as [(_ & Hn & _) [->|(e & -> & He)]].
  - exfalso. cbn [app] in P. apply Hn. rewrite P. apply in_or_app. left. apply in_or_app. right. now left.
  - f_equal. rewrite <- !app_assoc in P. cbn [app] in P. revert d Hd P. clear Hn. induction e as [|x e IH]; intros [|y d] Hd P.
    + reflexivity.
    + injection P as E _. exfalso. apply Hd. left. now symmetry.
    + injection P as E _. exfalso. apply He. left. exact E.
    + injection P as -> P. f_equal. apply IH; [intros X; apply He; now right|intros X; apply Hd; now right|exact P].
Qed.
Lemma split_once_45 svc rest : ~ In 45 svc -> split_once (N.eqb 45) (svc ++ lit "-" ++ rest) = Some (svc, rest).
Proof.
  induction svc as [|c svc IH]; intros H; [reflexivity|]. cbn [app split_once]. replace (45 =? c) with false by (symmetry; apply N.eqb_neq; intros <-; apply H; now left).
  rewrite IH; [reflexivity|]. intros X. apply H. now right.
Qed.
Lemma index_k8s path lab svc rest : labelled path lab (lit "k8s_" ++ svc ++ lit "-" ++ rest) -> ~ In 45 svc -> ~ prefix (lit "pod/") lab -> index_name path = lit "k8s_" ++ svc.
Proof.
  intros H Hs Hp. destruct (labelled_parts _ _ _ H) as [F S]. unfold index_name. rewrite F, S. set (name := lit "k8s_" ++ svc ++ lit "-" ++ rest) in *.
  destruct (starts_with (lit "qemu/instance-") (lab ++ name)) eqn:Q.
  { exfalso. apply prefix_ok in Q. assert (lab = lit "qemu/") as -> by (apply (label_prefix _ _ _ (lit "qemu") (lit "instance-") H Q); intros X; cbn in X; repeat (destruct X as [X|X]; [discriminate|]); destruct X).
    destruct Q as (r & Q). cbn in Q. discriminate. }
  destruct (starts_with (lit "pod/") (lab ++ name)) eqn:P.
  { exfalso. apply prefix_ok in P. apply Hp. assert (lab = lit "pod/") as -> by (apply (label_prefix _ _ _ (lit "pod") [] H P); intros X; cbn in X; repeat (destruct X as [X|X]; [discriminate|]); destruct X). exists []. reflexivity. }
  unfold is_k8s_service. replace (starts_with (lit "k8s_") name) with true by (symmetry; apply prefix_ok; exists (svc ++ lit "-" ++ rest); reflexivity).
  unfold name. rewrite app_assoc, split_once_45; [reflexivity|]. intros X. apply in_app_or in X. destruct X as [X|X]; [|contradiction]. cbn in X. repeat (destruct X as [X|X]; [discriminate|]). destruct X.
Qed.
Lemma index_pvc path lab rest : labelled path lab (lit "pvc-" ++ rest) -> ~ prefix (lit "pod/") lab -> index_name path = lit "pvc".
Proof.
  intros H Hp. destruct (labelled_parts _ _ _ H) as [F S]. unfold index_name. rewrite F, S. set (name := lit "pvc-" ++ rest) in *.
  destruct (starts_with (lit "qemu/instance-") (lab ++ name)) eqn:Q.
  { exfalso. apply prefix_ok in Q. assert (lab = lit "qemu/") as -> by (apply (label_prefix _ _ _ (lit "qemu") (lit "instance-") H Q); intros X; cbn in X; repeat (destruct X as [X|X]; [discriminate|]); destruct X).
    destruct Q as (r & Q). cbn in Q. discriminate. }
  destruct (starts_with (lit "pod/") (lab ++ name)) eqn:P.
  { exfalso. apply prefix_ok in P. apply Hp. assert (lab = lit "pod/") as -> by (apply (label_prefix _ _ _ (lit "pod") [] H P); intros X; cbn in X; repeat (destruct X as [X|X]; [discriminate|]); destruct X). exists []. reflexivity. }
  reflexivity.
Qed.
Lemma index_pod path svc rest : labelled path (lit "pod/") (svc ++ rest) -> ~ In 45 svc -> rest = [] \/ prefix (lit "-") rest -> index_name path = lit "pod/" ++ svc.
Proof.
  intros H Hs Hr. destruct (labelled_parts _ _ _ H) as [F S]. unfold index_name. rewrite F, S.
  replace (starts_with (lit "qemu/instance-") (lit "pod/" ++ svc ++ rest)) with false by reflexivity.
  replace (starts_with (lit "pod/") (lit "pod/" ++ svc ++ rest)) with true by (symmetry; apply prefix_ok; eexists; reflexivity).
  unfold take_until_pod_uuid. assert (Hs' : ~ In 45 (lit "pod/" ++ svc)) by (intros X; apply in_app_or in X; destruct X as [X|X]; [cbn in X; repeat (destruct X as [X|X]; [discriminate|]); destruct X|contradiction]).
  rewrite app_assoc. set (s := lit "pod/" ++ svc) in *. clearbody s. destruct Hr as [->|(r & ->)].
  - rewrite app_nil_r, split_at_none; [reflexivity|exact Hs'].
  - pose proof (split_at_hd 45 s r Hs') as E. change (lit "-") with [45]. pose proof (split_at_nonempty 45 (s ++ [45] ++ r)). destruct (split_at 45 (s ++ [45] ++ r)); [congruence|exact E].
Qed.
Lemma index_qemu path rest : labelled path (lit "qemu/") (lit "instance-" ++ rest) -> index_name path = lit "qemu/instance".
Proof. intros H. destruct (labelled_parts _ _ _ H) as [F S]. unfold index_name. rewrite F, S. reflexivity. Qed.
