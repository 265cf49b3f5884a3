(** Index names. *)
From Coq Require Import String List Arith NArith Bool Lia.
From Verif Require Import Common CommonFacts TokModel TokSpec TokRe TokWords TokWord FilesModel FilesSpec.
Import ListNotations.
Open Scope N_scope.

(** ** Components *)
Lemma split_at_nonempty c s : split_at c s <> [].
Proof. destruct s as [|x s]; [discriminate|]. cbn. destruct (x =? c); [discriminate|]. destruct (split_at c s); discriminate. Qed.
Lemma split_at_app c a b : split_at c (a ++ [c] ++ b) = split_at c a ++ split_at c b.
Proof.
  induction a as [|x a IH]; cbn [app split_at].
  - rewrite N.eqb_refl. reflexivity.
  - cbn [app] in IH. rewrite IH. destruct (x =? c); [reflexivity|]. pose proof (split_at_nonempty c a). destruct (split_at c a); [congruence|reflexivity].
Qed.
Lemma split_at_none c s : ~ In c s -> split_at c s = [s].
Proof.
  induction s as [|x s IH]; intros H; [reflexivity|]. cbn. replace (x =? c) with false by (symmetry; apply N.eqb_neq; intros ->; apply H; now left).
  rewrite IH; [reflexivity|]. intros H'. apply H. now right.
Qed.
Lemma split_at_hd c a b : ~ In c a -> hd [] (split_at c (a ++ [c] ++ b)) = a.
Proof. intros H. rewrite split_at_app, split_at_none by exact H. reflexivity. Qed.

Definition comps (parts : list text) : list component := flat_map part_component parts.
Lemma part_normal s : normal_name s -> part_component s = [Normal s].
Proof.
  intros (H1 & _ & H2 & H3). unfold part_component.
  assert (F : forall t, s <> t -> eqb_list s t = false).
  { intros t Ht. destruct (eqb_list s t) eqn:E; [|reflexivity]. apply eqb_list_spec in E. contradiction. }
  now rewrite !F.
Qed.
(** A normal name at the end. *)
Lemma components_name pre s : up_to_slash pre -> normal_name s -> components (pre ++ s) = components pre ++ [Normal s].
Proof.
  intros [->|(p & ->)] Hs; unfold components.
  - pose proof Hs as (H1 & H2 & H3 & H4). cbn [app]. rewrite split_at_none by exact H2. cbn [hd flat_map]. rewrite part_normal by exact Hs. rewrite app_nil_r.
    replace (starts_with (lit "/") s) with false. { replace (eqb_list s (lit ".")) with false; [reflexivity|]. symmetry. destruct (eqb_list s (lit ".")) eqn:E; [|reflexivity]. apply eqb_list_spec in E. contradiction. }
    symmetry. destruct (starts_with (lit "/") s) eqn:E; [|reflexivity]. apply prefix_ok in E. destruct E as (r & ->). destruct H2. now left.
  - change (lit "/") with [47] in *. rewrite <- app_assoc. replace (p ++ [47]) with (p ++ [47] ++ []) by reflexivity. rewrite !split_at_app.
    rewrite (split_at_none 47 s) by apply Hs. rewrite !flat_map_app. cbn [flat_map split_at]. rewrite part_normal by exact Hs. cbn [part_component eqb_list]. cbn [app].
    rewrite app_nil_r.
    replace (starts_with [47] (p ++ 47 :: s)) with (starts_with [47] (p ++ [47])) by (destruct p; reflexivity).
    pose proof (split_at_nonempty 47 p). destruct (split_at 47 p); [congruence|]. cbn [app hd]. now rewrite <- app_assoc.
Qed.
(** A slash at the end. *)
Lemma components_slash p : p <> [] -> components (p ++ lit "/") = components p.
Proof.
  intros Hp. unfold components. change (lit "/") with [47]. change (p ++ [47]) with (p ++ [47] ++ []). rewrite split_at_app, flat_map_app. cbn [split_at flat_map].
  change (part_component []) with (@nil component). rewrite !app_nil_r.
  replace (hd [] (split_at 47 p ++ [[]])) with (hd [] (split_at 47 p)) by (pose proof (split_at_nonempty 47 p); destruct (split_at 47 p); [congruence|reflexivity]).
  replace (starts_with [47] (p ++ [47])) with (starts_with [47] p); [reflexivity|]. destruct p; [congruence|reflexivity].
Qed.
Lemma components_file pre dir rest : up_to_slash pre -> normal_name dir -> up_to_slash rest \/ normal_name rest ->
  components (pre ++ dir ++ lit "/") = components pre ++ [Normal dir].
Proof.
  intros Hp Hd _. rewrite app_assoc, components_slash, components_name; auto. destruct pre; [|discriminate]. destruct Hd as (H & _). destruct dir; [congruence|discriminate].
Qed.
Lemma file_name_app l s : file_name (l ++ [Normal s]) = Some s.
Proof. unfold file_name. rewrite rev_app_distr. reflexivity. Qed.
Lemma parent_app l s : parent (l ++ [Normal s]) = Some l.
Proof. unfold parent. rewrite rev_app_distr. cbn. now rewrite rev_involutive. Qed.
Lemma parent_str_app l d s : parent_str (l ++ [Normal d] ++ [Normal s]) = Some (l ++ [Normal d], d).
Proof. unfold parent_str. rewrite app_assoc, parent_app, file_name_app. reflexivity. Qed.

Lemma small_hash_ok s : is_small_hash s = true <-> small_hash s.
Proof.
  unfold is_small_hash, small_hash. rewrite andb_true_iff, N.eqb_eq, negb_true_iff.
  assert (A : existsb (fun c => negb ((97 <=? c) && (c <=? 102)) && negb ((48 <=? c) && (c <=? 57))) s = false <-> Forall (fun c => digit c \/ between 97 102 c) s).
  { induction s as [|c s IH]; cbn [existsb]; [split; [constructor|reflexivity]|]. rewrite orb_false_iff, IH, Forall_cons_iff.
    assert (negb ((97 <=? c) && (c <=? 102)) && negb ((48 <=? c) && (c <=? 57)) = false <-> digit c \/ between 97 102 c) as ->; [|reflexivity].
    unfold digit, between. rewrite andb_false_iff, !negb_false_iff, !andb_true_iff, !N.leb_le. tauto. }
  rewrite A. split; intros [H1 H2]; (split; [|exact H2]).
  - assert (utf8_len s = N.of_nat (length s)); [|lia]. clear H1 A. induction H2 as [|c s Hc _ IH]; [reflexivity|]. cbn [utf8_len length]. rewrite IH.
    unfold utf8_len1. replace (c <? 128) with true; [lia|]. symmetry. apply N.ltb_lt. unfold digit, between in Hc. lia.
  - assert (utf8_len s = N.of_nat (length s)); [|lia]. clear H1 A. induction H2 as [|c s Hc _ IH]; [reflexivity|]. cbn [utf8_len length]. rewrite IH.
    unfold utf8_len1. replace (c <? 128) with true; [lia|]. symmetry. apply N.ltb_lt. unfold digit, between in Hc. lia.
Qed.
Lemma hash_normal s : small_hash s -> normal_name s.
Proof.
  intros [Hl Hf]. split; [intros ->; discriminate|]. split; [|split; intros ->; discriminate].
  intros H. rewrite Forall_forall in Hf. specialize (Hf _ H). unfold digit, between in Hf. lia.
Qed.

(** What [index_name] works on. *)
Lemma labelled_parts path lab name : labelled path lab name ->
  file_name (components path) = Some name /\ short_filename (components path) name = lab ++ name.
Proof.
  intros H. unfold short_filename. destruct H as [name Hn|name Hn|pre dir name Hp Hd Hh Hn|pre dir hash name Hp Hd Hh Hn|hash name Hh Hn].
  - change name with ([] ++ name) at 1 3. rewrite (components_name [] name) by (auto; now left). split; [apply file_name_app|].
    unfold parent_str. rewrite parent_app. reflexivity.
  - rewrite (components_name (lit "/") name) by (auto; right; exists []; reflexivity). split; [apply file_name_app|].
    unfold parent_str. rewrite parent_app. reflexivity.
  - replace (pre ++ dir ++ lit "/" ++ name) with ((pre ++ dir ++ lit "/") ++ name) by now rewrite <- !app_assoc.
    rewrite components_name; [|right; exists (pre ++ dir); now rewrite <- app_assoc|exact Hn]. rewrite (components_file pre dir name) by auto.
    split; [apply file_name_app|]. rewrite <- app_assoc, parent_str_app. destruct (is_small_hash dir) eqn:E; [apply small_hash_ok in E; contradiction|]. now rewrite <- app_assoc.
  - pose proof (hash_normal hash Hh) as Hhn.
    replace (pre ++ dir ++ lit "/" ++ hash ++ lit "/" ++ name) with (((pre ++ dir ++ lit "/") ++ hash ++ lit "/") ++ name) by now rewrite <- !app_assoc.
    assert (U : up_to_slash (pre ++ dir ++ lit "/")) by (right; exists (pre ++ dir); now rewrite <- app_assoc).
    rewrite components_name; [|right; exists ((pre ++ dir ++ lit "/") ++ hash); now rewrite <- !app_assoc|exact Hn].
    rewrite (components_file (pre ++ dir ++ lit "/") hash name) by auto. rewrite (components_file pre dir name) by auto.
    split; [apply file_name_app|]. rewrite <- (app_assoc _ [Normal hash]), parent_str_app. apply small_hash_ok in Hh. rewrite Hh. rewrite <- app_assoc, parent_str_app. now rewrite <- app_assoc.
  - pose proof (hash_normal hash Hh) as Hhn.
    replace (hash ++ lit "/" ++ name) with (([] ++ hash ++ lit "/") ++ name) by now rewrite <- !app_assoc.
    rewrite components_name; [|right; exists hash; reflexivity|exact Hn]. rewrite (components_file [] hash name) by (auto; now left).
    split; [apply file_name_app|]. rewrite <- (app_assoc _ [Normal hash]), parent_str_app. apply small_hash_ok in Hh. rewrite Hh.
    unfold parent_str. rewrite parent_app. reflexivity.
Qed.

(** ** The plain names *)
Lemma is_separator_ok c : is_separator c = true <-> separator_char c.
Proof.
  unfold is_separator, separator_char, one_of, memb. rewrite existsb_exists. split; [intros (x & Hx & E); apply N.eqb_eq in E; now subst|].
  intros H. exists c. split; [exact H|apply N.eqb_refl].
Qed.
Lemma is_separator_no c : ~ separator_char c -> is_separator c = false.
Proof. intros H. destruct (is_separator c) eqn:E; [|reflexivity]. apply is_separator_ok in E. contradiction. Qed.
Lemma name_char_ok c : is_name_char c = true <-> name_char c.
Proof.
  unfold is_name_char, name_char, letter, lower_letter, upper_letter, between. rewrite !orb_true_iff, !andb_true_iff, !N.leb_le.
  change (existsb (N.eqb c) (lit "/._-")) with (is_separator c). rewrite is_separator_ok. tauto.
Qed.

(** Stripping .gz *)
Lemma trim_start_text_dec p fuel : forall s, (length s <= fuel)%nat -> p <> [] -> exists n, s = concat (repeat p n) ++ trim_start_text fuel p s /\ ~ prefix p (trim_start_text fuel p s).
Proof.
  induction fuel as [|fuel IH]; intros s Hl Hp; cbn [trim_start_text].
  - exists 0%nat. split; [reflexivity|]. destruct s; [|cbn in Hl; lia]. intros (r & E). destruct p; [congruence|discriminate].
  - destruct (starts_with p s) eqn:E.
    + apply starts_with_spec in E. destruct E as (t & ->). rewrite skipn_app, skipn_all, Nat.sub_diag. cbn [app skipn].
      destruct (IH t) as (n & E & H); [rewrite app_length in Hl; destruct p; [congruence|]; cbn in Hl; lia|exact Hp|].
      exists (S n). split; [|exact H]. cbn [repeat concat]. rewrite <- app_assoc. now rewrite <- E.
    + exists 0%nat. split; [reflexivity|]. intros H. apply prefix_ok in H. congruence.
Qed.
Lemma rev_repeat (p : list N) n : rev (concat (repeat p n)) = concat (repeat (rev p) n).
Proof.
  induction n as [|n IH]; [reflexivity|]. cbn [repeat concat]. rewrite rev_app_distr, IH.
  clear. induction n as [|n IH]; cbn [repeat concat app]; [now rewrite app_nil_r|]. rewrite <- app_assoc. now rewrite IH.
Qed.
Lemma trim_end_text_dec p s : p <> [] -> exists n, s = trim_end_text p s ++ concat (repeat p n) /\ ~ suffix p (trim_end_text p s).
Proof.
  intros Hp. unfold trim_end_text. destruct (trim_start_text_dec (rev p) (length s) (rev s)) as (n & E & H).
  - rewrite rev_length. lia.
  - intros X. apply (f_equal (@rev N)) in X. rewrite rev_involutive in X. now apply Hp.
  - exists n. split.
    + rewrite <- (rev_involutive s) at 1. rewrite E at 1. rewrite rev_app_distr, rev_repeat, rev_involutive. reflexivity.
    + intros (a & E'). apply H. exists (rev a). rewrite <- rev_app_distr, <- E', rev_involutive. reflexivity.
Qed.
Lemma gz_unique n m x y : x ++ concat (repeat (lit ".gz") n) = y ++ concat (repeat (lit ".gz") m) ->
  ~ suffix (lit ".gz") x -> ~ suffix (lit ".gz") y -> x = y.
Proof.
  assert (S : forall k z, z ++ concat (repeat (lit ".gz") (S k)) = (z ++ concat (repeat (lit ".gz") k)) ++ lit ".gz").
  { intros k z. rewrite <- app_assoc. f_equal. clear. induction k as [|k IH]; [reflexivity|].
    change (concat (repeat (lit ".gz") (S (S k)))) with (lit ".gz" ++ concat (repeat (lit ".gz") (S k))). rewrite IH at 1. reflexivity. }
  revert m. induction n as [|n IH]; intros m E Hx Hy.
  - destruct m as [|m]; [cbn in E; now rewrite !app_nil_r in E|]. exfalso. apply Hx. rewrite S in E. exists (y ++ concat (repeat (lit ".gz") m)). cbn in E. now rewrite app_nil_r in E.
  - destruct m as [|m].
    + exfalso. apply Hy. rewrite S in E. exists (x ++ concat (repeat (lit ".gz") n)). cbn [repeat concat] in E. now rewrite app_nil_r in E.
    + rewrite !S in E. apply app_inv_tail in E. now apply (IH m).
Qed.
Lemma strip_ok s : stripped (trim_end_text (lit ".gz") (trim_both is_separator s)) s.
Proof.
  destruct (trim_both_dec is_separator s) as (a & b & E & Ha & Hb & H1 & H2). set (t := trim_both is_separator s) in *.
  destruct (trim_end_text_dec (lit ".gz") t) as (n & En & Hn); [discriminate|]. exists a, b, n. rewrite <- En.
  assert (CV : forall l, Forall (fun c => is_separator c = true) l -> Forall separator_char l) by (intros l; apply Forall_impl; intros c; apply is_separator_ok).
  split; [exact E|]. split; [now apply CV|]. split; [now apply CV|]. split; [|split; [|exact Hn]].
  - intros c r Et Hc. apply is_separator_ok in Hc. rewrite (H1 c r Et) in Hc. discriminate.
  - intros c r Et Hc. apply is_separator_ok in Hc. rewrite (H2 c r Et) in Hc. discriminate.
Qed.
Lemma strip_unique n s : stripped n s -> trim_end_text (lit ".gz") (trim_both is_separator s) = n.
Proof.
  intros (a & b & k & -> & Ha & Hb & H1 & H2 & Hn).
  assert (CV : forall l, Forall separator_char l -> Forall (fun c => is_separator c = true) l) by (intros l; apply Forall_impl; intros c; apply is_separator_ok).
  rewrite trim_both_app by auto. rewrite trim_both_keep; [|intros c r E; apply is_separator_no; eauto..].
  set (t := n ++ concat (repeat (lit ".gz") k)). destruct (trim_end_text_dec (lit ".gz") t) as (m & E & H); [discriminate|]. unfold t in E at 1. symmetry in E.
  exact (gz_unique _ _ _ _ E H Hn).
Qed.

(** ** [index_name] on labelled paths *)
Lemma special_dec lab name :
  starts_with (lit "qemu/instance-") (lab ++ name) = false -> starts_with (lit "pod/") (lab ++ name) = false -> is_k8s_service name = None ->
  ~ special_name lab name.
Proof.
  intros H1 H2 H3 [H|[H|[[H Hd]|H]]]; [apply prefix_ok in H; congruence..| |]; unfold is_k8s_service in H3.
  - apply prefix_ok in H. rewrite H in H3. destruct (split_once (N.eqb 45) name) as [[? ?]|] eqn:E; [discriminate|]. apply split_once_none in E. rewrite Forall_forall in E.
    specialize (E 45 Hd). discriminate.
  - pose proof H as P. apply prefix_ok in H. rewrite H in H3. destruct (starts_with (lit "k8s_") name) eqn:K; [|discriminate].
    apply prefix_ok in K. destruct K as (r & ->). destruct P as (r' & P). discriminate.
Qed.
Lemma index_plain path lab name : labelled path lab name -> ~ special_name lab name ->
  index_name path = trim_end_text (lit ".gz") (trim_both is_separator (filter is_name_char (lab ++ name))).
Proof.
  intros Hl Hs. destruct (labelled_parts _ _ _ Hl) as [F S]. unfold index_name. rewrite F, S.
  destruct (starts_with (lit "qemu/instance-") (lab ++ name)) eqn:Q; [destruct Hs; left; now apply prefix_ok|].
  destruct (starts_with (lit "pod/") (lab ++ name)) eqn:P; [destruct Hs; right; left; now apply prefix_ok|].
  destruct (is_k8s_service name) as [v|] eqn:K; [|reflexivity]. destruct Hs. unfold is_k8s_service in K. right. right.
  destruct (starts_with (lit "k8s_") name) eqn:E.
  - left. split; [now apply prefix_ok|]. destruct (split_once (N.eqb 45) name) as [[x y]|] eqn:D; [|discriminate]. apply split_once_dec in D. destruct D as (c & -> & Hc & _).
    apply N.eqb_eq in Hc. subst. apply in_or_app. right. now left.
  - right. destruct (starts_with (lit "pvc-") name) eqn:E2; [now apply prefix_ok|discriminate].
Qed.

Lemma filter_app_ {A} (f : A -> bool) a b : filter f (a ++ b) = filter f a ++ filter f b.
Proof. induction a as [|x a IH]; [reflexivity|]. cbn. destruct (f x); cbn; now rewrite IH. Qed.
Lemma rotation_filter s : rotation s -> Forall (fun c => is_separator c = true) (filter is_name_char s).
Proof.
  intros H. apply Forall_forall. intros c Hc. apply filter_In in Hc. destruct Hc as [Hi Hc]. unfold rotation in H. rewrite Forall_forall in H. specialize (H c Hi).
  apply name_char_ok in Hc. apply is_separator_ok. unfold separator_char, one_of. destruct H as [H|H].
  - destruct Hc as [Hc|Hc]; [|exact Hc]. unfold digit, letter, lower_letter, upper_letter, between in *. lia.
  - unfold one_of in H. cbn in H |- *. tauto.
Qed.
Lemma strip_rotation s r : Forall (fun c => is_separator c = true) r ->
  trim_both is_separator (s ++ r) = trim_both is_separator s.
Proof. intros H. change (s ++ r) with ([] ++ s ++ r). apply trim_both_app; [constructor|exact H]. Qed.

(** All characters *)
Lemma trim_text_in p s c : p <> [] -> In c (trim_end_text p s) -> In c s.
Proof. intros Hp H. destruct (trim_end_text_dec p s Hp) as (n & E & _). rewrite E. apply in_or_app. now left. Qed.
Lemma index_chars path : prefix (lit "pod/") (index_name path) \/ prefix (lit "k8s_") (index_name path) \/ Forall name_char (index_name path).
Proof.
  unfold index_name. set (f := match file_name (components path) with Some s => s | None => lit "N/A" end). set (sh := short_filename (components path) f).
  destruct (starts_with (lit "qemu/instance-") sh).
  { right. right. apply Forall_forall. intros c Hc. apply name_char_ok. cbn in Hc. repeat (destruct Hc as [<-|Hc]; [reflexivity|]). destruct Hc. }
  destruct (starts_with (lit "pod/") sh) eqn:P.
  { left. apply prefix_ok in P. destruct P as (r & ->). unfold take_until_pod_uuid. change (lit "pod/" ++ r) with (112 :: 111 :: 100 :: 47 :: r). cbn [split_at].
    change (112 =? 45) with false. change (111 =? 45) with false. change (100 =? 45) with false. change (47 =? 45) with false. cbv iota.
    pose proof (split_at_nonempty 45 r). destruct (split_at 45 r) as [|p ps]; [congruence|]. exists p. reflexivity. }
  destruct (is_k8s_service f) as [v|] eqn:K.
  - unfold is_k8s_service in K. destruct (starts_with (lit "k8s_") f) eqn:E.
    + right. left. apply prefix_ok in E. destruct E as (r & E). rewrite E in K. change (lit "k8s_" ++ r) with (107 :: 56 :: 115 :: 95 :: r) in K. cbn [split_once] in K.
      change (45 =? 107) with false in K. change (45 =? 56) with false in K. change (45 =? 115) with false in K. change (45 =? 95) with false in K. cbv iota in K.
      destruct (split_once (N.eqb 45) r) as [[x y]|]; [|discriminate]. injection K as <-. exists x. reflexivity.
    + destruct (starts_with (lit "pvc-") f); [|discriminate]. injection K as <-. right. right. apply Forall_forall. intros c Hc. apply name_char_ok.
      cbn in Hc. repeat (destruct Hc as [<-|Hc]; [reflexivity|]). destruct Hc.
  - right. right. apply Forall_forall. intros c Hc. apply trim_text_in in Hc; [|discriminate]. destruct (trim_both_dec is_separator (filter (fun c => is_ascii_alphabetic c || is_separator c) sh)) as (a & b & E & _).
    assert (Hc' : In c (filter (fun c => is_ascii_alphabetic c || is_separator c) sh)) by (rewrite E; apply in_or_app; right; apply in_or_app; now left).
    apply filter_In in Hc'. apply name_char_ok, Hc'.
Qed.
