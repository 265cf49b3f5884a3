(** Lemmas about the datasets command. *)
From Coq Require Import String List NArith Arith Bool Lia Permutation.
From Verif Require Import Common CommonFacts Utf8Facts TokModel TokSpec TokRe TokWords ProcModel ProcSpec FilesModel FilesSpec FilesNames FilesSources
  ReportModel ReportSpec ReportProofs ReportMore DatasetModel DatasetSpec ProcInv.
Import ListNotations.
Open Scope N_scope.

(** ** Names *)
Lemma first_of_find {A} (f : A -> bool) (P : A -> Prop) l x : (forall y, In y l -> (f y = true <-> P y)) -> (find f l = Some x <-> first_such P l x).
Proof.
  induction l as [|y l IH]; intros H.
  - split; [discriminate|]. intros (l1 & l2 & E & _). destruct l1; discriminate.
  - cbn [find]. pose proof (H y (or_introl eq_refl)) as Hy. destruct (f y) eqn:F.
    + split.
      * intros [= <-]. exists [], l. csplit; auto. now apply Hy.
      * intros (l1 & l2 & E & Px & Hl). destruct l1 as [|z l1]; [injection E as -> ->; reflexivity|]. injection E as -> ->.
        inversion Hl as [|? ? Hz]. subst. elim Hz. now apply Hy.
    + rewrite IH by (intros z Hz; apply H; now right). split.
      * intros (l1 & l2 & -> & Px & Hl). exists (y :: l1), l2. csplit; auto. constructor; [|exact Hl]. intros Q. apply Hy in Q. discriminate.
      * intros (l1 & l2 & E & Px & Hl). destruct l1 as [|z l1]; [injection E as -> ->; apply Hy in Px; discriminate|]. injection E as -> ->.
        inversion Hl; subst. exists l1, l2. auto.
Qed.
Lemma first_map {A B} (g : A -> B) (P : B -> Prop) l x : first_such (fun a => P (g a)) l x -> first_such P (map g l) (g x).
Proof. intros (l1 & l2 & -> & Px & Hl). exists (map g l1), (map g l2). rewrite map_app. csplit; auto. apply Forall_map. exact Hl. Qed.
Lemma join_pre d name : exists pre, up_to_slash pre /\ join d name = pre ++ name.
Proof.
  unfold join. destruct (rev d) as [|c r] eqn:R; [exists []; split; [now left|reflexivity]|].
  assert (E : d = rev r ++ [c]) by (rewrite <- (rev_involutive d), R; reflexivity).
  destruct (N.eq_dec c 47) as [->|H].
  - exists d. split; [right; exists (rev r); exact E|reflexivity].
  - exists (d ++ lit "/"). split; [right; eauto|]. rewrite <- app_assoc.
    destruct c as [|c]; [reflexivity|]. do 6 (destruct c as [c|c|]; try reflexivity). congruence.
Qed.
Lemma split_once_hit p a b : (forall c, In c a -> p c = false) -> forall x, p x = true -> split_once p (a ++ x :: b) = Some (a, b).
Proof.
  induction a as [|c a IH]; intros H x Hx; cbn [app split_once]; [now rewrite Hx|].
  rewrite (H c (or_introl eq_refl)). rewrite (IH (fun d Hd => H d (or_intror Hd)) x Hx). reflexivity.
Qed.
Lemma split_once_some p s a b : split_once p s = Some (a, b) -> exists x, p x = true /\ s = a ++ x :: b /\ forall c, In c a -> p c = false.
Proof.
  revert a b. induction s as [|c s IH]; intros a b H; [discriminate|]. cbn [split_once] in H. destruct (p c) eqn:E.
  - injection H as <- <-. exists c. csplit; auto. intros d [].
  - destruct (split_once p s) as [[a' b']|] eqn:F; [|discriminate]. injection H as <- <-.
    destruct (IH _ _ eq_refl) as (x & H1 & -> & H2). exists x. csplit; auto. intros d [<-|Hd]; auto.
Qed.
Lemma extension_named d name e : normal_name name -> ~ In 46 e -> (has_extension e (join d name) = true <-> named_with e name).
Proof.
  intros Hn He. destruct (join_pre d name) as (pre & Hp & ->). unfold has_extension, extension.
  rewrite (components_name pre name Hp Hn), file_name_app. split.
  - destruct (split_once (N.eqb 46) (rev name)) as [[a b]|] eqn:E; [|discriminate]. destruct b as [|c b]; [discriminate|].
    intros H. apply eqb_list_spec in H. apply split_once_some in E. destruct E as (x & E1 & E2 & _). apply N.eqb_eq in E1. subst x.
    exists (rev (c :: b)). split. { intros K. apply (f_equal (@length N)) in K. rewrite rev_length in K. discriminate. }
    rewrite <- (rev_involutive name), E2, rev_app_distr, H. cbn [rev]. rewrite <- !app_assoc. reflexivity.
  - intros (stem & Hs & ->). rewrite !rev_app_distr, <- app_assoc. change (rev (lit ".") ++ rev stem) with (46 :: rev stem).
    rewrite (split_once_hit _ (rev e) (rev stem)); [|intros c Hc; apply N.eqb_neq; intros <-; apply He; now apply in_rev|reflexivity].
    destruct (rev stem) as [|c b] eqn:R. { elim Hs. rewrite <- (rev_involutive stem), R. reflexivity. }
    rewrite rev_involutive. now apply eqb_list_spec.
Qed.

(** ** The texts of paths that end with ASCII *)
Lemma first_ascii_end l c : l <> [] -> c < 128 -> utf8_first l = None -> utf8_first (l ++ [c]) = None.
Proof.
  intros Hne Hc. assert (K : is_cont c = false) by (unfold is_cont; apply andb_false_iff; left; apply N.leb_gt; lia).
  destruct l as [|b0 l1]; [congruence|]. cbn [utf8_first app]. destruct (b0 <? 128); [discriminate|].
  destruct ((194 <=? b0) && (b0 <=? 223)).
  { destruct l1 as [|b1 l2]; cbn [app]; [now rewrite K|]. destruct (is_cont b1); [discriminate|reflexivity]. }
  destruct ((224 <=? b0) && (b0 <=? 239)).
  { destruct l1 as [|b1 [|b2 l3]]; cbn [app]; [reflexivity|rewrite K, andb_false_r; reflexivity|]. destruct (is_cont b1 && is_cont b2 && _ && _); [discriminate|reflexivity]. }
  destruct ((240 <=? b0) && (b0 <=? 244)); [|reflexivity].
  destruct l1 as [|b1 [|b2 [|b3 l4]]]; cbn [app]; [reflexivity|reflexivity|rewrite K, andb_false_r; reflexivity|].
  destruct (is_cont b1 && is_cont b2 && is_cont b3 && _ && _); [discriminate|reflexivity].
Qed.
Lemma decode_ascii_end1 (l : bytes) c t : c < 128 -> utf8_decode (l ++ [c]) = Some t -> exists x, utf8_decode l = Some x /\ t = x ++ [c].
Proof.
  intros Hc. revert t. induction l as [|l Hne IH] using utf8_ind; intros t H.
  - cbn [app] in H. rewrite (utf8_ascii [c]) in H by (constructor; auto). injection H as <-. exists []. auto.
  - rewrite utf8_decode_first in H. destruct l as [|b l]; [congruence|]. cbn [app] in H.
    destruct (utf8_first (b :: l)) as [[ch r]|] eqn:F.
    + rewrite (utf8_first_app _ _ _ [c] F : utf8_first (b :: l ++ [c]) = _) in H.
      destruct (utf8_decode (r ++ [c])) as [t'|] eqn:E; [|discriminate]. injection H as <-.
      destruct (IH ch r eq_refl t' E) as (x & X1 & ->). exists (ch :: x). rewrite utf8_decode_first, F, X1. auto.
    + rewrite (first_ascii_end (b :: l) c Hne Hc F : utf8_first (b :: l ++ [c]) = _) in H. discriminate.
Qed.
Lemma decode_ascii_end b : Forall (fun c => c < 128) b -> forall l t, utf8_decode (l ++ b) = Some t -> exists x, t = x ++ b.
Proof.
  induction b as [|c b IH] using rev_ind; intros Hb l t H; [exists t; now rewrite app_nil_r|].
  apply Forall_app in Hb. destruct Hb as [Hb Hc]. inversion Hc as [|? ? Hc1 _]; subst. rewrite app_assoc in H.
  destruct (decode_ascii_end1 _ _ _ Hc1 H) as (x & X1 & ->). destruct (IH Hb _ _ X1) as (y & ->).
  exists y. now rewrite app_assoc.
Qed.
(** The name of a file with extension good or fail, as text. *)
Lemma full_name_end e d name : Forall (fun c => c < 128) e -> named_with e name ->
  full_name (Local 0 (join d name)) = [] \/ exists x, full_name (Local 0 (join d name)) = x ++ e.
Proof.
  intros He (stem & _ & ->). destruct (join_pre d (stem ++ lit "." ++ e)) as (pre & _ & ->). cbn [full_name].
  destruct (utf8_decode _) as [t|] eqn:E; [|now left]. right.
  rewrite !app_assoc in E. exact (decode_ascii_end e He _ _ E).
Qed.
Lemma ends_app e x y z : ends_with e (x ++ y ++ [z]) = match rev e with [] => true | c :: r => (c =? z) && starts_with r (rev (x ++ y)) end.
Proof. unfold ends_with. rewrite app_assoc, rev_app_distr. cbn [rev app]. destruct (rev e); reflexivity. Qed.
Lemma good_valid d name : named_with (lit "good") name -> outside_etc (join d name) -> is_valid (Local 0 (join d name)) = true.
Proof.
  intros Hn Ho. unfold is_valid. rewrite as_str_full. apply andb_true_iff. split.
  - assert (Ha : Forall (fun c => c < 128) (lit "good")) by (repeat constructor).
    destruct (full_name_end (lit "good") d name Ha Hn) as [-> | (x & ->)]; [reflexivity|].
    apply forallb_forall. intros e He. rewrite negb_true_iff.
    change (lit "good") with (lit "goo" ++ [100]). rewrite ends_app.
    assert (K : forallb (fun e => match rev e with [] => false | c :: _ => negb (c =? 100) end) exts = true) by reflexivity.
    rewrite forallb_forall in K. specialize (K e He). destruct (rev e) as [|c r]; [discriminate|]. apply negb_true_iff in K. now rewrite K.
  - rewrite negb_true_iff. destruct (contains (lit "/etc/") (full_name (Local 0 (join d name)))) eqn:C; [|reflexivity]. exfalso.
    apply contains_spec in C. cbn [full_name] in C. unfold outside_etc in Ho. destruct (utf8_decode (join d name)) as [t|]; [exact (Ho t eq_refl C)|].
    destruct C as (a & b & C). destruct a; discriminate.
Qed.
Lemma good_excluded d name : ~ outside_etc (join d name) -> is_valid (Local 0 (join d name)) = false.
Proof.
  intros Ho. destruct (is_valid _) eqn:E; [|reflexivity]. elim Ho. intros t Ht Hi. apply is_valid_ok in E. apply E. right. cbn. now rewrite Ht.
Qed.
Lemma not_json e d name : named_with e name -> e = lit "good" \/ e = lit "fail" -> is_json (Local 0 (join d name)) = Some false.
Proof.
  intros Hn He. unfold is_json, get_relative. rewrite as_str_full.
  assert (Ha : Forall (fun c => c < 128) e) by (destruct He as [-> | ->]; repeat constructor).
  assert (D0 : forall t, drop_bytes 0 t = Some t) by (intros []; reflexivity). rewrite D0. cbn [option_map]. f_equal.
  destruct (full_name_end e d name Ha Hn) as [-> | (x & ->)]; [reflexivity|].
  destruct He as [-> | ->]; [change (lit "good") with (lit "goo" ++ [100])|change (lit "fail") with (lit "fai" ++ [108])]; rewrite ends_app; reflexivity.
Qed.

(** ** White space *)
Lemma trim_trimmed s : trimmed s (trim s).
Proof.
  destruct (trim_both_dec is_whitespace s) as (a & b & E & Ha & Hb & H1 & H2). exists a, b. csplit; auto.
  - eapply Forall_impl; [|exact Ha]. intros c Hc. now apply is_whitespace_ok.
  - eapply Forall_impl; [|exact Hb]. intros c Hc. now apply is_whitespace_ok.
  - intros c r Hc Hw. apply is_whitespace_ok in Hw. rewrite (H1 c r Hc) in Hw. discriminate.
  - intros c r Hc Hw. apply is_whitespace_ok in Hw. rewrite (H2 c r Hc) in Hw. discriminate.
Qed.
Lemma trimmed_unique s t : trimmed s t -> t = trim s.
Proof.
  intros (a & b & -> & Ha & Hb & H1 & H2). unfold trim. symmetry.
  rewrite trim_both_app; [|eapply Forall_impl; [|eassumption]; intros; now apply is_whitespace_ok..].
  apply trim_both_keep; intros c r E; apply not_white; eauto.
Qed.
Lemma includes_ok e l : contains (utf8_encode (trim e)) l = true <-> includes e l.
Proof.
  rewrite contains_spec. split.
  - intros (a & b & E). exists (trim e). split; [apply trim_trimmed|]. exists a, b. exact E.
  - intros (t & Ht & a & b & E). rewrite <- (trimmed_unique e t Ht). exists a, b. exact E.
Qed.

(** ** The command *)
Section Dataset.
Context {D : Type} (above : D -> bool) (tok : bytes -> bytes)
  (search_of : list (list bytes) -> list bytes -> list D)
  (open : source -> res (bool -> list item)) (err_text : option N -> text)
  (drain : list (text * list source) -> list (text * list source))
  (read_dir : bytes -> res (list (res bytes))).
Notation process := (process above tok search_of open err_text drain read_dir).
Notation inspect_all := (inspect_all above tok search_of open err_text).
Notation model_train := (model_train tok open drain).
Notation index_train := (index_train tok open).

Lemma entry_paths_vals d names : entry_paths d (map Val names) = Some (map (join d) names).
Proof. induction names as [|x names IH]; [reflexivity|]. cbn. now rewrite IH. Qed.

(** One file: one index, whatever its name. *)
Lemma train_one d name : (forall l, Permutation (drain l) l) -> is_valid (Local 0 (join d name)) = true ->
  exists n, model_train [file_iter (Local 0 (join d name))] =
    match index_train [Local 0 (join d name)] with Val ix => Val [(n, ix)] | Fail e => Fail e | Panic => Panic end.
Proof.
  intros Hd Hv. set (s := Local 0 (join d name)) in *. unfold ReportModel.model_train, group_sources, file_iter. cbn [group_sources_go].
  unfold get_sources. cbn [filter]. rewrite Hv. cbn [collect group_all].
  assert (R : get_relative s = Some (as_str s)) by (unfold s, get_relative; destruct (as_str _); reflexivity).
  rewrite R. cbn [group_add group_all group_sources_go].
  exists (index_name (as_str s)).
  assert (E : drain [(index_name (as_str s), [s])] = [(index_name (as_str s), [s])]) by (apply Permutation_length_1_inv, Permutation_sym, Hd).
  rewrite E. cbn [train_all]. destruct (index_train [s]); reflexivity.
Qed.
Lemma train_one_no d name : is_valid (Local 0 (join d name)) = false -> model_train [file_iter (Local 0 (join d name))] = Fail empty_sources.
Proof.
  intros Hv. unfold ReportModel.model_train, group_sources, file_iter. cbn [group_sources_go].
  unfold get_sources. cbn [filter]. rewrite Hv. reflexivity.
Qed.
Lemma get_one n (ix : index_of) : get_index [(n, ix)] [] = Some ix.
Proof. unfold get_index, lookup_or_single. cbn [hm_get map snd]. destruct (eqb_list n []); reflexivity. Qed.

(** The check of the anomalies and of their number. *)
Definition compare (expected : dataset) (l : list (@actx D)) : res unit :=
  match check_anomalies expected l with
  | Panic => Panic
  | Fail e => Fail e
  | Val _ => if Nat.eqb (length l) (length expected) then Val tt else Fail mismatch
  end.
Lemma compare_ok expected : forall l, compare expected l = Val tt <-> Forall2 (fun e c => includes e (aline c)) expected l.
Proof.
  unfold compare. induction expected as [|e ex IH]; intros [|c l]; cbn [check_anomalies length Nat.eqb].
  - split; [constructor|reflexivity].
  - split; [discriminate|intros H; inversion H].
  - split; [discriminate|intros H; inversion H].
  - unfold assert_anomaly_includes. destruct (contains (utf8_encode (trim e)) (aline c)) eqn:C.
    + rewrite IH. split; [intros H; constructor; [now apply includes_ok|exact H]|intros H; inversion H; auto].
    + split; [discriminate|]. intros H. inversion H as [|? ? ? ? Hi]. subst. apply includes_ok in Hi. congruence.
Qed.
Lemma compare_safe expected : forall l, compare expected l <> Panic.
Proof.
  unfold compare. induction expected as [|e ex IH]; intros [|c l]; cbn [check_anomalies length Nat.eqb]; try discriminate.
  unfold assert_anomaly_includes. destruct (contains _ _); [apply IH|discriminate].
Qed.

(** The command on a directory with the files it needs. *)
Lemma process_files d expected names good fail : read_dir d = Val (map Val names) -> Forall normal_name names ->
  first_such (named_with (lit "good")) names good -> first_such (named_with (lit "fail")) names fail ->
  process d expected =
    match model_train [file_iter (Local 0 (join d good))] with
    | Panic => Panic
    | Fail e => Fail e
    | Val m => match get_index m [] with
               | None => Panic
               | Some ix => match inspect_all ix (Local 0 (join d fail)) with
                            | Panic => Panic | Fail e => Fail e | Val l => compare expected l end
               end
    end.
Proof.
  intros Hr Hn Hg Hf. unfold DatasetModel.process. rewrite Hr, entry_paths_vals.
  assert (K : forall e x, ~ In 46 e -> first_such (named_with e) names x -> find (has_extension e) (map (join d) names) = Some (join d x)).
  { intros e x He Hx. apply (first_of_find _ (fun p => has_extension e p = true)); [reflexivity|].
    apply (first_map (join d) (fun p => has_extension e p = true)). destruct Hx as (l1 & l2 & E & P & Hl). exists l1, l2.
    assert (I : forall y, In y names -> (has_extension e (join d y) = true <-> named_with e y)).
    { intros y Hy. rewrite Forall_forall in Hn. apply extension_named; auto. }
    csplit; [exact E|apply I; [rewrite E; apply in_elt|exact P]|].
    apply Forall_forall. intros y Hy. rewrite Forall_forall in Hl. rewrite I; [now apply Hl|]. rewrite E. apply in_or_app. now left. }
  rewrite (K (lit "good") good), (K (lit "fail") fail); auto; try (cbn; intuition discriminate).
Qed.
Lemma process_missing d expected names e : read_dir d = Val (map Val names) -> Forall normal_name names ->
  e = lit "good" \/ e = lit "fail" -> Forall (fun x => ~ named_with e x) names -> process d expected = Fail not_found.
Proof.
  intros Hr Hn He Hm. unfold DatasetModel.process. rewrite Hr, entry_paths_vals.
  assert (K : find (has_extension e) (map (join d) names) = None).
  { destruct (find _ _) as [x|] eqn:F; [|reflexivity]. exfalso. apply find_some in F. destruct F as [F1 F2]. apply in_map_iff in F1.
    destruct F1 as (y & <- & Hy). rewrite Forall_forall in Hn, Hm. apply extension_named in F2; auto; [exact (Hm y Hy F2)|].
    destruct He as [-> | ->]; cbn; intuition discriminate. }
  destruct He as [-> | ->]; rewrite K; [reflexivity|].
  destruct (find (has_extension (lit "good")) (map (join d) names)); reflexivity.
Qed.

(** The analysis of the second file. *)
Lemma inspect_open ix d fail items : named_with (lit "fail") fail -> open (Local 0 (join d fail)) = Val items ->
  inspect_all ix (Local 0 (join d fail)) =
    match process_all above tok (search_of (ix_batches ix)) (items false) [] with
    | (l, stop, _) => match stop_error stop with Val None => Val l | Val (Some e) => Fail (err_text e) | _ => Panic end
    end.
Proof.
  intros Hf Ho. unfold DatasetModel.inspect_all, get_processor.
  assert (R : get_relative (Local 0 (join d fail)) = Some (as_str (Local 0 (join d fail)))) by (unfold get_relative; destruct (as_str _); reflexivity).
  rewrite R, Ho, (not_json (lit "fail") d fail Hf); auto.
Qed.
Lemma inspect_not_open ix d fail e : open (Local 0 (join d fail)) = Fail e -> inspect_all ix (Local 0 (join d fail)) = Fail e.
Proof.
  intros Ho. unfold DatasetModel.inspect_all, get_processor.
  assert (R : get_relative (Local 0 (join d fail)) = Some (as_str (Local 0 (join d fail)))) by (unfold get_relative; destruct (as_str _); reflexivity).
  now rewrite R, Ho.
Qed.
(** The training with the first file. *)
Lemma index_one d good items : named_with (lit "good") good -> open (Local 0 (join d good)) = Val items ->
  exists ix, index_train [Local 0 (join d good)] = Val ix /\
    concat (ix_batches ix) = firsts [] (map (fun x => tok (fst x)) (good_prefix (items false))).
Proof.
  intros Hg Ho. assert (E : exists ix, index_train [Local 0 (join d good)] = Val ix).
  { unfold ReportModel.index_train. rewrite (not_json (lit "good") d good Hg); auto. cbn [train_group]. rewrite Ho. eexists. reflexivity. }
  destruct E as (ix & E). exists ix. split; [exact E|]. apply index_train_ok in E. destruct E as (_ & json & its & E1 & E2 & E3 & _).
  specialize (E1 _ _ eq_refl). rewrite (not_json (lit "good") d good Hg) in E1; auto. injection E1 as <-.
  inversion E2 as [|? it ? its' O1 O2]. subst. inversion O2. subst. rewrite Ho in O1. injection O1 as <-. cbn [map concat] in E3. now rewrite app_nil_r in E3.
Qed.
End Dataset.
