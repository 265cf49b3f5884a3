(** Proofs about zuul builds. *)
From Coq Require Import String List NArith ZArith PeanoNat Bool Lia.
From Verif Require Import Common CommonFacts FilesModel CrawlModel ZuulModel ZuulSpec.
Import ListNotations.
Open Scope nat_scope.

(** ** Occurrences *)
Lemma starts_false p s : starts_with p s = false -> forall t, s <> p ++ t.
Proof. intros H t E. assert (starts_with p s = true) by (apply starts_with_spec; eauto). congruence. Qed.
Lemma split_once_some p : forall s b, split_once p s = Some b -> first_occurrence p s b.
Proof.
  induction s as [|c r IH]; intros b H; cbn in H; destruct (starts_with p _) eqn:E; try discriminate.
  - injection H as <-. apply starts_with_spec in E. destruct E as (t & E). split; [exists t; exact E|]. intros; cbn; lia.
  - injection H as <-. apply starts_with_spec in E. destruct E as (t & E). split; [exists t; exact E|]. intros; cbn; lia.
  - destruct (split_once p r) as [b'|] eqn:R; [|discriminate]. injection H as <-.
    destruct (IH _ eq_refl) as ((t & Ht) & M). split.
    + exists t. cbn. now rewrite Ht at 1.
    + intros [|x b] (t' & Ht'); cbn in Ht'.
      * exfalso. eapply starts_false; eauto.
      * injection Ht' as <- Ht'. cbn. assert (length b' <= length b) by (apply M; exists t'; exact Ht'). lia.
Qed.
Lemma split_once_none p : forall s, split_once p s = None -> forall b, ~ occurs_after p s b.
Proof.
  induction s as [|c r IH]; intros H b (t & Ht); cbn in H; destruct (starts_with p _) eqn:E; try discriminate.
  - destruct b; [|discriminate]. eapply starts_false; eauto.
  - destruct (split_once p r) eqn:R; [discriminate|]. destruct b as [|x b]; cbn in Ht.
    + eapply starts_false; eauto.
    + injection Ht as <- Ht. apply (IH eq_refl b). exists t. exact Ht.
Qed.
Lemma rsplit_once_some p : forall s b, rsplit_once p s = Some b -> last_occurrence p s b.
Proof.
  assert (N : forall s, rsplit_once p s = None -> forall b, ~ occurs_after p s b).
  { induction s as [|c r IH]; intros H b (t & Ht); cbn -[starts_with] in H.
    - destruct (starts_with p []) eqn:E; [discriminate|]. destruct b; [|discriminate]. eapply starts_false; eauto.
    - destruct (rsplit_once p r) eqn:R; [discriminate|]. destruct (starts_with p (c :: r)) eqn:E; [discriminate|].
      destruct b as [|x b]; cbn in Ht; [eapply starts_false; eauto|]. injection Ht as <- Ht. apply (IH eq_refl b). exists t. exact Ht. }
  induction s as [|c r IH]; intros b H; cbn -[starts_with] in H.
  - destruct (starts_with p []) eqn:E; [|discriminate]. injection H as <-. apply starts_with_spec in E. destruct E as (t & E).
    split; [exists t; exact E|]. intros b (t' & Ht'). destruct b; [cbn; lia|discriminate].
  - destruct (rsplit_once p r) as [b'|] eqn:R.
    + injection H as <-. destruct (IH _ eq_refl) as ((t & Ht) & M). split.
      * exists t. cbn. now rewrite Ht at 1.
      * intros [|x b] (t' & Ht'); cbn in Ht'; cbn; [lia|]. injection Ht' as <- Ht'.
        assert (length b <= length b') by (apply M; exists t'; exact Ht'). lia.
    + destruct (starts_with p (c :: r)) eqn:E; [|discriminate]. injection H as <-. apply starts_with_spec in E. destruct E as (t & E).
      split; [exists t; exact E|]. intros [|x b] (t' & Ht'); cbn in Ht'; [cbn; lia|]. injection Ht' as <- Ht'.
      exfalso. apply (N r R b). exists t'. exact Ht'.
Qed.
Lemma rsplit_once_none p : forall s, rsplit_once p s = None -> forall b, ~ occurs_after p s b.
Proof.
  induction s as [|c r IH]; intros H b (t & Ht); cbn -[starts_with] in H.
  - destruct (starts_with p []) eqn:E; [discriminate|]. destruct b; [|discriminate]. eapply starts_false; eauto.
  - destruct (rsplit_once p r) eqn:R; [discriminate|]. destruct (starts_with p (c :: r)) eqn:E; [discriminate|].
    destruct b as [|x b]; cbn in Ht; [eapply starts_false; eauto|]. injection Ht as <- Ht. apply (IH eq_refl b). exists t. exact Ht.
Qed.
Lemma app_same_length {A} (a b c d : list A) : a ++ c = b ++ d -> length a = length b -> a = b.
Proof.
  revert b. induction a as [|x a IH]; intros [|y b] H L; cbn in *; try discriminate; [reflexivity|].
  injection H as -> H. f_equal. apply IH; [exact H|lia].
Qed.
Lemma occurs_same_length p s a b : occurs_after p s a -> occurs_after p s b -> length a = length b -> a = b.
Proof. intros (x & ->) (y & H) L. symmetry in H. symmetry. eapply app_same_length; [exact H|now symmetry]. Qed.
Lemma split_once_first p s b : first_occurrence p s b -> split_once p s = Some b.
Proof.
  intros (O & M). destruct (split_once p s) as [b'|] eqn:E.
  - apply split_once_some in E. destruct E as (O' & M'). f_equal. eapply occurs_same_length; eauto. apply Nat.le_antisymm; [now apply M'|now apply M].
  - exfalso. eapply split_once_none; eauto.
Qed.
Lemma rsplit_once_last p s b : last_occurrence p s b -> rsplit_once p s = Some b.
Proof.
  intros (O & M). destruct (rsplit_once p s) as [b'|] eqn:E.
  - apply rsplit_once_some in E. destruct E as (O' & M'). f_equal. eapply occurs_same_length; eauto. apply Nat.le_antisymm; [now apply M|now apply M'].
  - exfalso. eapply rsplit_once_none; eauto.
Qed.

(** ** Segments *)
Lemma split_slash_nonempty s : split_slash s <> [].
Proof. destruct s as [|c r]; cbn; [discriminate|]. destruct (c =? slash)%N; [discriminate|]. destruct (split_slash r); discriminate. Qed.
Lemma split_slash_app a b : split_slash (a ++ slash :: b) = split_slash a ++ split_slash b.
Proof.
  induction a as [|c a IH]; [reflexivity|]. change ((c :: a) ++ slash :: b) with (c :: (a ++ slash :: b)).
  cbn [split_slash]. destruct (c =? slash)%N; [now rewrite IH|]. rewrite IH.
  pose proof (split_slash_nonempty a). destruct (split_slash a) as [|x l]; [congruence|reflexivity].
Qed.
Lemma split_slash_one a : ~ In slash a -> split_slash a = [a].
Proof.
  induction a as [|c a IH]; intros H; [reflexivity|]. cbn. destruct (N.eqb_spec c slash) as [->|]; [exfalso; apply H; now left|].
  rewrite IH; [reflexivity|]. intros ?. apply H. now right.
Qed.
Fixpoint join_slash (l : list text) : text :=
  match l with [] => [] | [x] => x | x :: r => x ++ slash :: join_slash r end.
Lemma join_split s : join_slash (split_slash s) = s.
Proof.
  induction s as [|c s IH]; [reflexivity|]. cbn [split_slash]. pose proof (split_slash_nonempty s) as NE.
  destruct (N.eqb_spec c slash) as [->|].
  - destruct (split_slash s) as [|x l]; [congruence|]. cbn [join_slash]. cbn [join_slash] in IH. now rewrite IH.
  - destruct (split_slash s) as [|x l]; [congruence|]. cbn [join_slash] in *. destruct l; cbn; now rewrite <- IH.
Qed.
Lemma join_app l1 l2 : l1 <> [] -> l2 <> [] -> join_slash (l1 ++ l2) = join_slash l1 ++ slash :: join_slash l2.
Proof.
  intros H1 H2. induction l1 as [|x l1 IH]; [congruence|]. destruct l1 as [|y l1].
  - cbn. destruct l2; [congruence|reflexivity].
  - change ((x :: y :: l1) ++ l2) with (x :: (y :: l1 ++ l2)).
    change (join_slash (x :: y :: l1 ++ l2)) with (x ++ slash :: join_slash ((y :: l1) ++ l2)).
    change (join_slash (x :: y :: l1)) with (x ++ slash :: join_slash (y :: l1)).
    rewrite IH by discriminate. now rewrite <- app_assoc.
Qed.
Lemma split_no_slash s : Forall (fun x => ~ In slash x) (split_slash s).
Proof.
  induction s as [|c s IH]; cbn; [repeat constructor; intros []|]. destruct (N.eqb_spec c slash) as [->|NE].
  - constructor; [intros []|exact IH].
  - destruct (split_slash s) as [|x l]; [repeat constructor; cbn; intros [?|[]]; congruence|].
    inversion_clear IH as [|? ? Hx Hl]. constructor; [|exact Hl]. intros [?|?]; [congruence|auto].
Qed.

Lemma alnum_spec c : alnum c = true <-> letter_or_digit c.
Proof.
  unfold alnum, letter_or_digit. rewrite !orb_true_iff, !andb_true_iff, !N.leb_le. tauto.
Qed.
Lemma is_uid_spec s : is_uid s = true <-> uid_text s.
Proof.
  unfold is_uid, uid_text. rewrite andb_true_iff, Nat.eqb_eq, forallb_forall, Forall_forall.
  split; intros (H & F); (split; [exact H|]); intros x I; apply alnum_spec; auto.
Qed.
Lemma uid_no_slash s : uid_text s -> ~ In slash s.
Proof. intros (_ & F) I. rewrite Forall_forall in F. specialize (F _ I). unfold letter_or_digit, slash in F. lia. Qed.

Lemma build_no_slash : ~ In slash (lit "build").
Proof. cbn. intuition discriminate. Qed.
Lemma path_shape u pre uid : upath u = pre ++ lit "/build/" ++ uid -> rooted pre -> uid_text uid ->
  path_segments u = Some (match pre with [] => [] | _ :: r => split_slash r end ++ [lit "build"; uid]).
Proof.
  intros E R U. unfold path_segments. rewrite E.
  change (lit "/build/") with (slash :: lit "build" ++ [slash]). rewrite <- app_comm_cons, <- app_assoc.
  assert (B : split_slash (lit "build" ++ [slash] ++ uid) = [lit "build"; uid]).
  { change (lit "build" ++ [slash] ++ uid) with (lit "build" ++ slash :: uid). rewrite split_slash_app, (split_slash_one (lit "build")), split_slash_one; [reflexivity|now apply uid_no_slash|apply build_no_slash]. }
  destruct R as [-> | (r & ->)].
  - cbn [app]. rewrite N.eqb_refl. change (lit "build" ++ slash :: uid) with (lit "build" ++ [slash] ++ uid). now rewrite B.
  - cbn [app]. rewrite N.eqb_refl. rewrite split_slash_app. change (lit "build" ++ slash :: uid) with (lit "build" ++ [slash] ++ uid). now rewrite B.
Qed.
Lemma path_unshape u l uid : path_segments u = Some (l ++ [lit "build"; uid]) ->
  exists pre, upath u = pre ++ lit "/build/" ++ uid /\ rooted pre /\ pre = match l with [] => [] | _ => slash :: join_slash l end.
Proof.
  unfold path_segments. intros H. destruct (upath u) as [|c r]; [discriminate|]. destruct (N.eqb_spec c slash) as [->|]; [|discriminate].
  injection H as H. pose proof (join_split r) as J. rewrite H in J. destruct l as [|x l].
  - exists []. repeat split; [|now left]. cbn [app join_slash] in J. rewrite <- J. reflexivity.
  - exists (slash :: join_slash (x :: l)). repeat split; [|right; eauto].
    rewrite join_app in J by discriminate. rewrite <- J. reflexivity.
Qed.
Lemma no_slash_last a b x y : a ++ slash :: x = b ++ slash :: y -> ~ In slash x -> ~ In slash y -> a = b /\ x = y.
Proof.
  revert b. induction a as [|c a IH]; intros [|d b] H Hx Hy; cbn in H.
  - injection H as <-. auto.
  - injection H as <- H. exfalso. apply Hx. rewrite H. apply in_or_app. right. now left.
  - injection H as -> H. exfalso. apply Hy. rewrite <- H. apply in_or_app. right. now left.
  - injection H as -> H. destruct (IH b H Hx Hy) as (-> & ->). auto.
Qed.

(** ** Scores *)
Open Scope Z_scope.
Lemma score_spec self b now s :
  baseline_score self b now = Some s <->
  points self now b s /\ b_log_url b <> None /\ b_ref_url b <> None /\ (b_project b = project self -> b_change b <> None).
Proof.
  assert (EL : elapsed_days now (b_date b) = age now b).
  { unfold elapsed_days, age. destruct (Z.ltb_spec (now - b_date b) 0); lia. }
  assert (BR : forall p2, branch_points self b p2 <-> p2 = if eqb_list (branch self) (b_branch b) then 50 else 0).
  { intros. unfold branch_points. destruct (eqb_list (branch self) (b_branch b)) eqn:E.
    - apply eqb_list_spec in E. intuition congruence.
    - assert (b_branch b <> branch self) by (intros Q; rewrite Q, eqb_list_refl in E; discriminate). intuition congruence. }
  assert (PP : forall p3, pipeline_points b p3 <-> p3 = if contains (lit "gate") (b_pipeline b) || contains (lit "periodic") (b_pipeline b) then 50 else 0).
  { intros. unfold pipeline_points, stable_pipeline, occurs. rewrite <- !contains_spec.
    destruct (contains (lit "gate") (b_pipeline b)), (contains (lit "periodic") (b_pipeline b)); cbn [orb]; intuition congruence. }
  assert (VP : forall p4, voting_points b p4 <-> p4 = if b_voting b then 10 else 0).
  { intros. unfold voting_points. destruct (b_voting b); intuition congruence. }
  unfold baseline_score. rewrite EL.
  destruct (eqb_list (project self) (b_project b)) eqn:EP.
  - apply eqb_list_spec in EP. destruct (b_change b) as [c|] eqn:EC.
    + split.
      * intros H. destruct (b_log_url b), (b_ref_url b); cbn [is_some andb] in H; try discriminate. injection H as <-.
        repeat split; try congruence.
        exists (if (change self =? c)%N then -500 else 50). do 3 eexists. repeat split; [|now apply BR|now apply PP|now apply VP|].
        -- unfold change_points. destruct (N.eqb_spec (change self) c); [left|right; left]; repeat split; try congruence. exists c. split; congruence.
        -- destruct (change self =? c)%N, (eqb_list (branch self) (b_branch b)), (contains (lit "gate") (b_pipeline b) || contains (lit "periodic") (b_pipeline b)), (b_voting b); lia.
      * intros ((p1 & p2 & p3 & p4 & C & B & P & V & ->) & L & R & _). apply BR in B. apply PP in P. apply VP in V. subst p2 p3 p4.
        destruct (b_log_url b), (b_ref_url b); try congruence. cbn [is_some andb]. f_equal.
        assert (p1 = if (change self =? c)%N then -500 else 50) as ->.
        { unfold change_points in C. destruct (N.eqb_spec (change self) c); destruct C as [(A1 & A2 & A3)|[(A1 & (c' & A2 & A4) & A3)|(A1 & A2)]]; congruence. }
        destruct (change self =? c)%N, (eqb_list (branch self) (b_branch b)), (contains (lit "gate") (b_pipeline b) || contains (lit "periodic") (b_pipeline b)), (b_voting b); lia.
    + split; [discriminate|]. intros (_ & _ & _ & F). exfalso. now apply F.
  - assert (NP : b_project b <> project self) by (intros Q; rewrite Q, eqb_list_refl in EP; discriminate). split.
    + intros H. destruct (b_log_url b), (b_ref_url b); cbn [is_some andb] in H; try discriminate. injection H as <-.
      repeat split; try congruence.
      exists 0. do 3 eexists. repeat split; [|now apply BR|now apply PP|now apply VP|].
      -- right; right; auto.
      -- destruct (eqb_list (branch self) (b_branch b)), (contains (lit "gate") (b_pipeline b) || contains (lit "periodic") (b_pipeline b)), (b_voting b); lia.
    + intros ((p1 & p2 & p3 & p4 & C & B & P & V & ->) & L & R & _). apply BR in B. apply PP in P. apply VP in V. subst p2 p3 p4.
      destruct (b_log_url b), (b_ref_url b); try congruence. cbn [is_some andb]. f_equal.
      assert (p1 = 0) as -> by (unfold change_points in C; intuition congruence).
      destruct (eqb_list (branch self) (b_branch b)), (contains (lit "gate") (b_pipeline b) || contains (lit "periodic") (b_pipeline b)), (b_voting b); lia.
Qed.
Lemma scored_in self now s b : forall l, In (s, b) (scored self now l) <-> In b l /\ b_uuid b <> uuid self /\ baseline_score self b now = Some s.
Proof.
  induction l as [|x l IH]; cbn; [tauto|]. destruct (baseline_score self x now) as [sx|] eqn:E.
  - destruct (eqb_list (uuid self) (b_uuid x)) eqn:U.
    + apply eqb_list_spec in U. rewrite IH. intuition congruence.
    + assert (b_uuid x <> uuid self) by (intros Q; rewrite Q, eqb_list_refl in U; discriminate).
      cbn. rewrite IH. split; [intros [Q|Q]; [injection Q as <- <-|]; intuition congruence|intros ([->|Q] & Q1 & Q2); [left; congruence|auto]].
  - rewrite IH. intuition congruence.
Qed.
Lemma scored_split self now s b p2 : forall l p1, scored self now l = p1 ++ (s, b) :: p2 ->
  exists l1 l2, l = l1 ++ b :: l2 /\ scored self now l1 = p1 /\ scored self now l2 = p2.
Proof.
  induction l as [|x l IH]; intros p1 H; cbn in H; [destruct p1; discriminate|].
  destruct (baseline_score self x now) as [sx|] eqn:E; [destruct (eqb_list (uuid self) (b_uuid x)) eqn:U|].
  - destruct (IH _ H) as (l1 & l2 & -> & H1 & H2). exists (x :: l1), l2. cbn. now rewrite E, U.
  - destruct p1 as [|y p1]; cbn in H.
    + injection H as -> -> <-. exists [], l. auto.
    + injection H as <- H. destruct (IH _ H) as (l1 & l2 & -> & H1 & H2). exists (x :: l1), l2. cbn. now rewrite E, U, H1.
  - destruct (IH _ H) as (l1 & l2 & -> & H1 & H2). exists (x :: l1), l2. cbn. now rewrite E.
Qed.

(** The first accepted element of the sorted list is the first of the best ones. *)
Section Sort.
Variable P : Z * api_build -> bool.
Fixpoint desc (l : list (Z * api_build)) : Prop :=
  match l with [] => True | x :: r => (forall y, In y r -> fst y <= fst x) /\ desc r end.
Lemma insert_in x y l : In y (insert_by x l) <-> y = x \/ In y l.
Proof. induction l as [|z l IH]; cbn; [intuition congruence|]. destruct (fst z <=? fst x); cbn; [|rewrite IH]; intuition congruence. Qed.
Lemma insert_desc x l : desc l -> desc (insert_by x l).
Proof.
  induction l as [|z l IH]; cbn; [now intros|]. intros (H & D). destruct (Z.leb_spec (fst z) (fst x)).
  - cbn. split; [|now split]. intros y [<-|Hy]; [exact H0|]. specialize (H _ Hy). lia.
  - cbn. split; [|now apply IH]. intros y Hy. apply insert_in in Hy. destruct Hy as [->|Hy]; [lia|now apply H].
Qed.
Lemma sort_desc l : desc (sort_by_score l).
Proof. induction l; cbn; [exact I|now apply insert_desc]. Qed.
Lemma insert_reject x l : P x = false -> filter P (insert_by x l) = filter P l.
Proof. intros H. induction l as [|z l IH]; cbn; [now rewrite H|]. destruct (fst z <=? fst x); cbn; [now rewrite H|]. now rewrite IH. Qed.
Lemma insert_accept x l : desc l -> P x = true ->
  hd_error (filter P (insert_by x l)) =
  match hd_error (filter P l) with Some y => if fst y <=? fst x then Some x else Some y | None => Some x end.
Proof.
  intros D H. induction l as [|z l IH]; cbn; [now rewrite H|]. cbn in D. destruct D as (M & D). specialize (IH D).
  destruct (Z.leb_spec (fst z) (fst x)).
  - cbn [filter]. rewrite H. cbn. destruct (P z) eqn:Z.
    + cbn. destruct (Z.leb_spec (fst z) (fst x)); [reflexivity|lia].
    + destruct (hd_error (filter P l)) as [y|] eqn:Y; [|reflexivity].
      assert (In y l) as Hy. { destruct (filter P l) eqn:F; [discriminate|]. injection Y as ->. assert (In y (filter P l)) as G by (rewrite F; now left). now apply filter_In in G. }
      specialize (M _ Hy). destruct (Z.leb_spec (fst y) (fst x)); [reflexivity|lia].
  - cbn [filter]. destruct (P z) eqn:Z.
    + cbn. destruct (Z.leb_spec (fst z) (fst x)); [lia|reflexivity].
    + exact IH.
Qed.
Lemma best_first l :
  match hd_error (filter P (sort_by_score l)) with
  | None => forall y, In y l -> P y = false
  | Some x => P x = true /\ exists l1 l2, l = l1 ++ x :: l2 /\ (forall y, In y l1 -> P y = true -> fst y < fst x) /\ (forall y, In y l2 -> P y = true -> fst y <= fst x)
  end.
Proof.
  induction l as [|x l IH]; cbn; [intros ? []|]. fold (sort_by_score l). destruct (P x) eqn:Px.
  - rewrite insert_accept by (auto using sort_desc). destruct (hd_error (filter P (sort_by_score l))) as [y|].
    + destruct IH as (Py & l1 & l2 & -> & H1 & H2). destruct (Z.leb_spec (fst y) (fst x)).
      * split; [exact Px|]. exists [], (l1 ++ y :: l2). split; [reflexivity|]. split; [intros ? []|].
        intros z Hz Pz. apply in_app_or in Hz. destruct Hz as [Hz|[<-|Hz]]; [specialize (H1 _ Hz Pz)| |specialize (H2 _ Hz Pz)]; lia.
      * split; [exact Py|]. exists (x :: l1), l2. split; [reflexivity|]. split; [|exact H2]. intros z [<-|Hz] Pz; auto.
    + split; [exact Px|]. exists [], l. split; [reflexivity|]. split; [intros ? []|]. intros z Hz Pz. rewrite IH in Pz by exact Hz. discriminate.
  - rewrite insert_reject by exact Px. destruct (hd_error (filter P (sort_by_score l))) as [y|].
    + destruct IH as (Py & l1 & l2 & -> & H1 & H2). split; [exact Py|]. exists (x :: l1), l2. split; [reflexivity|]. split; [|exact H2].
      intros z [<-|Hz] Pz; [congruence|auto].
    + intros y [<-|Hy]; auto.
Qed.
End Sort.
Lemma first_one {A} (l : list A) : firstn 1 l = match hd_error l with Some x => [x] | None => [] end.
Proof. destruct l; reflexivity. Qed.
