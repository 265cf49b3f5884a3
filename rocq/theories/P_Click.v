(** Properties of the script of the page: C87. *)
From Coq Require Import String List NArith PeanoNat Bool Lia.
From Verif Require Import Common CommonFacts FilesModel ProcModel ReportModel HtmlModel HtmlSpec HtmlReportSpec HtmlProofs HtmlPage P_Html.
From Verif Require Import PageSpec PageProofs P_Page FormSpec P_Form DomSpec ClickModel ClickDoc.
Import ListNotations.
Open Scope string_scope.
Open Scope list_scope.
Open Scope nat_scope.
Ltac csplit := repeat match goal with |- _ /\ _ => split end.

(** ** Places *)
Lemma eqb_place_spec p q : eqb_place p q = true <-> p = q.
Proof. unfold eqb_place. destruct (list_eq_dec Nat.eq_dec p q); split; congruence. Qed.
Lemma eqb_place_refl p : eqb_place p p = true.
Proof. now apply eqb_place_spec. Qed.
Lemma memb_place_spec p l : memb_place p l = true <-> In p l.
Proof.
  unfold memb_place. rewrite existsb_exists. split.
  - intros (x & I & E). apply eqb_place_spec in E. now subst.
  - intros I. exists p. split; [exact I|]. now apply eqb_place_spec.
Qed.
Lemma memb_place_not p l : memb_place p l = false <-> ~ In p l.
Proof. rewrite <- memb_place_spec. destruct (memb_place p l); intuition congruence. Qed.
Lemma path_up_within t : forall u, In u (path_up t) <-> within u t.
Proof.
  unfold within. induction t as [|k t IH]; intros u; cbn [path_up In].
  - split; [intros [<-|[]]; now exists []|]. intros (i & E). symmetry in E. apply app_eq_nil in E. left. now symmetry.
  - rewrite IH. split.
    + intros [<-|(i & ->)]; [now exists []|]. now exists (k :: i).
    + intros ([|j i] & E); [left; exact E|]. right. exists i. now injection E.
Qed.
Lemma path_up_length t : forall u, In u (path_up t) -> List.length u <= List.length t.
Proof. intros u H. apply path_up_within in H. destruct H as (i & ->). rewrite app_length. lia. Qed.
Lemma path_up_nodup t : NoDup (path_up t).
Proof.
  induction t as [|k t IH]; cbn [path_up]; [repeat constructor; auto|]. constructor; [|exact IH].
  intros H. apply path_up_length in H. cbn [List.length] in H. lia.
Qed.
Lemma below_spec u p : is_below u p = true <-> inside u p.
Proof.
  unfold is_below. rewrite memb_place_spec. destruct p as [|k p]; cbn [path_up tl].
  - split; [intros []|]. intros (k & i & E). discriminate.
  - rewrite path_up_within. unfold within, inside. split; [intros (i & ->); eauto|intros (j & i & E); injection E as _ ->; eauto].
Qed.
Definition lastn (k : nat) (t : location) : location := skipn (List.length t - k) t.
Lemma lastn_within k u t : within u t -> k <= List.length u -> lastn k t = lastn k u.
Proof.
  intros (i & ->) H. unfold lastn. rewrite app_length, skipn_app. replace (List.length i + List.length u - k - List.length i) with (List.length u - k) by lia.
  rewrite skipn_all2 by lia. reflexivity.
Qed.
Lemma fold_one {A B} (f : A -> B -> A) h l : NoDup l -> In h l -> (forall v, In v l -> v <> h -> forall s, f s v = s) -> forall s, fold_left f l s = f s h.
Proof.
  induction 1 as [|x l Hx _ IH]; intros I K s; [destruct I|]. cbn [fold_left]. destruct I as [->|I].
  - assert (Q : forall l s, (forall v, In v l -> v <> h) -> (forall v, In v l -> v <> h -> forall s, f s v = s) -> fold_left f l s = s).
    { clear. induction l as [|y l IH]; intros s H1 H2; [reflexivity|]. cbn [fold_left]. rewrite (H2 y (or_introl eq_refl) (H1 y (or_introl eq_refl))). apply IH; intros; [apply H1; now right|apply H2; auto; now right]. }
    apply Q; [intros v Hv ->; contradiction|intros v Hv Hn; apply K; auto; now right].
  - rewrite K; [|now left|intros ->; contradiction]. apply IH; [exact I|]. intros v Hv Hn. apply K; auto. now right.
Qed.
Lemma fold_none {A B} (f : A -> B -> A) l : (forall v, In v l -> forall s, f s v = s) -> forall s, fold_left f l s = s.
Proof. induction l as [|x l IH]; intros K s; [reflexivity|]. cbn [fold_left]. rewrite K by now left. apply IH. intros v Hv. apply K. now right. Qed.

(** ** The places of the items *)
Notation item i := (i :: base).
Notation header i := (0 :: i :: base).
Notation arrow i := (0 :: 0 :: 0 :: i :: base).
Notation box i := (1 :: i :: base).
Notation button i := (0 :: 1 :: i :: base).
Lemma items_static q f l : (forall p e b, map fst (filter (fun y => q (snd y)) (item_loud p e b)) = [f p]) ->
  forall k e, map fst (filter (fun y => q (snd y)) (items_at base k e l)) = map (fun i => f (item i)) (seq k (List.length l)).
Proof.
  intros Hf. induction l as [|b l IH]; intros k e; cbn [items_at List.length seq map]; [reflexivity|]. now rewrite filter_app, map_app, Hf, IH.
Qed.
Lemma items_none q l : (forall p b, map fst (filter (fun y => q (snd y)) (item_loud p false b)) = []) ->
  forall k, map fst (filter (fun y => q (snd y)) (items_at base k false l)) = [].
Proof. intros Hf. induction l as [|b l IH]; intros k; cbn [items_at]; [reflexivity|]. now rewrite filter_app, map_app, Hf, IH. Qed.
Lemma items_closed q f l : (forall p b, map fst (filter (fun y => q (snd y)) (item_loud p false b)) = [f p]) ->
  forall k, map fst (filter (fun y => q (snd y)) (items_at base k false l)) = map (fun i => f (item i)) (seq k (List.length l)).
Proof. intros Hf. induction l as [|b l IH]; intros k; cbn [items_at List.length seq map]; [reflexivity|]. now rewrite filter_app, map_app, Hf, IH. Qed.
Section Doc.
Variable doc : list (location * (bytes * bytes)).
Variable l : list bool.
Hypothesis HL : filter (fun y => loud (snd y)) doc = (debug_place, (lit "a", debug_attrs)) :: (table_place, (lit "div", table_attrs)) :: items_at base 0 true l.
Notation m := (List.length l).
Lemma static_places q f : In q queries -> q (lit "a", debug_attrs) = false -> q (lit "div", table_attrs) = false -> (forall p e b, map fst (filter (fun y => q (snd y)) (item_loud p e b)) = [f p]) ->
  places q doc = map (fun i => f (item i)) (seq 0 m).
Proof. intros H1 H2 H2' H3. rewrite places_loud, HL by exact H1. cbn [filter snd]. rewrite H2, H2'. now apply items_static. Qed.
Ltac inq := unfold queries; cbn [In]; repeat match goal with |- ?a = ?b \/ _ => first [constr_eq a b; left; reflexivity | right] end.
Lemma header_places : places (has_class "list-group-item-header") doc = map (fun i => header i) (seq 0 m).
Proof. apply (static_places _ (fun p => 0 :: p)); [inq|reflexivity|reflexivity|intros p [] []; lazy; reflexivity]. Qed.
Lemma arrow_places : places (has_class "fa-angle-right") doc = map (fun i => arrow i) (seq 0 m).
Proof. apply (static_places _ (fun p => 0 :: 0 :: 0 :: p)); [inq|reflexivity|reflexivity|intros p [] []; lazy; reflexivity]. Qed.
Lemma box_places : places (has_class "list-group-item-container") doc = map (fun i => box i) (seq 0 m).
Proof. apply (static_places _ (fun p => 1 :: p)); [inq|reflexivity|reflexivity|intros p [] []; lazy; reflexivity]. Qed.
Lemma button_places : places (has_class "close") doc = map (fun i => button i) (seq 0 m).
Proof. apply (static_places _ (fun p => 0 :: 1 :: p)); [inq|reflexivity|reflexivity|intros p [] []; lazy; reflexivity]. Qed.
Lemma item_places : places (has_class "list-group-item") doc = map (fun i => item i) (seq 0 m).
Proof. apply (static_places _ (fun p => p)); [inq|reflexivity|reflexivity|intros p [] []; lazy; reflexivity]. Qed.
Lemma no_places q : In q queries -> q (lit "a", debug_attrs) = false -> q (lit "div", table_attrs) = false -> (forall p e b, map fst (filter (fun y => q (snd y)) (item_loud p e b)) = []) -> places q doc = [].
Proof.
  intros H1 H2 H2' H3. rewrite places_loud, HL by exact H1. cbn [filter snd]. rewrite H2, H2'. destruct l as [|b l']; cbn [items_at]; [reflexivity|].
  rewrite filter_app, map_app, H3. now apply items_none.
Qed.
Lemma ellipsis_places : places (has_class "fa-ellipsis-v") doc = [].
Proof. apply no_places; [inq|reflexivity|reflexivity|intros p [] []; lazy; reflexivity]. Qed.
Lemma tag_button_places : places (is_tag "button") doc = [].
Proof. apply no_places; [inq|reflexivity|reflexivity|intros p [] []; lazy; reflexivity]. Qed.
Lemma tag_input_places : places (is_tag "input") doc = [].
Proof. apply no_places; [inq|reflexivity|reflexivity|intros p [] []; lazy; reflexivity]. Qed.
Lemma debug_places : places (has_id "debugbtn") doc = [debug_place].
Proof.
  rewrite places_loud, HL by inq. cbn [filter snd]. change (has_id "debugbtn" (lit "a", debug_attrs)) with true. change (has_id "debugbtn" (lit "div", table_attrs)) with false. cbv iota. cbn [map fst]. f_equal.
  destruct l as [|b l']; cbn [items_at]; [reflexivity|]. rewrite filter_app, map_app, items_none by (intros p []; lazy; reflexivity). destruct b; reflexivity.
Qed.
Lemma info_count : List.length (places (has_id "debuginfo") doc) = 1 + m + List.length (filter id l).
Proof.
  rewrite places_loud, HL by inq. cbn [filter snd]. change (has_id "debuginfo" (lit "a", debug_attrs)) with false. change (has_id "debuginfo" (lit "div", table_attrs)) with true. cbv iota. cbn [map List.length Nat.add]. f_equal.
  assert (K : forall l0 k e, List.length (map fst (filter (fun y => has_id "debuginfo" (snd y)) (items_at base k e l0))) = List.length l0 + List.length (filter id l0)); [|apply K].
  clear. induction l0 as [|b l0 IH]; intros k e; cbn [items_at List.length filter]; [reflexivity|]. rewrite filter_app, map_app, app_length, IH. destruct b; cbn [id].
  - replace (List.length (map fst (filter (fun y => has_id "debuginfo" (snd y)) (item_loud (item k) e true)))) with 2 by (destruct e; reflexivity). cbn [List.length]. lia.
  - replace (List.length (map fst (filter (fun y => has_id "debuginfo" (snd y)) (item_loud (item k) e false)))) with 1 by (destruct e; reflexivity). lia.
Qed.
Lemma first_places q f : In q queries -> q (lit "a", debug_attrs) = false -> q (lit "div", table_attrs) = false -> (forall p b, map fst (filter (fun y => q (snd y)) (item_loud p true b)) = [f p]) ->
  (forall p b, map fst (filter (fun y => q (snd y)) (item_loud p false b)) = []) -> forall u, In u (places q doc) <-> 0 < m /\ u = f (item 0).
Proof.
  intros H1 H2 H2' H3 H4 u. rewrite places_loud, HL by exact H1. cbn [filter snd]. rewrite H2, H2'. destruct l as [|b l']; cbn [items_at List.length].
  - split; [intros []|lia].
  - rewrite filter_app, map_app, H3, items_none by exact H4. cbn [app In]. intuition (subst; auto; lia).
Qed.
Lemma down_places u : In u (places (has_class "fa-angle-down") doc) <-> 0 < m /\ u = arrow 0.
Proof. apply (first_places _ (fun p => 0 :: 0 :: 0 :: p)); [inq|reflexivity|reflexivity|intros p []; lazy; reflexivity|intros p []; lazy; reflexivity]. Qed.
Lemma active_places u : In u (places (has_class "list-view-pf-expand-active") doc) <-> 0 < m /\ u = item 0.
Proof. apply (first_places _ (fun p => p)); [inq|reflexivity|reflexivity|intros p []; lazy; reflexivity|intros p []; lazy; reflexivity]. Qed.
Lemma hidden_places u : In u (places (has_class "hidden") doc) <-> exists i, 0 < i < m /\ u = box i.
Proof.
  rewrite places_loud, HL by inq. cbn [filter snd]. change (has_class "hidden" (lit "a", debug_attrs)) with false. change (has_class "hidden" (lit "div", table_attrs)) with false. cbv iota. destruct l as [|b l']; cbn [items_at List.length].
  - split; [intros []|intros (i & H & _); lia].
  - rewrite filter_app, map_app, (items_closed _ (fun p => 1 :: p)) by (intros p []; lazy; reflexivity).
    replace (map fst (filter (fun y => has_class "hidden" (snd y)) (item_loud (item 0) true b))) with (@nil location) by (destruct b; reflexivity). cbn [app]. rewrite in_map_iff. split.
    + intros (i & <- & H). apply in_seq in H. exists i. split; [lia|reflexivity].
    + intros (i & H & ->). exists i. split; [reflexivity|]. apply in_seq. lia.
Qed.
(** The lines of a log are in its box. *)
Lemma lines_places i u : nth_error (places (has_class "loglines") doc) i = Some u -> i < m /\ within (box i) u.
Proof.
  rewrite places_loud, HL by inq. cbn [filter snd]. change (has_class "loglines" (lit "a", debug_attrs)) with false. change (has_class "loglines" (lit "div", table_attrs)) with false. cbv iota.
  assert (K : forall l0 k e i u, nth_error (map fst (filter (fun y => has_class "loglines" (snd y)) (items_at base k e l0))) i = Some u -> i < List.length l0 /\ within (box (k + i)) u).
  { clear. induction l0 as [|b l0 IH]; intros k e i u E; cbn [items_at List.length] in *; [destruct i; discriminate|]. rewrite filter_app, map_app in E.
    replace (map fst (filter (fun y => has_class "loglines" (snd y)) (item_loud (item k) e b))) with [(if b then 2 else 1) :: box k] in E by (destruct e, b; reflexivity). cbn [app] in E.
    destruct i as [|i]; cbn [nth_error] in E.
    - injection E as <-. rewrite Nat.add_0_r. split; [lia|]. now exists [if b then 2 else 1].
    - apply IH in E. rewrite <- Nat.add_succ_comm. intuition lia. }
  intros E. apply K in E. exact E.
Qed.
Lemma lines_count : List.length (places (has_class "loglines") doc) = m.
Proof.
  rewrite places_loud, HL by inq. cbn [filter snd]. change (has_class "loglines" (lit "a", debug_attrs)) with false. change (has_class "loglines" (lit "div", table_attrs)) with false. cbv iota. 
  assert (K : forall l0 k e, List.length (map fst (filter (fun y => has_class "loglines" (snd y)) (items_at base k e l0))) = List.length l0); [|apply K].
  clear. induction l0 as [|b l0 IH]; intros k e; cbn [items_at List.length]; [reflexivity|]. rewrite filter_app, map_app, app_length, IH. destruct e, b; reflexivity.
Qed.
Lemma in_items (f : location -> location) u : In u (map (fun i => f (item i)) (seq 0 m)) <-> exists i, i < m /\ u = f (item i).
Proof. rewrite in_map_iff. split; intros (i & H1 & H2); exists i; [apply in_seq in H2|]; split; try (apply in_seq); auto; lia. Qed.

(** ** One click *)
Definition is_link (t : location) : bool := memb_place t (places (is_tag "a") doc).
Lemma targets t : memb_place t (places (fun x => is_tag "button" x || is_tag "a" x || is_tag "input" x) doc) = is_link t.
Proof.
  unfold is_link. pose proof tag_button_places as B. pose proof tag_input_places as N. clear HL. unfold places in *. induction doc as [|[u x] d IH]; [reflexivity|].
  cbn [filter snd] in *. destruct (is_tag "button" x); [discriminate|]. destruct (is_tag "input" x); [discriminate|]. rewrite orb_false_r. cbn [orb].
  destruct (is_tag "a" x); cbn [map memb_place existsb]; [|now apply IH]. f_equal. now apply IH.
Qed.
Definition at_header i t := within (header i) t.
Definition at_button i t := within (button i) t.
Lemma is_header u : In u (places (has_class "list-group-item-header") doc) <-> exists i, i < m /\ u = header i.
Proof. rewrite header_places. apply (in_items (fun p => 0 :: p)). Qed.
Lemma is_button u : In u (places (has_class "close") doc) <-> exists i, i < m /\ u = button i.
Proof. rewrite button_places. apply (in_items (fun p => 0 :: 1 :: p)). Qed.
Lemma is_box u : In u (places (has_class "list-group-item-container") doc) <-> exists i, i < m /\ u = box i.
Proof. rewrite box_places. apply (in_items (fun p => 1 :: p)). Qed.
Lemma is_arrow u : In u (places (has_class "fa-angle-right") doc) <-> exists i, i < m /\ u = arrow i.
Proof. rewrite arrow_places. apply (in_items (fun p => 0 :: 0 :: 0 :: p)). Qed.
Notation handle := (handle doc).
Notation click := (click doc).
Lemma handle_none t s u : u <> debug_place -> (forall i, i < m -> u <> header i) -> (forall i, i < m -> u <> button i) -> handle t s u = s.
Proof.
  intros H1 H2 H3. unfold ClickModel.handle. rewrite debug_places. destruct (eqb_place debug_place u) eqn:E; [apply eqb_place_spec in E; congruence|].
  destruct (memb_place u (places (has_class "list-group-item-header") doc)) eqn:E1; [apply memb_place_spec, is_header in E1; destruct E1 as (i & ? & ?); exfalso; eapply H2; eauto|].
  destruct (memb_place u (places (has_class "close") doc)) eqn:E2; [apply memb_place_spec, is_button in E2; destruct E2 as (i & ? & ?); exfalso; eapply H3; eauto|]. reflexivity.
Qed.
Lemma handle_debug t s : handle t s debug_place = debug_click doc s.
Proof.
  unfold ClickModel.handle. rewrite debug_places, eqb_place_refl.
  destruct (memb_place debug_place (places (has_class "list-group-item-header") doc)) eqn:E1; [apply memb_place_spec, is_header in E1; destruct E1 as (i & ? & ?); discriminate|].
  destruct (memb_place debug_place (places (has_class "close") doc)) eqn:E2; [apply memb_place_spec, is_button in E2; destruct E2 as (i & ? & ?); discriminate|]. reflexivity.
Qed.
Lemma handle_header t s i : i < m -> handle t s (header i) = header_click doc (header i) t s.
Proof.
  intros H. unfold ClickModel.handle. rewrite debug_places. destruct (eqb_place debug_place (header i)) eqn:E0; [apply eqb_place_spec in E0; discriminate|].
  destruct (memb_place (header i) (places (has_class "list-group-item-header") doc)) eqn:E1; [|apply memb_place_not in E1; exfalso; apply E1, is_header; eauto].
  destruct (memb_place (header i) (places (has_class "close") doc)) eqn:E2; [apply memb_place_spec, is_button in E2; destruct E2 as (j & ? & ?); discriminate|]. reflexivity.
Qed.
Lemma handle_button t s i : i < m -> handle t s (button i) = close_click doc (button i) s.
Proof.
  intros H. unfold ClickModel.handle. rewrite debug_places. destruct (eqb_place debug_place (button i)) eqn:E0; [apply eqb_place_spec in E0; discriminate|].
  destruct (memb_place (button i) (places (has_class "list-group-item-header") doc)) eqn:E1; [apply memb_place_spec, is_header in E1; destruct E1 as (j & ? & ?); discriminate|].
  destruct (memb_place (button i) (places (has_class "close") doc)) eqn:E2; [|apply memb_place_not in E2; exfalso; apply E2, is_button; eauto].
  cbn [path_up tl existsb].
  destruct (memb_place (box i) (places (has_class "list-group-item-container") doc)) eqn:E3; [|apply memb_place_not in E3; exfalso; apply E3, is_box; eauto]. reflexivity.
Qed.
Ltac two := match goal with H1 : within ?u ?t, H2 : within ?v ?t |- _ => let A := fresh in let B := fresh in
  pose proof (lastn_within 6 u t H1 ltac:(cbn [List.length base debug_place]; lia)) as A; pose proof (lastn_within 6 v t H2 ltac:(cbn [List.length base debug_place]; lia)) as B; rewrite A in B; unfold lastn in B; cbn in B end.
Lemma click_header t s i : i < m -> at_header i t -> click s t = header_click doc (header i) t s.
Proof.
  intros H W. unfold ClickModel.click. rewrite (fold_one _ (header i)); [now apply handle_header|apply path_up_nodup|now apply path_up_within|].
  intros v Hv Hn s'. apply path_up_within in Hv. apply handle_none.
  - intros ->. unfold at_header in W. two. discriminate.
  - intros j _ ->. unfold at_header in W. two. congruence.
  - intros j _ ->. unfold at_header in W. two. discriminate.
Qed.
Lemma click_button t s i : i < m -> at_button i t -> click s t = close_click doc (button i) s.
Proof.
  intros H W. unfold ClickModel.click. rewrite (fold_one _ (button i)); [now apply handle_button|apply path_up_nodup|now apply path_up_within|].
  intros v Hv Hn s'. apply path_up_within in Hv. apply handle_none.
  - intros ->. unfold at_button in W. two. discriminate.
  - intros j _ ->. unfold at_button in W. two. discriminate.
  - intros j _ ->. unfold at_button in W. two. congruence.
Qed.
Lemma click_debug t s : within debug_place t -> click s t = debug_click doc s.
Proof.
  intros W. unfold ClickModel.click. rewrite (fold_one _ debug_place); [apply handle_debug|apply path_up_nodup|now apply path_up_within|].
  intros v Hv Hn s'. apply path_up_within in Hv. apply handle_none; [exact Hn| |]; intros j _ ->; two; discriminate.
Qed.
Lemma click_other t s : ~ within debug_place t -> (forall i, i < m -> ~ at_header i t) -> (forall i, i < m -> ~ at_button i t) -> click s t = s.
Proof.
  intros H1 H2 H3. unfold ClickModel.click. apply fold_none. intros v Hv s'. apply path_up_within in Hv. apply handle_none.
  - intros ->. contradiction.
  - intros i Hi ->. eapply H2; eauto.
  - intros i Hi ->. eapply H3; eauto.
Qed.

(** ** Many clicks *)
Definition fixed_class (c : string) : Prop := c <> "hidden" /\ c <> "fa-angle-down" /\ c <> "list-view-pf-expand-active".
Record inv (o : nat -> bool) (d : bool) (s : page_state) : Prop := mkInv {
  inv_box : forall i, i < m -> now_class s "hidden" (box i) = negb (o i);
  inv_arrow : forall i, i < m -> now_class s "fa-angle-down" (arrow i) = o i;
  inv_item : forall i, i < m -> now_class s "list-view-pf-expand-active" (item i) = o i;
  inv_hidden : forall u, (forall i, i < m -> u <> box i) -> now_class s "hidden" u = false;
  inv_fixed : forall c u, fixed_class c -> now_class s c u = memb_place u (places (has_class c) doc);
  inv_shown : forall u, now_shown s u = memb_place u (places (has_id "debuginfo") doc) && d }.
Lemma inv_loaded : inv (fun i => i =? 0) false (loaded doc).
Proof.
  unfold loaded. constructor; cbn [now_class now_shown].
  - intros i H. destruct i as [|i]; cbn [Nat.eqb negb]; [apply memb_place_not|apply memb_place_spec]; rewrite hidden_places; [intros (j & Hj & E); injection E as <-; lia|]. exists (S i). split; [lia|reflexivity].
  - intros i H. destruct i as [|i]; cbn [Nat.eqb negb]; [apply memb_place_spec|apply memb_place_not]; rewrite down_places; [split; [lia|reflexivity]|]. intros (_ & E). discriminate.
  - intros i H. destruct i as [|i]; cbn [Nat.eqb negb]; [apply memb_place_spec|apply memb_place_not]; rewrite active_places; [split; [lia|reflexivity]|]. intros (_ & E). discriminate.
  - intros u H. apply memb_place_not. rewrite hidden_places. intros (i & Hi & ->). apply (H i); [lia|reflexivity].
  - reflexivity.
  - intros u. now rewrite andb_false_r.
Qed.
Lemma bool_iff (a b : bool) : (a = true <-> b = true) -> a = b.
Proof. destruct a, b; intuition congruence. Qed.
Lemma find_spec s this c u : (forall u, now_class s c u = memb_place u (places (has_class c) doc)) -> memb_place u (find_class doc s this c) = memb_place u (places (has_class c) doc) && is_below this u.
Proof.
  intros H. apply bool_iff. rewrite andb_true_iff, !memb_place_spec. unfold find_class. rewrite filter_In, andb_true_iff, H, memb_place_spec.
  split; [tauto|]. intros [I B]. csplit; auto. unfold places in I. apply in_map_iff in I. destruct I as (y & <- & I). apply in_map. now apply filter_In in I.
Qed.
Lemma found_box i u : i < m -> memb_place u (places (has_class "list-group-item-container") doc) && is_below (item i) u = eqb_place u (box i).
Proof.
  intros H. apply bool_iff. rewrite andb_true_iff, memb_place_spec, below_spec, eqb_place_spec, is_box. split.
  - intros ((j & Hj & ->) & (k & inner & E)). injection E as _ E. assert (K : lastn 5 (item j) = lastn 5 (inner ++ item i)) by now rewrite E. rewrite (lastn_within 5 (item i) (inner ++ item i)) in K by (try (eexists; reflexivity); cbn; lia). unfold lastn in K. cbn in K. congruence.
  - intros ->. split; [eauto|]. exists 1, []. reflexivity.
Qed.
Lemma found_arrow i this inner0 u : i < m -> this = header i /\ inner0 = [0] \/ this = item i /\ inner0 = [0; 0] ->
  memb_place u (places (has_class "fa-angle-right") doc) && is_below this u = eqb_place u (arrow i).
Proof.
  intros H T. apply bool_iff. rewrite andb_true_iff, memb_place_spec, below_spec, eqb_place_spec, is_arrow. split.
  - intros ((j & Hj & ->) & B). assert (W : within (item i) (arrow j)). { destruct B as (k & inner & ->). destruct T as [[-> _]|[-> _]]; [exists (k :: inner ++ [0])|exists (k :: inner)]; cbn [app]; rewrite <- ?app_assoc; reflexivity. }
    apply (lastn_within 5) in W; [|cbn; lia]. unfold lastn in W. cbn in W. congruence.
  - intros ->. split; [eauto|]. destruct T as [[-> _]|[-> _]]; [exists 0, [0]|exists 0, [0; 0]]; reflexivity.
Qed.
Ltac fixed_tac := split; [|split]; discriminate.
Lemma eqb_arrow i j : eqb_place (arrow j) (arrow i) = (j =? i).
Proof. apply bool_iff. rewrite eqb_place_spec, Nat.eqb_eq. split; congruence. Qed.
Lemma eqb_item i j : eqb_place (item j) (item i) = (j =? i).
Proof. apply bool_iff. rewrite eqb_place_spec, Nat.eqb_eq. split; congruence. Qed.
Lemma eqb_box i j : eqb_place (box j) (box i) = (j =? i).
Proof. apply bool_iff. rewrite eqb_place_spec, Nat.eqb_eq. split; congruence. Qed.
Lemma inv_toggle o d s i t : inv o d s -> i < m -> is_link t = false -> inv (fun j => if j =? i then negb (o j) else o j) d (header_click doc (header i) t s).
Proof.
  intros V H L. unfold header_click. rewrite targets, L, (inv_fixed _ _ _ V) by fixed_tac. rewrite ellipsis_places. cbn [memb_place existsb orb tl].
  set (s2 := toggle_class "list-view-pf-expand-active" _ _).
  assert (F1 : forall u, memb_place u (find_class doc s (header i) "fa-angle-right") = eqb_place u (arrow i)).
  { intros u. rewrite find_spec by (intros; apply (inv_fixed _ _ _ V); fixed_tac). eapply found_arrow; eauto. }
  assert (F2 : forall u, memb_place u (find_class doc s2 (item i) "list-group-item-container") = eqb_place u (box i)).
  { intros u. rewrite find_spec; [now apply found_box|]. intros w. unfold s2, toggle_class, set_class. cbn [now_class String.eqb Ascii.eqb Bool.eqb andb]. apply (inv_fixed _ _ _ V). fixed_tac. }
  unfold toggle_class, set_class. constructor; cbn [now_class now_shown]; unfold s2, toggle_class, set_class; cbn [now_class now_shown].
  - intros j Hj. cbn [String.eqb Ascii.eqb Bool.eqb andb]. fold (toggle_class "fa-angle-down" (find_class doc s (header i) "fa-angle-right") s). 
    change (find_class doc _ (item i) "list-group-item-container") with (find_class doc s2 (item i) "list-group-item-container"). rewrite F2, eqb_box, (inv_box _ _ _ V) by exact Hj. destruct (j =? i); reflexivity.
  - intros j Hj. cbn [String.eqb Ascii.eqb Bool.eqb andb]. rewrite F1, eqb_arrow, (inv_arrow _ _ _ V) by exact Hj. reflexivity.
  - intros j Hj. cbn [String.eqb Ascii.eqb Bool.eqb andb memb_place existsb]. rewrite orb_false_r, eqb_item, (inv_item _ _ _ V) by exact Hj. reflexivity.
  - intros u Hu. cbn [String.eqb Ascii.eqb Bool.eqb andb]. change (find_class doc _ (item i) "list-group-item-container") with (find_class doc s2 (item i) "list-group-item-container").
    rewrite F2. destruct (eqb_place u (box i)) eqn:E; [apply eqb_place_spec in E; exfalso; eapply Hu; eauto|]. now apply (inv_hidden _ _ _ V).
  - intros c u (C1 & C2 & C3). apply String.eqb_neq in C1, C2, C3. rewrite C1, C2, C3. cbn [andb]. apply (inv_fixed _ _ _ V). split; [|split]; now apply String.eqb_neq.
  - apply (inv_shown _ _ _ V).
Qed.
Lemma inv_close o d s i : inv o d s -> i < m -> inv (fun j => if j =? i then false else o j) d (close_click doc (button i) s).
Proof.
  intros V H. unfold close_click. cbn [tl]. set (s2 := remove_class "list-view-pf-expand-active" _ _).
  assert (F1 : forall u, memb_place u (find_class doc s2 (item i) "fa-angle-right") = eqb_place u (arrow i)).
  { intros u. rewrite find_spec; [eapply found_arrow; eauto|]. intros w. unfold s2, remove_class, add_class, set_class. cbn [now_class String.eqb Ascii.eqb Bool.eqb andb]. apply (inv_fixed _ _ _ V). fixed_tac. }
  unfold remove_class, set_class. constructor; cbn [now_class now_shown].
  - intros j Hj. unfold s2, remove_class, add_class, set_class. cbn [now_class String.eqb Ascii.eqb Bool.eqb andb memb_place existsb]. rewrite orb_false_r, eqb_box, (inv_box _ _ _ V) by exact Hj. destruct (j =? i); reflexivity.
  - intros j Hj. rewrite F1, eqb_arrow. unfold s2, remove_class, add_class, set_class. cbn [now_class String.eqb Ascii.eqb Bool.eqb andb memb_place existsb]. rewrite (inv_arrow _ _ _ V) by exact Hj. reflexivity.
  - intros j Hj. unfold s2, remove_class, add_class, set_class. cbn [now_class String.eqb Ascii.eqb Bool.eqb andb memb_place existsb]. rewrite orb_false_r, eqb_item, (inv_item _ _ _ V) by exact Hj. reflexivity.
  - intros u Hu. unfold s2, remove_class, add_class, set_class. cbn [now_class String.eqb Ascii.eqb Bool.eqb andb memb_place existsb]. rewrite orb_false_r. destruct (eqb_place u (box i)) eqn:E; [apply eqb_place_spec in E; exfalso; eapply Hu; eauto|]. now apply (inv_hidden _ _ _ V).
  - intros c u (C1 & C2 & C3). unfold s2, remove_class, add_class, set_class. cbn [now_class]. apply String.eqb_neq in C1, C2, C3. rewrite C1, C2, C3. cbn [andb]. apply (inv_fixed _ _ _ V). split; [|split]; now apply String.eqb_neq.
  - apply (inv_shown _ _ _ V).
Qed.
Lemma inv_debug o d s : inv o d s -> inv o (negb d) (debug_click doc s).
Proof.
  intros V. unfold debug_click. constructor; cbn [now_class now_shown]; try apply V. intros u. rewrite (inv_shown _ _ _ V). destruct (memb_place u _); reflexivity.
Qed.
Lemma inv_ext o o' d s : (forall i, i < m -> o i = o' i) -> inv o d s -> inv o' d s.
Proof. intros E V. constructor; intros; rewrite <- ?E by assumption; now apply V. Qed.
Definition withinb (u t : location) : bool := memb_place u (path_up t).
Lemma withinb_spec u t : withinb u t = true <-> within u t.
Proof. unfold withinb. now rewrite memb_place_spec, path_up_within. Qed.
Definition open_step (i : nat) (o : bool) (t : location) : bool :=
  if withinb (header i) t && negb (is_link t) then negb o else if withinb (button i) t then false else o.
Definition debug_step (d : bool) (t : location) : bool := if withinb debug_place t then negb d else d.
Lemma inv_click o d s t : inv o d s -> inv (fun i => open_step i (o i) t) (debug_step d t) (click s t).
Proof.
  intros V.
  destruct (existsb (fun i => withinb (header i) t) (seq 0 m)) eqn:E1; [|destruct (existsb (fun i => withinb (button i) t) (seq 0 m)) eqn:E2; [|destruct (withinb debug_place t) eqn:E3]].
  - apply existsb_exists in E1. destruct E1 as (i & Hi & W). apply in_seq in Hi. apply withinb_spec in W. rewrite (click_header t s i) by (auto; lia).
    assert (Dn : withinb debug_place t = false). { apply not_true_iff_false. intros X. apply withinb_spec in X. two. discriminate. }
    unfold debug_step. rewrite Dn.
    assert (O : forall j, open_step j (o j) t = if (j =? i) && negb (is_link t) then negb (o j) else o j).
    { intros j. unfold open_step. destruct (withinb (button j) t) eqn:B; [apply withinb_spec in B; two; discriminate|].
      replace (withinb (header j) t) with (j =? i); [reflexivity|]. apply bool_iff. rewrite Nat.eqb_eq, withinb_spec. split; [intros ->; exact W|]. intros W'. two. congruence. }
    destruct (is_link t) eqn:Lk.
    + apply (inv_ext o); [intros j Hj; rewrite O; cbn [negb]; rewrite andb_false_r; reflexivity|]. unfold header_click. rewrite targets, Lk. exact V.
    + apply (inv_ext (fun j => if j =? i then negb (o j) else o j)); [intros j Hj; rewrite O; cbn [negb]; rewrite andb_true_r; reflexivity|]. apply inv_toggle; auto. lia.
  - apply existsb_exists in E2. destruct E2 as (i & Hi & W). apply in_seq in Hi. apply withinb_spec in W. rewrite (click_button t s i) by (auto; lia).
    assert (Dn : withinb debug_place t = false). { apply not_true_iff_false. intros X. apply withinb_spec in X. two. discriminate. }
    unfold debug_step. rewrite Dn. eapply inv_ext; [|apply inv_close; [exact V|lia]]. intros j Hj. cbv beta. unfold open_step.
    destruct (withinb (header j) t) eqn:B; [apply withinb_spec in B; two; discriminate|]. cbn [andb].
    replace (withinb (button j) t) with (j =? i); [reflexivity|]. apply bool_iff. rewrite Nat.eqb_eq, withinb_spec. split; [intros ->; exact W|]. intros W'. two. congruence.
  - unfold debug_step. rewrite E3. apply withinb_spec in E3. rewrite click_debug by exact E3. eapply inv_ext; [|apply inv_debug; exact V]. intros j Hj. unfold open_step.
    destruct (withinb (header j) t) eqn:B; [apply withinb_spec in B; two; discriminate|]. destruct (withinb (button j) t) eqn:B2; [apply withinb_spec in B2; two; discriminate|]. reflexivity.
  - assert (N1 : forall j, j < m -> withinb (header j) t = false). { intros j Hj. apply not_true_iff_false. intros X. rewrite <- not_true_iff_false in E1. apply E1. apply existsb_exists. exists j. split; [apply in_seq; lia|exact X]. }
    assert (N2 : forall j, j < m -> withinb (button j) t = false). { intros j Hj. apply not_true_iff_false. intros X. rewrite <- not_true_iff_false in E2. apply E2. apply existsb_exists. exists j. split; [apply in_seq; lia|exact X]. }
    unfold debug_step. rewrite E3. rewrite click_other.
    + eapply inv_ext; [|exact V]. intros j Hj. unfold open_step. now rewrite N1, N2 by exact Hj.
    + intros X. apply withinb_spec in X. congruence.
    + intros j Hj X. apply withinb_spec in X. rewrite N1 in X by exact Hj. discriminate.
    + intros j Hj X. apply withinb_spec in X. rewrite N2 in X by exact Hj. discriminate.
Qed.
Definition open_after (clicks : list location) (i : nat) : bool := fold_left (open_step i) clicks (i =? 0).
Definition debug_after (clicks : list location) : bool := fold_left debug_step clicks false.
Lemma inv_clicks clicks : inv (open_after clicks) (debug_after clicks) (fold_left click clicks (loaded doc)).
Proof.
  induction clicks as [|t clicks IH] using rev_ind; [apply inv_loaded|]. unfold open_after, debug_after. rewrite fold_left_app. cbn [fold_left].
  pose proof (inv_click _ _ _ t IH) as V. unfold debug_after in V. rewrite fold_left_app. cbn [fold_left].
  eapply inv_ext; [|exact V]. intros i _. cbv beta. unfold open_after. now rewrite fold_left_app.
Qed.
Lemma opened_after clicks i : opened (header i) (button i) (fun t => In t (places (is_tag "a") doc)) (i =? 0) clicks (open_after clicks i).
Proof.
  induction clicks as [|t clicks IH] using rev_ind; [constructor|]. unfold open_after. rewrite fold_left_app. cbn [fold_left]. fold (open_after clicks i). unfold open_step.
  destruct (withinb (header i) t) eqn:W; cbn [andb].
  - apply withinb_spec in W. destruct (is_link t) eqn:Lk; cbn [negb].
    + assert (B : withinb (button i) t = false). { apply not_true_iff_false. intros X. apply withinb_spec in X. two. discriminate. } rewrite B. apply OpenedOther; [exact IH| |].
      * intros _. now apply memb_place_spec.
      * intros X. apply withinb_spec in X. congruence.
    + apply OpenedToggled; auto. now apply memb_place_not.
  - destruct (withinb (button i) t) eqn:B.
    + apply OpenedClosed with (o := open_after clicks i); [exact IH|]. now apply withinb_spec.
    + apply OpenedOther; [exact IH| |]; intros X; apply withinb_spec in X; congruence.
Qed.
Lemma switched_after clicks : switched debug_place clicks (debug_after clicks).
Proof.
  induction clicks as [|t clicks IH] using rev_ind; [constructor|]. unfold debug_after. rewrite fold_left_app. cbn [fold_left]. fold (debug_after clicks). unfold debug_step.
  destruct (withinb debug_place t) eqn:W; [apply SwitchedClick; auto; now apply withinb_spec|]. apply SwitchedOther; auto. intros X. apply withinb_spec in X. congruence.
Qed.
Lemma nth_places f i u : nth_error (map (fun i => f i) (seq 0 m)) i = Some u -> i < m /\ u = f i :> location.
Proof.
  intros E. assert (H : i < m). { rewrite <- (seq_length m 0), <- (map_length f). apply nth_error_Some. change (map f (seq 0 m)) with (map (fun i => f i) (seq 0 m)). congruence. }
  split; [exact H|]. erewrite map_nth_error in E; [|erewrite nth_error_nth' with (d := 0); [|rewrite seq_length; exact H]; reflexivity]. rewrite seq_nth in E by exact H. cbn [Nat.add] in E. congruence.
Qed.
End Doc.

(** ** C87: what the clicks on a page do *)
Lemma page_doc D (percent colour : D -> N) write checks f s r page : readable write f s r -> render write percent colour checks f s r = Some page ->
  filter (fun y => loud (snd y)) (document page) = (debug_place, (lit "a", debug_attrs)) :: (table_place, (lit "div", table_attrs)) :: items_at base 0 true (sampled r (log_reports r)).
Proof.
  intros H E. destruct (is_rendered _ _ _ _ _ _ _ _ E) as (n & En & ->). rewrite document_node.
  - destruct H as [(_ & H1 & _ & H2)|(_ & H1 & H2)]; eapply page_places; eauto.
  - eauto using readable_safe.
  - eapply formed_page; eauto.
  - unfold page_node in En. destruct (container _ _ _ _ _); [|discriminate]. apply some_inj in En. subst. unfold el. eauto.
Qed.
(** Each log has one item, one header with one arrow, one box with a button and the lines. *)
Theorem C87_parts : forall D (percent colour : D -> N) write checks f s r page c, readable write f s r -> render write percent colour checks f s r = Some page ->
  In c ["list-group-item"; "list-group-item-header"; "fa-angle-right"; "list-group-item-container"; "close"; "loglines"] ->
  List.length (places (has_class c) (document page)) = List.length (log_reports r).
Proof.
  intros D percent colour write checks f s r page c H E I. pose proof (page_doc _ _ _ _ _ _ _ _ _ H E) as HL.
  replace (List.length (log_reports r)) with (List.length (sampled r (log_reports r))) by apply map_length.
  cbn [In] in I. repeat match type of I with _ \/ _ => destruct I as [<-|I] end; [erewrite item_places|erewrite header_places|erewrite arrow_places|erewrite box_places|erewrite button_places|now apply lines_count|destruct I];
    try eassumption; rewrite map_length; apply seq_length.
Qed.
Lemma snoc_inj {A} (a b : list A) x y : a ++ [x] = b ++ [y] -> a = b /\ x = y.
Proof. apply app_inj_tail. Qed.
Lemma opened_one : forall header button link first clicks o o', (forall t, within header t -> ~ within button t) ->
  opened header button link first clicks o -> opened header button link first clicks o' -> o = o'.
Proof.
  intros header button link first clicks o o' X H. revert o'. induction H as [|c o t H IH W L|c o t H IH W|c o t H IH W B]; intros o' H'.
  - inversion H' as [E|? ? ? ? ? ? E|? ? ? ? ? E|? ? ? ? ? ? E]; subst; auto; symmetry in E; destruct (app_cons_not_nil _ _ _ (eq_sym E)) || (destruct c0; discriminate) || (destruct clicks; discriminate).
  - inversion H' as [E|? ? ? ? ? ? E|? ? ? ? ? E|? ? ? ? ? ? E]; [destruct c; discriminate|..]; apply snoc_inj in E; destruct E as [-> ->].
    + f_equal. auto.
    + exfalso. eapply X; eauto.
    + tauto.
  - inversion H' as [E|? ? ? ? ? ? E|? ? ? ? ? E|? ? ? ? ? ? E]; [destruct c; discriminate|..]; apply snoc_inj in E; destruct E as [-> ->].
    + exfalso. eapply X; eauto.
    + reflexivity.
    + contradiction.
  - inversion H' as [E|? ? ? ? ? ? E|? ? ? ? ? E|? ? ? ? ? ? E]; [destruct c; discriminate|..]; apply snoc_inj in E; destruct E as [-> ->].
    + tauto.
    + contradiction.
    + auto.
Qed.
(** After any clicks, a log is open or closed as its header and its button say, the first one open at
    first: its lines can be seen if and only if it is open, and the arrow and the item show it.  The
    headers can always be seen. *)
Theorem C87_items : forall D (percent colour : D -> N) write checks f s r page clicks i item header arrow box button lines,
  readable write f s r -> render write percent colour checks f s r = Some page ->
  let doc := document page in
  let now := fold_left (click doc) clicks (loaded doc) in
  nth_error (places (has_class "list-group-item") doc) i = Some item -> nth_error (places (has_class "list-group-item-header") doc) i = Some header ->
  nth_error (places (has_class "fa-angle-right") doc) i = Some arrow -> nth_error (places (has_class "list-group-item-container") doc) i = Some box ->
  nth_error (places (has_class "close") doc) i = Some button -> nth_error (places (has_class "loglines") doc) i = Some lines ->
  exists o, (forall o', opened header button (fun t => In t (places (is_tag "a") doc)) (i =? 0) clicks o' <-> o' = o) /\
    (visible (now_class now "hidden") lines <-> o = true) /\ now_class now "fa-angle-down" arrow = o /\ now_class now "list-view-pf-expand-active" item = o /\
    now_class now "hidden" box = negb o /\ visible (now_class now "hidden") header.
Proof.
  intros D percent colour write checks f s r page clicks i item header arrow box button lines H E doc now Hi Hh Ha Hb Hc Hl.
  pose proof (page_doc _ _ _ _ _ _ _ _ _ H E) as HL. fold doc in HL.
  pose proof (inv_clicks doc _ HL clicks) as V. fold now in V.
  erewrite item_places in Hi by exact HL. erewrite header_places in Hh by exact HL. erewrite arrow_places in Ha by exact HL. erewrite box_places in Hb by exact HL. erewrite button_places in Hc by exact HL.
  apply (nth_places _ (fun i => i :: base)) in Hi. apply (nth_places _ (fun i => 0 :: i :: base)) in Hh. apply (nth_places _ (fun i => 0 :: 0 :: 0 :: i :: base)) in Ha. apply (nth_places _ (fun i => 1 :: i :: base)) in Hb. apply (nth_places _ (fun i => 0 :: 1 :: i :: base)) in Hc.
  destruct Hi as (M & ->), Hh as (_ & ->), Ha as (_ & ->), Hb as (_ & ->), Hc as (_ & ->).
  destruct (lines_places doc _ HL _ _ Hl) as (_ & W).
  exists (open_after doc clicks i). csplit.
  - intros o'. split; [|intros ->; apply opened_after]. intros O. eapply opened_one; [|exact O|apply opened_after].
    intros t W1 W2. pose proof (lastn_within 6 _ _ W1 ltac:(cbn; lia)) as A. pose proof (lastn_within 6 _ _ W2 ltac:(cbn; lia)) as B. rewrite A in B. unfold lastn in B. cbn in B. discriminate.
  - split.
    + intros Vi. specialize (Vi _ W). rewrite (inv_box _ _ _ _ _ V) in Vi by exact M. now destruct (open_after doc clicks i).
    + intros O u Wu. destruct (now_class now "hidden" u) eqn:Eu; [|reflexivity]. exfalso.
      assert (K : ~ forall j, j < List.length (sampled r (log_reports r)) -> u <> 1 :: j :: base). { intros K. rewrite (inv_hidden _ _ _ _ _ V) in Eu by exact K. discriminate. }
      assert (K' : forall n, (exists j, j < n /\ u = 1 :: j :: base) \/ forall j, j < n -> u <> 1 :: j :: base).
      { clear. induction n as [|n [(j & L & ->)|IH]]; [right; lia|left; eauto|]. destruct (list_eq_dec Nat.eq_dec u (1 :: n :: base)) as [->|N]; [left; eauto|]. right. intros j Lj. destruct (Nat.eq_dec j n) as [->|]; [exact N|]. apply IH. lia. }
      destruct (K' (List.length (sampled r (log_reports r)))) as [(j & Lj & ->)|K'']; [|contradiction].
      assert (j = i). { pose proof (lastn_within 6 _ _ W ltac:(cbn; lia)) as A. pose proof (lastn_within 6 _ _ Wu ltac:(cbn; lia)) as B. rewrite A in B. unfold lastn in B. cbn in B. congruence. }
      subst j. rewrite (inv_box _ _ _ _ _ V), O in Eu by exact M. discriminate.
  - now apply (inv_arrow _ _ _ _ _ V).
  - now apply (inv_item _ _ _ _ _ V).
  - now apply (inv_box _ _ _ _ _ V).
  - intros u Wu. apply (inv_hidden _ _ _ _ _ V). intros j _ ->. pose proof (lastn_within 6 _ _ Wu ltac:(cbn; lia)) as A. unfold lastn in A. cbn in A. discriminate.
Qed.
(** The debug infos: the table, a link to the model for each log, and the samples of a log if there are any. *)
Theorem C87_infos : forall D (percent colour : D -> N) write checks f s r page, readable write f s r -> render write percent colour checks f s r = Some page ->
  List.length (places (has_id "debuginfo") (document page)) =
    1 + List.length (log_reports r) + List.length (filter (fun lr => existsb (fun x => eqb_list (fst x) (lr_index lr)) (index_reports r)) (log_reports r)).
Proof.
  intros D percent colour write checks f s r page H E. pose proof (page_doc _ _ _ _ _ _ _ _ _ H E) as HL. rewrite (info_count _ _ HL). unfold sampled. rewrite map_length. f_equal.
  generalize (log_reports r). induction l as [|lr l IH]; [reflexivity|]. cbn [map filter].
  replace (existsb (fun x => eqb_list (fst x) (lr_index lr)) (index_reports r)) with (match hm_get (lr_index lr) (index_reports r) with Some _ => true | None => false end).
  - destruct (hm_get _ _); cbn [id List.length]; now rewrite IH.
  - clear. rewrite hm_find. induction (index_reports r) as [|x m IH]; [reflexivity|]. cbn [find existsb]. destruct (eqb_list _ _); [reflexivity|exact IH].
Qed.
(** There is one debug button, and it switches the elements with the debug infos and nothing else does. *)
Theorem C87_debug : forall D (percent colour : D -> N) write checks f s r page clicks, readable write f s r -> render write percent colour checks f s r = Some page ->
  let doc := document page in
  let now := fold_left (click doc) clicks (loaded doc) in
  exists button d, places (has_id "debugbtn") doc = [button] /\ In button (places (is_tag "a") doc) /\ switched button clicks d /\
    forall p, now_shown now p = true <-> In p (places (has_id "debuginfo") doc) /\ d = true.
Proof.
  intros D percent colour write checks f s r page clicks H E doc now. pose proof (page_doc _ _ _ _ _ _ _ _ _ H E) as HL. fold doc in HL.
  pose proof (inv_clicks doc _ HL clicks) as V. fold now in V. exists debug_place, (debug_after clicks). csplit.
  - eapply debug_places; exact HL.
  - assert (I : In (debug_place, (lit "a", debug_attrs)) doc). { apply (proj1 (filter_In (fun y => loud (snd y)) (debug_place, (lit "a", debug_attrs)) doc)). rewrite HL. now left. }
    unfold places. change debug_place with (fst (debug_place, (lit "a", debug_attrs))). apply in_map. apply filter_In. split; [exact I|reflexivity].
  - apply switched_after.
  - intros p. rewrite (inv_shown _ _ _ _ _ V), andb_true_iff, memb_place_spec. tauto.
Qed.

(** ** Examples *)
Definition ex_seen (page : bytes) (clicks : list location) : list bool * list bool * list bool :=
  let doc := document page in
  let now := fold_left (click doc) clicks (loaded doc) in
  (map (fun p => negb (now_class now "hidden" p)) (places (has_class "list-group-item-container") doc), map (now_class now "fa-angle-down") (places (has_class "fa-angle-right") doc),
   map (now_shown now) (places (has_id "debuginfo") doc)).
(** The heading and the link to the file of the second log, its button; the debug button. *)
Definition ex_heading : location := [0; 0; 1; 1; 0; 1; 1; 1; 1; 0].
Definition ex_link : location := [1; 2; 1; 1; 0; 1; 1; 1; 1; 0].
Definition ex_button : location := [0; 0; 1; 1; 1; 1; 1; 0].
Definition ex_debug : location := [0; 0; 0; 1; 0; 1; 0].
Example C87_example : exists page, ex_render verbatim (ex_page "E < F") = Some page /\
  ex_seen page [] = ([true; false], [true; false], [false; false; false; false]) /\
  ex_seen page [ex_link] = ([true; false], [true; false], [false; false; false; false]) /\
  ex_seen page [ex_heading] = ([true; true], [true; true], [false; false; false; false]) /\
  ex_seen page [ex_heading; ex_button; ex_debug] = ([true; false], [true; false], [true; true; true; true]) /\
  ex_seen page [ex_heading; ex_debug; ex_heading; ex_heading; ex_debug] = ([true; true], [true; true], [false; false; false; false]).
Proof.
  destruct (ex_render verbatim (ex_page "E < F")) as [page|] eqn:E; [|discriminate]. exists page. split; [reflexivity|].
  vm_compute in E. injection E as <-. csplit; vm_compute; reflexivity.
Qed.

Print Assumptions C87_parts.
Print Assumptions C87_items.
Print Assumptions C87_infos.
Print Assumptions C87_debug.
