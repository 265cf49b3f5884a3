(** The document of the page of a report. *)
From Coq Require Import String List NArith PeanoNat Bool Lia.
From Verif Require Import Common CommonFacts FilesModel ProcModel ReportModel HtmlModel HtmlSpec HtmlReportSpec HtmlProofs HtmlPage P_Html.
From Verif Require Import PageSpec PageProofs P_Page FormSpec P_Form DomSpec ClickModel.
Import ListNotations.
Open Scope string_scope.
Open Scope list_scope.
Open Scope nat_scope.
Ltac csplit := repeat match goal with |- _ /\ _ => split end.

(** ** The document of a page *)
Fixpoint at_node (p : location) (n : node) : list (location * (bytes * bytes)) :=
  match n with
  | Txt _ => []
  | Elem t a c => (p, (t, flat_map write_attr a)) ::
      (fix go (k : nat) (l : list node) : list (location * (bytes * bytes)) :=
         match l with [] => [] | x :: r => at_node (k :: p) x ++ go (match x with Elem _ _ _ => S k | Txt _ => k end) r end) 0 c
  end.
Fixpoint at_nodes (p : location) (k : nat) (l : list node) : list (location * (bytes * bytes)) :=
  match l with [] => [] | x :: r => at_node (k :: p) x ++ at_nodes p (match x with Elem _ _ _ => S k | Txt _ => k end) r end.
Lemma at_node_elem p t a c : at_node p (Elem t a c) = (p, (t, flat_map write_attr a)) :: at_nodes p 0 c.
Proof. cbn [at_node]. f_equal. generalize 0. induction c as [|x c IH]; intros k; [reflexivity|]. cbn [at_nodes]. now rewrite IH. Qed.
Lemma placed_join l : forall t p, placed p (join t l) = placed p l.
Proof.
  assert (C : forall t p r, placed p (chars t ++ r) = placed p r) by (intros t p r; destruct t; reflexivity).
  induction l as [|[n a|n|x] l IH]; intros t p; cbn [join].
  - rewrite <- (app_nil_r (chars t)). apply C.
  - rewrite C. cbn [placed]. now rewrite IH.
  - rewrite C. cbn [placed]. now rewrite IH.
  - cbn [placed]. apply IH.
Qed.
Definition after_node (n : node) (p : location) : location := match n with Elem _ _ _ => next_place p | Txt _ => p end.
Lemma placed_node write n : formed n -> forall k up l, placed (k :: up) (flat write n ++ l) = at_node (k :: up) n ++ placed (after_node n (k :: up)) l.
Proof.
  induction n as [t a c IH|t] using node_ind'; intros H k up l; [|reflexivity]. rewrite at_node_elem. cbn [flat app placed after_node]. fold (is_void t). inversion H as [|? ? V S|? ? ? V S F]; subst; rewrite V, S.
  - reflexivity.
  - f_equal. rewrite <- app_assoc. cbn [app].
    assert (K : forall j l, placed (j :: k :: up) (flat_map (flat write) c ++ l) = at_nodes (k :: up) j c ++ placed (j + List.length (filter (fun x => match x with Elem _ _ _ => true | _ => false end) c) :: k :: up) l).
    { clear l V S H. induction IH as [|x c Hx _ IHc]; intros j l; [cbn [filter List.length]; now rewrite Nat.add_0_r|]. inversion F; subst. cbn [flat_map at_nodes]. rewrite <- !app_assoc, Hx by assumption. f_equal.
      destruct x as [t' a' c'|t']; cbn [after_node next_place filter List.length]; rewrite IHc by assumption; [rewrite <- Nat.add_succ_comm|]; reflexivity. }
    rewrite K. cbn [placed tl next_place]. reflexivity.
Qed.
Lemma document_node write n : safe write n -> formed n -> (exists t a c, n = Elem t a c) -> document (html write n) = at_node [0] n.
Proof. intros Hs Hf _. unfold document. rewrite page_tokens by exact Hs. rewrite placed_join, <- (app_nil_r (flat write n)), placed_node by exact Hf. cbn [placed]. destruct n; apply app_nil_r. Qed.

(** ** Attributes *)
Lemma read_value n v r : quotable v -> forall w, read_attributes (InValue n 34 w) (v ++ 34%N :: r) = (n, w ++ v) :: read_attributes Between r.
Proof.
  unfold quotable. induction v as [|c v IH]; intros H w; cbn [app read_attributes]; [now rewrite app_nil_r|]. cbn [In] in H.
  destruct (N.eqb_spec c 34) as [->|_]; [tauto|]. rewrite IH by tauto. now rewrite <- app_assoc.
Qed.
Lemma read_name n r : forall w, ~ In 61%N n -> read_attributes (InName w) (n ++ 61%N :: r) = read_attributes (Equals (w ++ n)) r.
Proof. induction n as [|c n IH]; intros w H; cbn [app read_attributes]; [now rewrite app_nil_r|]. cbn [In] in H. destruct (N.eqb_spec c 61) as [->|_]; [tauto|]. rewrite IH by tauto. now rewrite <- app_assoc. Qed.
Lemma attributes_attr name v r : (exists c s, lit name = c :: s /\ c <> 32%N /\ ~ In 61%N s) -> quotable v ->
  attributes (write_attr (attr name v) ++ r) = (lit name, v) :: attributes r.
Proof.
  intros (c & s & E & Hc & Hs) Hv. unfold attributes, attr, write_attr. cbn [app read_attributes]. rewrite E. cbn [N.eqb app read_attributes].
  change ((32 =? 32)%N) with true. cbv iota. destruct (N.eqb_spec c 32) as [X|_]; [contradiction|].
  rewrite <- !app_assoc. cbn [app]. rewrite read_name by exact Hs. cbn [app read_attributes]. rewrite <- app_assoc. cbn [app]. now rewrite read_value.
Qed.
Definition attr_name (name : string) : Prop := exists c s, lit name = c :: s /\ c <> 32%N /\ ~ In 61%N s.
Lemma other_value want name v r : attr_name name -> quotable v -> eqb_list (lit name) (lit want) = false ->
  values want (flat_map write_attr (attr name v :: r)) = values want (flat_map write_attr r).
Proof. intros Hn Hv Hw. cbn [flat_map]. unfold values. rewrite attributes_attr by assumption. cbn [filter fst]. now rewrite Hw. Qed.

(** ** The elements that the script can see *)
Definition queries : list (bytes * bytes -> bool) :=
  [has_class "list-group-item-header"; has_class "fa-angle-right"; has_class "list-group-item-container"; has_class "close"; has_class "hidden"; has_class "fa-angle-down";
   has_class "list-view-pf-expand-active"; has_class "fa-ellipsis-v"; has_class "list-group-item"; has_class "loglines"; is_tag "button"; is_tag "input"; has_id "debugbtn"; has_id "debuginfo"].
Definition loud (x : bytes * bytes) : bool := existsb (fun q => q x) queries.
Lemma loud_other t name v r : attr_name name -> quotable v -> eqb_list (lit name) (lit "class") = false -> eqb_list (lit name) (lit "id") = false ->
  loud (t, flat_map write_attr (attr name v :: r)) = loud (t, flat_map write_attr r).
Proof. intros. unfold loud, queries, has_class, classes, has_id, is_tag. cbn [existsb fst snd]. now rewrite !other_value. Qed.
Definition lpl (p : location) (n : node) := filter (fun y => loud (snd y)) (at_node p n).
Definition lpls (p : location) (k : nat) (l : list node) := filter (fun y => loud (snd y)) (at_nodes p k l).
Lemma lpl_el p t a c b R : loud (lit t, flat_map write_attr a) = b -> lpls p 0 c = R -> lpl p (el t a c) = if b then (p, (lit t, flat_map write_attr a)) :: R else R.
Proof. intros <- <-. unfold lpl, el. rewrite at_node_elem. cbn [filter snd]. reflexivity. Qed.
Lemma lpls_nil p k : lpls p k [] = [].
Proof. reflexivity. Qed.
Definition is_el (n : node) : Prop := match n with Elem _ _ _ => True | Txt _ => False end.
Lemma lpls_cons p k n r R1 R2 : is_el n -> lpl (k :: p) n = R1 -> lpls p (S k) r = R2 -> lpls p k (n :: r) = R1 ++ R2.
Proof. intros H <- <-. destruct n; [|contradiction]. unfold lpls. cbn [at_nodes]. apply filter_app. Qed.
Lemma lpls_txt p k t r R : lpls p k r = R -> lpls p k (Txt t :: r) = R.
Proof. exact id. Qed.
Lemma lpls_map {A} (f : A -> node) l r R : forall p k, (forall x, In x l -> is_el (f x)) -> (forall x u, In x l -> lpl u (f x) = []) -> lpls p (k + List.length l) r = R -> lpls p k (map f l ++ r) = R.
Proof.
  induction l as [|x l IH]; intros p k He Hf Hr; cbn [map app List.length] in *; [now rewrite Nat.add_0_r in Hr|]. change R with ([] ++ R). apply lpls_cons; [apply He; now left|apply Hf; now left|].
  apply IH; [intros; apply He; now right|intros; apply Hf; now right|]. now rewrite Nat.add_succ_comm.
Qed.
Lemma lpls_map_end {A} (f : A -> node) l p k : (forall x, In x l -> is_el (f x)) -> (forall x u, In x l -> lpl u (f x) = []) -> lpls p k (map f l) = [].
Proof. intros. rewrite <- (app_nil_r (map f l)). now apply lpls_map. Qed.
Lemma places_loud q doc : In q queries -> places q doc = map fst (filter (fun y => q (snd y)) (filter (fun y => loud (snd y)) doc)).
Proof.
  intros H. unfold places. f_equal. induction doc as [|[u x] doc IH]; [reflexivity|]. cbn [filter snd]. destruct (q x) eqn:E.
  - assert (L : loud x = true) by (unfold loud; apply existsb_exists; eauto). rewrite L. cbn [filter snd]. rewrite E. now rewrite IH.
  - destruct (loud x); cbn [filter snd]; rewrite ?E; exact IH.
Qed.
Ltac an := match goal with |- attr_name ?n => exists (List.hd 0%N (lit n)), (List.tl (lit n)); split; [reflexivity|]; split; [discriminate|]; cbn; intuition discriminate end.
Ltac qv := match goal with |- quotable _ => first [assumption | apply quotable_dec; reflexivity] end.
Ltac is_loud := repeat (rewrite loud_other by first [an | qv | reflexivity]); match goal with |- loud ?x = _ => let b := eval lazy in (loud x) in first [constr_eq b true | constr_eq b false]; change (loud x) with b; reflexivity end.
Ltac find_loud := repeat match goal with
  | |- lpl _ (el _ _ _) = _ => eapply lpl_el; [is_loud|]; cbv iota
  | |- lpls _ _ [] = _ => apply lpls_nil
  | |- lpls _ _ (Txt _ :: _) = _ => apply lpls_txt
  | |- lpls _ _ (el _ _ _ :: _) = _ => eapply lpls_cons; [exact I| |]
  | H : forall u k, lpls u k ?l = [] |- lpls _ _ ?l = _ => apply H
  | H : forall u, lpl u ?n = _ |- lpls _ _ (?n :: _) = _ => eapply lpls_cons; [exact I|apply H|]
  end.
Ltac fl := eapply eq_trans; [find_loud|].

Section Items.
Context {D : Type}.
Variables (percent colour : D -> N).
Lemma hex_quotable n : quotable (lit "color: #" ++ fmt2X n ++ lit "0000").
Proof.
  unfold quotable. rewrite !in_app_iff. intros [K|[K|K]]; [revert K; apply (quotable_dec (lit "color: #")); reflexivity| |revert K; apply (quotable_dec (lit "0000")); reflexivity].
  apply hex_in in K. lia.
Qed.
(** The links of a log can be read. *)
Definition clean_refs (lr : @log_report D) (sources : option (list source)) : Prop :=
  quotable (str (lr_source lr)) /\ quotable (utf8_encode (lr_index lr)) /\
  match sources with Some l => Forall (fun s => quotable (str s)) l | None => True end.
Definition top_attrs (e : bool) := flat_map write_attr [attr "class" (lit "list-group-item" ++ if e then lit " list-view-pf-expand-active" else []); attr "id" (lit "TODO")].
Definition header_attrs := flat_map write_attr [attr "class" (lit "list-group-item-header")].
Definition arrow_attrs (e : bool) := flat_map write_attr [attr "class" (lit "fa fa-angle-right" ++ if e then lit " fa-angle-down" else [])].
Definition container_attrs (e : bool) := flat_map write_attr [attr "class" (lit "list-group-item-container container-fluid" ++ if e then [] else lit " hidden")].
Definition lines_attrs := flat_map write_attr [attr "class" (lit "loglines")].
Definition close_attrs := flat_map write_attr [attr "class" (lit "close")].
(** [samples]: whether the log has baseline samples. *)
Definition info_attrs := flat_map write_attr [attr "class" (lit "list-view-pf-additional-info-item"); lit "id='debuginfo'"].
Definition samples_attrs := flat_map write_attr [lit "id='debuginfo'"].
Definition table_attrs := flat_map write_attr [lit "id='debuginfo'"; lit "style='overflow-x: auto'"].
Definition item_loud (p : location) (e samples : bool) : list (location * (bytes * bytes)) :=
  [(p, (lit "div", top_attrs e)); (0 :: p, (lit "div", header_attrs)); (0 :: 0 :: 0 :: p, (lit "span", arrow_attrs e)); (1 :: 1 :: 1 :: 0 :: p, (lit "div", info_attrs));
   (1 :: p, (lit "div", container_attrs e)); (0 :: 1 :: p, (lit "div", close_attrs))] ++
  (if samples then [(1 :: 1 :: p, (lit "div", samples_attrs))] else []) ++
  [((if samples then 2 else 1) :: 1 :: p, (lit "div", lines_attrs))].
Lemma some_inj {A} (x y : A) : Some x = Some y -> x = y.
Proof. congruence. Qed.
Lemma line_loud u l : lpl u (@line_node D percent colour l) = [].
Proof.
  destruct l as [|n x|d n x]; unfold line_node; [| |pose proof (hex_quotable (colour d)) as Q5; remember (lit "color: #" ++ fmt2X (colour d) ++ lit "0000") as v eqn:Ev; clear Ev]; fl; reflexivity.
Qed.
Lemma samples_loud u l : Forall (fun s => quotable (str s)) l -> lpl u (samples l) = [(u, (lit "div", samples_attrs))].
Proof.
  intros H. unfold samples. assert (K : forall s, In s (firstn 3 l) -> quotable (str s)). { rewrite Forall_forall in H. intros s I. apply H. rewrite <- (firstn_skipn 3 l). apply in_or_app. now left. }
  assert (M : forall u k, lpls u k (map (fun s => el "li" [] [el "a" [attr "href" (str s)] [Txt (str s)]]) (firstn 3 l)) = []).
  { intros v k. apply lpls_map_end; [intros; exact I|]. intros x w Hx. pose proof (K x Hx). fl. reflexivity. }
  fl. reflexivity.
Qed.
Lemma item_places checks lr sources e n p : clean_refs lr sources -> content_report percent colour checks lr sources e = Some n -> lpl p n = item_loud p e (match sources with Some _ => true | None => false end).
Proof.
  intros (Q1 & Q2 & Q3). unfold content_report. destruct (get_relative _); [|discriminate]. destruct (render_lines _ _ _) as [lines|]; [|discriminate]. intros E. apply some_inj in E. rewrite <- E. clear E.
  match goal with |- context [attr "href" (lit "#model_" ++ ?x)] =>
    assert (Q4 : quotable (lit "#model_" ++ x)) by (unfold quotable in *; rewrite in_app_iff; let K := fresh in intros [K|K]; [revert K; apply (quotable_dec (lit "#model_")); reflexivity|auto]);
    remember (lit "#model_" ++ x) as m1 eqn:E1; clear E1 end.
  assert (L : forall u k, lpls u k (map (line_node percent colour) lines) = []) by (intros u k; apply lpls_map_end; [intros [| |] _; exact I|intros; apply line_loud]).
  cbn [app]. destruct sources as [srcs|]; cbn [app].
  - pose proof (fun u => samples_loud u _ Q3) as M. destruct e; fl; reflexivity.
  - destruct e; fl; reflexivity.
Qed.
Fixpoint items_at (p : location) (k : nat) (e : bool) (l : list bool) : list (location * (bytes * bytes)) :=
  match l with [] => [] | b :: l => item_loud (k :: p) e b ++ items_at p (S k) false l end.
Definition sampled (r : @report D) (l : list (@log_report D)) : list bool := map (fun lr => match hm_get (lr_index lr) (index_reports r) with Some _ => true | None => false end) l.
Lemma content_is_el checks lr sources e n : content_report percent colour checks lr sources e = Some n -> is_el n.
Proof. unfold content_report. destruct (get_relative _); [|discriminate]. destruct (render_lines _ _ _); [|discriminate]. intros E. apply some_inj in E. subst. exact I. Qed.
Lemma items_places checks r l p : Forall (fun lr => clean_refs lr (hm_get (lr_index lr) (index_reports r))) l ->
  forall k e ns, content_reports percent colour checks e r l = Some ns -> lpls p k ns = items_at p k e (sampled r l).
Proof.
  induction 1 as [|lr l H _ IH]; intros k e ns E; cbn [content_reports] in E; [apply some_inj in E; subst; reflexivity|].
  destruct (content_report _ _ _ _ _ _) as [n|] eqn:E1; [|discriminate]. destruct (content_reports _ _ _ false _ _) as [ns'|] eqn:E2; [|discriminate]. apply some_inj in E. subst ns.
  cbn [sampled map items_at]. apply lpls_cons; [eapply content_is_el; exact E1|eapply item_places; eauto|eauto].
Qed.
End Items.
Definition base : location := [1; 1; 1; 0].
Definition debug_place : location := [0; 0; 0; 1; 0; 1; 0].
Definition table_place : location := [0; 1; 1; 0].
Definition debug_attrs := flat_map write_attr [attr "href" (lit "#"); lit "id='debugbtn'"].
Section Whole.
Context {D : Type}.
Variables (percent colour : D -> N).
Lemma refs_clean ok (r : @report D) : clean_report ok r -> Forall (fun lr => clean_refs lr (hm_get (lr_index lr) (index_reports r))) (log_reports r).
Proof.
  intros [H1 H2]. eapply Forall_impl; [|exact H1]. intros lr (K1 & _ & K2 & _). split; [exact K1|]. split; [exact K2|].
  destruct (hm_get _ _) as [srcs|] eqn:E; [|exact I]. apply hm_get_in in E. destruct E as (k & E). rewrite Forall_forall in H2. specialize (H2 _ E). cbn [snd] in H2.
  eapply Forall_impl; [|exact H2]. intros x Hx. apply Hx.
Qed.
Lemma page_places ok checks f s (r : @report D) n : clean_fixed ok f -> clean_report ok r -> page_node percent colour checks f s r = Some n ->
  lpl [0] n = (debug_place, (lit "a", debug_attrs)) :: (table_place, (lit "div", table_attrs)) :: items_at base 0 true (sampled r (log_reports r)).
Proof.
  intros ((v & Ev & Qv) & Hf & _) Hr. apply refs_clean in Hr. unfold page_node, container. destruct (content_reports _ _ _ _ _ _) as [ns|] eqn:E; [|discriminate].
  pose proof (fun p k => items_places percent colour checks r _ p Hr k true ns E) as L. intros X. apply some_inj in X. subst n.
  apply Forall_app in Hf. destruct Hf as [Hs Hc]. rewrite Forall_forall in Hs, Hc.
  assert (M1 : forall u k x, lpls u k (map (fun x => el "link" [attr "href" (fst x); attr "rel" (lit "stylesheet"); attr "integrity" (snd x); attr "crossorigin" (lit "anonymous")] []) (f_styles f) ++ [el "style" [] [Txt x]]) = []).
  { intros u k x. apply lpls_map; [intros; exact I| |fl; reflexivity]. intros y w Hy. destruct (Hs _ Hy). fl. reflexivity. }
  assert (M2 : forall u k x, lpls u k (map (fun x => el "script" [attr "src" (fst x); attr "integrity" (snd x); attr "crossorigin" (lit "anonymous")] []) (f_scripts f) ++ [el "script" [] [Txt x]]) = []).
  { intros u k x. apply lpls_map; [intros; exact I| |fl; reflexivity]. intros y w Hy. destruct (Hc _ Hy). fl. reflexivity. }
  unfold head, nav, table. rewrite Ev. change (lit "src=" ++ [34%N] ++ v ++ [34%N]) with (attr "src" v). cbn [map fst snd app].
  eapply eq_trans.
  { repeat (find_loud; try apply M1; try apply M2; try apply L). }
  cbn [app]. rewrite !app_nil_r. reflexivity.
Qed.
End Whole.
