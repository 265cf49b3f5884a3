(** Proofs about the elements of the page of a report. *)
From Coq Require Import String List NArith Arith Bool Lia.
From Verif Require Import Common CommonFacts FilesModel ProcModel ReportModel HtmlModel HtmlSpec HtmlReportSpec HtmlProofs HtmlPage PageSpec.
Import ListNotations.
Open Scope string_scope.
Open Scope list_scope.
Open Scope N_scope.
Ltac csplit := repeat match goal with |- _ /\ _ => split end.

(** ** Elements do not depend on how texts are cut *)
Fixpoint lead (l : list token) : bytes := match l with Chars t :: r => t ++ lead r | _ => [] end.
Fixpoint elems (name : bytes) (l : list token) : list (bytes * bytes) :=
  match l with
  | [] => []
  | Open n a :: r => (if eqb_list n name then [(a, lead r)] else []) ++ elems name r
  | _ :: r => elems name r
  end.
Lemma first_chars t l : (forall x r, l <> Chars x :: r) -> first_text (chars t ++ l) = t.
Proof. intros H. destruct t; [|reflexivity]. destruct l as [|[| |x] r]; try reflexivity. now destruct (H x r). Qed.
Lemma first_join l : forall t, first_text (join t l) = t ++ lead l.
Proof.
  induction l as [|[n a|n|x] l IH]; intros t; cbn [join lead].
  - rewrite app_nil_r. destruct t; reflexivity.
  - rewrite app_nil_r. now apply first_chars.
  - rewrite app_nil_r. now apply first_chars.
  - now rewrite IH, app_assoc.
Qed.
Lemma elements_chars name t l : elements_of name (chars t ++ l) = elements_of name l.
Proof. destruct t; reflexivity. Qed.
Lemma elements_join name l : forall t, elements_of name (join t l) = elems name l.
Proof.
  induction l as [|[n a|n|x] l IH]; intros t; cbn [join elems].
  - destruct t; reflexivity.
  - rewrite elements_chars. cbn [elements_of]. now rewrite IH, first_join.
  - rewrite elements_chars. cbn [elements_of]. apply IH.
  - apply IH.
Qed.

Section Nodes.
Variable write : bytes -> bytes.
Notation flat := (flat write).
Variable name : bytes.
Hypothesis not_void : void name = false.
(** The text in front of the children of a node. *)
Definition lead_of (c : list node) : bytes := lead (flat_map flat c).
Fixpoint els (n : node) : list (bytes * bytes) :=
  match n with
  | Txt _ => []
  | Elem t a c => (if eqb_list t name then [(flat_map write_attr a, lead_of c)] else []) ++ flat_map els c
  end.
Lemma lead_close a n l : lead (a ++ Close n :: l) = lead a.
Proof. induction a as [|[| |x] a IH]; cbn [app lead]; try reflexivity. now rewrite IH. Qed.
Lemma elems_node n : forall l, elems name (flat n ++ l) = els n ++ elems name l.
Proof.
  induction n as [t a c IH|t] using node_ind'; intros l; [|reflexivity]. cbn [HtmlProofs.flat els app elems].
  assert (K : forall l, elems name (flat_map flat c ++ l) = flat_map els c ++ elems name l).
  { clear l. induction IH as [|x c Hx _ IHc]; intros l; [reflexivity|]. cbn [flat_map]. now rewrite <- !app_assoc, Hx, IHc. }
  rewrite <- !app_assoc. f_equal.
  - destruct (eqb_list t name) eqn:E; [|reflexivity]. apply eqb_list_spec in E. subst t. rewrite not_void. cbn [app]. now rewrite lead_close.
  - rewrite K. destruct (void t); reflexivity.
Qed.
Lemma elements_node n : safe write n -> elements name (html write n) = els n.
Proof. intros H. unfold elements. rewrite page_tokens by exact H. rewrite elements_join. rewrite <- (app_nil_r (flat n)), elems_node. apply app_nil_r. Qed.
Lemma els_other t a c : eqb_list (lit t) name = false -> els (el t a c) = flat_map els c.
Proof. intros H. unfold el. cbn [els]. now rewrite H. Qed.
Lemma els_this t a c : eqb_list (lit t) name = true -> els (el t a c) = (flat_map write_attr a, lead_of c) :: flat_map els c.
Proof. intros H. unfold el. cbn [els]. now rewrite H. Qed.
Lemma els_map_nil {A} (f : A -> node) l : (forall x, els (f x) = []) -> flat_map els (map f l) = [].
Proof. intros H. induction l as [|x l IH]; [reflexivity|]. cbn [map flat_map]. now rewrite H, IH. Qed.
End Nodes.

(** ** The page *)
Section Page.
Context {D : Type}.
Variable write : bytes -> bytes.
Variables (percent colour : D -> N).
Notation els := (els write).
Notation content_report := (content_report percent colour).
Notation content_reports := (content_reports percent colour).
Definition line_attrs (l : @rline D) : list (bytes * bytes) :=
  match l with
  | Hr => []
  | Ctx n x => [([], write (lit "   " ++ fmt4 n ++ lit " | " ++ x))]
  | Anom d n x => [(write_attr (attr "style" (lit "color: #" ++ fmt2X (colour d) ++ lit "0000")), write (fmt02 (percent d) ++ lit " " ++ fmt4 n ++ lit " | " ++ x))]
  end.
Lemma hm_find {V} n (m : list (text * V)) : hm_get n m = option_map snd (find (fun x => eqb_list (fst x) n) m).
Proof. induction m as [|[k v] m IH]; [reflexivity|]. cbn [hm_get find fst]. destruct (eqb_list k n); [reflexivity|exact IH]. Qed.
(** The elements of a log. *)
Lemma td_line l : els (lit "td") (line_node percent colour l) = [].
Proof. destruct l; reflexivity. Qed.
Lemma a_line l : els (lit "a") (line_node percent colour l) = [].
Proof. destruct l; reflexivity. Qed.
Lemma pre_line l : els (lit "pre") (line_node percent colour l) = line_attrs l.
Proof.
  destruct l as [|n x|d n x]; unfold line_node; [reflexivity| |]; rewrite els_this by reflexivity; unfold lead_of; cbn [flat_map HtmlProofs.flat app lead PageProofs.els line_attrs]; now rewrite ?app_nil_r.
Qed.
Lemma strong_line l : els (lit "strong") (line_node percent colour l) = [].
Proof. destruct l; reflexivity. Qed.

Lemma td_samples l : els (lit "td") (samples l) = [].
Proof. unfold samples. rewrite els_other by reflexivity. cbn [flat_map]. rewrite els_other by reflexivity. rewrite els_map_nil by reflexivity. reflexivity. Qed.
Lemma pre_samples l : els (lit "pre") (samples l) = [].
Proof. unfold samples. rewrite els_other by reflexivity. cbn [flat_map]. rewrite els_other by reflexivity. rewrite els_map_nil by reflexivity. reflexivity. Qed.
Lemma strong_samples l : els (lit "strong") (samples l) = [].
Proof. unfold samples. rewrite els_other by reflexivity. cbn [flat_map]. rewrite els_other by reflexivity. rewrite els_map_nil by reflexivity. reflexivity. Qed.
Lemma a_samples l : els (lit "a") (samples l) = map (fun s => link write (name_of_source s) (name_of_source s)) (firstn 3 l).
Proof.
  unfold samples. rewrite els_other by reflexivity. cbn [flat_map]. rewrite els_other by reflexivity. cbn [PageProofs.els app]. rewrite app_nil_r. induction (firstn 3 l) as [|x k IH]; [reflexivity|].
  cbn [map flat_map]. rewrite IH, els_other by reflexivity. cbn [flat_map]. rewrite els_this by reflexivity. unfold lead_of. cbn [flat_map HtmlProofs.flat app lead PageProofs.els]. rewrite !app_nil_r. reflexivity.
Qed.
Lemma content_els name checks lr sources expand n : content_report checks lr sources expand = Some n -> void name = false ->
  eqb_list (lit "div") name = false -> eqb_list (lit "span") name = false ->
  exists lines, render_lines checks None (lr_anomalies lr) = Some lines /\
  els name n = (if eqb_list (lit "a") name then [link write (lit "#model_" ++ utf8_encode (lr_index lr)) (utf8_encode (lr_index lr)); link write (name_of_source (lr_source lr)) (lit "file")] else []) ++
    (if eqb_list (lit "strong") name then [([], write (fmt (N.of_nat (List.length (lr_anomalies lr)))))] else []) ++
    (match sources with Some l => els name (samples l) | None => [] end) ++ flat_map (fun l => els name (line_node percent colour l)) lines.
Proof.
  unfold HtmlModel.content_report. destruct (get_relative (lr_source lr)) as [nm|]; [|discriminate].
  destruct (render_lines checks None (lr_anomalies lr)) as [lines|]; [|discriminate]. intros E V H1 H2. injection E as <-. exists lines. split; [reflexivity|].
  unfold el. cbn [PageProofs.els]. rewrite H1. cbn [app flat_map PageProofs.els]. rewrite !H1, !H2. cbn [app flat_map PageProofs.els]. rewrite ?H1, ?H2. cbn [app flat_map PageProofs.els].
  rewrite !flat_map_app. cbn [flat_map PageProofs.els]. rewrite ?H1, ?H2, ?app_nil_r. cbn [app].
  assert (M : flat_map (els name) (map (line_node percent colour) lines) = flat_map (fun l => els name (line_node percent colour l)) lines) by (clear; induction lines as [|x l IH]; [reflexivity|]; cbn [map flat_map]; now rewrite IH).
  rewrite M. assert (S : flat_map (els name) (match sources with Some l => [samples l] | None => [] end) = match sources with Some l => els name (samples l) | None => [] end) by (destruct sources; cbn [flat_map]; now rewrite ?app_nil_r).
  rewrite S. clear M S. destruct (eqb_list (lit "a") name), (eqb_list (lit "strong") name); unfold lead_of; cbn [flat_map HtmlProofs.flat app lead]; rewrite ?app_nil_r; reflexivity.
Qed.
(** The elements of a page: those of all pages, those of the table and those of the logs. *)
Definition nav_els (name : bytes) (f : fixed) : list (bytes * bytes) := els name (nav f).
Definition table_els (name : bytes) (s : summary) : list (bytes * bytes) :=
  els name (table [(lit "Target", s_target s); (lit "Baselines", s_baselines s); (lit "Created at", s_created s); (lit "Run time", s_time s); (lit "Result", s_result s)]).
Lemma page_els name checks f s r n items : page_node percent colour checks f s r = Some n -> content_reports checks true r (log_reports r) = Some items ->
  forallb (fun x => negb (eqb_list (lit x) name)) ["html"; "head"; "title"; "meta"; "link"; "style"; "body"; "div"; "script"]%string = true ->
  els name n = nav_els name f ++ table_els name s ++ flat_map (els name) items.
Proof.
  intros E Ei H. cbn [forallb] in H. rewrite !andb_true_iff, !negb_true_iff in H. destruct H as (H1 & H2 & H3 & H4 & H5 & H6 & H7 & H8 & H9 & _).
  unfold page_node, container in E. rewrite Ei in E. injection E as <-. unfold nav_els, table_els.
  rewrite els_other by exact H1. cbn [flat_map]. unfold head. rewrite (els_other write name "head") by exact H2. rewrite !flat_map_app. cbn [flat_map].
  rewrite (els_other write name "title") by exact H3. rewrite (els_other write name "meta") by exact H4. rewrite (els_other write name "style") by exact H6.
  rewrite els_map_nil by (intros x; rewrite els_other by exact H5; reflexivity). cbn [flat_map PageProofs.els app].
  rewrite (els_other write name "body") by exact H7. cbn [app flat_map]. rewrite !flat_map_app. cbn [flat_map]. rewrite (els_other write name "script") by exact H9.
  rewrite els_map_nil by (intros x; rewrite els_other by exact H9; reflexivity). cbn [flat_map PageProofs.els app]. rewrite !app_nil_r.
  f_equal. rewrite (els_other write name "div") by exact H8. cbn [flat_map]. rewrite (els_other write name "div") by exact H8. rewrite app_nil_r. reflexivity.
Qed.
Lemma items_els name (F : @log_report D -> list (bytes * bytes) -> Prop) checks r l : forall expand items,
  (forall lr e n, content_report checks lr (hm_get (lr_index lr) (index_reports r)) e = Some n -> F lr (els name n)) ->
  content_reports checks expand r l = Some items -> exists parts, flat_map (els name) items = concat parts /\ Forall2 F l parts.
Proof.
  induction l as [|lr l IH]; intros expand items H E; cbn [HtmlModel.content_reports] in E.
  - injection E as <-. exists []. split; [reflexivity|constructor].
  - destruct (content_report checks lr _ expand) as [n|] eqn:En; [|discriminate]. destruct (content_reports checks false r l) as [ns|] eqn:El; [|discriminate]. injection E as <-.
    destruct (IH _ _ H El) as (parts & P1 & P2). exists (els name n :: parts). cbn [flat_map concat]. split; [now rewrite P1|]. constructor; [|exact P2]. eapply H. exact En.
Qed.
Lemma page_parts name (F : @log_report D -> list (bytes * bytes) -> Prop) checks f s r n :
  (forall lr e n, content_report checks lr (hm_get (lr_index lr) (index_reports r)) e = Some n -> F lr (els name n)) ->
  forallb (fun x => negb (eqb_list (lit x) name)) ["html"; "head"; "title"; "meta"; "link"; "style"; "body"; "div"; "script"]%string = true ->
  page_node percent colour checks f s r = Some n -> exists parts, els name n = nav_els name f ++ table_els name s ++ concat parts /\ Forall2 F (log_reports r) parts.
Proof.
  intros HF H E. destruct (content_reports checks true r (log_reports r)) as [items|] eqn:Ei.
  - destruct (items_els name F checks r _ true items HF Ei) as (parts & P1 & P2). exists parts. split; [|exact P2]. rewrite <- P1. eapply page_els; eassumption.
  - unfold page_node, container in E. rewrite Ei in E. discriminate.
Qed.
(** The cells of the table. *)
Definition cell (t : bytes) : bytes * bytes := ([], write t).
Lemma td_page checks f s r n : page_node percent colour checks f s r = Some n -> els (lit "td") n =
  map cell [lit "Target"; s_target s; lit "Baselines"; s_baselines s; lit "Created at"; s_created s; lit "Run time"; s_time s; lit "Result"; s_result s].
Proof.
  intros E. destruct (page_parts (lit "td") (fun _ x => x = []) checks f s r n) as (parts & P1 & P2); auto.
  - intros lr e m Em. destruct (content_els (lit "td") _ _ _ _ _ Em eq_refl eq_refl eq_refl) as (lines & _ & X). rewrite X.
    assert (Z : flat_map (fun l => els (lit "td") (line_node percent colour l)) lines = []) by (clear; induction lines as [|x l IH]; [reflexivity|]; cbn [flat_map]; now rewrite td_line, IH).
    rewrite Z. destruct (hm_get _ _); [rewrite td_samples|]; reflexivity.
  - rewrite P1. assert (Z : concat parts = []) by (clear - P2; induction P2 as [|? ? ? ? -> _ IH]; [reflexivity|exact IH]). rewrite Z, app_nil_r.
    change (nav_els (lit "td") f) with (@nil (bytes * bytes)). cbn [app]. unfold table_els, table. rewrite els_other by reflexivity. cbn [flat_map]. rewrite els_other by reflexivity. cbn [flat_map]. rewrite els_other by reflexivity. cbn [map flat_map].
    repeat (rewrite (els_other write (lit "td") "tr") by reflexivity; cbn [flat_map]). repeat (rewrite (els_this write (lit "td") "td") by reflexivity; cbn [flat_map]).
    unfold lead_of, cell. cbn [flat_map HtmlProofs.flat app lead PageProofs.els]. rewrite !app_nil_r. reflexivity.
Qed.
(** The links. *)
Lemma a_page checks f s r n : page_node percent colour checks f s r = Some n -> els (lit "a") n = page_links write ++ flat_map (log_links write r) (log_reports r).
Proof.
  intros E. destruct (page_parts (lit "a") (fun lr x => x = log_links write r lr) checks f s r n) as (parts & P1 & P2); auto.
  - intros lr e m Em. destruct (content_els (lit "a") _ _ _ _ _ Em eq_refl eq_refl eq_refl) as (lines & _ & X). rewrite X.
    assert (Z : flat_map (fun l => els (lit "a") (line_node percent colour l)) lines = []) by (clear; induction lines as [|x l IH]; [reflexivity|]; cbn [flat_map]; now rewrite a_line, IH).
    rewrite Z, app_nil_r. unfold log_links, sources_of. rewrite <- hm_find. destruct (hm_get _ _); [rewrite a_samples|]; reflexivity.
  - rewrite P1. assert (Z : concat parts = flat_map (log_links write r) (log_reports r)) by (clear - P2; induction P2 as [|? ? ? ? -> _ IH]; [reflexivity|]; cbn [concat flat_map]; now rewrite IH). rewrite Z.
    change (table_els (lit "a") s) with (@nil (bytes * bytes)). cbn [app]. f_equal. unfold nav_els, nav, page_links, link.
    repeat (first [rewrite els_other by reflexivity|rewrite els_this by reflexivity]; cbn [flat_map]). unfold lead_of. cbn [flat_map HtmlProofs.flat app lead PageProofs.els]. rewrite ?app_nil_r. reflexivity.
Qed.
(** The numbers of anomalies. *)
Lemma strong_page checks f s r n : page_node percent colour checks f s r = Some n ->
  els (lit "strong") n = cell (lit "Version") :: map (fun lr => cell (fmt (N.of_nat (List.length (lr_anomalies lr))))) (log_reports r).
Proof.
  intros E. destruct (page_parts (lit "strong") (fun lr x => x = [cell (fmt (N.of_nat (List.length (lr_anomalies lr))))]) checks f s r n) as (parts & P1 & P2); auto.
  - intros lr e m Em. destruct (content_els (lit "strong") _ _ _ _ _ Em eq_refl eq_refl eq_refl) as (lines & _ & X). rewrite X.
    assert (Z : flat_map (fun l => els (lit "strong") (line_node percent colour l)) lines = []) by (clear; induction lines as [|x l IH]; [reflexivity|]; cbn [flat_map]; now rewrite strong_line, IH).
    rewrite Z, app_nil_r. destruct (hm_get _ _); [rewrite strong_samples|]; reflexivity.
  - rewrite P1. change (table_els (lit "strong") s) with (@nil (bytes * bytes)). cbn [app].
    assert (Z : concat parts = map (fun lr => cell (fmt (N.of_nat (List.length (lr_anomalies lr))))) (log_reports r)) by (clear - P2; induction P2 as [|? ? ? ? -> _ IH]; [reflexivity|]; cbn [concat map app]; now rewrite IH). rewrite Z.
    unfold nav_els, nav. repeat (first [rewrite els_other by reflexivity|rewrite els_this by reflexivity]; cbn [flat_map]). unfold lead_of, cell. cbn [flat_map HtmlProofs.flat app lead PageProofs.els]. rewrite ?app_nil_r. reflexivity.
Qed.
(** The lines. *)
Lemma pre_page checks f s r n : page_node percent colour checks f s r = Some n -> exists parts, els (lit "pre") n = concat parts /\
  Forall2 (fun lr x => exists lines, render_lines checks None (lr_anomalies lr) = Some lines /\ x = flat_map line_attrs lines) (log_reports r) parts.
Proof.
  intros E. destruct (page_parts (lit "pre") (fun lr x => exists lines, render_lines checks None (lr_anomalies lr) = Some lines /\ x = flat_map line_attrs lines) checks f s r n) as (parts & P1 & P2); auto.
  - intros lr e m Em. destruct (content_els (lit "pre") _ _ _ _ _ Em eq_refl eq_refl eq_refl) as (lines & L & X). exists lines. split; [exact L|]. rewrite X.
    assert (Z : flat_map (fun l => els (lit "pre") (line_node percent colour l)) lines = flat_map line_attrs lines) by (clear; induction lines as [|x l IH]; [reflexivity|]; cbn [flat_map]; now rewrite pre_line, IH).
    rewrite Z. destruct (hm_get _ _); [rewrite pre_samples|]; reflexivity.
  - exists parts. split; [|exact P2]. rewrite P1. reflexivity.
Qed.
End Page.

Lemma readable_safe {D} (percent colour : D -> N) write checks f s (r : @report D) n : readable write f s r -> page_node percent colour checks f s r = Some n -> safe write n.
Proof.
  intros [(W & Hf & Hs & Hr)|(W & Hf & Hr)] E.
  - apply (page_safe write percent colour harmless) with (checks := checks) (f := f) (s := s) (r := r); eauto using no60_harmless, harmless_app. intros t. now rewrite W.
  - apply (page_safe write percent colour (fun _ => True)) with (checks := checks) (f := f) (s := s) (r := r); auto. unfold clean_summary. tauto.
Qed.
Lemma is_rendered {D} (percent colour : D -> N) write checks f s (r : @report D) page : render write percent colour checks f s r = Some page ->
  exists n, page_node percent colour checks f s r = Some n /\ page = html write n.
Proof. unfold render. destruct (page_node percent colour checks f s r) as [n|]; [|discriminate]. intros [= <-]. now exists n. Qed.
Lemma hex_pair n : n < 256 -> exists a b, n = 16 * a + b /\ a < 16 /\ b < 16 /\ fmt2X n = [nth (N.to_nat a) (lit " 123456789ABCDEF") 0; nth (N.to_nat b) (lit "0123456789ABCDEF") 0].
Proof.
  intros H. exists (n / 16), (n mod 16). assert (Q : n / 16 < 16) by (apply N.div_lt_upper_bound; lia). assert (M : n mod 16 < 16) by (apply N.mod_lt; lia). csplit; auto.
  - apply N.div_mod. lia.
  - assert (DC : forall x, x < 16 -> digit_char x = nth (N.to_nat x) (lit "0123456789ABCDEF") 0).
    { intros x Hx. rewrite <- (N2Nat.id x) in *. remember (N.to_nat x) as k. clear Heqk. rewrite Nat2N.id. do 16 (destruct k as [|k]; [reflexivity|]). lia. }
    destruct (N.lt_ge_cases n 16) as [L|L].
    + rewrite (N.div_small n 16), (N.mod_small n 16) by lia. rewrite <- DC by lia. unfold fmt2X, fmt_base. cbn [digits]. apply N.ltb_lt in L. rewrite L. reflexivity.
    + assert (P : 1 <= n / 16) by (apply N.div_le_lower_bound; lia). assert (E : digits 16 (S (N.size_nat n)) n = [n / 16; n mod 16]).
      { assert (Sz : exists k, N.size_nat n = S (S k)). { destruct n as [|[p|p|]]; try lia; destruct p; try (now eexists); lia. }
        destruct Sz as [k ->]. cbn [digits]. destruct (N.ltb_spec n 16); [lia|]. destruct (N.ltb_spec (n / 16) 16); [reflexivity|lia]. }
      unfold fmt2X, fmt_base. rewrite E. cbn [map]. rewrite (DC (n mod 16)) by exact M. unfold pad. cbn [List.length Nat.sub repeat app]. f_equal.
      rewrite DC by exact Q. clear - Q P. revert Q P. generalize (n / 16). intros x Q P. rewrite <- (N2Nat.id x) in *. remember (N.to_nat x) as k. clear Heqk. rewrite Nat2N.id. destruct k as [|k]; [lia|]. do 15 (destruct k as [|k]; [reflexivity|]). lia.
Qed.
