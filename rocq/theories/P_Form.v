(** Properties of the form of the page: C85. *)
From Coq Require Import String List NArith Bool Lia.
From Verif Require Import Common CommonFacts FilesModel ProcModel ReportModel HtmlModel HtmlSpec HtmlReportSpec HtmlProofs HtmlPage P_Html.
From Verif Require Import PageSpec PageProofs P_Page FormSpec.
Import ListNotations.
Open Scope string_scope.
Open Scope list_scope.
Open Scope N_scope.
Ltac csplit := repeat match goal with |- _ /\ _ => split end.

(** ** Nesting *)
Definition is_void (n : bytes) : bool := existsb (eqb_list n) void_elements.
Lemma is_void_spec n : is_void n = true <-> In n void_elements.
Proof.
  unfold is_void. rewrite existsb_exists. split.
  - intros (x & I & E). apply eqb_list_spec in E. now subst.
  - intros I. exists n. split; [exact I|apply eqb_list_refl].
Qed.
Inductive formed : node -> Prop :=
| FormedText t : formed (Txt t)
| FormedVoid t a : void t = true -> is_void t = true -> formed (Elem t a [])
| FormedElem t a c : void t = false -> is_void t = false -> Forall formed c -> formed (Elem t a c).
Lemma nested_app a : nested a -> forall b, nested b -> nested (a ++ b).
Proof.
  induction 1 as [|n l I _ IH|n x y I Hx IHx _ IHy]; intros b Hb; [exact Hb| |]; cbn [app].
  - apply NestedVoid; auto.
  - rewrite <- app_assoc. cbn [app]. apply NestedElement; auto.
Qed.
Lemma formed_nested n : formed n -> nested (skeleton n).
Proof.
  induction n as [t a c IH|t] using node_ind'; intros H; [|constructor]. inversion H as [|? ? V S|? ? ? V S F]; subst; cbn [skeleton]; rewrite V.
  - cbn [flat_map app]. apply NestedVoid; [now apply is_void_spec|constructor].
  - apply NestedElement; [rewrite <- is_void_spec; congruence| |constructor]. clear - IH F. induction IH as [|x l Hx _ IHl]; [constructor|]. inversion F; subst. cbn [flat_map]. apply nested_app; auto.
Qed.
Lemma formed_map {A} (f : A -> node) l : (forall x, formed (f x)) -> Forall formed (map f l).
Proof. intros H. induction l; constructor; auto. Qed.
Ltac formed_tac := repeat match goal with
  | |- formed (Txt _) => apply FormedText
  | |- formed (el ?t ?a []) => first [apply FormedVoid; [reflexivity|reflexivity]|apply FormedElem; [reflexivity|reflexivity|constructor]]
  | |- formed (el ?t ?a ?c) => apply FormedElem; [reflexivity|reflexivity|]
  | |- Forall formed [] => constructor
  | |- Forall formed (_ :: _) => constructor
  | |- Forall formed (_ ++ _) => apply Forall_app; split
  | |- Forall formed (map _ _) => apply formed_map; intros ?
  end.
Section Forms.
Context {D : Type}.
Variables (percent colour : D -> N).
Lemma formed_line l : formed (@line_node D percent colour l).
Proof. destruct l; unfold line_node; formed_tac. Qed.
Lemma formed_content checks lr sources expand n : content_report percent colour checks lr sources expand = Some n -> formed n.
Proof.
  unfold content_report. destruct (get_relative (lr_source lr)); [|discriminate]. destruct (render_lines _ _ _); [|discriminate]. intros [= <-].
  formed_tac; try apply formed_line. destruct sources; formed_tac. unfold samples. formed_tac.
Qed.
Lemma formed_contents checks r l : forall expand ns, content_reports percent colour checks expand r l = Some ns -> Forall formed ns.
Proof.
  induction l as [|lr l IH]; intros expand ns E; cbn [content_reports] in E; [injection E as <-; constructor|].
  destruct (content_report _ _ _ _ _ _) eqn:E1; [|discriminate]. destruct (content_reports _ _ _ false _ _) eqn:E2; [|discriminate]. injection E as <-.
  constructor; eauto using formed_content.
Qed.
Lemma formed_page checks f s r n : page_node percent colour checks f s r = Some n -> formed n.
Proof.
  unfold page_node, container. destruct (content_reports _ _ _ _ _ _) eqn:E; [|discriminate]. intros [= <-]. apply formed_contents in E.
  formed_tac; unfold head, nav, table; formed_tac. exact E.
Qed.
End Forms.
(** Each element of the page is closed, inside of the one that it was opened in. *)
Theorem C85_nested : forall D (percent colour : D -> N) write checks f s r page, readable write f s r ->
  render write percent colour checks f s r = Some page -> nested (tags (tokens page)).
Proof.
  intros D percent colour write checks f s r page H E. destruct (is_rendered _ _ _ _ _ _ _ _ E) as (n & En & ->).
  rewrite page_tags by eauto using readable_safe. apply formed_nested. eapply formed_page; eauto.
Qed.

(** ** Opening tags *)
Fixpoint ops (n : node) : list (bytes * bytes) :=
  match n with Txt _ => [] | Elem t a c => (t, flat_map write_attr a) :: flat_map ops c end.
Lemma opening_join l : forall t, flat_map opening (join t l) = flat_map opening l.
Proof.
  induction l as [|[n a|n|x] l IH]; intros t; cbn [join flat_map opening app].
  - destruct t; reflexivity.
  - rewrite flat_map_app. cbn [flat_map opening app]. rewrite IH. destruct t; reflexivity.
  - rewrite flat_map_app. cbn [flat_map opening app]. rewrite IH. destruct t; reflexivity.
  - apply IH.
Qed.
Lemma opening_node write n : flat_map opening (flat write n) = ops n.
Proof.
  induction n as [t a c IH|t] using node_ind'; [|reflexivity]. cbn [flat flat_map opening app ops]. f_equal. rewrite flat_map_app.
  assert (V : flat_map opening (if void t then [] else [Close t]) = []) by (destruct (void t); reflexivity). rewrite V, app_nil_r.
  induction IH as [|x l Hx _ IHl]; cbn [flat_map]; [reflexivity|]. now rewrite flat_map_app, Hx, IHl.
Qed.
Lemma openings_node write n : safe write n -> openings (html write n) = ops n.
Proof. intros H. unfold openings. rewrite page_tokens by exact H. now rewrite opening_join, opening_node. Qed.

(** Those that are chosen. *)
Section Choose.
Variable p : bytes * bytes -> bool.
Definition fops (n : node) : list (bytes * bytes) := filter p (ops n).
Lemma filter_flat_map {A B} (q : B -> bool) (f : A -> list B) l : filter q (flat_map f l) = flat_map (fun x => filter q (f x)) l.
Proof. induction l as [|x l IH]; [reflexivity|]. cbn [flat_map]. now rewrite filter_app, IH. Qed.
Lemma fops_el t a c : fops (el t a c) = (if p (lit t, flat_map write_attr a) then [(lit t, flat_map write_attr a)] else []) ++ flat_map fops c.
Proof. unfold fops, el. cbn [ops filter]. rewrite filter_flat_map. destruct (p _); reflexivity. Qed.
Lemma fops_txt t : fops (Txt t) = [].
Proof. reflexivity. Qed.
Lemma fops_map_nil {A} (f : A -> node) l : (forall x, fops (f x) = []) -> flat_map fops (map f l) = [].
Proof. intros H. induction l as [|x l IH]; [reflexivity|]. cbn [map flat_map]. now rewrite H, IH. Qed.
Lemma fops_map_one {A} (f : A -> node) g l : (forall x, fops (f x) = [g x]) -> flat_map fops (map f l) = map g l.
Proof. intros H. induction l as [|x l IH]; [reflexivity|]. cbn [map flat_map]. now rewrite H, IH. Qed.
End Choose.
Ltac choose := repeat (cbv beta; first
  [ progress cbn [flat_map app]
  | progress rewrite ?app_nil_r
  | rewrite fops_txt
  | rewrite fops_el; match goal with |- context [if ?q (lit ?t, ?x) then [?y] else []] =>
      let b := eval lazy in (q (lit t, x)) in change (if q (lit t, x) then [y] else []) with (if b then [y] else []); cbv iota end ]).
Section Page.
Context {D : Type}.
Variables (percent colour : D -> N).
Variable p : bytes * bytes -> bool.
(** The tags of a page: those above the logs, those of the logs, those below. *)
Lemma fops_page checks f s r n items : page_node percent colour checks f s r = Some n -> content_reports percent colour checks true r (log_reports r) = Some items ->
  exists above below, fops p n = above ++ flat_map (fops p) items ++ below /\
  above = fops p (el "html" [lit "lang='en'"] []) ++ fops p (head f s) ++ fops p (el "body" [] []) ++ fops p (nav f) ++
    fops p (el "div" [attr "class" (lit "container"); lit "style='width: 100%'"] []) ++
    fops p (table [(lit "Target", s_target s); (lit "Baselines", s_baselines s); (lit "Created at", s_created s); (lit "Run time", s_time s); (lit "Result", s_result s)]) ++
    fops p (el "div" [attr "class" (lit "list-group list-view-pf list-view-pf-view")] []) /\
  below = flat_map (fops p) (map (fun x => el "script" [attr "src" (fst x); attr "integrity" (snd x); attr "crossorigin" (lit "anonymous")] []) (f_scripts f)) ++ fops p (el "script" [] []).
Proof.
  intros E Ei. unfold page_node, container in E. rewrite Ei in E. injection E as <-. eexists _, _. csplit; [|reflexivity|reflexivity].
  rewrite (fops_el p "html"), (fops_el p "html" _ []). cbn [flat_map]. rewrite !app_nil_r. rewrite (fops_el p "body"), (fops_el p "body" _ []). cbn [flat_map app]. rewrite !app_nil_r.
  rewrite (fops_el p "div" [attr "class" (lit "container"); lit "style='width: 100%'"] []), (fops_el p "div" [attr "class" (lit "container"); lit "style='width: 100%'"] [_; _]). cbn [flat_map]. rewrite !app_nil_r.
  rewrite (fops_el p "div" [attr "class" (lit "list-group list-view-pf list-view-pf-view")] []), (fops_el p "div" [attr "class" (lit "list-group list-view-pf list-view-pf-view")] items). cbn [flat_map]. rewrite !app_nil_r.
  rewrite flat_map_app. cbn [flat_map]. rewrite !app_nil_r. rewrite (fops_el p "script" [] [Txt _]), (fops_el p "script" [] []). cbn [flat_map]. rewrite !fops_txt, !app_nil_r. rewrite !app_assoc. reflexivity.
Qed.
Lemma fops_items (F : bool -> @log_report D -> list (bytes * bytes) -> Prop) checks r l : forall expand items,
  (forall e lr n, content_report percent colour checks lr (hm_get (lr_index lr) (index_reports r)) e = Some n -> F e lr (fops p n)) ->
  content_reports percent colour checks expand r l = Some items ->
  match l with
  | [] => items = []
  | lr :: l => exists part parts, flat_map (fops p) items = part ++ concat parts /\ F expand lr part /\ Forall2 (F false) l parts
  end.
Proof.
  induction l as [|lr l IH]; intros expand items H E; cbn [content_reports] in E; [now injection E as <-|].
  destruct (content_report _ _ _ _ _ _) as [n|] eqn:En; [|discriminate]. destruct (content_reports _ _ _ false _ _) as [ns|] eqn:El; [|discriminate]. injection E as <-.
  specialize (IH false ns H El). exists (fops p n). destruct l as [|lr' l].
  - subst ns. exists []. csplit; [reflexivity|eauto|constructor].
  - destruct IH as (part & parts & E1 & E2 & E3). exists (part :: parts). cbn [flat_map concat]. rewrite E1. csplit; auto.
Qed.
End Page.
Lemma repeat_map {A B} (x : B) (l : list A) : map (fun _ => x) l = repeat x (List.length l).
Proof. induction l; cbn; congruence. Qed.

(** ** Stylesheets, scripts and the title *)
Section Resources.
Context {D : Type}.
Variables (percent colour : D -> N).
Definition loads : bytes * bytes -> bool := named ["link"; "script"].
Lemma loads_content checks lr sources e n : content_report percent colour checks lr sources e = Some n -> fops loads n = [].
Proof.
  unfold content_report. destruct (get_relative (lr_source lr)); [|discriminate]. destruct (render_lines _ _ _) as [lines|]; [|discriminate]. intros [= <-].
  choose. rewrite !flat_map_app. choose. rewrite fops_map_nil by (intros [| |]; unfold line_node; choose; reflexivity). rewrite app_nil_r. destruct sources; [|reflexivity]. unfold samples. choose.
  apply fops_map_nil. intros x. choose. reflexivity.
Qed.
End Resources.
(** The page loads the stylesheets and scripts that the program knows, each with its hash, and has
    one script of its own. *)
Theorem C85_resources : forall D (percent colour : D -> N) write checks f s r page, readable write f s r ->
  render write percent colour checks f s r = Some page ->
  filter (named ["link"; "script"]) (openings page) = map stylesheet (f_styles f) ++ map script_from (f_scripts f) ++ [(lit "script", [])].
Proof.
  intros D percent colour write checks f s r page H E. destruct (is_rendered _ _ _ _ _ _ _ _ E) as (n & En & ->).
  rewrite openings_node by eauto using readable_safe. change (fops loads n = map stylesheet (f_styles f) ++ map script_from (f_scripts f) ++ [(lit "script", [])]).
  destruct (content_reports percent colour checks true r (log_reports r)) as [items|] eqn:Ei; [|unfold page_node, container in En; rewrite Ei in En; discriminate].
  destruct (fops_page percent colour loads checks f s r n items En Ei) as (above & below & E1 & E2 & E3). rewrite E1. clear E1.
  assert (Z : flat_map (fops loads) items = []).
  { pose proof (fops_items percent colour loads (fun _ _ x => x = []) checks r _ true items (fun e lr m => loads_content percent colour checks lr _ e m) Ei) as I.
    destruct (log_reports r); [now subst|]. destruct I as (part & parts & -> & -> & F). cbn [app]. clear - F. induction F as [|? ? ? ? -> _ IH]; [reflexivity|exact IH]. }
  rewrite Z. cbn [app]. subst above below. unfold head, nav, table. choose. rewrite !flat_map_app. cbn [map]. choose.
  rewrite (fops_map_one loads _ stylesheet), (fops_map_one loads _ script_from); [reflexivity| |]; intros [a b]; choose; unfold script_from, stylesheet, checked, attr, write_attr; cbn [fst snd]; rewrite ?app_nil_r;
    repeat (rewrite <- ?app_assoc; cbn [app lit]); reflexivity.
Qed.
(** The title names the target. *)
Theorem C85_title : forall D (percent colour : D -> N) write checks f s r page, readable write f s r ->
  render write percent colour checks f s r = Some page ->
  elements (lit "title") page = [([], write (lit "Logreduce of " ++ s_target s))].
Proof.
  intros D percent colour write checks f s r page H E. destruct (is_rendered _ _ _ _ _ _ _ _ E) as (n & En & ->).
  rewrite elements_node by eauto using readable_safe.
  destruct (content_reports percent colour checks true r (log_reports r)) as [items|] eqn:Ei; [|unfold page_node, container in En; rewrite Ei in En; discriminate].
  assert (Z : flat_map (els write (lit "title")) items = []).
  { destruct (items_els write percent colour (lit "title") (fun _ x => x = []) checks r (log_reports r) true items) as (parts & P1 & P2); auto.
    - intros lr e m Em. destruct (content_els write percent colour (lit "title") _ _ _ _ _ Em eq_refl eq_refl eq_refl) as (lines & _ & X). rewrite X.
      assert (Zl : flat_map (fun l => els write (lit "title") (line_node percent colour l)) lines = []) by (clear; induction lines as [|[| |] l IH]; [reflexivity| | |]; cbn [flat_map]; now rewrite IH).
      rewrite Zl, app_nil_r. destruct (hm_get _ _) as [l|]; [|reflexivity]. cbn [app eqb_list]. unfold samples. rewrite els_other by reflexivity. cbn [flat_map]. rewrite els_other by reflexivity. now rewrite els_map_nil.
    - rewrite P1. clear - P2. induction P2 as [|? ? ? ? -> _ IH]; [reflexivity|exact IH]. }
  unfold page_node, container in En. rewrite Ei in En. injection En as <-. unfold head, nav, table.
  repeat (cbn [flat_map map]; first [rewrite els_other by reflexivity|rewrite els_this by reflexivity|rewrite flat_map_app|rewrite els_map_nil by reflexivity]). rewrite Z.
  unfold lead_of. cbn [flat_map HtmlProofs.flat app lead PageProofs.els]. now rewrite ?app_nil_r.
Qed.

(** ** What is shown at first, and the separators *)
Definition containers : bytes * bytes -> bool := fun x => named ["div"] x && of_class "list-group-item-container" x.
Definition arrows : bytes * bytes -> bool := fun x => named ["span"] x && of_class "fa fa-angle-right" x.
Definition class_of (class : string) : bytes := lit " class=" ++ quote ++ lit class ++ quote.
Section Expanded.
Context {D : Type}.
Variables (percent colour : D -> N).
Lemma containers_content checks lr sources (e : bool) n : content_report percent colour checks lr sources e = Some n ->
  fops containers n = [(lit "div", class_of (if e then "list-group-item-container container-fluid" else "list-group-item-container container-fluid hidden"))].
Proof.
  unfold content_report. destruct (get_relative (lr_source lr)); [|discriminate]. destruct (render_lines _ _ _) as [lines|]; [|discriminate]. intros [= <-].
  destruct e; choose; rewrite !flat_map_app; choose; (rewrite fops_map_nil by (intros [| |]; unfold line_node; choose; reflexivity)); rewrite app_nil_r;
    (destruct sources; [|reflexivity]); unfold samples; choose; (rewrite fops_map_nil by (intros x; choose; reflexivity)); reflexivity.
Qed.
Lemma arrows_content checks lr sources (e : bool) n : content_report percent colour checks lr sources e = Some n ->
  fops arrows n = [(lit "span", class_of (if e then "fa fa-angle-right fa-angle-down" else "fa fa-angle-right"))].
Proof.
  unfold content_report. destruct (get_relative (lr_source lr)); [|discriminate]. destruct (render_lines _ _ _) as [lines|]; [|discriminate]. intros [= <-].
  destruct e; choose; rewrite !flat_map_app; choose; (rewrite fops_map_nil by (intros [| |]; unfold line_node; choose; reflexivity)); rewrite app_nil_r;
    (destruct sources; [|reflexivity]); unfold samples; choose; (rewrite fops_map_nil by (intros x; choose; reflexivity)); reflexivity.
Qed.
Definition marks : bytes * bytes -> bool := named ["hr"; "pre"].
Definition mark (l : @rline D) : bytes := if is_line l then lit "pre" else lit "hr".
Lemma marks_content checks lr sources (e : bool) n : content_report percent colour checks lr sources e = Some n ->
  exists lines, render_lines checks None (lr_anomalies lr) = Some lines /\ map fst (fops marks n) = map mark lines.
Proof.
  unfold content_report. destruct (get_relative (lr_source lr)); [|discriminate]. destruct (render_lines _ _ _) as [lines|]; [|discriminate]. intros [= <-]. exists lines. split; [reflexivity|].
  assert (L : map fst (flat_map (fops marks) (map (line_node percent colour) lines)) = map mark lines).
  { induction lines as [|[| |] l IH]; [reflexivity| | |]; cbn [map flat_map]; rewrite map_app, IH; unfold line_node; choose; reflexivity. }
  destruct e; choose; rewrite !flat_map_app; choose; (destruct sources; [|exact L]); unfold samples; choose; (rewrite (fops_map_nil marks (fun s => el "li" [] [el "a" [attr "href" (str s)] [Txt (str s)]])) by (intros x; choose; reflexivity)); exact L.
Qed.
End Expanded.
Ltac whole p := 
  match goal with E : render _ _ _ _ _ _ _ = Some _ |- _ => destruct (is_rendered _ _ _ _ _ _ _ _ E) as (n & En & ->) end;
  rewrite openings_node by eauto using readable_safe;
  match goal with En : page_node ?percent ?colour ?checks ?f ?s ?r = Some ?n |- _ =>
    destruct (content_reports percent colour checks true r (log_reports r)) as [items|] eqn:Ei; [|unfold page_node, container in En; rewrite Ei in En; discriminate];
    change (filter p (ops n)) with (fops p n);
    destruct (fops_page percent colour p checks f s r n items En Ei) as (above & below & E1 & E2 & E3); rewrite E1; clear E1 end.
(** When the page is opened, the lines of the first log are shown and those of the others are
    hidden; the arrows say so. *)
Theorem C85_expanded : forall D (percent colour : D -> N) write checks f s r page, readable write f s r ->
  render write percent colour checks f s r = Some page ->
  filter (fun x => named ["div"] x && of_class "list-group-item-container" x) (openings page) =
    first_of (lit "div", class_of "list-group-item-container container-fluid") (lit "div", class_of "list-group-item-container container-fluid hidden") (List.length (log_reports r)) /\
  filter (fun x => named ["span"] x && of_class "fa fa-angle-right" x) (openings page) =
    first_of (lit "span", class_of "fa fa-angle-right fa-angle-down") (lit "span", class_of "fa fa-angle-right") (List.length (log_reports r)).
Proof.
  intros D percent colour write checks f s r page H E.
  assert (Q : forall {A} (x : A) (l : list (@log_report D)) parts, Forall2 (fun _ y => y = [x]) l parts -> concat parts = repeat x (List.length l)) by (intros A x l parts F; induction F as [|? ? ? ? -> _ IH]; [reflexivity|]; cbn [concat app List.length repeat]; now rewrite IH).
  split.
  - change (fun x => named ["div"] x && of_class "list-group-item-container" x) with containers. whole containers.
    assert (A : above = []) by (subst above; unfold head, nav, table; choose; rewrite flat_map_app; choose; rewrite fops_map_nil by (intros x; choose; reflexivity); cbn [map]; choose; reflexivity).
    assert (B : below = []) by (subst below; rewrite fops_map_nil by (intros x; choose; reflexivity); choose; reflexivity).
    rewrite A, B, app_nil_r. cbn [app]. clear A B E2 E3.
    pose proof (fops_items percent colour containers (fun (e : bool) _ x => x = [(lit "div", class_of (if e then "list-group-item-container container-fluid" else "list-group-item-container container-fluid hidden"))]) checks r _ true items (fun e lr m => containers_content percent colour checks lr _ e m) Ei) as I.
    destruct (log_reports r) as [|lr l]; [now subst|]. destruct I as (part & parts & -> & -> & F). cbn [first_of List.length app]. f_equal. now apply Q.
  - change (fun x => named ["span"] x && of_class "fa fa-angle-right" x) with arrows. whole arrows.
    assert (A : above = []) by (subst above; unfold head, nav, table; choose; rewrite flat_map_app; choose; rewrite fops_map_nil by (intros x; choose; reflexivity); cbn [map]; choose; reflexivity).
    assert (B : below = []) by (subst below; rewrite fops_map_nil by (intros x; choose; reflexivity); choose; reflexivity).
    rewrite A, B, app_nil_r. cbn [app]. clear A B E2 E3.
    pose proof (fops_items percent colour arrows (fun (e : bool) _ x => x = [(lit "span", class_of (if e then "fa fa-angle-right fa-angle-down" else "fa fa-angle-right"))]) checks r _ true items (fun e lr m => arrows_content percent colour checks lr _ e m) Ei) as I.
    destruct (log_reports r) as [|lr l]; [now subst|]. destruct I as (part & parts & -> & -> & F). cbn [first_of List.length app]. f_equal. now apply Q.
Qed.
(** A separator is drawn where the report has one, and nowhere else. *)
Theorem C85_separators : forall D (percent colour : D -> N) write checks f s r page, readable write f s r ->
  render write percent colour checks f s r = Some page ->
  exists parts, map fst (filter (named ["hr"; "pre"]) (openings page)) = concat parts /\
    Forall2 (fun lr part => exists lines, render_lines checks None (lr_anomalies lr) = Some lines /\
      part = map (fun l => match l with Hr => lit "hr" | _ => lit "pre" end) lines) (log_reports r) parts.
Proof.
  intros D percent colour write checks f s r page H E. change (named ["hr"; "pre"]) with marks. whole marks.
  assert (A : above = []) by (subst above; unfold head, nav, table; choose; rewrite flat_map_app; choose; rewrite fops_map_nil by (intros x; choose; reflexivity); cbn [map]; choose; reflexivity).
  assert (B : below = []) by (subst below; rewrite fops_map_nil by (intros x; choose; reflexivity); choose; reflexivity).
  rewrite A, B, app_nil_r. cbn [app]. clear A B E2 E3.
  pose proof (fops_items percent colour marks (fun _ lr x => exists lines, render_lines checks None (lr_anomalies lr) = Some lines /\ map fst x = map mark lines) checks r _ true items (fun e lr m => marks_content percent colour checks lr _ e m) Ei) as I.
  destruct (log_reports r) as [|lr l]; [subst items; exists []; split; [reflexivity|constructor]|].
  destruct I as (part & parts & -> & P & F). exists (map fst part :: map (map fst) parts). split; [cbn [concat]; now rewrite map_app, concat_map|].
  assert (M : forall lines : list (@rline D), map mark lines = map (fun l => match l with Hr => lit "hr" | _ => lit "pre" end) lines) by (intros lines; apply map_ext; intros [| |]; reflexivity).
  constructor.
  - destruct P as (lines & L & X). exists lines. now rewrite X, M.
  - clear - F M. induction F as [|lr' x l parts (lines & L & X) _ IH]; cbn [map]; constructor; auto. exists lines. now rewrite X, M.
Qed.

(** ** Examples *)
Example C85_example : exists page, ex_render verbatim (ex_page "E < F") = Some page /\
  map fst (filter (named ["hr"; "pre"]) (openings page)) = map lit ["pre"; "pre"; "pre"; "hr"; "pre"]%string /\
  firstn 3 (tags (tokens page)) = [Opening (lit "html"); Opening (lit "head"); Opening (lit "title")] /\
  List.length (filter containers (openings page)) = 2%nat /\ filter (named ["link"]) (openings page) = [stylesheet (lit "https://a/b.css", lit "sha384-x")].
Proof.
  destruct (ex_render verbatim (ex_page "E < F")) as [page|] eqn:E; [|discriminate]. exists page. split; [reflexivity|].
  vm_compute in E. injection E as <-. csplit; vm_compute; reflexivity.
Qed.

Print Assumptions C85_nested.
Print Assumptions C85_resources.
Print Assumptions C85_title.
Print Assumptions C85_expanded.
Print Assumptions C85_separators.
