(** Proofs about the html page: what is written is what is read. *)
From Coq Require Import String List NArith Arith Bool Lia ZifyBool ZifyN ZifyNat.
From Verif Require Import Common CommonFacts FilesModel ProcModel ReportModel HtmlModel HtmlSpec.
Import ListNotations.
Open Scope list_scope.
Open Scope N_scope.
Ltac csplit := repeat match goal with |- _ /\ _ => split end.

(** ** Induction on nodes *)
Section NodeInd.
Variable P : node -> Prop.
Hypothesis Helem : forall t a c, Forall P c -> P (Elem t a c).
Hypothesis Htxt : forall t, P (Txt t).
Fixpoint node_ind' (n : node) : P n :=
  match n with
  | Txt t => Htxt t
  | Elem t a c => Helem t a c ((fix go (l : list node) : Forall P l :=
      match l with [] => Forall_nil P | x :: r => Forall_cons x (node_ind' x) (go r) end) c)
  end.
End NodeInd.

(** ** Pages as tokens *)
Definition unparse (t : token) : bytes :=
  match t with
  | Chars x => x
  | Open n r => 60 :: n ++ r ++ [62]
  | Close n => 60 :: 47 :: n ++ [62]
  end.
(** The tokens read, with adjacent texts put together. *)
Fixpoint join (t : bytes) (l : list token) : list token :=
  match l with
  | [] => chars t
  | Chars x :: r => join (t ++ x) r
  | y :: r => chars t ++ y :: join [] r
  end.

(** The quotes of a tag: [None] when it ends. *)
Fixpoint scan (q : option N) (s : bytes) : option (option N) :=
  match s with
  | [] => Some q
  | c :: r =>
    match q with
    | None => if c =? 62 then None else if (c =? 34) || (c =? 39) then scan (Some c) r else scan None r
    | Some q => if c =? q then scan None r else scan (Some q) r
    end
  end.
Definition name_ok (n : bytes) : bool := match n with [] => false | _ => forallb letter n end.
Definition rest_ok (r : bytes) : Prop := (r = [] \/ exists x, r = 32 :: x) /\ scan None r = Some None.
Definition good (t : token) : Prop :=
  match t with
  | Chars x => harmless x
  | Open n r => name_ok n = true /\ rest_ok r
  | Close n => name_ok n = true
  end.

Lemma read_chars x : forall t s, harmless x -> read (InText t) (x ++ s) = read (InText (t ++ x)) s.
Proof.
  induction x as [|c x IH]; intros t s H; cbn [app]; [now rewrite app_nil_r|].
  destruct H as [H1 H2]. cbn [read]. replace ((c =? 60) && opens (x ++ s)) with false.
  - rewrite IH by exact H2. now rewrite <- app_assoc.
  - destruct (c =? 60) eqn:E; [|reflexivity]. apply N.eqb_eq in E. destruct (H1 E) as [H3 H4].
    destruct x; [congruence|]. cbn in *. now rewrite H4.
Qed.
Lemma letter_spec c : letter c = true -> c <> 62 /\ c <> 34 /\ c <> 39 /\ c <> 32 /\ c <> 47 /\ c <> 60.
Proof. unfold letter. lia. Qed.
Lemma read_name n : forall t s, forallb letter n = true -> read (InTag t) (n ++ s) = read (InTag (t ++ n)) s.
Proof.
  induction n as [|c n IH]; intros t s H; cbn [app]; [now rewrite app_nil_r|].
  cbn [forallb] in H. apply andb_true_iff in H. destruct H as [H1 H2]. apply letter_spec in H1. cbn [read].
  replace (c =? 62) with false by lia. replace ((c =? 34) || (c =? 39)) with false by lia. rewrite IH by exact H2. now rewrite <- app_assoc.
Qed.
Definition place_of (q : option N) (t : bytes) : place := match q with None => InTag t | Some q => InQuote q t end.
Lemma read_rest r : forall q t s q', scan q r = Some q' -> read (place_of q t) (r ++ s) = read (place_of q' (t ++ r)) s.
Proof.
  induction r as [|c r IH]; intros q t s q' H; cbn [app scan] in *.
  - injection H as <-. now rewrite app_nil_r.
  - destruct q as [q|]; cbn [place_of read].
    + destruct (c =? q).
      * pose proof (IH None (t ++ [c]) s q' H) as K. cbn [place_of] in K. rewrite K, <- app_assoc. reflexivity.
      * pose proof (IH (Some q) (t ++ [c]) s q' H) as K. cbn [place_of] in K. rewrite K, <- app_assoc. reflexivity.
    + destruct (c =? 62); [discriminate|]. destruct ((c =? 34) || (c =? 39)).
      * pose proof (IH (Some c) (t ++ [c]) s q' H) as K. cbn [place_of] in K. rewrite K, <- app_assoc. reflexivity.
      * pose proof (IH None (t ++ [c]) s q' H) as K. cbn [place_of] in K. rewrite K, <- app_assoc. reflexivity.
Qed.
Lemma name_of_app n r : forallb letter n = true -> r = [] \/ (exists x, r = 32 :: x) -> name_of (n ++ r) = (n, r).
Proof.
  intros Hn Hr. induction n as [|c n IH]; cbn [app name_of].
  - destruct Hr as [-> |(x & ->)]; reflexivity.
  - cbn [forallb] in Hn. apply andb_true_iff in Hn. destruct Hn as [H1 H2]. apply letter_spec in H1.
    replace (c =? 32) with false by lia. now rewrite IH.
Qed.
Lemma tag_open n r : name_ok n = true -> r = [] \/ (exists x, r = 32 :: x) -> tag (n ++ r) = Open n r.
Proof.
  intros Hn Hr. destruct n as [|c n]; [discriminate|]. unfold tag. rewrite (name_of_app (c :: n) r Hn Hr). cbn [app].
  cbn [name_ok forallb] in Hn. apply andb_true_iff in Hn. destruct Hn as [H1 _]. apply letter_spec in H1.
  destruct c as [|p]; [reflexivity|]. destruct (N.eq_dec (Npos p) 47) as [E|E]; [lia|].
  do 6 (destruct p as [p|p|]; try reflexivity). lia.
Qed.
Lemma tag_close n : name_ok n = true -> tag (47 :: n) = Close n.
Proof.
  intros Hn. destruct n as [|c n]; [discriminate|]. cbn [tag]. rewrite <- (app_nil_r (c :: n)) at 1. rewrite name_of_app; auto.
Qed.
Lemma name_opens n s : name_ok n = true -> opens (n ++ s) = true.
Proof.
  destruct n as [|c n]; [discriminate|]. cbn [name_ok forallb app opens]. intros H. apply andb_true_iff in H. destruct H as [H _].
  unfold tag_start. now rewrite H.
Qed.
Lemma name_letters n : name_ok n = true -> forallb letter n = true.
Proof. destruct n; [discriminate|auto]. Qed.

Lemma read_tokens l : forall t, Forall good l -> read (InText t) (flat_map unparse l) = join t l.
Proof.
  induction l as [|y l IH]; intros t H; [reflexivity|]. inversion H as [|? ? Hy Hl]; subst. cbn [flat_map]. destruct y as [n r|n|x]; cbn [unparse join good] in *.
  - destruct Hy as [Hn [Hr Hs]]. cbn [app read]. rewrite <- !app_assoc, name_opens by exact Hn. cbn [N.eqb Pos.eqb andb]. f_equal.
    rewrite read_name by now apply name_letters. cbn [app]. rewrite (read_rest r None n _ None Hs). cbn [place_of app read]. cbn [N.eqb Pos.eqb].
    rewrite tag_open by assumption. f_equal. now apply IH.
  - cbn [app]. rewrite <- app_assoc. cbn [app read]. cbn [N.eqb Pos.eqb andb opens].
    change (tag_start 47) with true. cbn iota. f_equal.
    transitivity (read (InTag [47]) (n ++ 62 :: flat_map unparse l)); [reflexivity|].
    rewrite (read_name n) by now apply name_letters. cbn [app read N.eqb Pos.eqb].
    rewrite tag_close by exact Hy. f_equal. now apply IH.
  - rewrite read_chars by exact Hy. now apply IH.
Qed.

(** ** The view and the tags do not depend on how texts are cut *)
Lemma see_empty v : see v (Chars []) = v.
Proof. destruct v as [s [|h|l]]; cbn; now rewrite ?app_nil_r. Qed.
Lemma see_app v a b : see v (Chars (a ++ b)) = see (see v (Chars a)) (Chars b).
Proof. destruct v as [s [|h|l]]; cbn; now rewrite ?app_assoc. Qed.
Lemma see_chars v t : fold_left see (chars t) v = see v (Chars t).
Proof. destruct t; cbn [chars fold_left]; [now rewrite see_empty|reflexivity]. Qed.
Lemma see_join l : forall t v, fold_left see (join t l) v = fold_left see l (see v (Chars t)).
Proof.
  induction l as [|y l IH]; intros t v; cbn [join fold_left]; [apply see_chars|]. destruct y as [n r|n|x]; cbn [join].
  - rewrite fold_left_app, see_chars. cbn [fold_left]. now rewrite IH, see_empty.
  - rewrite fold_left_app, see_chars. cbn [fold_left]. now rewrite IH, see_empty.
  - rewrite IH, see_app. reflexivity.
Qed.
Lemma tags_chars t : tags (chars t) = [].
Proof. destruct t; reflexivity. Qed.
Lemma tags_app a b : tags (a ++ b) = tags a ++ tags b.
Proof. unfold tags. now rewrite flat_map_app. Qed.
Lemma tags_join l : forall t, tags (join t l) = tags l.
Proof.
  induction l as [|y l IH]; intros t; cbn [join]; [apply tags_chars|]. destruct y as [n r|n|x]; cbn [join].
  - rewrite tags_app, tags_chars. cbn. now rewrite IH.
  - rewrite tags_app, tags_chars. cbn. now rewrite IH.
  - rewrite IH. reflexivity.
Qed.

(** ** Nodes *)
Section Nodes.
Variable write : bytes -> bytes.
Fixpoint flat (n : node) : list token :=
  match n with
  | Txt t => [Chars (write t)]
  | Elem tag attrs children =>
    Open tag (flat_map write_attr attrs) :: flat_map flat children ++ (if void tag then [] else [Close tag])
  end.
Lemma flat_map_map_flat {A B C} (f : A -> list B) (g : B -> list C) l : flat_map g (flat_map f l) = flat_map (fun x => flat_map g (f x)) l.
Proof. induction l as [|x l IH]; cbn; [reflexivity|]. now rewrite flat_map_app, IH. Qed.
Lemma html_flat n : html write n = flat_map unparse (flat n).
Proof.
  induction n as [t a c IH|t] using node_ind'; cbn [html flat flat_map unparse]; [|now rewrite app_nil_r].
  f_equal. f_equal. rewrite flat_map_app, flat_map_map_flat. f_equal.
  - induction IH as [|x l Hx _ IHl]; cbn; [reflexivity|]. now rewrite Hx, IHl.
  - destruct (void t); cbn; now rewrite ?app_nil_r.
Qed.

(** A node that can be read back. *)
Fixpoint safe (n : node) : Prop :=
  match n with
  | Txt t => harmless (write t)
  | Elem tag attrs children =>
    name_ok tag = true /\ Forall (fun a => scan None a = Some None) attrs /\
    (fix all (l : list node) : Prop := match l with [] => True | x :: r => safe x /\ all r end) children
  end.
Lemma safe_elem t a c : safe (Elem t a c) <-> name_ok t = true /\ Forall (fun a => scan None a = Some None) a /\ Forall safe c.
Proof.
  cbn [safe]. set (all := fix all (l : list node) : Prop := match l with [] => True | x :: r => safe x /\ all r end).
  assert (E : all c <-> Forall safe c).
  { induction c as [|x c IH]; cbn; [split; auto|]. rewrite IH. split; [intros [? ?]; now constructor|]. intros K. inversion K; auto. }
  now rewrite E.
Qed.
Lemma scan_app a : forall q b q', scan q a = Some q' -> scan q (a ++ b) = scan q' b.
Proof.
  induction a as [|c a IH]; intros q b q' H; cbn [scan app] in *; [now injection H as <-|].
  destruct q as [q|]; [destruct (c =? q); now apply IH|]. destruct (c =? 62); [discriminate|]. destruct (_ || _); now apply IH.
Qed.
Lemma rest_attrs a : Forall (fun a => scan None a = Some None) a -> rest_ok (flat_map write_attr a).
Proof.
  intros H. split; [destruct a; [left; reflexivity|right; eexists; reflexivity]|].
  induction H as [|x l Hx _ IH]; cbn; [reflexivity|]. now rewrite (scan_app x None _ None Hx).
Qed.
Lemma safe_good n : safe n -> Forall good (flat n).
Proof.
  induction n as [t a c IH|t] using node_ind'; intros H; cbn [flat].
  - apply safe_elem in H. destruct H as (H1 & H2 & H3). constructor; [split; [exact H1|now apply rest_attrs]|]. apply Forall_app. split.
    + apply Forall_flat_map. rewrite Forall_forall in *. auto.
    + destruct (void t); repeat constructor. exact H1.
  - repeat constructor. exact H.
Qed.
Lemma page_tokens n : safe n -> tokens (html write n) = join [] (flat n).
Proof. intros H. unfold tokens. rewrite html_flat. apply read_tokens. now apply safe_good. Qed.

(** ** What a node shows *)
Inductive event := EHead (t : bytes) | ELine (t : bytes).
Definition happen (s : list (bytes * list bytes)) (e : event) : list (bytes * list bytes) :=
  match e with EHead h => s ++ [(h, [])] | ELine x => add_line s x end.
Definition is_pre (tag : bytes) : bool := eqb_list tag (lit "pre").
Definition is_heading (tag : bytes) (attrs : list bytes) : bool := eqb_list tag (lit "div") && eqb_list (flat_map write_attr attrs) heading_class.
Definition only_text (l : list node) : bytes := match l with [Txt t] => write t | _ => [] end.
Fixpoint events (n : node) : list event :=
  match n with
  | Txt _ => []
  | Elem tag attrs children =>
    if is_pre tag then [ELine (only_text children)]
    else if is_heading tag attrs then [EHead (only_text children)]
    else flat_map events children
  end.
Fixpoint plain (n : node) : Prop :=
  match n with
  | Txt _ => True
  | Elem tag attrs children =>
    if is_pre tag || is_heading tag attrs then exists t, children = [Txt t]
    else (fix all (l : list node) : Prop := match l with [] => True | x :: r => plain x /\ all r end) children
  end.
Lemma plain_elem t a c : plain (Elem t a c) <-> if is_pre t || is_heading t a then exists x, c = [Txt x] else Forall plain c.
Proof.
  cbn [plain]. destruct (is_pre t || is_heading t a); [reflexivity|]. set (all := fix all (l : list node) : Prop := match l with [] => True | x :: r => plain x /\ all r end).
  induction c as [|x c IH]; cbn; [split; auto|]. rewrite IH. split; [intros [? ?]; now constructor|]. intros K. inversion K; auto.
Qed.
Lemma see_node n : plain n -> forall s, fold_left see (flat n) (mkView s Nothing) = mkView (fold_left happen (events n) s) Nothing.
Proof.
  induction n as [t a c IH|t] using node_ind'; intros Hp s; [|reflexivity].
  apply plain_elem in Hp. cbn [flat events fold_left]. unfold see at 2. cbn [now shown].
  change (eqb_list t (lit "pre")) with (is_pre t). change (eqb_list t (lit "div") && eqb_list (flat_map write_attr a) heading_class) with (is_heading t a).
  destruct (is_pre t) eqn:E1.
  - destruct Hp as (x & ->). cbn [flat_map flat app only_text fold_left see now shown]. unfold is_pre in E1. apply eqb_list_spec in E1. subst t. reflexivity.
  - cbn [orb] in Hp. destruct (is_heading t a) eqn:E2.
    + destruct Hp as (x & ->). cbn [flat_map flat app only_text fold_left see now shown]. unfold is_heading in E2. apply andb_true_iff in E2. destruct E2 as [E2 _].
      apply eqb_list_spec in E2. subst t. reflexivity.
    + assert (K : forall s, fold_left see (flat_map flat c) (mkView s Nothing) = mkView (fold_left happen (flat_map events c) s) Nothing).
      { clear s. induction IH as [|x l Hx _ IHl]; intros s; [reflexivity|]. inversion Hp; subst. cbn [flat_map]. rewrite !fold_left_app, Hx by assumption. now apply IHl. }
      rewrite fold_left_app, K. destruct (void t); reflexivity.
Qed.
Lemma view_node n : safe n -> plain n -> view_of (html write n) = fold_left happen (events n) [].
Proof. intros H1 H2. unfold view_of. rewrite page_tokens, see_join, see_empty, see_node by assumption. reflexivity. Qed.

(** The tags of a node. *)
Fixpoint skeleton (n : node) : list tag_name :=
  match n with
  | Txt _ => []
  | Elem tag _ children => Opening tag :: flat_map skeleton children ++ (if void tag then [] else [Closing tag])
  end.
Lemma tags_node n : tags (flat n) = skeleton n.
Proof.
  induction n as [t a c IH|t] using node_ind'; [|reflexivity]. cbn [flat skeleton]. unfold tags. cbn [flat_map app]. f_equal.
  fold (tags (flat_map flat c ++ if void t then [] else [Close t])). rewrite tags_app. f_equal; [|destruct (void t); reflexivity].
  induction IH as [|x l Hx _ IHl]; cbn [flat_map]; [reflexivity|]. rewrite tags_app. now rewrite Hx, IHl.
Qed.
Lemma page_tags n : safe n -> tags (tokens (html write n)) = skeleton n.
Proof. intros H. now rewrite page_tokens, tags_join, tags_node. Qed.
End Nodes.
