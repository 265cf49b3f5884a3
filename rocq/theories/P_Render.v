(** Properties of the places of pages and raw reports: C76. *)
From Coq Require Import String List NArith PeanoNat Bool Lia.
From Verif Require Import Common CommonFacts TokModel FilesModel CliModel CliProofs P_Cli RenderModel.
Import ListNotations.
Open Scope N_scope.
Ltac csplit := repeat match goal with |- _ /\ _ => split end.

(** ** Components *)
Definition dots (j : list N) : Prop := exists l, Forall (fun s => s = [] \/ s = lit ".") l /\ j = concat (map (cons 47) l).
Lemma split_at_app c a b : split_at c (a ++ c :: b) = split_at c a ++ split_at c b.
Proof.
  induction a as [|x a IH]; cbn [app split_at].
  - now rewrite N.eqb_refl.
  - destruct (x =? c); [now rewrite IH|]. rewrite IH. destruct (split_at c a) as [|p ps] eqn:E; [|reflexivity].
    destruct a as [|y a]; cbn in E; [discriminate|]. destruct (y =? c); [discriminate|]. now destruct (split_at c a).
Qed.
Lemma split_at_none c a : ~ In c a -> split_at c a = [a].
Proof.
  induction a as [|x a IH]; intros H; [reflexivity|]. cbn [split_at]. destruct (N.eqb_spec x c) as [->|N]; [destruct H; now left|]. rewrite IH; [reflexivity|]. intros I. apply H. now right.
Qed.
Lemma dots_split a j : dots j -> exists l, Forall (fun s => s = [] \/ s = lit ".") l /\ split_at 47 (a ++ j) = split_at 47 a ++ l.
Proof.
  intros (l & F & ->). revert a. induction F as [|s l S F IH]; intros a; cbn [map concat].
  - exists []. rewrite !app_nil_r. auto.
  - cbn [app]. rewrite split_at_app. exists (s :: l). split; [now constructor|]. f_equal.
    assert (N : ~ In 47 s) by (destruct S as [-> | ->]; cbn; [tauto|intros [E|[]]; discriminate]).
    clear IH. revert s S N. induction F as [|t l T F IH]; intros s S N; cbn [map concat].
    + rewrite app_nil_r. now apply split_at_none.
    + cbn [app]. rewrite split_at_app. rewrite split_at_none by exact N. cbn [app]. f_equal. apply IH; [exact T|]. destruct T as [-> | ->]; cbn; [tauto|intros [E|[]]; discriminate].
Qed.

Lemma dots_ignored l : Forall (fun s => s = [] \/ s = lit ".") l -> flat_map part_component l = [].
Proof. induction 1 as [|s l S _ IH]; [reflexivity|]. cbn [flat_map]. rewrite IH. now destruct S as [-> | ->]. Qed.
Lemma split_at_cons c a : exists p ps, split_at c a = p :: ps.
Proof. destruct a as [|x a]; cbn [split_at]; [now eexists; eexists|]. destruct (x =? c); [now eexists; eexists|]. destruct (split_at c a); now eexists; eexists. Qed.
Lemma dots_head j : dots j -> j = [] \/ exists r, j = 47 :: r.
Proof. intros (l & F & ->). destruct F as [|s l S F]; [now left|]. right. now eexists. Qed.
Lemma components_dots p j : dots j -> p <> [] -> components (p ++ j) = components p.
Proof.
  intros D N. unfold components. destruct (dots_split p j D) as (l & F & ->). rewrite flat_map_app, (dots_ignored l F), app_nil_r.
  destruct (split_at_cons 47 p) as (q & qs & E). rewrite E. cbn [app hd]. destruct p as [|x p]; [contradiction|]. reflexivity.
Qed.
(** A file name. *)
Definition named (n : list N) : Prop := n <> [] /\ n <> lit "." /\ n <> lit ".." /\ ~ In 47 n.
Lemma part_named n : named n -> part_component n = [Normal n].
Proof.
  intros (A & B & C & _). unfold part_component.
  destruct (eqb_list n []) eqn:E1; [apply eqb_list_spec in E1; contradiction|].
  destruct (eqb_list n (lit ".")) eqn:E2; [apply eqb_list_spec in E2; contradiction|].
  destruct (eqb_list n (lit "..")) eqn:E3; [apply eqb_list_spec in E3; contradiction|]. reflexivity.
Qed.
Lemma components_named d : (d = [] \/ exists d', d = 47 :: d') -> exists B, forall n, named n -> components (rev d ++ n) = B ++ [Normal n].
Proof.
  intros [->|[d' ->]].
  - exists []. intros n H. pose proof (part_named n H) as P. destruct H as (A & B & C & D). unfold components. cbn [rev app]. rewrite (split_at_none 47 n D). cbn [hd flat_map]. rewrite P.
    destruct (starts_with (lit "/") n) eqn:S; [apply starts_with_spec in S as [t ->]; destruct D; now left|].
    destruct (eqb_list n (lit ".")) eqn:E; [apply eqb_list_spec in E; contradiction|]. reflexivity.
  - exists ((if starts_with (lit "/") (rev d' ++ [47]) then [RootDir] else if eqb_list (hd [] (split_at 47 (rev d'))) (lit ".") then [CurDir] else []) ++ flat_map part_component (split_at 47 (rev d'))).
    intros n H. unfold components. cbn [rev]. rewrite <- app_assoc. cbn [app]. rewrite split_at_app, flat_map_app, (split_at_none 47 n) by apply H. cbn [flat_map]. rewrite (part_named n H), <- app_assoc.
    destruct (split_at_cons 47 (rev d')) as (q & qs & E). rewrite E. cbn [hd app]. f_equal. destruct (rev d'); reflexivity.
Qed.

(** ** The cut *)
Lemma dots_snoc j s : dots j -> s = [] \/ s = lit "." -> dots (j ++ 47 :: s).
Proof.
  intros (l & F & ->) S. exists (l ++ [s]). split; [apply Forall_app; split; [exact F|constructor; [exact S|constructor]]|]. rewrite map_app, concat_app. cbn. now rewrite app_nil_r.
Qed.
Lemma strip_end_spec k : forall r, (length r <= k)%nat -> exists x, r = x ++ strip_end r /\ dots (rev x) /\
  (forall t, strip_end r <> 47 :: t) /\ (forall t, strip_end r <> 46 :: 47 :: t).
Proof.
  induction k as [|k IH]; intros r L.
  - destruct r; [|cbn in L; lia]. exists []. csplit; [reflexivity|exists []; split; [constructor|reflexivity]|discriminate|discriminate].
  - destruct r as [|c r]; [exists []; csplit; [reflexivity|exists []; split; [constructor|reflexivity]|discriminate|discriminate]|]. cbn [length] in L.
    cbn [strip_end]. destruct (N.eqb_spec c 47) as [->|C].
    + destruct (IH r ltac:(lia)) as (x & E & D & R). exists (47 :: x). csplit; [cbn; now rewrite <- E|cbn [rev]; apply dots_snoc; auto|apply R|apply R].
    + destruct (N.eqb_spec c 46) as [->|C'].
      * destruct r as [|d r]; [exists []; csplit; [reflexivity|exists []; split; [constructor|reflexivity]|discriminate|discriminate]|].
        destruct (N.eqb_spec d 47) as [->|C'].
        -- cbn [length] in L. destruct (IH r ltac:(lia)) as (x & E & D & R). exists (46 :: 47 :: x). cbn [strip_end]. change (47 =? 47) with true. cbv iota. csplit.
           ++ cbn. now rewrite <- E.
           ++ cbn [rev]. rewrite <- app_assoc. apply (dots_snoc (rev x) (lit ".")); auto.
           ++ apply R.
           ++ apply R.
        -- exists []. csplit; [reflexivity|exists []; split; [constructor|reflexivity]|intros t E; injection E as E _; congruence|intros t E; injection E as E _; congruence].
      * exists []. csplit; [reflexivity|exists []; split; [constructor|reflexivity]|intros t E; injection E as E _; congruence|intros t E; injection E as E _; congruence].
Qed.
Lemma cut_name_spec r : let (n, d) := cut_name r in r = n ++ d /\ ~ In 47 n /\ (d = [] \/ exists d', d = 47 :: d').
Proof.
  induction r as [|c r IH]; cbn [cut_name]; [auto|]. destruct (N.eqb_spec c 47) as [->|C].
  - csplit; [reflexivity|intros []|right; now exists r].
  - destruct (cut_name r) as [n d]. destruct IH as (-> & H & D). csplit; [reflexivity| |exact D]. intros [E|I]; contradiction.
Qed.
(** The parts of a path. *)
Lemma path_parts p : exists d n j, cut_name (strip_end (rev p)) = (rev n, d) /\ p = rev d ++ n ++ j /\ dots j /\ ~ In 47 n /\ (d = [] \/ exists d', d = 47 :: d') /\
  (n = [] -> d = []) /\ (n = lit "." -> d = []).
Proof.
  destruct (strip_end_spec (length (rev p)) (rev p) (le_n _)) as (x & E & D & R1 & R2). pose proof (cut_name_spec (strip_end (rev p))) as C.
  destruct (cut_name (strip_end (rev p))) as [n d] eqn:Z. destruct C as (C & H & K). exists d, (rev n), (rev x). csplit; auto.
  - now rewrite rev_involutive.
  - apply (f_equal (@rev N)) in E. rewrite rev_involutive, rev_app_distr, C, rev_app_distr, <- app_assoc in E. exact E.
  - now rewrite <- in_rev.
  - intros En. apply (f_equal (@rev N)) in En. rewrite rev_involutive in En. cbn in En. subst n. destruct K as [->|[d' ->]]; [reflexivity|]. now destruct (R1 d').
  - intros En. apply (f_equal (@rev N)) in En. rewrite rev_involutive in En. cbn in En. subst n. destruct K as [->|[d' ->]]; [reflexivity|]. now destruct (R2 d').
Qed.
Lemma file_name_snoc B n : file_name (B ++ [Normal n]) = Some n.
Proof. unfold file_name. now rewrite rev_app_distr. Qed.
Lemma parent_snoc B n : parent (B ++ [Normal n]) = Some B.
Proof. unfold parent. rewrite rev_app_distr. cbn. now rewrite rev_involutive. Qed.
Lemma path_named p name : file_name (components p) = Some name -> exists d j B, named name /\ p = rev d ++ name ++ j /\ dots j /\ cut_name (strip_end (rev p)) = (rev name, d) /\
  components p = B ++ [Normal name] /\ forall n, named n -> components (rev d ++ n) = B ++ [Normal n].
Proof.
  intros F. destruct (path_parts p) as (d & n & j & C & E & D & H & K & K1 & K2).
  destruct (list_eq_dec N.eq_dec n []) as [->|N0].
  { rewrite (K1 eq_refl) in E. cbn in E. subst p. exfalso. destruct (dots_split [] j D) as (l & L & S). unfold components in F. cbn [app] in S. rewrite S in F. rewrite flat_map_app, (dots_ignored l L) in F. cbn in F.
    destruct (match j with [] => false | y :: _ => _ end); discriminate. }
  destruct (list_eq_dec N.eq_dec n (lit ".")) as [->|N1].
  { rewrite (K2 eq_refl) in E. cbn [rev app] in E. subst p. rewrite components_dots in F by (auto; discriminate). discriminate. }
  destruct (list_eq_dec N.eq_dec n (lit "..")) as [->|N2].
  { exfalso. rewrite app_assoc in E. subst p. rewrite components_dots in F; [|exact D|destruct (rev d); discriminate].
    unfold components in F. destruct K as [->|[d' ->]]; [discriminate|]. cbn [rev] in F. rewrite <- app_assoc in F. cbn [app] in F. rewrite split_at_app, flat_map_app in F.
    unfold file_name in F. rewrite !rev_app_distr in F. cbn in F. discriminate. }
  assert (M : named n) by (unfold named; auto). destruct (components_named d K) as [B HB].
  assert (CP : components p = B ++ [Normal n]) by (rewrite E, app_assoc, components_dots; [now apply HB|exact D|destruct (rev d); [exact N0|discriminate]]).
  rewrite CP, file_name_snoc in F. injection F as <-. exists d, j, B. auto 10.
Qed.

(** ** The new name *)
Lemma split_once_none p s : split_once p s = None -> forall c, In c s -> p c = false.
Proof.
  induction s as [|x s IH]; intros H c I; [destruct I|]. cbn [split_once] in H. destruct (p x) eqn:E; [discriminate|]. destruct (split_once p s) as [[a b]|]; [discriminate|].
  destruct I as [<-|I]; [exact E|now apply IH].
Qed.
Lemma split_once_cut p s a b : split_once p s = Some (a, b) -> exists x, p x = true /\ s = a ++ x :: b /\ forall c, In c a -> p c = false.
Proof.
  revert a b. induction s as [|c s IH]; intros a b H; [discriminate|]. cbn [split_once] in H. destruct (p c) eqn:E.
  - injection H as <- <-. exists c. now csplit.
  - destruct (split_once p s) as [[a' b']|]; [|discriminate]. injection H as <- <-. destruct (IH a' b' eq_refl) as (x & X & -> & F). exists x. csplit; [exact X|reflexivity|]. intros y [<-|I]; auto.
Qed.
(** [base] is the name without its extension: what is behind its last dot, unless it begins there. *)
Definition base_of (name base : list N) : Prop :=
  (exists ext, base <> [] /\ ~ In 46 ext /\ name = base ++ 46 :: ext) \/
  (base = name /\ (~ In 46 name \/ exists ext, ~ In 46 ext /\ name = 46 :: ext)).
Lemma stem_base name : base_of name (stem name).
Proof.
  unfold stem. destruct (split_once (N.eqb 46) (rev name)) as [[a b]|] eqn:E.
  - apply split_once_cut in E as (x & X & E & F). apply N.eqb_eq in X. subst x. apply (f_equal (@rev N)) in E. rewrite rev_involutive, rev_app_distr in E. cbn [rev] in E. rewrite <- app_assoc in E. cbn [app] in E.
    assert (H : ~ In 46 (rev a)) by (rewrite <- in_rev; intros I; apply F in I; discriminate). destruct b as [|y b].
    + right. split; [reflexivity|]. right. exists (rev a). now split.
    + left. exists (rev a). csplit; [|exact H|exact E]. intros Z. apply (f_equal (@length N)) in Z. rewrite rev_length in Z. discriminate.
  - right. split; [reflexivity|]. left. rewrite in_rev. intros I. apply (split_once_none _ _ E) in I. discriminate.
Qed.
Lemma base_unique name b b' : base_of name b -> base_of name b' -> b = b'.
Proof.
  assert (U : forall x y e f, ~ In 46 e -> ~ In 46 f -> x ++ 46 :: e = y ++ 46 :: f -> x = y).
  { intros x. induction x as [|c x IH]; intros y e f E F H.
    - destruct y as [|d y]; [reflexivity|]. cbn in H. injection H as _ H. destruct E. rewrite H. apply in_or_app. right. now left.
    - destruct y as [|d y]; cbn in H; injection H as -> H.
      + destruct F. rewrite <- H. apply in_or_app. right. now left.
      + f_equal. now apply (IH y e f). }
  intros [(e & N & E & H)|(-> & H)] [(f & N' & F & H')|(-> & H')]; auto.
  - rewrite H in H'. now apply U in H'.
  - exfalso. destruct H' as [H'|(f & F & H')].
    + apply H'. rewrite H. apply in_or_app. right. now left.
    + rewrite H in H'. apply (U b [] e f E F) in H'. contradiction.
  - exfalso. destruct H as [H|(e & E & H)].
    + apply H. rewrite H'. apply in_or_app. right. now left.
    + rewrite H' in H. apply (U b' [] f e F E) in H. contradiction.
Qed.
Lemma base_named name b ext : named name -> base_of name b -> ext <> [] -> ~ In 47 ext -> named (b ++ 46 :: ext).
Proof.
  intros (A & _ & _ & D) B X Y. assert (b <> []) as NB by (destruct B as [(e & N & _)|(-> & _)]; assumption).
  assert (forall c, In c b -> In c name) as IB by (destruct B as [(e & _ & _ & ->)|(-> & _)]; [intros c I; apply in_or_app; now left|auto]).
  assert (L : (3 <= length (b ++ 46%N :: ext))%nat) by (rewrite app_length; destruct b, ext; try contradiction; cbn [length]; lia).
  unfold named. csplit; try (intros E; rewrite E in L; cbn in L; lia).
  intros I. apply in_app_or in I as [I|[I|I]]; [apply D, IB, I|discriminate|contradiction].
Qed.

(** ** C76 *)
(** The page of a report is in the directory of the report, with the same name up to the extension. *)
Theorem C76_same_directory ext p name base : ext <> [] -> ~ In 47 ext -> file_name (components p) = Some name -> base_of name base ->
  parent (components (set_extension ext p)) = parent (components p) /\ file_name (components (set_extension ext p)) = Some (base ++ 46 :: ext).
Proof.
  intros X Y F HB. destruct (path_named p name F) as (d & j & B & M & E & D & C & CP & H). pose proof (base_unique _ _ _ HB (stem_base name)) as Z.
  assert (S : set_extension ext p = rev d ++ base ++ 46 :: ext).
  { unfold set_extension. rewrite C, rev_involutive. destruct M as (M0 & M1 & M2 & _).
    destruct (eqb_list name []) eqn:E1; [apply eqb_list_spec in E1; contradiction|]. destruct (eqb_list name (lit ".")) eqn:E2; [apply eqb_list_spec in E2; contradiction|].
    destruct (eqb_list name (lit "..")) eqn:E3; [apply eqb_list_spec in E3; contradiction|]. cbn [orb]. rewrite <- Z. destruct ext; [contradiction|reflexivity]. }
  rewrite S, (H (base ++ 46 :: ext)) by now apply (base_named name). rewrite CP, !parent_snoc, file_name_snoc. auto.
Qed.
(** A path without a file name is left alone. *)
Theorem C76_no_name ext p : file_name (components p) = None -> set_extension ext p = p.
Proof.
  intros F. unfold set_extension. destruct (path_parts p) as (d & n & j & C & E & D & H & K & _). rewrite C, rev_involutive.
  destruct (eqb_list n []) eqn:E1; [reflexivity|]. destruct (eqb_list n (lit ".")) eqn:E2; [reflexivity|]. destruct (eqb_list n (lit "..")) eqn:E3; [reflexivity|]. exfalso.
  assert (M : named n) by (unfold named; csplit; [intros ->|intros ->|intros ->|exact H]; discriminate). destruct (components_named d K) as [B HB].
  rewrite E, app_assoc, components_dots, HB, file_name_snoc in F; [discriminate|exact M|exact D|]. destruct (rev d); [apply M|discriminate].
Qed.
(** The common case, in full: a directory, a name, an extension. *)
Theorem C76_replaces ext dir base old : ext <> [] -> base <> [] -> ~ In 47 base -> ~ In 47 old -> ~ In 46 old ->
  (dir = [] \/ exists q, dir = q ++ [47]) -> old <> [] \/ base <> lit "." -> set_extension ext (dir ++ base ++ 46 :: old) = dir ++ base ++ 46 :: ext.
Proof.
  intros X NB B O O' HD K. assert (ST : forall r, strip_end (rev (base ++ 46 :: old) ++ r) = rev (base ++ 46 :: old) ++ r).
  { intros r. rewrite rev_app_distr. cbn [rev]. rewrite <- !app_assoc. cbn [app]. destruct (rev old) as [|c o] eqn:E.
    - apply (f_equal (@rev N)) in E. rewrite rev_involutive in E. cbn in E. subst old. cbn [app strip_end]. change (46 =? 47) with false. change (46 =? 46) with true. cbv iota.
      destruct (rev base) as [|x b] eqn:E; [apply (f_equal (@rev N)) in E; rewrite rev_involutive in E; now subst base|]. cbn [app].
      destruct (N.eqb_spec x 47) as [->|_]; [|reflexivity]. destruct B. apply in_rev. rewrite E. now left.
    - cbn [app strip_end]. destruct (N.eqb_spec c 47) as [->|_]; [destruct O; apply in_rev; rewrite E; now left|]. destruct (N.eqb_spec c 46) as [->|_]; [destruct O'; apply in_rev; rewrite E; now left|reflexivity]. }
  assert (CN : forall m r, ~ In 47 m -> (r = [] \/ exists r', r = 47 :: r') -> cut_name (m ++ r) = (m, r)).
  { intros m r M R. induction m as [|c m IH]; cbn [app cut_name].
    - destruct R as [->|[r' ->]]; reflexivity.
    - destruct (N.eqb_spec c 47) as [->|_]; [destruct M; now left|]. rewrite IH; [reflexivity|]. intros I. apply M. now right. }
  assert (NI : ~ In 47 (base ++ 46 :: old)) by (intros I; apply in_app_or in I as [I|[I|I]]; [contradiction|discriminate|contradiction]).
  unfold set_extension. rewrite rev_app_distr, ST, CN; [|now rewrite <- in_rev|destruct HD as [->|[q ->]]; [now left|right; rewrite rev_app_distr; now eexists]].
  rewrite !rev_involutive.
  destruct (eqb_list (base ++ 46 :: old) []) eqn:E1; [apply eqb_list_spec in E1; now destruct base|].
  destruct (eqb_list (base ++ 46 :: old) (lit ".")) eqn:E2.
  { apply eqb_list_spec in E2. destruct base as [|x base]; [contradiction|]. cbn in E2. injection E2 as _ E2. now destruct base. }
  destruct (eqb_list (base ++ 46 :: old) (lit "..")) eqn:E3.
  { apply eqb_list_spec in E3. destruct base as [|x base]; [contradiction|]. cbn in E3. injection E3 as -> E3. destruct base as [|y base]; cbn in E3.
    - injection E3 as ->. destruct K as [K|K]; now destruct K.
    - injection E3 as _ E3. now destruct base. }
  cbn [orb]. rewrite (base_unique _ (stem (base ++ 46 :: old)) base (stem_base _)) by (left; exists old; now csplit). destruct ext; [contradiction|reflexivity].
Qed.

(** The command that renders a saved report: it changes one file at most, that of the page; when it
    reports an update, that file is the page of the report; when the report does not load it panics
    and changes nothing. *)
Theorem C76_render {Report} (load : option bytes -> res Report) render s fp o s' : render_main load render s [fp] o s' ->
  (forall q, q <> set_extension (lit "html") fp -> s' q = s q) /\
  (forall p, o = Updated p -> p = set_extension (lit "html") fp /\ exists r h, load (s fp) = Val r /\ render r = Val h /\ s' p = Some h) /\
  ((forall r, load (s fp) <> Val r) -> o = RPanicked /\ s' = s) /\
  o <> Usage.
Proof.
  intros H. inversion H as [args L E|fp' L E|fp' r L R E|fp' r h ok s1 L R W E]; subst.
  - now destruct L.
  - csplit; auto; discriminate.
  - csplit; auto; try discriminate.
  - csplit.
    + intros q Q. assert (U : forall f, update s (set_extension (lit "html") fp) f q = s q).
      { intros f. unfold update. destruct (eqb_list q (set_extension (lit "html") fp)) eqn:Z; [apply eqb_list_spec in Z; contradiction|reflexivity]. }
      inversion W; subst; auto.
    + intros p Z. destruct ok; [|discriminate]. injection Z as <-. split; [reflexivity|]. exists r, h. inversion W; subst. csplit; auto. unfold update. now rewrite (proj2 (eqb_list_spec _ _) eq_refl).
    + intros N. now destruct (N r).
    + destruct ok; discriminate.
Qed.
(** Other numbers of arguments only print the usage. *)
Theorem C76_usage {Report} (load : option bytes -> res Report) render s args o s' : length args <> 1%nat -> render_main load render s args o s' -> o = Usage /\ s' = s.
Proof. intros L H. inversion H; subst; cbn [length] in *; auto; contradiction. Qed.

(** The raw report of a run with LOGREDUCE_CACHE, when it succeeded: it is beside the page and is the
    report of the page, unless it has the path of the page, or its end was lost. *)
Theorem C76_raw_report {Build Model Report : Type} with_json f mp baselines i (s : @fs Model Report) tr s' :
  exec (process (Build := Build) with_json true (Some f) mp baselines i, s) tr (Done Success, s') ->
  exists r, s' f = Some (Page r) /\ (with_json f <> f -> s' (with_json f) = Some (RawReport r) \/ In (Lost (with_json f) (RawReport r)) tr).
Proof.
  intros He.
  set (Q := fun (h : list (@event Build Model Report)) (s1 : @fs Model Report) (o : option outcome) => o = Some Success ->
    exists r, s1 f = Some (Page r) /\ (with_json f <> f -> s1 (with_json f) = Some (RawReport r) \/ In (Lost (with_json f) (RawReport r)) h)).
  assert (N : forall h s o, o <> Some Success -> Q h s o) by (unfold Q; intuition).
  assert (Ai : forall h c m s, always Q h (inspect (Build := Build) with_json true (Some f) c m) s).
  { intros h c m s1. unfold inspect. split; [apply N; discriminate|].
    assert (Rest : forall h r s, s (with_json f) = Some (RawReport r) \/ In (Lost (with_json f) (RawReport r)) h ->
      always Q h (Render f r (fun o => try o (fun _ => Create f (Page r) (fun created => if created then Write f (Page r) (fun written => Done (if written then Success else Failure)) else Done Failure)))) s).
    { intros h' r s2 K. split; [apply N; discriminate|]. intros [o|e|]; cbn [try always]; csplit; try (apply N; discriminate).
      - intros _. exists r. split; [apply set_same|]. intros D. destruct K as [K|K].
        + left. rewrite !set_other by exact D. exact K.
        + right. rewrite <- !app_assoc. apply in_or_app. now left.
      - discriminate. }
    intros [r|e|]; cbn [try always]; try (apply N; discriminate).
    apply always_save; try (apply N; discriminate).
    - apply Rest. left. apply set_same.
    - intros _. apply Rest. right. apply in_or_app. right. cbn. auto. }
  assert (Ak : forall h c m s, always Q h (keep_model mp m (inspect (Build := Build) with_json true (Some f) c m)) s).
  { intros h c m s1. destruct mp as [p|]; cbn [keep_model]; [|apply Ai]. split; [apply N; discriminate|].
    destruct (here s1 p); [apply Ai|]. apply always_save; try (apply N; discriminate); [apply Ai|intros _; apply Ai]. }
  assert (A : always Q [] (process with_json true (Some f) mp baselines i) s) by (apply always_process; intros; auto).
  now apply (reach Q _ _ _ _ _ A He).
Qed.

(** ** Examples, and what does not hold *)
Example C76_example : set_extension (lit "html") (lit "/tmp/run.1/report.json") = lit "/tmp/run.1/report.html" /\
  set_extension (lit "html") (lit "out/report") = lit "out/report.html" /\ set_extension (lit "html") (lit "out/.report") = lit "out/.report.html" /\
  set_extension (lit "html") (lit "out/a.tar.gz/./") = lit "out/a.tar.html" /\ set_extension (lit "html") (lit "out/..") = lit "out/..".
Proof. csplit; vm_compute; reflexivity. Qed.
Example C76_example_named : file_name (components (lit "/tmp/run.1/report.json")) = Some (lit "report.json") /\ base_of (lit "report.json") (lit "report").
Proof. split; [reflexivity|]. left. exists (lit "json"). csplit; [discriminate|cbn; intuition discriminate|reflexivity]. Qed.
Definition one_report : disk := fun p => if eqb_list p (lit "r.json") then Some [7] else None.
Definition toy_load (f : option bytes) : res N := match f with Some [n] => Val n | _ => Fail (lit "Can't load") end.
Definition toy_render (n : N) : res bytes := Val (lit "<html>").
Example C76_example_render : exists s', render_main toy_load toy_render one_report [lit "r.json"] (Updated (lit "r.html")) s' /\ s' (lit "r.html") = Some (lit "<html>") /\ s' (lit "r.json") = Some [7].
Proof.
  eexists. split; [|split].
  - apply (RWritten toy_load toy_render one_report (lit "r.json") 7 (lit "<html>") true); [reflexivity|reflexivity|apply WOk].
  - reflexivity.
  - reflexivity.
Qed.
(** A report whose name ends with html is replaced by its page. *)
Theorem C76_report_kept_refuted : exists s fp s', toy_load (s fp) = Val 7 /\ render_main toy_load toy_render s [fp] (Updated fp) s' /\ toy_load (s' fp) = Fail (lit "Can't load").
Proof.
  exists (fun p => if eqb_list p (lit "r.html") then Some [7] else None), (lit "r.html"). eexists. split; [reflexivity|]. split.
  - apply (RWritten toy_load toy_render _ (lit "r.html") 7 (lit "<html>") true); [reflexivity|reflexivity|apply WOk].
  - reflexivity.
Qed.
(** Reports whose names differ by the extension only share their raw report and their page. *)
Theorem C76_own_file_refuted : exists p q, p <> q /\ file_name (components p) <> None /\ file_name (components q) <> None /\
  set_extension (lit "json") p = set_extension (lit "json") q.
Proof. exists (lit "logs/run.1"), (lit "logs/run.2"). csplit; [discriminate|discriminate|discriminate|reflexivity]. Qed.
(** A run whose report is named json loses its raw report, although it succeeds. *)
Theorem C76_raw_kept_refuted : exists f tr (s' : files), exec (process (Build := N) (set_extension (lit "json")) true (Some f) (Some mfile) None target, one_file (ModelFile 7)) tr (Done Success, s') /\
  In (Written f (RawReport 3) true) tr /\ s' f = Some (Page 3).
Proof.
  exists (lit "report.json"), [Got target (Val after); Asked mfile true; Loaded mfile (Val 7); Asked mfile true; Analysed after 7; Created (lit "report.json") true; Written (lit "report.json") (RawReport 3) true;
    Other; Created (lit "report.json") true; Written (lit "report.json") (Page 3) true]. eexists. split; [|split].
  - unfold process. eapply ExecStep; [apply (StepContent _ _ _ (Val after))|]. cbn [try].
    eapply ExecStep; [apply StepExists|]. cbn. eapply ExecStep; [exact (StepLoad mfile _ (one_file (ModelFile 7)))|]. cbn. eapply ExecStep; [apply StepExists|]. cbn.
    eapply ExecStep; [apply (StepReport _ _ _ _ (Val 3))|]. cbn.
    eapply ExecStep; [apply StepCreate|]. eapply ExecStep; [apply StepWrite|]. cbn.
    eapply ExecStep; [apply (StepRender _ _ _ _ (Val tt))|]. cbn. eapply ExecStep; [apply StepCreate|]. eapply ExecStep; [apply StepWrite|]. cbn. apply ExecNow.
  - cbn. auto 10.
  - reflexivity.
Qed.
Print Assumptions C76_same_directory.
Print Assumptions C76_no_name.
Print Assumptions C76_replaces.
Print Assumptions C76_render.
Print Assumptions C76_usage.
Print Assumptions C76_raw_report.
Print Assumptions C76_report_kept_refuted.
Print Assumptions C76_own_file_refuted.
Print Assumptions C76_raw_kept_refuted.
