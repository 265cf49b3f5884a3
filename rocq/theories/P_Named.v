(** Which baselines are named on the command line, and how: C98. *)
From Coq Require Import String List NArith ZArith PeanoNat Bool Lia Permutation Sorting Reals.
From Verif Require Import Common CommonFacts IterModel IterSpec IterMain P_Iter ProcModel ProcSpec ProcStopSpec ProcExactSpec P_Proc P_ProcExact TokSpec TokRe P_Tok ProcRefute FilesModel FilesSpec FilesSources CliModel IndexModel IndexSpec IndexFloat IndexNum P_Index
  MatModel ReportModel ReportSpec ReportProofs ReportMore P_Report P_Compare P_Noise CacheSpec StoreModel StoreSpec StoreProofs P_Store MatSpec MatProofs P_Mat HtmlModel ShownModel RenderModel OutModel P_Out SavedModel P_Saved MainModel MainSpec P_Main SummarySpec P_Summary DiffSpec P_Diff RunsSpec P_Runs.
From Verif Require P_Cache P_Html P_Page ShownProofs.
Import ListNotations.
Open Scope string_scope.
Open Scope list_scope.
Open Scope N_scope.
Ltac csplit := repeat match goal with |- _ /\ _ => split end.

(** ** What determines the findings *)
Section Unique.
Context {D : Type}.
Variable above : D -> bool.
Variable tok : bytes -> bytes.
Variables dist dist' : bytes -> D.
Hypothesis same : forall t, dist t = dist' t.
Lemma pace_same l : forall p, fold_left (pace_line above tok dist) l p = fold_left (pace_line above tok dist') l p.
Proof. induction l as [|b l IH]; intros p; [reflexivity|]. cbn [fold_left]. rewrite IH. f_equal. unfold pace_line. now rewrite same. Qed.
Lemma sorted_same (l : list nat) : StronglySorted lt l -> forall l', StronglySorted lt l' -> (forall i, In i l <-> In i l') -> l = l'.
Proof.
  induction 1 as [|x l S IH F]; intros l' S' H.
  - destruct l' as [|y l']; [reflexivity|]. destruct (proj2 (H y) (or_introl eq_refl)).
  - destruct l' as [|y l']; [destruct (proj1 (H x) (or_introl eq_refl))|]. inversion S' as [|? ? S2 F2]; subst. rewrite Forall_forall in F, F2.
    assert (x = y) as <-.
    { destruct (proj1 (H x) (or_introl eq_refl)) as [E|E]; [now subst|]. destruct (proj2 (H y) (or_introl eq_refl)) as [E'|E']; [now subst|]. apply F2 in E. apply F in E'. lia. }
    f_equal. apply IH; [exact S2|]. intros i. split; intros Hi.
    + destruct (proj1 (H i) (or_intror Hi)) as [<-|X]; [|exact X]. apply F in Hi. lia.
    + destruct (proj2 (H i) (or_intror Hi)) as [<-|X]; [|exact X]. apply F2 in Hi. lia.
Qed.
Lemma enumerates_same known lines ps ps' : enumerates above tok dist known lines ps -> enumerates above tok dist' known lines ps' -> ps = ps'.
Proof.
  intros [S E] [S' E']. apply sorted_same; auto. intros i. rewrite E, E'. unfold reported. split; intros [A (b & nr & B1 & B2)]; (split; [exact A|]); exists b, nr; (split; [exact B1|]); [rewrite <- same|rewrite same]; exact B2.
Qed.
Lemma findings_same known lines ps cs cs' : Forall2 (describes tok dist lines) cs ps -> Forall2 (describes tok dist' lines) cs' ps ->
  exact_contexts above tok dist known lines cs ps -> exact_contexts above tok dist' known lines cs' ps -> cs = cs'.
Proof.
  intros F F' X X'.
  assert (G : forall k c i, nth_error cs k = Some c -> nth_error ps k = Some i -> forall c', nth_error cs' k = Some c' -> describes tok dist lines c i -> describes tok dist' lines c' i -> c = c').
  { intros k c i Ec Ei c' Ec' [D1 D2] [D1' D2']. destruct (X k c i Ec Ei) as [B A]. destruct (X' k c' i Ec' Ei) as [B' A'].
    assert (St : forall prev, context_start above tok dist known lines prev i = context_start above tok dist' known lines prev i) by (intros prev; unfold context_start, batch_start; now rewrite pace_same).
    assert (En : forall next, context_end above tok dist known lines next i = context_end above tok dist' known lines next i) by (intros next; unfold context_end, searched, batch_start; now rewrite pace_same).
    rewrite St, <- B' in B. rewrite En, <- A' in A. rewrite D1 in D1'. destruct c, c'. cbn in *. injection D1' as -> ->. rewrite same, <- D2' in D2. now subst. }
  clear X X'. revert cs' F' G. induction F as [|c i cs ps H F IH]; intros cs' F' G; inversion F' as [|c' ? cs2 ? H' F2]; subst; [reflexivity|]. f_equal.
  - exact (G O c i eq_refl eq_refl c' eq_refl H H').
  - apply IH; [exact F2|]. intros k. exact (G (S k)).
Qed.
End Unique.

Section Sets.
Variables (hash : bytes -> N) (fused : bool) (up : N -> bool) (tok : bytes -> bytes).
Notation run_dist := (P_Runs.run_dist hash fused).
Notation log_lines json_of bytes_of := (fun x => lines_of_log (json_of x) (bytes_of x)).
Variables (name_of : source -> text) (json_of : source -> bool) (bytes_of : source -> bytes).
Notation lines := (log_lines json_of bytes_of).
Notation known := (known_lines tok lines).
(** A log of this name among these; one that has a line with this tokenized form *)
Definition has_name (logs : list source) (n : text) : Prop := exists b, In b logs /\ name_of b = n.
Definition has_line (logs : list source) (n : text) (t : bytes) : Prop := exists b y, In b logs /\ name_of b = n /\ In y (lines b) /\ tok (fst y) = t.
(** To the program these baselines are the same. *)
Definition alike (logs logs' : list source) : Prop := (forall n, has_name logs n <-> has_name logs' n) /\ (forall n t, has_line logs n t <-> has_line logs' n t).

Lemma known_in l t : In t (known l) <-> exists b y, In b l /\ In y (lines b) /\ tok (fst y) = t.
Proof.
  unfold known_lines. rewrite in_flat_map. split.
  - intros (b & Hb & Hi). apply in_map_iff in Hi as (y & Ey & Hy). eauto 6.
  - intros (b & y & Hb & Hy & Ey). exists b. split; [exact Hb|]. apply in_map_iff. eauto.
Qed.
Lemma compared_incl logs logs' x l l' : (forall n, has_name logs n -> has_name logs' n) -> (forall n t, has_line logs n t -> has_line logs' n t) -> 
  compared_with name_of logs x l -> compared_with name_of logs' x l' -> (has_name logs (name_of x) \/ forall n, has_name logs' n -> has_name logs n) -> forall t, In t (known l) -> In t (known l').
Proof.
  intros Hn Hl C C' Hx t Ht. apply known_in in Ht as (b & y & Hb & Hy & Ey). apply known_in.
  destruct C as [l S E|n E A N], C' as [l' S' E'|n' E' A' N'].
  - apply (ReportMore.selected_in _ _ _ b S) in Hb as [Hb Nb]. destruct (Hl (name_of x) t) as (b' & y' & B1 & B2 & B3 & B4); [exists b, y; auto|].
    exists b', y'. csplit; auto. now apply (ReportMore.selected_in _ _ _ b' S').
  - exfalso. apply (ReportMore.selected_in _ _ _ b S) in Hb as [Hb Nb]. destruct (Hn (name_of x)) as (b' & B1 & B2); [exists b; auto|]. rewrite (A' b' B1) in B2. congruence.
  - exfalso. destruct l' as [|b' l']; [congruence|]. destruct (proj1 (ReportMore.selected_in _ _ _ b' S') (or_introl eq_refl)) as [B1 B2].
    assert (Z : has_name logs (name_of x)) by (destruct Hx as [Z|Z]; [exact Z|]; apply Z; now exists b').
    destruct Z as (z & Z1 & Z2). rewrite (A z Z1) in Z2. congruence.
  - destruct (Hl (name_of b) t) as (b' & y' & B1 & B2 & B3 & B4); [exists b, y; auto|]. eauto 6.
Qed.
Lemma alike_sym logs logs' : alike logs logs' -> alike logs' logs.
Proof. intros [A B]. split; intros; symmetry; auto. Qed.
Lemma alike_compared logs logs' x l l' : alike logs logs' -> compared_with name_of logs x l -> compared_with name_of logs' x l' -> forall t, In t (known l) <-> In t (known l').
Proof.
  intros [A B] C C' t. split.
  - apply (compared_incl logs logs' x l l'); auto; [intros n; apply A|intros n u; apply B|right; intros n; apply A].
  - apply (compared_incl logs' logs x l' l); auto; [intros n; apply A|intros n u; apply B|right; intros n; apply A].
Qed.
Lemma alike_not_compared logs logs' x l : alike logs logs' -> not_compared name_of logs x -> compared_with name_of logs' x l -> False.
Proof.
  intros [A _] [N1 N2] [l' S E|n E Al N].
  - destruct l' as [|b l']; [congruence|]. destruct (proj1 (ReportMore.selected_in _ _ _ b S) (or_introl eq_refl)) as [B1 B2].
    destruct (proj2 (A (name_of x))) as (z & Z1 & Z2); [now exists b|]. now apply (N1 z).
  - apply N2. exists n. split.
    + intros ->. destruct logs' as [|b bs]; [congruence|]. destruct (proj2 (A (name_of b))) as (z & [] & _). exists b. split; [now left|reflexivity].
    + intros z Hz. destruct (proj1 (A (name_of z))) as (b & B1 & B2); [now exists z|]. now rewrite <- B2, Al.
Qed.
Lemma dist_same l l' t : (forall u, In u (known l) <-> In u (known l')) -> run_dist (known l) t = run_dist (known l') t.
Proof.
  intros H. pose proof (C20_training_order_irrelevant hash fused [known l] [known l'] [t]) as E. unfold hashing_search in E. rewrite !(search_pointwise hash fused _ [t]) in E. cbn [map] in E.
  unfold P_Runs.run_dist, real_dist. assert (X : forall u, In u (concat [known l]) <-> In u (concat [known l'])) by (intros u; cbn [concat]; rewrite !app_nil_r; apply H). specialize (E X). now injection E.
Qed.
(** The same rows and the same text for a log *)
Lemma block_alike logs logs' x rows rows' text text' : alike logs logs' ->
  block tok run_dist up name_of lines logs x rows text -> block tok run_dist up name_of lines logs' x rows' text' ->
  text = text' /\ forall d n b, In (Printed (Anom d n b)) rows <-> In (Printed (Anom d n b)) rows'.
Proof.
  intros A B B'. destruct B as [t N C|l ps cs rows C E1 E2 E3 E4 _ _], B' as [t' N' C'|l' ps' cs' rows' C' E1' E2' E3' E4' _ _].
  - apply source_called in C, C'. rewrite C in C'. injection C' as <-. split; [reflexivity|tauto].
  - exfalso. eapply alike_not_compared; eauto.
  - exfalso. eapply alike_not_compared; [apply alike_sym|..]; eauto.
  - assert (K : forall t, run_dist (known l) t = run_dist (known l') t) by (intros t; apply dist_same; intros u; eapply alike_compared; eauto).
    assert (ps = ps') as <- by (eapply (enumerates_same _ _ _ _ K); eauto).
    assert (cs = cs') as <- by (eapply (findings_same _ _ _ _ K); eauto).
    split; [reflexivity|]. intros d n b. now rewrite E4, E4'.
Qed.
(** More logs of the name of a log: what is still found was found. *)
Lemma block_more logs logs' x rows rows' text text' : (forall n, has_name logs n -> has_name logs' n) -> (forall n t, has_line logs n t -> has_line logs' n t) -> has_name logs (name_of x) ->
  block tok run_dist up name_of lines logs x rows text -> block tok run_dist up name_of lines logs' x rows' text' ->
  forall d n b, In (Printed (Anom d n b)) rows' -> exists d', In (Printed (Anom d' n b)) rows /\ fin d /\ fin d' /\ (val d <= val d')%R.
Proof.
  intros Hn Hl Hx B B' d n b I. destruct B as [t [N _] C|l ps cs rows C E1 E2 E3 E4 _ _]; [exfalso; destruct Hx as (z & Z1 & Z2); now apply (N z)|].
  destruct B' as [t' N' C'|l' ps' cs' rows' C' E1' E2' E3' E4' _ _]; [destruct I as [I|[]]; discriminate|]. apply E4' in I as (c & Ic & -> & -> & ->).
  destruct (forall2_in_l _ _ _ _ E2' Ic) as (i & Ii & D1 & D2). apply (proj2 E1') in Ii as [Fs (b' & nr & B1 & B2)]. rewrite D1 in B1. injection B1 as <- <-.
  assert (K : incl (concat [known l]) (concat [known l'])).
  { intros t. cbn [concat]. rewrite !app_nil_r. apply (compared_incl logs logs' x); auto. }
  destruct (C23_more_baselines_closer hash fused _ _ (tok (aline c)) K) as (dd & dd' & X & X' & F1 & F2 & V & Ab).
  unfold hashing_search in X, X'. rewrite (search_pointwise hash fused _ [_]) in X. rewrite (search_pointwise hash fused _ [_]) in X'. cbn [map] in X, X'. injection X as X. injection X' as X'.
  unfold P_Runs.run_dist, real_dist in B2, D2. rewrite X' in B2, D2. specialize (Ab B2).
  assert (Ii : In i ps) by (apply (proj2 E1); split; [exact Fs|]; do 2 eexists; split; [exact D1|]; unfold P_Runs.run_dist, real_dist; now rewrite X).
  destruct (forall2_in_r _ _ _ _ E2 Ii) as (c0 & Ic0 & D3 & D4). rewrite D1 in D3. injection D3 as Ea Ep.
  exists dd. unfold P_Runs.run_dist, real_dist in D4. rewrite <- Ea, X in D4. csplit; [apply E4; exists c0; auto|congruence|congruence|]. rewrite D2. exact V.
Qed.
End Sets.

Section Runs.
Variables (hash : bytes -> N) (fused checked : bool) (word_char : N -> bool).
Variable enc_write : list bytes -> bytes -> bytes.
Variable enc_finish : list bytes -> bytes.
Variable gunzip : bytes -> bytes * bool.
Context {Date : Type}.
Variable show_date : Date -> bytes.
Variable parse_date : bytes -> option Date.
Variable url_text : bytes -> option bytes.
Variables (up : N -> bool) (has_year : Z -> bool) (write : bytes -> bytes) (checks : bool) (fixed_parts : fixed).
Notation build := (@StoreModel.build Date).
Variable kind_of : text -> path_kind.
Variable parse_url : text -> option text.
Variable has_authority : text -> bool.
Variable from_zuul_url : text -> option (res (content build)).
Variable zuul_baselines : build -> res (list (content build)).
Variable zuul_says : build -> list bytes.
Variable tree : bytes -> FilesModel.node.
Variable crawl : text -> res (list text).
Variable open : source -> res (bool -> list item).
Variable err_text : option N -> text.
Variable tty : bool.
Variable show_path : bytes -> bytes.
Variable cache : bool.
Notation tok := (real_tok word_char).
Notation get_content := (from_input kind_of parse_url has_authority from_zuul_url).
Notation discover := (discover_baselines kind_of zuul_baselines).
Notation listing := (@MainModel.listing Date tree crawl).
Notation trains := (trains hash checked tok show_date parse_date url_text tree crawl open err_text tty).
Notation main := (main hash fused checked tok enc_write enc_finish gunzip show_date parse_date url_text up has_year write checks fixed_parts get_content discover (discovery_of zuul_says) tree crawl open err_text tty show_path cache).
Notation is_build := (fun u => match from_zuul_url u with Some _ => true | None => false end).
Notation build_logs := (fun u address => exists b, from_zuul_url u = Some (Val (CZuul b)) /\ StoreModel.b_log_url b = address).
Notation baseline_logs := (fun u address => exists b b', from_zuul_url u = Some (Val (CZuul b)) /\ zuul_baselines b = Val [CZuul b'] /\ StoreModel.b_log_url b' = address).
Notation logs_of := (RunsSpec.logs_of kind_of parse_url has_authority is_build build_logs tree crawl).
Notation compares := (RunsSpec.compares kind_of parse_url has_authority is_build build_logs baseline_logs tree crawl).

Notation run_dist := (P_Runs.run_dist hash fused).
Notation log_lines json_of bytes_of := (fun x => lines_of_log (json_of x) (bytes_of x)).


(** Two commands with the same target and baselines that have logs of the same names, and in the logs of
    each name together the same tokenized lines, write the same. *)
Theorem C98_alike : forall cmd cmd' ls ls' targets name_of json_of bytes_of s s1 out out' o o' s' s1', compares cmd ls targets -> compares cmd' ls' targets ->
  (forall x, In x (concat ls ++ concat ls' ++ targets) -> is_log open x (name_of x) (json_of x) (bytes_of x)) ->
  (forall x y, In x (concat ls) -> In y (concat ls) -> name_of x = name_of y -> json_of x = json_of y) ->
  (forall x y, In x (concat ls') -> In y (concat ls') -> name_of x = name_of y -> json_of x = json_of y) ->
  alike tok name_of json_of bytes_of (concat ls) (concat ls') ->
  main None None cmd s out o s' -> main None None cmd' s1 out' o' s1' ->
  o = Success /\ o' = Success /\
  (forall d n line, In (Printed (Anom d n line)) (findings out) <-> In (Printed (Anom d n line)) (findings out')) /\
  (tty = false -> exists text, written up (printed out) = Some text /\ written up (printed out') = Some text).
Proof.
  intros cmd cmd' ls ls' targets name_of json_of bytes_of s s1 out out' o o' s' s1' C C' L J J' A M M'.
  destruct (C93_diff hash fused checked word_char enc_write enc_finish gunzip show_date parse_date url_text up has_year write checks fixed_parts kind_of parse_url has_authority from_zuul_url zuul_baselines zuul_says tree crawl open err_text tty show_path cache _ _ _ name_of json_of bytes_of s out o s' C) as (-> & _ & _ & parts & F & E & W); [intros x Hx; apply L; rewrite !in_app_iff in *; tauto|exact J|exact M|].
  destruct (C93_diff hash fused checked word_char enc_write enc_finish gunzip show_date parse_date url_text up has_year write checks fixed_parts kind_of parse_url has_authority from_zuul_url zuul_baselines zuul_says tree crawl open err_text tty show_path cache _ _ _ name_of json_of bytes_of s1 out' o' s1' C') as (-> & _ & _ & parts' & F' & E' & W'); [intros x Hx; apply L; rewrite !in_app_iff in *; tauto|exact J'|exact M'|].
  assert (P : flat_map snd parts = flat_map snd parts' /\ forall d n b, In (Printed (Anom d n b)) (flat_map fst parts) <-> In (Printed (Anom d n b)) (flat_map fst parts')).
  { clear - F F' A. revert parts' F'. induction F as [|x p targets parts B F IH]; intros parts' F'; inversion F' as [|? p' ? parts2 B' F2]; subst; [split; [reflexivity|tauto]|].
    destruct (IH _ F2) as [I1 I2]. destruct (block_alike _ _ _ _ _ _ _ _ _ _ _ _ _ _ A B B') as [T R]. cbn [flat_map]. split; [apply (f_equal2 (@app N)); assumption|]. intros d n b. rewrite !in_app_iff, R, I2. tauto. }
  destruct P as [P1 P2]. csplit; auto.
  - intros d n line. rewrite E, E'. apply P2.
  - intros Ht. exists (flat_map snd parts). rewrite (W Ht), (W' Ht), P1. auto.
Qed.
(** So neither the order of the baselines on the command line matters, nor that one is named twice. *)
Lemma logs_of_one t l l' : logs_of t l -> logs_of t l' -> l = l'.
Proof.
  intros H H'. destruct (logs_content kind_of parse_url has_authority from_zuul_url tree crawl _ _ H) as (c & C1 & C2 & _). destruct (logs_content kind_of parse_url has_authority from_zuul_url tree crawl _ _ H') as (c' & C1' & C2' & _). rewrite C1 in C1'. injection C1' as <-. rewrite C2 in C2'. now injection C2'.
Qed.
Lemma named_logs bs bs' ls ls' : Forall2 logs_of bs ls -> Forall2 logs_of bs' ls' -> incl bs bs' -> incl (concat ls) (concat ls').
Proof.
  intros F F' I x Hx. apply in_concat in Hx as (l & Hl & Hx). destruct (forall2_in_r _ _ _ _ F Hl) as (b & Hb & L). apply I in Hb. destruct (forall2_in_l _ _ _ _ F' Hb) as (l' & Hl' & L').
  rewrite (logs_of_one _ _ _ L' L) in *. apply in_concat. eauto.
Qed.
Lemma incl_has (name_of : source -> text) json_of bytes_of a b : incl a b -> (forall n, has_name name_of a n -> has_name name_of b n) /\ (forall n t, has_line tok name_of json_of bytes_of a n t -> has_line tok name_of json_of bytes_of b n t).
Proof. intros I. split; [intros n (x & X1 & X2); exists x; auto|intros n t (x & y & X1 & X2 & X3 & X4); exists x, y; auto]. Qed.
Theorem C98_order : forall bs bs' t ls targets name_of json_of bytes_of s s1 out out' o o' s' s1', Forall2 logs_of bs ls -> logs_of t targets -> (forall b, In b bs <-> In b bs') ->
  (forall x, In x (concat ls ++ targets) -> is_log open x (name_of x) (json_of x) (bytes_of x)) ->
  (forall x y, In x (concat ls) -> In y (concat ls) -> name_of x = name_of y -> json_of x = json_of y) ->
  main None None (CmdDiff bs t) s out o s' -> main None None (CmdDiff bs' t) s1 out' o' s1' ->
  o = Success /\ o' = Success /\
  (forall d n line, In (Printed (Anom d n line)) (findings out) <-> In (Printed (Anom d n line)) (findings out')) /\
  (tty = false -> exists text, written up (printed out) = Some text /\ written up (printed out') = Some text).
Proof.
  intros bs bs' t ls targets name_of json_of bytes_of s s1 out out' o o' s' s1' F T I L J M M'.
  assert (X : exists ls', Forall2 logs_of bs' ls').
  { assert (Y : forall b, In b bs' -> exists l, logs_of b l) by (intros b Hb; apply I in Hb; destruct (forall2_in_l _ _ _ _ F Hb) as (l & _ & Hl); eauto).
    clear - Y. induction bs' as [|b bs' IH]; [exists []; constructor|]. destruct IH as (ls & IH); [intros; apply Y; now right|]. destruct (Y b (or_introl eq_refl)) as (l & Hl). exists (l :: ls). now constructor. }
  destruct X as (ls' & F'). pose proof (named_logs _ _ _ _ F F' (fun b => proj1 (I b))) as I1. pose proof (named_logs _ _ _ _ F' F (fun b => proj2 (I b))) as I2.
  eapply (C98_alike (CmdDiff bs t) (CmdDiff bs' t) ls ls' targets name_of json_of bytes_of); [now constructor|now constructor| |exact J| | |exact M|exact M'].
  - intros x Hx. apply L. rewrite !in_app_iff in *. destruct Hx as [Hx|[Hx|Hx]]; auto.
  - intros x y Hx Hy. apply J; now apply I2.
  - destruct (incl_has name_of json_of bytes_of _ _ I1) as [A1 A2]. destruct (incl_has name_of json_of bytes_of _ _ I2) as [B1 B2]. split; split; auto.
Qed.
(** More baselines: what is found with them is also found without them, and is not farther; provided that
    the logs of the target have logs of their names among the fewer ones. *)
Theorem C98_more : forall cmd cmd' ls ls' targets name_of json_of bytes_of s s1 out out' o o' s' s1' d n line, compares cmd ls targets -> compares cmd' ls' targets ->
  (forall x, In x (concat ls' ++ targets) -> is_log open x (name_of x) (json_of x) (bytes_of x)) ->
  (forall x y, In x (concat ls') -> In y (concat ls') -> name_of x = name_of y -> json_of x = json_of y) ->
  incl (concat ls) (concat ls') -> (forall x, In x targets -> exists b, In b (concat ls) /\ name_of b = name_of x) ->
  main None None cmd s out o s' -> main None None cmd' s1 out' o' s1' ->
  In (Printed (Anom d n line)) (findings out') -> exists d', In (Printed (Anom d' n line)) (findings out) /\ fin d /\ fin d' /\ (val d <= val d')%R.
Proof.
  intros cmd cmd' ls ls' targets name_of json_of bytes_of s s1 out out' o o' s' s1' d n line C C' L J I N M M' Hi.
  destruct (C93_diff hash fused checked word_char enc_write enc_finish gunzip show_date parse_date url_text up has_year write checks fixed_parts kind_of parse_url has_authority from_zuul_url zuul_baselines zuul_says tree crawl open err_text tty show_path cache _ _ _ name_of json_of bytes_of s out o s' C) as (-> & _ & _ & parts & F & E & _); [intros x Hx; apply L; rewrite in_app_iff in *; destruct Hx; auto|intros x y Hx Hy; apply J; auto|exact M|].
  destruct (C93_diff hash fused checked word_char enc_write enc_finish gunzip show_date parse_date url_text up has_year write checks fixed_parts kind_of parse_url has_authority from_zuul_url zuul_baselines zuul_says tree crawl open err_text tty show_path cache _ _ _ name_of json_of bytes_of s1 out' o' s1' C') as (-> & _ & _ & parts' & F' & E' & _); [exact L|exact J|exact M'|].
  rewrite E' in Hi. rewrite E. destruct (incl_has name_of json_of bytes_of _ _ I) as [A1 A2]. clear - F F' N A1 A2 Hi.
  revert parts' F' Hi. induction F as [|x p targets parts B F IH]; intros parts' F' Hi; inversion F' as [|? p' ? parts2 B' F2]; subst; [destruct Hi|]. cbn [flat_map] in Hi. apply in_app_or in Hi as [Hi|Hi].
  - destruct (block_more _ _ _ _ _ _ _ _ _ _ _ _ _ _ A1 A2 (N x (or_introl eq_refl)) B B' _ _ _ Hi) as (d' & I1 & I2). exists d'. split; [cbn [flat_map]; apply in_or_app; now left|exact I2].
  - destruct (IH ltac:(intros; apply N; now right) _ F2 Hi) as (d' & I1 & I2). exists d'. split; [cbn [flat_map]; apply in_or_app; now right|exact I2].
Qed.
(** The proviso is needed: a log of which no baseline has the name is compared with logs of another name
    if they have only one.  With one more baseline, of one more name, it is compared with none. *)
Theorem C98_single_name : forall cmd cmd' ls ls' targets name_of json_of bytes_of s s1 out out' o o' s' s1' x y z, compares cmd ls targets -> compares cmd' ls' targets ->
  (forall x, In x (concat ls' ++ targets) -> is_log open x (name_of x) (json_of x) (bytes_of x)) ->
  (forall x y, In x (concat ls') -> In y (concat ls') -> name_of x = name_of y -> json_of x = json_of y) ->
  incl (concat ls) (concat ls') -> In x targets -> (forall b, In b (concat ls') -> name_of b <> name_of x) ->
  (forall b, In b (concat ls) -> name_of b = name_of y) -> In y (concat ls) -> In z (concat ls') -> name_of z <> name_of y ->
  main None None cmd s out o s' -> main None None cmd' s1 out' o' s1' ->
  ~ In (NoBaselines x) (findings out) /\ In (NoBaselines x) (findings out').
Proof.
  intros cmd cmd' ls ls' targets name_of json_of bytes_of s s1 out out' o o' s' s1' x y z C C' L J I Hx Nx A Hy Hz Nz M M'.
  destruct (C93_diff hash fused checked word_char enc_write enc_finish gunzip show_date parse_date url_text up has_year write checks fixed_parts kind_of parse_url has_authority from_zuul_url zuul_baselines zuul_says tree crawl open err_text tty show_path cache _ _ _ name_of json_of bytes_of s out o s' C) as (-> & _ & _ & parts & F & E & _); [intros u Hu; apply L; rewrite in_app_iff in *; destruct Hu; auto|intros u v Hu Hv; apply J; auto|exact M|].
  destruct (C93_diff hash fused checked word_char enc_write enc_finish gunzip show_date parse_date url_text up has_year write checks fixed_parts kind_of parse_url has_authority from_zuul_url zuul_baselines zuul_says tree crawl open err_text tty show_path cache _ _ _ name_of json_of bytes_of s1 out' o' s1' C') as (-> & _ & _ & parts' & F' & E' & _); [exact L|exact J|exact M'|].
  rewrite E, E'. split.
  - intros H. apply in_flat_map in H as (p & Hp & H). destruct (forall2_in_r _ _ _ _ F Hp) as (u & Hu & B). destruct B as [t [N1 N2] Ct|l ps cs rows Cw E1 E2 E3 E4 E5 _].
    + destruct H as [H|[]]. injection H as ->. apply N2. exists (name_of y). split; [|exact A]. intros X. rewrite X in Hy. destruct Hy.
    + destruct (E5 _ H). discriminate.
  - destruct (forall2_in_l _ _ _ _ F' Hx) as (p & Hp & B). apply in_flat_map. exists p. split; [exact Hp|].
    destruct B as [t N Ct|l ps cs rows Cw E1 E2 E3 E4 E5 _]; [now left|exfalso]. destruct Cw as [l S El|n En Al Nn].
    + destruct l as [|b l]; [congruence|]. destruct (proj1 (ReportMore.selected_in _ _ _ b S) (or_introl eq_refl)) as [B1 B2]. now apply (Nx b).
    + apply Nz. rewrite (Al z Hz), (Al y (I y Hy)). reflexivity.
Qed.
End Runs.

(** ** Examples *)
(** The runs of C93, with the baseline named once and twice *)
Definition twice_groups := [(lit "service.log", [old_service; old_service]); (lit "sub/messages", [old_messages; old_messages])].
Definition twice_trained : ReportModel.model := match train_all (real_tok ascii_word) run_open twice_groups with Val m => m | _ => [] end.
Definition twice_model : @StoreModel.model csmat bytes := mkModel (1680000000%Z, 5) [CDirectory (Local 0 (lit "old")); CDirectory (Local 0 (lit "old"))] (stored_indexes byte_hash diff_times twice_trained).
Lemma twice_is_trained : twice_trained = [(lit "service.log", ReportModel.mkIndex [old_service; old_service] [[lit "service started %ID seconds"; lit "well"]] 4 80); (lit "sub/messages", ReportModel.mkIndex [old_messages; old_messages] [[lit "network"]] 2 26)].
Proof. vm_compute. reflexivity. Qed.
Lemma twice_rust : rust_model (fun x => MatSpec.fits x /\ (true = true -> well_formed x = true)) (fun d : bytes => d) toy_url toy_url twice_model.
Proof.
  unfold rust_model, twice_model. rewrite twice_is_trained. cbn [m_created m_baselines m_indexes stored_indexes map fst snd]. csplit.
  - settle.
  - cbn. settle.
  - unfold rust_map. csplit; [reflexivity|repeat constructor; cbn; intuition discriminate|]. constructor; [|constructor; [|constructor]]; cbn [fst snd]; (split; [settle|]);
    unfold rust_index, stored_index, diff_times; cbn [i_created i_train i_sources i_index i_lines i_bytes ix_sources ix_batches ix_lines ix_bytes fst snd]; csplit;
      try (apply C82_can_be_saved; [reflexivity|repeat constructor]); cbn; settle.
Qed.
Lemma twice_pieces : live_pieces (real_tok ascii_word) (loaded_search byte_hash false) run_open error_e (mode false) (loaded_indexes twice_model) new_content (MainModel.listing run_tree (fun _ => Fail (lit "no network")) new_content) = Val (map Row run_rows).
Proof.
  rewrite (pieces_same (real_tok ascii_word) _ (real_search byte_hash false) run_open error_e (mode false) (loaded_indexes twice_model) twice_trained).
  - vm_compute. reflexivity.
  - apply (stored_answers byte_hash false diff_times).
    + rewrite twice_is_trained. repeat constructor; cbn [In map fst]; intuition discriminate.
    + reflexivity.
    + destruct twice_rust as (_ & _ & _ & _ & R). eapply Forall_impl; [|exact R]. now intros e [].
Qed.
Example C98_example : exists out, run_main None None (CmdDiff [lit "old"; lit "old"] (lit "new")) no_disk out Success no_disk /\
  written P_Page.ex_up (printed out) = Some (lit "   1 | service started in 7 seconds" ++ [10] ++ lit "99 3 | disk failure detected" ++ [10] ++ lit "   3 | all is well" ++ [10] ++ lit " -> No baselines for local: /extra.txt" ++ [10]).
Proof.
  exists (map Out (map Row run_rows)). split; [|vm_compute; reflexivity].
  replace (map Out (map Row run_rows)) with (([] ++ map Out (map Row run_rows) ++ []) ++ []) by (now rewrite !app_nil_r).
  apply Main with (o := Success). cbn [run CliModel.process map]. constructor. change (from_input a_directory toy_url (fun _ => true) (fun _ => None) (input_from_string (lit "new"))) with (Val new_content). cbn [try get_contents].
  constructor. change (from_input a_directory toy_url (fun _ => true) (fun _ => None) (input_from_string (lit "old"))) with (Val (CDirectory (Local 0 (lit "old")) : content (@StoreModel.build bytes))). cbn [try get_contents].
  constructor. change (from_input a_directory toy_url (fun _ => true) (fun _ => None) (input_from_string (lit "old"))) with (Val (CDirectory (Local 0 (lit "old")) : content (@StoreModel.build bytes))). cbn [try].
  econstructor.
  - replace (@nil said) with (train_says (real_tok ascii_word) run_open error_e false twice_groups) by (vm_compute; reflexivity).
    eapply Trained with (m := twice_trained) (times := diff_times); [vm_compute; reflexivity|reflexivity|vm_compute; reflexivity|reflexivity|exact twice_rust].
  - cbn [try keep_model inspect]. apply DoesLive with (r := Val tt); [|constructor]. apply LivePrinted. exact twice_pieces.
Qed.
Example C98_example_alike : alike (real_tok ascii_word) run_name (fun _ => false) run_bytes [old_service; old_messages] [old_messages; old_service; old_service] /\
  incl [old_service] [old_service; old_messages] /\ run_name old_service = run_name new_service /\ run_name old_messages <> run_name old_service.
Proof.
  csplit.
  - split; [intros n; split; intros (b & B1 & B2); exists b|intros n t; split; intros (b & y & B1 & B2 & B3 & B4); exists b, y]; cbn [In] in *; tauto.
  - intros x [<-|[]]; now left.
  - vm_compute; reflexivity.
  - vm_compute; discriminate.
Qed.

Print Assumptions C98_alike.
Print Assumptions C98_order.
Print Assumptions C98_more.
Print Assumptions C98_single_name.
