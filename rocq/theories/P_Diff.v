(** A comparison of two logs, from the command line to the standard output: C90. *)
From Coq Require Import String List NArith ZArith PeanoNat Bool Lia Permutation.
From Verif Require Import Common CommonFacts IterModel IterSpec IterMain P_Iter ProcModel ProcSpec ProcStopSpec ProcExactSpec P_Proc P_ProcExact TokSpec TokRe P_Tok ProcRefute FilesModel FilesSpec FilesSources CliModel IndexModel IndexSpec P_Index
  MatModel ReportModel ReportSpec ReportProofs ReportMore P_Report P_Compare P_Noise CacheSpec StoreModel StoreSpec StoreProofs P_Store MatSpec MatProofs P_Mat HtmlModel ShownModel RenderModel OutModel P_Out SavedModel P_Saved MainModel MainSpec P_Main DiffSpec.
From Verif Require P_Cache P_Html P_Page.
Import ListNotations.
Open Scope string_scope.
Open Scope list_scope.
Open Scope N_scope.
Ltac csplit := repeat match goal with |- _ /\ _ => split end.

(** ** Lines *)
Lemma plain_lines json c : Forall (fun x => N.of_nat (length (fst x)) <= 5999) (segments json c) -> filter deliverable (segments json c) = lines_of_log json c.
Proof.
  unfold lines_of_log. induction 1 as [|[[|b r] n] l H _ IH]; [reflexivity|exact IH|]. cbn [filter]. rewrite IH. unfold deliverable. cbn [fst] in *.
  now replace (N.of_nat (length (b :: r)) <=? 6000) with true by (symmetry; apply N.leb_le; lia).
Qed.
Lemma plain_items open s c json : has_bytes open s c -> plain_log json c -> exists items, open s = Val items /\ items json = ok_items (lines_of_log json c).
Proof.
  intros (ovf & chunks & R & <- & items & O & I) (P & _). exists items. split; [exact O|]. rewrite I, C01_split_exact; [|exact R|now apply short_no_long_pending].
  cbn [fst]. now rewrite plain_lines.
Qed.
Lemma good_ok lines : all_valid lines -> good_prefix (ok_items lines) = lines.
Proof. induction 1 as [|[b n] l H _ IH]; [reflexivity|]. change (ok_items ((b, n) :: l)) with (ILine b n :: ok_items l). cbn [good_prefix fst] in *. now rewrite H, IH. Qed.
Lemma plain_markers json c : plain_log json c -> no_marker (lines_of_log json c).
Proof.
  intros (_ & _ & M). eapply Forall_impl; [|exact M]. intros x Hx. unfold is_marker. destruct (contains _ _) eqn:E; [|reflexivity]. apply infix_ok in E. contradiction.
Qed.

(** ** Text *)
Section Shown.
Variable up : N -> bool.
Definition row_text (r : @rline F) : bytes := match live_text up (Printed r) with Some t => t | None => [] end.
Definition rows_text (l : list (@rline F)) : bytes := flat_map (fun r => row_text r ++ [10]) l.
Lemma rows_text_app a b : rows_text (a ++ b) = rows_text a ++ rows_text b.
Proof. apply flat_map_app. Qed.
Lemma printed_text (l : list (@rline F)) texts : Forall2 (fun row t => live_text up row = Some t) (map Printed l) texts -> flat_map (fun t => t ++ [10]) texts = rows_text l.
Proof.
  revert texts. induction l as [|r l IH]; intros texts H; inversion H as [|? t ? texts' E F]; subst; [reflexivity|]. cbn [flat_map rows_text]. rewrite (IH _ F). unfold row_text at 1. now rewrite E.
Qed.
Lemma printed_texts (l : list (@rline F)) : Forall2 (fun row t => live_text up row = Some t) (map Printed l) (map row_text l).
Proof. induction l as [|r l IH]; constructor; [now destruct r|exact IH]. Qed.
Lemma context_rows xs : forall n, rows_text (print_context n xs) = context_text n xs.
Proof.
  induction xs as [|x xs IH]; intros n; [reflexivity|]. cbn [print_context context_text]. rewrite <- IH. cbn [rows_text flat_map]. unfold row_text at 1. cbn [live_text]. now rewrite <- !app_assoc.
Qed.
Lemma print_rows last (c : @actx F) : exists sep, fst (print_anomaly last c) = sep ++ print_context (DiffSpec.first_number c) (ProcModel.before c) ++ [Anom (ProcModel.distance c) (apos c) (aline c)] ++ print_context (apos c) (ProcModel.after c) /\
  sep = match last with Some p => if p =? DiffSpec.first_number c then [] else [Hr] | None => [] end /\ snd (print_anomaly last c) = end_number c.
Proof.
  unfold print_anomaly, DiffSpec.first_number, end_number. cbn [fst snd].
  replace (if 1 + N.of_nat (length (ProcModel.before c)) <? apos c then apos c - (1 + N.of_nat (length (ProcModel.before c))) else 0) with (apos c - (1 + N.of_nat (length (ProcModel.before c)))).
  - eexists. csplit; reflexivity.
  - destruct (_ <? _) eqn:E; [reflexivity|]. apply N.ltb_ge in E. lia.
Qed.
Lemma anomaly_rows (c : @actx F) : rows_text (print_context (DiffSpec.first_number c) (ProcModel.before c) ++ [Anom (ProcModel.distance c) (apos c) (aline c)] ++ print_context (apos c) (ProcModel.after c)) = anomaly_text up c.
Proof. rewrite !rows_text_app, !context_rows. unfold anomaly_text. cbn [rows_text flat_map]. unfold row_text. cbn [live_text]. rewrite app_nil_r, <- !app_assoc. reflexivity. Qed.
Lemma next_rows cs : forall p, rows_text (print_anomalies (Some p) cs) = next_text up p cs.
Proof.
  induction cs as [|c cs IH]; intros p; [reflexivity|]. cbn [print_anomalies next_text]. destruct (print_rows (Some p) c) as (sep & E1 & E2 & E3).
  destruct (print_anomaly (Some p) c) as [o q]. cbn [fst snd] in *. subst o q sep. rewrite rows_text_app, IH, rows_text_app, anomaly_rows, <- app_assoc. f_equal. now destruct (p =? _).
Qed.
Lemma diff_rows cs : rows_text (print_anomalies None cs) = diff_text up cs.
Proof.
  destruct cs as [|c cs]; [reflexivity|]. cbn [print_anomalies diff_text]. destruct (print_rows None c) as (sep & E1 & E2 & E3).
  destruct (print_anomaly None c) as [o q]. cbn [fst snd] in *. subst o q sep. rewrite rows_text_app, next_rows. cbn [app]. now rewrite anomaly_rows.
Qed.
End Shown.

Lemma context_anom xs d n x : forall k, ~ In (Anom d n x) (print_context (D := F) k xs).
Proof. induction xs as [|y xs IH]; intros k; [intros []|]. intros [H|H]; [discriminate|]. now apply IH in H. Qed.
Lemma printed_anom (cs : list (@actx F)) d n x : forall last, In (Anom d n x) (print_anomalies last cs) <-> exists c, In c cs /\ d = ProcModel.distance c /\ n = apos c /\ x = aline c.
Proof.
  induction cs as [|c cs IH]; intros last; cbn [print_anomalies]; [split; [intros []|intros (c & [] & _)]|].
  destruct (print_rows last c) as (sep & E1 & E2 & _). destruct (print_anomaly last c) as [o q]. cbn [fst] in E1. subst o. rewrite in_app_iff, IH. split.
  - intros [H|(c' & H & K)]; [|exists c'; split; [now right|exact K]]. exists c. split; [now left|]. rewrite !in_app_iff in H. destruct H as [H|[H|[[H|[]]|H]]].
    + subst sep. destruct last as [p|]; [|destruct H]. destruct (p =? _); [destruct H|]. destruct H as [H|[]]. discriminate.
    + now apply context_anom in H.
    + injection H as <- <- <-. auto.
    + now apply context_anom in H.
  - intros (c' & [<-|H] & K); [|right; eauto]. left. destruct K as (-> & -> & ->). rewrite !in_app_iff. right. right. left. now left.
Qed.

(** ** Names *)
Lemma drop_none t : drop_bytes 0 t = Some t.
Proof. now destruct t. Qed.
Section Names.
Context {Date : Type}.
Variable kind_of : text -> path_kind.
Variable parse_url : text -> option text.
Variable has_authority : text -> bool.
Variable from_zuul_url : text -> option (res (content (@StoreModel.build Date))).
Notation get_content := (from_input kind_of parse_url has_authority from_zuul_url).
Notation is_build := (fun u => match from_zuul_url u with Some _ => true | None => false end).
Lemma names_content t s : names kind_of parse_url has_authority is_build t s -> get_content (input_from_string t) = Val (CFile s).
Proof.
  intros [t0 Np K|t0 u Pp E A Z S]; unfold input_from_string.
  - destruct (starts_with _ t0) eqn:X; [apply prefix_ok in X; contradiction|]. cbn [from_input]. unfold from_path. now rewrite K.
  - apply prefix_ok in Pp. rewrite Pp. cbn [from_input]. rewrite E. unfold from_url. rewrite A. cbn [negb]. destruct (from_zuul_url u); [discriminate|]. destruct (ends_with _ u) eqn:X; [apply suffix_ok in X; contradiction|reflexivity].
Qed.
Lemma names_relative t s : names kind_of parse_url has_authority is_build t s -> get_relative s = Some (full_name s).
Proof. intros [t0 _ _|t0 u _ _ _ _ _]; cbn [get_relative]; rewrite drop_none; now rewrite as_str_full. Qed.
End Names.
Lemma json_is s json rel : get_relative s = Some rel -> rel = full_name s -> json_named s json -> is_json s = Some json.
Proof.
  intros E -> [J1 J2]. unfold is_json. rewrite E. cbn [option_map]. f_equal. destruct json, (ends_with _ (full_name s)) eqn:X; try reflexivity.
  - assert (Y := J1 eq_refl). apply suffix_ok in Y. congruence.
  - apply suffix_ok in X. now apply J2 in X.
Qed.

(** ** The comparison *)
Section Diff.
Variables (hash : bytes -> N) (fused checked : bool) (word_char : N -> bool).
Variable enc_write : list bytes -> bytes -> bytes.
Variable enc_finish : list bytes -> bytes.
Variable gunzip : bytes -> bytes * bool.
Context {Date : Type}.
Variable show_date : Date -> bytes.
Variable parse_date : bytes -> option Date.
Variable url_text : bytes -> option bytes.
Variables (up : N -> bool) (has_year : Z -> bool) (write : bytes -> bytes) (checks : bool) (fixed_parts : fixed).
Notation build := (@StoreModel.build Date).
Variable kind_of : text -> path_kind.
Variable parse_url : text -> option text.
Variable has_authority : text -> bool.
Variable from_zuul_url : text -> option (res (content build)).
Variable discover : content build -> res (list (content build)).
Variable discovery : content build -> list bytes.
Variable tree : bytes -> FilesModel.node.
Variable crawl : text -> res (list text).
Variable open : source -> res (bool -> list item).
Variable err_text : option N -> text.
Variable tty : bool.
Variable show_path : bytes -> bytes.
Variable cache : bool.
Notation tok := (real_tok word_char).
Notation get_content := (from_input kind_of parse_url has_authority from_zuul_url).
Notation listing := (@MainModel.listing Date tree crawl).
Notation trains := (trains hash checked tok show_date parse_date url_text tree crawl open err_text tty).
Notation main := (main hash fused checked tok enc_write enc_finish gunzip show_date parse_date url_text up has_year write checks fixed_parts get_content discover discovery tree crawl open err_text tty show_path cache).
Notation names := (names kind_of parse_url has_authority (fun u => match from_zuul_url u with Some _ => true | None => false end)).

Lemma file_sources s : ~ excluded s -> get_sources (listing (CFile s)) = Val [s].
Proof. intros H. apply is_valid_ok in H. unfold get_sources. cbn [MainModel.listing file_iter filter]. rewrite H. reflexivity. Qed.

(** The model of one log: its index is the only one, and its lines are those of the log. *)
Lemma train_one t s c json : names t s -> ~ excluded s -> json_named s json -> has_bytes open s c -> plain_log json c ->
  exists n ix, (forall g, Permutation g [(n, [s])] -> train_all tok open g = Val [(n, ix)]) /\ group_sources (map listing [CFile s]) = Val [(n, [s])] /\
    concat (ix_batches ix) = firsts [] (map (fun x => tok (fst x)) (lines_of_log json c)).
Proof.
  intros Hn He Hj Hb Hp. pose proof (names_relative _ _ _ _ _ _ Hn) as R. pose proof (json_is _ _ _ R eq_refl Hj) as J.
  destruct (plain_items _ _ _ _ Hb Hp) as (items & O & I).
  destruct (index_train tok open [s]) as [ix|e|] eqn:E; [|exfalso; unfold index_train in E; rewrite J in E; cbn [train_group] in E; rewrite O in E; discriminate..].
  exists (index_name (full_name s)), ix. csplit.
  - intros g P. apply Permutation_sym, Permutation_length_1_inv in P. subst g. cbn [train_all]. now rewrite E.
  - unfold group_sources. cbn [map group_sources_go]. rewrite (file_sources s He). cbn [group_all]. rewrite R. reflexivity.
  - apply index_train_ok in E. destruct E as (_ & json' & its & J' & F & K & _). rewrite (J' s [] eq_refl) in J. injection J as ->.
    inversion F as [|? it ? r F1 F2]; subst. inversion F2; subst. rewrite O in F1. injection F1 as <-. cbn [map concat] in K. rewrite app_nil_r, I in K. rewrite good_ok in K; [exact K|apply Hp].
Qed.

(** A log that can be read: tracing says nothing. *)
Lemma first_error_ok lines : all_valid lines -> first_error (ok_items lines) = None.
Proof. induction 1 as [|[b n] l H _ IH]; [reflexivity|]. change (ok_items ((b, n) :: l)) with (ILine b n :: ok_items l). cbn [first_error fst] in *. now rewrite H. Qed.
Lemma says_one t s c json b m : names t s -> ~ excluded s -> json_named s json -> has_bytes open s c -> plain_log json c -> trains [CFile s] b (Val m) -> forall l msg, ~ In (Log l msg) b.
Proof.
  intros Hn He Hj Hb Hp Tr l msg. pose proof (names_relative _ _ _ _ _ _ Hn) as R. pose proof (json_is _ _ _ R eq_refl Hj) as J.
  destruct (plain_items _ _ _ _ Hb Hp) as (items & O & I). destruct (train_one t s c json Hn He Hj Hb Hp) as (n & ix & _ & G & _).
  inversion Tr as [g g' m' times now ixs G' P' T' Q' R'| | | |]; subst. cbn [map] in *. rewrite G in G'. injection G' as <-. apply Permutation_sym, Permutation_length_1_inv in P'. subst g'.
  cbn [train_says group_says is_json_group]. rewrite J, O, I, first_error_ok by apply Hp. cbn [app]. rewrite in_app_iff. intros [X|X].
  - apply in_map_iff in X. destruct X as (p & X & _). discriminate.
  - destruct (index_train _ _ _); destruct X.
Qed.
(** The distance to the lines of the first log *)
Definition away (json : bool) (c : bytes) : bytes -> F := real_dist hash fused [map (fun x => tok (fst x)) (lines_of_log json c)].

Theorem C90_diff : forall a b sa sb A B ja jb s out o s', names a sa -> names b sb -> ~ excluded sa -> ~ excluded sb -> json_named sa ja -> json_named sb jb ->
  has_bytes open sa A -> has_bytes open sb B -> plain_log ja A -> plain_log jb B ->
  main None None (CmdDiff [a] b) s out o s' ->
  o = Success /\ s' = s /\ exists positions cs,
    enumerates above_threshold tok (away ja A) [] (lines_of_log jb B) positions /\
    Forall2 (describes tok (away ja A) (lines_of_log jb B)) cs positions /\
    exact_contexts above_threshold tok (away ja A) [] (lines_of_log jb B) cs positions /\
    (exists texts, Forall2 (fun row t => live_text up row = Some t) (findings out) texts /\ flat_map (fun t => t ++ [10]) texts = diff_text up cs) /\
    (forall d n x, In (Printed (Anom d n x)) (findings out) <-> exists c, In c cs /\ d = ProcModel.distance c /\ n = apos c /\ x = aline c) /\
    (forall l msg, ~ In (Log l msg) out) /\
    (tty = false -> written up (printed out) = Some (diff_text up cs)).
Proof.
  intros a b sa sb A B ja jb s out o s' Na Nb Ea Eb Ja Jb Ha Hb Pa Pb H.
  destruct (train_one a sa A ja Na Ea Ja Ha Pa) as (n & ix & T & G & K).
  inversion H as [out' o' s1 D]; subst. rewrite (run_analyses cache _ _ _ _ _ (AnalysesDiff [a] b)) in D. cbn [map] in D.
  apply does_process in D. destruct D as [(c & m & b1 & b2 & out2 & s1 & Ec & U & Kp & D & ->)|(N & _)].
  2: { exfalso. unfold stopped in N. rewrite (names_content _ _ _ _ _ _ Nb) in N. destruct N as [N _]. inversion N as [? X|? X|X Y|is X Y Z|l b' r X Y Z W|? X]; subst; try discriminate.
    - injection Y as <-. apply (Z [CFile sa]). repeat constructor. now apply names_content.
    - destruct Y as [[Y _]|(is & [= <-] & Y)]; [discriminate|]. inversion Y as [|? c' ? l' F1 F2]; subst. inversion F2; subst. rewrite (names_content _ _ _ _ _ _ Na) in F1. injection F1 as <-.
      inversion Z as [? ? ? ? ? ? _ _ _ _ _|g g' e G' P' T'|g g' G' P' T'|e G'|G']; subst; [now apply (W _ eq_refl)| | | |]; cbn [map] in *; rewrite G in G'; try discriminate; injection G' as <-; apply T in P'; congruence. }
  rewrite (names_content _ _ _ _ _ _ Nb) in Ec. injection Ec as <-.
  assert (s1 = s /\ b2 = []) as [-> ->] by (inversion Kp; subst; [now split|discriminate]).
  pose proof U as Q. apply uses_quiet in Q. destruct Q as [Q1 Q2].
  inversion U as [? ? X|? ? ? _ X|is l b' m' _ X Fl Tr]; subst; try discriminate. injection X as <-. inversion Fl as [|? c' ? l' F1 F2]; subst. inversion F2; subst. rewrite (names_content _ _ _ _ _ _ Na) in F1. injection F1 as <-.
  pose proof (says_one a sa A ja _ _ Na Ea Ja Ha Pa Tr) as Lg. apply (trained_answers hash fused) in Tr. destruct Tr as (drain & tm & Dp & Tm & _ & An).
  assert (tm = [(n, ix)]) as -> by (unfold model_train in Tm; rewrite G in Tm; rewrite (T (drain [(n, [sa])]) (Dp _)) in Tm; congruence).
  apply does_live in D. destruct D as [-> L].
  destruct (plain_items _ _ _ _ Hb Pb) as (items & O & I). pose proof (names_relative _ _ _ _ _ _ Nb) as R. pose proof (json_is _ _ _ R eq_refl Jb) as J.
  set (lines := lines_of_log jb B) in *.
  assert (Pw : pointwise (real_search hash fused (ix_batches ix)) (away ja A)).
  { intros ts. unfold real_search. rewrite (C20_training_order_irrelevant hash fused (ix_batches ix) [map (fun x => tok (fst x)) (lines_of_log ja A)]); [apply (real_pointwise hash fused)|].
    intros t. rewrite K. cbn [concat]. rewrite app_nil_r. rewrite (proj1 (proj2 (C18_firsts_meaning _ _)) t). cbn [In]. intuition. }
  destruct (C12_exact _ above_threshold tok (real_search hash fused (ix_batches ix)) (away ja A) [] lines Pw) as (cs & final & positions & E1 & E2 & E3 & E4); [apply Pb|now apply plain_markers|].
  rewrite (pieces_same tok _ _ open err_text (mode tty) _ _ (CFile sb) (listing (CFile sb)) An) in L.
  assert (Gp : get_processor open sb = Val (ok_items lines)) by (unfold get_processor; now rewrite R, O, J, I).
  assert (Gi : get_index [(n, ix)] (index_name (full_name sb)) = Some ix) by (unfold get_index, lookup_or_single; cbn [hm_get map snd]; now destruct (eqb_list _ _)).
  unfold live_pieces in L. rewrite (file_sources sb Eb) in L. cbn [live_loop] in L. rewrite R, Gi in L. unfold inspecting, source_text in L. rewrite R in L. cbn [option_map] in L. rewrite Gp, E1 in L. cbn [stop_error] in L. cbv zeta in L.
  cbn [content_text] in L. unfold source_text in L. rewrite R in L. cbn [option_map] in L.
  destruct L as [-> ->].
  match goal with |- context [map Out ?x] => set (ps := x) end.
  assert (Ep : rows_of ps = map Printed (print_anomalies None cs) /\ (tty = false -> ps = map Row (map Printed (print_anomalies None cs)))).
  { subst ps. rewrite !app_nil_r. split.
    - rewrite !rows_app, !progress_rows, rows_rows. cbn [app]. destruct (map Printed _) as [|r0 rs], tty; cbn; now rewrite ?app_nil_r.
    - intros ->. unfold mode. cbn [output_mode progress inlined andb app].
      rewrite app_nil_r. now destruct (map Printed _). }
  destruct Ep as [Rw Qt].
  assert (Fi : findings (b1 ++ [] ++ map Out ps) = map Printed (print_anomalies None cs)) by (now rewrite !findings_app, Q1, findings_out).
  csplit; try reflexivity. exists positions, cs. rewrite app_nil_r. rewrite Fi. csplit; auto.
  - exists (map (row_text up) (print_anomalies None cs)). split; [apply printed_texts|]. rewrite <- diff_rows. apply printed_text, printed_texts.
  - intros d k x. rewrite <- (printed_anom cs d k x None). split; [|intros X; apply (in_map Printed); exact X]. intros X. apply in_map_iff in X. destruct X as (r & [= ->] & X). exact X.
  - intros l msg X. rewrite app_nil_l, in_app_iff in X. destruct X as [X|X]; [now apply Lg in X|]. apply in_map_iff in X. destruct X as (p & X & _). discriminate.
  - intros Et. rewrite app_nil_l, printed_app, (Q2 Et), printed_out, (Qt Et). cbn [app]. rewrite (written_rows up _ _ (printed_texts up _)), (printed_text up _ _ (printed_texts up _)), diff_rows. reflexivity.
Qed.

(** No line of the second log is found that has the tokenized form of a line of the first one. *)
Theorem C90_known : forall a b sa sb A B ja jb s out o s' d n x y, names a sa -> names b sb -> ~ excluded sa -> ~ excluded sb -> json_named sa ja -> json_named sb jb ->
  has_bytes open sa A -> has_bytes open sb B -> plain_log ja A -> plain_log jb B ->
  main None None (CmdDiff [a] b) s out o s' ->
  In (Printed (Anom d n x)) (findings out) -> In (x, n) (lines_of_log jb B) /\ (In y (lines_of_log ja A) -> tok (fst y) <> tok x).
Proof.
  intros a b sa sb A B ja jb s out o s' d n x y Na Nb Ea Eb Ja Jb Ha Hb Pa Pb H I.
  destruct (C90_diff a b sa sb A B ja jb s out o s' Na Nb Ea Eb Ja Jb Ha Hb Pa Pb H) as (_ & _ & positions & cs & E1 & E2 & _ & _ & E4 & _).
  apply E4 in I. destruct I as (c & Ic & -> & -> & ->). destruct (forall2_in_l _ _ _ _ E2 Ic) as (i & Ii & D1 & D2). split; [eapply nth_error_In; exact D1|].
  intros Iy Et. apply (proj2 E1) in Ii. destruct Ii as [_ (b' & nr & B1 & B2)]. rewrite D1 in B1. injection B1 as <- <-. unfold away in B2. rewrite real_known in B2; [discriminate|].
  cbn [concat]. rewrite app_nil_r, <- Et. now apply (in_map (fun x => tok (fst x))).
Qed.
(** If all lines of the second log are known, nothing is found; in a file or a pipe nothing is written. *)
Theorem C90_nothing : forall a b sa sb A B ja jb s out o s', names a sa -> names b sb -> ~ excluded sa -> ~ excluded sb -> json_named sa ja -> json_named sb jb ->
  has_bytes open sa A -> has_bytes open sb B -> plain_log ja A -> plain_log jb B ->
  (forall x, In x (lines_of_log jb B) -> exists y, In y (lines_of_log ja A) /\ tok (fst y) = tok (fst x)) ->
  main None None (CmdDiff [a] b) s out o s' -> findings out = [] /\ (tty = false -> written up (printed out) = Some []).
Proof.
  intros a b sa sb A B ja jb s out o s' Na Nb Ea Eb Ja Jb Ha Hb Pa Pb Hk H.
  destruct (C90_diff a b sa sb A B ja jb s out o s' Na Nb Ea Eb Ja Jb Ha Hb Pa Pb H) as (_ & _ & positions & cs & E1 & E2 & _ & (texts & T1 & T2) & E4 & _ & E5).
  assert (cs = []) as ->.
  { destruct cs as [|c cs]; [reflexivity|exfalso]. assert (I : In (Printed (Anom (ProcModel.distance c) (apos c) (aline c))) (findings out)) by (apply E4; exists c; split; [now left|auto]).
    pose proof (fun y => C90_known a b sa sb A B ja jb s out o s' _ _ _ y Na Nb Ea Eb Ja Jb Ha Hb Pa Pb H I) as K. destruct (K (aline c, apos c)) as [K1 _]. destruct (Hk _ K1) as (y & Y1 & Y2). destruct (K y) as [_ K2]. now apply K2. }
  split; [|exact E5]. destruct (findings out) as [|r rs]; [reflexivity|]. inversion T1 as [|? t ? ts X Y]; subst. cbn [flat_map diff_text] in T2. destruct t; discriminate.
Qed.
(** A line that has no word of the first log, not even up to collisions of hashes, is found, or a line of
    the same tokenized form before it. *)
Theorem C90_new : forall a b sa sb A B ja jb s out o s' x, names a sa -> names b sb -> ~ excluded sa -> ~ excluded sb -> json_named sa ja -> json_named sb jb ->
  has_bytes open sa A -> has_bytes open sb B -> plain_log ja A -> plain_log jb B ->
  main None None (CmdDiff [a] b) s out o s' ->
  In x (lines_of_log jb B) -> (forall y, In y (lines_of_log ja A) -> ~ share_bucket hash (tok (fst y)) (tok (fst x))) ->
  exists d n x', In (Printed (Anom d n x')) (findings out) /\ tok x' = tok (fst x).
Proof.
  intros a b sa sb A B ja jb s out o s' x Na Nb Ea Eb Ja Jb Ha Hb Pa Pb H Ix Hn.
  destruct (C90_diff a b sa sb A B ja jb s out o s' Na Nb Ea Eb Ja Jb Ha Hb Pa Pb H) as (_ & _ & positions & cs & E1 & E2 & _ & _ & E4 & _).
  assert (Hf : exists i x', nth_error (lines_of_log jb B) i = Some x' /\ tok (fst x') = tok (fst x) /\ forall j y, (j < i)%nat -> nth_error (lines_of_log jb B) j = Some y -> tok (fst y) <> tok (fst x)).
  { clear - Ix. induction (lines_of_log jb B) as [|y l IH]; [destruct Ix|]. destruct (list_eq_dec N.eq_dec (tok (fst y)) (tok (fst x))) as [E|E].
    - exists 0%nat, y. csplit; [reflexivity|exact E|]. intros j z Hj. lia.
    - destruct Ix as [->|Ix]; [congruence|]. destruct (IH Ix) as (i & x' & I1 & I2 & I3). exists (S i), x'. csplit; auto. intros [|j] z Hj Hz; [injection Hz as <-; exact E|]. apply (I3 j); [lia|exact Hz]. }
  destruct Hf as (i & [x' nx] & I1 & I2 & I3). cbn [fst] in I2.
  assert (Ii : In i positions).
  { apply (proj2 E1). split.
    - exists x', nx. csplit; auto. intros j b' nr' Hj Hb'. rewrite I2. exact (I3 j (b', nr') Hj Hb').
    - exists x', nx. split; [exact I1|]. rewrite I2. destruct (C22_nothing_shared hash fused [map (fun x => tok (fst x)) (lines_of_log ja A)] (tok (fst x))) as [E K].
      + cbn [concat]. rewrite app_nil_r. intros t It. apply in_map_iff in It. destruct It as (y & <- & Iy). now apply Hn.
      + unfold hashing_search in E. rewrite (search_pointwise hash fused _ [_]) in E. cbn [map] in E. injection E as E. unfold away, real_dist. rewrite E. exact K. }
  destruct (forall2_in_r _ _ _ _ E2 Ii) as (c & Ic & D1 & D2). rewrite I1 in D1. injection D1 as Ex En.
  exists (ProcModel.distance c), (apos c), (aline c). split; [apply E4; eauto 8|]. congruence.
Qed.
End Diff.

(** ** A case that meets the hypotheses *)
Definition old_log := lit "service started in 12 seconds" ++ [10] ++ lit "all is well" ++ [10].
Definition new_log := lit "service started in 7 seconds" ++ [10; 10] ++ lit "disk failure detected" ++ [10] ++ lit "all is well" ++ [10].
Definition two_logs (s : source) : res (bool -> list item) :=
  match s with Local _ p => if eqb_list p (lit "old.log") then read_file old_log else read_file new_log | Remote _ _ => Fail (lit "no network") end.
Definition a_file (t : text) := KFile.
Definition diff_kind : input -> res (content (@StoreModel.build bytes)) := from_input a_file toy_url (fun _ => true) (fun _ => None).
Definition diff_main := MainModel.main byte_hash false true (real_tok ascii_word) P_Cache.toy_write P_Cache.toy_finish P_Cache.toy_gunzip (fun d : bytes => d) toy_url toy_url P_Page.ex_up P_Page.ex_years P_Html.verbatim true P_Html.ex_fixed
  diff_kind (fun _ => Fail (lit "no baseline")) (fun _ => []) runs (fun _ => Fail (lit "no network")) two_logs error_e false (fun p => p) false.
Definition diff_source := Local 0 (lit "old.log").
Definition diff_trained : ReportModel.model := match index_train (real_tok ascii_word) two_logs [diff_source] with Val ix => [(index_name (lit "old.log"), ix)] | _ => [] end.
Definition diff_times : text -> StoreModel.system_time * StoreModel.duration := fun _ => ((1680000000%Z, 6), (1, 0)).
Definition diff_model : @StoreModel.model csmat bytes := mkModel (1680000000%Z, 5) [CFile diff_source] (stored_indexes byte_hash diff_times diff_trained).
Definition diff_index := ReportModel.mkIndex [diff_source] [[lit "service started %ID seconds"; lit "well"]] 2 40.
Lemma diff_is_trained : diff_trained = [(lit "old.log", diff_index)].
Proof. vm_compute. reflexivity. Qed.
Lemma diff_rust : rust_model (fun x => MatSpec.fits x /\ (true = true -> well_formed x = true)) (fun d : bytes => d) toy_url toy_url diff_model.
Proof.
  unfold rust_model, diff_model. rewrite diff_is_trained. cbn [m_created m_baselines m_indexes stored_indexes map fst snd]. csplit.
  - settle.
  - cbn. settle.
  - unfold rust_map. csplit; [reflexivity|repeat constructor; cbn; intuition discriminate|]. constructor; [|constructor]. cbn [fst snd]. split; [settle|].
    unfold rust_index, stored_index, diff_index, diff_times. cbn [i_created i_train i_sources i_index i_lines i_bytes ix_sources ix_batches ix_lines ix_bytes fst snd]. csplit;
      try (apply C82_can_be_saved; [reflexivity|repeat constructor]); cbn; settle.
Qed.
Definition diff_rows_shown : list (@out_line F) :=
  [Printed (Ctx 1 (lit "service started in 7 seconds")); Printed (Anom f_one 3 (lit "disk failure detected")); Printed (Ctx 3 (lit "all is well"))].
Lemma diff_pieces : live_pieces (real_tok ascii_word) (loaded_search byte_hash false) two_logs error_e (mode false) (loaded_indexes diff_model) (CFile (Local 0 (lit "new.log")) : content (@StoreModel.build bytes)) [Val (Local 0 (lit "new.log"))] = Val (map Row diff_rows_shown).
Proof.
  rewrite (pieces_same (real_tok ascii_word) _ (real_search byte_hash false) two_logs error_e (mode false) (loaded_indexes diff_model) diff_trained).
  - vm_compute. reflexivity.
  - apply (stored_answers byte_hash false diff_times).
    + rewrite diff_is_trained. repeat constructor; cbn [In]; intuition discriminate.
    + reflexivity.
    + destruct diff_rust as (_ & _ & _ & _ & R). eapply Forall_impl; [|exact R]. now intros e [].
Qed.
Example C90_example : exists out, diff_main None None (CmdDiff [lit "old.log"] (lit "new.log")) no_disk out Success no_disk /\
  written P_Page.ex_up (printed out) = Some (lit "   1 | service started in 7 seconds" ++ [10] ++ lit "99 3 | disk failure detected" ++ [10] ++ lit "   3 | all is well" ++ [10]).
Proof.
  exists (map Out (map Row diff_rows_shown)). split; [|vm_compute; reflexivity].
  replace (map Out (map Row diff_rows_shown)) with (([] ++ map Out (map Row diff_rows_shown) ++ []) ++ []) by (now rewrite !app_nil_r).
  apply Main with (o := Success). cbn [run CliModel.process map]. constructor. change (diff_kind (input_from_string (lit "new.log"))) with (Val (CFile (Local 0 (lit "new.log")) : content (@StoreModel.build bytes))). cbn [try get_contents].
  constructor. change (diff_kind (input_from_string (lit "old.log"))) with (Val (CFile diff_source : content (@StoreModel.build bytes))). cbn [try].
  econstructor.
  - replace (@nil said) with (train_says (real_tok ascii_word) two_logs error_e false [(lit "old.log", [diff_source])]) by (vm_compute; reflexivity).
    eapply Trained with (m := diff_trained) (times := diff_times); [vm_compute; reflexivity|reflexivity|vm_compute; reflexivity|reflexivity|exact diff_rust].
  - cbn [try keep_model inspect]. apply DoesLive with (r := Val tt); [|constructor]. apply LivePrinted. exact diff_pieces.
Qed.
Lemma old_segments : segments false old_log = [(lit "service started in 12 seconds", 1); (lit "all is well", 2)].
Proof. vm_compute. reflexivity. Qed.
Lemma old_lines : lines_of_log false old_log = [(lit "service started in 12 seconds", 1); (lit "all is well", 2)].
Proof. vm_compute. reflexivity. Qed.
Lemma new_segments : segments false new_log = [(lit "service started in 7 seconds", 1); ([], 2); (lit "disk failure detected", 3); (lit "all is well", 4)].
Proof. vm_compute. reflexivity. Qed.
Lemma new_lines : lines_of_log false new_log = [(lit "service started in 7 seconds", 1); (lit "disk failure detected", 3); (lit "all is well", 4)].
Proof. vm_compute. reflexivity. Qed.
Ltac plain_lines_tac := csplit; repeat first [apply Forall_nil | apply Forall_cons]; cbn [fst];
  first [vm_compute; reflexivity | vm_compute; discriminate | (let X := fresh in intros X; apply infix_ok in X; vm_compute in X; discriminate)].
Example C90_example_logs : exists s1 s2, (forall t s, (t, s) = (lit "old.log", s1) \/ (t, s) = (lit "new.log", s2) ->
    names a_file toy_url (fun _ => true) (fun _ => false) t s /\ ~ excluded s /\ json_named s false) /\
  has_bytes two_logs s1 old_log /\ has_bytes two_logs s2 new_log /\ plain_log false old_log /\ plain_log false new_log.
Proof.
  exists diff_source, (Local 0 (lit "new.log")). csplit.
  - intros t s [H|H]; injection H as -> ->; csplit.
    1, 4: constructor; [|reflexivity]; intros X; apply prefix_ok in X; discriminate.
    1, 3: apply is_valid_ok; vm_compute; reflexivity.
    1, 2: split; [discriminate|]; intros X; apply suffix_ok in X; discriminate.
  - exists false, [old_log]. csplit; [repeat constructor; vm_compute; discriminate|reflexivity|]. eexists. split; [reflexivity|]. intros []; vm_compute; reflexivity.
  - exists false, [new_log]. csplit; [repeat constructor; vm_compute; discriminate|reflexivity|]. eexists. split; [reflexivity|]. intros []; vm_compute; reflexivity.
  - unfold plain_log. rewrite old_lines, old_segments. plain_lines_tac.
  - unfold plain_log. rewrite new_lines, new_segments. plain_lines_tac.
Qed.

Print Assumptions C90_diff.
Print Assumptions C90_known.
Print Assumptions C90_nothing.
Print Assumptions C90_new.
