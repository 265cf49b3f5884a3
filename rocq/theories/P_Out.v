(** Properties C83 and C84: what is written to the standard output. *)
From Coq Require Import String List NArith Arith Bool Lia Permutation Sorting.Sorted ZifyBool ZifyN ZifyNat.
From Verif Require Import IterModel Common CommonFacts FilesModel FilesSpec FilesSources CliModel IndexModel ProcModel ReportModel ReportSpec HtmlModel ShownModel
  HtmlPage ProcRefute P_Report OutModel OutSpec.
From Verif Require StoreModel HtmlSpec.
Import ListNotations.
Open Scope string_scope.
Open Scope list_scope.
Open Scope N_scope.

Ltac csplit := repeat match goal with |- _ /\ _ => split end.
Lemma all_texts_app {A} (f : A -> option bytes) l1 l2 : all_texts f (l1 ++ l2) =
  match all_texts f l1, all_texts f l2 with Some a, Some b => Some (a ++ b) | _, _ => None end.
Proof.
  induction l1 as [|x l1 IH]; cbn [app all_texts]; [now destruct (all_texts f l2)|]. rewrite IH. destruct (f x); [|reflexivity].
  destruct (all_texts f l1); [|reflexivity]. now destruct (all_texts f l2).
Qed.
Lemma written_app up l1 l2 : written up (l1 ++ l2) =
  match written up l1, written up l2 with Some a, Some b => Some (a ++ b) | _, _ => None end.
Proof.
  unfold written. rewrite all_texts_app. destruct (all_texts (piece_bytes up) l1); [|reflexivity]. destruct (all_texts (piece_bytes up) l2); [|reflexivity]. cbn [option_map]. now rewrite concat_app.
Qed.
Lemma written_cons up p l : written up (p :: l) = match piece_bytes up p, written up l with Some a, Some b => Some (a ++ b) | _, _ => None end.
Proof. unfold written. cbn [all_texts]. destruct (piece_bytes up p); [|reflexivity]. now destruct (all_texts (piece_bytes up) l). Qed.

Lemma written_progress up msg : written up [Progress msg] = Some (over_line msg).
Proof. rewrite written_cons. cbn [piece_bytes]. unfold written. cbn [all_texts option_map concat]. now rewrite app_nil_r. Qed.
Lemma written_erase up : written up [Erase] = Some erased.
Proof. reflexivity. Qed.

Section Out.
Context {Ix : Type} (up : N -> bool) (tok : bytes -> bytes) (search_of : Ix -> list bytes -> list F)
  (open : source -> res (bool -> list item)) (err_text : option N -> text).
Notation live_loop := (live_loop tok search_of open err_text).
Notation live_sources := (live_sources above_threshold tok search_of open err_text).
Notation process_live := (process_live above_threshold tok search_of open err_text).
Notation live_stdout := (live_stdout up tok search_of open err_text).
Notation live_text := (live_text up).
Notation written := (written up).

Lemma source_text_some s rel : get_relative s = Some rel -> exists t, source_text s = Some t.
Proof. intros H. unfold source_text. rewrite H. eexists. reflexivity. Qed.
Definition row_written (row : @out_line F) (t : bytes) : Prop := live_text row = Some t.
Lemma written_rows rows ts : Forall2 row_written rows ts -> written (map Row rows) = Some (flat_map (fun t => t ++ [10]) ts).
Proof.
  induction 1 as [|o t rows ts H _ IH]; [reflexivity|]. cbn [map flat_map]. rewrite written_cons, IH. cbn [piece_bytes]. unfold row_written in H. now rewrite H.
Qed.
Lemma printed_text (l : list (@rline F)) : exists ts, Forall2 row_written (map Printed l) ts.
Proof. induction l as [|x l [ts IH]]; [exists []; constructor|]. destruct x; eexists (_ :: ts); (constructor; [reflexivity|exact IH]). Qed.
Lemma message_text s rel e : get_relative s = Some rel -> exists t, live_text (CouldNotRead s e) = Some t.
Proof. intros H. destruct (source_text_some _ _ H) as [t T]. cbn [ShownModel.live_text]. rewrite T. eexists. reflexivity. Qed.

(** The rows of a source: what the loops of the two models share. *)
Definition source_rows (s : source) (l : list (@actx F)) (err : option (option N)) : list (@out_line F) :=
  map Printed (print_anomalies None l) ++ match err with Some e => [CouldNotRead s (err_text e)] | None => [] end.
Lemma source_rows_text s rel l err : get_relative s = Some rel -> exists ts, Forall2 row_written (source_rows s l err) ts.
Proof.
  intros H. destruct (printed_text (print_anomalies None l)) as [ts T]. unfold source_rows. destruct err as [e|]; [|exists ts; now rewrite app_nil_r].
  destruct (message_text s rel (err_text e) H) as [t M]. exists (ts ++ [t]). apply Forall2_app; [exact T|]. now constructor.
Qed.

Lemma loop_cases o m : forall sources shown,
  match live_sources m sources with
  | Val (out, n, k) => exists ps b, live_loop o m sources shown = Val (ps, n, k, b)
  | Fail e => live_loop o m sources shown = Fail e
  | Panic => live_loop o m sources shown = Panic
  end.
Proof.
  induction sources as [|s sources IH]; intros shown; [now exists [], shown|]. cbn [ReportModel.live_sources OutModel.live_loop].
  destruct (get_relative s) as [rel|] eqn:R; [|reflexivity]. destruct (source_text_some _ _ R) as [t T].
  destruct (get_index m (index_name rel)) as [ix|].
  - unfold inspecting. rewrite T. cbn [option_map]. destruct (get_processor open s) as [items|e|]; [|eauto|reflexivity].
    destruct (process_all above_threshold tok (search_of (ix_batches ix)) items []) as [[l stop] p]. destruct (stop_error stop) as [err|e|]; [|reflexivity|reflexivity].
    cbv zeta. set (found := inlined o && _). specialize (IH found). destruct (live_sources m sources) as [[[out n] k]|e|].
    + destruct IH as (ps & b & ->). eauto.
    + now rewrite IH.
    + now rewrite IH.
  - specialize (IH true). destruct (live_sources m sources) as [[[out n] k]|e|].
    + destruct IH as (ps & b & ->). eauto.
    + now rewrite IH.
    + now rewrite IH.
Qed.

Lemma loop_quiet o m : o <> FastTerminal -> forall sources shown out n k, live_sources m sources = Val (out, n, k) ->
  exists ts b, Forall2 row_written out ts /\ live_loop o m sources shown = Val (map Row out, n, k, b).
Proof.
  intros Q. assert (I : inlined o = false) by (now destruct o). assert (P : forall msg, progress o msg = []) by (intros msg; now destruct o).
  induction sources as [|s sources IH]; intros shown out n k H; cbn [ReportModel.live_sources OutModel.live_loop] in H |- *.
  - injection H as <- <- <-. exists [], shown. split; [constructor|reflexivity].
  - destruct (get_relative s) as [rel|] eqn:R; [|discriminate]. destruct (source_text_some _ _ R) as [t T].
    destruct (get_index m (index_name rel)) as [ix|].
    + unfold inspecting. rewrite T. cbn [option_map]. destruct (get_processor open s) as [items|e|]; [| |discriminate].
      * destruct (process_all above_threshold tok (search_of (ix_batches ix)) items []) as [[l stop] p]. destruct (stop_error stop) as [err|e|]; [|discriminate|discriminate].
        cbv zeta in *. rewrite I. cbn [andb]. destruct (live_sources m sources) as [[[out' n'] k']|e|]; try discriminate. injection H as <- <- <-.
        destruct (IH false _ _ _ eq_refl) as (ts & b & F & E). rewrite E, P. destruct (source_rows_text s rel l err R) as [ts' F']. exists (ts' ++ ts), b. split.
        -- rewrite app_assoc. now apply Forall2_app.
        -- f_equal. f_equal. f_equal. f_equal. unfold separator. rewrite I. cbn [andb app]. match goal with |- context [if ?x then [] else []] => replace (if x then [] else []) with (@nil piece) by (now destruct x) end. cbn [app]. now rewrite !map_app, <- app_assoc.
      * injection H as <- <- <-. destruct (message_text s rel e R) as [t' M]. exists [t'], false. split; [now constructor|]. now rewrite P.
    + destruct (live_sources m sources) as [[[out' n'] k']|e|]; try discriminate. injection H as <- <- <-. destruct (IH true _ _ _ eq_refl) as (ts & b & F & E). rewrite E.
      eexists (_ :: ts), b. split; [constructor; [|exact F]|reflexivity]. unfold row_written. cbn [ShownModel.live_text]. rewrite T. reflexivity.
Qed.

(** On a terminal. *)
Lemma on_lines_eq all last fresh rows x y : on_lines up all last fresh rows x -> x = y -> on_lines up all last fresh rows y.
Proof. now intros H <-. Qed.
Lemma about_incl (all about : list source) s : incl about all -> In s all -> incl (about ++ [s]) all.
Proof. intros A B x X. apply in_app_or in X. destruct X as [X|[<-|[]]]; auto. Qed.
Lemma rows_on_lines all last rows ts rest fresh about out nl : incl about all -> progress_about about out -> Forall2 row_written rows ts -> rows <> [] -> nl = [10] ->
  forall more, on_lines up all last true more rest ->
  on_lines up all last fresh (rows ++ more) (out ++ nl ++ flat_map (fun t => t ++ [10]) ts ++ rest).
Proof.
  intros A B H. revert fresh about out nl A B. induction H as [|row t rows ts H R IH]; intros fresh about out nl A B X NL more M; [congruence|]. subst nl.
  cbn [app flat_map]. rewrite <- !app_assoc. change (10 :: t ++ ?x) with ([10] ++ t ++ x). eapply OnRow; try eassumption; [now right|intros _; now left|].
  destruct rows as [|row' rows]; [inversion R; subst; exact M|]. clear X.
  assert (G : forall fresh rows ts, Forall2 row_written rows ts -> fresh = true -> on_lines up all last fresh (rows ++ more) (flat_map (fun t => t ++ [10]) ts ++ rest)).
  { clear - M. intros fresh rows ts H. revert fresh. induction H as [|row t rows ts H R IH]; intros fresh E; [subst; exact M|]. cbn [app flat_map]. rewrite <- !app_assoc.
    change (t ++ [10] ++ flat_map (fun t => t ++ [10]) ts ++ rest) with ([] ++ [] ++ t ++ [10] ++ flat_map (fun t => t ++ [10]) ts ++ rest).
    eapply OnRow with (about := []); [intros x []|constructor|now left|intros _; right; now split|exact H|now apply IH]. }
  now apply G.
Qed.
Lemma loop_fast m all last : forall sources shown ps out n k b fresh about w,
  incl sources all -> incl about all -> progress_about about w -> (about <> [] -> shown = false) ->
  live_sources m sources = Val (out, n, k) -> live_loop FastTerminal m sources shown = Val (ps, n, k, b) ->
  exists v, written ps = Some v /\
    on_lines up all last fresh out (w ++ v ++ (if b then [] else erased) ++ over_line last).
Proof.
  induction sources as [|s sources IH]; intros shown ps out n k b fresh about w S A B X H L; cbn [ReportModel.live_sources OutModel.live_loop] in H, L.
  - injection H as <- <- <-. injection L as <- <-. exists []. split; [reflexivity|]. cbn [app]. eapply OnEnd; try eassumption; [destruct shown; auto|].
    intros Y. now rewrite (X Y).
  - assert (S' : incl sources all) by (intros x Hx; apply S; now right). assert (Is : In s all) by (apply S; now left).
    destruct (get_relative s) as [rel|] eqn:R; [|discriminate]. destruct (source_text_some _ _ R) as [t T].
    assert (B' : progress_about (about ++ [s]) (w ++ over_line (lit "Inspecting " ++ t))) by (now constructor).
    destruct (get_index m (index_name rel)) as [ix|].
    + unfold inspecting in L. rewrite T in L. cbn [option_map] in L. destruct (get_processor open s) as [items|e|]; [| |discriminate].
      * destruct (process_all above_threshold tok (search_of (ix_batches ix)) items []) as [[l stop] p]. destruct (stop_error stop) as [err|e|]; [|discriminate|discriminate].
        cbv zeta in *. fold (source_rows s l err) in L. destruct (source_rows_text s rel l err R) as [ts' F']. cbn [inlined andb] in L.
        destruct (live_sources m sources) as [[[out' n'] k']|e|] eqn:Ls; try discriminate. injection H as <- <- <-. rewrite (app_assoc (map Printed _)). fold (source_rows s l err).
        destruct (source_rows s l err) as [|r0 rs] eqn:Rows.
        -- destruct (live_loop FastTerminal m sources false) as [[[[ps' n''] k''] b']|e|] eqn:E; try discriminate. injection L as <- En Ek <-.
           assert (n'' = n' /\ k'' = k') as [-> ->] by lia.
           destruct (IH false ps' out' n' k' b' fresh (about ++ [s]) _ S' (about_incl _ _ _ A Is) B' (fun _ => eq_refl) eq_refl E) as (v & V & O).
           exists (over_line (lit "Inspecting " ++ t) ++ v). split; [|rewrite <- !app_assoc in *; exact O].
           cbn [progress app map]. rewrite written_cons. cbn [piece_bytes]. now rewrite V.
        -- rewrite <- Rows in *. assert (Ne : source_rows s l err <> []) by (rewrite Rows; discriminate).
           replace (match source_rows s l err with [] => false | _ :: _ => true end) with true in L by (rewrite Rows; reflexivity).
           destruct (live_loop FastTerminal m sources true) as [[[[ps' n''] k''] b']|e|] eqn:E; try discriminate. injection L as <- En Ek <-.
           assert (n'' = n' /\ k'' = k') as [-> ->] by lia.
           destruct (IH true ps' out' n' k' b' true [] [] S' ltac:(intros x []) AboutNone ltac:(congruence) eq_refl E) as (v & V & O).
           eexists. split.
           ++ cbn [progress app]. rewrite written_cons. cbn [separator inlined andb negb app]. rewrite written_cons, written_app, V, (written_rows _ _ F'). cbn [piece_bytes]. reflexivity.
           ++ apply (on_lines_eq _ _ _ _ ((w ++ over_line (lit "Inspecting " ++ t)) ++ [10] ++ flat_map (fun t => t ++ [10]) ts' ++ ([] ++ v ++ (if b' then [] else erased) ++ over_line last))).
              { eapply rows_on_lines with (about := about ++ [s]); try eassumption; [now apply about_incl|reflexivity]. }
              unfold over_line. cbn [app]. rewrite <- !app_assoc. cbn [app]. now rewrite <- !app_assoc.
      * injection H as <- <- <-. injection L as <- <-. destruct (message_text s rel e R) as [t' M]. eexists. split.
        -- cbn [progress app]. rewrite written_cons, written_cons. cbn [piece_bytes]. rewrite M. reflexivity.
        -- apply (on_lines_eq _ _ _ _ ((w ++ over_line (lit "Inspecting " ++ t)) ++ [] ++ t' ++ [10] ++ ([] ++ erased ++ over_line last))).
           { eapply OnRow with (about := about ++ [s]); [now apply about_incl|exact B'|now left|intros []|exact M|]. eapply OnEnd with (about := []); [intros x []|constructor|now right|reflexivity]. }
           unfold over_line, erased. cbn [app]. rewrite <- !app_assoc. cbn [app]. now rewrite <- !app_assoc.
    + destruct (live_sources m sources) as [[[out' n'] k']|e|] eqn:Ls; try discriminate. injection H as <- <- <-.
      destruct (live_loop FastTerminal m sources true) as [[[[ps' n''] k''] b']|e|] eqn:E; try discriminate. injection L as <- -> -> <-.
      destruct (IH true ps' out' n' k' b' true [] [] S' ltac:(intros x []) AboutNone ltac:(congruence) eq_refl E) as (v & V & O).
      eexists. split.
      * rewrite written_cons, V. cbn [piece_bytes ShownModel.live_text]. rewrite T. reflexivity.
      * apply (on_lines_eq _ _ _ _ (w ++ [] ++ (lit " -> No baselines for " ++ t) ++ [10] ++ ([] ++ v ++ (if b' then [] else erased) ++ over_line last))).
        { eapply OnRow with (about := about); try eassumption; [now left|intros []|]. cbn [ShownModel.live_text]. now rewrite T. }
        cbn [app]. now rewrite <- !app_assoc.
Qed.

(** C83: on a terminal the output is the same rows, each with the end of its line: see [on_lines]. Then the totals. *)
Theorem C83_terminal : forall Date m (c : content (@StoreModel.build Date)) target sources out n k t,
  process_live m target = Val (out, n, k) -> get_sources target = Val sources -> content_text c = Some t ->
  exists stdout lines anomalies, live_stdout (output_mode false true) m c target = Val stdout /\ HtmlSpec.decimal n lines /\ HtmlSpec.decimal k anomalies /\
    on_lines up sources (t ++ lit ": Reduced from " ++ lines ++ lit " to " ++ anomalies) false out stdout.
Proof.
  intros Date m c target sources out n k t H G C. unfold ReportModel.process_live in H. rewrite G in H. pose proof (loop_cases FastTerminal m sources false) as L. rewrite H in L.
  destruct L as (ps & b & L). destruct (loop_fast m sources (t ++ lit ": Reduced from " ++ fmt n ++ lit " to " ++ fmt k) sources false ps out n k b false [] [] (incl_refl _) ltac:(intros x []) AboutNone ltac:(congruence) H L) as (v & V & O).
  eexists _, (fmt n), (fmt k). csplit; [|apply fmt_decimal|apply fmt_decimal|exact O].
  unfold OutModel.live_stdout, live_pieces. change (output_mode false true) with FastTerminal. rewrite G, L, C. cbn [inlined andb app]. rewrite written_app, V, written_app. cbn [progress]. rewrite written_progress. destruct b; cbn [negb]; [reflexivity|]. now rewrite written_erase.
Qed.
(** C83: in every mode the command fails or panics where the analysis does. *)
Theorem C83_failures : forall Date o m (c : content (@StoreModel.build Date)) target,
  (forall e, process_live m target = Fail e -> live_stdout o m c target = Fail e) /\
  (process_live m target = Panic -> live_stdout o m c target = Panic).
Proof.
  intros Date o m c target. unfold ReportModel.process_live, OutModel.live_stdout, live_pieces. destruct (get_sources target) as [sources|e|].
  - pose proof (loop_cases o m sources false) as L. split; intros; destruct (live_sources m sources) as [[[out n] k]|e'|]; try discriminate; rewrite L; [congruence|reflexivity].
  - split; [congruence|discriminate].
  - split; [discriminate|reflexivity].
Qed.

(** C83: without a terminal the output is the rows, each on its line, and nothing else. *)
Theorem C83_quiet : forall Date log tty m (c : content (@StoreModel.build Date)) target out n k, log = true \/ tty = false ->
  process_live m target = Val (out, n, k) -> content_text c <> None ->
  exists texts, Forall2 (fun row t => live_text row = Some t) out texts /\
    live_stdout (output_mode log tty) m c target = Val (flat_map (fun t => t ++ [10]) texts).
Proof.
  intros Date log tty m c target out n k L H C. set (o := output_mode log tty). assert (Q : o <> FastTerminal) by (subst o; destruct L as [-> | ->]; [discriminate|destruct log; discriminate]).
  unfold ReportModel.process_live in H. unfold OutModel.live_stdout, live_pieces. destruct (get_sources target) as [sources|e|]; try discriminate.
  destruct (loop_quiet o m Q sources false _ _ _ H) as (ts & b & F & E). rewrite E. destruct (content_text c) as [t|]; [|congruence].
  exists ts. split; [exact F|]. replace (inlined o) with false by (now destruct o). cbn [andb app]. replace (progress o _) with (@nil piece) by (now destruct o).
  rewrite app_nil_r, (written_rows _ _ F). reflexivity.
Qed.
End Out.

(** ** The debug commands *)
Lemma name_lt_trans a b c : name_lt a b -> name_lt b c -> name_lt a c.
Proof.
  intros H. revert c. induction H as [y b|x y a b L|x a b H IH]; intros c K; inversion K; subst; try (constructor; lia); try now constructor.
  apply LtTail. now apply IH.
Qed.
Lemma text_leb_ok a : forall b, text_leb a b = true <-> name_lt a b \/ a = b.
Proof.
  induction a as [|x a IH]; intros [|y b]; cbn [text_leb].
  - split; [now right|reflexivity].
  - split; [left; constructor|reflexivity].
  - split; [discriminate|]. intros [H|H]; inversion H.
  - destruct (N.ltb_spec x y) as [L|L]; [split; [left; now constructor|reflexivity]|]. destruct (N.eqb_spec x y) as [->|E].
    + rewrite IH. split; [intros [H| ->]; [left; now constructor|now right]|]. intros [H|H]; [|injection H as ->; now right]. inversion H; subst; [lia|now left].
    + split; [discriminate|]. intros [H|H]; [inversion H; subst; lia|injection H as -> _; lia].
Qed.
Lemma name_total a : forall b, name_lt a b \/ a = b \/ name_lt b a.
Proof.
  induction a as [|x a IH]; intros [|y b]; [now right; left|left; constructor|right; right; constructor|].
  destruct (N.lt_trichotomy x y) as [L|[->|L]]; [left; now constructor| |right; right; now constructor].
  destruct (IH b) as [H|[->|H]]; [left; now constructor|now right; left|right; right; now constructor].
Qed.
Lemma name_lt_irrefl a : ~ name_lt a a.
Proof. induction a as [|x a IH]; intros H; inversion H; subst; [lia|now apply IH]. Qed.
(** The groups in the order of their names *)
Definition in_order (l : list (text * list source)) : Prop := StronglySorted (fun g h => name_lt (fst g) (fst h)) l.
Lemma insert_perm g l : Permutation (insert_group g l) (g :: l).
Proof. induction l as [|h l IH]; [reflexivity|]. cbn [insert_group]. destruct (text_leb (fst g) (fst h)); [reflexivity|]. rewrite IH. constructor. Qed.
Lemma sort_perm l : Permutation (sort_groups l) l.
Proof. induction l as [|g l IH]; [reflexivity|]. cbn [sort_groups fold_right]. rewrite insert_perm. now constructor. Qed.
Lemma insert_sorted g l : in_order l -> ~ In (fst g) (map fst l) -> in_order (insert_group g l).
Proof.
  induction 1 as [|h l S IH F]; intros N; cbn [insert_group]; [now repeat constructor|].
  destruct (text_leb (fst g) (fst h)) eqn:E.
  - apply text_leb_ok in E. destruct E as [E|E]; [|exfalso; apply N; now left]. constructor; [now constructor|]. constructor; [exact E|]. eapply Forall_impl; [|exact F]. intros x X. eapply name_lt_trans; eassumption.
  - constructor; [apply IH; intros X; apply N; now right|]. rewrite Forall_forall in *. intros x X. apply (Permutation_in _ (insert_perm g l)) in X. destruct X as [<-|X]; [|now apply F].
    destruct (name_total (fst h) (fst g)) as [H|[H|H]]; [exact H|exfalso; apply N; now left|]. assert (text_leb (fst g) (fst h) = true) by (apply text_leb_ok; now left). congruence.
Qed.
Lemma sort_sorted l : NoDup (map fst l) -> in_order (sort_groups l).
Proof.
  induction l as [|g l IH]; intros H; [constructor|]. inversion H; subst. cbn [sort_groups fold_right]. apply insert_sorted; [now apply IH|].
  intros X. apply H2. eapply Permutation_in; [|exact X]. apply Permutation_map, sort_perm.
Qed.
Lemma in_order_unique l l' : in_order l -> in_order l' -> Permutation l l' -> l = l'.
Proof.
  intros H. revert l'. induction H as [|g l S IH F]; intros l' H' P; [apply Permutation_nil in P; now subst|].
  destruct H' as [|g' l' S' F']; [now apply Permutation_sym, Permutation_nil_cons in P|].
  assert (g = g') as <-.
  { assert (I : In g (g' :: l')) by (eapply Permutation_in; [exact P|now left]). assert (I' : In g' (g :: l)) by (eapply Permutation_in; [apply Permutation_sym; exact P|now left]).
    destruct I as [->|I]; [reflexivity|]. destruct I' as [<-|I']; [reflexivity|]. rewrite Forall_forall in F, F'. exfalso. apply (name_lt_irrefl (fst g)). apply (name_lt_trans _ (fst g')); [now apply F|now apply F']. }
  f_equal. apply IH; [exact S'|]. now apply Permutation_cons_inv in P.
Qed.
(** C84: debug-groups prints every group of the target once, in the order of the names. *)
Theorem C84_groups : forall drain show target out, (forall l, Permutation (drain l) l) -> debug_groups drain show target = Val out ->
  exists sources groups, get_sources target = Val sources /\ grouping source_name groups sources /\
    StronglySorted (fun g h => name_lt (fst g) (fst h)) groups /\ out = flat_map (fun g => show g ++ [10]) groups.
Proof.
  intros drain show target out D H. unfold debug_groups in H. destruct (group_sources [target]) as [groups|e|] eqn:G; try discriminate. injection H as <-.
  destruct (group_sources_ok _ _ G) as (ls & L & Gr). inversion L as [|? l ? ls' L1 L2]; subst. inversion L2; subst. cbn [concat] in Gr. rewrite app_nil_r in Gr.
  assert (P : Permutation (sort_groups (drain groups)) groups) by (rewrite sort_perm; apply D).
  exists l, (sort_groups (drain groups)). csplit; [exact L1| |apply sort_sorted|reflexivity].
  - destruct Gr as [N M]. split; [eapply Permutation_NoDup; [apply Permutation_map, Permutation_sym, P|exact N]|]. intros n x. rewrite <- M. split; apply Permutation_in; [exact P|now apply Permutation_sym].
  - destruct Gr as [N _]. eapply Permutation_NoDup; [apply Permutation_map, Permutation_sym, D|exact N].
Qed.
(** C84: the order of the hash map has no effect on it. *)
Theorem C84_deterministic : forall drain drain2 show target, (forall l, Permutation (drain l) l) -> (forall l, Permutation (drain2 l) l) ->
  debug_groups drain show target = debug_groups drain2 show target.
Proof.
  intros drain drain2 show target D D2. unfold debug_groups. destruct (group_sources [target]) as [groups|e|] eqn:G; [|reflexivity|reflexivity].
  destruct (group_sources_ok _ _ G) as (ls & _ & [N _]). do 2 f_equal. apply in_order_unique.
  - apply sort_sorted. eapply Permutation_NoDup; [apply Permutation_map, Permutation_sym, D|exact N].
  - apply sort_sorted. eapply Permutation_NoDup; [apply Permutation_map, Permutation_sym, D2|exact N].
  - rewrite !sort_perm, D, D2. reflexivity.
Qed.
(** C84: debug-iterator prints the lines of the stream, each with its number, as far as it can be read. *)
Lemma collect_loop utf8_error io_error ovf : forall n s r lines, IterModel.collect ovf n s r = (lines, SEnd) ->
  forall out, debug_loop utf8_error io_error ovf s r out <-> out = flat_map (fun x => debug_item utf8_error (fst x) (snd x)) lines.
Proof.
  induction n as [|n IH]; intros s r lines H out; cbn [IterModel.collect] in H; [discriminate|]. destruct (next ovf s r) as [[o s'] r'] eqn:E. destruct o as [|l nr|e| |]; try discriminate.
  - injection H as <-. split; [|intros ->; econstructor; exact E]. intros L. inversion L as [? ? ? ? E'|? ? ? ? ? ? out' E' L'|? ? ? ? ? ? E' L']; subst; rewrite E in E'; [reflexivity|discriminate|discriminate].
  - destruct (IterModel.collect ovf n s' r') as [ls st] eqn:C. injection H as <- ->. cbn [flat_map fst snd]. split.
    + intros L. inversion L as [? ? ? ? E'|? ? ? ? ? ? out' E' L'|? ? ? ? ? ? E' L']; subst; rewrite E in E'; try discriminate. injection E' as <- <- <- <-. f_equal. now apply (IH _ _ _ C).
    + intros ->. eapply LoopLine; [exact E|]. now apply (IH _ _ _ C).
Qed.
Theorem C84_iterator : forall utf8_error io_error ovf json stream lines, all_lines ovf json stream = (lines, SEnd) ->
  Forall (fun x => utf8_decode (fst x) <> None) lines ->
  exists shown, Forall2 (fun x t => exists d, HtmlSpec.decimal (snd x) d /\ t = d ++ lit " | " ++ fst x ++ [10]) lines shown /\
    forall out, debug_loop utf8_error io_error ovf (new json) stream out <-> out = concat shown.
Proof.
  intros utf8_error io_error ovf json stream lines H V. exists (map (fun x => debug_item utf8_error (fst x) (snd x)) lines). split.
  - clear H. induction V as [|x l V _ IH]; [constructor|]. constructor; [|exact IH]. exists (fmt (snd x)). split; [apply fmt_decimal|]. unfold debug_item, valid_utf8. now destruct (utf8_decode (fst x)).
  - intros out. rewrite <- flat_map_concat_map. eapply collect_loop. exact H.
Qed.
(** ** Examples *)
Definition out_search (batches : list (list bytes)) (lines : list bytes) : list F := map (fun l => if existsb (eqb_list l) (concat batches) then f_zero else f_one) lines.
Definition out_model : model := [(lit "app.log", mkIndex [] [[lit "start"; lit "stop"]] 2 9); (lit "db.log", mkIndex [] [[lit "open"]] 1 4)].
Definition out_target := [src_e "new/db.log"; src_e "new/app.log"].
Definition out_files := files [ (lit "new/app.log", Val [lit "start"; lit "crash"; lit "stop"]); (lit "new/db.log", Val [lit "open"]) ].
Definition out_content : content (@StoreModel.build unit) := CDirectory (Local 0 (lit "new")).
(** The progress about the first source is written over, the second has an anomaly. *)
Example C83_example : exists rows,
  process_live above_threshold tok_id out_search out_files error_e out_model out_target = Val (rows, 4, 1) /\
  rows = [Printed (Ctx 0 (lit "start")); Printed (Anom f_one 2 (lit "crash")); Printed (Ctx 2 (lit "stop"))] /\
  live_stdout (fun _ => false) tok_id out_search out_files error_e Quiet out_model out_content out_target =
    Val (lit "   0 | start" ++ [10] ++ lit "99 2 | crash" ++ [10] ++ lit "   2 | stop" ++ [10]) /\
  live_stdout (fun _ => false) tok_id out_search out_files error_e FastTerminal out_model out_content out_target =
    Val (over_line (lit "Inspecting local: db.log") ++ over_line (lit "Inspecting local: app.log") ++ [10] ++
         lit "   0 | start" ++ [10] ++ lit "99 2 | crash" ++ [10] ++ lit "   2 | stop" ++ [10] ++
         over_line (lit "Directory(local: new): Reduced from 4 to 1")).
Proof. eexists. csplit; try reflexivity; vm_compute; reflexivity. Qed.
(** C83: messages about sources do not have a line of their own on a terminal. *)
Theorem C83_messages_refuted : exists tok (search_of : list (list bytes) -> list bytes -> list F) open err_text m (c : content (@StoreModel.build unit)) target,
  forall up, live_stdout up tok search_of open err_text FastTerminal m c target =
    Val (over_line (lit "Inspecting local: db.log") ++ lit " -> No baselines for local: web.log" ++ [10] ++
         over_line (lit "Directory(local: new): Reduced from 1 to 0")) /\
  live_stdout up tok search_of open err_text Quiet m c target = Val (lit " -> No baselines for local: web.log" ++ [10]).
Proof.
  exists tok_id, out_search, out_files, error_e, out_model, out_content, [src_e "new/db.log"; src_e "new/web.log"]. intros up. split; vm_compute; reflexivity.
Qed.
Example C84_example : forall show, debug_groups id_drain show out_target = Val (show (lit "app.log", [Local 4 (lit "new/app.log")]) ++ [10] ++ show (lit "db.log", [Local 4 (lit "new/db.log")]) ++ [10]).
Proof.
  intros show. unfold debug_groups. change (group_sources [out_target]) with (Val [(lit "db.log", [Local 4 (lit "new/db.log")]); (lit "app.log", [Local 4 (lit "new/app.log")])]). unfold id_drain.
  change (sort_groups _) with [(lit "app.log", [Local 4 (lit "new/app.log")]); (lit "db.log", [Local 4 (lit "new/db.log")])]. cbn [flat_map]. now rewrite app_nil_r, <- !app_assoc.
Qed.
Example C84_example_iterator : all_lines true false [Data (lit "one" ++ [10] ++ lit "two" ++ [10])] = ([(lit "one", 1); (lit "two", 2)], SEnd).
Proof. vm_compute. reflexivity. Qed.

Print Assumptions C83_quiet.
Print Assumptions C83_terminal.
Print Assumptions C83_failures.
Print Assumptions C83_messages_refuted.
Print Assumptions C84_groups.
Print Assumptions C84_deterministic.
Print Assumptions C84_iterator.
