(** The findings depend on the tokenized lines only: C101. *)
From Coq Require Import String List NArith PeanoNat Bool Lia Permutation.
From Verif Require Import Common IterModel ProcModel TokModel TokSpec FilesModel FilesSources CliModel IndexModel ReportModel HtmlModel ShownModel OutModel P_Noise P_Index P_Report P_Compare ProcRefute TokRe P_Tok.
From Verif Require StoreModel.
Import ListNotations.
Open Scope list_scope.
Open Scope N_scope.
Ltac csplit := repeat match goal with |- _ /\ _ => split end.

Section Same.
Context {D : Type}.
Variable above : D -> bool.
Variable tok : bytes -> bytes.
Notation actx := (@actx D).

(** Two lines that tokenizing does not tell apart, neither or both of which are logreduce's own
    output; or two that are not text. *)
Inductive alike_line : bytes -> bytes -> Prop :=
| AlikeText b b' : valid_utf8 b = true -> valid_utf8 b' = true -> tok b = tok b' -> is_marker b = is_marker b' -> alike_line b b'
| AlikeNotText b b' : valid_utf8 b = false -> valid_utf8 b' = false -> alike_line b b'.
(** What is read, with the same line numbers *)
Inductive alike_item : item -> item -> Prop :=
| AlikeLine b b' n : alike_line b b' -> alike_item (ILine b n) (ILine b' n)
| AlikeError e : alike_item (IErr e) (IErr e).
(** Findings at the same line with the same distance, whose contexts have the same sizes and consist of such lines. *)
Definition alike_finding (c c' : actx) : Prop :=
  apos c = apos c' /\ distance c = distance c' /\ alike_line (aline c) (aline c') /\ Forall2 alike_line (before c) (before c') /\ Forall2 alike_line (after c) (after c').

(** ** Proofs *)
Section Findings.
Variable search : list bytes -> list D.
Inductive orel {A} (P : A -> A -> Prop) : option A -> option A -> Prop :=
| BothSome x x' : P x x' -> orel P (Some x) (Some x')
| BothNone : orel P None None.
Lemma f2_skipn {A} (P : A -> A -> Prop) n : forall l l', Forall2 P l l' -> Forall2 P (skipn n l) (skipn n l').
Proof. induction n as [|n IH]; intros l l' H; [exact H|]. destruct H; cbn; [constructor|auto]. Qed.
Lemma f2_firstn {A} (P : A -> A -> Prop) n : forall l l', Forall2 P l l' -> Forall2 P (firstn n l) (firstn n l').
Proof. induction n as [|n IH]; intros l l' H; [constructor|]. destruct H; cbn; constructor; auto. Qed.
Lemma f2_len {A} (P : A -> A -> Prop) l l' : Forall2 P l l' -> length l = length l'.
Proof. induction 1; cbn; congruence. Qed.
Lemma f2_snoc {A} (P : A -> A -> Prop) l l' x x' : Forall2 P l l' -> P x x' -> Forall2 P (l ++ [x]) (l' ++ [x']).
Proof. intros. apply Forall2_app; auto. Qed.
Definition rb (x x' : bline) : Prop := alike_line (btext x) (btext x') /\ snd (fst x) = snd (fst x') /\ snd x = snd x'.
Lemma to_string_same b b' : alike_line b b' -> orel alike_line (to_string b) (to_string b').
Proof. intros H. unfold to_string. destruct H as [b b' V V' T M|b b' V V']; rewrite V, V'; constructor. now apply AlikeText. Qed.
Lemma to_strings_same l l' : Forall2 rb l l' -> orel (Forall2 alike_line) (to_strings l) (to_strings l').
Proof.
  induction 1 as [|x x' l l' (H & _) _ IH]; [constructor; constructor|]. cbn [to_strings]. destruct (to_string_same _ _ H); [|constructor]. destruct IH; constructor. now constructor.
Qed.
Lemma slice_same {A} (P : A -> A -> Prop) l l' i j : Forall2 P l l' -> orel (Forall2 P) (slice l i j) (slice l' i j).
Proof. intros H. unfold slice. rewrite (f2_len _ _ _ H). destruct (_ && _); constructor. now apply f2_firstn, f2_skipn. Qed.
Lemma slice_from_same {A} (P : A -> A -> Prop) l l' i : Forall2 P l l' -> orel (Forall2 P) (slice_from l i) (slice_from l' i).
Proof. intros H. unfold slice_from. rewrite (f2_len _ _ _ H). destruct (Nat.leb _ _); constructor. now apply f2_skipn. Qed.
Lemma collect_before_same bp lp buf buf' lo lo' : Forall2 rb buf buf' -> Forall2 alike_line lo lo' -> orel (Forall2 alike_line) (collect_before bp lp buf lo) (collect_before bp lp buf' lo').
Proof.
  intros H L. unfold collect_before. cbv zeta. destruct (slice_same rb buf buf' (Nat.max lp (if Nat.ltb bp CTX_DISTANCE then 0%nat else (bp - CTX_DISTANCE)%nat)) bp H) as [l l' S|]; [|constructor].
  destruct (to_strings_same _ _ S) as [t t' T|]; [|constructor]. rewrite (f2_len _ _ _ T), (f2_len _ _ _ L). destruct (_ && _); constructor; [|exact T]. apply Forall2_app; [now apply f2_skipn|exact T].
Qed.
Definition rs (s s' : @sst D) : Prop := buffer_pos s = buffer_pos s' /\ last_pos s = last_pos s' /\ orel alike_finding (cur s) (cur s') /\ Forall2 alike_finding (found s) (found s').
Lemma push_after_same c c' b b' f f' : alike_finding c c' -> alike_line b b' -> Forall2 alike_finding f f' ->
  orel alike_finding (fst (push_after c b f)) (fst (push_after c' b' f')) /\ Forall2 alike_finding (snd (push_after c b f)) (snd (push_after c' b' f')).
Proof.
  intros (A & B & C & E & G) H F. unfold push_after. cbn [after]. rewrite !app_length, (f2_len _ _ _ G).
  assert (X : alike_finding (mkCtx (before c) (after c ++ [b]) (distance c) (apos c) (aline c)) (mkCtx (before c') (after c' ++ [b']) (distance c') (apos c') (aline c'))) by (unfold alike_finding; cbn; csplit; auto; now apply f2_snoc).
  destruct (Nat.leb _ _); cbn; split; [constructor|now apply f2_snoc|now constructor|exact F].
Qed.
Definition rt (t t' : bytes * N) : Prop := alike_line (fst t) (fst t') /\ snd t = snd t'.
Definition rst (x x' : sst * option (bytes * N)) : Prop := rs (fst x) (fst x') /\ orel rt (snd x) (snd x').
Lemma inner_same anomalous c buf buf' : Forall2 rb buf buf' -> forall s s' t t', rs s s' -> orel rt t t' -> orel rst (inner anomalous c buf s t) (inner anomalous c buf' s' t').
Proof.
  induction 1 as [|[[b nr] lc] [[b' nr'] lc'] buf buf' (H & E1 & E2) _ IH]; intros s s' t t' S T; cbn [inner]; [now constructor|]. cbn in H, E1, E2. subst nr' lc'. cbv zeta. destruct S as (S1 & S2 & S3 & S4). rewrite <- S1, <- S2.
  destruct ((lc =? c) && anomalous) eqn:Hit.
  - destruct (to_string_same _ _ H) as [x x' X|]; [|constructor]. apply andb_prop in Hit as (Hit & _). rewrite Hit. constructor. split; [|constructor; now split]. unfold rs; cbn; auto.
  - destruct S3 as [a a' Ha|].
    + destruct (to_string_same _ _ H) as [x x' X|]; [|constructor]. destruct (push_after_same _ _ _ _ _ _ Ha X S4) as (P1 & P2). destruct (push_after a x _) as [a1 f1], (push_after a' x' _) as [a1' f1']. cbn in P1, P2.
      destruct (lc =? c); [constructor; split; [unfold rs; cbn; auto|exact T]|]. apply IH; [unfold rs; cbn; auto|exact T].
    + destruct (lc =? c); [constructor; split; [unfold rs; cbn; csplit; auto; constructor|exact T]|]. apply IH; [unfold rs; cbn; csplit; auto; constructor|exact T].
Qed.
Lemma outer_same pairs buf buf' lo lo' : Forall2 rb buf buf' -> Forall2 alike_line lo lo' -> forall s s', rs s s' -> orel rs (outer above pairs buf lo s) (outer above pairs buf' lo' s').
Proof.
  intros H L. induction pairs as [|[d c] pairs IH]; intros s s' S; cbn [outer]; [now constructor|]. pose proof S as (S1 & _). rewrite <- S1. destruct (slice_from_same rb buf buf' (buffer_pos s) H) as [l l' X|]; [|constructor].
  destruct (inner_same (above d) c l l' X s s' None None S (BothNone _)) as [[s1 t1] [s1' t1'] (R & T)|]; [|constructor]. cbn in R, T. pose proof R as (R1 & R2 & R3 & R4). destruct T as [[t nr] [t' nr'] (T1 & T2)|].
  - cbn in T1, T2. subst nr'. cbv zeta. rewrite <- R1, <- R2. destruct (buffer_pos s1) as [|q]; [constructor|]. destruct (collect_before_same q (last_pos s1) buf buf' lo lo' H L) as [f f' F|]; [|constructor]. apply IH. unfold rs. cbn. csplit; auto.
    + constructor. unfold alike_finding. cbn. auto.
    + destruct R3; [now apply f2_snoc|exact R4].
  - destruct (above d); [constructor|now apply IH].
Qed.
Definition rf (x x' : option actx * list actx) : Prop := orel alike_finding (fst x) (fst x') /\ Forall2 alike_finding (snd x) (snd x').
Lemma finish_same rest rest' : Forall2 rb rest rest' -> forall a a' f f', alike_finding a a' -> Forall2 alike_finding f f' -> orel rf (finish a rest f) (finish a' rest' f').
Proof.
  induction 1 as [|x x' rest rest' (H & _) _ IH]; intros a a' f f' A F; cbn [finish]; [constructor; split; [now constructor|exact F]|]. destruct (to_string_same _ _ H) as [t t' T|]; [|constructor].
  destruct (push_after_same _ _ _ _ _ _ A T F) as (P1 & P2). destruct (push_after a t f) as [a1 f1], (push_after a' t' f') as [a1' f1']. cbn in P1, P2. destruct P1; [now apply IH|constructor; split; [constructor|exact P2]].
Qed.
Definition rp (p p' : @proc D) : Prop :=
  Forall2 alike_item (src p) (src p') /\ Forall2 rb (buffer p) (buffer p') /\ targets p = targets p' /\ targets_coord p = targets_coord p' /\ Forall2 alike_line (left_overs p) (left_overs p') /\
  orel alike_finding (current p) (current p') /\ Forall2 alike_finding (anomalies p) (anomalies p') /\ skip p = skip p' /\ coord p = coord p' /\ line_count p = line_count p'.
Lemma do_search_same p p' : rp p p' -> orel rp (do_search above search p) (do_search above search p').
Proof.
  intros (A & B & C & E & G & H & I & J & K & L). unfold do_search. cbv zeta. rewrite <- C, <- E.
  destruct (outer_same (combine (search (targets p)) (targets_coord p)) _ _ _ _ B G (mkSst 0 0 (current p) (anomalies p)) (mkSst 0 0 (current p') (anomalies p'))) as [s s' S|]; [unfold rs; cbn; auto| |constructor].
  destruct S as (S1 & S2 & S3 & S4). rewrite <- S2.
  assert (F : orel rf (match cur s with Some a => if Nat.ltb (last_pos s) (length (buffer p)) then finish a (skipn (last_pos s) (buffer p)) (found s) else Some (Some a, found s) | None => Some (None, found s) end)
    (match cur s' with Some a => if Nat.ltb (last_pos s) (length (buffer p')) then finish a (skipn (last_pos s) (buffer p')) (found s') else Some (Some a, found s') | None => Some (None, found s') end)).
  { rewrite (f2_len _ _ _ B). destruct S3; [|constructor; split; [constructor|exact S4]]. destruct (Nat.ltb _ _); [apply finish_same; auto; now apply f2_skipn|constructor; split; [now constructor|exact S4]]. }
  destruct F as [[c1 f1] [c1' f1'] (F1 & F2)|]; [|constructor]. cbn in F1, F2. unfold reset_left_overs. cbv zeta. rewrite (f2_len _ _ _ B).
  destruct (slice_from_same rb _ _ (Nat.max (last_pos s) (if Nat.ltb (length (buffer p')) CTX_DISTANCE then 0%nat else (length (buffer p') - CTX_DISTANCE)%nat)) B) as [l l' X|]; [|constructor].
  destruct (to_strings_same _ _ X) as [t t' T|]; [|constructor]. constructor. unfold rp. cbn. csplit; auto.
Qed.
Inductive rr : @rres D -> @rres D -> Prop :=
| SamePanic : rr RPanic RPanic
| SameOk p p' : rp p p' -> rr (ROk p) (ROk p')
| SameFail e p p' : rp p p' -> rr (RFail e p) (RFail e p').
Lemma read_end_same p p' : rp p p' -> rr (read_end above search p) (read_end above search p').
Proof.
  intros R. unfold read_end. pose proof R as (_ & _ & C & _). rewrite <- C.
  assert (X : orel rp (match targets p with [] => Some p | _ :: _ => do_search above search p end) (match targets p with [] => Some p' | _ :: _ => do_search above search p' end)) by (destruct (targets p); [now constructor|now apply do_search_same]).
  destruct X as [q q' Q|]; [|constructor]. pose proof Q as (Q1 & Q2 & Q3 & Q4 & Q5 & Q6 & Q7 & Q8 & Q9 & Q10). destruct (current q) eqn:E1, (current q') eqn:E2; inversion Q6; subst; constructor; [|exact Q]. unfold rp. cbn. csplit; auto; [constructor|now apply f2_snoc].
Qed.
Lemma read_same items items' : Forall2 alike_item items items' -> forall p p', rp p p' -> rr (read_anomalies above tok search items p) (read_anomalies above tok search items' p').
Proof.
  induction 1 as [|i i' items items' I Is IH]; intros p p' R; pose proof R as (R1 & R2 & R3 & R4 & R5 & R6 & R7 & R8 & R9 & R10); cbn [read_anomalies].
  - apply read_end_same. unfold rp. cbn. csplit; auto.
  - destruct I as [b b' nr [x x' V V' T M|x x' V V']|e].
    + pose proof (AlikeText _ _ V V' T M) as Al. rewrite V, V', T, M. cbv zeta. assert (C : rp (count_line p x items) (count_line p' x' items')) by (unfold rp, count_line; cbn; csplit; auto; congruence).
      destruct (is_marker x'); [now apply read_end_same|].
      assert (P : rp (push_line tok (count_line p x items) x nr) (push_line tok (count_line p' x' items') x' nr)).
      { destruct C as (C1 & C2 & C3 & C4 & C5 & C6 & C7 & C8 & C9 & C10). unfold push_line. cbv zeta. rewrite T, C8. assert (B : Forall2 rb (buffer (count_line p x items) ++ [((x, nr), coord (count_line p x items))]) (buffer (count_line p' x' items') ++ [((x', nr), coord (count_line p' x' items'))])).
        { apply f2_snoc; [exact C2|]. unfold rb. csplit; [exact Al|reflexivity|exact C9]. }
        destruct (mem_set _ _); unfold rp; cbn [src buffer targets targets_coord left_overs current anomalies skip coord line_count]; csplit; auto; congruence. }
      assert (S : skip (count_line p x items) = skip (count_line p' x' items')) by apply C. rewrite S.
      assert (E : forall k, batch_full k (push_line tok (count_line p x items) x nr) = batch_full k (push_line tok (count_line p' x' items') x' nr)).
      { intros k. destruct P as (_ & P2 & P3 & _). unfold batch_full. rewrite (f2_len _ _ _ P2), P3. reflexivity. }
      rewrite E. destruct (batch_full _ _); [|now apply IH]. destruct (do_search_same _ _ P) as [q q' Q|]; [|constructor]. pose proof Q as (_ & _ & _ & _ & _ & _ & Q7 & _). destruct Q7; [now apply IH|now constructor].
    + rewrite V, V'. constructor. unfold rp. cbn. csplit; auto.
    + constructor. unfold rp. cbn. csplit; auto.
Qed.
Definition set_same p p' l l' : rp p p' -> Forall2 alike_finding l l' -> rp (set_anomalies p l) (set_anomalies p' l').
Proof. intros (A & B & C & E & G & H & I & J & K & L) F. unfold rp, set_anomalies. cbn. csplit; auto. Qed.
Lemma drain_same n : forall p p', rp p p' ->
  let '(l, e, q) := pdrain above tok search n p in let '(l', e', q') := pdrain above tok search n p' in Forall2 alike_finding l l' /\ e = e' /\ rp q q'.
Proof.
  induction n as [|n IH]; intros p p' R; cbn [pdrain]; [csplit; auto|].
  assert (Next : forall c c' q q', alike_finding c c' -> rp q q' -> let '(l, e, x) := (let '(l, e, pf) := pdrain above tok search n q in (c :: l, e, pf)) in let '(l', e', x') := (let '(l, e, pf) := pdrain above tok search n q' in (c' :: l, e, pf)) in Forall2 alike_finding l l' /\ e = e' /\ rp x x').
  { intros c c' q q' C Q. specialize (IH q q' Q). destruct (pdrain above tok search n q) as [[l e] x], (pdrain above tok search n q') as [[l' e'] x']. destruct IH as (I1 & I2 & I3). csplit; auto. }
  unfold pnext. pose proof R as (R1 & R2 & R3 & R4 & R5 & R6 & R7 & R8 & R9 & R10). destruct R7 as [|a a' rest rest' Ha Hr]; [|now apply Next; [|apply set_same]].
  destruct (read_same _ _ R1 _ _ R) as [|q q' Q|e q q' Q]; [csplit; auto| |csplit; auto].
  pose proof Q as (_ & _ & _ & _ & _ & _ & Q7 & _). destruct Q7 as [|a a' rest rest' Ha Hr]; [csplit; auto|]. now apply Next; [|apply set_same].
Qed.

(** C101: the findings in two logs whose lines are pairwise alike are pairwise alike, the logs end to be read
    in the same way, as many lines are counted, and the same lines are known then. *)
Theorem C101_findings items items' known : Forall2 alike_item items items' ->
  let '(l, stop, p) := process_all above tok search items known in let '(l', stop', p') := process_all above tok search items' known in
  Forall2 alike_finding l l' /\ stop = stop' /\ line_count p = line_count p' /\ skip p = skip p'.
Proof.
  intros H. unfold process_all. rewrite (f2_len _ _ _ H). pose proof (drain_same (2 + length items') (proc_new items known) (proc_new items' known)) as X.
  destruct (pdrain _ _ _ _ (proc_new items known)) as [[l e] p], (pdrain _ _ _ _ (proc_new items' known)) as [[l' e'] p']. destruct X as (X1 & X2 & X3); [|csplit; auto; apply X3].
  unfold rp, proc_new. cbn. csplit; auto. constructor.
Qed.

End Findings.

(** ** Reports *)
Lemma process_all_alike items items' known search : Forall2 alike_item items items' ->
  let '(l, stop, p) := process_all above tok search items known in let '(l', stop', p') := process_all above tok search items' known in
  Forall2 alike_finding l l' /\ stop = stop' /\ line_count p = line_count p' /\ skip p = skip p'.
Proof. apply C101_findings. Qed.
Context {B : Type}.
Variable search_of : B -> list bytes -> list D.
Variable err_text : option N -> text.
Variable drain : list (text * list source) -> list (text * list source).
Variables open open' : source -> res (bool -> list item).
(** The log [s] is alike in both worlds, line by line. *)
Definition alike_log (s : source) : Prop :=
  match open s, open' s with
  | Val items, Val items' => forall json, Forall2 alike_item (items json) (items' json)
  | Fail e, Fail e' => e = e'
  | Panic, Panic => True
  | _, _ => False
  end.
(** All but the number of bytes is the same, or alike. *)
Definition alike_log_report (a a' : @log_report D) : Prop :=
  lr_source a = lr_source a' /\ lr_index a = lr_index a' /\ lr_lines a = lr_lines a' /\ Forall2 alike_finding (lr_anomalies a) (lr_anomalies a').
Definition alike_report (r r' : @report D) : Prop :=
  Forall2 alike_log_report (log_reports r) (log_reports r') /\ index_reports r = index_reports r' /\ index_errors r = index_errors r' /\ read_errors r = read_errors r' /\
  total_line_count r = total_line_count r' /\ total_anomaly_count r = total_anomaly_count r'.
(** What is shown: the same numbers, separators and distances, and such lines *)
Inductive alike_row : @rline D -> @rline D -> Prop :=
| AlikeHr : alike_row Hr Hr
| AlikeCtx n l l' : alike_line l l' -> alike_row (Ctx n l) (Ctx n l')
| AlikeAnom d n l l' : alike_line l l' -> alike_row (Anom d n l) (Anom d n l').
Inductive alike_out : @out_line D -> @out_line D -> Prop :=
| AlikePrinted r r' : alike_row r r' -> alike_out (Printed r) (Printed r')
| SameCouldNot s e : alike_out (CouldNotRead s e) (CouldNotRead s e)
| SameNone s : alike_out (NoBaselines s) (NoBaselines s).
Inductive alike_res {A} (P : A -> A -> Prop) : res A -> res A -> Prop :=
| BothVal x x' : P x x' -> alike_res P (Val x) (Val x')
| BothFail e : alike_res P (Fail e) (Fail e)
| BothPanic : alike_res P Panic Panic.

Lemma processor_alike s : alike_log s -> alike_res (Forall2 alike_item) (get_processor open s) (get_processor open' s).
Proof.
  unfold alike_log, get_processor. intros H. destruct (get_relative s); [|constructor]. destruct (open s), (open' s); try (destruct H; fail); [|subst; constructor|constructor]. destruct (is_json s); constructor. apply H.
Qed.
Lemma add_error_alike r r' s e : alike_report r r' -> alike_report (add_read_error r s e) (add_read_error r' s e).
Proof. intros (A & B1 & C & E & G & H). unfold alike_report, add_read_error. cbn. csplit; auto; congruence. Qed.
Lemma add_alike r r' (ix : index_at B) n s l l' lines b b' : alike_report r r' -> Forall2 alike_finding l l' -> alike_report (add_anomalies r ix n s l lines b) (add_anomalies r' ix n s l' lines b').
Proof.
  intros (A & B1 & C & E & G & H) F. pose proof (f2_len _ _ _ F) as L. unfold add_anomalies. cbv zeta. destruct F as [|c c' l l' Hc F].
  - unfold alike_report. cbn. csplit; auto; congruence.
  - unfold alike_report. cbn [log_reports index_reports index_errors read_errors total_line_count total_anomaly_count]. rewrite B1, G, H, L. csplit; auto. apply f2_snoc; [exact A|]. unfold alike_log_report. cbn. csplit; auto.
Qed.
Lemma group_alike ix n sources : (forall s, In s sources -> alike_log s) -> forall known r r', alike_report r r' ->
  alike_res alike_report (report_group above tok search_of open err_text ix n sources known r) (report_group above tok search_of open' err_text ix n sources known r').
Proof.
  induction sources as [|s rest IH]; intros H known r r' R; cbn [report_group]; [now constructor|]. destruct (processor_alike s (H s (or_introl eq_refl))) as [items items' I|e|]; [|constructor; now apply add_error_alike|constructor].
  pose proof (process_all_alike items items' known (search_of (ix_batches ix)) I) as X. destruct (process_all _ _ _ items known) as [[l stop] p], (process_all _ _ _ items' known) as [[l' stop'] p']. destruct X as (X1 & <- & X3 & X4). destruct (stop_error stop) as [err| |]; [|constructor..].
  cbv zeta. rewrite X3, X4. apply IH; [intros; apply H; now right|]. apply add_alike; [|exact X1]. destruct err; [now apply add_error_alike|exact R].
Qed.
Lemma all_alike m groups : (forall g s, In g groups -> In s (snd g) -> alike_log s) -> forall r r', alike_report r r' ->
  alike_res alike_report (report_all above tok search_of open err_text m groups r) (report_all above tok search_of open' err_text m groups r').
Proof.
  induction groups as [|[n l] groups IH]; intros H r r' R; cbn [report_all]; [now constructor|]. assert (H' : forall g s, In g groups -> In s (snd g) -> alike_log s) by (intros; eapply H; [right|]; eauto).
  destruct (get_index m n) as [ix|]; [|apply IH; [exact H'|]].
  - assert (Hl : forall s, In s l -> alike_log s) by (intros s Hs; exact (H (n, l) s (or_introl eq_refl) Hs)). destruct (group_alike ix n l Hl [] r r' R); [now apply IH|constructor..].
  - destruct R as (A & B1 & C & E & G & K). unfold alike_report. cbn. csplit; auto; congruence.
Qed.
Lemma live_alike_context pos xs xs' : Forall2 alike_line xs xs' -> Forall2 alike_row (print_context pos xs) (print_context pos xs').
Proof. intros H. revert pos. induction H; intros pos; cbn; constructor; auto. now constructor. Qed.
Lemma page_alike_context pos xs xs' : Forall2 alike_line xs xs' -> Forall2 alike_row (render_context pos xs) (render_context pos xs').
Proof. intros H. revert pos. induction H; intros pos; cbn; constructor; auto. now constructor. Qed.
Lemma print_alike l l' : Forall2 alike_finding l l' -> forall last, Forall2 alike_row (print_anomalies last l) (print_anomalies last l').
Proof.
  induction 1 as [|c c' l l' (A & B1 & C & E & G) _ IH]; intros last; [constructor|]. cbn [print_anomalies]. unfold print_anomaly. cbv zeta. rewrite A, B1, (f2_len _ _ _ E), (f2_len _ _ _ G).
  apply Forall2_app; [|apply IH]. apply Forall2_app; [|apply Forall2_app; [now apply live_alike_context|apply Forall2_app; [|now apply live_alike_context]]]; [|constructor; [now constructor|constructor]].
  destruct last; [|constructor]. destruct (_ =? _); [constructor|]. constructor; constructor.
Qed.
Definition alike_shown (x x' : list (@out_line D) * N * N) : Prop := Forall2 alike_out (fst (fst x)) (fst (fst x')) /\ snd (fst x) = snd (fst x') /\ snd x = snd x'.
Lemma live_alike m sources : (forall s, In s sources -> alike_log s) -> alike_res alike_shown (live_sources above tok search_of open err_text m sources) (live_sources above tok search_of open' err_text m sources).
Proof.
  induction sources as [|s rest IH]; intros H; cbn [live_sources]; [constructor; unfold alike_shown; cbn; auto|]. specialize (IH (fun s Hs => H s (or_intror Hs))). destruct (get_relative s); [|constructor].
  destruct (get_index m _) as [ix|].
  - destruct (processor_alike s (H s (or_introl eq_refl))) as [items items' I|e|]; [|constructor; unfold alike_shown; cbn; csplit; auto; constructor; constructor|constructor].
    pose proof (process_all_alike items items' [] (search_of (ix_batches ix)) I) as X. destruct (process_all _ _ _ items []) as [[l stop] p], (process_all _ _ _ items' []) as [[l' stop'] p']. destruct X as (X1 & <- & X3 & X4). destruct (stop_error stop) as [err| |]; [|constructor..].
    cbv zeta. destruct IH as [[[o n] k] [[o' n'] k'] (I1 & I2 & I3)|e|]; [|constructor..]. cbn in I1, I2, I3. subst n' k'. constructor. unfold alike_shown. cbn [fst snd]. rewrite X3, (f2_len _ _ _ X1). csplit; auto.
    apply Forall2_app; [|apply Forall2_app; [|exact I1]].
    + pose proof (print_alike _ _ X1 None) as P. induction P; cbn; constructor; auto. now constructor.
    + destruct err; constructor; constructor.
  - destruct IH as [[[o n] k] [[o' n'] k'] (I1 & I2 & I3)|e|]; [|constructor..]. cbn in I1, I2, I3. subst. constructor. unfold alike_shown. cbn. csplit; auto. constructor; [constructor|exact I1].
Qed.
(** C101: so are the reports on two targets whose logs are alike. *)
Theorem C101_report m target sources : (forall l, Permutation (drain l) l) -> get_sources target = Val sources -> (forall s, In s sources -> alike_log s) ->
  alike_res alike_report (model_report above tok search_of open err_text drain m target) (model_report above tok search_of open' err_text drain m target).
Proof.
  intros Hd Hs H. unfold model_report. destruct (group_sources [target]) as [g| |] eqn:G; [|constructor..]. apply all_alike; [|unfold alike_report; cbn; csplit; auto].
  intros [n x] s I Is. apply group_sources_ok in G. destruct G as (ls & F & _ & G). inversion F as [|? l ? rest L R]; subst. inversion R; subst. rewrite Hs in L. injection L as <-.
  apply H. apply (Permutation_in _ (Hd g)) in I. apply G in I. destruct I as (_ & Sel). cbn in Sel. rewrite app_nil_r in Sel. now apply (selected_in _ _ _ Sel).
Qed.
(** C101: what is shown while they are analysed *)
Theorem C101_live m target sources : get_sources target = Val sources -> (forall s, In s sources -> alike_log s) ->
  alike_res alike_shown (process_live above tok search_of open err_text m target) (process_live above tok search_of open' err_text m target).
Proof. intros Hs H. unfold process_live. rewrite Hs. now apply live_alike. Qed.
(** C101: the rows of the page, or a panic for both *)
Theorem C101_page checks l l' : Forall2 alike_finding l l' -> forall last, orel (Forall2 alike_row) (render_lines checks last l) (render_lines checks last l').
Proof.
  induction 1 as [|c c' l l' (A & B1 & C & E & G) _ IH]; intros last; cbn [render_lines]; [constructor; constructor|]. unfold starting_pos. rewrite A, B1, (f2_len _ _ _ E), (f2_len _ _ _ G).
  destruct (usize_sub checks (apos c') 1) as [p|]; [|constructor]. destruct (usize_sub checks p _) as [start|]; [|constructor]. cbv zeta. destruct (IH (Some (wrap (apos c' + N.of_nat (length (after c')))))) as [o o' O|]; [|constructor]. constructor.
  apply Forall2_app; [destruct last; [|constructor]; destruct (_ =? _); constructor; constructor|]. apply Forall2_app; [now apply page_alike_context|]. cbn [app]. constructor; [now constructor|]. apply Forall2_app; [now apply page_alike_context|exact O].
Qed.
End Same.

(** ** The screen *)
Section Screen.
Variable tok : bytes -> bytes.
Context {B : Type}.
Variable search_of : B -> list bytes -> list F.
Variable err_text : option N -> text.
Variables open open' : source -> res (bool -> list item).
Inductive alike_piece : piece -> piece -> Prop :=
| SamePiece p : alike_piece p p
| AlikeRow r r' : alike_out tok r r' -> alike_piece (Row r) (Row r').
Lemma same_pieces l : Forall2 alike_piece l l.
Proof. induction l; constructor; auto. constructor. Qed.
Definition alike_loop (x x' : list piece * N * N * bool) : Prop := Forall2 alike_piece (fst (fst (fst x))) (fst (fst (fst x'))) /\ snd (fst (fst x)) = snd (fst (fst x')) /\ snd (fst x) = snd (fst x') /\ snd x = snd x'.
Lemma loop_alike o m sources : (forall s, In s sources -> alike_log tok open open' s) -> forall shown, alike_res alike_loop (live_loop tok search_of open err_text o m sources shown) (live_loop tok search_of open' err_text o m sources shown).
Proof.
  induction sources as [|s rest IH]; intros H shown; cbn [live_loop]; [constructor; unfold alike_loop; cbn; auto|]. specialize (IH (fun s Hs => H s (or_intror Hs))). destruct (get_relative s); [|constructor]. destruct (get_index m _) as [ix|].
  - destruct (inspecting s) as [msg|]; [|constructor]. destruct (processor_alike tok open open' s (H s (or_introl eq_refl))) as [items items' I|e|]; [|constructor; unfold alike_loop; cbn; csplit; auto; apply same_pieces|constructor].
    pose proof (process_all_alike above_threshold tok items items' [] (search_of (ix_batches ix)) I) as X. destruct (process_all _ _ _ items []) as [[l stop] p], (process_all _ _ _ items' []) as [[l' stop'] p']. destruct X as (X1 & <- & X3 & X4). destruct (stop_error stop) as [err| |]; [|constructor..].
    cbv zeta. set (rows := map Printed (print_anomalies None l) ++ _). set (rows' := map Printed (print_anomalies None l') ++ _).
    assert (R : Forall2 (alike_out tok) rows rows').
    { unfold rows, rows'. apply Forall2_app; [|destruct err; constructor; constructor]. pose proof (print_alike tok _ _ X1 None) as P. induction P; cbn; constructor; auto. now constructor. }
    assert (Fd : match rows with [] => false | _ => true end = match rows' with [] => false | _ => true end) by (destruct R; reflexivity). rewrite <- Fd.
    destruct (IH (inlined o && match rows with [] => false | _ => true end)) as [[[[ps n] k] b] [[[ps' n'] k'] b'] (I1 & I2 & I3 & I4)|e|]; [|constructor..]. cbn in I1, I2, I3, I4. subst n' k' b'. constructor. unfold alike_loop. cbn [fst snd]. rewrite X3, (f2_len _ _ _ X1). csplit; auto.
    apply Forall2_app; [apply same_pieces|]. apply Forall2_app; [apply same_pieces|]. apply Forall2_app; [|exact I1]. clear - R. induction R; cbn; constructor; auto. now constructor.
  - destruct (IH true) as [[[[ps n] k] b] [[[ps' n'] k'] b'] (I1 & I2 & I3 & I4)|e|]; [|constructor..]. cbn in I1, I2, I3, I4. subst. constructor. unfold alike_loop. cbn. csplit; auto. constructor; [constructor|exact I1].
Qed.
(** C101: all that is written to the screen, in every mode of output, is the same but for the rows, which are alike *)
Theorem C101_screen {Date} o m (c : content (@StoreModel.build Date)) target sources : get_sources target = Val sources -> (forall s, In s sources -> alike_log tok open open' s) ->
  alike_res (Forall2 alike_piece) (live_pieces tok search_of open err_text o m c target) (live_pieces tok search_of open' err_text o m c target).
Proof.
  intros Hs H. unfold live_pieces. rewrite Hs. destruct (loop_alike o m sources H false) as [[[[ps n] k] b] [[[ps' n'] k'] b'] (I1 & I2 & I3 & I4)|e|]; [|constructor..]. cbn in I1, I2, I3, I4. subst n' k' b'. destruct (content_text c); [|constructor]. constructor. apply Forall2_app; [exact I1|apply same_pieces].
Qed.
End Screen.

(** C101: lines that differ in noise only (see [same_up_to_noise]) are alike, if both or none are logreduce's own. *)
Theorem C101_noise word_char b b' t t' : utf8_decode b = Some t -> utf8_decode b' = Some t' -> same_up_to_noise word_char t t' -> is_marker b = is_marker b' -> alike_line (real_tok word_char) b b'.
Proof. intros E E' N M. apply AlikeText; [unfold valid_utf8; now rewrite E|unfold valid_utf8; now rewrite E'|unfold real_tok; now rewrite E, E', (noise_process _ _ _ N)|exact M]. Qed.
(** Not so if logreduce's own output is in one of them only, although the tokenized lines are the same: the rest of that log is not read. *)
Theorem C101_marker_refuted : exists items items' : list item,
  Forall2 (fun i i' => match i, i' with ILine b n, ILine b' n' => n = n' /\ valid_utf8 b = true /\ valid_utf8 b' = true /\ real_tok ascii_word b = real_tok ascii_word b' | _, _ => False end) items items' /\
  map (@apos bool) (fst (fst (process_all (fun d => d) (real_tok ascii_word) (map (fun _ => true)) items []))) = [] /\
  map (@apos bool) (fst (fst (process_all (fun d => d) (real_tok ascii_word) (map (fun _ => true)) items' []))) = [0; 1].
Proof.
  exists [ILine (lit "TASK [log-classify]") 0; ILine (lit "nothing like that") 1], [ILine (lit "TASK  [log-classify]") 0; ILine (lit "nothing like that") 1].
  split; [|split; vm_compute; reflexivity]. constructor; [csplit; vm_compute; reflexivity|]. constructor; [csplit; vm_compute; reflexivity|]. constructor.
Qed.

(** Another day, another number, more blanks: the line is not reported, and the next one is, at the same place with the same distance. *)
Definition noise_files' := files
  [ (lit "old/app.log", Val [lit "on monday run host12 again"]); (lit "old/db.log", Val [lit "open the base"]);
    (lit "new/app.log", Val [lit "on Friday run host90125 again"; lit " nothing  like that"]) ].
Example C101_example : alike_log (real_tok ascii_word) noise_files noise_files' (Local 4 (lit "new/app.log")).
Proof.
  unfold alike_log. replace (noise_files _) with (Val (A := bool -> list item) (fun _ => [ILine (lit "on March run host7 again ") 1; ILine (lit "nothing like that") 2])) by reflexivity.
  replace (noise_files' _) with (Val (A := bool -> list item) (fun _ => [ILine (lit "on Friday run host90125 again") 1; ILine (lit " nothing  like that") 2])) by reflexivity.
  intros _. constructor; [|constructor; [|constructor]]; constructor; apply AlikeText; vm_compute; reflexivity.
Qed.
Example C101_example_report : exists m r r',
  model_train (real_tok ascii_word) noise_files id_drain [ex_baseline] = Val m /\
  model_report above_threshold (real_tok ascii_word) (real_search byte_hash false) noise_files error_e id_drain m [src_e "new/app.log"] = Val r /\
  model_report above_threshold (real_tok ascii_word) (real_search byte_hash false) noise_files' error_e id_drain m [src_e "new/app.log"] = Val r' /\
  map (fun lr => map (fun c => (apos c, aline c)) (lr_anomalies lr)) (log_reports r) = [[(2, lit "nothing like that")]] /\
  map (fun lr => map (fun c => (apos c, aline c)) (lr_anomalies lr)) (log_reports r') = [[(2, lit " nothing  like that")]].
Proof. eexists _, _, _. split; [vm_compute; reflexivity|]. csplit; vm_compute; reflexivity. Qed.
Print Assumptions C101_findings.
Print Assumptions C101_report.
Print Assumptions C101_live.
Print Assumptions C101_page.
Print Assumptions C101_screen.
Print Assumptions C101_noise.
Print Assumptions C101_marker_refuted.
