(** Proofs about the page of a report. *)
From Coq Require Import String List NArith Arith Bool Lia ZifyBool ZifyN ZifyNat.
From Verif Require Import Common CommonFacts FilesModel ProcModel ReportModel HtmlModel HtmlSpec HtmlReportSpec HtmlProofs.
Import ListNotations.
Open Scope string_scope.
Open Scope list_scope.
Open Scope N_scope.
Ltac csplit := repeat match goal with |- _ /\ _ => split end.

(** ** Numbers *)
Definition val (s : list N) : N := fold_left (fun a c => 10 * a + c) s 0.
Lemma digits_val : forall f n, n < 2 ^ N.of_nat f -> (0 < f)%nat -> val (digits 10 f n) = n /\ Forall (fun d => d < 10) (digits 10 f n) /\
  (digits 10 f n = [0] \/ exists c r, digits 10 f n = c :: r /\ c <> 0).
Proof.
  induction f as [|f IH]; intros n Hn Hf; [lia|]. cbn [digits]. destruct (n <? 10) eqn:E.
  - csplit; [unfold val; cbn; lia|repeat constructor; lia|]. destruct (N.eq_dec n 0) as [-> |Hz]; [now left|right; eauto].
  - assert (Hf' : (0 < f)%nat). { destruct f; [|lia]. change (2 ^ N.of_nat 1) with 2 in Hn. lia. }
    assert (Hd : n / 10 < 2 ^ N.of_nat f).
    { apply N.div_lt_upper_bound; [lia|]. replace (2 ^ N.of_nat (S f)) with (2 * 2 ^ N.of_nat f) in Hn; [lia|].
      rewrite Nat2N.inj_succ, N.pow_succ_r'. reflexivity. }
    destruct (IH _ Hd Hf') as (I1 & I2 & I3). csplit.
    + unfold val in *. rewrite fold_left_app, I1. cbn [fold_left]. pose proof (N.div_mod n 10). lia.
    + apply Forall_app. split; [exact I2|]. repeat constructor. apply N.mod_lt. lia.
    + right. destruct I3 as [I3|(c & r & I3 & Hc)]; rewrite I3.
      * exfalso. rewrite I3 in I1. unfold val in I1. cbn in I1. assert (1 <= n / 10) by (apply N.div_le_lower_bound; lia). lia.
      * exists c, (r ++ [n mod 10]). auto.
Qed.
Lemma size_bound n : n < 2 ^ N.of_nat (S (N.size_nat n)).
Proof.
  pose proof (N.size_gt n). replace (N.of_nat (S (N.size_nat n))) with (N.succ (N.size n)).
  - rewrite N.pow_succ_r'. lia.
  - rewrite Nat2N.inj_succ. f_equal. destruct n as [|p]; [reflexivity|]. cbn [N.size N.size_nat]. clear. induction p as [p IH|p IH|]; cbn [Pos.size Pos.size_nat]; [| |reflexivity]; rewrite Nat2N.inj_succ, <- IH; reflexivity.
Qed.
Lemma val_chars ds : Forall (fun d => d < 10) ds -> forall a, fold_left (fun a c => 10 * a + (c - 48)) (map digit_char ds) a = fold_left (fun a c => 10 * a + c) ds a.
Proof.
  induction 1 as [|d ds Hd _ IH]; intros a; [reflexivity|]. cbn [map fold_left]. rewrite IH. f_equal. unfold digit_char. replace (d <? 10) with true by lia. lia.
Qed.
Lemma fmt_decimal n : decimal n (fmt n).
Proof.
  unfold decimal, fmt, fmt_base. destruct (digits_val (S (N.size_nat n)) n (size_bound n) ltac:(lia)) as (H1 & H2 & H3). csplit.
  - apply Forall_map. eapply Forall_impl; [|exact H2]. cbn. intros d Hd. unfold digit_char. replace (d <? 10) with true by lia. lia.
  - rewrite val_chars by exact H2. exact H1.
  - destruct H3 as [-> |(c & r & -> & Hc)]; [left; reflexivity|right]. cbn [map]. exists (digit_char c), (map digit_char r). split; [reflexivity|].
    unfold digit_char. destruct (c <? 10); lia.
Qed.
Lemma pad_padded c w s : padded c w s (pad c w s).
Proof. exists (w - length s)%nat. split; [reflexivity|lia]. Qed.
Lemma fmt_no60 n : ~ In 60 (fmt n).
Proof. intros H. destruct (fmt_decimal n) as (K & _). rewrite Forall_forall in K. apply K in H. lia. Qed.
Lemma pad_in c w s x : In x (pad c w s) -> x = c \/ In x s.
Proof. unfold pad. rewrite in_app_iff. intros [H|H]; [left; eapply repeat_spec; eauto|now right]. Qed.
Lemma hex_chars f : forall n x, In x (digits 16 f n) -> x < 16.
Proof.
  induction f as [|f IH]; intros n x H; [destruct H|]. cbn [digits] in H. destruct (n <? 16) eqn:E.
  - destruct H as [<-|[]]. lia.
  - rewrite in_app_iff in H. destruct H as [H|[<-|[]]]; [eauto|]. apply N.mod_lt. lia.
Qed.
Lemma hex_in n x : In x (fmt2X n) -> x = 32 \/ 48 <= x <= 70.
Proof.
  intros H. apply pad_in in H. destruct H as [H|H]; [now left|right]. unfold fmt_base in H. apply in_map_iff in H. destruct H as (d & <- & H).
  apply hex_chars in H. unfold digit_char. destruct (d <? 10) eqn:E; lia.
Qed.

(** ** Attributes *)
Lemma scan_letters n : forall r, forallb (fun c => negb ((c =? 62) || (c =? 34) || (c =? 39))) n = true -> scan None (n ++ r) = scan None r.
Proof.
  induction n as [|c n IH]; intros r H; [reflexivity|]. cbn [forallb] in H. apply andb_true_iff in H. destruct H as [H1 H2]. cbn [app scan].
  replace (c =? 62) with false by lia. replace ((c =? 34) || (c =? 39)) with false by lia. now apply IH.
Qed.
Lemma scan_value v : forall r, quotable v -> scan (Some 34) (v ++ 34 :: r) = scan None r.
Proof.
  unfold quotable. induction v as [|c v IH]; intros r H; [reflexivity|]. cbn [app scan]. cbn [In] in H. replace (c =? 34) with false by lia. apply IH. tauto.
Qed.
Lemma attr_ok name v : forallb (fun c => negb ((c =? 62) || (c =? 34) || (c =? 39))) (lit name) = true -> quotable v -> scan None (attr name v) = Some None.
Proof.
  intros H1 H2. unfold attr. rewrite scan_letters by exact H1. cbn [app scan]. cbn [N.eqb Pos.eqb orb]. rewrite scan_value by exact H2. reflexivity.
Qed.
Lemma no60_harmless t : ~ In 60 t -> harmless t.
Proof. induction t as [|c t IH]; cbn; [auto|]. intros H. split; [intros ->; tauto|tauto]. Qed.
Lemma harmless_app a t : ~ In 60 a -> harmless t -> harmless (a ++ t).
Proof. induction a as [|c a IH]; cbn; [auto|]. intros H K. split; [intros ->; tauto|]. apply IH; tauto. Qed.
Definition no60b (t : bytes) : bool := negb (memb 60 t).
Lemma no60_dec t : no60b t = true -> ~ In 60 t.
Proof. unfold no60b, memb. rewrite negb_true_iff. intros H K. rewrite <- not_true_iff_false in H. apply H. apply existsb_exists. exists 60. auto. Qed.
Lemma quotable_dec t : negb (memb 34 t) = true -> quotable t.
Proof. unfold quotable, memb. rewrite negb_true_iff. intros H K. rewrite <- not_true_iff_false in H. apply H. apply existsb_exists. exists 34. auto. Qed.

(** ** The page *)
Section Page.
Context {D : Type}.
Variable write : bytes -> bytes.
Variables (percent colour : D -> N).
(** Texts that are written without markup. *)
Variable ok : bytes -> Prop.
Hypothesis ok_write : forall t, ok t -> harmless (write t).
Hypothesis ok_plain : forall t, ~ In 60 t -> ok t.
Hypothesis ok_prefix : forall a t, ~ In 60 a -> ok t -> ok (a ++ t).
Notation line_node := (line_node percent colour).
Notation safe := (safe write).
Notation events := (events write).

Notation clean_source := (clean_source ok).
Notation clean_context := (clean_context ok).
Notation clean_log := (clean_log ok).
Notation clean_report := (clean_report ok).
Notation clean_summary := (clean_summary ok).
Notation clean_fixed := (clean_fixed ok).
Definition line_ok (l : @rline D) : Prop := match l with Hr => True | Ctx _ x => ok x | Anom _ _ x => ok x end.
Lemma context_ok xs : forall pos, Forall ok xs -> Forall line_ok (render_context (D := D) pos xs).
Proof. induction xs as [|x xs IH]; intros pos H; cbn; [constructor|]. inversion H; subst. constructor; [assumption|now apply IH]. Qed.
Lemma lines_ok checks l : forall lp out, Forall clean_context l -> render_lines checks lp l = Some out -> Forall line_ok out.
Proof.
  induction l as [|c l IH]; intros lp out H E; cbn [render_lines] in E; [injection E as <-; constructor|].
  inversion H as [|? ? (H1 & H2 & H3) H4]; subst. destruct (starting_pos checks c) as [start|]; [|discriminate].
  destruct (render_lines checks _ l) as [o|] eqn:Er; [|discriminate]. injection E as <-. specialize (IH _ _ H4 Er).
  rewrite !Forall_app. csplit; auto using context_ok.
  - destruct lp as [p|]; [destruct (p =? start)|]; repeat constructor.
  - constructor; [exact H2|]. apply Forall_app. auto using context_ok.
Qed.

Ltac nosixty := apply no60_dec; reflexivity.
Ltac sattr := first [reflexivity | apply attr_ok; [reflexivity|apply quotable_dec; reflexivity]].
Ltac selem := apply safe_elem; csplit; [reflexivity|repeat (constructor; [first [sattr|assumption|idtac]|]); try constructor|].
Lemma static_txt t : no60b t = true -> safe (Txt t).
Proof. intros H. cbn. apply ok_write, ok_plain. now apply no60_dec. Qed.

Lemma line_safe l : line_ok l -> safe (line_node l).
Proof.
  destruct l as [|n x|d n x]; intros H; unfold line_node.
  - selem. constructor.
  - selem. repeat constructor. apply ok_write, ok_prefix; [nosixty|]. rewrite app_assoc. apply ok_prefix; [|exact H].
    rewrite in_app_iff. intros [K|K]; [|revert K; nosixty]. apply pad_in in K. destruct K as [K|K]; [discriminate|]. revert K. apply fmt_no60.
  - selem.
    + apply attr_ok; [reflexivity|]. unfold quotable. rewrite !in_app_iff. intros [K|[K|K]]; [revert K; apply (quotable_dec (lit "color: #")); reflexivity| |revert K; apply (quotable_dec (lit "0000")); reflexivity].
      apply hex_in in K. lia.
    + repeat constructor. apply ok_write.
      replace (fmt02 (percent d) ++ lit " " ++ fmt4 n ++ lit " | " ++ x) with ((fmt02 (percent d) ++ lit " " ++ fmt4 n ++ lit " | ") ++ x) by (rewrite <- !app_assoc; reflexivity).
      apply ok_prefix; [|exact H]. rewrite !in_app_iff. intros [K|[K|[K|K]]].
      * apply pad_in in K. destruct K as [K|K]; [discriminate|]. revert K. apply fmt_no60.
      * revert K. nosixty.
      * apply pad_in in K. destruct K as [K|K]; [discriminate|]. revert K. apply fmt_no60.
      * revert K. nosixty.
Qed.
Lemma forall_map_safe {A} (f : A -> node) l : (forall x, In x l -> safe (f x)) -> Forall safe (map f l).
Proof. intros H. apply Forall_map, Forall_forall. exact H. Qed.
Lemma samples_safe l : Forall clean_source l -> safe (samples l).
Proof.
  intros H. unfold samples. selem. constructor; [apply static_txt; reflexivity|]. constructor; [|constructor]. selem. apply forall_map_safe.
  intros s Hs. assert (K : clean_source s). { rewrite Forall_forall in H. apply H. rewrite <- (firstn_skipn 3 l). apply in_or_app. now left. }
  destruct K as [K1 K2]. selem. constructor; [|constructor]. selem; [apply attr_ok; [reflexivity|exact K1]|]. repeat constructor. now apply ok_write.
Qed.
Lemma content_safe checks lr sources expand n : clean_log lr -> (forall l, sources = Some l -> Forall clean_source l) ->
  content_report percent colour checks lr sources expand = Some n -> safe n.
Proof.
  intros (H1 & H2 & H3 & H4 & H5) Hs E. unfold content_report in E. destruct (get_relative (lr_source lr)) as [name|]; [|discriminate].
  destruct (render_lines checks None (lr_anomalies lr)) as [lines|] eqn:Er; [|discriminate]. injection E as <-. specialize (H2 _ eq_refl).
  pose proof (lines_ok _ _ _ _ H5 Er) as Hl.
  selem. { destruct expand; sattr. }
  constructor; [|constructor; [|constructor]].
  - selem. constructor; [|constructor; [|constructor]].
    + selem. constructor; [|constructor]. selem; [destruct expand; sattr|constructor].
    + selem. constructor; [|constructor; [|constructor]].
      * selem. constructor; [|constructor]. selem. constructor.
      * selem. constructor; [|constructor; [|constructor; [|constructor; [|constructor]]]].
        -- selem. constructor; [|constructor]. selem. repeat constructor. now apply ok_write.
        -- selem. constructor; [|constructor; [|constructor; [|constructor]]].
           ++ selem. constructor.
           ++ selem.
              ** apply attr_ok; [reflexivity|]. unfold quotable in *. cbn [In]. intros K. repeat (destruct K as [K|K]; [discriminate|]). auto.
              ** repeat constructor. now apply ok_write.
           ++ apply static_txt. reflexivity.
        -- selem. constructor; [|constructor; [|constructor]].
           ++ selem. constructor.
           ++ selem; [now apply attr_ok|]. constructor; [|constructor]. apply static_txt. reflexivity.
        -- selem. constructor; [|constructor; [|constructor]].
           ++ selem. constructor.
           ++ selem. repeat constructor. apply ok_write, ok_plain, fmt_no60.
  - selem. { destruct expand; sattr. } cbn [app]. constructor; [|apply Forall_app; split].
    + selem. constructor; [|constructor]. selem. constructor.
    + destruct sources as [l|]; [|constructor]. constructor; [|constructor]. apply samples_safe. now apply Hs.
    + constructor; [|constructor]. selem. apply forall_map_safe. intros l Hin. apply line_safe. rewrite Forall_forall in Hl. auto.
Qed.
Lemma hm_get_in {V} n (m : list (text * V)) v : hm_get n m = Some v -> exists k, In (k, v) m.
Proof. induction m as [|[k w] m IH]; cbn; [discriminate|]. destruct (eqb_list k n); [intros E; injection E as <-; eauto|]. intros E. destruct (IH E) as (k' & K). eauto. Qed.
Lemma contents_safe checks r l : forall expand ns, Forall clean_log l -> Forall (fun x => Forall clean_source (snd x)) (index_reports r) ->
  content_reports percent colour checks expand r l = Some ns -> Forall safe ns.
Proof.
  induction l as [|lr l IH]; intros expand ns H Hi E; cbn [content_reports] in E; [injection E as <-; constructor|]. inversion H; subst.
  destruct (content_report percent colour checks lr _ expand) as [n|] eqn:En; [|discriminate].
  destruct (content_reports percent colour checks false r l) as [ns'|] eqn:El; [|discriminate]. injection E as <-. constructor; [|eauto].
  eapply content_safe; [eassumption| |exact En]. intros src Es. destruct (hm_get_in _ _ _ Es) as (k & K). rewrite Forall_forall in Hi. apply (Hi _ K).
Qed.
Lemma page_safe checks f s r n : clean_fixed f -> clean_summary s -> clean_report r -> page_node percent colour checks f s r = Some n -> safe n.
Proof.
  intros ((v & F1 & F1') & F2 & F3 & F4 & F5) (S1 & S2 & S3 & S4 & S5) (R1 & R2) E. unfold page_node, container in E.
  destruct (content_reports percent colour checks true r (log_reports r)) as [items|] eqn:Ei; [|discriminate]. injection E as <-.
  apply Forall_app in F2. destruct F2 as [F2 F2']. rewrite Forall_forall in F2, F2'.
  selem. constructor; [|constructor; [|constructor]].
  - unfold head. selem. cbn [app]. constructor; [|constructor; [|apply Forall_app; split]].
    + selem. repeat constructor. apply ok_write, ok_prefix; [nosixty|exact S1].
    + selem. constructor.
    + apply forall_map_safe. intros x Hx. destruct (F2 _ Hx). selem; [now apply attr_ok|now apply attr_ok|constructor].
    + constructor; [|constructor]. selem. repeat constructor. now apply ok_write.
  - selem. cbn [app]. constructor; [|constructor; [|apply Forall_app; split]].
    + unfold nav. selem. constructor; [|constructor; [|constructor]].
      * selem. constructor; [|constructor]. selem; [change (f_logo f = attr "src" v) in F1; rewrite F1; now apply attr_ok|constructor].
      * selem. constructor; [|constructor; [|constructor]].
        -- selem. constructor; [|constructor; [|constructor; [|constructor]]].
           ++ selem. constructor; [|constructor]. selem. constructor; [|constructor]. apply static_txt. reflexivity.
           ++ selem. constructor; [|constructor]. selem. constructor; [|constructor]. apply static_txt. reflexivity.
           ++ selem. constructor; [|constructor]. selem. constructor; [|constructor; [|constructor]].
              ** selem. constructor; [|constructor]. apply static_txt. reflexivity.
              ** cbn. now apply ok_write.
        -- selem. constructor; [|constructor; [|constructor]].
           ++ selem. constructor; [|constructor]. selem. constructor; [|constructor]. apply static_txt. reflexivity.
           ++ selem. constructor; [|constructor]. selem. constructor; [|constructor]. apply static_txt. reflexivity.
    + selem. constructor; [|constructor; [|constructor]].
      * unfold table. selem. constructor; [|constructor]. selem. constructor; [|constructor]. selem. apply forall_map_safe.
        intros x Hx. assert (K : ok (fst x) /\ ok (snd x)).
        { cbn in Hx. repeat (destruct Hx as [<-|Hx]; [split; [apply ok_plain; nosixty|assumption]|]). destruct Hx. }
        selem. constructor; [|constructor; [|constructor]]; selem; (repeat constructor); apply ok_write; tauto.
      * selem. eapply contents_safe; eauto.
    + apply forall_map_safe. intros x Hx. destruct (F2' _ Hx). selem; [now apply attr_ok|now apply attr_ok|constructor].
    + constructor; [|constructor]. selem. repeat constructor. now apply ok_write.
Qed.

(** *** What it shows *)
Definition shown_text (l : @rline D) : list bytes :=
  match l with
  | Hr => []
  | Ctx n x => [write (lit "   " ++ fmt4 n ++ lit " | " ++ x)]
  | Anom d n x => [write (fmt02 (percent d) ++ lit " " ++ fmt4 n ++ lit " | " ++ x)]
  end.
Lemma ev_quiet t a c : is_pre (lit t) = false -> is_heading (lit t) a = false -> events (el t a c) = flat_map events c.
Proof. intros H1 H2. unfold el. cbn [HtmlProofs.events]. now rewrite H1, H2. Qed.
Lemma ev_line l : events (line_node l) = map ELine (shown_text l).
Proof. destruct l; reflexivity. Qed.
Lemma ev_lines l : flat_map events (map line_node l) = map ELine (flat_map shown_text l).
Proof. induction l as [|x l IH]; [reflexivity|]. cbn [map flat_map]. now rewrite IH, ev_line, map_app. Qed.
Lemma flat_map_nil {A B} (f : A -> list B) l : (forall x, In x l -> f x = []) -> flat_map f l = [].
Proof. induction l as [|x l IH]; intros H; [reflexivity|]. cbn. rewrite H by now left. apply IH. intros y Hy. apply H. now right. Qed.
Lemma ev_samples l : events (samples l) = [].
Proof.
  unfold samples. rewrite ev_quiet by reflexivity. cbn [flat_map]. rewrite ev_quiet by reflexivity. rewrite app_nil_r. apply flat_map_nil.
  intros x Hx. apply in_map_iff in Hx. destruct Hx as (s & <- & _). reflexivity.
Qed.
Lemma ev_content checks lr sources expand n : content_report percent colour checks lr sources expand = Some n ->
  exists name lines, get_relative (lr_source lr) = Some name /\ render_lines checks None (lr_anomalies lr) = Some lines /\
    events n = EHead (write (utf8_encode name)) :: map ELine (flat_map shown_text lines).
Proof.
  unfold content_report. destruct (get_relative (lr_source lr)) as [name|]; [|discriminate].
  destruct (render_lines checks None (lr_anomalies lr)) as [lines|]; [|discriminate]. intros E. injection E as <-. exists name, lines. csplit; auto.
  rewrite ev_quiet; [|reflexivity|destruct expand; reflexivity]. cbn [flat_map]. rewrite app_nil_r.
  match goal with |- _ ++ events ?x = _ => set (L := x) end.
  assert (EL : events L = map ELine (flat_map shown_text lines)).
  { unfold L. rewrite ev_quiet; [|reflexivity|destruct expand; reflexivity]. cbn [app flat_map]. rewrite flat_map_app. cbn [flat_map].
    rewrite (ev_quiet "div" [attr "class" (lit "loglines")]) by reflexivity. rewrite ev_lines, app_nil_r.
    replace (flat_map events match sources with Some l => [samples l] | None => [] end) with (@nil event); [reflexivity|].
    destruct sources; cbn [flat_map]; [rewrite ev_samples|]; reflexivity. }
  rewrite EL. clear L EL. reflexivity.
Qed.
Lemma plain_quiet t a c : is_pre (lit t) = false -> is_heading (lit t) a = false -> Forall plain c -> plain (el t a c).
Proof. intros H1 H2 H3. apply plain_elem. now rewrite H1, H2. Qed.
Lemma plain_special t a x : plain (el t a [Txt x]).
Proof. apply plain_elem. destruct (_ || _); [eauto|]. repeat constructor. Qed.
Lemma plain_txt t : plain (Txt t).
Proof. exact I. Qed.
Ltac plains := repeat first [exact I | apply plain_special | constructor | apply plain_quiet; [reflexivity|reflexivity|]].
Lemma plain_line l : plain (line_node l).
Proof. destruct l; unfold line_node; [|apply plain_special|apply plain_special]. plains. Qed.
Lemma plain_content checks lr sources expand n : content_report percent colour checks lr sources expand = Some n -> plain n.
Proof.
  unfold content_report. destruct (get_relative (lr_source lr)) as [name|]; [|discriminate].
  destruct (render_lines checks None (lr_anomalies lr)) as [lines|]; [|discriminate]. intros E. injection E as <-.
  apply plain_quiet; [reflexivity|destruct expand; reflexivity|]. constructor; [plains|constructor; [|constructor]].
  apply plain_quiet; [reflexivity|destruct expand; reflexivity|]. cbn [app]. constructor; [plains|]. apply Forall_app. split.
  - destruct sources as [l|]; [|constructor]. constructor; [|constructor]. unfold samples. apply plain_quiet; [reflexivity|reflexivity|].
    constructor; [exact I|]. constructor; [|constructor]. apply plain_quiet; [reflexivity|reflexivity|]. apply Forall_map, Forall_forall. intros x _.
    apply plain_quiet; [reflexivity|reflexivity|]. constructor; [apply plain_special|constructor].
  - constructor; [|constructor]. apply plain_quiet; [reflexivity|reflexivity|]. apply Forall_map, Forall_forall. intros x _. apply plain_line.
Qed.
(** A log report and how it is shown. *)
Definition shown_log (checks : bool) (lr : @log_report D) (item : bytes * list bytes) : Prop :=
  exists name lines, get_relative (lr_source lr) = Some name /\ render_lines checks None (lr_anomalies lr) = Some lines /\
    item = (write (utf8_encode name), flat_map shown_text lines).
Lemma add_line_snoc s h xs x : add_line (s ++ [(h, xs)]) x = s ++ [(h, xs ++ [x])].
Proof.
  induction s as [|y s IH]; [reflexivity|]. cbn [app add_line]. rewrite IH. destruct y. destruct s; reflexivity.
Qed.
Lemma happen_lines l : forall s h xs, fold_left happen (map ELine l) (s ++ [(h, xs)]) = s ++ [(h, xs ++ l)].
Proof.
  induction l as [|x l IH]; intros s h xs; cbn [map fold_left happen]; [now rewrite app_nil_r|]. rewrite add_line_snoc, IH, <- app_assoc. reflexivity.
Qed.
Lemma ev_contents checks r l : forall expand ns, content_reports percent colour checks expand r l = Some ns ->
  Forall plain ns /\ exists items, Forall2 (shown_log checks) l items /\ forall s, fold_left happen (flat_map events ns) s = s ++ items.
Proof.
  induction l as [|lr l IH]; intros expand ns E; cbn [content_reports] in E.
  - injection E as <-. split; [constructor|]. exists []. split; [constructor|]. intros s. now rewrite app_nil_r.
  - destruct (content_report percent colour checks lr _ expand) as [n|] eqn:En; [|discriminate].
    destruct (content_reports percent colour checks false r l) as [ns'|] eqn:El; [|discriminate]. injection E as <-.
    destruct (IH _ _ El) as (I1 & items & I2 & I3). destruct (ev_content _ _ _ _ _ En) as (name & lines & N1 & N2 & N3).
    split; [constructor; [eapply plain_content; eauto|exact I1]|].
    exists ((write (utf8_encode name), flat_map shown_text lines) :: items). split.
    + constructor; [|exact I2]. exists name, lines. auto.
    + intros s. cbn [flat_map]. rewrite fold_left_app, N3. cbn [fold_left happen]. rewrite happen_lines, I3, <- app_assoc. reflexivity.
Qed.
Lemma page_view checks f s r p : clean_fixed f -> clean_summary s -> clean_report r ->
  render write percent colour checks f s r = Some p -> Forall2 (shown_log checks) (log_reports r) (view_of p).
Proof.
  intros Hf Hs Hr E. unfold render in E. destruct (page_node percent colour checks f s r) as [n|] eqn:En; [|discriminate]. injection E as <-.
  pose proof (page_safe _ _ _ _ _ Hf Hs Hr En) as Hsafe. unfold page_node, container in En.
  destruct (content_reports percent colour checks true r (log_reports r)) as [items|] eqn:Ei; [|discriminate]. injection En as <-.
  destruct (ev_contents _ _ _ _ _ Ei) as (P & its & I1 & I2).
  match type of Hsafe with safe ?n => assert (Ev : events n = flat_map events items) end.
  { rewrite ev_quiet by reflexivity. cbn [flat_map]. rewrite app_nil_r.
    replace (events (head f s)) with (@nil event).
    2:{ unfold head. rewrite ev_quiet by reflexivity. rewrite !flat_map_app. cbn [flat_map]. cbn. rewrite app_nil_r.
        symmetry. apply flat_map_nil. intros x Hx. apply in_map_iff in Hx. destruct Hx as (y & <- & _). reflexivity. }
    cbn [app]. rewrite ev_quiet by reflexivity. cbn [flat_map app]. rewrite flat_map_app. cbn [flat_map].
    rewrite (flat_map_nil events (map _ (f_scripts f))) by (intros x Hx; apply in_map_iff in Hx; destruct Hx as (y & <- & _); reflexivity).
    change (events (nav f)) with (@nil event). change (events (el "script" [] [Txt (f_js f)])) with (@nil event). rewrite !app_nil_r. cbn [app].
    rewrite ev_quiet by reflexivity. cbn [flat_map]. change (events (table _)) with (@nil event). rewrite app_nil_r. cbn [app].
    rewrite ev_quiet by reflexivity. reflexivity. }
  rewrite view_node; [|exact Hsafe|].
  - rewrite Ev, I2. exact I1.
  - apply plain_quiet; [reflexivity|reflexivity|]. constructor; [|constructor; [|constructor]].
    + unfold head. apply plain_quiet; [reflexivity|reflexivity|]. cbn [app]. constructor; [apply plain_special|constructor; [plains|]]. apply Forall_app. split.
      * apply Forall_map, Forall_forall. intros x _. apply plain_quiet; [reflexivity|reflexivity|constructor].
      * constructor; [apply plain_special|constructor].
    + apply plain_quiet; [reflexivity|reflexivity|]. cbn [app]. constructor; [unfold nav; plains|]. constructor.
      * apply plain_quiet; [reflexivity|reflexivity|]. constructor; [unfold table; plains|]. constructor; [|constructor]. apply plain_quiet; [reflexivity|reflexivity|exact P].
      * apply Forall_app. split; [|constructor; [apply plain_special|constructor]].
        apply Forall_map, Forall_forall. intros x _. apply plain_quiet; [reflexivity|reflexivity|constructor].
Qed.

(** *** Its tags *)
Definition is_hr (l : @rline D) : bool := match l with Hr => true | _ => false end.
Lemma context_hr xs : forall pos pos' ys, List.length xs = List.length ys -> map is_hr (render_context (D := D) pos xs) = map is_hr (render_context (D := D) pos' ys).
Proof. induction xs as [|x xs IH]; intros pos pos' [|y ys] H; try discriminate; [reflexivity|]. cbn. f_equal. apply IH. cbn in H. now injection H. Qed.
Lemma lines_hr checks l1 l2 : Forall2 same_context l1 l2 -> forall lp o1 o2, render_lines checks lp l1 = Some o1 -> render_lines checks lp l2 = Some o2 -> map is_hr o1 = map is_hr o2.
Proof.
  induction 1 as [|a b l1 l2 (H1 & H2 & H3) _ IH]; intros lp o1 o2 E1 E2; cbn [render_lines] in E1, E2.
  - injection E1 as <-. injection E2 as <-. reflexivity.
  - assert (Es : starting_pos checks a = starting_pos checks b) by (unfold starting_pos; now rewrite H1, H2). rewrite Es in E1.
    destruct (starting_pos checks b) as [start|]; [|discriminate]. rewrite H1, H3 in E1.
    destruct (render_lines checks _ l1) as [r1|] eqn:R1; [|discriminate]. destruct (render_lines checks _ l2) as [r2|] eqn:R2; [|discriminate].
    injection E1 as <-. injection E2 as <-. specialize (IH _ _ _ R1 R2). rewrite !map_app. cbn [map is_hr]. rewrite !map_app, IH.
    rewrite (context_hr (before a) start start (before b)) by exact H2. rewrite (context_hr (after a) (apos b) (apos b) (after b)) by exact H3. reflexivity.
Qed.
Lemma skel_lines l1 : forall l2, map is_hr l1 = map is_hr l2 -> flat_map skeleton (map line_node l1) = flat_map skeleton (map line_node l2).
Proof.
  induction l1 as [|a l1 IH]; intros [|b l2] H; try discriminate; [reflexivity|]. injection H as Ha Hl. cbn [map flat_map]. rewrite (IH _ Hl). f_equal.
  destruct a, b; try discriminate; reflexivity.
Qed.
Lemma skel_sources : forall l1 l2, List.length l1 = List.length l2 -> skeleton (samples l1) = skeleton (samples l2).
Proof.
  intros [|a [|b [|c l1]]] [|a' [|b' [|c' l2]]] H; try discriminate; reflexivity.
Qed.
Lemma skel_content checks a b s1 s2 expand e2 n1 n2 : Forall2 same_context (lr_anomalies a) (lr_anomalies b) ->
  option_map (@List.length source) s1 = option_map (@List.length source) s2 ->
  content_report percent colour checks a s1 expand = Some n1 -> content_report percent colour checks b s2 e2 = Some n2 -> skeleton n1 = skeleton n2.
Proof.
  intros H1 H2. unfold content_report. destruct (get_relative (lr_source a)) as [na|]; [|discriminate]. destruct (get_relative (lr_source b)) as [nb|]; [|discriminate].
  destruct (render_lines checks None (lr_anomalies a)) as [la|] eqn:La; [|discriminate].
  destruct (render_lines checks None (lr_anomalies b)) as [lb|] eqn:Lb; [|discriminate]. intros E1 E2. injection E1 as <-. injection E2 as <-.
  pose proof (skel_lines _ _ (lines_hr _ _ _ H1 _ _ _ La Lb)) as Hl.
  assert (Hs : flat_map skeleton match s1 with Some l => [samples l] | None => [] end = flat_map skeleton match s2 with Some l => [samples l] | None => [] end).
  { destruct s1 as [l1|], s2 as [l2|]; try discriminate; [|reflexivity]. cbn [flat_map]. injection H2 as H2. now rewrite (skel_sources l1 l2). }
  unfold el. cbn [skeleton flat_map app]. rewrite !flat_map_app. cbn [skeleton flat_map app]. rewrite Hl, Hs. reflexivity.
Qed.
Lemma skel_contents checks r1 r2 l1 l2 : Forall2 (same_log r1 r2) l1 l2 -> forall e1 e2 n1 n2,
  content_reports percent colour checks e1 r1 l1 = Some n1 -> content_reports percent colour checks e2 r2 l2 = Some n2 -> flat_map skeleton n1 = flat_map skeleton n2.
Proof.
  induction 1 as [|a b l1 l2 (H1 & H2) _ IH]; intros e1 e2 n1 n2 E1 E2; cbn [content_reports] in E1, E2.
  - injection E1 as <-. injection E2 as <-. reflexivity.
  - destruct (content_report percent colour checks a _ e1) as [c1|] eqn:C1; [|discriminate]. destruct (content_reports percent colour checks false r1 l1) as [m1|] eqn:M1; [|discriminate].
    destruct (content_report percent colour checks b _ e2) as [c2|] eqn:C2; [|discriminate]. destruct (content_reports percent colour checks false r2 l2) as [m2|] eqn:M2; [|discriminate].
    injection E1 as <-. injection E2 as <-. cbn [flat_map]. rewrite (IH _ _ _ _ M1 M2). now rewrite (skel_content _ _ _ _ _ _ _ _ _ H1 H2 C1 C2).
Qed.
Lemma page_same checks f s1 s2 r1 r2 p1 p2 : clean_fixed f -> clean_summary s1 -> clean_summary s2 -> clean_report r1 -> clean_report r2 -> same_shape r1 r2 ->
  render write percent colour checks f s1 r1 = Some p1 -> render write percent colour checks f s2 r2 = Some p2 -> tags (tokens p1) = tags (tokens p2).
Proof.
  intros Hf H1 H2 C1 C2 Hr E1 E2. unfold render in E1, E2. destruct (page_node percent colour checks f s1 r1) as [n1|] eqn:N1; [|discriminate].
  destruct (page_node percent colour checks f s2 r2) as [n2|] eqn:N2; [|discriminate]. injection E1 as <-. injection E2 as <-.
  rewrite (page_tags write n1) by exact (page_safe _ _ _ _ _ Hf H1 C1 N1). rewrite (page_tags write n2) by exact (page_safe _ _ _ _ _ Hf H2 C2 N2).
  unfold page_node, container in N1, N2. destruct (content_reports percent colour checks true r1 (log_reports r1)) as [i1|] eqn:I1; [|discriminate].
  destruct (content_reports percent colour checks true r2 (log_reports r2)) as [i2|] eqn:I2; [|discriminate]. injection N1 as <-. injection N2 as <-.
  pose proof (skel_contents _ _ _ _ _ Hr _ _ _ _ I1 I2) as Hi. unfold head, nav, table, el. cbn [skeleton flat_map app map fst snd].
  rewrite !flat_map_app. cbn [skeleton flat_map app]. rewrite Hi. reflexivity.
Qed.

(** *** When there is a page *)
Lemma contents_some checks r l : forall e, (exists ns, content_reports percent colour checks e r l = Some ns) <->
  Forall (fun lr : @log_report D => get_relative (lr_source lr) <> None /\ render_lines checks None (lr_anomalies lr) <> None) l.
Proof.
  induction l as [|a l IH]; intros e; cbn [content_reports]; [split; [constructor|intros _; eauto]|]. specialize (IH false).
  unfold content_report. destruct (get_relative (lr_source a)) as [na|] eqn:Ea.
  2:{ split; [intros (ns & E); discriminate|]. intros H. inversion H. tauto. }
  destruct (render_lines checks None (lr_anomalies a)) as [la|] eqn:La.
  2:{ split; [intros (ns & E); discriminate|]. intros H. inversion H. tauto. }
  destruct (content_reports percent colour checks false r l) as [ns|].
  - split; intros _; [|eauto]. constructor; [rewrite Ea, La; split; discriminate|]. apply IH. eauto.
  - split; [intros (ns & E); discriminate|]. intros H. inversion H as [|? ? _ K]; subst. apply IH in K. destruct K as (ns & K). discriminate.
Qed.
Lemma page_some checks f s r : render write percent colour checks f s r <> None <->
  Forall (fun lr : @log_report D => get_relative (lr_source lr) <> None /\ render_lines checks None (lr_anomalies lr) <> None) (log_reports r).
Proof.
  rewrite <- (contents_some checks r (log_reports r) true). unfold render, page_node, container. destruct (content_reports percent colour checks true r (log_reports r)) as [i|].
  - split; [eauto|discriminate].
  - split; [intros H; now contradict H|intros (ns & H); discriminate].
Qed.
End Page.
