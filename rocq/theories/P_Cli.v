(** Properties C54 and C62: the command line and its inputs. *)
From Coq Require Import String List NArith Bool.
From Verif Require Import Common CommonFacts FilesModel CliModel CliProofs.
Import ListNotations.
Open Scope N_scope.

(** The files that a report is written to. *)
Definition outputs (with_json : path -> path) (cache : bool) (report : option path) : list path :=
  match report with None => [] | Some f => f :: (if cache then [with_json f] else []) end.

Section Cli.
Context {Build Model Report : Type} (with_json : path -> path) (cache : bool).
Notation prog := (@prog Build Model Report).
Notation event := (@event Build Model Report).
Notation fs := (@fs Model Report).
Notation process := (@process Build Model Report with_json cache).
Notation run := (@run Build Model Report with_json cache).
Notation inspect := (@inspect Build Model Report with_json cache).
Implicit Types (s : fs) (q : prog) (tr : list event).

(** *** Analysis and report *)
Definition out_event (outs : list path) (e : event) : Prop :=
  match e with
  | Other => True
  | Created x _ => In x outs
  | Written x (ModelFile _) _ => False
  | Written x _ _ => In x outs
  | Lost x (ModelFile _) => False
  | Lost x _ => In x outs
  | _ => False
  end.
Definition unchanged (outs : list path) s s' : Prop := forall x, ~ In x outs -> s' x = s x.
Lemma unchanged_refl outs s : unchanged outs s s.
Proof. intros x _. reflexivity. Qed.
Lemma unchanged_set outs s s' p f : unchanged outs s s' -> In p outs -> unchanged outs s (set s' p f).
Proof. intros H Hp x Hx. rewrite set_other; [now apply H|]. intros ->. contradiction. Qed.

Lemma always_inspect (Q : list event -> fs -> option outcome -> Prop) report c m h s :
  Q h s None ->
  (forall s1 e o, unchanged (outputs with_json cache report) s s1 -> Forall (out_event (outputs with_json cache report)) e ->
     Q (h ++ Analysed c m :: e) s1 o) ->
  always Q h (inspect report c m) s.
Proof.
  intros H0 H.
  assert (Hn : forall s1 o, unchanged (outputs with_json cache report) s s1 -> Q (h ++ [Analysed c m]) s1 o) by (intros; apply H; auto).
  unfold CliModel.inspect. destruct report as [rp|].
  - cbn [always]. split; [exact H0|]. intros [r|e|]; cbn [try always]; [|apply Hn, unchanged_refl|apply Hn, unchanged_refl].
    assert (Ir : In rp (outputs with_json cache (Some rp))) by now left.
    assert (Rest : forall s1 e, unchanged (outputs with_json cache (Some rp)) s s1 -> Forall (out_event (outputs with_json cache (Some rp))) e ->
      always Q (h ++ Analysed c m :: e) (Render rp r (fun o => try o (fun _ => Create rp (Page r) (fun created => if created then Write rp (Page r) (fun written => Done (if written then Success else Failure)) else Done Failure)))) s1).
    { intros s1 e Hu He. cbn [always]. split; [now apply H|].
      assert (App : forall e', (h ++ Analysed c m :: e) ++ e' = h ++ Analysed c m :: (e ++ e')) by (intros; now rewrite <- app_assoc).
      assert (Fa : forall e', Forall (out_event (outputs with_json cache (Some rp))) e' -> Forall (out_event (outputs with_json cache (Some rp))) (e ++ e')) by (intros; apply Forall_app; auto).
      intros [o|e'|]; cbn [try always]; rewrite <- ?app_assoc; cbn [app]; rewrite ?App.
      - split; [apply H; [exact Hu|apply Fa; repeat constructor]|]. split.
        + split; [apply H; [now apply unchanged_set|apply Fa; repeat (constructor; auto)]|]. split; [|split].
          * apply H; [now apply unchanged_set, Ir; apply unchanged_set|apply Fa; repeat (constructor; auto)].
          * apply H; [now apply unchanged_set, Ir; apply unchanged_set|apply Fa; repeat (constructor; auto)].
          * discriminate.
        + apply H; [exact Hu|apply Fa; repeat (constructor; auto)].
      - apply H; [exact Hu|apply Fa; repeat constructor].
      - apply H; [exact Hu|apply Fa; repeat constructor]. }
    destruct cache.
    + assert (Ij : In (with_json rp) (outputs with_json true (Some rp))) by (right; now left).
      apply always_save; rewrite <- ?app_assoc; cbn [app].
      * apply Hn, unchanged_refl.
      * apply H; [apply unchanged_set; [apply unchanged_refl|exact Ij]|repeat (constructor; auto)].
      * apply H; [apply unchanged_refl|repeat (constructor; auto)].
      * apply H; [repeat apply unchanged_set; auto; apply unchanged_refl|repeat (constructor; auto)].
      * apply (Rest _ [Created (with_json rp) true; Written (with_json rp) (RawReport r) true]); [repeat apply unchanged_set; auto; apply unchanged_refl|repeat (constructor; auto)].
      * intros _. apply (Rest _ [Created (with_json rp) true; Lost (with_json rp) (RawReport r)]); [repeat apply unchanged_set; auto; apply unchanged_refl|repeat (constructor; auto)].
    + apply (Rest s []); [apply unchanged_refl|constructor].
  - cbn [always]. split; [exact H0|]. intros [r|e|]; cbn [try always]; apply Hn, unchanged_refl.
Qed.

Lemma here_some s p f : s p = Some f -> here s p = true.
Proof. unfold here. now intros ->. Qed.
Lemma here_none s p : s p = None -> here s p = false.
Proof. unfold here. now intros ->. Qed.

(** *** Before the analysis *)
(** Nothing is written while a model is found or made. *)
Definition fresh s (mp : option path) : Prop := match mp with Some p => s p = None | None => True end.
Definition pre_event s mp (e : event) : Prop :=
  match e with
  | Other | Got _ _ => True
  | Discovered _ _ | Trained _ _ => fresh s mp
  | Asked x b => b = here s x
  | Loaded x r => r = load (s x)
  | _ => False
  end.
Lemma always_process (Q : list event -> fs -> option outcome -> Prop) report mp baselines i s :
  (forall t o, Forall (pre_event s mp) t -> o <> Some Success -> Q t s o) ->
  (forall t l m c, Forall (pre_event s mp) t -> fresh s mp ->
     always Q (t ++ [Trained l (Val m)]) (keep_model mp m (inspect report c m)) s) ->
  (forall p m c, mp = Some p -> baselines = None -> s p = Some (ModelFile m) ->
     always Q [Got i (Val c); Asked p true; Loaded p (Val m)] (keep_model mp m (inspect report c m)) s) ->
  always Q [] (process report mp baselines i) s.
Proof.
  intros H0 HT HL.
  assert (O : forall l t, Forall (gets l) t -> Forall (pre_event s mp) t) by (intros t; apply Forall_impl; intros [ ]; cbn; tauto).
  assert (Fin : forall t l, Forall (pre_event s mp) t -> forall c, fresh s mp ->
    always Q t (Train l (fun m => try m (fun m => keep_model mp m (inspect report c m)))) s).
  { intros t l Ht c Hm. cbn [always]. split; [apply H0; [exact Ht|discriminate]|]. intros [m|e|]; cbn [try always].
    - now apply HT.
    - apply H0; [apply Forall_app; split; [exact Ht|repeat (constructor; auto)]|discriminate].
    - apply H0; [apply Forall_app; split; [exact Ht|repeat (constructor; auto)]|discriminate]. }
  assert (Bu : forall t c, Forall (pre_event s mp) t -> fresh s mp ->
    always Q t match baselines with
      | None => Discover c (fun bs => try bs (fun bs => Train bs (fun m => try m (fun m => keep_model mp m (inspect report c m)))))
      | Some l => get_contents l (fun bs => Train bs (fun m => try m (fun m => keep_model mp m (inspect report c m)))) end s).
  { intros t c Ht Hm. destruct baselines as [l|].
    - apply always_contents; [intros n Hg..|intros cs El; pose proof (gets_got (Model := Model) (Report := Report) l cs)].
      + apply H0; [apply Forall_app; eauto|discriminate].
      + apply H0; [apply Forall_app; eauto|discriminate].
      + apply H0; [apply Forall_app; eauto|discriminate].
      + apply Fin; [apply Forall_app; eauto|exact Hm].
    - split; [apply H0; [exact Ht|discriminate]|]. intros [bs|e|]; cbn [try].
      + apply Fin; [apply Forall_app; split; [exact Ht|repeat constructor; exact Hm]|exact Hm].
      + apply H0; [apply Forall_app; split; [exact Ht|repeat (constructor; auto)]|discriminate].
      + apply H0; [apply Forall_app; split; [exact Ht|repeat (constructor; auto)]|discriminate]. }
  unfold CliModel.process. split; [apply H0; [constructor|discriminate]|].
  intros [c|e|]; cbn [try app]; [|apply H0; [repeat constructor|discriminate]|apply H0; [repeat constructor|discriminate]].
  destruct mp as [p|].
  - split; [apply H0; [repeat constructor|discriminate]|]. cbn [app]. destruct (s p) as [f|] eqn:Ef.
    + pose proof (here_some _ _ _ Ef) as Eh. rewrite Eh. destruct baselines as [l|] eqn:Eb.
      * apply H0; [repeat (constructor; cbn; auto)|discriminate].
      * split; [apply H0; [repeat (constructor; cbn; auto)|discriminate]|]. rewrite Ef. cbn [app].
        assert (A : f <> Junk -> True) by trivial. destruct f as [m|r|r|]; cbn [load try always].
        -- now apply (HL p m c).
        -- apply H0; [repeat (constructor; cbn; rewrite ?Ef; auto)|discriminate].
        -- apply H0; [repeat (constructor; cbn; rewrite ?Ef; auto)|discriminate].
        -- apply H0; [repeat (constructor; cbn; rewrite ?Ef; auto)|discriminate].
    + pose proof (here_none _ _ Ef) as Eh. rewrite Eh. apply Bu; [repeat (constructor; cbn; auto)|exact I || auto].
  - apply Bu; [repeat constructor|exact I].
Qed.

Lemma out_forall (E : event -> Prop) outs e : (forall x, out_event outs x -> E x) -> Forall (out_event outs) e -> Forall E e.
Proof. intros H. apply Forall_impl. exact H. Qed.

(** ** C54 *)
(** *** A model file that exists *)
(** It is used as it is, and nothing is trained: at every point of every execution. *)
Theorem C54_existing_model : forall report p baselines i s f tr q s',
  s p = Some f -> ~ In p (outputs with_json cache report) ->
  exec (process report (Some p) baselines i, s) tr (q, s') ->
  s' p = Some f /\
  (forall l m, ~ In (Trained l m) tr) /\ (forall c l, ~ In (Discovered c l) tr) /\
  (forall c m, In (Analysed c m) tr -> baselines = None /\ f = ModelFile m) /\
  (q = Done Success -> baselines = None /\ exists c m, f = ModelFile m /\ In (Analysed c m) tr).
Proof.
  intros report p baselines i s f tr q s' Hf Hp He.
  set (E := fun e : event => match e with Trained _ _ | Discovered _ _ => False | Analysed _ m => baselines = None /\ f = ModelFile m | _ => True end).
  set (Q := fun (h : list event) (s1 : fs) (o : option outcome) => s1 p = Some f /\ Forall E h /\
    (o = Some Success -> baselines = None /\ exists c m, f = ModelFile m /\ In (Analysed c m) h)).
  assert (A : always Q [] (process report (Some p) baselines i) s).
  { apply always_process.
    - intros t o Ht Ho. unfold Q; csplit; [exact Hf| |contradiction]. eapply Forall_impl; [|exact Ht].
      intros [ | | | | | | | | | ]; cbn; auto; try tauto; rewrite Hf; discriminate.
    - intros t l m c Ht Hn. cbn [fresh] in Hn. congruence.
    - intros p' m c Ep Eb Ef. injection Ep as <-. rewrite Hf in Ef. injection Ef as Ef.
      assert (B : Forall E [Got i (Val c); Asked p true; Loaded p (Val m); Asked p true]) by (repeat constructor).
      split; [unfold Q; csplit; [exact Hf|repeat constructor|discriminate]|]. rewrite (here_some _ _ _ Hf). cbn [app].
      apply always_inspect; [unfold Q; csplit; [exact Hf|exact B|discriminate]|]. intros s1 e o Hu He'. unfold Q; csplit.
      + rewrite Hu; auto.
      + apply Forall_app. split; [exact B|]. constructor; [split; auto|].
        eapply out_forall; [|exact He']. intros [ | | | | | | | | | ]; cbn; tauto.
      + intros _. split; [exact Eb|]. exists c, m. split; [exact Ef|]. apply in_or_app. right. now left. }
  destruct (reach Q _ _ _ _ _ A He) as [H1 [H2 H3]]. rewrite Forall_forall in H2. csplit; [exact H1|..].
  - intros l m H. exact (H2 _ H).
  - intros c l H. exact (H2 _ H).
  - intros c m H. exact (H2 _ H).
  - intros ->. now apply H3.
Qed.

(** *** A model file that does not exist *)
(** The model of this run, saved at [p], or so it was believed (see [Lost]). *)
Definition kept (p : path) (m : Model) tr : Prop := In (Written p (ModelFile m) true) tr \/ In (Lost p (ModelFile m)) tr.
(** A failure to save it, at any point. *)
Definition save_failed (p : path) tr : Prop := In (Created p false) tr \/ exists m, In (Written p (ModelFile m) false) tr.


(** All executions, when there is no model yet. *)
Inductive new_run report (p : path) s : list event -> fs -> option outcome -> Prop :=
| NewBefore t o : Forall (pre_event s (Some p)) t -> o <> Some Success -> new_run report p s t s o
| NewNotCreated t l m : Forall (pre_event s (Some p)) t ->
    new_run report p s (t ++ [Trained l (Val m); Asked p false; Created p false]) s (Some Failure)
| NewCreated t l m s1 : Forall (pre_event s (Some p)) t -> s1 p = Some Junk -> unchanged [p] s s1 ->
    new_run report p s (t ++ [Trained l (Val m); Asked p false; Created p true]) s1 None
| NewPartial t l m s1 : Forall (pre_event s (Some p)) t -> s1 p = Some Junk -> unchanged [p] s s1 ->
    new_run report p s (t ++ [Trained l (Val m); Asked p false; Created p true; Written p (ModelFile m) false]) s1 (Some Failure)
| NewSaved t l m x s1 : Forall (pre_event s (Some p)) t ->
    (x = Written p (ModelFile m) true /\ s1 p = Some (ModelFile m) \/ x = Lost p (ModelFile m) /\ s1 p = Some Junk) -> unchanged [p] s s1 ->
    new_run report p s (t ++ [Trained l (Val m); Asked p false; Created p true; x]) s1 None
| NewAnalysed t l m c x e s1 s2 o : Forall (pre_event s (Some p)) t ->
    (x = Written p (ModelFile m) true /\ s1 p = Some (ModelFile m) \/ x = Lost p (ModelFile m) /\ s1 p = Some Junk) -> unchanged [p] s s1 ->
    unchanged (outputs with_json cache report) s1 s2 -> Forall (out_event (outputs with_json cache report)) e ->
    new_run report p s (t ++ Trained l (Val m) :: Asked p false :: Created p true :: x :: Analysed c m :: e) s2 o.
Lemma new_run_all report p baselines i s tr q s' : s p = None ->
  exec (process report (Some p) baselines i, s) tr (q, s') -> new_run report p s tr s' (status q).
Proof.
  intros Hf He. revert He. apply reach. apply always_process.
  - intros t o Ht Ho. now constructor.
  - intros t l m c Ht _. cbn [keep_model]. split.
    { apply NewBefore; [|discriminate]. apply Forall_app. split; [exact Ht|]. repeat constructor. exact Hf. }
    rewrite (here_none _ _ Hf). rewrite <- app_assoc. cbn [app].
    assert (U : forall f f', unchanged [p] s (set (set s p f) p f')).
    { intros f f'. repeat (apply unchanged_set; [|now left]). apply unchanged_refl. }
    apply always_save; rewrite <- ?app_assoc; cbn [app].
    + apply NewBefore; [|discriminate]. apply Forall_app. split; [exact Ht|]. repeat (constructor; cbn; auto). now rewrite here_none.
    + apply NewCreated; [exact Ht|now rewrite set_same|]. apply unchanged_set; [apply unchanged_refl|now left].
    + now apply NewNotCreated.
    + apply NewPartial; [exact Ht|now rewrite set_same|apply U].
    + apply always_inspect.
      * apply NewSaved; [exact Ht| |apply U]. left. now rewrite set_same.
      * intros s1 e o Hu He'. rewrite <- app_assoc. cbn [app]. eapply NewAnalysed; [exact Ht| | |exact Hu|exact He'].
        -- left. now rewrite set_same.
        -- apply U.
    + intros _. apply always_inspect.
      * apply NewSaved; [exact Ht| |apply U]. right. now rewrite set_same.
      * intros s1 e o Hu He'. rewrite <- app_assoc. cbn [app]. eapply NewAnalysed; [exact Ht| | |exact Hu|exact He'].
        -- right. now rewrite set_same.
        -- apply U.
  - intros p' m c Ep _ Ef. injection Ep as <-. congruence.
Qed.

Lemma unique_split {A} (P : A -> Prop) l1 x l2 t1 y t2 : Forall (fun z => ~ P z) l1 -> Forall (fun z => ~ P z) l2 -> P y ->
  l1 ++ x :: l2 = t1 ++ y :: t2 -> t1 = l1 /\ y = x.
Proof.
  intros H1 H2 Hy. revert t1. induction H1 as [|z l1 Hz H1 IH]; intros [|w t1] E; cbn [app] in E; injection E as E1 E2.
  - now subst.
  - subst. rewrite Forall_forall in H2. destruct (H2 y); [apply in_elt|exact Hy].
  - subst. contradiction.
  - destruct (IH _ E2) as [-> ->]. now subst.
Qed.
Definition analysis (e : event) : Prop := match e with Analysed _ _ => True | _ => False end.
Definition writes (p : path) (e : event) : Prop :=
  match e with Created x _ => x = p | Written x (ModelFile _) _ => True | Lost x (ModelFile _) => True | _ => False end.
Lemma pre_no_analysis s mp t : Forall (pre_event s mp) t -> Forall (fun e => ~ analysis e) t.
Proof. apply Forall_impl. intros [ | | | | | | | | | ]; cbn; tauto. Qed.
Lemma out_no_analysis outs t : Forall (out_event outs) t -> Forall (fun e => ~ analysis e) t.
Proof. apply Forall_impl. intros [ | | | | | | | | | ]; cbn; tauto. Qed.
Lemma pre_no_writes p s mp t : Forall (pre_event s mp) t -> Forall (fun e => ~ writes p e) t.
Proof. apply Forall_impl. intros [ | | | | | | | | | ]; cbn; tauto. Qed.
Lemma out_no_writes p outs t : ~ In p outs -> Forall (out_event outs) t -> Forall (fun e => ~ writes p e) t.
Proof. intros H. apply Forall_impl. intros [ | | | | | |x [ | | | ]|x [ | | | ]| | ]; cbn; try tauto. intros Hx ->. contradiction. Qed.
Lemma no_in {A} (P : A -> Prop) l x : Forall (fun z => ~ P z) l -> P x -> ~ In x l.
Proof. rewrite Forall_forall. intros H Hx Hi. exact (H _ Hi Hx). Qed.

Theorem C54_new_model : forall report p baselines i s tr q s',
  s p = None -> ~ In p (outputs with_json cache report) ->
  exec (process report (Some p) baselines i, s) tr (q, s') ->
  (* what is analysed is analysed with a model that was just trained and saved *)
  (forall t1 c m t2, tr = t1 ++ Analysed c m :: t2 -> kept p m t1 /\ exists l, In (Trained l (Val m)) t1) /\
  (* no analysis when it cannot be saved *)
  (save_failed p tr -> (forall c m, ~ In (Analysed c m) tr) /\ (q = Done Failure)) /\
  (* once saved, it stays *)
  (forall m, In (Written p (ModelFile m) true) tr -> s' p = Some (ModelFile m)) /\
  (q = Done Success -> exists m, kept p m tr).
Proof.
  intros report p baselines i s tr q s' Hf Hp He. pose proof (new_run_all _ _ _ _ _ _ _ _ Hf He) as R.
  assert (St : forall o, status q = Some o -> q = Done o) by (destruct q; cbn; congruence).
  assert (St' : forall o, q = Done o -> status q = Some o) by (now intros o ->).
  assert (NA : forall l, Forall (fun e => ~ analysis e) l -> forall t1 c m t2, l <> t1 ++ Analysed c m :: t2).
  { intros l Hl t1 c m t2 ->. rewrite Forall_forall in Hl. apply (Hl (Analysed c m)); [apply in_elt|exact I]. }
  inversion R as [t o Ht Ho|t l m Ht|t l m s1 Ht|t l m s1 Ht|t l m x s1 Ht Hx Hu|t l m c x e s1 s2 o Ht Hx Hu Hv Hev]; subst;
    pose proof (pre_no_analysis _ _ _ Ht) as Ta; pose proof (pre_no_writes p _ _ _ Ht) as Tw.
  - csplit.
    + intros t1 c m t2 E. now apply NA in E.
    + intros [F|[m F]]; exfalso; revert F; eapply no_in; try exact Tw; cbn; auto.
    + intros m F. exfalso. revert F. eapply no_in; [exact Tw|cbn; auto].
    + intros E. now apply St' in E.
  - assert (Ta' : Forall (fun e => ~ analysis e) (t ++ [Trained l (Val m); Asked p false; Created p false])) by (apply Forall_app; split; [exact Ta|repeat constructor; cbn; tauto]).
    csplit.
    + intros t1 c m' t2 E. now apply NA in E.
    + intros _. split; [|now apply St]. intros c m'. eapply no_in; [exact Ta'|exact I].
    + intros m' F. exfalso. apply in_app_or in F as [F|F]; [revert F; eapply no_in; [exact Tw|cbn; auto]|]. cbn in F. intuition discriminate.
    + intros E. apply St' in E. congruence.
  - assert (Ta' : Forall (fun e => ~ analysis e) (t ++ [Trained l (Val m); Asked p false; Created p true])) by (apply Forall_app; split; [exact Ta|repeat constructor; cbn; tauto]).
    csplit.
    + intros t1 c m' t2 E. now apply NA in E.
    + intros [F|[m' F]]; exfalso; (apply in_app_or in F as [F|F]; [revert F; eapply no_in; [exact Tw|cbn; auto]|]; cbn in F; intuition discriminate).
    + intros m' F. exfalso. apply in_app_or in F as [F|F]; [revert F; eapply no_in; [exact Tw|cbn; auto]|]. cbn in F. intuition discriminate.
    + intros E. apply St' in E. congruence.
  - assert (Ta' : Forall (fun e => ~ analysis e) (t ++ [Trained l (Val m); Asked p false; Created p true; Written p (ModelFile m) false])) by (apply Forall_app; split; [exact Ta|repeat constructor; cbn; tauto]).
    csplit.
    + intros t1 c m' t2 E. now apply NA in E.
    + intros _. split; [|now apply St]. intros c m'. eapply no_in; [exact Ta'|exact I].
    + intros m' F. exfalso. apply in_app_or in F as [F|F]; [revert F; eapply no_in; [exact Tw|cbn; auto]|]. cbn in F. intuition discriminate.
    + intros E. apply St' in E. congruence.
  - assert (Ta' : Forall (fun e => ~ analysis e) (t ++ [Trained l (Val m); Asked p false; Created p true; x])).
    { apply Forall_app; split; [exact Ta|]. destruct Hx as [[-> _]|[-> _]]; repeat constructor; cbn; tauto. }
    csplit.
    + intros t1 c m' t2 E. now apply NA in E.
    + intros [F|[m' F]]; exfalso; (apply in_app_or in F as [F|F]; [revert F; eapply no_in; [exact Tw|cbn; auto]|]; cbn in F; destruct Hx as [[-> _]|[-> _]]; intuition discriminate).
    + intros m' F. apply in_app_or in F as [F|F]; [exfalso; revert F; eapply no_in; [exact Tw|cbn; auto]|]. cbn in F.
      destruct Hx as [[-> Hx]|[-> Hx]]; intuition congruence.
    + intros E. apply St' in E. congruence.
  - pose proof (out_no_analysis _ _ Hev) as Ea. pose proof (out_no_writes p _ _ Hp Hev) as Ew.
    assert (Sp : s' p = s1 p) by now apply Hv. csplit.
    + intros t1 c' m' t2 E.
      change (t ++ Trained l (Val m) :: Asked p false :: Created p true :: x :: Analysed c m :: e) with (t ++ [Trained l (Val m); Asked p false; Created p true; x] ++ Analysed c m :: e) in E.
      rewrite app_assoc in E. eapply (unique_split analysis) in E as [-> E]; [|apply Forall_app; split; [exact Ta|]|exact Ea|exact I].
      * injection E as <- <-. split.
        -- unfold kept. rewrite !in_app_iff. cbn [In]. destruct Hx as [[-> _]|[-> _]]; auto 10.
        -- exists l. rewrite in_app_iff. cbn [In]. auto.
      * destruct Hx as [[-> _]|[-> _]]; repeat constructor; cbn; tauto.
    + assert (NF : forall y, In y (t ++ Trained l (Val m) :: Asked p false :: Created p true :: x :: Analysed c m :: e) -> writes p y -> y = Created p true \/ y = x).
      { intros y F Wy. apply in_app_or in F as [F|F]; [exfalso; revert F; eapply no_in; [exact Tw|exact Wy]|].
        destruct F as [<-|[<-|[<-|[<-|[<-|F]]]]]; auto; try (destruct Wy; fail). exfalso. revert F. eapply no_in; [exact Ew|exact Wy]. }
      intros [F|[m' F]]; exfalso; destruct (NF _ F) as [E|E]; cbn; auto; try discriminate; destruct Hx as [[-> _]|[-> _]]; discriminate.
    + intros m' F. rewrite Sp. apply in_app_or in F as [F|F]; [exfalso; revert F; eapply no_in; [exact Tw|cbn; auto]|].
      assert (Xe : ~ In (Written p (ModelFile m') true) e) by (eapply no_in; [exact Ew|cbn; auto]).
      destruct Hx as [[-> Hx]|[-> Hx]]; cbn [In] in F; intuition congruence.
    + intros _. exists m. unfold kept. rewrite !in_app_iff. cbn [In]. destruct Hx as [[-> _]|[-> _]]; auto 10.
Qed.

(** *** The next run *)
(** A model saved by a run that ended well is the model of the next run, which trains nothing:
    unless its last bytes were lost ([C54_lost_refuted]). *)
Theorem C54_next_run : forall report p baselines i s tr s' report' i' tr' q' s'' x c m,
  s p = None -> ~ In p (outputs with_json cache report) -> ~ In p (outputs with_json cache report') ->
  exec (process report (Some p) baselines i, s) tr (Done Success, s') ->
  (forall f, ~ In (Lost p f) tr) ->
  exec (process report' (Some p) None i', s') tr' (q', s'') -> In x tr' ->
  (forall l r, x <> Trained l r) /\ (x = Analysed c m -> exists l, In (Trained l (Val m)) tr).
Proof.
  intros report p baselines i s tr s' report' i' tr' q' s'' x c m Hn Hp Hp' He Hl He' Hx.
  destruct (C54_new_model _ _ _ _ _ _ _ _ Hn Hp He) as [_ [_ [K S]]].
  destruct (S eq_refl) as [m0 [W|W]]; [|destruct (Hl _ W)]. apply K in W as W'.
  destruct (C54_existing_model _ _ _ _ _ _ _ _ _ W' Hp' He') as [_ [T [_ [A _]]]]. split.
  - intros l r ->. exact (T _ _ Hx).
  - intros ->. destruct (A _ _ Hx) as [_ E]. injection E as <-.
    pose proof (new_run_all _ _ _ _ _ _ _ _ Hn He) as R. cbn [status] in R.
    inversion R as [t o Ht Ho| | | | |t l m1 c1 y e s1 s2 o Ht Hy Hu Hv Hev]; subst; [contradiction|].
    exists l. apply in_or_app. right. left. f_equal. f_equal. apply in_app_or in W as [W|W].
    + exfalso. revert W. apply (no_in (writes p)); [now apply (pre_no_writes p) in Ht|exact I].
    + destruct W as [W|[W|[W|[W|[W|W]]]]]; try discriminate.
      * destruct Hy as [[-> _]|[-> _]]; [now injection W|discriminate].
      * exfalso. revert W. apply (no_in (writes p)); [now apply (out_no_writes p) in Hev|exact I].
Qed.

(** What is not a model, for example what an interrupted save leaves, is never replaced: no run
    with this model path analyses anything or succeeds, until the user removes the file. *)
Theorem C54_damaged_model_blocks : forall report p baselines i s f tr q s',
  s p = Some f -> (forall m, f <> ModelFile m) -> ~ In p (outputs with_json cache report) ->
  exec (process report (Some p) baselines i, s) tr (q, s') ->
  s' p = Some f /\ (forall c m, ~ In (Analysed c m) tr) /\ q <> Done Success.
Proof.
  intros report p baselines i s f tr q s' Hf Hm Hp He.
  destruct (C54_existing_model _ _ _ _ _ _ _ _ _ Hf Hp He) as [H1 [_ [_ [H4 H5]]]]. csplit; [exact H1|..].
  - intros c m Hi. destruct (H4 _ _ Hi) as [_ E]. exact (Hm _ E).
  - intros E. destruct (H5 E) as [_ [c [m [E' _]]]]. exact (Hm _ E').
Qed.

(** *** Baselines and a model that exists *)
Theorem C54_ambiguous : forall report p l i s f tr q s',
  s p = Some f -> exec (process report (Some p) (Some l) i, s) tr (q, s') ->
  s' = s /\ (forall c m, ~ In (Analysed c m) tr) /\ q <> Done Success.
Proof.
  intros report p l i s f tr q s' Hf He.
  set (Q := fun (h : list event) (s1 : fs) (o : option outcome) => s1 = s /\ Forall (fun e => ~ analysis e) h /\ o <> Some Success).
  assert (A : always Q [] (process report (Some p) (Some l) i) s).
  { apply always_process.
    - intros t o Ht Ho. unfold Q; csplit; auto. now apply pre_no_analysis in Ht.
    - intros t l' m c Ht Hn. cbn [fresh] in Hn. congruence.
    - discriminate. }
  destruct (reach Q _ _ _ _ _ A He) as [H1 [H2 H3]]. csplit; [exact H1|..].
  - intros c m. eapply no_in; [exact H2|exact I].
  - intros ->. now apply H3.
Qed.

(** *** Every command *)
(** The only files that a command changes are the model and the report, and [train] needs a
    model path. *)
Theorem C54_other_files_unchanged : forall report mp c s tr q s' x,
  exec (run report mp c, s) tr (q, s') ->
  ~ In x (match mp with Some p => [p] | None => [] end) -> ~ In x (outputs with_json cache report) -> s' x = s x.
Proof.
  intros report mp c s tr q s' x He Hm Ho.
  set (Q := fun (h : list event) (s1 : fs) (o : option outcome) => s1 x = s x).
  assert (Aset : forall s1 p f, mp = Some p -> s1 x = s x -> set s1 p f x = s x).
  { intros s1 p f E H. rewrite set_other; [exact H|]. intros ->. apply Hm. rewrite E. now left. }
  assert (Ai : forall h c m s1, s1 x = s x -> always Q h (inspect report c m) s1).
  { intros h c0 m s1 H. apply always_inspect; [exact H|]. intros s2 e o Hu _. unfold Q. now rewrite Hu. }
  assert (Ak : forall h c m, always Q h (keep_model mp m (inspect report c m)) s).
  { intros h c0 m. destruct mp as [p|]; cbn [keep_model]; [|now apply Ai]. split; [reflexivity|].
    destruct (here s p); [now apply Ai|]. apply always_save; try reflexivity; unfold Q; intros; auto. }
  assert (P : forall b i, always Q [] (process report mp b i) s) by (intros b i; apply always_process; intros; auto; reflexivity).
  assert (A : always Q [] (run report mp c) s).
  { destruct c as [src dst|p|u| | |bs|]; cbn [CliModel.run]; [apply P|apply P|apply P|exact (eq_refl (s x))|exact (eq_refl (s x))|..].
    - destruct mp as [p|]; [|exact (eq_refl (s x))]. apply always_contents; try (intros; exact (eq_refl (s x))). intros cs _.
      split; [exact (eq_refl (s x))|]. intros [m|e|]; cbn [try]; [|exact (eq_refl (s x))|exact (eq_refl (s x))].
      apply always_save; unfold Q; cbn [always]; auto.
    - split; [exact (eq_refl (s x))|]. intros [o|e|]; exact (eq_refl (s x)). }
  exact (reach Q _ _ _ _ _ A He).
Qed.

(** [train] replaces the model, whatever was at [p], and ends well only if it did. *)
Theorem C54_train : forall report p l s tr q s',
  exec (run report (Some p) (CmdTrain l), s) tr (q, s') ->
  (forall c m, ~ In (Analysed c m) tr) /\
  (forall m, In (Written p (ModelFile m) true) tr -> s' p = Some (ModelFile m) /\ exists cs, In (Trained cs (Val m)) tr) /\
  (save_failed p tr -> q = Done Failure) /\
  (q = Done Success -> exists m, kept p m tr) /\
  ((forall ok, ~ In (Created p ok) tr) -> s' p = s p).
Proof.
  intros report p l s tr q s' He.
  set (Q := fun (h : list event) (s1 : fs) (o : option outcome) =>
    Forall (fun e => ~ analysis e) h /\
    (forall m, In (Written p (ModelFile m) true) h -> s1 p = Some (ModelFile m) /\ exists cs, In (Trained cs (Val m)) h) /\
    (save_failed p h -> o = Some Failure) /\
    (o = Some Success -> exists m, kept p m h) /\
    ((forall ok, ~ In (Created p ok) h) -> s1 p = s p)).
  assert (Q0 : forall t o, Forall (gets (map input_from_string l)) t -> o <> Some Success -> Q t s o).
  { intros t o Ht Ho. assert (R : forall y, In y t -> gets (map input_from_string l) y) by (now apply Forall_forall). unfold Q; csplit; auto.
    - apply Forall_forall. intros y Hy. apply R in Hy. now destruct y.
    - intros m Hi. now apply R in Hi.
    - intros [Hi|[m Hi]]; now apply R in Hi.
    - contradiction. }
  assert (A : always Q [] (run report (Some p) (CmdTrain l)) s).
  { cbn [CliModel.run]. apply always_contents; cbn [app]; try (intros t Ht; apply Q0; [exact Ht|discriminate]). intros cs El.
    set (g := got (map input_from_string l) cs). assert (Hg : Forall (gets (map input_from_string l)) g) by apply gets_got.
    assert (R : forall y, In y g -> gets (map input_from_string l) y) by (now apply Forall_forall).
    assert (Ra : Forall (fun e : event => ~ analysis e) g) by (apply Forall_forall; intros y Hy; apply R in Hy; now destruct y).
    assert (Qx : forall e s1 o, Forall (fun e => ~ analysis e) e ->
      (forall m, In (Written p (ModelFile m) true) e -> s1 p = Some (ModelFile m) /\ exists cs, In (Trained cs (Val m)) e) ->
      (save_failed p e -> o = Some Failure) -> (o = Some Success -> exists m, kept p m e) ->
      ((forall ok, ~ In (Created p ok) e) -> s1 p = s p) -> Q (g ++ e) s1 o).
    { intros e s1 o H1 H2 H3 H4 H5. unfold Q; csplit.
      - apply Forall_app. auto.
      - intros m Hi. apply in_app_or in Hi as [Hi|Hi]; [now apply R in Hi|]. destruct (H2 _ Hi) as [S [c' Hc]]. split; [exact S|].
        exists c'. apply in_or_app. auto.
      - intros [Hi|[m Hi]]; (apply in_app_or in Hi as [Hi|Hi]; [now apply R in Hi|]); apply H3; [now left|right; eauto].
      - intros Ho. destruct (H4 Ho) as [m [K|K]]; exists m; [left|right]; apply in_or_app; auto.
      - intros H. apply H5. intros ok Hi. apply (H ok). apply in_or_app. auto. }
    split; [apply Q0; [exact Hg|discriminate]|]. intros [m|e|]; cbn [try].
    - apply always_save; rewrite <- ?app_assoc; cbn [app].
      + apply Qx; unfold save_failed, kept; cbn [In]; [repeat constructor; cbn; tauto|intuition discriminate|intuition (discriminate || (match goal with H : exists _, _ |- _ => destruct H; intuition discriminate end))|discriminate|auto].
      + apply Qx; unfold save_failed, kept; cbn [In]; [repeat constructor; cbn; tauto|intuition discriminate|intuition (discriminate || (match goal with H : exists _, _ |- _ => destruct H; intuition discriminate end))|discriminate|].
        intros H. destruct (H true); auto.
      + apply Qx; unfold save_failed, kept; cbn [In]; [repeat constructor; cbn; tauto|intuition discriminate|auto|discriminate|auto].
      + apply Qx; unfold save_failed, kept; cbn [In]; [repeat constructor; cbn; tauto|intuition discriminate|auto|discriminate|].
        intros H. destruct (H true); auto.
      + apply Qx; unfold save_failed, kept; cbn [In]; [repeat constructor; cbn; tauto| | | |].
        * intros m' [E|[E|[E|[]]]]; try discriminate. injection E as <-. rewrite set_same. eauto.
        * intuition (discriminate || (match goal with H : exists _, _ |- _ => destruct H; intuition discriminate end)).
        * eauto 10.
        * intros H. destruct (H true); auto.
      + intros _. apply Qx; unfold save_failed, kept; cbn [In]; [repeat constructor; cbn; tauto|intuition discriminate| | |].
        * intuition (discriminate || (match goal with H : exists _, _ |- _ => destruct H; intuition discriminate end)).
        * eauto 10.
        * intros H. destruct (H true); auto.
    - apply Qx; unfold save_failed, kept; cbn [In]; [repeat constructor; cbn; tauto|intuition discriminate|auto|discriminate|auto].
    - apply Qx; unfold save_failed, kept; cbn [In]; [repeat constructor; cbn; tauto|intuition discriminate|intuition (discriminate || (match goal with H : exists _, _ |- _ => destruct H; intuition discriminate end))|discriminate|auto]. }
  destruct (reach Q _ _ _ _ _ A He) as [H1 [H2 [H3 [H4 H5]]]]. csplit; auto.
  - intros c m. eapply no_in; [exact H1|exact I].
  - intros F. apply H3 in F. destruct q; cbn in F; congruence.
  - intros ->. now apply H4.
Qed.
(** Without a model path nothing happens. *)
Theorem C54_train_without_model : forall report l s tr q s',
  exec (run report None (CmdTrain l), s) tr (q, s') -> tr = [] /\ q = Done Failure /\ s' = s.
Proof. intros report l s tr q s' H. cbn in H. inversion H as [|c e c' tr' c'' Hs _]; subst; [auto|]. inversion Hs. Qed.

(** Commands that the help names and that do nothing. *)
Theorem C54_unimplemented : forall report mp c s tr q s', c = CmdJournald \/ c = CmdCurrentBuild ->
  exec (run report mp c, s) tr (q, s') -> tr = [] /\ q = Done Panicked /\ s' = s.
Proof.
  intros report mp c s tr q s' Hc H. assert (E : run report mp c = Done Panicked) by now destruct Hc as [-> | ->]. rewrite E in H.
  inversion H as [|c0 e c' tr' c'' Hs _]; subst; [auto|]. inversion Hs.
Qed.

(** ** C69: what is analysed, and what it is compared with *)
(** The content of the target is asked for first; then the baselines that were given, in order
    and all of them, or the ones that are discovered from the target. *)
Definition learnt_from (baselines : option (list input)) (c : content Build) (l : list (content Build)) (t : list event) : Prop :=
  match baselines with
  | None => exists t0, t = t0 ++ [Discovered c (Val l)]
  | Some given => length l = length given /\ exists t0, t = t0 ++ map (fun x => Got (fst x) (Val (snd x))) (combine given l)
  end.
(** Only these inputs. *)
Definition allowed (baselines : option (list input)) (i : input) (e : event) : Prop :=
  match e with
  | Got j _ => j = i \/ exists given, baselines = Some given /\ In j given
  | Discovered _ _ => baselines = None
  | _ => True
  end.
Definition sourced (mp : option path) baselines i (tr : list event) : Prop :=
  (forall t1 c m t2, tr = t1 ++ Analysed c m :: t2 ->
     (exists t, t1 = Got i (Val c) :: t) /\
     ((exists l, In (Trained l (Val m)) t1) \/ exists p, mp = Some p /\ In (Loaded p (Val m)) t1)) /\
  (forall t1 l m t2, tr = t1 ++ Trained l m :: t2 -> exists c t, t1 = Got i (Val c) :: t /\ learnt_from baselines c l t) /\
  Forall (allowed baselines i) tr.

Lemma split_app {A} (h e t1 : list A) x t2 : h ++ e = t1 ++ x :: t2 ->
  (exists t, h = t1 ++ x :: t) \/ (exists t, e = t ++ x :: t2 /\ t1 = h ++ t).
Proof.
  revert t1. induction h as [|y h IH]; intros t1 E; cbn [app] in E.
  - right. exists t1. auto.
  - destruct t1 as [|z t1]; cbn [app] in E; injection E as E1 E2.
    + left. subst. cbn. now exists h.
    + destruct (IH _ E2) as [[t ->]|[t [-> ->]]]; subst; [left; now exists t|right; now exists t].
Qed.
Definition plain baselines i (e : event) : Prop := match e with Analysed _ _ | Trained _ _ => False | _ => allowed baselines i e end.
Lemma sourced_nil mp b i : sourced mp b i [].
Proof. unfold sourced; csplit; [intros [|]; discriminate|intros [|]; discriminate|constructor]. Qed.
Lemma sourced_plain mp b i h e : sourced mp b i h -> Forall (plain b i) e -> sourced mp b i (h ++ e).
Proof.
  intros [H1 [H2 H3]] He. assert (N : forall t x t2, e = t ++ x :: t2 -> plain b i x).
  { intros t x t2 ->. rewrite Forall_forall in He. apply He, in_elt. }
  unfold sourced; csplit.
  - intros t1 c m t2 E. apply split_app in E as [[t E]|[t [E _]]]; [now apply H1 in E|]. now apply N in E.
  - intros t1 c m t2 E. apply split_app in E as [[t E]|[t [E _]]]; [now apply H2 in E|]. now apply N in E.
  - apply Forall_app. split; [exact H3|]. eapply Forall_impl; [|exact He]. intros [ | | | | | | | | | ]; cbn; tauto.
Qed.
Lemma single {A} (y : A) t x t2 : [y] = t ++ x :: t2 -> t = [] /\ x = y.
Proof. destruct t as [|z [|]]; cbn; intros E; inversion E; auto. Qed.
Lemma sourced_trained mp b i h c t l m : sourced mp b i h -> h = Got i (Val c) :: t -> learnt_from b c l t -> sourced mp b i (h ++ [Trained l m]).
Proof.
  intros [H1 [H2 H3]] Eh Hl. unfold sourced; csplit.
  - intros t1 c' m' t2 E. apply split_app in E as [[t' E]|[t' [E _]]]; [now apply H1 in E|]. now apply single in E as [_ E].
  - intros t1 c' m' t2 E. apply split_app in E as [[t' E]|[t' [E E']]]; [now apply H2 in E|]. apply single in E as [-> E]. injection E as -> ->.
    rewrite app_nil_r in E'. subst. eauto.
  - apply Forall_app. split; [exact H3|repeat constructor].
Qed.
Lemma sourced_analysed mp b i h c t m : sourced mp b i h -> h = Got i (Val c) :: t ->
  ((exists l, In (Trained l (Val m)) h) \/ exists p, mp = Some p /\ In (Loaded p (Val m)) h) -> sourced mp b i (h ++ [Analysed c m]).
Proof.
  intros [H1 [H2 H3]] Eh Hm. unfold sourced; csplit.
  - intros t1 c' m' t2 E. apply split_app in E as [[t' E]|[t' [E E']]]; [now apply H1 in E|]. apply single in E as [-> E]. injection E as -> ->.
    rewrite app_nil_r in E'. subst t1. split; [eauto|exact Hm].
  - intros t1 c' m' t2 E. apply split_app in E as [[t' E]|[t' [E _]]]; [now apply H2 in E|]. now apply single in E as [_ E].
  - apply Forall_app. split; [exact H3|repeat constructor].
Qed.

(** The end of a run: a success comes after an analysis. *)
Definition sound mp b i (h : list event) (s1 : fs) (o : option outcome) : Prop :=
  sourced mp b i h /\ (o = Some Success -> exists c m, In (Analysed c m) h).
Lemma sound_sourced mp b i h s o : o <> Some Success -> sourced mp b i h -> sound mp b i h s o.
Proof. intros Ho H. split; [exact H|contradiction]. Qed.
Lemma sound_finish mp b i report h c t m s : sourced mp b i h -> h = Got i (Val c) :: t ->
  ((exists l, In (Trained l (Val m)) h) \/ exists p, mp = Some p /\ In (Loaded p (Val m)) h) ->
  always (sound mp b i) h (keep_model mp m (inspect report c m)) s.
Proof.
  intros H Eh Hm.
  assert (Ai : forall e s, Forall (plain b i) e -> always (sound mp b i) (h ++ e) (inspect report c m) s).
  { intros e s1 He. pose proof (sourced_plain _ _ _ _ _ H He) as He'. apply always_inspect.
    - apply sound_sourced; [discriminate|exact He'].
    - intros s2 e' o _ Ho. split.
      + change (Analysed c m :: e') with ([Analysed c m] ++ e'). rewrite app_assoc. apply sourced_plain.
        * eapply sourced_analysed; [exact He'|rewrite Eh; reflexivity|].
          destruct Hm as [[l Hl]|[p [Ep Hl]]]; [left; exists l|right; exists p; split; [exact Ep|]]; apply in_or_app; auto.
        * eapply out_forall; [|exact Ho]. intros [ | | | | | | | | | ]; cbn; tauto.
      + intros _. exists c, m. apply in_elt. }
  assert (N : forall e s o, Forall (plain b i) e -> o <> Some Success -> sound mp b i (h ++ e) s o).
  { intros e s1 o He Ho. apply sound_sourced; [exact Ho|now apply sourced_plain]. }
  destruct mp as [p|]; cbn [keep_model].
  - split; [apply sound_sourced; [discriminate|exact H]|]. destruct (here s p); [apply Ai; repeat constructor|].
    apply always_save; rewrite <- ?app_assoc; cbn [app]; try (apply N; [repeat constructor|discriminate]); [apply Ai; repeat constructor|].
    intros _. apply Ai; repeat constructor.
  - rewrite <- (app_nil_r h). now apply Ai.
Qed.
Lemma sound_process report mp b i s : always (sound mp b i) [] (process report mp b i) s.
Proof.
  unfold CliModel.process. split; [apply sound_sourced; [discriminate|apply sourced_nil]|].
  assert (S0 : forall c, sourced mp b i [Got i c]).
  { intros c. apply (sourced_plain mp b i [] [Got i c]); [apply sourced_nil|]. repeat constructor. }
  intros [c|e|]; cbn [try always app]; [|apply sound_sourced; [discriminate|apply S0]|apply sound_sourced; [discriminate|apply S0]].
  assert (Tr : forall t l s, sourced mp b i (Got i (Val c) :: t) -> learnt_from b c l t ->
    always (sound mp b i) (Got i (Val c) :: t) (Train l (fun m => try m (fun m => keep_model mp m (inspect report c m)))) s).
  { intros t l s1 H Hl. split; [apply sound_sourced; [discriminate|exact H]|].
    assert (H' : forall m, sourced mp b i ((Got i (Val c) :: t) ++ [Trained l m])) by (intros m; now apply (sourced_trained _ _ _ _ c t)).
    intros [m|e|]; cbn [try always]; [|apply sound_sourced; [discriminate|apply H']|apply sound_sourced; [discriminate|apply H']].
    eapply sound_finish; [apply H'|reflexivity|]. left. exists l. apply in_elt. }
  assert (Bu : forall t s, sourced mp b i (Got i (Val c) :: t) -> always (sound mp b i) (Got i (Val c) :: t)
    match b with
      | None => Discover c (fun bs => try bs (fun bs => Train bs (fun m => try m (fun m => keep_model mp m (inspect report c m)))))
      | Some l => get_contents l (fun bs => Train bs (fun m => try m (fun m => keep_model mp m (inspect report c m)))) end s).
  { intros t s1 H. destruct b as [l|].
    - assert (G : forall g, Forall (fun e => match e with Got j _ => In j l | _ => False end) g -> sourced mp (Some l) i ((Got i (Val c) :: t) ++ g)).
      { intros g Hg. apply sourced_plain; [exact H|]. eapply Forall_impl; [|exact Hg]. intros [ | | | | | | | | | ]; cbn; try tauto. eauto. }
      apply always_contents; try (intros g Hg; apply sound_sourced; [discriminate|now apply G]).
      intros cs El. apply Tr; [apply (G _ (gets_got _ _))|]. split; [exact El|]. exists t. reflexivity.
    - split; [apply sound_sourced; [discriminate|exact H]|].
      assert (D : forall l, sourced mp None i ((Got i (Val c) :: t) ++ [Discovered c l])) by (intros l; apply sourced_plain; [exact H|repeat constructor]).
      intros [l|e|]; cbn [try always]; [|apply sound_sourced; [discriminate|apply D]|apply sound_sourced; [discriminate|apply D]].
      apply Tr; [apply D|]. exists t. reflexivity. }
  destruct mp as [p|].
  - split; [apply sound_sourced; [discriminate|apply S0]|].
    assert (Sa : forall x, sourced (Some p) b i [Got i (Val c); Asked p x]) by (intros x; apply (sourced_plain _ _ _ [Got i (Val c)]); [apply S0|repeat constructor]).
    destruct (here s p); cbn [app]; [|apply Bu, Sa]. destruct b as [l|].
    + apply sound_sourced; [discriminate|apply Sa].
    + split; [apply sound_sourced; [discriminate|apply Sa]|]. cbn [app].
      assert (Sl : forall r, sourced (Some p) None i [Got i (Val c); Asked p true; Loaded p r]) by (intros r; apply (sourced_plain _ _ _ [Got i (Val c)]); [apply S0|repeat constructor]).
      destruct (load (s p)) as [m|e|]; cbn [try always]; [|apply sound_sourced; [discriminate|apply Sl]|apply sound_sourced; [discriminate|apply Sl]].
      eapply sound_finish; [apply Sl|reflexivity|]. right. exists p. cbn. auto.
  - apply Bu, S0.
Qed.

(** A run analyses the content of its target and nothing else, with a model that it loaded from
    the model file or that it made from all the baselines that were given, in this order, or, if
    none were given, from all those that were discovered from the target; it asks for no other
    input, and it only reports a success after an analysis. *)
Theorem C69_sources : forall report mp baselines i s tr q s',
  exec (process report mp baselines i, s) tr (q, s') ->
  (forall t1 c m t2, tr = t1 ++ Analysed c m :: t2 ->
     (exists t, t1 = Got i (Val c) :: t) /\
     ((exists l, In (Trained l (Val m)) t1) \/ exists p, mp = Some p /\ In (Loaded p (Val m)) t1)) /\
  (forall t1 l m t2, tr = t1 ++ Trained l m :: t2 -> exists c t, t1 = Got i (Val c) :: t /\ learnt_from baselines c l t) /\
  (forall j c, In (Got j c) tr -> j = i \/ exists given, baselines = Some given /\ In j given) /\
  (forall c l, In (Discovered c l) tr -> baselines = None) /\
  (q = Done Success -> exists c m, In (Analysed c m) tr).
Proof.
  intros report mp b i s tr q s' He. destruct (reach _ _ _ _ _ _ (sound_process report mp b i s) He) as [[H1 [H2 H3]] H4].
  rewrite Forall_forall in H3. csplit; auto.
  - intros j c H. exact (H3 _ H).
  - intros c l H. exact (H3 _ H).
  - intros ->. now apply H4.
Qed.

(** The commands: what each of them analyses, and compares it with. *)
Definition target_of (c : command) : option (input * option (list input)) :=
  match c with
  | CmdPath p => Some (InPath p, None)
  | CmdUrl u => Some (InUrl u, None)
  | CmdDiff src dst => Some (input_from_string dst, Some (map input_from_string src))
  | _ => None
  end.
Theorem C69_commands : forall report mp c s tr q s', exec (run report mp c, s) tr (q, s') ->
  (forall t1 x m t2, tr = t1 ++ Analysed x m :: t2 -> exists i given t, target_of c = Some (i, given) /\ t1 = Got i (Val x) :: t) /\
  (forall t1 l m t2, tr = t1 ++ Trained l m :: t2 ->
     (exists i given x t, target_of c = Some (i, given) /\ t1 = Got i (Val x) :: t /\ learnt_from given x l t) \/
     (exists names, c = CmdTrain names /\ length l = length names /\ t1 = map (fun y => Got (input_from_string (fst y)) (Val (snd y))) (combine names l))).
Proof.
  intros report mp c s tr q s' He.
  assert (P : forall i given, target_of c = Some (i, given) -> run report mp c = process report mp given i ->
    (forall t1 x m t2, tr = t1 ++ Analysed x m :: t2 -> exists i given t, target_of c = Some (i, given) /\ t1 = Got i (Val x) :: t) /\
    (forall t1 l m t2, tr = t1 ++ Trained l m :: t2 ->
     (exists i given x t, target_of c = Some (i, given) /\ t1 = Got i (Val x) :: t /\ learnt_from given x l t) \/
     (exists names, c = CmdTrain names /\ length l = length names /\ t1 = map (fun y => Got (input_from_string (fst y)) (Val (snd y))) (combine names l)))).
  { intros i given Et Er. rewrite Er in He. destruct (C69_sources _ _ _ _ _ _ _ _ He) as [H1 [H2 _]]. split.
    - intros t1 x m t2 E. destruct (H1 _ _ _ _ E) as [[t Ht] _]. eauto.
    - intros t1 l m t2 E. destruct (H2 _ _ _ _ E) as [x [t [Ht Hl]]]. left. exists i, given, x, t. auto. }
  assert (No : tr = [] -> (forall t1 x m t2, tr = t1 ++ Analysed x m :: t2 -> exists i given t, target_of c = Some (i, given) /\ t1 = Got i (Val x) :: t) /\
    (forall t1 l m t2, tr = t1 ++ Trained l m :: t2 ->
     (exists i given x t, target_of c = Some (i, given) /\ t1 = Got i (Val x) :: t /\ learnt_from given x l t) \/
     (exists names, c = CmdTrain names /\ length l = length names /\ t1 = map (fun y => Got (input_from_string (fst y)) (Val (snd y))) (combine names l)))).
  { intros ->. split; intros [|]; discriminate. }
  destruct c as [src dst|p|u| | |names|]; [now apply (P (input_from_string dst) (Some (map input_from_string src)))|now apply (P (InPath p) None)|now apply (P (InUrl u) None)| | | |].
  - apply C54_unimplemented in He as [E _]; [now apply No|auto].
  - apply C54_unimplemented in He as [E _]; [now apply No|auto].
  - destruct mp as [p|]; [|apply C54_train_without_model in He as [E _]; now apply No]. clear P No.
    set (B := fun (h : list event) => forall t1 l m t2, h = t1 ++ Trained l m :: t2 ->
      length l = length names /\ t1 = map (fun y => Got (input_from_string (fst y)) (Val (snd y))) (combine names l)).
    set (Q := fun (h : list event) (s1 : fs) (o : option outcome) => Forall (fun e => ~ analysis e) h /\ B h).
    assert (Q0 : forall t s o, Forall (gets (map input_from_string names)) t -> Q t s o).
    { intros t s1 o Ht. rewrite Forall_forall in Ht. split.
      - apply Forall_forall. intros [ | | | | | | | | | ] Hy; apply Ht in Hy; cbn in Hy |- *; tauto.
      - intros t1 l m t2 ->. destruct (Ht _ (in_elt _ _ _)). }
    assert (A : always Q [] (run report (Some p) (CmdTrain names)) s).
    { cbn [CliModel.run]. apply always_contents; try (intros t Ht; now apply Q0). intros cs El. rewrite map_length in El.
      assert (G : got (map input_from_string names) cs = map (fun y => @Got Build Model Report (input_from_string (fst y)) (Val (snd y))) (combine names cs)).
      { unfold got. clear. revert cs. induction names as [|n names IH]; intros [|c cs]; cbn; try reflexivity. now rewrite IH. }
      assert (Q1 : forall m e s1 o, Forall (fun x => match x with Created _ _ | Written _ _ _ | Lost _ _ => True | _ => False end) e ->
        Q (([] ++ got (map input_from_string names) cs) ++ Trained cs m :: e) s1 o).
      { intros m e s1 o Hx. cbn [app]. pose proof (gets_got (Model := Model) (Report := Report) (map input_from_string names) cs) as Hg. rewrite Forall_forall in Hg, Hx. split.
        - apply Forall_app. split; [apply (Q0 _ s None); now apply Forall_forall|]. constructor; [intros []|].
          apply Forall_forall. intros [ | | | | | | | | | ] Hy; apply Hx in Hy; cbn in *; tauto.
        - intros t1 l m' t2 E. apply split_app in E as [[t E]|[t [E E']]].
          + exfalso. refine (Hg (Trained l m') _). rewrite E. apply in_elt.
          + destruct t as [|y t]; cbn [app] in E; injection E as E1 E2.
            * subst. rewrite app_nil_r. split; [exact El|exact G].
            * exfalso. refine (Hx (Trained l m') _). rewrite E2. apply in_elt. }
      assert (Q2 : forall m, always Q (([] ++ got (map input_from_string names) cs) ++ [Trained cs (Val m)]) (save p (ModelFile m) (Done Success)) s).
      { intros m. apply always_save; cbn [always]; rewrite <- ?app_assoc; cbn [app]; try (apply Q1; repeat constructor). intros _. apply Q1; repeat constructor. }
      split; [apply Q0; apply gets_got|]. intros [m|e|]; cbn [try always]; [apply Q2|apply Q1; constructor|apply Q1; constructor]. }
    destruct (reach Q _ _ _ _ _ A He) as [H1 H2]. split.
    + intros t1 x m t2 ->. rewrite Forall_forall in H1. destruct (H1 _ (in_elt _ _ _) I).
    + intros t1 l m t2 E. right. exists names. destruct (H2 _ _ _ _ E) as [L G]. auto.
  - clear P No. cbn in He. set (Q := fun (h : list event) (s1 : fs) (o : option outcome) => Forall (fun e => e = Other) h).
    assert (A : always Q [] (run report mp CmdDebug) s).
    { split; [constructor|]. intros [|e|]; repeat constructor. }
    pose proof (reach Q _ _ _ _ _ A He) as H. red in H. rewrite Forall_forall in H. split; intros t1 x m t2 ->; specialize (H _ (in_elt _ _ _)); discriminate.
Qed.

(** A success with a report: the page is at the path of the report. *)
Theorem C69_report : forall f mp baselines i s tr s',
  exec (process (Some f) mp baselines i, s) tr (Done Success, s') -> exists r, In (Written f (Page r) true) tr /\ s' f = Some (Page r).
Proof.
  intros f mp b i s tr s' He.
  set (Q := fun (h : list event) (s1 : fs) (o : option outcome) => o = Some Success -> exists r, In (Written f (Page r) true) h /\ s1 f = Some (Page r)).
  assert (N : forall h s o, o <> Some Success -> Q h s o) by (unfold Q; intuition).
  assert (Ai : forall h c m s, always Q h (inspect (Some f) c m) s).
  { intros h c m s1. unfold CliModel.inspect. split; [apply N; discriminate|].
    assert (Rest : forall h r s, always Q h (Render f r (fun o => try o (fun _ => Create f (Page r) (fun created => if created then Write f (Page r) (fun written => Done (if written then Success else Failure)) else Done Failure)))) s).
    { intros h' r s2. split; [apply N; discriminate|]. intros [o|e|]; cbn [try always]; csplit; try (apply N; discriminate).
      - intros _. exists r. split; [apply in_or_app; right; now left|apply set_same].
      - discriminate. }
    intros [r|e|]; cbn [try always]; try (apply N; discriminate). destruct cache; [|apply Rest].
    apply always_save; try (apply N; discriminate); [apply Rest|intros _; apply Rest]. }
  assert (Ak : forall h c m s, always Q h (keep_model mp m (inspect (Some f) c m)) s).
  { intros h c m s1. destruct mp as [p|]; cbn [keep_model]; [|apply Ai]. split; [apply N; discriminate|].
    destruct (here s1 p); [apply Ai|]. apply always_save; try (apply N; discriminate); [apply Ai|intros _; apply Ai]. }
  assert (A : always Q [] (process (Some f) mp b i) s) by (apply always_process; intros; auto).
  now apply (reach Q _ _ _ _ _ A He).
Qed.
End Cli.

(** ** Runs *)
(** Builds, models and reports are numbers. *)
Notation ev := (@event N N N).
Notation files := (@fs N N).
Definition json_name (p : path) : path := p ++ lit ".json".
Definition mfile : path := lit "model.bin".
Definition rfile : path := lit "report.html".
Definition target : input := InPath (lit "job-output.txt").
Definition before : content N := CFile (Local 0 (lit "job-output.txt.0")).
Definition after : content N := CFile (Local 0 (lit "job-output.txt")).
Definition no_files : files := fun _ => None.
Definition one_file (f : file) : files := set no_files mfile (Some f).
Definition go report (s : files) (tr : list ev) q (s' : files) := exec (process (Build := N) json_name false report (Some mfile) None target, s) tr (q, s').

(** A first run: it trains, saves, analyses and writes a report. *)
Definition first_run : list ev :=
  [Got target (Val after); Asked mfile false; Discovered after (Val [before]); Trained [before] (Val 7); Asked mfile false; Created mfile true; Written mfile (ModelFile 7) true;
   Analysed after 7; Other; Created rfile true; Written rfile (Page 3) true].
Example C54_example_first : exists s', go (Some rfile) no_files first_run (Done Success) s' /\
  no_files mfile = None /\ ~ In mfile (outputs json_name false (Some rfile)) /\ (forall f, ~ In (Lost mfile f) first_run) /\ s' mfile = Some (ModelFile 7) /\ s' rfile = Some (Page 3).
Proof.
  eexists. split.
  - unfold go, first_run, process. eapply ExecStep; [apply (StepContent _ _ _ (Val after))|]. cbn [try].
    eapply ExecStep; [apply StepExists|]. cbn. eapply ExecStep; [apply (StepDiscover _ _ _ (Val [before]))|]. cbn.
    eapply ExecStep; [apply (StepTrain _ _ _ (Val 7))|]. cbn.
    eapply ExecStep; [apply StepExists|]. cbn. eapply ExecStep; [apply StepCreate|]. eapply ExecStep; [apply StepWrite|]. cbn.
    eapply ExecStep; [apply (StepReport _ _ _ _ (Val 3))|]. cbn. eapply ExecStep; [apply (StepRender _ _ _ _ (Val tt))|]. cbn.
    eapply ExecStep; [apply StepCreate|]. eapply ExecStep; [apply StepWrite|]. cbn. apply ExecNow.
  - csplit; try reflexivity.
    + intros [E|[]]. discriminate E.
    + intros f H. cbn in H. repeat destruct H as [H|H]; try discriminate H. destruct H.
Qed.
(** The next one loads it. *)
Example C54_example_next : exists s', go None (one_file (ModelFile 7)) [Got target (Val after); Asked mfile true; Loaded mfile (Val 7); Asked mfile true; Analysed after 7] (Done Success) s'.
Proof.
  eexists. unfold go, process. eapply ExecStep; [apply (StepContent _ _ _ (Val after))|]. cbn [try].
  eapply ExecStep; [apply StepExists|]. cbn. eapply ExecStep; [exact (StepLoad mfile _ (one_file (ModelFile 7)))|]. cbn. eapply ExecStep; [apply StepExists|]. cbn.
  eapply ExecStep; [apply (StepLive _ _ _ _ (Val tt))|]. cbn. apply ExecNow.
Qed.
(** With baselines, it is refused. *)
Example C54_example_ambiguous : exists s',
  exec (process (Build := N) json_name false None (Some mfile) (Some [target]) target, one_file (ModelFile 7)) [Got target (Val after); Asked mfile true] (Done Failure, s').
Proof.
  eexists. unfold process. eapply ExecStep; [apply (StepContent _ _ _ (Val after))|]. cbn [try].
  eapply ExecStep; [apply StepExists|]. cbn. apply ExecNow.
Qed.
(** The training command. *)
Example C54_example_train : exists s',
  exec (run (Build := N) json_name false None (Some mfile) (CmdTrain [lit "job-output.txt"]), one_file (ModelFile 7))
    [Got target (Val after); Trained [after] (Val 8); Created mfile true; Written mfile (ModelFile 8) true] (Done Success, s').
Proof.
  eexists. cbn [run map get_contents]. eapply ExecStep; [apply (StepContent _ _ _ (Val after))|]. cbn [try].
  eapply ExecStep; [apply (StepTrain _ _ _ (Val 8))|]. cbn.
  eapply ExecStep; [apply StepCreate|]. eapply ExecStep; [apply StepWrite|]. cbn. apply ExecNow.
Qed.

(** A comparison with two baselines. *)
Definition older : content N := CFile (Local 0 (lit "job-output.txt.1")).
Example C69_example_diff : exists s',
  exec (run (Build := N) json_name false None None (CmdDiff [lit "job-output.txt.0"; lit "job-output.txt.1"] (lit "job-output.txt")), no_files)
    [Got target (Val after); Got (InPath (lit "job-output.txt.0")) (Val before); Got (InPath (lit "job-output.txt.1")) (Val older);
     Trained [before; older] (Val 7); Analysed after 7] (Done Success, s').
Proof.
  eexists. cbn [run map get_contents]. eapply ExecStep; [apply (StepContent _ _ _ (Val after))|]. cbn [try].
  eapply ExecStep; [apply (StepContent _ _ _ (Val before))|]. cbn [try]. eapply ExecStep; [apply (StepContent _ _ _ (Val older))|]. cbn [try].
  eapply ExecStep; [apply (StepTrain _ _ _ (Val 7))|]. cbn. eapply ExecStep; [apply (StepLive _ _ _ _ (Val tt))|]. cbn. apply ExecNow.
Qed.

(** *** What does not hold *)
(** A save that is interrupted leaves a file that blocks all later runs. *)
Theorem C54_interrupted_save_refuted : exists tr q s',
  go None no_files tr q s' /\ s' mfile = Some Junk /\
  forall tr' q' s'', go None s' tr' q' s'' -> s'' mfile = Some Junk /\ (forall c m, ~ In (Analysed c m) tr') /\ q' <> Done Success.
Proof.
  exists [Got target (Val after); Asked mfile false; Discovered after (Val [before]); Trained [before] (Val 7); Asked mfile false; Created mfile true]. do 2 eexists. csplit.
  - unfold go, process. eapply ExecStep; [apply (StepContent _ _ _ (Val after))|]. cbn [try].
    eapply ExecStep; [apply StepExists|]. cbn. eapply ExecStep; [apply (StepDiscover _ _ _ (Val [before]))|]. cbn.
    eapply ExecStep; [apply (StepTrain _ _ _ (Val 7))|]. cbn.
    eapply ExecStep; [apply StepExists|]. cbn. eapply ExecStep; [apply StepCreate|]. apply ExecNow.
  - reflexivity.
  - intros tr' q' s'' H. unfold go in H. eapply C54_damaged_model_blocks in H; [exact H|reflexivity|discriminate|intros []].
Qed.
(** A run that reports a success can leave such a file too. *)
Theorem C54_lost_refuted : exists tr s', go None no_files tr (Done Success) s' /\ s' mfile = Some Junk.
Proof.
  exists [Got target (Val after); Asked mfile false; Discovered after (Val [before]); Trained [before] (Val 7); Asked mfile false; Created mfile true; Lost mfile (ModelFile 7); Analysed after 7].
  eexists. split.
  - unfold go, process. eapply ExecStep; [apply (StepContent _ _ _ (Val after))|]. cbn [try].
    eapply ExecStep; [apply StepExists|]. cbn. eapply ExecStep; [apply (StepDiscover _ _ _ (Val [before]))|]. cbn.
    eapply ExecStep; [apply (StepTrain _ _ _ (Val 7))|]. cbn.
    eapply ExecStep; [apply StepExists|]. cbn. eapply ExecStep; [apply StepCreate|]. cbn. eapply ExecStep; [now apply StepLost|]. cbn.
    eapply ExecStep; [apply (StepLive _ _ _ _ (Val tt))|]. cbn. apply ExecNow.
  - reflexivity.
Qed.
(** A report with the name of the model replaces it. *)
Theorem C54_report_over_model_refuted : exists tr s', go (Some mfile) (one_file (ModelFile 7)) tr (Done Success) s' /\ s' mfile = Some (Page 3).
Proof.
  exists [Got target (Val after); Asked mfile true; Loaded mfile (Val 7); Asked mfile true; Analysed after 7; Other; Created mfile true; Written mfile (Page 3) true].
  eexists. split.
  - unfold go, process. eapply ExecStep; [apply (StepContent _ _ _ (Val after))|]. cbn [try].
    eapply ExecStep; [apply StepExists|]. cbn. eapply ExecStep; [exact (StepLoad mfile _ (one_file (ModelFile 7)))|]. cbn. eapply ExecStep; [apply StepExists|]. cbn.
    eapply ExecStep; [apply (StepReport _ _ _ _ (Val 3))|]. cbn. eapply ExecStep; [apply (StepRender _ _ _ _ (Val tt))|]. cbn.
    eapply ExecStep; [apply StepCreate|]. eapply ExecStep; [apply StepWrite|]. cbn. apply ExecNow.
  - reflexivity.
Qed.
(** A model that another process saves between the check and the creation of the file is
    replaced. *)
Theorem C54_race_refuted : exists q1 tr1 tr2 s',
  exec (process (Build := N) json_name false None (Some mfile) None target, no_files) tr1 (q1, no_files) /\
  shared_exec (q1, one_file (ModelFile 9)) tr2 (Done Success, s') /\ s' mfile = Some (ModelFile 7).
Proof.
  eexists. exists [Got target (Val after); Asked mfile false; Discovered after (Val [before]); Trained [before] (Val 7); Asked mfile false], [Created mfile true; Written mfile (ModelFile 7) true; Analysed after 7].
  eexists. csplit.
  - unfold process. eapply ExecStep; [apply (StepContent _ _ _ (Val after))|]. cbn [try].
    eapply ExecStep; [apply StepExists|]. cbn. eapply ExecStep; [apply (StepDiscover _ _ _ (Val [before]))|]. cbn.
    eapply ExecStep; [apply (StepTrain _ _ _ (Val 7))|]. cbn.
    eapply ExecStep; [apply StepExists|]. cbn. apply ExecNow.
  - unfold save. eapply SharedStep; [apply StepCreate|]. cbn. eapply SharedStep; [apply StepWrite|]. cbn.
    eapply SharedStep; [apply (StepLive _ _ _ _ (Val tt))|]. cbn. apply SharedNow.
  - reflexivity.
Qed.

(** ** C62: inputs *)
(** What a text names: a url when it begins with "http", a path otherwise; [kind_of] is what is
    at a path. *)
Section Inputs.
Context {Build : Type} (kind_of : text -> path_kind) (parse_url : text -> option text) (has_authority : text -> bool)
  (from_zuul_url : text -> option (res (content Build))) (zuul_baselines : Build -> res (list (content Build))).
Notation from_input := (from_input kind_of parse_url has_authority from_zuul_url).
Notation discover_baselines := (discover_baselines kind_of zuul_baselines).

(** A path is a file or a directory with this path, or an error: never a panic. *)
Theorem C62_path : forall p, from_input (InPath p) =
  match kind_of p with KFile => Val (CFile (Local 0 p)) | KDir => Val (CDirectory (Local 0 p)) | KOther => Fail (lit "Unknown path") end.
Proof. intros p. unfold CliModel.from_input, from_path. now destruct (kind_of p). Qed.

(** A url that is not a zuul build is the directory, or the file, at this url. *)
Theorem C62_url : forall u u' c, parse_url u = Some u' -> from_zuul_url u' = None -> from_input (InUrl u) = Val c ->
  has_authority u' = true /\ c = (if ends_with (lit "/") u' then CDirectory (Remote 0 u') else CFile (Remote 0 u')).
Proof.
  intros u u' c Hp Hz. unfold CliModel.from_input, from_url. rewrite Hp, Hz.
  destruct (has_authority u'); cbn [negb]; [|discriminate]. destruct (ends_with (lit "/") u'); intros H; injection H as <-; auto.
Qed.

(** Baselines are discovered for a local file and for a zuul build, only: for the file, what
    has the same path with ".0"; there is always at least one. *)
Theorem C62_baselines : forall c l, discover_baselines c = Val l ->
  l <> [] /\ match c with
  | CFile (Local _ p) => (kind_of (p ++ lit ".0") = KFile /\ l = [CFile (Local 0 (p ++ lit ".0"))]) \/
                         (kind_of (p ++ lit ".0") = KDir /\ l = [CDirectory (Local 0 (p ++ lit ".0"))])
  | CFile (Remote _ _) => False
  | CDirectory _ => False
  | CZuul b => zuul_baselines b = Val l
  end.
Proof.
  intros c l H. unfold CliModel.discover_baselines, discover_from_path, from_path in H.
  destruct c as [[k p|k u]|[k p|k u]|b]; try discriminate.
  - destruct (utf8_decode p); [|discriminate]. destruct (kind_of (p ++ lit ".0")); try discriminate; injection H as <-; split; auto; discriminate.
  - destruct (zuul_baselines b) as [[|x l']|e|]; try discriminate. injection H as <-. split; [discriminate|reflexivity].
Qed.
Theorem C62_baselines_no_panic : forall c, (forall b, c = CZuul b -> zuul_baselines b <> Panic) ->
  (forall k p, c = CFile (Local k p) -> utf8_decode p <> None) -> discover_baselines c <> Panic.
Proof.
  intros c Hz Hp. unfold CliModel.discover_baselines, discover_from_path, from_path. destruct c as [[k p|k u]|[k p|k u]|b]; try discriminate.
  - destruct (utf8_decode p) eqn:E; [|destruct (Hp _ _ eq_refl E)]. now destruct (kind_of (p ++ lit ".0")).
  - specialize (Hz _ eq_refl). destruct (zuul_baselines b) as [[|x l']|e|]; congruence.
Qed.
(** What is refused, and how: an input that is neither a file nor a directory, or a url without a
    host; the baselines of a local file, when nothing is at its name with ".0", of other files and of
    directories, of a build without baselines.  A url that cannot be parsed, and a local path that is
    not unicode, panic. *)
Theorem C62_refused :
  (forall i e, from_input i = Fail e -> match i with
     | InPath p => kind_of p = KOther /\ e = lit "Unknown path"
     | InUrl u => exists u', parse_url u = Some u' /\ ((has_authority u' = false /\ e = lit "Bad url") \/ (has_authority u' = true /\ from_zuul_url u' = Some (Fail e)))
     end) /\
  (forall u, parse_url u = None -> from_input (InUrl u) = Panic) /\
  (forall c e, discover_baselines c = Fail e <-> match c with
     | CFile (Local _ p) => utf8_decode p <> None /\ kind_of (p ++ lit ".0") = KOther /\ e = lit "Unknown path"
     | CFile (Remote _ _) => e = lit "Can't find remmote baselines, they need to be provided"
     | CDirectory _ => e = lit "Can't discover directory baselines, they need to be provided"
     | CZuul b => zuul_baselines b = Fail e \/ (zuul_baselines b = Val [] /\ e = lit "Empty discovered baselines")
     end) /\
  (forall k p, utf8_decode p = None -> discover_baselines (CFile (Local k p)) = Panic).
Proof.
  csplit.
  - intros [p|u] e.
    + rewrite C62_path. destruct (kind_of p); intros H; try discriminate. injection H as <-. now split.
    + unfold CliModel.from_input, from_url. destruct (parse_url u) as [u'|]; [|discriminate]. intros H. exists u'. split; [reflexivity|]. destruct (has_authority u'); cbn [negb] in H.
      * right. split; [reflexivity|]. destruct (from_zuul_url u') as [c|]; [now subst|]. destruct (ends_with (lit "/") u'); discriminate.
      * left. injection H as <-. now split.
  - intros u H. unfold CliModel.from_input. now rewrite H.
  - intros [[k p|k u]|s|b] e; unfold CliModel.discover_baselines, discover_from_path, from_path.
    + destruct (utf8_decode p); [|now split; [discriminate|intros [[] _]]]. destruct (kind_of (p ++ lit ".0")); (split; [intros H|intros (_ & H & E)]); try discriminate.
      * injection H as <-. csplit; [discriminate|reflexivity|reflexivity].
      * now subst.
    + split; [intros H; now injection H as <-|now intros ->].
    + split; [intros H; now injection H as <-|now intros ->].
    + destruct (zuul_baselines b) as [[|x l]|e'|].
      * split; [intros H; injection H as <-; now right|]. intros [H|[_ ->]]; [discriminate|reflexivity].
      * split; [discriminate|]. intros [H|[H _]]; discriminate.
      * split; [intros H; now left|]. intros [H|[H _]]; [exact H|discriminate].
      * split; [discriminate|]. intros [H|[H _]]; discriminate.
  - intros k p H. unfold CliModel.discover_baselines, discover_from_path. now rewrite H.
Qed.
(** The arguments of [diff] and [train]: a file whose name begins with "http" is not read. If
    the name is not a url (a url has a scheme, that ends with a colon), the program panics. *)
Theorem C62_http_name_refuted : parse_url (lit "httpd.log") = None -> forall k,
  kind_of (lit "httpd.log") = k -> from_input (input_from_string (lit "httpd.log")) = Panic.
Proof. intros H k _. unfold CliModel.from_input, input_from_string. rewrite (eq_refl : starts_with (lit "http") (lit "httpd.log") = true). now rewrite H. Qed.
Theorem C62_other_names : forall p, starts_with (lit "http") p = false -> from_input (input_from_string p) = from_input (InPath p).
Proof. intros p H. unfold input_from_string. now rewrite H. Qed.
End Inputs.
Example C62_example : discover_baselines (Build := unit) (fun _ => KFile) (fun _ => Panic) (CFile (Local 0 (lit "a.log"))) = Val [CFile (Local 0 (lit "a.log.0"))].
Proof. reflexivity. Qed.
Example C62_example_url : from_input (Build := unit) (fun _ => KOther) Some (fun _ => true) (fun _ => None) (input_from_string (lit "http://a/b/")) = Val (CDirectory (Remote 0 (lit "http://a/b/"))).
Proof. reflexivity. Qed.

Print Assumptions C54_existing_model.
Print Assumptions C54_new_model.
Print Assumptions C54_next_run.
Print Assumptions C54_damaged_model_blocks.
Print Assumptions C54_ambiguous.
Print Assumptions C54_other_files_unchanged.
Print Assumptions C54_train.
Print Assumptions C54_train_without_model.
Print Assumptions C54_unimplemented.
Print Assumptions C54_interrupted_save_refuted.
Print Assumptions C54_lost_refuted.
Print Assumptions C54_report_over_model_refuted.
Print Assumptions C54_race_refuted.
Print Assumptions C62_path.
Print Assumptions C62_url.
Print Assumptions C62_baselines.
Print Assumptions C62_baselines_no_panic.
Print Assumptions C62_http_name_refuted.
Print Assumptions C62_other_names.
Print Assumptions C62_refused.
Print Assumptions C69_sources.
Print Assumptions C69_commands.
Print Assumptions C69_report.
