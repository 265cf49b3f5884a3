(** Properties C44, C45, C46, C63 and C64: crawling "Index of" pages.

    [http_list u] is what a request for [u] gives; [threads] is the size of the pool. *)
From Coq Require Import String List NArith PeanoNat Bool Lia Permutation Sorted.
From Verif Require Import Common CommonFacts FilesModel CrawlModel CrawlSpec CrawlProofs CrawlWalk CrawlPanic.
Import ListNotations.
Open Scope nat_scope.

Lemma files_of_visits l : flat_map (fun f => match f with FFile u => [u] | _ => [] end) (map FVisit l) = [].
Proof. induction l; auto. Qed.
Lemma visits_of_visits l : flat_map (fun f => match f with FVisit u => [u] | _ => [] end) (map FVisit l) = l.
Proof. induction l as [|x l IH]; [reflexivity|]. cbn. now rewrite IH. Qed.

Definition item_eq_dec (a b : res url) : {a = b} + {a <> b}.
Proof. decide equality; [apply url_eq_dec|apply (list_eq_dec N.eq_dec)]. Defined.
Lemma count_occ_panicked l : count_occ item_eq_dec l (Fail (lit "Crawler panicked!")) = count_panicked l.
Proof.
  induction l as [|i l IH]; [reflexivity|]. unfold count_panicked. cbn [count_occ filter]. fold (count_panicked l).
  destruct (item_eq_dec i (Fail (lit "Crawler panicked!"))) as [-> |N]; [rewrite eqb_list_refl; cbn [length]; now rewrite IH|].
  destruct i as [x|e|]; try exact IH. destruct (eqb_list e (lit "Crawler panicked!")) eqn:E; [|exact IH]. apply eqb_list_spec in E. now subst.
Qed.

Section Site.
Variable http_list : url -> res (list url).
Variable threads : nat.
Notation list_call := (list_call http_list threads).
Notation reached := (reached http_list).
Notation reached_file := (reached_file http_list).
Notation reached_error := (reached_error http_list).
Notation crawls_from := (crawls_from http_list).

(** ** C44 *)
Lemma list_run s u s' r : finished s -> chan s = [] -> panics s = 0 -> list_call s u s' r ->
  exists F, crawls_from u F /\
    ((reached_error u /\ exists e, r = Fail e) \/
     (~ reached_error u /\ exists files, r = Val files /\ Permutation files (files_of F) /\ chan s' = [] /\ panics s' = 0)) /\
    Permutation (requests s') (requests s ++ visits_of F).
Proof.
  intros Hf Hc Hp H. inversion H as [n s1 Hs Hf1]; subst. clear H.
  destruct (run_yields http_list threads n s u s1 Hf Hs Hf1) as [F [HF P]]. exists F. split; [exact HF|].
  assert (D0 : done_so_far s = map FVisit (requests s)) by (unfold done_so_far; rewrite Hc, Hp; cbn; now rewrite app_nil_r).
  rewrite D0 in P. assert (Err : reached_error u <-> (exists e, In (MErr e) (chan s1)) \/ 0 < panics s1).
  { rewrite <- failed_done, <- (crawls_from_errors _ _ _ HF). split; intros [x [Hx Fx]]; exists x; (split; [|exact Fx]).
    - apply (Permutation_in _ (Permutation_sym P)). apply in_or_app. now right.
    - apply (Permutation_in _ P) in Hx. apply in_app_or in Hx as [Hx|Hx]; [|exact Hx]. apply in_map_iff in Hx as [y [<- _]]. destruct Fx. }
  split.
  - destruct (Nat.ltb_spec 0 (panics s1)) as [Hp1|Hp1]; [left; split; [apply Err; now right|eauto]|].
    destruct (has_error_dec (chan s1)) as [He|He].
    + left. split; [apply Err; now left|]. destruct (collect_err _ He) as [c1 [e [c2 [E _]]]]. rewrite E. cbn. eauto.
    + right. rewrite (collect_ok _ He). cbn [fst snd chan panics]. split; [intros X; apply Err in X as [[e X]|X]; [exact (He _ X)|lia]|].
      exists (msg_files (chan s1)). repeat split; [|lia]. rewrite <- files_of_done.
      rewrite (files_of_perm _ _ P). unfold files_of. rewrite flat_map_app.
      rewrite files_of_visits. reflexivity.
  - cbn [requests]. rewrite <- visits_of_done. unfold visits_of. rewrite (Permutation_flat_map _ P). rewrite flat_map_app. apply Permutation_app; [|reflexivity].
    rewrite visits_of_visits. reflexivity.
Qed.

(** The result of a new crawler is an error if some reached directory cannot be listed, and the
    files of the reached directories otherwise: whatever the schedule of the threads. *)
Theorem C44_list : forall u s' r, list_call new_crawler u s' r ->
  (reached_error u /\ exists e, r = Fail e) \/
  (~ reached_error u /\ exists files, r = Val files /\ forall x, In x files <-> reached_file u x).
Proof.
  intros u s' r H. apply list_run in H as [F [HF [[H|[Hn [files [-> [P _]]]]] _]]]; [left; exact H| |split; reflexivity|reflexivity|reflexivity].
  right. split; [exact Hn|]. exists files. split; [reflexivity|]. intros x. rewrite <- (crawls_from_files _ _ _ HF).
  split; apply Permutation_in; [exact P|apply Permutation_sym; exact P].
Qed.
(** Two executions give the same files, as often. *)
Theorem C44_schedule_independent : forall u s1 r1 s2 r2, list_call new_crawler u s1 r1 -> list_call new_crawler u s2 r2 ->
  (exists e1 e2, r1 = Fail e1 /\ r2 = Fail e2) \/ (exists l1 l2, r1 = Val l1 /\ r2 = Val l2 /\ Permutation l1 l2).
Proof.
  intros u s1 r1 s2 r2 H1 H2. apply list_run in H1 as [F1 [HF1 [C1 _]]]; [|split; reflexivity|reflexivity|reflexivity].
  apply list_run in H2 as [F2 [HF2 [C2 _]]]; [|split; reflexivity|reflexivity|reflexivity]. rewrite (crawls_from_unique _ _ _ _ HF1 HF2) in *.
  destruct C1 as [[E1 [e1 ->]]|[N1 [f1 [-> [P1 _]]]]], C2 as [[E2 [e2 ->]]|[N2 [f2 [-> [P2 _]]]]]; try contradiction; [left; eauto|].
  right. exists f1, f2. repeat split. now rewrite P1, P2.
Qed.
(** As often as the sequential crawl of [CrawlSpec.v]. *)
Theorem C44_sequential : forall u s' files, list_call new_crawler u s' (Val files) ->
  exists F, crawls_from u F /\ Permutation files (files_of F) /\ Permutation (requests s') (visits_of F).
Proof.
  intros u s' files H. apply list_run in H as [F [HF [[[_ [e He]]|[_ [f [Ef [P _]]]]] R]]]; [discriminate| |split; reflexivity|reflexivity|reflexivity].
  injection Ef as <-. exists F. auto.
Qed.

(** ** C45 *)
(** On a site with finitely many directories there is a bound on the steps of the workers, for all
    schedules, and they never wait for each other: [list] returns. *)
Theorem C45_terminates : forall u directories, (forall d, reached u d -> In d directories) ->
  exists bound, forall n s, steps (worker http_list threads) n (start new_crawler u) s ->
    n <= bound /\ (0 < threads -> finished s \/ exists s', worker http_list threads s s').
Proof.
  intros u ds Hd. set (L := list_max (map path_len ds)).
  assert (HL : forall d, reached u d -> path_len d <= L).
  { intros d H. apply Hd in H. pose proof (proj1 (list_max_le (map path_len ds) _) (Nat.le_refl _)) as M. rewrite Forall_forall in M. apply M. now apply in_map. }
  exists (cost http_list L (start new_crawler u)). intros n s Hs. split.
  - pose proof (steps_bounded http_list u L HL _ _ _ _ Hs (start_in_site _ _ _ (new_in_site _ _))). lia.
  - intros Ht. now apply worker_progress.
Qed.
Theorem C45_returns : forall u directories, (forall d, reached u d -> In d directories) -> 0 < threads ->
  exists s' r, list_call new_crawler u s' r.
Proof.
  intros u ds Hd Ht. set (L := list_max (map path_len ds)).
  assert (HL : forall d, reached u d -> path_len d <= L).
  { intros d H. apply Hd in H. pose proof (proj1 (list_max_le (map path_len ds) _) (Nat.le_refl _)) as M. rewrite Forall_forall in M. apply M. now apply in_map. }
  destruct (run_to_end http_list u L threads _ Ht HL (start_in_site _ _ _ (new_in_site _ _))) as [n [s [Hs Hf]]].
  do 2 eexists. now apply (ListCall _ _ _ _ n s).
Qed.
(** Only reached directories are asked for, at any point: after the first one their paths are
    longer, each longer than the path of a directory that links to it. *)
Theorem C45_requests : forall u n s d, steps (worker http_list threads) n (start new_crawler u) s -> In d (requests s) ->
  reached u d /\ (d = u \/ length (upath u) < length (upath d)).
Proof.
  intros u n s d Hs Hd. pose proof (steps_in_site http_list u _ _ _ _ Hs (start_in_site _ _ _ (new_in_site _ _))) as [_ [_ Hr]].
  rewrite Forall_forall in Hr. pose proof (Hr _ Hd) as R. split; [exact R|]. clear -R.
  induction R as [|d links l d' R IH _ _ [_ [_ Hlt]]]; [now left|]. right. destruct IH as [->|IH]; lia.
Qed.

(** ** C46 *)
(** *** Any site, also when a worker panics *)
(** The iterator is never stuck, and after the workers it ends in a bounded number of steps. *)
Theorem C46_ends : forall u n w, steps (walk_step http_list threads) n (walk_start u) w ->
  (pos w = PStop \/ exists w', walk_step http_list threads w w' /\ (pos w' <> pos w \/ length (chan (crawl w')) < length (chan (crawl w)))) /\
  (finished (crawl w) -> forall m w', steps (walk_step http_list threads) m w w' -> m <= 10 * length (chan (crawl w)) + 16).
Proof.
  intros u n w Hs. split.
  - destruct (walk_progress http_list threads w) as [H|[w' [H1 H2]]]; [now left|]. right. exists w'. split; [exact H1|].
    destruct w as [s p a l]. exact (H2 _ _ _ _ eq_refl).
  - intros Hf m w' H. destruct (Nat.eq_dec (panics (crawl w)) 0) as [Hp|Hp].
    + assert (R : m + rank w' <= rank w).
      { clear Hs. induction H as [|m w w1 w' Hs _ IH]; [lia|]. destruct (walk_rank http_list threads _ _ Hf Hp Hs) as [F1 R1].
        assert (Hp1 : panics (crawl w1) = 0). { inversion Hs; subst; cbn [crawl with_chan panics] in *; auto. exfalso. eapply finished_worker; [exact Hf|eassumption]. }
        specialize (IH F1 Hp1). lia. }
      unfold rank in R. assert (pos_rank (pos w) <= 7) by (destruct (pos w) as [ | |[|k]| | | | ]; cbn; lia). lia.
    + pose proof (panics_rank http_list threads u _ _ _ (walk_inv_steps _ _ _ _ _ _ Hs (walk_inv_start _ _)) Hf ltac:(lia) H) as R.
      unfold rank_panic in R. assert (rank_of (pos w) <= 6) by (destruct (pos w); cbn; lia). destruct (abort w); lia.
Qed.
(** Every item is a file of a reached directory, an error of a reached directory, or tells of a
    panic at a reached directory. *)
Theorem C46_items : forall u n w i, steps (walk_step http_list threads) n (walk_start u) w -> In i (items w) ->
  match i with
  | Val x => reached_file u x
  | Fail e => (exists d, reached u d /\ http_list d = Fail e) \/
              (e = lit "Crawler panicked!" /\ exists d, reached u d /\ http_list d = Panic)
  | Panic => False
  end.
Proof.
  intros u n w i Hs Hi. destruct (walk_inv_steps http_list threads u _ _ _ Hs (walk_inv_start _ _)) as (_ & _ & I3 & _). specialize (I3 _ Hi).
  destruct i as [x|e|]; cbn in I3; [exact I3| |exact I3]. destruct I3 as [I3|[E I3]]; [now left|right]. injection E as ->. auto.
Qed.
(** A panic is returned at most once. *)
Theorem C46_panic_once : forall u n w, (forall d, reached u d -> http_list d <> Fail (lit "Crawler panicked!")) ->
  steps (walk_step http_list threads) n (walk_start u) w -> count_occ item_eq_dec (items w) (Fail (lit "Crawler panicked!")) <= 1.
Proof.
  intros u n w Hn Hs.
  assert (G : forall n w w', steps (walk_step http_list threads) n w w' -> walk_inv http_list u w -> count_panicked (items w) <= (if abort w then 1 else 0) ->
    count_panicked (items w') <= (if abort w' then 1 else 0)).
  { induction 1 as [|k a b c H _ IH]; intros Hi C; [exact C|]. apply IH; [eapply walk_inv_step; eauto|]. eapply count_step; eauto. }
  specialize (G _ _ _ Hs (walk_inv_start _ _) ltac:(cbn; lia)). rewrite count_occ_panicked. destruct (abort w); lia.
Qed.
(** If the iterator ends while no worker moves, from its last look at the empty channel, and a
    worker has panicked, then this is one of the items. *)
Definition alone (w w' : walk_state) : Prop := walk_step http_list threads w w' /\ crawl w' = crawl w.
Theorem C46_panic_reported : forall u n m w0 w, steps (walk_step http_list threads) n (walk_start u) w0 ->
  pos w0 = PTry -> chan (crawl w0) = [] -> 0 < panics (crawl w0) -> steps alone m w0 w -> pos w = PStop ->
  In (Fail (lit "Crawler panicked!")) (items w).
Proof.
  intros u n m w0 w Hs E _ Hp Hm. destruct (walk_inv_steps http_list threads u _ _ _ Hs (walk_inv_start _ _)) as (_ & _ & _ & I4).
  apply (calm_panic http_list threads m w0 w Hm Hp); [congruence|]. intros A. now apply I4.
Qed.
(** *** Sites whose pages do not make a worker panic *)
(** For a site whose pages do not make a worker panic. *)
Hypothesis no_panic : forall u, http_list u <> Panic.
(** Everything the iterator returns is a file that [list] returns, at most as often, or an error
    of a reached directory. *)
Theorem C46_nothing_invented : forall u F n w, 0 < threads -> crawls_from u F ->
  steps (walk_step http_list threads) n (walk_start u) w ->
  (exists rest, Permutation (files_of F) (item_files (items w) ++ rest)) /\
  (forall x, In (Val x) (items w) -> reached_file u x) /\ (forall e, In (Fail e) (items w) -> reached_error u).
Proof.
  intros u F n w Ht HF Hs. destruct (walk_sub http_list threads no_panic n u w F Ht Hs HF) as [rest P]. repeat split.
  - exists (files_of rest). rewrite (files_of_perm _ _ P). unfold files_of at 1. rewrite flat_map_app. fold (files_of (flat_map item_found (items w))). rewrite items_files. reflexivity.
  - intros x Hx. apply (crawls_from_files _ _ _ HF). apply (Permutation_in _ (Permutation_sym (files_of_perm _ _ P))).
    unfold files_of. rewrite flat_map_app. apply in_or_app. left. apply in_flat_map. exists (FFile x). split; [|now left].
    apply in_flat_map. exists (Val x). split; [exact Hx|now left].
  - intros e He. apply (crawls_from_errors _ _ _ HF). exists (FError e). split; [|exact I]. apply (Permutation_in _ (Permutation_sym P)).
    apply in_or_app. left. apply in_flat_map. exists (Fail e). split; [exact He|now left].
Qed.
(** If the iterator ends while no worker moves, from its last look at the empty channel, nothing
    is missing. *)
Lemma walk_abort n u w : steps (walk_step http_list threads) n (walk_start u) w -> abort w = false.
Proof.
  assert (G : forall n w w', steps (walk_step http_list threads) n w w' -> panics (crawl w) = 0 -> abort w = false -> abort w' = false).
  { induction 1 as [|m a b c H _ IH]; intros Hp Ha; [exact Ha|]. apply IH; [rewrite (walk_no_panic _ _ no_panic _ _ H); exact Hp|].
    inversion H; subst; cbn [abort crawl] in *; auto. lia. }
  intros H. eapply G; [exact H|reflexivity|reflexivity].
Qed.
Theorem C46_calm_end_complete : forall u n m w0 w, steps (walk_step http_list threads) n (walk_start u) w0 ->
  pos w0 = PTry -> chan (crawl w0) = [] -> steps alone m w0 w -> pos w = PStop ->
  exists F, crawls_from u F /\ Permutation (item_files (items w)) (files_of F).
Proof.
  intros u n m w0 w H0 Hp0 Hc0 H1 Hp1.
  assert (Hf : crawl w = crawl w0 /\ finished (crawl w0)).
  { assert (J : forall m a b, steps alone m a b -> abort a = false -> panics (crawl a) = 0 -> crawl a = crawl w0 ->
      match pos a with PQueued k => k = length (active (crawl w0)) | PPanic | PStop => finished (crawl w0) | _ => True end ->
      crawl b = crawl w0 /\ (pos b = PStop -> finished (crawl w0))).
    { induction 1 as [a|k a b c [Hs Hc] _ IH]; intros Ha Hp Hcr Hj; [split; [exact Hcr|]; intros E; now rewrite E in Hj|].
      apply IH; [| |congruence|].
      - inversion Hs; subst; cbn [abort crawl] in *; auto. lia.
      - rewrite Hc. exact Hp.
      - inversion Hs; subst; cbn [abort crawl pos] in *; subst; auto.
        + destruct (Nat.eqb_spec (length (active (crawl w0)) + length (queue (crawl w0))) 0) as [E|E]; [|exact I].
          destruct (active (crawl w0)) eqn:Ea, (queue (crawl w0)) eqn:Eq; cbn in E; try lia. split; auto.
        + destruct (Nat.eqb_spec (panics (crawl w0)) 0); auto. }
    destruct (J _ _ _ H1) as [A B]; auto; [eapply walk_abort; eauto|now rewrite (walks_no_panic _ _ no_panic _ _ _ H0)|now rewrite Hp0]. }
  destruct Hf as [Ec Hf].
  assert (Hs : exists k, steps (walk_step http_list threads) k (walk_start u) w).
  { exists (n + m). eapply steps_trans; [exact H0|]. clear -H1. induction H1 as [|k a b c [Hs _] _ IH]; [constructor|econstructor; eauto]. }
  destruct Hs as [k Hs]. destruct (walk_complete http_list threads no_panic k u w Hs) as [F [HF P]]; [now rewrite Ec|now rewrite Ec|].
  exists F. split; [exact HF|]. rewrite (files_of_perm _ _ P). unfold files_of at 1. rewrite flat_map_app. fold (files_of (flat_map item_found (items w))). rewrite items_files.
  rewrite files_of_visits. now rewrite app_nil_r.
Qed.
End Site.

(** *** Sites *)
Definition at_path (p : string) : url := {| origin := lit "http://logs"; upath := lit p; suffix := [] |}.
Definition same_url (a b : url) : bool := if url_eq_dec a b then true else false.
(** A site given by its pages; other pages have no links. *)
Definition site (pages : list (url * res (list url))) (u : url) : res (list url) :=
  match find (fun p => same_url (fst p) u) pages with Some (_, r) => r | None => Val [] end.
Definition root := at_path "/logs/".
Definition sub := at_path "/logs/sub/".
Definition a_log := at_path "/logs/a.log".
Definition b_log := at_path "/logs/sub/b.log".
(** A directory with a file, a parent link, the system configuration and a sub directory. *)
Definition small := site [(root, Val [at_path "/"; a_log; at_path "/logs/etc/"; sub]); (sub, Val [root; b_log])].

Definition small_end : crawl_state :=
  {| queue := []; active := []; chan := [MFile a_log; MDone; MFile b_log; MDone]; panics := 0; requests := [root; sub] |}.
Lemma small_run : exists n, steps (worker small 4) n (start new_crawler root) small_end.
Proof.
  eexists. unfold start, new_crawler. change (submit 0 root (queue _)) with [root]. cbn [active chan panics requests].
  eapply StepsS; [eapply WStart; cbn; lia|]. cbn [app].
  eapply StepsS; [eapply (WListed small 4 root _ _ [] []); reflexivity|]. cbn [app].
  eapply StepsS; [eapply (WLink small 4 _ _ _ _ [] [])|]. eapply StepsS; [eapply (WLink small 4 _ _ _ _ [] [])|].
  eapply StepsS; [eapply (WLink small 4 _ _ _ _ [] [])|]. eapply StepsS; [eapply (WLink small 4 _ _ _ _ [] [])|].
  eapply StepsS; [eapply (WDone small 4 _ _ [] [])|]. eapply StepsS; [eapply (WExit small 4 _ [] [])|].
  match goal with |- steps _ _ {| queue := ?q; active := _; chan := ?c; panics := _; requests := _ |} _ =>
    change q with [sub]; change c with [MFile a_log; MDone] end. cbn [app].
  eapply StepsS; [eapply WStart; cbn; lia|]. cbn [app].
  eapply StepsS; [eapply (WListed small 4 sub _ _ [] []); reflexivity|]. cbn [app].
  eapply StepsS; [eapply (WLink small 4 _ _ _ _ [] [])|]. eapply StepsS; [eapply (WLink small 4 _ _ _ _ [] [])|].
  eapply StepsS; [eapply (WDone small 4 _ _ [] [])|]. eapply StepsS; [eapply (WExit small 4 _ [] [])|]. apply Steps0.
Qed.
Example C44_example : exists s', list_call small 4 new_crawler root s' (Val [a_log; b_log]).
Proof. eexists. destruct small_run as [n S]. exact (ListCall small 4 new_crawler root n small_end S (conj eq_refl eq_refl)). Qed.
(** Its directories are finitely many. *)
Example C45_example : forall d, reached small root d -> In d [root; sub].
Proof.
  intros d H. induction H as [|d links l d' H IH El Hl [Hs [Hp Hlt]]]; [now left|]. apply directory_spec in Hp. rewrite skipped_spec in Hs.
  destruct IH as [<-|[<-|[]]]; (assert (X : links = links) by reflexivity; vm_compute in El; injection El as <-);
    repeat (destruct Hl as [<-|Hl]; [vm_compute in Hp; try discriminate; injection Hp as <-; vm_compute in Hlt; try lia; try (exfalso; apply Hs; reflexivity); try (right; left; reflexivity)|]);
    destruct Hl.
Qed.

(** *** The iterator can lose files *)
(** A worker sends its last files and ends after the iterator saw the empty channel and before it
    reads the counters. *)
Theorem C46_no_file_lost_refuted : exists n w, steps (walk_step small 4) n (walk_start root) w /\
  pos w = PStop /\ finished (crawl w) /\ items w = [] /\ reached_file small root a_log.
Proof.
  destruct small_run as [n S]. set (e := small_end) in *.
  assert (Lift : forall n s s' p a l, steps (worker small 4) n s s' ->
    steps (walk_step small 4) n {| crawl := s; pos := p; abort := a; items := l |} {| crawl := s'; pos := p; abort := a; items := l |}).
  { intros k s s' p a l H. induction H; [constructor|econstructor; [apply SWorker; eassumption|assumption]]. }
  exists (1 + (n + 3)), {| crawl := e; pos := PStop; abort := false; items := [] |}. split; [|split; [reflexivity|split; [split; reflexivity|split; [reflexivity|]]]].
  - eapply StepsS; [apply SEmpty; reflexivity|]. eapply steps_trans; [apply (Lift n _ e); exact S|].
    eapply StepsS; [apply SActive|]. eapply StepsS; [apply SQueued|]. eapply StepsS; [apply SPanic|]. apply Steps0.
  - exists root. eexists. split; [apply ReachedFirst; cbn; lia|]. split; [reflexivity|]. split; [right; now left|split; [rewrite skipped_spec; discriminate|now apply not_directory]].
Qed.
(** The two counters are not read at the same time: a job that starts between the two reads is not
    counted, and the iterator ends although no page was fetched. *)
Theorem C46_counters_refuted : exists n w, steps (walk_step small 4) n (walk_start root) w /\
  pos w = PStop /\ active (crawl w) = [RFetch root] /\ items w = [] /\ reached_file small root a_log.
Proof.
  exists 5, {| crawl := {| queue := []; active := [RFetch root]; chan := []; panics := 0; requests := [] |}; pos := PStop; abort := false; items := [] |}. split; [|split; [reflexivity|split; [reflexivity|split; [reflexivity|]]]].
  - eapply StepsS; [apply SEmpty; reflexivity|]. eapply StepsS; [apply SActive|]. eapply StepsS; [apply SWorker; apply WStart; cbn; lia|].
    eapply StepsS; [apply SQueued|]. eapply StepsS; [apply SPanic|]. apply Steps0.
  - exists root. eexists. split; [apply ReachedFirst; cbn; lia|]. split; [reflexivity|]. split; [right; now left|split; [rewrite skipped_spec; discriminate|now apply not_directory]].
Qed.


(** *** Requests are not bounded by the number of pages *)
(** [n + 1] directories, each with two links to the next one: [2 ^ (n + 1) - 1] requests. *)
Definition deep (k : nat) : url := {| origin := lit "http://logs"; upath := lit "/" ++ repeat 97%N k ++ lit "/"; suffix := [] |}.
Definition chain (n : nat) (u : url) : res (list url) :=
  if Nat.ltb (path_len u - 2) n then Val [deep (S (path_len u - 2)); deep (S (path_len u - 2))] else Val [].
Lemma deep_len k : path_len (deep k) = k + 2.
Proof. unfold path_len, deep. cbn [upath]. rewrite !app_length, repeat_length. cbn. lia. Qed.
Lemma deep_dir k : path_dir (deep k) = Some (deep k).
Proof.
  unfold path_dir. replace (ends_with (lit "/") (upath (deep k))) with true; [reflexivity|].
  symmetry. unfold ends_with. cbn [deep upath]. rewrite app_assoc, rev_app_distr. reflexivity.
Qed.
Lemma deep_not_skipped k : ~ skipped (deep k).
Proof.
  rewrite skipped_spec. unfold ends_with. cbn [deep upath]. rewrite !rev_app_distr. change (rev (lit "/etc/")) with (lit "/cte/"). change (rev (lit "/")) with [47%N].
  assert (E : forall k, rev (repeat 97%N k) = repeat 97%N k).
  { induction k0 as [|j IH]; [reflexivity|]. cbn [repeat rev]. rewrite IH. clear IH. induction j as [|j IH]; [reflexivity|]. cbn [repeat app]. now rewrite IH. }
  rewrite E. destruct k as [|k]; cbn; discriminate.
Qed.
Lemma chain_reached n d : reached (chain n) (deep 0) d -> exists k, k <= n /\ d = deep k.
Proof.
  intros H. induction H as [|d links l d' H [k [Hk ->]] El Hl [_ [Hp Hlt]]]; [exists 0; split; [lia|reflexivity]|].
  unfold chain in El. rewrite deep_len in El. replace (k + 2 - 2) with k in El by lia. destruct (Nat.ltb_spec k n); injection El as <-; [|destruct Hl].
  assert (l = deep (S k)) by (destruct Hl as [<-|[<-|[]]]; reflexivity). subst l. apply directory_spec in Hp. rewrite deep_dir in Hp. injection Hp as <-. exists (S k). split; [lia|reflexivity].
Qed.
Lemma chain_visits n : forall j k F, j + k = n -> crawls (chain n) (deep k) F -> length (visits_of F) + 1 = 2 ^ (j + 1).
Proof.
  assert (Len : forall a b, length (visits_of (a ++ b)) = length (visits_of a) + length (visits_of b)) by (intros; unfold visits_of; now rewrite flat_map_app, app_length).
  assert (Chain : forall k, chain n (deep k) = if Nat.ltb k n then Val [deep (S k); deep (S k)] else Val []).
  { intros k. unfold chain. rewrite deep_len. replace (k + 2 - 2) with k by lia. reflexivity. }
  induction j as [|j IH]; intros k F E H; inversion H as [d e He|d He|d links l He Hl]; subst d F; rewrite Chain in He; destruct (Nat.ltb_spec k n); try lia; try discriminate.
  - injection He as <-. inversion Hl; subst. reflexivity.
  - injection He as <-.
    assert (Two : forall l, crawls_links (chain n) (deep k) [deep (S k)] l -> length (visits_of l) + 1 = 2 ^ (j + 1)).
    { intros l0 HL. inversion HL as [|d0 l1 r0 f0 Hs Hr|d0 l1 r0 f0 [Hn Hi] Hr|d0 l1 d1 r0 f0 g0 [Hs [Hp Hlt]] Hc Hr|d0 l1 d1 r0 f0 Hs Hp Hle Hr]; subst.
      - destruct (deep_not_skipped _ Hs).
      - apply not_directory in Hi. rewrite deep_dir in Hi. discriminate.
      - apply directory_spec in Hp. rewrite deep_dir in Hp. injection Hp as <-. inversion Hr; subst. rewrite app_nil_r. apply (IH (S k)); [lia|exact Hc].
      - apply directory_spec in Hp. rewrite deep_dir in Hp. injection Hp as <-. fold (path_len (deep (S k))) in Hle. fold (path_len (deep k)) in Hle. rewrite !deep_len in Hle. lia. }
    inversion Hl as [|d0 l1 r0 f0 Hs Hr|d0 l1 r0 f0 [Hn Hi] Hr|d0 l1 d1 r0 f0 g0 [Hs [Hp Hlt]] Hc Hr|d0 l1 d1 r0 f0 Hs Hp Hle Hr]; subst.
    + destruct (deep_not_skipped _ Hs).
    + apply not_directory in Hi. rewrite deep_dir in Hi. discriminate.
    + apply directory_spec in Hp. rewrite deep_dir in Hp. injection Hp as <-. change (FVisit (deep k) :: f0 ++ g0) with ([FVisit (deep k)] ++ f0 ++ g0). rewrite !Len. cbn [length visits_of flat_map app].
      pose proof (IH (S k) f0 ltac:(lia) Hc). pose proof (Two _ Hr). change (2 ^ (S j + 1)) with (2 ^ (j + 1) + (2 ^ (j + 1) + 0)). lia.
    + apply directory_spec in Hp. rewrite deep_dir in Hp. injection Hp as <-. fold (path_len (deep (S k))) in Hle. fold (path_len (deep k)) in Hle. rewrite !deep_len in Hle. lia.
Qed.
Theorem C45_each_page_once_refuted : forall n threads, 0 < threads ->
  (forall d, reached (chain n) (deep 0) d -> In d (map deep (seq 0 (n + 1)))) /\
  (exists s' r, list_call (chain n) threads new_crawler (deep 0) s' r) /\
  forall s' r, list_call (chain n) threads new_crawler (deep 0) s' r -> length (requests s') + 1 = 2 ^ (n + 1).
Proof.
  intros n threads Ht.
  assert (R : forall d, reached (chain n) (deep 0) d -> In d (map deep (seq 0 (n + 1)))).
  { intros d H. apply chain_reached in H as [k [Hk ->]]. apply in_map. apply in_seq. lia. }
  split; [exact R|]. split; [exact (C45_returns _ _ _ _ R Ht)|]. intros s' r H.
  apply list_run in H as [F [HF [_ P]]]; [|split; reflexivity|reflexivity|reflexivity]. cbn [new_crawler requests app] in P. rewrite (Permutation_length P).
  unfold crawls_from in HF. fold (path_len (deep 0)) in HF. rewrite deep_len in HF. cbn [Nat.ltb Nat.leb Nat.add] in HF. apply (chain_visits n n 0); [lia|exact HF].
Qed.

(** ** C63: the links of a page *)
(** Exactly the texts between quotes of the anchors, with at least two characters of which the
    first is a letter, a digit, a slash or a backslash; in order, none is skipped. *)
Theorem C63_links : forall page link, In link (find_links (S (length page)) page) <-> has_link page link.
Proof. intros page link. rewrite find_links_all by lia. apply all_links_spec. Qed.
(** Each of them once for each place where it is, in the order of the page. *)
Theorem C63_links_in_order : forall page, exists places,
  StronglySorted (fun p q => fst p < fst q) places /\ (forall i link, In (i, link) places <-> link_at page i link) /\
  find_links (S (length page)) page = map snd places.
Proof.
  intros page. rewrite find_links_all by lia. induction page as [|c r [pl [Hs [Hin Hm]]]].
  - exists []. csplit; [constructor| |reflexivity]. intros i link. split; [intros []|]. intros [_ [after E]]. rewrite skipn_nil in E. discriminate.
  - set (now := match match_link (c :: r) with Some (l, _) => [(0, l)] | None => [] end).
    exists (now ++ map (fun p => (S (fst p), snd p)) pl). csplit.
    + assert (T : StronglySorted (fun p q : nat * text => fst p < fst q) (map (fun p => (S (fst p), snd p)) pl)).
      { clear - Hs. induction Hs as [|p l Hs IH Hf]; cbn [map]; constructor; [exact IH|]. apply Forall_forall. intros q Hq. apply in_map_iff in Hq as [x [<- Hx]]. cbn [fst]. rewrite Forall_forall in Hf. apply Hf in Hx. lia. }
      unfold now. destruct (match_link (c :: r)) as [[l a]|]; [|exact T]. cbn [app]. constructor; [exact T|]. apply Forall_forall. intros q Hq. apply in_map_iff in Hq as [p [<- _]]. cbn [fst]. lia.
    + intros i link. rewrite in_app_iff, in_map_iff. split.
      * intros [H|[[j l] [E H]]].
        -- unfold now in H. destruct (match_link (c :: r)) as [[l a]|] eqn:E; [|destruct H]. destruct H as [H|[]]. injection H as <- <-.
           apply match_link_spec in E as [Ok E]. split; [exact Ok|]. exists a. cbn [skipn]. rewrite E. unfold anchor. now rewrite <- app_assoc.
        -- cbn [fst snd] in E. injection E as <- <-. apply Hin in H. exact H.
      * intros [Ok [after E]]. destruct i as [|i].
        -- left. unfold now. replace (match_link (c :: r)) with (Some (link, after)); [left; reflexivity|].
           symmetry. apply match_link_spec. split; [exact Ok|]. cbn [skipn] in E. rewrite E. unfold anchor. now rewrite <- app_assoc.
        -- right. exists (i, link). split; [reflexivity|]. apply Hin. split; [exact Ok|]. exists after. exact E.
    + cbn [all_links]. rewrite map_app, map_map, Hm. cbn [snd]. f_equal. unfold now. destruct (match_link (c :: r)) as [[l a]|]; reflexivity.
Qed.
(** One link that cannot be joined to the address of the page loses all the links of the page. *)
Theorem C63_page : forall join base page,
  (forall links, parse_index_of join base page = Val links <-> Forall2 (fun t u => join base t = Val u) (find_links (S (length page)) page) links) /\
  ((exists link, has_link page link /\ forall u, join base link <> Val u) <-> forall links, parse_index_of join base page <> Val links).
Proof.
  intros join base page.
  assert (P : forall l links, collect_links join base l = Val links <-> Forall2 (fun t u => join base t = Val u) l links).
  { induction l as [|t l IH]; intros links; cbn [collect_links].
    - split; [intros E; injection E as <-; constructor|]. intros E. inversion E. reflexivity.
    - split.
      + destruct (join base t) as [u|e|] eqn:E; try discriminate. destruct (collect_links join base l) as [us|e|] eqn:E'; try discriminate.
        intros H. injection H as <-. constructor; [exact E|]. now apply IH.
      + intros H. inversion H as [|? u ? us Hu Hr]; subst. rewrite Hu. apply IH in Hr. now rewrite Hr. }
  split; [intros links; apply P|]. split.
  - intros [link [Hl Hu]] links E. apply P in E. apply C63_links in Hl. induction E as [|t u l us Ht _ IH]; [destruct Hl|].
    destruct Hl as [->|Hl]; [exact (Hu _ Ht)|exact (IH Hl)].
  - intros H. unfold parse_index_of in H.
    assert (B : forall l, (exists t, In t l /\ forall u, join base t <> Val u) \/ exists links, collect_links join base l = Val links).
    { induction l as [|t l IH]; [right; exists []; reflexivity|]. destruct (join base t) as [u|e|] eqn:E.
      - destruct IH as [[t' [Ht Hn]]|[us Hus]]; [left; exists t'; split; [now right|exact Hn]|]. right. exists (u :: us). cbn [collect_links]. now rewrite E, Hus.
      - left. exists t. split; [now left|]. intros u. rewrite E. discriminate.
      - left. exists t. split; [now left|]. intros u. rewrite E. discriminate. }
    destruct (B (find_links (S (length page)) page)) as [[t [Ht Hn]]|[links Hl]]; [|destruct (H _ Hl)].
    exists t. split; [now apply C63_links|exact Hn].
Qed.
(** A page with its parent, a directory and a file. *)
Definition q1 : text := [quote].
Definition page1 : text := lit "<h1>Index of /</h1><pre><a href=" ++ q1 ++ lit "../" ++ q1 ++ lit ">../</a> <a href=" ++ q1 ++ lit "sub/" ++ q1 ++ lit ">sub/</a> 1K <a href=" ++ q1 ++ lit "a.log" ++ q1 ++ lit ">a</a>".
Example C63_example : find_links (S (length page1)) page1 = [lit "sub/"; lit "a.log"].
Proof. vm_compute. reflexivity. Qed.
(** Not every anchor is a link: names of one character and hidden files are missed. *)
Theorem C63_every_anchor_refuted : exists link1 link2, link1 <> [] /\ ~ In quote link1 /\ link2 <> [] /\ ~ In quote link2 /\
  forall after, find_links (S (length after)) after = [] ->
  forall page, page = lit "<a href=" ++ q1 ++ link1 ++ q1 ++ lit "></a><a href=" ++ q1 ++ link2 ++ q1 ++ lit "></a>" ++ after ->
  find_links (S (length page)) page = [].
Proof.
  exists (lit "1"), (lit ".hidden.log"). csplit; try discriminate; try (cbn; intuition discriminate).
  intros after Ha page ->. rewrite find_links_all in * by lia. cbn [lit q1 app String.length]. repeat (rewrite all_links_skip; [|reflexivity]). exact Ha.
Qed.

(** ** C64: using a crawler again; which pages and how often *)
(** A crawler after some successful calls. *)
Inductive used (http_list : url -> res (list url)) (threads : nat) : crawl_state -> Prop :=
| UsedNew : used http_list threads new_crawler
| UsedAgain s u s' files : used http_list threads s -> list_call http_list threads s u s' (Val files) -> used http_list threads s'.
Theorem C64_reuse : forall http_list threads s u s' r, used http_list threads s -> list_call http_list threads s u s' r ->
  (reached_error http_list u /\ exists e, r = Fail e) \/
  (~ reached_error http_list u /\ exists files, r = Val files /\ forall x, In x files <-> reached_file http_list u x).
Proof.
  intros http_list threads s u s' r Hu H.
  assert (C : finished s /\ chan s = [] /\ panics s = 0).
  { clear H. induction Hu as [|s v s1 files Hu [Hf [Hc Hp]] H]; [unfold finished; csplit; reflexivity|].
    assert (F1 : finished s1) by (inversion H; split; reflexivity).
    apply list_run in H as [F [_ [[[_ [e E]]|[_ [f [_ [_ [A B]]]]]] _]]]; auto; discriminate. }
  destruct C as [Hf [Hc Hp]]. apply list_run in H as [F [HF [[H|[Hn [files [-> [P _]]]]] _]]]; auto.
  right. split; [exact Hn|]. exists files. split; [reflexivity|]. intros x. rewrite <- (crawls_from_files _ _ _ HF).
  split; apply Permutation_in; [exact P|apply Permutation_sym; exact P].
Qed.
(** After the panic of a worker each later call fails, even on an empty directory. *)
Theorem C64_panics_stay : forall http_list threads s u s' r, 0 < panics s -> list_call http_list threads s u s' r ->
  0 < panics s' /\ r = Fail (lit "Crawler panicked!").
Proof.
  intros http_list threads s u s' r Hp H. inversion H as [n s1 Hs Hf E1 E2]; subst. cbn [panics].
  assert (M : forall n a b, steps (worker http_list threads) n a b -> panics a <= panics b).
  { induction 1 as [|m a b c W _ IH]; [lia|]. inversion W; subst; cbn [panics] in *; lia. }
  apply M in Hs. cbn [start panics] in Hs. destruct (Nat.ltb_spec 0 (panics s1)); [split; [lia|reflexivity]|lia].
Qed.
(** A failed call leaves messages behind, which the next call returns as its own files. *)
Definition other := at_path "/other/".
Definition broken := site [(root, Val [sub; at_path "/logs/dir/"]); (sub, Fail (lit "Reqwest failed")); (at_path "/logs/dir/", Val [b_log]); (other, Val [])].
Theorem C64_reuse_after_failure_refuted : exists s1 e s2 files, list_call broken 4 new_crawler root s1 (Fail e) /\
  list_call broken 4 s1 other s2 (Val files) /\ In b_log files /\ ~ reached_file broken other b_log.
Proof.
  assert (S1 : exists n, steps (worker broken 4) n (start new_crawler root)
    {| queue := []; active := []; chan := [MDone; MErr (lit "Reqwest failed"); MFile b_log; MDone]; panics := 0; requests := [root; sub; at_path "/logs/dir/"] |}).
  { eexists. unfold start, new_crawler. change (submit 0 root (queue _)) with [root]. cbn [active chan panics requests].
    eapply StepsS; [eapply WStart; cbn; lia|]. cbn [app].
    eapply StepsS; [eapply (WListed broken 4 root _ _ [] []); reflexivity|]. cbn [app].
    eapply StepsS; [eapply (WLink broken 4 _ _ _ _ [] [])|]. eapply StepsS; [eapply (WLink broken 4 _ _ _ _ [] [])|].
    eapply StepsS; [eapply (WDone broken 4 _ _ [] [])|]. eapply StepsS; [eapply (WExit broken 4 _ [] [])|].
    match goal with |- steps _ _ {| queue := ?q; active := _; chan := ?c; panics := _; requests := _ |} _ =>
      change q with [sub; at_path "/logs/dir/"]; change c with [MDone] end. cbn [app].
    eapply StepsS; [eapply WStart; cbn; lia|]. cbn [app].
    eapply StepsS; [eapply (WFailed broken 4 sub _ _ [] []); reflexivity|]. cbn [app]. eapply StepsS; [eapply (WExit broken 4 _ [] [])|]. cbn [app].
    eapply StepsS; [eapply WStart; cbn; lia|]. cbn [app].
    eapply StepsS; [eapply (WListed broken 4 (at_path "/logs/dir/") _ _ [] []); reflexivity|]. cbn [app].
    eapply StepsS; [eapply (WLink broken 4 _ _ _ _ [] [])|].
    eapply StepsS; [eapply (WDone broken 4 _ _ [] [])|]. eapply StepsS; [eapply (WExit broken 4 _ [] [])|]. apply Steps0. }
  destruct S1 as [n1 S1]. eexists _, _, _, _. split; [exact (ListCall broken 4 new_crawler root n1 _ S1 (conj eq_refl eq_refl))|]. cbn [panics Nat.ltb Nat.leb requests chan collect fst snd].
  assert (S2 : exists n, steps (worker broken 4) n (start {| queue := []; active := []; chan := [MFile b_log; MDone]; panics := 0; requests := [root; sub; at_path "/logs/dir/"] |} other)
    {| queue := []; active := []; chan := [MFile b_log; MDone; MDone]; panics := 0; requests := [root; sub; at_path "/logs/dir/"; other] |}).
  { eexists. unfold start. change (submit 0 other (queue _)) with [other]. cbn [active chan panics requests].
    eapply StepsS; [eapply WStart; cbn; lia|]. cbn [app].
    eapply StepsS; [eapply (WListed broken 4 other _ _ [] []); reflexivity|]. cbn [app].
    eapply StepsS; [eapply (WDone broken 4 _ _ [] [])|]. eapply StepsS; [eapply (WExit broken 4 _ [] [])|]. apply Steps0. }
  destruct S2 as [n2 S2]. split; [exact (ListCall broken 4 _ other n2 _ S2 (conj eq_refl eq_refl))|]. split; [left; reflexivity|].
  assert (R : forall d, reached broken other d -> d = other).
  { intros d H. induction H as [|d links l d' H -> El Hl _]; [reflexivity|]. vm_compute in El. injection El as <-. destruct Hl. }
  intros [d [links [Hd [El [Hl _]]]]]. apply R in Hd as ->. vm_compute in El. injection El as <-. destruct Hl.
Qed.

(** Directories whose links stay on their host are crawled on one host. *)
Theorem C64_host : forall http_list u, (forall d links l, reached http_list u d -> http_list d = Val links -> In l links -> origin l = origin d) ->
  (forall d, reached http_list u d -> origin d = origin u) /\ forall f, reached_file http_list u f -> origin f = origin u.
Proof.
  intros http_list u H.
  assert (R : forall d, reached http_list u d -> origin d = origin u).
  { intros d Hd. induction Hd as [|d links l d' Hd IH El Hl [_ [Hp _]]]; [reflexivity|]. rewrite <- IH, <- (H _ _ _ Hd El Hl).
    exact (proj1 Hp). }
  split; [exact R|]. intros f [d [links [Hd [El [Hl _]]]]]. rewrite <- (R _ Hd). eapply H; eauto.
Qed.
(** Nothing else keeps the crawl there: a link to another host is followed. *)
Definition elsewhere : url := {| origin := lit "http://other"; upath := lit "/elsewhere/"; suffix := [] |}.
Definition linked := site [(root, Val [elsewhere])].
Theorem C64_stays_on_host_refuted : exists s' files, list_call linked 4 new_crawler root s' (Val files) /\ In elsewhere (requests s') /\ origin elsewhere <> origin root.
Proof.
  assert (S1 : exists n, steps (worker linked 4) n (start new_crawler root)
    {| queue := []; active := []; chan := [MDone; MDone]; panics := 0; requests := [root; elsewhere] |}).
  { eexists. unfold start, new_crawler. change (submit 0 root (queue _)) with [root]. cbn [active chan panics requests].
    eapply StepsS; [eapply WStart; cbn; lia|]. cbn [app].
    eapply StepsS; [eapply (WListed linked 4 root _ _ [] []); reflexivity|]. cbn [app].
    eapply StepsS; [eapply (WLink linked 4 _ _ _ _ [] [])|].
    eapply StepsS; [eapply (WDone linked 4 _ _ [] [])|]. eapply StepsS; [eapply (WExit linked 4 _ [] [])|].
    match goal with |- steps _ _ {| queue := ?q; active := _; chan := ?c; panics := _; requests := _ |} _ =>
      change q with [elsewhere]; change c with [MDone] end. cbn [app].
    eapply StepsS; [eapply WStart; cbn; lia|]. cbn [app].
    eapply StepsS; [eapply (WListed linked 4 elsewhere _ _ [] []); reflexivity|]. cbn [app].
    eapply StepsS; [eapply (WDone linked 4 _ _ [] [])|]. eapply StepsS; [eapply (WExit linked 4 _ [] [])|]. apply Steps0. }
  destruct S1 as [n S1]. eexists _, _. split; [exact (ListCall linked 4 new_crawler root n _ S1 (conj eq_refl eq_refl))|]. split; [right; now left|discriminate].
Qed.
(** A directory with two names is listed twice and its files are found twice, with every schedule. *)
Definition twice := site [(root, Val [sub; at_path "/logs/sub/index.html"]); (sub, Val [b_log])].
Theorem C64_found_once_refuted : (exists s' r, list_call twice 4 new_crawler root s' r) /\
  forall s' r, list_call twice 4 new_crawler root s' r -> r = Val [b_log; b_log].
Proof.
  split.
  - apply (C45_returns twice 4 root [root; sub]); [|lia]. intros d H. induction H as [|d links l d' H IH El Hl [Hs [Hp Hlt]]]; [now left|]. apply directory_spec in Hp.
    destruct IH as [<-|[<-|[]]]; vm_compute in El; injection El as <-;
      repeat (destruct Hl as [<-|Hl]; [vm_compute in Hp; try discriminate; injection Hp as <-; right; left; reflexivity|]); destruct Hl.
  - intros s' r H. apply list_run in H as [F [HF [C _]]]; [|split; reflexivity|reflexivity|reflexivity].
    assert (HF' : crawls_from twice root [FVisit root; FVisit sub; FFile b_log; FVisit sub; FFile b_log]).
    { unfold crawls_from. cbn [Nat.ltb Nat.leb path_len root at_path upath lit length]. 
      assert (Sub : crawls twice sub [FVisit sub; FFile b_log]).
      { eapply CrawlListed; [reflexivity|]. apply LinksFile; [split; [rewrite skipped_spec; discriminate|now apply not_directory]|constructor]. }
      eapply CrawlListed; [reflexivity|]. apply (LinksDown _ _ _ sub _ [FVisit sub; FFile b_log] [FVisit sub; FFile b_log]).
      - split; [rewrite skipped_spec; discriminate|]. split; [now apply directory_spec|vm_compute; lia].
      - exact Sub.
      - rewrite <- (app_nil_r [FVisit sub; FFile b_log]). apply (LinksDown _ _ _ sub).
        + split; [rewrite skipped_spec; discriminate|]. split; [now apply directory_spec|vm_compute; lia].
        + exact Sub.
        + constructor. }
    rewrite (crawls_from_unique _ _ _ _ HF HF') in C. destruct C as [[[d [Hd Hn]] _]|[_ [files [-> [P _]]]]].
    + exfalso. assert (In d (visits_of F)) as Hv by (apply (crawls_from_visits _ _ _ HF); exact Hd).
      rewrite (crawls_from_unique _ _ _ _ HF HF') in Hv. destruct Hv as [<-|[<-|[<-|[]]]]; eapply Hn; reflexivity.
    + f_equal. cbn in P. apply Permutation_sym, Permutation_length_2_inv in P. destruct P as [P|P]; exact P.
Qed.
(** The site [small] meets the hypothesis of the theorems of C46. *)
Example C46_example : forall u, small u <> Panic.
Proof.
  intros u. unfold small, site. cbn [find fst]. destruct (same_url root u); [discriminate|]. destruct (same_url sub u); discriminate.
Qed.

(** A site whose first page makes the worker panic. *)
Example C46_example_panic : exists n w, steps (walk_step (fun _ => Panic) 4) n (walk_start root) w /\
  pos w = PStop /\ finished (crawl w) /\ items w = [Fail (lit "Crawler panicked!")].
Proof.
  do 2 eexists. split; [|split; [|split]].
  - eapply StepsS; [apply SWorker; apply WStart; cbn; lia|]. eapply StepsS; [apply SWorker; apply (WPanicked _ _ root [] [] []); reflexivity|].
    eapply StepsS; [apply SEmpty; reflexivity|]. eapply StepsS; [apply SActive|]. eapply StepsS; [apply SQueued|]. eapply StepsS; [apply SPanic|].
    eapply StepsS; [apply SPanicked; cbn; lia|]. eapply StepsS; [apply SEmpty; reflexivity|]. apply Steps0.
  - reflexivity.
  - split; reflexivity.
  - reflexivity.
Qed.

Print Assumptions C44_list.
Print Assumptions C44_schedule_independent.
Print Assumptions C44_sequential.
Print Assumptions C45_terminates.
Print Assumptions C45_returns.
Print Assumptions C45_requests.
Print Assumptions C45_each_page_once_refuted.
Print Assumptions C46_nothing_invented.
Print Assumptions C46_calm_end_complete.
Print Assumptions C46_ends.
Print Assumptions C46_items.
Print Assumptions C46_panic_once.
Print Assumptions C46_panic_reported.
Print Assumptions C46_no_file_lost_refuted.
Print Assumptions C46_counters_refuted.
Print Assumptions C63_links.
Print Assumptions C63_links_in_order.
Print Assumptions C63_page.
Print Assumptions C63_every_anchor_refuted.
Print Assumptions C64_reuse.
Print Assumptions C64_panics_stay.
Print Assumptions C64_reuse_after_failure_refuted.
Print Assumptions C64_host.
Print Assumptions C64_stays_on_host_refuted.
Print Assumptions C64_found_once_refuted.
