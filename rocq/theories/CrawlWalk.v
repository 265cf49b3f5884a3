(** Proofs about the crawling iterator. *)
From Coq Require Import String List NArith PeanoNat Wf_nat Bool Lia Permutation.
From Verif Require Import Common CommonFacts FilesModel CrawlModel CrawlSpec CrawlProofs.
Import ListNotations.
Open Scope nat_scope.

Definition item_found (i : res url) : list found := match i with Val u => [FFile u] | Fail e => [FError e] | Panic => [] end.
Definition item_files (l : list (res url)) : list url := flat_map (fun i => match i with Val u => [u] | _ => [] end) l.
Definition msg_item (m : message) : flat_map item_found (item_of m) = message_found m := ltac:(now destruct m).

Section Walk.
Variable http_list : url -> res (list url).
Variable threads : nat.
Hypothesis no_panic : forall u, http_list u <> Panic.
Notation yields := (yields http_list).
Notation walk_step := (walk_step http_list threads).

Lemma worker_no_panic s s' : worker http_list threads s s' -> panics s' = panics s.
Proof. intros H. inversion H; subst; try reflexivity. match goal with H : http_list _ = Panic |- _ => destruct (no_panic _ H) end. Qed.
Lemma walk_no_panic w w' : walk_step w w' -> panics (crawl w') = panics (crawl w).
Proof. intros H. inversion H; subst; cbn; try reflexivity. now apply worker_no_panic. Qed.
Lemma walks_no_panic n w w' : steps walk_step n w w' -> panics (crawl w') = panics (crawl w).
Proof. induction 1 as [|n w w1 w' H _ IH]; [reflexivity|]. rewrite IH. now apply walk_no_panic. Qed.

Lemma yields_receive s m c G : chan s = m :: c -> yields (with_chan s c) G -> yields s (message_found m ++ G).
Proof.
  intros Ec [fq [fa [Hq [Ha P]]]]. exists fq, fa. split; [exact Hq|]. split; [exact Ha|].
  apply perm_cnt. intros z. rewrite perm_cnt in P. specialize (P z). unfold done_so_far, with_chan in *. cbn [requests chan panics] in *. rewrite Ec.
  cbn [flat_map]. rewrite !cnt_app in *. lia.
Qed.
Lemma walk_yields w w' G : panics (crawl w) = 0 -> walk_step w w' -> yields (crawl w') G ->
  exists G', yields (crawl w) G' /\ Permutation (flat_map item_found (items w) ++ G') (flat_map item_found (items w') ++ G).
Proof.
  intros Hp H Y. inversion H; subst; cbn [crawl items panics] in *; try (exists G; split; [exact Y|reflexivity]).
  - exists G. split; [eapply worker_yields; eauto|reflexivity].
  - eexists. split; [eapply yields_receive; eauto|]. rewrite flat_map_app, msg_item, <- app_assoc. reflexivity.
  - lia.
  - eexists. split; [eapply yields_receive; eauto|]. rewrite flat_map_app, msg_item, <- app_assoc. reflexivity.
Qed.
Lemma walks_yields n w w' G : steps walk_step n w w' -> panics (crawl w) = 0 -> yields (crawl w') G ->
  exists G', yields (crawl w) G' /\ Permutation (flat_map item_found (items w) ++ G') (flat_map item_found (items w') ++ G).
Proof.
  induction 1 as [w|n w w1 w' Hs _ IH]; intros Hp Y; [exists G; split; [exact Y|reflexivity]|].
  destruct (IH ltac:(now rewrite (walk_no_panic _ _ Hs)) Y) as [G1 [Y1 P1]].
  destruct (walk_yields _ _ _ Hp Hs Y1) as [G2 [Y2 P2]]. exists G2. split; [exact Y2|]. now rewrite P2.
Qed.
Lemma start_yields u G : yields (start new_crawler u) G -> exists F, crawls_from http_list u F /\ Permutation G F.
Proof.
  intros [fq [fa [Hq [Ha P]]]]. unfold start, new_crawler, submit, crawls_from, path_len in *. cbn [queue active] in *. inversion Ha; subst.
  destruct (Nat.ltb 0 (length (upath u))); cbn [app] in Hq.
  - inversion Hq as [|x y l l' Hx Hn]; subst. inversion Hn; subst. exists y. split; [exact Hx|]. cbn [concat] in P. now rewrite !app_nil_r in P.
  - inversion Hq; subst. exists []. split; [reflexivity|]. exact P.
Qed.
Lemma walk_in_site root w w' : walk_step w w' -> in_site http_list root (crawl w) -> in_site http_list root (crawl w').
Proof. intros H Hi. inversion H; subst; cbn [crawl] in *; auto. eapply worker_in_site; eauto. Qed.
Lemma walks_in_site root n w w' : steps walk_step n w w' -> in_site http_list root (crawl w) -> in_site http_list root (crawl w').
Proof. induction 1; eauto using walk_in_site. Qed.
Lemma crawl_bounded u F : crawls_from http_list u F -> exists L, forall d, reached http_list u d -> path_len d <= L.
Proof.
  intros H. exists (list_max (map path_len (visits_of F))). intros d Hd. apply (crawls_from_visits _ _ _ H) in Hd.
  pose proof (proj1 (list_max_le (map path_len (visits_of F)) _) (Nat.le_refl _)) as M. rewrite Forall_forall in M. apply M. now apply in_map.
Qed.
Lemma items_files l : files_of (flat_map item_found l) = item_files l.
Proof. unfold files_of, item_files. induction l as [|i l IH]; [reflexivity|]. cbn [flat_map]. rewrite flat_map_app, IH. destruct i; reflexivity. Qed.
Lemma files_of_perm a b : Permutation a b -> Permutation (files_of a) (files_of b).
Proof. apply Permutation_flat_map. Qed.

(** *** What is returned so far is a part of what is found *)
Lemma walk_sub n u w F : 0 < threads -> steps walk_step n (walk_start u) w -> crawls_from http_list u F ->
  exists rest, Permutation F (flat_map item_found (items w) ++ rest).
Proof.
  intros Ht Hs HF. destruct (crawl_bounded _ _ HF) as [L HL].
  assert (Hi : in_site http_list u (crawl w)) by (eapply walks_in_site; [exact Hs|]; apply start_in_site, new_in_site).
  destruct (run_to_end http_list u L threads (crawl w) Ht HL Hi) as [m [s' [Hm Hf]]].
  pose proof (steps_yields _ _ _ _ _ _ Hm (finished_yields http_list _ Hf)) as Y.
  destruct (walks_yields _ _ _ _ Hs eq_refl Y) as [G [YG P]]. cbn [items walk_start flat_map app] in P.
  destruct (start_yields _ _ YG) as [F' [HF' P']]. rewrite (crawls_from_unique _ _ _ _ HF HF'). eexists. rewrite <- P', P. reflexivity.
Qed.
Lemma walk_complete n u w : steps walk_step n (walk_start u) w -> finished (crawl w) -> chan (crawl w) = [] ->
  exists F, crawls_from http_list u F /\ Permutation F (flat_map item_found (items w) ++ map FVisit (requests (crawl w))).
Proof.
  intros Hs Hf Hc. destruct (walks_yields _ _ _ _ Hs eq_refl (finished_yields http_list _ Hf)) as [G [YG P]].
  cbn [items walk_start flat_map app] in P. destruct (start_yields _ _ YG) as [F [HF P']]. exists F. split; [exact HF|].
  rewrite <- P', P. apply Permutation_app_head. unfold done_so_far. rewrite Hc, (walks_no_panic _ _ _ Hs). cbn. now rewrite app_nil_r.
Qed.
(** *** Without deadlock *)
Lemma walk_progress w : pos w = PStop \/ exists w', walk_step w w' /\ (forall s p a l, w = {| crawl := s; pos := p; abort := a; items := l |} -> pos w' <> p \/ length (chan (crawl w')) < length (chan s)).
Proof.
  destruct w as [s p a l]. destruct p as [ | |k| | | | ]; cbn [pos]; [right..|now left].
  - destruct (chan s) as [|m c] eqn:E.
    + eexists. split; [now apply SEmpty|]. intros s0 p0 a0 l0 X. injection X as <- <- <- <-. left. cbn. now destruct a.
    + eexists. split; [eapply SReceived; exact E|]. intros s0 p0 a0 l0 X. injection X as <- <- <- <-. right. cbn. rewrite E. cbn. lia.
  - eexists. split; [apply SActive|]. intros s0 p0 a0 l0 X. injection X as <- <- <- <-. left. discriminate.
  - eexists. split; [apply SQueued|]. intros s0 p0 a0 l0 X. injection X as <- <- <- <-. left. cbn. now destruct (Nat.eqb _ _).
  - eexists. split; [apply SPanic|]. intros s0 p0 a0 l0 X. injection X as <- <- <- <-. left. cbn. now destruct (Nat.eqb _ _).
  - destruct (panics s) as [|k] eqn:E.
    + eexists. split; [now apply SWait|]. intros s0 p0 a0 l0 X. injection X as <- <- <- <-. left. discriminate.
    + eexists. split; [apply SPanicked; rewrite E; lia|]. intros s0 p0 a0 l0 X. injection X as <- <- <- <-. left. discriminate.
  - destruct (chan s) as [|m c] eqn:E.
    + eexists. split; [now apply STimeout|]. intros s0 p0 a0 l0 X. injection X as <- <- <- <-. left. discriminate.
    + eexists. split; [eapply SWaited; exact E|]. intros s0 p0 a0 l0 X. injection X as <- <- <- <-. left. discriminate.
Qed.
(** *** The iterator ends once the workers have *)
Definition pos_rank (p : position) : nat :=
  match p with PStop => 0 | PPanic => 1 | PQueued 0 => 2 | PActive => 3 | PTry => 4 | PRecv => 5 | PPanic2 => 6 | PQueued (S _) => 7 end.
Definition rank (w : walk_state) : nat := 10 * length (chan (crawl w)) + pos_rank (pos w).
Lemma walk_rank w w' : finished (crawl w) -> panics (crawl w) = 0 -> walk_step w w' -> finished (crawl w') /\ rank w' < rank w.
Proof.
  intros [Fq Fa] Hp H. inversion H; subst; cbn [crawl panics] in *; unfold rank, finished; cbn [crawl pos chan with_chan queue active].
  - exfalso. match goal with H : worker _ _ _ _ |- _ => inversion H; subst; cbn [queue active] in *; try discriminate; now apply app_eq_nil in Fa as [_ Fa] end.
  - split; [auto|]. match goal with H : chan _ = _ |- _ => rewrite H end. cbn. lia.
  - split; [auto|]. destruct ab; cbn; lia.
  - split; [auto|]. rewrite Fa. cbn. lia.
  - split; [auto|]. rewrite Fq. cbn [length]. destruct a; cbn; lia.
  - split; [auto|]. rewrite Hp. cbn. lia.
  - lia.
  - split; [auto|]. cbn. lia.
  - split; [auto|]. match goal with H : chan _ = _ |- _ => rewrite H end. cbn. lia.
  - split; [auto|]. cbn. lia.
Qed.
Lemma walks_rank n w w' : finished (crawl w) -> panics (crawl w) = 0 -> steps walk_step n w w' -> n + rank w' <= rank w.
Proof.
  intros Hf Hp H. induction H as [|n w w1 w' Hs _ IH]; [lia|]. destruct (walk_rank _ _ Hf Hp Hs) as [F1 R1].
  specialize (IH F1 ltac:(now rewrite (walk_no_panic _ _ Hs))). lia.
Qed.
End Walk.
