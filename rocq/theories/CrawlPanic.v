(** Proofs about the crawling iterator when a worker panics. *)
From Coq Require Import String List NArith PeanoNat Bool Lia.
From Verif Require Import Common CommonFacts FilesModel CrawlModel CrawlSpec CrawlProofs CrawlWalk.
Import ListNotations.
Open Scope nat_scope.

Section Panic.
Variable http_list : url -> res (list url).
Variable threads : nat.
Notation walk_step := (walk_step http_list threads).

(** *** What is sent *)
Definition sent (u : url) (s : crawl_state) : Prop :=
  (forall x, In (MFile x) (chan s) -> reached_file http_list u x) /\
  (forall e, In (MErr e) (chan s) -> exists d, reached http_list u d /\ http_list d = Fail e) /\
  (0 < panics s -> exists d, reached http_list u d /\ http_list d = Panic).
Lemma worker_sent u s s' : worker http_list threads s s' -> in_site http_list u s -> sent u s -> sent u s'.
Proof.
  intros H (_ & Ha & _) (S1 & S2 & S3). inversion H; subst; unfold sent; cbn [chan panics active] in *; try (split; [|split]; assumption).
  - apply Forall_app in Ha as [_ Ha]. inversion Ha as [|? ? Hu _]; subst. cbn in Hu. split; [|split; [|exact S3]].
    + intros x Hx. apply in_app_or in Hx as [Hx|[Hx|[]]]; [auto|discriminate].
    + intros e' Hx. apply in_app_or in Hx as [Hx|[Hx|[]]]; [auto|]. injection Hx as <-. eauto.
  - apply Forall_app in Ha as [_ Ha]. inversion Ha as [|? ? Hu _]; subst. cbn in Hu. split; [exact S1|split; [exact S2|]]. eauto.
  - apply Forall_app in Ha as [_ Ha]. inversion Ha as [|? ? Hu _]; subst. destruct Hu as (d & links & Hd & Ev & El & Hi). unfold on_link.
    destruct (ends_with _ _) eqn:Es; cbn [snd]; [split; [|split]; assumption|]. destruct (path_dir u0) as [d'|] eqn:Ep; cbn [snd]; [split; [|split]; assumption|].
    split; [|split; [|exact S3]].
    + intros x Hx. apply in_app_or in Hx as [Hx|[Hx|[]]]; [auto|]. injection Hx as <-. exists d, links. split; [exact Hd|]. split; [exact El|].
      split; [apply Hi; now left|]. split; [rewrite skipped_spec; congruence|now apply not_directory].
    + intros e' Hx. apply in_app_or in Hx as [Hx|[Hx|[]]]; [auto|discriminate].
  - split; [|split; [|exact S3]].
    + intros x Hx. apply in_app_or in Hx as [Hx|[Hx|[]]]; [auto|discriminate].
    + intros e' Hx. apply in_app_or in Hx as [Hx|[Hx|[]]]; [auto|discriminate].
Qed.
Definition panicked : res url := Fail (lit "Crawler panicked!").
Definition explained (u : url) (i : res url) : Prop :=
  match i with
  | Val x => reached_file http_list u x
  | Fail e => (exists d, reached http_list u d /\ http_list d = Fail e) \/ (i = panicked /\ exists d, reached http_list u d /\ http_list d = Panic)
  | Panic => False
  end.
Definition walk_inv (u : url) (w : walk_state) : Prop :=
  in_site http_list u (crawl w) /\ sent u (crawl w) /\ (forall i, In i (items w) -> explained u i) /\
  (abort w = true -> (pos w = PTry \/ pos w = PStop) /\ In panicked (items w)).
Lemma with_chan_sent u s m c : chan s = m :: c -> sent u s -> sent u (with_chan s c) /\ forall i, In i (item_of m) -> explained u i.
Proof.
  intros E (S1 & S2 & S3). rewrite E in S1, S2. split.
  - unfold sent, with_chan. cbn [chan panics]. split; [|split; [|exact S3]]; intros x Hx; [apply S1|apply S2]; now right.
  - intros i Hi. destruct m as [x|e|]; cbn in Hi; [| |destruct Hi]; destruct Hi as [<-|[]]; cbn; [apply S1; now left|left; apply S2; now left].
Qed.
Lemma walk_inv_step u w w' : walk_step w w' -> walk_inv u w -> walk_inv u w'.
Proof.
  intros H (I1 & I2 & I3 & I4). inversion H; subst; unfold walk_inv; cbn [crawl items abort pos] in *.
  - split; [eapply worker_in_site; eauto|]. split; [eapply worker_sent; eauto|]. split; [exact I3|exact I4].
  - destruct (with_chan_sent u s m c ltac:(assumption) I2) as [K1 K2]. split; [exact I1|]. split; [exact K1|]. split.
    + intros i Hi. apply in_app_or in Hi as [Hi|Hi]; auto.
    + intros A. destruct (I4 A) as [_ J]. split; [now left|]. apply in_or_app. now left.
  - split; [exact I1|]. split; [exact I2|]. split; [exact I3|]. intros A. destruct (I4 A) as [_ J]. rewrite A. auto.
  - split; [exact I1|]. split; [exact I2|]. split; [exact I3|]. intros A. destruct (I4 A) as [[J|J] _]; discriminate.
  - split; [exact I1|]. split; [exact I2|]. split; [exact I3|]. intros A. destruct (I4 A) as [[J|J] _]; discriminate.
  - split; [exact I1|]. split; [exact I2|]. split; [exact I3|]. intros A. destruct (I4 A) as [[J|J] _]; discriminate.
  - split; [exact I1|]. split; [exact I2|]. split.
    + intros i Hi. apply in_app_or in Hi as [Hi|[<-|[]]]; [auto|]. right. split; [reflexivity|]. now apply I2.
    + intros _. split; [now left|]. apply in_or_app. right. now left.
  - split; [exact I1|]. split; [exact I2|]. split; [exact I3|]. intros A. destruct (I4 A) as [[J|J] _]; discriminate.
  - destruct (with_chan_sent u s m c ltac:(assumption) I2) as [K1 K2]. split; [exact I1|]. split; [exact K1|]. split.
    + intros i Hi. apply in_app_or in Hi as [Hi|Hi]; auto.
    + intros A. destruct (I4 A) as [[J|J] _]; discriminate.
  - split; [exact I1|]. split; [exact I2|]. split; [exact I3|]. intros A. destruct (I4 A) as [[J|J] _]; discriminate.
Qed.
Lemma walk_inv_steps u n w w' : steps walk_step n w w' -> walk_inv u w -> walk_inv u w'.
Proof. induction 1; eauto using walk_inv_step. Qed.
Lemma walk_inv_start u : walk_inv u (walk_start u).
Proof.
  split; [apply start_in_site, new_in_site|]. split; [|split; [intros i []|discriminate]].
  unfold sent. cbn. split; [intros x []|]. split; [intros e []|lia].
Qed.

(** *** How often a panic is returned *)
Definition count_panicked (l : list (res url)) : nat := length (filter (fun i => match i with Fail e => eqb_list e (lit "Crawler panicked!") | _ => false end) l).
Lemma count_app a b : count_panicked (a ++ b) = count_panicked a + count_panicked b.
Proof. unfold count_panicked. now rewrite filter_app, app_length. Qed.
Lemma item_count u m s c : (forall d, reached http_list u d -> http_list d <> Fail (lit "Crawler panicked!")) -> chan s = m :: c -> sent u s -> count_panicked (item_of m) = 0.
Proof.
  intros Hn E (_ & S2 & _). destruct m as [x|e|]; [reflexivity| |reflexivity]. unfold count_panicked. cbn [item_of filter].
  destruct (eqb_list e (lit "Crawler panicked!")) eqn:X; [|reflexivity]. apply eqb_list_spec in X. destruct (S2 e) as (d & Hd & K); [rewrite E; now left|].
  destruct (Hn d Hd). now rewrite K, X.
Qed.
Lemma count_step u w w' : (forall d, reached http_list u d -> http_list d <> Fail (lit "Crawler panicked!")) -> walk_step w w' -> walk_inv u w ->
  count_panicked (items w) <= (if abort w then 1 else 0) -> count_panicked (items w') <= (if abort w' then 1 else 0).
Proof.
  intros Hn H (I1 & I2 & I3 & I4) C. inversion H; subst; cbn [crawl items abort pos] in *; auto.
  - rewrite count_app, (item_count u m s c) by assumption. lia.
  - rewrite count_app. assert (ab = false). { destruct ab; [|reflexivity]. destruct (I4 eq_refl) as [[J|J] _]; discriminate. } subst ab.
    change (count_panicked [Fail (lit "Crawler panicked!")]) with 1. lia.
  - rewrite count_app, (item_count u m s c) by assumption. lia.
Qed.

(** *** The end *)
Lemma finished_worker s s' : finished s -> ~ worker http_list threads s s'.
Proof. intros [Fq Fa] H. inversion H; subst; cbn [queue active] in *; try discriminate; now apply app_eq_nil in Fa as [_ Fa]. Qed.
Definition rank_of (p : position) : nat := match p with PStop => 0 | PPanic2 => 1 | PPanic => 2 | PQueued _ => 3 | PActive => 4 | PTry => 5 | PRecv => 6 end.
Definition rank_panic (w : walk_state) : nat := 10 * length (chan (crawl w)) + rank_of (pos w) + (if abort w then 0 else 10).
Lemma panic_rank u w w' : walk_inv u w -> finished (crawl w) -> 0 < panics (crawl w) -> walk_step w w' ->
  finished (crawl w') /\ 0 < panics (crawl w') /\ rank_panic w' < rank_panic w.
Proof.
  intros (_ & _ & _ & I4) Hf Hp H. inversion H; subst; cbn [crawl panics items pos abort] in *; unfold rank_panic, finished in *; cbn [crawl pos chan with_chan queue active abort panics].
  - exfalso. eapply finished_worker; eauto.
  - split; [auto|]. split; [auto|]. match goal with H : chan _ = _ |- _ => rewrite H end. cbn [length rank_of]. lia.
  - split; [auto|]. split; [auto|]. destruct ab; cbn [rank_of]; lia.
  - split; [auto|]. split; [auto|]. cbn [rank_of]. lia.
  - split; [auto|]. split; [auto|]. destruct (Nat.eqb _ 0); cbn [rank_of]; lia.
  - split; [auto|]. split; [auto|]. destruct (Nat.eqb_spec (panics s) 0); [lia|]. cbn [rank_of]. lia.
  - split; [auto|]. split; [auto|]. assert (ab = false). { destruct ab; [|reflexivity]. destruct (I4 eq_refl) as [[J|J] _]; discriminate. } subst ab. cbn [rank_of]. lia.
  - lia.
  - split; [auto|]. split; [auto|]. match goal with H : chan _ = _ |- _ => rewrite H end. cbn [length rank_of]. lia.
  - split; [auto|]. split; [auto|]. cbn [rank_of]. lia.
Qed.
Lemma panics_rank u n w w' : walk_inv u w -> finished (crawl w) -> 0 < panics (crawl w) -> steps walk_step n w w' -> n + rank_panic w' <= rank_panic w.
Proof.
  intros Hi Hf Hp H. induction H as [|n w w1 w' Hs _ IH]; [lia|]. destruct (panic_rank u _ _ Hi Hf Hp Hs) as (F1 & P1 & R1).
  specialize (IH (walk_inv_step _ _ _ Hs Hi) F1 P1). lia.
Qed.
(** From a look at the empty channel on, when the workers do not move and one has panicked. *)
Lemma calm_panic m a b : steps (fun w w' => walk_step w w' /\ crawl w' = crawl w) m a b -> 0 < panics (crawl a) ->
  (pos a = PStop -> In panicked (items a)) -> (abort a = true -> In panicked (items a)) -> pos b = PStop -> In panicked (items b).
Proof.
  intros H. induction H as [a|k a b c [Hs Hc] _ IH]; intros Hp Hj Ha E; [auto|]. apply IH; [now rewrite Hc| | |exact E].
  - inversion Hs; subst; cbn [abort crawl items pos panics] in *; try discriminate; auto.
    + destruct ab; [auto|discriminate].
    + destruct (Nat.eqb _ 0); discriminate.
    + destruct (Nat.eqb_spec (panics s) 0); [lia|discriminate].
  - inversion Hs; subst; cbn [abort crawl items pos panics] in *; auto.
    + intros A. apply in_or_app. auto.
    + intros _. apply in_or_app. right. now left.
    + intros A. apply in_or_app. auto.
Qed.
End Panic.
