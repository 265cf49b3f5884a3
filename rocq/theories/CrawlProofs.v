(** Proofs about the crawler. *)
From Coq Require Import String List NArith PeanoNat Wf_nat Bool Lia Permutation.
From Verif Require Import Common CommonFacts FilesModel CrawlModel CrawlSpec.
Import ListNotations.
Open Scope nat_scope.
Ltac csplit := repeat match goal with |- _ /\ _ => split end.

(** ** Links of a page *)
Lemma starts_with_spec p s : starts_with p s = true <-> exists r, s = p ++ r.
Proof.
  revert s. induction p as [|x p IH]; intros s; cbn [starts_with app].
  - split; eauto.
  - destruct s as [|y s]; [split; [discriminate|intros [r E]; discriminate]|].
    rewrite andb_true_iff, N.eqb_eq, IH. split.
    + intros [-> [r ->]]. eauto.
    + intros [r E]. injection E as -> ->. eauto.
Qed.
Lemma until_quote_spec s a b : until_quote s = Some (a, b) <-> s = a ++ quote :: b /\ ~ In quote a.
Proof.
  revert a. induction s as [|c s IH]; intros a; cbn [until_quote].
  - split; [discriminate|]. intros [E _]. destruct a; discriminate.
  - destruct (N.eqb_spec c quote) as [->|Hc].
    + split.
      * intros E. injection E as <- <-. split; [reflexivity|intros []].
      * intros [E Hn]. destruct a as [|x a]; [injection E as E; rewrite E; reflexivity|]. injection E as <- _. destruct Hn. now left.
    + destruct (until_quote s) as [[a' b']|] eqn:E'.
      * split.
        -- intros E. injection E as <- <-. destruct (proj1 (IH _) eq_refl) as [-> Hn]. split; [reflexivity|]. intros [->|H]; contradiction.
        -- intros [E Hn]. destruct a as [|x a]; [injection E as ->; contradiction|]. injection E as -> E.
           assert (X : Some (a', b') = Some (a, b)) by (apply IH; split; [exact E|intros H; apply Hn; now right]). injection X as -> ->. reflexivity.
      * split; [discriminate|]. intros [E Hn]. destruct a as [|x a]; [injection E as ->; contradiction|]. injection E as -> E.
        assert (X : None = Some (a, b)) by (apply IH; split; [exact E|intros H; apply Hn; now right]). discriminate.
Qed.
Lemma skipn_app_exact {A} (p r : list A) : skipn (length p) (p ++ r) = r.
Proof. rewrite skipn_app, skipn_all, Nat.sub_diag. reflexivity. Qed.
Lemma existsb_In_N c l : existsb (N.eqb c) l = true <-> In c l.
Proof. rewrite existsb_exists. split; [intros (x & I & E); apply N.eqb_eq in E; now subst|intros I; exists c; split; [exact I|apply N.eqb_refl]]. Qed.
Lemma first_char_spec c : first_char c = true <-> In c link_starts.
Proof.
  split.
  - unfold first_char. rewrite !orb_true_iff, !andb_true_iff, !N.eqb_eq, !N.leb_le. intros H. apply (proj1 (existsb_In_N c link_starts)).
    assert (R : forall lo n, (forallb (fun k => existsb (N.eqb (lo + N.of_nat k)%N) link_starts) (seq 0 n) = true) -> forall x, (lo <= x)%N -> (x < lo + N.of_nat n)%N -> existsb (N.eqb x) link_starts = true).
    { intros lo n F x L U. rewrite forallb_forall in F. specialize (F (N.to_nat (x - lo))). replace (lo + N.of_nat (N.to_nat (x - lo)))%N with x in F by lia. apply F. apply in_seq. lia. }
    destruct H as [[[[-> | ->]|[A B]]|[A B]]|[A B]]; try reflexivity.
    + apply (R 97%N 26%nat); [reflexivity|exact A|lia].
    + apply (R 65%N 26%nat); [reflexivity|exact A|lia].
    + apply (R 48%N 10%nat); [reflexivity|exact A|lia].
  - intros H. assert (F : forallb first_char link_starts = true) by reflexivity. rewrite forallb_forall in F. now apply F.
Qed.
Lemma match_link_spec s link after : match_link s = Some (link, after) <-> link_ok link /\ s = anchor ++ link ++ [quote] ++ lit ">" ++ after.
Proof.
  unfold match_link, link_ok. split.
  - destruct (starts_with anchor s) eqn:Ea; [|discriminate]. apply starts_with_spec in Ea as [r ->]. rewrite skipn_app_exact.
    destruct (until_quote r) as [[[|c [|d l]] b]|] eqn:Eu; try discriminate. apply until_quote_spec in Eu as [-> Hn].
    destruct (first_char c) eqn:Ec; cbn [andb]; [|discriminate]. destruct (starts_with (lit ">") b) eqn:Eb; [|discriminate].
    apply starts_with_spec in Eb as [t ->]. intros E. injection E as <- <-. split; [|reflexivity]. exists c, d, l. csplit; auto. now apply first_char_spec.
  - intros [[c [d [r [El [Ec Hn]]]]] ->]. rewrite (proj2 (starts_with_spec _ _)) by eauto. rewrite skipn_app_exact.
    rewrite (proj2 (until_quote_spec (link ++ [quote] ++ lit ">" ++ after) link (lit ">" ++ after))) by auto.
    subst link. apply first_char_spec in Ec. rewrite Ec. reflexivity.
Qed.
(** ** Directories *)
Lemma ends_with_spec p s : ends_with p s = true <-> exists r, s = r ++ p.
Proof.
  unfold ends_with. rewrite starts_with_spec. split; intros [r E].
  - exists (rev r). apply (f_equal (@rev N)) in E. now rewrite rev_app_distr, !rev_involutive in E.
  - exists (rev r). subst s. apply rev_app_distr.
Qed.
Lemma skipped_spec l : skipped l <-> ends_with (lit "/etc/") (upath l) = true.
Proof. unfold skipped. now rewrite ends_with_spec. Qed.
Lemma directory_spec l d : path_dir l = Some d <-> directory l d.
Proof.
  unfold path_dir, directory, path_len. destruct (ends_with (lit "/") (upath l)) eqn:E1; [|destruct (ends_with (lit "/index.html") (upath l)) eqn:E2].
  - apply ends_with_spec in E1 as [p E1]. split.
    + intros [= <-]. csplit; auto. exists p. auto.
    + intros (A & B & q & C & [F|F]).
      * f_equal. destruct l as [o1 p1 s1], d as [o2 p2 s2]. cbn in *. congruence.
      * rewrite E1 in F. apply (f_equal (@rev N)) in F. rewrite !rev_app_distr in F. discriminate.
  - apply ends_with_spec in E2 as [p E2].
    assert (K : firstn (length (upath l) - 10) (upath l) = p ++ lit "/").
    { rewrite E2, app_length. cbn [length lit String.length]. change (length (lit "/index.html")) with 11. replace (length p + 11 - 10) with (length (p ++ lit "/")) by (rewrite app_length; cbn; lia).
      change (lit "/index.html") with (lit "/" ++ lit "index.html"). rewrite app_assoc, firstn_app, firstn_all, Nat.sub_diag. cbn [firstn]. apply app_nil_r. }
    rewrite K. split.
    + intros [= <-]. cbn. csplit; auto. exists p. auto.
    + intros (A & B & q & C & [F|F]).
      * rewrite (proj2 (ends_with_spec _ _)) in E1 by eauto. discriminate.
      * f_equal. rewrite E2 in F. apply app_inv_tail in F. subst q. destruct d as [o2 p2 s2]. cbn in *. congruence.
  - split; [discriminate|]. intros (A & B & q & C & [F|F]).
    + rewrite (proj2 (ends_with_spec _ _)) in E1 by eauto. discriminate.
    + rewrite (proj2 (ends_with_spec _ _)) in E2 by eauto. discriminate.
Qed.
Lemma not_directory l : path_dir l = None <-> forall d, ~ directory l d.
Proof.
  split.
  - intros E d H. apply directory_spec in H. congruence.
  - intros H. destruct (path_dir l) as [d|] eqn:E; [|reflexivity]. apply directory_spec in E. now apply H in E.
Qed.
Ltac dirs := repeat match goal with
  | H : directory _ _ |- _ => apply directory_spec in H
  | H : forall d, ~ directory _ d |- _ => apply not_directory in H
  end; unfold path_len in *.
(** The link at each position. *)
Fixpoint all_links (s : text) : list text :=
  (match match_link s with Some (l, _) => [l] | None => [] end) ++ match s with [] => [] | _ :: r => all_links r end.
Lemma match_link_head s link after : match_link s = Some (link, after) -> exists r, s = 60%N :: r.
Proof. intros H. apply match_link_spec in H as [_ ->]. cbn. eauto. Qed.
Lemma all_links_skip c r : match_link (c :: r) = None -> all_links (c :: r) = all_links r.
Proof. intros H. cbn [all_links]. now rewrite H. Qed.
Lemma no_match_inside t after : ~ In quote t -> match_link (t ++ [quote] ++ lit ">" ++ after) = None.
Proof.
  intros Hn. destruct (match_link _) as [[l a]|] eqn:E; [|reflexivity]. exfalso. apply match_link_spec in E as [[c [d [r [-> [Ec _]]]]] E].
  assert (A : until_quote (t ++ [quote] ++ lit ">" ++ after) = Some (t, lit ">" ++ after)) by (apply until_quote_spec; auto).
  assert (B : until_quote (t ++ [quote] ++ lit ">" ++ after) = Some (lit "<a href=", (c :: d :: r) ++ [quote] ++ lit ">" ++ a)).
  { rewrite E. apply until_quote_spec. split; [reflexivity|]. cbn. intuition discriminate. }
  rewrite A in B. injection B as Et B1 B2. apply first_char_spec in Ec. rewrite <- B1 in Ec. discriminate.
Qed.
Lemma all_links_inside t after : ~ In quote t -> all_links (t ++ [quote] ++ lit ">" ++ after) = all_links after.
Proof.
  induction t as [|c t IH]; intros Hn.
  - cbn [app]. rewrite all_links_skip; [|apply (no_match_inside [] after); intros []]. change (lit ">" ++ after) with (62%N :: after).
    apply all_links_skip. destruct (match_link (62%N :: after)) as [[l a]|] eqn:E; [|reflexivity]. apply match_link_head in E as [r E]. discriminate.
  - cbn [app]. rewrite all_links_skip; [|apply (no_match_inside (c :: t)); exact Hn]. apply IH. intros H. apply Hn. now right.
Qed.
Lemma all_links_match s link after : match_link s = Some (link, after) -> all_links s = link :: all_links after.
Proof.
  intros H. pose proof H as H'. apply match_link_spec in H' as [[c [d [r [El [_ Hn]]]]] ->].
  assert (Skip : forall c r, c <> 60%N -> all_links (c :: r) = all_links r).
  { intros x y Hx. apply all_links_skip. destruct (match_link (x :: y)) as [[l a]|] eqn:E; [|reflexivity]. apply match_link_head in E as [z E]. injection E as ->. contradiction. }
  set (rest := link ++ [quote] ++ lit ">" ++ after) in *.
  change (anchor ++ rest) with (60%N :: [97; 32; 104; 114; 101; 102; 61; 34]%N ++ rest) in *.
  cbn [all_links]. rewrite H. cbn [app]. f_equal. rewrite !Skip by discriminate. unfold rest. now apply all_links_inside.
Qed.
Lemma find_links_all : forall fuel s, length s < fuel -> find_links fuel s = all_links s.
Proof.
  induction fuel as [|fuel IH]; intros s Hl; [lia|]. cbn [find_links]. destruct (match_link s) as [[l a]|] eqn:E.
  - rewrite (all_links_match _ _ _ E). f_equal. apply IH. apply match_link_spec in E as [_ ->]. rewrite !app_length in Hl. cbn in Hl. lia.
  - destruct s as [|c r]; [reflexivity|]. rewrite all_links_skip by exact E. apply IH. cbn in Hl. lia.
Qed.
Lemma all_links_spec s link : In link (all_links s) <-> has_link s link.
Proof.
  unfold has_link. induction s as [|c s IH].
  - cbn. split; [intros []|]. intros [_ [[|x b] [a E]]]; discriminate.
  - cbn [all_links]. rewrite in_app_iff, IH. split.
    + intros [H|[Hl [b [a ->]]]].
      * destruct (match_link (c :: s)) as [[l a]|] eqn:E; [|destruct H]. destruct H as [<-|[]]. apply match_link_spec in E as [Hl E].
        split; [exact Hl|]. exists [], a. rewrite E. unfold anchor. now rewrite <- app_assoc.
      * split; [exact Hl|]. exists (c :: b), a. reflexivity.
    + intros [Hl [[|x b] [a E]]].
      * left. rewrite (proj2 (match_link_spec (c :: s) link a)); [now left|]. split; [exact Hl|]. rewrite E. unfold anchor. now rewrite <- app_assoc.
      * right. split; [exact Hl|]. injection E as -> E. exists b, a. exact E.
Qed.

(** ** Multisets *)
Definition url_eq_dec (a b : url) : {a = b} + {a <> b}.
Proof. decide equality; apply (list_eq_dec N.eq_dec). Defined.
Definition found_eq_dec (a b : found) : {a = b} + {a <> b}.
Proof. decide equality; first [apply url_eq_dec|apply (list_eq_dec N.eq_dec)]. Defined.
Definition cnt (x : found) (l : list found) : nat := count_occ found_eq_dec l x.
Lemma cnt_app x a b : cnt x (a ++ b) = cnt x a + cnt x b.
Proof. apply count_occ_app. Qed.
Lemma cnt_cons x y l : cnt x (y :: l) = cnt x [y] + cnt x l.
Proof. change (y :: l) with ([y] ++ l). apply cnt_app. Qed.
Lemma cnt_nil x : cnt x [] = 0.
Proof. reflexivity. Qed.
Lemma perm_cnt a b : Permutation a b <-> forall x, cnt x a = cnt x b.
Proof. apply Permutation_count_occ. Qed.
Ltac cnt_norm x := repeat (rewrite ?cnt_app, ?(cnt_cons x _ (_ :: _)), ?cnt_nil).

(** ** The sequential crawl *)
Section Site.
Variable http_list : url -> res (list url).
Notation crawls := (crawls http_list).
Notation crawls_links := (crawls_links http_list).
Notation reached := (reached http_list).

Lemma skipped_dec l : skipped l \/ ~ skipped l.
Proof. rewrite skipped_spec. destruct (ends_with (lit "/etc/") (upath l)); auto. Qed.

Scheme crawls_mut := Induction for CrawlSpec.crawls Sort Prop with crawls_links_mut := Induction for CrawlSpec.crawls_links Sort Prop.

Lemma crawls_unique : forall d f, crawls d f -> forall g, crawls d g -> f = g.
Proof.
  apply (crawls_mut http_list (fun d f _ => forall g, crawls d g -> f = g) (fun d l f _ => forall g, crawls_links d l g -> f = g)).
  - intros d e H g Hg. inversion Hg; subst; congruence.
  - intros d H g Hg. inversion Hg; subst; congruence.
  - intros d links l H _ IH g Hg. inversion Hg as [| |d' links' l' H' Hl']; subst; try congruence. f_equal. apply IH. congruence.
  - intros d g Hg. inversion Hg. reflexivity.
  - intros d l r f Hs _ IH g Hg. inversion Hg as [|d0 l0 r0 f0 Hs' Hr|d0 l0 r0 f0 [Hs' _] Hr|d0 l0 d1 r0 f0 g0 [Hs' _] Hr|d0 l0 d1 r0 f0 Hs' Hp Hle Hr]; subst; try contradiction. auto.
  - intros d l r f [Hs Hf] _ IH g Hg. inversion Hg as [|d0 l0 r0 f0 Hs' Hr|d0 l0 r0 f0 Hi Hr|d0 l0 d1 r0 f0 g0 [_ [Hp _]] Hr|d0 l0 d1 r0 f0 Hs' Hp Hle Hr]; subst; dirs; try contradiction; try congruence.
    f_equal. auto.
  - intros d l d' r f g [Hs [Hp Hlt]] _ IH1 _ IH2 h Hh.
    inversion Hh as [|d0 l0 r0 f0 Hs' Hr|d0 l0 r0 f0 [_ Hi] Hr|d0 l0 d1 r0 f0 g0 [_ [Hp' _]] Hc Hr|d0 l0 d1 r0 f0 Hs' Hp' Hle Hr]; subst; dirs; try contradiction; try congruence.
    + rewrite Hp in Hp'. injection Hp' as <-. f_equal; auto.
    + rewrite Hp in Hp'. injection Hp' as <-. lia.
  - intros d l d' r f Hs Hp Hle _ IH g Hg.
    inversion Hg as [|d0 l0 r0 f0 Hs' Hr|d0 l0 r0 f0 [_ Hi] Hr|d0 l0 d1 r0 f0 g0 [_ [Hp' Hlt]] Hc Hr|d0 l0 d1 r0 f0 Hs' Hp' Hle' Hr]; subst; dirs; try contradiction; try congruence; auto.
    rewrite Hp in Hp'. injection Hp' as <-. lia.
Qed.
Lemma crawls_links_unique : forall l d d' f g, path_len d = path_len d' -> crawls_links d l f -> crawls_links d' l g -> f = g.
Proof.
  induction l as [|x l IH]; intros d d' f g E Hf Hg.
  - inversion Hf. inversion Hg. reflexivity.
  - inversion Hf as [|d0 l0 r0 f0 Hs Hr|d0 l0 r0 f0 [Hn Hi] Hr|d0 l0 d1 r0 f0 g0 [Hs [Hp Hlt]] Hc Hr|d0 l0 d1 r0 f0 Hs Hp Hle Hr]; subst;
    inversion Hg as [|d2 l2 r2 f2 Hs' Hr'|d2 l2 r2 f2 [Hn' Hi'] Hr'|d2 l2 d3 r2 f2 g2 [Hs' [Hp' Hlt']] Hc' Hr'|d2 l2 d3 r2 f2 Hs' Hp' Hle' Hr']; subst; dirs;
    try contradiction; try congruence; eauto; try (f_equal; eauto; fail);
    try (rewrite Hp in Hp'; injection Hp' as <-; try lia).
    f_equal; [eapply crawls_unique; eauto|eauto].
Qed.

Lemma crawls_links_len : forall l d d' f, path_len d = path_len d' -> crawls_links d l f -> crawls_links d' l f.
Proof.
  induction l as [|x l IH]; intros d d' f E Hf;
    inversion Hf as [|d0 l0 r0 f0 Hs Hr|d0 l0 r0 f0 Hi Hr|d0 l0 d1 r0 f0 g0 [Hs [Hp Hlt]] Hc Hr|d0 l0 d1 r0 f0 Hs Hp Hle Hr]; subst.
  - constructor.
  - apply LinksSkip; eauto.
  - apply LinksFile; eauto.
  - apply (LinksDown _ _ _ d1); eauto. unfold sub_directory, path_len in *. rewrite <- E. auto.
  - apply (LinksUp _ _ _ d1); eauto. unfold path_len in *. now rewrite <- E.
Qed.

(** ** Pending work *)
Definition job (r : running) (f : list found) : Prop :=
  match r with
  | RFetch u => crawls u f
  | RLinks v l => exists d, path_len d = v /\ crawls_links d l f
  | RExit => f = []
  end.
Definition message_found (m : message) : list found := match m with MFile u => [FFile u] | MErr e => [FError e] | MDone => [] end.
Definition done_so_far (s : crawl_state) : list found :=
  map FVisit (requests s) ++ flat_map message_found (chan s) ++ repeat FPanic (panics s).
Definition yields (s : crawl_state) (F : list found) : Prop :=
  exists fq fa, Forall2 crawls (queue s) fq /\ Forall2 job (active s) fa /\
    Permutation F (done_so_far s ++ concat fq ++ concat fa).

Lemma on_link_yields v d x l q c fx : path_len d = v ->
  forall fq f, Forall2 crawls (fst (on_link v x q c)) fq -> crawls_links d l f ->
  flat_map message_found (snd (on_link v x q c)) = fx ->
  exists fq' f', Forall2 crawls q fq' /\ crawls_links d (x :: l) f' /\ Permutation (fx ++ concat fq ++ f) (flat_map message_found c ++ concat fq' ++ f').
Proof.
  intros Ev fq f Hq Hl <-. unfold on_link in *. destruct (ends_with (lit "/etc/") (upath x)) eqn:Es; cbn [fst snd] in *.
  - exists fq, f. csplit; [exact Hq|apply LinksSkip; [now apply skipped_spec|exact Hl]|reflexivity].
  - assert (Ns : ~ skipped x) by (rewrite skipped_spec; congruence). destruct (path_dir x) as [d'|] eqn:Ep; cbn [fst snd] in *.
    + unfold submit in Hq. destruct (Nat.ltb_spec v (path_len d')) as [Hlt|Hle].
      * apply Forall2_app_inv_l in Hq as [f1 [f2 [H1 [H2 ->]]]]. inversion H2 as [|a b l1 l2 Hc H3]; subst. inversion H3; subst.
        exists f1, (b ++ f). csplit; [exact H1|apply (LinksDown _ d x d'); [|exact Hc|exact Hl]|].
        -- unfold sub_directory. csplit; [exact Ns|now apply directory_spec|exact Hlt].
        -- rewrite concat_app. cbn [concat]. rewrite app_nil_r, <- !app_assoc. reflexivity.
      * exists fq, f. csplit; [exact Hq|apply (LinksUp _ d x d'); auto; [now apply directory_spec|subst v; exact Hle]|reflexivity].
    + exists fq, (FFile x :: f). csplit; [exact Hq|apply LinksFile; [split; [exact Ns|now apply not_directory]|exact Hl]|].
      rewrite flat_map_app. cbn [flat_map message_found app]. rewrite <- !app_assoc. cbn [app].
      apply Permutation_app_head, Permutation_middle.
Qed.

Lemma forall2_mid {A B} (P : A -> B -> Prop) a x b f : Forall2 P (a ++ x :: b) f ->
  exists fa y fb, f = fa ++ y :: fb /\ Forall2 P a fa /\ P x y /\ Forall2 P b fb.
Proof.
  intros H. apply Forall2_app_inv_l in H as [fa [r [Ha [Hr ->]]]]. inversion Hr as [|x' y l l' Hx Hb]; subst. exists fa, y, l'. auto.
Qed.
Lemma forall2_mid_intro {A B} (P : A -> B -> Prop) a x b fa y fb : Forall2 P a fa -> P x y -> Forall2 P b fb ->
  Forall2 P (a ++ x :: b) (fa ++ y :: fb).
Proof. intros. apply Forall2_app; auto. Qed.

Ltac perm := apply perm_cnt; intros z; repeat match goal with H : Permutation _ _ |- _ => rewrite perm_cnt in H; specialize (H z) end;
  unfold done_so_far in *; cbn [requests chan panics queue active] in *;
  rewrite ?map_app, ?flat_map_app, ?concat_app in *; cbn [map flat_map message_found concat app repeat] in *;
  rewrite ?app_nil_r in *;
  repeat (rewrite ?cnt_app, ?cnt_nil in * ); repeat match goal with
  | |- context [cnt z (?x :: ?l)] => lazymatch l with [] => fail | _ => rewrite (cnt_cons z x l) end
  | H : context [cnt z (?x :: ?l)] |- _ => lazymatch l with [] => fail | _ => rewrite (cnt_cons z x l) in H end
  end; repeat (rewrite ?cnt_app, ?cnt_nil in * ); try lia.

Lemma worker_yields threads s s' F : worker http_list threads s s' -> yields s' F -> yields s F.
Proof.
  intros H [fq [fa [Hq [Ha Hp]]]]. inversion H; subst; cbn [queue active] in *.
  - apply Forall2_app_inv_l in Ha as [f1 [f2 [H1 [H2 ->]]]]. inversion H2 as [|x y l l' Hx Hn]; subst. inversion Hn; subst.
    exists (y :: fq), f1. csplit; [now constructor|exact H1|]. perm.
  - apply forall2_mid in Ha as [f1 [f [f2 [-> [H1 [[d [Ed Hd]] H2]]]]]].
    exists fq, (f1 ++ (FVisit u :: f) :: f2). csplit; [exact Hq|apply forall2_mid_intro; auto|].
    + cbn [job]. eapply CrawlListed; [eassumption|].
      eapply crawls_links_len; [exact Ed|exact Hd].
    + perm.
  - apply forall2_mid in Ha as [f1 [f [f2 [-> [H1 [Hd H2]]]]]]. cbn in Hd. subst f.
    exists fq, (f1 ++ [FVisit u; FError e] :: f2). csplit; [exact Hq|apply forall2_mid_intro; auto; now apply CrawlFailed|]. perm.
  - apply Forall2_app_inv_l in Ha as [f1 [f2 [H1 [H2 ->]]]].
    exists fq, (f1 ++ [FVisit u; FPanic] :: f2). csplit; [exact Hq|apply forall2_mid_intro; auto; now apply CrawlPanicked|]. perm.
  - apply forall2_mid in Ha as [f1 [f [f2 [-> [H1 [[d [Ed Hd]] H2]]]]]].
    destruct (on_link_yields v d u l q c _ Ed _ _ Hq Hd eq_refl) as [fq' [f' [Hq' [Hd' P]]]].
    exists fq', (f1 ++ f' :: f2). csplit; [exact Hq'|apply forall2_mid_intro; eauto; cbn; eauto|]. perm.
  - apply forall2_mid in Ha as [f1 [f [f2 [-> [H1 [Hd H2]]]]]]. cbn in Hd. subst f.
    exists fq, (f1 ++ [] :: f2). csplit; [exact Hq|apply forall2_mid_intro; auto|]; [|perm].
    exists {| origin := []; upath := repeat 0%N v; suffix := [] |}. split; [apply repeat_length|constructor].
  - apply Forall2_app_inv_l in Ha as [f1 [f2 [H1 [H2 ->]]]].
    exists fq, (f1 ++ [] :: f2). csplit; [exact Hq|apply forall2_mid_intro; auto; reflexivity|]. perm.
Qed.

Lemma steps_yields threads n s s' F : steps (worker http_list threads) n s s' -> yields s' F -> yields s F.
Proof. induction 1; eauto using worker_yields. Qed.
Lemma finished_yields s : finished s -> yields s (done_so_far s).
Proof. intros [Eq Ea]. exists [], []. rewrite Eq, Ea. csplit; [constructor|constructor|]. cbn. now rewrite app_nil_r. Qed.

(** *** Requests stay in the reached directories *)
Section From.
Variable root : url.
Definition ok_running (r : running) : Prop :=
  match r with
  | RFetch u => reached root u
  | RLinks v l => exists d links, reached root d /\ path_len d = v /\ http_list d = Val links /\ incl l links
  | RExit => True
  end.
Definition in_site (s : crawl_state) : Prop :=
  Forall (reached root) (queue s) /\ Forall ok_running (active s) /\ Forall (reached root) (requests s).
Lemma worker_in_site threads s s' : worker http_list threads s s' -> in_site s -> in_site s'.
Proof.
  intros H [Hq [Ha Hr]]. inversion H; subst; unfold in_site in *; cbn [queue active requests] in *;
    rewrite ?Forall_app in *; try match goal with H : _ /\ Forall _ (_ :: _) |- _ => destruct H as [Ha1 Ha2]; inversion Ha2; subst end; csplit; auto.
  - now inversion Hq.
  - inversion Hq; subst. repeat constructor; auto.
  - constructor; [|assumption]. cbn. exists u, links. csplit; auto. apply incl_refl.
  - constructor; auto. exact I.
  - match goal with H : ok_running (RLinks _ _) |- _ => destruct H as [d [links [Hd [Ev [El Hi]]]]] end.
    unfold on_link. destruct (ends_with _ _) eqn:Es; cbn [fst]; [exact Hq|]. destruct (path_dir u) as [d'|] eqn:Ep; cbn [fst]; [|exact Hq].
    unfold submit. destruct (Nat.ltb_spec v (path_len d')); [|exact Hq]. apply Forall_app. split; [exact Hq|]. repeat constructor.
    eapply ReachedNext; [exact Hd|exact El|apply Hi; now left|]. unfold sub_directory. csplit; [rewrite skipped_spec; congruence|now apply directory_spec|unfold path_len in *; lia].
  - constructor; [|assumption]. match goal with H : ok_running (RLinks _ _) |- _ => destruct H as [d [links [Hd [Ev [El Hi]]]]] end.
    exists d, links. csplit; auto. intros y Hy. apply Hi. now right.
  - constructor; auto. exact I.
Qed.
Lemma steps_in_site threads n s s' : steps (worker http_list threads) n s s' -> in_site s -> in_site s'.
Proof. induction 1; eauto using worker_in_site. Qed.
Lemma start_in_site s : in_site s -> in_site (start s root).
Proof.
  intros [Hq [Ha Hr]]. unfold in_site, start. cbn [queue active requests]. csplit; auto. unfold submit.
  destruct (Nat.ltb_spec 0 (path_len root)); [|exact Hq]. apply Forall_app. split; [exact Hq|]. repeat constructor. assumption.
Qed.
Lemma new_in_site : in_site new_crawler.
Proof. unfold in_site, new_crawler. cbn. auto. Qed.

(** *** Every execution ends *)
Variable L : nat.
Hypothesis bounded : forall d, reached root d -> path_len d <= L.
Fixpoint weight (k : nat) (u : url) : nat :=
  match k with
  | O => 0
  | S k => 4 + match http_list u with
    | Val links => list_sum (map (fun l => 1 + match path_dir l with Some d' => if Nat.ltb (path_len u) (path_len d') then weight k d' else 0 | None => 0 end) links)
    | _ => 0
    end
  end.
Lemma sum_le {A} (f g : A -> nat) l : (forall x, In x l -> f x <= g x) -> list_sum (map f l) <= list_sum (map g l).
Proof.
  induction l as [|x l IH]; intros H; [apply Nat.le_refl|]. change (f x + list_sum (map f l) <= g x + list_sum (map g l)).
  apply Nat.add_le_mono; [apply H; now left|apply IH; intros; apply H; now right].
Qed.
Lemma weight_mono : forall k k' u, k <= k' -> weight k u <= weight k' u.
Proof.
  induction k as [|k IH]; intros k' u Hk; cbn [weight]; [lia|]. destruct k' as [|k']; [lia|]. cbn [weight]. destruct (http_list u); try lia.
  apply Nat.add_le_mono; [apply Nat.le_refl|]; apply sum_le. intros x _. destruct (path_dir x) as [d|]; [|lia]. destruct (_ <? _); [|lia]. pose proof (IH k' d). lia.
Qed.
Definition w (u : url) : nat := weight (S L - path_len u) u.
Definition link_cost (v : nat) (l : url) : nat := 1 + match path_dir l with Some d' => if Nat.ltb v (path_len d') then w d' else 0 | None => 0 end.
Definition running_cost (r : running) : nat :=
  match r with
  | RFetch u => w u - 1
  | RLinks v l => 2 + list_sum (map (link_cost v) l)
  | RExit => 1
  end.
Definition cost (s : crawl_state) : nat := list_sum (map w (queue s)) + list_sum (map running_cost (active s)).
Lemma w_listed u links : reached root u -> http_list u = Val links -> 4 + list_sum (map (link_cost (path_len u)) links) <= w u.
Proof.
  intros Hu El. pose proof (bounded _ Hu). unfold w. replace (S L - path_len u) with (S (L - path_len u)) by lia. cbn [weight]. rewrite El.
  apply Nat.add_le_mono; [apply Nat.le_refl|]; apply sum_le. intros x _. unfold link_cost. destruct (path_dir x) as [d|]; [|lia].
  destruct (Nat.ltb_spec (path_len u) (path_len d)); [|lia]. unfold w. pose proof (weight_mono (S L - path_len d) (L - path_len u) d). lia.
Qed.
Lemma w_ge u : reached root u -> 4 <= w u.
Proof. intros Hu. pose proof (bounded _ Hu). unfold w. replace (S L - path_len u) with (S (L - path_len u)) by lia. cbn [weight]. lia. Qed.
Lemma list_sum_cons x l : list_sum (x :: l) = x + list_sum l.
Proof. reflexivity. Qed.
Lemma worker_cost threads s s' : worker http_list threads s s' -> in_site s -> cost s' < cost s.
Proof.
  intros H [Hq [Ha Hr]]. inversion H; subst; unfold cost in *; cbn [queue active requests] in *;
    rewrite ?map_app, ?list_sum_app in *; cbn [map running_cost] in *; rewrite ?list_sum_cons in *; rewrite ?Forall_app in *;
    try match goal with H : _ /\ Forall _ (_ :: _) |- _ => destruct H as [Ha1 Ha2]; inversion Ha2; subst end.
  - inversion Hq; subst. pose proof (w_ge u). cbn [list_sum fold_right]. intuition lia.
  - match goal with H : ok_running (RFetch _) |- _ => cbn in H; pose proof (w_listed u links H) end. cbn [list_sum fold_right]. intuition lia.
  - match goal with H : ok_running (RFetch _) |- _ => cbn in H; pose proof (w_ge u H) end. cbn [list_sum fold_right]. lia.
  - match goal with H : ok_running (RFetch _) |- _ => cbn in H; pose proof (w_ge u H) end. cbn [list_sum fold_right]. lia.
  - assert (X : list_sum (map w (fst (on_link v u q c))) < list_sum (map w q) + link_cost v u).
    { unfold on_link, link_cost. destruct (ends_with _ _); cbn [fst]; [lia|]. destruct (path_dir u) as [d'|]; cbn [fst]; [|lia].
      unfold submit. destruct (Nat.ltb_spec v (path_len d')); [|lia]. rewrite map_app, list_sum_app. cbn [map list_sum fold_right]. lia. }
    cbn [list_sum fold_right]. lia.
  - cbn [list_sum fold_right]. lia.
  - cbn [list_sum fold_right]. lia.
Qed.
Lemma steps_bounded threads n s s' : steps (worker http_list threads) n s s' -> in_site s -> n + cost s' <= cost s.
Proof.
  induction 1 as [s|n s s1 s' Hs _ IH]; intros Hi; [lia|]. pose proof (worker_cost _ _ _ Hs Hi).
  specialize (IH (worker_in_site _ _ _ Hs Hi)). lia.
Qed.
End From.

(** *** No deadlock *)
Lemma worker_progress threads s : 0 < threads -> finished s \/ exists s', worker http_list threads s s'.
Proof.
  intros Ht. destruct s as [q a c p r]. destruct a as [|x a].
  - destruct q as [|u q]; [left; split; reflexivity|]. right. eexists. apply WStart. exact Ht.
  - right. change (x :: a) with ([] ++ x :: a). destruct x as [u|v [|l ls]|].
    + destruct (http_list u) as [links|e|] eqn:E; eexists; [apply WListed; exact E|apply WFailed; exact E|apply WPanicked; exact E].
    + eexists. apply WDone.
    + eexists. apply WLink.
    + eexists. apply WExit.
Qed.
Lemma steps_trans {S} (R : S -> S -> Prop) n m a b c : steps R n a b -> steps R m b c -> steps R (n + m) a c.
Proof. induction 1; intros H'; cbn; [exact H'|]. econstructor; eauto. Qed.
Lemma run_to_end root L threads s : 0 < threads -> (forall d, reached root d -> path_len d <= L) -> in_site root s ->
  exists n s', steps (worker http_list threads) n s s' /\ finished s'.
Proof.
  intros Ht HL. remember (cost L s) as k. revert s Heqk. induction k as [k IH] using lt_wf_ind. intros s -> Hi.
  destruct (worker_progress threads s Ht) as [F|[s1 H1]]; [exists 0, s; split; [constructor|exact F]|].
  destruct (IH (cost L s1) (worker_cost root L HL _ _ _ H1 Hi) s1 eq_refl (worker_in_site root _ _ _ H1 Hi)) as [n [s' [Hs F]]].
  exists (S n), s'. split; [econstructor; eauto|exact F].
Qed.

(** ** Results *)
Notation crawls_from := (crawls_from http_list).
Lemma run_yields threads n s u s' : finished s -> steps (worker http_list threads) n (start s u) s' -> finished s' ->
  exists F, crawls_from u F /\ Permutation (done_so_far s') (done_so_far s ++ F).
Proof.
  intros [Eq Ea] Hs Hf. destruct (steps_yields _ _ _ _ _ Hs (finished_yields _ Hf)) as [fq [fa [Hq [Ha P]]]].
  unfold start in *. cbn [queue active] in *. rewrite Eq, Ea in *. inversion Ha; subst. unfold submit, CrawlSpec.crawls_from, path_len in *.
  destruct (Nat.ltb 0 (length (upath u))); cbn [app] in Hq.
  - inversion Hq as [|x y l l' Hx Hn]; subst. inversion Hn; subst. exists y. split; [exact Hx|]. cbn [concat] in P. now rewrite !app_nil_r in P.
  - inversion Hq; subst. exists []. split; [reflexivity|]. cbn [concat] in P. rewrite app_nil_r in *. exact P.
Qed.
Lemma crawls_from_unique u f g : crawls_from u f -> crawls_from u g -> f = g.
Proof. unfold CrawlSpec.crawls_from. destruct (Nat.ltb 0 (length (upath u))); [intros; eapply crawls_unique; eauto|congruence]. Qed.

(** *** What is found is what is reached *)
Lemma crawls_sound root : forall d f, crawls d f -> reached root d ->
  (forall x, In (FFile x) f -> reached_file http_list root x) /\ (forall x, In x f -> failed x -> reached_error http_list root) /\
  (forall x, In (FVisit x) f -> reached root x).
Proof.
  apply (crawls_mut http_list
    (fun d f _ => reached root d -> (forall x, In (FFile x) f -> reached_file http_list root x) /\ (forall x, In x f -> failed x -> reached_error http_list root) /\ (forall x, In (FVisit x) f -> reached root x))
    (fun d l f _ => reached root d -> forall links, http_list d = Val links -> incl l links ->
       (forall x, In (FFile x) f -> reached_file http_list root x) /\ (forall x, In x f -> failed x -> reached_error http_list root) /\ (forall x, In (FVisit x) f -> reached root x))).
  - intros d e H Hd. csplit.
    + intros x [E|[E|[]]]; discriminate.
    + intros x _ _. exists d. split; [exact Hd|congruence].
    + intros x [E|[E|[]]]; [|discriminate]. now injection E as <-.
  - intros d H Hd. csplit.
    + intros x [E|[E|[]]]; discriminate.
    + intros x _ _. exists d. split; [exact Hd|congruence].
    + intros x [E|[E|[]]]; [|discriminate]. now injection E as <-.
  - intros d links l H _ IH Hd. destruct (IH Hd links H (incl_refl _)) as [I1 [I2 I3]]. csplit.
    + intros x [E|E]; [discriminate|auto].
    + intros x [<-|E] Hx; [destruct Hx|eauto].
    + intros x [E|E]; [now injection E as <-|auto].
  - intros d _ links _ _. csplit; intros x [].
  - intros d l r f Hs _ IH Hd links El Hi. apply (IH Hd links El). intros y Hy. apply Hi. now right.
  - intros d l r f Hf _ IH Hd links El Hi. assert (Hi' : incl r links) by (intros y Hy; apply Hi; now right).
    destruct (IH Hd links El Hi') as [I1 [I2 I3]]. csplit.
    + intros x [E|E]; [|auto]. injection E as <-. exists d, links. csplit; auto. apply Hi. now left.
    + intros x [<-|E] Hx; [destruct Hx|eauto].
    + intros x [E|E]; [discriminate|auto].
  - intros d l d' r f g Hsub _ IH1 _ IH2 Hd links El Hi. assert (Hi' : incl r links) by (intros y Hy; apply Hi; now right).
    assert (Hd' : reached root d') by (eapply ReachedNext; [exact Hd|exact El|apply Hi; now left|exact Hsub]).
    destruct (IH1 Hd') as [I1 [I2 I3]]. destruct (IH2 Hd links El Hi') as [J1 [J2 J3]].
    csplit; intros x E; apply in_app_or in E as [E|E]; eauto.
  - intros d l d' r f Hs Hp Hle _ IH Hd links El Hi. apply (IH Hd links El). intros y Hy. apply Hi. now right.
Qed.
Lemma crawls_links_in d : forall l f, crawls_links d l f -> forall x, In x l ->
  (is_file x -> In (FFile x) f) /\ (forall d', sub_directory d x d' -> exists g, crawls d' g /\ incl g f).
Proof.
  induction l as [|y l IH]; intros f Hf x Hx; [destruct Hx|].
  inversion Hf as [|d0 l0 r0 f0 Hs Hr|d0 l0 r0 f0 Hi Hr|d0 l0 d1 r0 f0 g0 [Hs [Hp Hlt]] Hc Hr|d0 l0 d1 r0 f0 Hs Hp Hle Hr]; subst; destruct Hx as [->|Hx].
  - split; [intros [H _]; contradiction|intros d' [H _]; contradiction].
  - now apply IH.
  - split; [now left|]. destruct Hi as [_ Hi]. intros d' [_ [H _]]. now apply Hi in H.
  - destruct (IH _ Hr _ Hx) as [A B]. split; [intros H; right; auto|]. intros d' H. destruct (B _ H) as [g [Hg Hin]]. exists g. split; [exact Hg|]. now apply incl_tl.
  - split; [intros [_ H]; now apply H in Hp|]. intros d' [_ [H _]]. dirs. assert (d' = d1) by congruence. subst. exists f0. split; [exact Hc|]. now apply incl_appl.
  - destruct (IH _ Hr _ Hx) as [A B]. split; [intros H; apply in_or_app; right; auto|]. intros d' H. destruct (B _ H) as [g [Hg Hin]]. exists g. split; [exact Hg|]. now apply incl_appr.
  - split; [intros [_ H]; now apply H in Hp|]. intros d' [_ [H Hl]]. dirs. assert (d' = d1) by congruence. subst. lia.
  - now apply IH.
Qed.
Lemma crawls_reached root f : crawls root f -> forall d, reached root d -> exists g, crawls d g /\ incl g f.
Proof.
  intros Hf d Hd. induction Hd as [|d links l d' Hd [g [Hg Hi]] El Hl Hsub]; [exists f; split; [exact Hf|apply incl_refl]|].
  inversion Hg as [|d1 H1|d1 links1 l1 H1 Hl1]; subst; try congruence. rewrite El in H1. injection H1 as <-.
  destruct (proj2 (crawls_links_in _ _ _ Hl1 _ Hl) _ Hsub) as [g' [Hg' Hi']]. exists g'. split; [exact Hg'|].
  intros x Hx. apply Hi. right. now apply Hi'.
Qed.
Lemma reached_positive u d : reached u d -> 0 < length (upath u).
Proof. induction 1; auto. Qed.
Lemma crawls_from_files root F : crawls_from root F -> forall x, In x (files_of F) <-> reached_file http_list root x.
Proof.
  intros H x. assert (E : In x (files_of F) <-> In (FFile x) F).
  { unfold files_of. rewrite in_flat_map. split; [intros [[y|y|y|] [Hy Hx]]; cbn in Hx; try tauto; destruct Hx as [->|[]]; exact Hy|intros Hx; exists (FFile x); split; [exact Hx|now left]]. }
  rewrite E. clear E. unfold CrawlSpec.crawls_from in H. destruct (Nat.ltb_spec 0 (length (upath root))) as [Hp|Hp].
  - split; [apply (proj1 (crawls_sound root _ _ H (ReachedFirst _ _ Hp)))|]. intros [d [links [Hd [El [Hi Hf]]]]].
    destruct (crawls_reached _ _ H _ Hd) as [g [Hg Hin]]. inversion Hg as [|d1 H1|d1 links1 l1 H1 Hl1]; subst; try congruence.
    rewrite El in H1. injection H1 as <-. apply Hin. right. now apply (crawls_links_in _ _ _ Hl1 _ Hi).
  - subst F. split; [intros []|]. intros [d [links [Hd _]]]. apply reached_positive in Hd. lia.
Qed.
Lemma crawls_from_errors root F : crawls_from root F -> (exists x, In x F /\ failed x) <-> reached_error http_list root.
Proof.
  intros H. unfold CrawlSpec.crawls_from in H. destruct (Nat.ltb_spec 0 (length (upath root))) as [Hp|Hp].
  - split; [intros [x [Hx Fx]]; apply (proj1 (proj2 (crawls_sound root _ _ H (ReachedFirst _ _ Hp))) x Hx Fx)|]. intros [d [Hd Hn]].
    destruct (crawls_reached _ _ H _ Hd) as [g [Hg Hin]]. inversion Hg as [d1 e H1|d1 H1|d1 links1 l1 H1 Hl1]; subst; [..|destruct (Hn _ H1)].
    + exists (FError e). split; [apply Hin; right; now left|exact I].
    + exists FPanic. split; [apply Hin; right; now left|exact I].
  - subst F. split; [intros [x [[] _]]|]. intros [d [Hd _]]. apply reached_positive in Hd. lia.
Qed.
Lemma crawls_from_visits root F : crawls_from root F -> forall x, In x (visits_of F) <-> reached root x.
Proof.
  intros H x. assert (E : In x (visits_of F) <-> In (FVisit x) F).
  { unfold visits_of. rewrite in_flat_map. split; [intros [[y|y|y|] [Hy Hx]]; cbn in Hx; try tauto; destruct Hx as [->|[]]; exact Hy|intros Hx; exists (FVisit x); split; [exact Hx|now left]]. }
  rewrite E. clear E. unfold CrawlSpec.crawls_from in H. destruct (Nat.ltb_spec 0 (length (upath root))) as [Hp|Hp].
  - split; [apply (proj2 (proj2 (crawls_sound root _ _ H (ReachedFirst _ _ Hp))))|]. intros Hd.
    destruct (crawls_reached _ _ H _ Hd) as [g [Hg Hin]]. apply Hin. inversion Hg; subst; now left.
  - subst F. split; [intros []|]. intros Hd. apply reached_positive in Hd. lia.
Qed.
End Site.

(** ** Collecting the channel *)
Definition msg_files (c : list message) : list url := flat_map (fun m => match m with MFile u => [u] | _ => [] end) c.
Lemma collect_ok c : (forall e, ~ In (MErr e) c) -> collect c = (Val (msg_files c), []).
Proof.
  induction c as [|m c IH]; intros H; [reflexivity|].
  assert (IH' : collect c = (Val (msg_files c), [])) by (apply IH; intros e He; apply (H e); now right).
  destruct m as [u|e|]; cbn [collect msg_files flat_map app]; [rewrite IH'; reflexivity| |exact IH'].
  destruct (H e). now left.
Qed.
Lemma collect_err c : (exists e, In (MErr e) c) -> exists c1 e c2, collect c = (Fail e, c2) /\ c = c1 ++ MErr e :: c2 /\ forall e', ~ In (MErr e') c1.
Proof.
  induction c as [|m c IH]; intros [e He]; [destruct He|]. destruct m as [u|e0|]; cbn [collect].
  - destruct IH as [c1 [e1 [c2 [E [Ec Hn]]]]]; [exists e; destruct He as [H|H]; [discriminate|exact H]|]. exists (MFile u :: c1), e1, c2.
    rewrite E. subst c. csplit; auto. intros e' [H|H]; [discriminate|]. exact (Hn _ H).
  - exists [], e0, c. csplit; auto.
  - destruct IH as [c1 [e1 [c2 [E [Ec Hn]]]]]; [exists e; destruct He as [H|H]; [discriminate|exact H]|]. exists (MDone :: c1), e1, c2.
    rewrite E. subst c. csplit; auto. intros e' [H|H]; [discriminate|]. exact (Hn _ H).
Qed.
Lemma has_error_dec c : (exists e, In (MErr e) c) \/ (forall e, ~ In (MErr e) c).
Proof.
  induction c as [|m c IH]; [right; intros e []|]. destruct m as [u|e|].
  - destruct IH as [[e H]|H]; [left; exists e; now right|right; intros e [E|E]; [discriminate|exact (H _ E)]].
  - left. exists e. now left.
  - destruct IH as [[e H]|H]; [left; exists e; now right|right; intros e [E|E]; [discriminate|exact (H _ E)]].
Qed.
Lemma files_of_done s : files_of (done_so_far s) = msg_files (chan s).
Proof.
  unfold files_of, done_so_far, msg_files. rewrite !flat_map_app.
  assert (A : forall l, flat_map (fun f => match f with FFile u => [u] | _ => [] end) (map FVisit l) = []) by (induction l; auto).
  assert (B : forall n, flat_map (fun f => match f with FFile u => [u] | _ => [] end) (repeat FPanic n) = []) by (induction n; auto).
  rewrite A, B, app_nil_r. cbn [app]. induction (chan s) as [|m c IH]; [reflexivity|]. cbn [flat_map]. rewrite flat_map_app, IH. destruct m; reflexivity.
Qed.
Lemma visits_of_done s : visits_of (done_so_far s) = requests s.
Proof.
  unfold visits_of, done_so_far. rewrite !flat_map_app.
  assert (A : forall l, flat_map (fun f => match f with FVisit u => [u] | _ => [] end) (map FVisit l) = l) by (induction l as [|x l IH]; [reflexivity|]; cbn [map flat_map app]; now rewrite IH).
  assert (B : forall n, flat_map (fun f => match f with FVisit u => [u] | _ => [] end) (repeat FPanic n) = []) by (induction n; auto).
  rewrite A, B, app_nil_r. rewrite <- (app_nil_r (requests s)) at 2. f_equal. induction (chan s) as [|m c IH]; [reflexivity|]. cbn [flat_map]. rewrite flat_map_app, IH. destruct m; reflexivity.
Qed.
Lemma failed_done s : (exists x, In x (done_so_far s) /\ failed x) <-> (exists e, In (MErr e) (chan s)) \/ 0 < panics s.
Proof.
  unfold done_so_far. split.
  - intros [x [Hx Fx]]. rewrite !in_app_iff in Hx. destruct Hx as [Hx|[Hx|Hx]].
    + apply in_map_iff in Hx as [y [<- _]]. destruct Fx.
    + apply in_flat_map in Hx as [m [Hm Hx]]. destruct m as [u|e|]; cbn in Hx; [destruct Hx as [<-|[]]; destruct Fx| |destruct Hx]. left. eauto.
    + right. destruct (panics s); [destruct Hx|lia].
  - intros [[e He]|Hp].
    + exists (FError e). split; [|exact I]. rewrite !in_app_iff. right. left. apply in_flat_map. exists (MErr e). split; [exact He|now left].
    + exists FPanic. split; [|exact I]. rewrite !in_app_iff. right. right. destruct (panics s); [lia|now left].
Qed.
