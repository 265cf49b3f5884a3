(** Properties C47 to C50 and C65: the cache of downloads.

    [digest] is the digest of urls, [enc_write], [enc_finish] and [gunzip] are gzip; of them only
    [fixed_size] and [gzip_codec] are assumed (CacheSpec.v). *)
From Coq Require Import String List NArith PeanoNat Bool Lia.
From Verif Require Import Common CommonFacts FilesModel CacheModel CacheSpec CacheProofs CacheOrigin.
Import ListNotations.
Open Scope nat_scope.

Section Cache.
Variable digest : text -> text.
Variable parse_url : text -> option text.
Variable enc_write : list bytes -> bytes -> bytes.
Variable enc_finish : list bytes -> bytes.
Variable gunzip : bytes -> bytes * bool.
Hypothesis sized : fixed_size digest.
Hypothesis codec : gzip_codec enc_write enc_finish gunzip.
Notation step := (step digest parse_url enc_write enc_finish).
Notation exec := (exec digest parse_url enc_write enc_finish).
Notation shared_step := (shared_step digest parse_url enc_write enc_finish).
Notation delivers := (delivers gunzip).
Notation undropped := (undropped digest).
Notation dir_undropped := (dir_undropped digest).

(** ** C49 *)
Theorem C49_kinds : forall b u b' u',
  http_name digest b u <> success_name digest b' u' /\ http_name digest b u <> failure_name digest b' u' /\ success_name digest b u <> failure_name digest b' u' /\
  http_name digest b u <> httpdir_name digest u' /\ success_name digest b u <> httpdir_name digest u' /\ failure_name digest b u <> httpdir_name digest u'.
Proof.
  intros. csplit; [now apply http_success|now apply http_failure|now apply success_failure|apply http_httpdir|apply success_httpdir|apply failure_httpdir].
Qed.
Theorem C49_same_kind : forall b u b' u',
  (http_name digest b u = http_name digest b' u' <-> digest b = digest b' /\ digest u = digest u') /\
  (success_name digest b u = success_name digest b' u' <-> digest b = digest b' /\ digest u = digest u') /\
  (failure_name digest b u = failure_name digest b' u' <-> digest b = digest b' /\ digest u = digest u') /\
  (httpdir_name digest u = httpdir_name digest u' <-> digest u = digest u').
Proof. intros. csplit; [now apply http_name_inj|now apply success_name_inj|now apply failure_name_inj|apply httpdir_name_inj]. Qed.

Lemma hit_delivers st b u k st' i : step st (EHit b u k) st' -> dir (files st) (http_name digest b u) = Some i -> delivers st' k = Some (gunzip (inode (files st) i)).
Proof.
  intros S D. inversion S as [? ? ? ? j Hk Dj| | | | | | | | | | | | | | | | | |]; subst. rewrite D in Dj. injection Dj as <-.
  unfold CacheModel.delivers. cbn [readers files]. now rewrite set_reader_same.
Qed.
Lemma no_miss st b u i : dir (files st) (http_name digest b u) = Some i -> (forall k st', ~ step st (EMiss b u k) st') /\ forall st', ~ step st (EMissFailed b u) st'.
Proof. intros D. split; [intros k st' S|intros st' S]; inversion S; subst; unfold exists_ in *; rewrite D in *; discriminate. Qed.

(** ** C47 *)
(** A reader [h] asked the server, all that the server sent was saved, then it was dropped.  From
    then on the url is found in the cache and gives what the caller of [h] saw, whatever happened
    before and happens meanwhile and after to other urls and readers, crashes included. *)
Theorem C47_replay : forall tr1 st1 b u h st2 tr2 st3 st4 tr3 st5,
  exec init tr1 st1 -> step st1 (EMiss b u h) st2 -> exec st2 tr2 st3 -> Forall (keeps h) tr2 -> Forall (saved h) tr2 -> step st3 (EClose h) st4 -> exec st4 tr3 st5 ->
  Forall (undropped b u) (tr2 ++ tr3) ->
  (forall k, readers st5 k = None -> exists st6, step st5 (EHit b u k) st6) /\
  (forall k st6, step st5 (EHit b u k) st6 -> delivers st6 k = Some (concat (chunks h tr2), true)) /\
  (forall k st6, ~ step st5 (EMiss b u k) st6) /\ (forall st6, ~ step st5 (EMissFailed b u) st6).
Proof.
  intros tr1 st1 b u h st2 tr2 st3 st4 tr3 st5 E1 S1 E2 K Sv S2 E3 U. apply Forall_app in U as [U2 U3].
  pose proof (exec_base _ _ _ _ _ _ _ E1 (init_base _ _)) as B1. pose proof (step_base _ _ _ _ _ _ _ S1 B1) as B2.
  pose proof (exec_base _ _ _ _ _ _ _ E2 B2) as B3. pose proof (step_base _ _ _ _ _ _ _ S2 B3) as B4.
  set (n := http_name digest b u) in *.
  assert (Fi : exists i, filling enc_write st2 n i h []).
  { inversion S1; subst. exists i. split; cbn [files readers]; [|apply set_reader_same]. match goal with C : create _ _ = Some _ |- _ => apply create_some in C; tauto end. }
  destruct Fi as [i Fi]. apply (exec_filling _ _ _ _ _ _ _ _ _ _ E2 B2 _) in Fi; [|exact K|exact Sv|now apply undropped_http]. cbn [app] in Fi. destruct Fi as [Dn Hh].
  destruct codec as (Rt & Fs & _).
  assert (Se : sealed st4 n i (archive enc_write enc_finish (chunks h tr2))).
  { destruct (step_end _ _ _ _ Fs _ _ _ _ _ _ _ S2 B3 Hh) as [(off & ws & X)|[Id [[_ X]|T]]].
    - inversion S2; subst; cbn [readers] in X; rewrite set_reader_same in X; discriminate.
    - split; [|split; [exact X|exact Id]]. destruct (step_file _ _ _ _ _ _ _ _ _ S2 B3 Dn) as [D' _]; [discriminate|discriminate|exact D'].
    - exfalso. inversion S2 as [| | | | | |? ? j off ws Hh' E| | ? ? x Hh' Hx E| | | | | | | | | |]; subst; [|rewrite Hh in Hh'; injection Hh' as <-; exact (Hx _ _ _ eq_refl)].
      rewrite Hh in Hh'. injection Hh' as <- <- <-. destruct T as (ws & q & Ea & Hq). cbn [files] in Ea. rewrite set_inode_same in Ea.
      destruct B3 as (_ & _ & B3 & _). destruct (B3 _ _ _ _ Hh) as (_ & Ei & _). rewrite Ei, write_at_end in Ea.
      destruct codec as (_ & _ & To). destruct (To ws _ q Ea Hq) as [F _]. change (pieces enc_write (chunks h tr2) ++ enc_finish (chunks h tr2)) with (archive enc_write enc_finish (chunks h tr2)) in F. rewrite Rt in F. discriminate. }
  apply (exec_sealed _ _ _ _ _ _ _ _ _ _ E3 B4) in Se; [|now apply undropped_http]. destruct Se as (D5 & I5 & _). csplit.
  - intros k Hk. eexists. apply (SHit _ _ _ _ _ _ _ _ i Hk D5).
  - intros k st6 S. rewrite (hit_delivers _ _ _ _ _ _ S D5). now rewrite I5, Rt.
  - exact (proj1 (no_miss _ _ _ _ D5)).
  - exact (proj2 (no_miss _ _ _ _ D5)).
Qed.
(** The caller sees what the server sends, or an error. *)
Theorem C47_caller_sees_remote : forall st h remote seen st', step st (ERead h remote seen) st' -> seen = remote \/ exists w e, remote = Val w /\ seen = Fail e.
Proof.
  intros st h remote seen st' S. inversion S; subst.
  - left. destruct remote; reflexivity.
  - left. destruct remote; reflexivity.
  - right. cbn. eauto.
Qed.
(** Two processes: one was about to create the file that the other one completed. *)
Theorem C47_race_refuted : forall b u w, exists st1 st2 h, exec init [EMiss b u 0; ERead 0 (Val w) (Val w); ERead 0 (Val []) (Val []); EClose 0] st1 /\
  shared_step st1 st2 /\ exists st3, step st2 (EHit b u h) st3 /\ exists x, delivers st3 h = Some (x, false).
Proof.
  intros b u w. set (n := http_name digest b u).
  destruct (create empty_store n) as [[s0 i]|] eqn:C; [|discriminate]. pose proof C as C'. apply create_some in C' as (_ & -> & _ & Dn & _ & In & _). cbn [fresh empty_store] in *.
  set (p := archive enc_write enc_finish [w; []]).
  assert (X : exists st1, exec init [EMiss b u 0; ERead 0 (Val w) (Val w); ERead 0 (Val []) (Val []); EClose 0] st1 /\ dir (files st1) n = Some 0 /\ forall k, readers st1 k = None).
  { eexists. split.
    - eapply ExecStep; [eapply SMiss; [reflexivity|reflexivity|exact C]|].
      eapply ExecStep; [eapply (SRead _ _ _ _ _ 0 0 0 [] (Val w) w); [reflexivity|reflexivity]|].
      eapply ExecStep; [eapply (SRead _ _ _ _ _ 0 0 _ [w] (Val []) []); [reflexivity|reflexivity]|].
      eapply ExecStep; [eapply SClose; reflexivity|]. apply ExecNow.
    - split; [exact Dn|]. intros [|k]; reflexivity. }
  destruct X as (st1 & E & D1 & R1). destruct (file_create (files st1) n) as [s2 j] eqn:F. pose proof F as F'. unfold file_create in F'. rewrite D1 in F'. injection F' as <- <-.
  exists st1. eexists. exists 1. split; [exact E|]. split; [eapply (SharedMiss _ _ _ _ _ b u 0); [apply R1|exact F]|]. eexists. split.
  - eapply SHit; [cbn; apply R1|exact D1].
  - unfold CacheModel.delivers. cbn [readers files]. rewrite set_reader_same, set_inode_same. destruct codec as (_ & Fs & To). destruct (To [] [] (enc_finish [])) as [X _]; [reflexivity|apply Fs|].
    destruct (gunzip []) as [x y]. cbn in X. subst y. eauto.
Qed.

(** ** C48 *)
(** What the cache delivers without an error is what the caller of an earlier reader of this url
    saw before the reader was dropped. *)
Theorem C48_origin : forall tr st b u k st' x, exec init tr st -> step st (EHit b u k) st' -> delivers st' k = Some (x, true) ->
  exists b' u' ws, digest b' = digest b /\ digest u' = digest u /\ wrote tr b' u' ws /\ concat ws = x.
Proof.
  intros tr st b u k st' x E S D. destruct codec as (Rt & Fs & To).
  assert (X : exists i, dir (files st) (http_name digest b u) = Some i) by (inversion S; eauto). destruct X as [i Di]. rewrite (hit_delivers _ _ _ _ _ _ S Di) in D. injection D as D.
  pose proof (exec_base _ _ _ _ _ _ _ E (init_base _ _)) as B. destruct (exec_origin _ parse_url _ _ sized Fs _ _ _ E [] (init_base _ _) (init_origin _ _ _)) as [O1 O2]. cbn [app] in *.
  assert (T : forall c, torn enc_write enc_finish c -> snd (gunzip c) = false) by (intros c (ws & q & Ea & Hq); exact (proj1 (To ws c q Ea Hq))).
  destruct (O2 _ _ _ Di) as [(h & off & ws & Hh)|[[_ X]|(_ & b' & u' & ws & En & W & Ea)]].
  - exfalso. destruct B as (_ & _ & B3 & _). destruct (B3 _ _ _ _ Hh) as (_ & Ei & _). rewrite Ei in D.
    assert (snd (gunzip (pieces enc_write ws)) = false) as F by (apply T; exists ws, (enc_finish ws); split; [reflexivity|apply Fs]). rewrite D in F. discriminate.
  - apply T in X. rewrite D in X. discriminate.
  - rewrite Ea, Rt in D. injection D as D. apply (http_name_inj _ sized) in En as [En1 En2]. eauto 8.
Qed.
(** If the process ends before the reader is dropped, the entry gives an error, after a prefix of
    what the caller saw; it is never asked for again, until it is dropped. *)
Theorem C48_crash_detected : forall tr1 st1 b u h st2 tr2 st3 st4 tr3 st5,
  exec init tr1 st1 -> step st1 (EMiss b u h) st2 -> exec st2 tr2 st3 -> Forall (keeps h) tr2 -> Forall (saved h) tr2 -> step st3 ECrash st4 -> exec st4 tr3 st5 ->
  Forall (undropped b u) (tr2 ++ tr3) ->
  (forall k st6, step st5 (EHit b u k) st6 -> exists x r, delivers st6 k = Some (x, false) /\ concat (chunks h tr2) = x ++ r) /\
  (forall k, readers st5 k = None -> exists st6, step st5 (EHit b u k) st6) /\
  (forall k st6, ~ step st5 (EMiss b u k) st6).
Proof.
  intros tr1 st1 b u h st2 tr2 st3 st4 tr3 st5 E1 S1 E2 K Sv S2 E3 U. apply Forall_app in U as [U2 U3].
  pose proof (exec_base _ _ _ _ _ _ _ E1 (init_base _ _)) as B1. pose proof (step_base _ _ _ _ _ _ _ S1 B1) as B2.
  pose proof (exec_base _ _ _ _ _ _ _ E2 B2) as B3. pose proof (step_base _ _ _ _ _ _ _ S2 B3) as B4.
  set (n := http_name digest b u) in *.
  assert (Fi : exists i, filling enc_write st2 n i h []).
  { inversion S1; subst. exists i. split; cbn [files readers]; [|apply set_reader_same]. match goal with C : create _ _ = Some _ |- _ => apply create_some in C; tauto end. }
  destruct Fi as [i Fi]. apply (exec_filling _ _ _ _ _ _ _ _ _ _ E2 B2 _) in Fi; [|exact K|exact Sv|now apply undropped_http]. cbn [app] in Fi. destruct Fi as [Dn Hh].
  destruct codec as (Rt & Fs & To).
  assert (Se : sealed st4 n i (pieces enc_write (chunks h tr2))).
  { inversion S2; subst. split; [exact Dn|]. split; [|intros k off ws X; discriminate X]. cbn [files]. destruct B3 as (_ & _ & B3 & _). now destruct (B3 _ _ _ _ Hh) as (_ & Ei & _). }
  apply (exec_sealed _ _ _ _ _ _ _ _ _ _ E3 B4) in Se; [|now apply undropped_http]. destruct Se as (D5 & I5 & _). csplit.
  - intros k st6 S. rewrite (hit_delivers _ _ _ _ _ _ S D5), I5.
    destruct (To (chunks h tr2) (pieces enc_write (chunks h tr2)) (enc_finish (chunks h tr2)) eq_refl (Fs _)) as [F [r Er]].
    destruct (gunzip (pieces enc_write (chunks h tr2))) as [x y]. cbn in F, Er. subst y. eauto.
  - intros k Hk. eexists. apply (SHit _ _ _ _ _ _ _ _ i Hk D5).
  - exact (proj1 (no_miss _ _ _ _ D5)).
Qed.
(** If the reader is dropped before the end of the body, or after an error of the connection, the
    cache serves what was read so far without an error, from then on. *)
Theorem C48_early_drop_refuted : forall b u w, exists st, exec init [EMiss b u 0; ERead 0 (Val w) (Val w); EClose 0] st /\
  exists st', step st (EHit b u 0) st' /\ delivers st' 0 = Some (w, true).
Proof.
  intros b u w. destruct (create empty_store (http_name digest b u)) as [[s0 i]|] eqn:C; [|discriminate].
  assert (E : exists st, exec init [EMiss b u 0] st) by (eexists; eapply ExecStep; [eapply SMiss; [reflexivity|reflexivity|exact C]|apply ExecNow]).
  assert (X : exists st2 st3 st4, step init (EMiss b u 0) st2 /\ exec st2 [ERead 0 (Val w) (Val w)] st3 /\ step st3 (EClose 0) st4 /\ readers st4 0 = None).
  { do 3 eexists. split; [eapply SMiss; [reflexivity|reflexivity|exact C]|]. split; [eapply ExecStep; [eapply (SRead _ _ _ _ _ 0 _ 0 [] (Val w) w); reflexivity|apply ExecNow]|].
    split; [eapply SClose; reflexivity|reflexivity]. }
  destruct X as (st2 & st3 & st4 & S1 & E2 & S2 & R). exists st4. split.
  - eapply ExecStep; [exact S1|]. inversion E2 as [|? ? ? ? ? Y Z]; subst. inversion Z; subst. eapply ExecStep; [exact Y|]. eapply ExecStep; [exact S2|apply ExecNow].
  - destruct (C47_replay [] init b u 0 st2 [ERead 0 (Val w) (Val w)] st3 st4 [] st4) as (P1 & P2 & _);
      [apply ExecNow|exact S1|exact E2|repeat constructor|repeat constructor|exact S2|apply ExecNow|repeat constructor|].
    destruct (P1 0 R) as [st' S']. exists st'. split; [exact S'|]. rewrite (P2 _ _ S'). cbn. now rewrite app_nil_r.
Qed.
Theorem C48_connection_failure_refuted : forall b u w e, exists st, exec init [EMiss b u 0; ERead 0 (Val w) (Val w); ERead 0 (Fail e) (Fail e); EClose 0] st /\
  exists st', step st (EHit b u 0) st' /\ delivers st' 0 = Some (w, true).
Proof.
  intros b u w e. destruct (create empty_store (http_name digest b u)) as [[s0 i]|] eqn:C; [|discriminate].
  assert (X : exists st2 st3 st4, step init (EMiss b u 0) st2 /\ exec st2 [ERead 0 (Val w) (Val w); ERead 0 (Fail e) (Fail e)] st3 /\ step st3 (EClose 0) st4 /\ readers st4 0 = None).
  { do 3 eexists. split; [eapply SMiss; [reflexivity|reflexivity|exact C]|].
    split; [eapply ExecStep; [eapply (SRead _ _ _ _ _ 0 _ 0 [] (Val w) w); reflexivity|eapply ExecStep; [eapply (SReadFailed _ _ _ _ _ 0 _ _ _ (Fail e)); reflexivity|apply ExecNow]]|].
    split; [eapply SClose; reflexivity|reflexivity]. }
  destruct X as (st2 & st3 & st4 & S1 & E2 & S2 & R). exists st4. split.
  - eapply ExecStep; [exact S1|]. inversion E2 as [|? ? ? ? ? Y Z]; subst. inversion Z as [|? ? ? ? ? Y' Z']; subst. inversion Z'; subst.
    eapply ExecStep; [exact Y|]. eapply ExecStep; [exact Y'|]. eapply ExecStep; [exact S2|apply ExecNow].
  - destruct (C47_replay [] init b u 0 st2 [ERead 0 (Val w) (Val w); ERead 0 (Fail e) (Fail e)] st3 st4 [] st4) as (P1 & P2 & _);
      [apply ExecNow|exact S1|exact E2|repeat constructor|repeat constructor|exact S2|apply ExecNow|repeat constructor|].
    destruct (P1 0 R) as [st' S']. exists st'. split; [exact S'|]. rewrite (P2 _ _ S'). cbn. now rewrite app_nil_r.
Qed.

(** ** C50 *)
(** After a stored answer every later one is the same, without asking the server. *)
Theorem C50_stable : forall st b u r st1 tr st2, step st (EHeadAsked b u r) st1 -> exec st1 tr st2 ->
  (exists st3, step st2 (EHead b u r) st3) /\ (forall r' st3, step st2 (EHead b u r') st3 -> r' = r) /\
  (forall r' st3, ~ step st2 (EHeadAsked b u r') st3) /\ (forall st3, ~ step st2 (EHeadFailed b u) st3).
Proof.
  intros st b u r st1 tr st2 S E.
  set (ns := success_name digest b u) in *. set (nf := failure_name digest b u) in *.
  assert (H : head digest (files st2) b u = Some r).
  { assert (Stay : forall s, head digest (files s) b u = Some r -> forall e s', step s e s' -> head digest (files s') b u = Some r).
    { intros s Hs e s' S'. unfold head in *. fold ns nf in Hs |- *.
      assert (Dir : forall n x, exists_ x n = match dir x n with Some _ => true | None => false end) by reflexivity.
      assert (Fn : forall n, (forall b' u', http_name digest b' u' <> n) -> (forall u', httpdir_name digest u' <> n) ->
        exists_ (files s) n = true -> exists_ (files s') n = true).
      { intros n N1 N2. rewrite !Dir. destruct (dir (files s) n) as [i|] eqn:Ei; [|discriminate]. intros _.
        assert (Cr : forall m x j, create (files s) m = Some (x, j) -> exists i, dir x n = Some i).
        { intros m x j C. apply create_some in C as (Hm & _ & _ & _ & Eo & _). exists i. rewrite Eo; [exact Ei|]. intros ->. congruence. }
        destruct S'; cbn [files]; try (rewrite Ei; reflexivity).
        - destruct (Cr _ _ _ H1) as [j ->]. reflexivity.
        - cbn [set_inode dir]. now rewrite Ei.
        - cbn [set_inode dir]. now rewrite Ei.
        - cbn [set_inode dir]. now rewrite Ei.
        - cbn [set_inode dir]. now rewrite Ei.
        - rewrite drop_other by (intros X; symmetry in X; exact (N1 _ _ X)). now rewrite Ei.
        - unfold head_set in H0. destruct (create (files st0) _) as [[x j]|] eqn:C; [|discriminate]. injection H0 as <-. destruct (Cr _ _ _ C) as [k ->]. reflexivity.
        - destruct (Cr _ _ _ H0) as [j Ej]. cbn [set_inode dir]. now rewrite Ej.
        - destruct (Cr _ _ _ H0) as [j Ej]. cbn [set_inode dir]. now rewrite Ej.
        - rewrite drop_other by (intros X; symmetry in X; exact (N2 _ X)). now rewrite Ei. }
      assert (Ns : exists_ (files s) ns = true -> exists_ (files s') ns = true) by (apply Fn; [intros b' u'; now apply http_success|intros u' X; symmetry in X; exact (success_httpdir _ _ _ _ X)]).
      assert (Nf : exists_ (files s) nf = true -> exists_ (files s') nf = true) by (apply Fn; [intros b' u'; now apply http_failure|intros u' X; symmetry in X; exact (failure_httpdir _ _ _ _ X)]).
      destruct (exists_ (files s) ns) eqn:Es; [rewrite Ns by reflexivity; exact Hs|]. destruct (exists_ (files s) nf) eqn:Ef; [|discriminate]. rewrite Nf by reflexivity.
      replace (exists_ (files s') ns) with false; [exact Hs|]. symmetry.
      (* the success is not created, because there is an answer *)
      assert (Cr : forall m x j, m <> ns -> create (files s) m = Some (x, j) -> exists_ x ns = false).
      { intros m x j Hm C. apply create_some in C as (_ & _ & _ & _ & Eo & _). rewrite Dir, Eo by congruence. rewrite Dir in Es. exact Es. }
      destruct S'; cbn [files]; try exact Es.
      - eapply Cr; [|exact H1]. now apply http_success.
      - rewrite Dir in *. destruct (dir (drop (files st0) _) ns) eqn:X; [|reflexivity]. apply drop_some in X as [_ X]. now rewrite X in Es.
      - unfold head_set in H0. destruct (create (files st0) _) as [[x j]|] eqn:C; [|discriminate]. injection H0 as <-. eapply Cr; [|exact C]. destruct r0.
        + intros X. apply (success_name_inj _ sized) in X. apply (failure_name_inj _ sized) in X. unfold head in H. rewrite X in H. fold nf in H. rewrite Ef in H. destruct (exists_ (files st0) (success_name digest b0 u0)) in H; discriminate H.
        + intros X. symmetry in X. exact (success_failure _ sized _ _ _ _ X).
      - rewrite Dir. cbn [set_inode dir]. rewrite <- Dir. eapply Cr; [|exact H0]. intros X; symmetry in X; exact (success_httpdir _ _ _ _ X).
      - rewrite Dir. cbn [set_inode dir]. rewrite <- Dir. eapply Cr; [|exact H0]. intros X; symmetry in X; exact (success_httpdir _ _ _ _ X).
      - rewrite Dir in *. destruct (dir (drop (files st0) _) ns) eqn:X; [|reflexivity]. apply drop_some in X as [_ X]. now rewrite X in Es. }
    assert (H1 : head digest (files st1) b u = Some r).
    { inversion S as [| | | | | | | | | | |? ? ? ? s' Hn Hs| | | | | | |]; subst. cbn [files]. unfold head in *. fold ns nf in Hn |- *. unfold head_set in Hs. fold ns nf in Hs.
      destruct (exists_ (files st) ns) eqn:Es; [discriminate|]. destruct (exists_ (files st) nf) eqn:Ef; [discriminate|].
      destruct (create (files st) (if r then ns else nf)) as [[x j]|] eqn:C; [|discriminate]. injection Hs as <-. apply create_some in C as (_ & _ & _ & En & Eo & _).
      unfold exists_ in *. destruct r; [now rewrite En|]. rewrite Eo by (apply success_failure; exact sized). rewrite En. destruct (dir (files st) ns); [discriminate|reflexivity]. }
    clear S. induction E as [|s e s' tr s'' S' E' IH]; [exact H1|]. apply IH. eapply Stay; eauto. }
  csplit.
  - eexists. now apply SHead.
  - intros r' st3 S'. inversion S'; subst. congruence.
  - intros r' st3 S'. inversion S'; subst. congruence.
  - intros st3 S'. inversion S'; subst. congruence.
Qed.
(** Two processes: one was about to store a success, the other one stored a failure. *)
Theorem C50_race_refuted : forall b u, exists st1 st2 st3, step init (EHeadAsked b u false) st1 /\ shared_step st1 st2 /\ step st2 (EHead b u true) st3.
Proof.
  intros b u. destruct (create empty_store (failure_name digest b u)) as [[s i]|] eqn:C; [|discriminate].
  do 3 eexists. split; [eapply SHeadAsked; [reflexivity|unfold head_set; cbn [files init]; rewrite C; reflexivity]|]. split; [apply (SharedHead _ _ _ _ _ b u true)|].
  apply SHead. cbn [files]. unfold head, exists_. unfold file_create at 1. destruct (dir s (success_name digest b u)) as [k|] eqn:E; cbn [fst]; [cbn [set_inode dir]; now rewrite E|].
  cbn [dir]. now rewrite eqb_list_refl.
Qed.

(** ** C65: directory listings *)
Lemma dir_sealed st u e st1 c tr st2 : base digest enc_write st -> step st e st1 -> (exists i, sealed st1 (httpdir_name digest u) i c) -> exec st1 tr st2 -> Forall (dir_undropped u) tr ->
  exists i, dir (files st2) (httpdir_name digest u) = Some i /\ inode (files st2) i = c.
Proof.
  intros B S [i Se] E U. apply (exec_sealed _ _ _ _ _ _ _ _ _ _ E) in Se; [|eapply step_base; eauto|now apply undropped_dir]. exists i. destruct Se as (A & C & _). auto.
Qed.
Lemma listing_created st u st1 s' i c : base digest enc_write st -> create (files st) (httpdir_name digest u) = Some (s', i) -> st1 = {| files := set_inode s' i c; readers := readers st |} ->
  sealed st1 (httpdir_name digest u) i c.
Proof.
  intros (_ & _ & B3 & _) C ->. apply create_some in C as (_ & -> & _ & En & _). unfold sealed. cbn [files readers]. csplit; [exact En|apply set_inode_same|].
  intros h off ws X. apply B3 in X. lia.
Qed.
(** A listing that was saved is what every later one gives, without asking the server, whatever
    the server has by now. *)
Theorem C65_listing_replayed : forall tr0 st u l st1 tr st2, exec init tr0 st -> step st (EDirListed u l) st1 -> exec st1 tr st2 -> Forall (dir_undropped u) tr -> representable parse_url l ->
  (exists st3, step st2 (EDirHit u (Val l)) st3) /\ (forall r st3, step st2 (EDirHit u r) st3 -> r = Val l) /\ (forall l' st3, ~ step st2 (EDirListed u l') st3).
Proof.
  intros tr0 st u l st1 tr st2 E0 S E U R. pose proof (exec_base _ _ _ _ _ _ _ E0 (init_base _ _)) as B.
  destruct (dir_sealed st u _ st1 (enc_urls l) tr st2 B S) as (i & D & I); [|exact E|exact U|].
  { inversion S; subst. eexists. eapply listing_created; [exact B|eassumption|reflexivity]. }
  assert (G : httpdir_get digest parse_url (files st2) u = Some (Val l)) by (unfold httpdir_get; now rewrite D, I, dec_urls_enc by exact R).
  csplit.
  - eexists. now apply SDirHit.
  - intros r st3 S'. inversion S'; subst. congruence.
  - intros l' st3 S'. inversion S'; subst. congruence.
Qed.
(** A listing that was not saved completely gives an error from then on, without asking the
    server. *)
Theorem C65_recovers_refuted : forall tr0 st u l st1 tr st2, exec init tr0 st -> step st (EDirTorn u l) st1 -> exec st1 tr st2 -> Forall (dir_undropped u) tr -> representable parse_url l ->
  (exists e st3, step st2 (EDirHit u (Fail e)) st3) /\ (forall r st3, step st2 (EDirHit u r) st3 -> exists e, r = Fail e) /\ (forall l' st3, ~ step st2 (EDirListed u l') st3).
Proof.
  intros tr0 st u l st1 tr st2 E0 S E U R. pose proof (exec_base _ _ _ _ _ _ _ E0 (init_base _ _)) as B.
  assert (X : exists k, k < length (enc_urls l) /\ exists i, sealed st1 (httpdir_name digest u) i (firstn k (enc_urls l))).
  { inversion S; subst. exists k. split; [assumption|]. eexists. eapply listing_created; [exact B|eassumption|reflexivity]. }
  destruct X as (k & Hk & Se). destruct (dir_sealed st u _ st1 _ tr st2 B S Se E U) as (i & D & I).
  assert (G : exists e, httpdir_get digest parse_url (files st2) u = Some (Fail e)) by (unfold httpdir_get; rewrite D, I, dec_urls_torn by assumption; eauto).
  destruct G as [e G]. csplit.
  - exists e. eexists. now apply SDirHit.
  - intros r st3 S'. inversion S'; subst. exists e. congruence.
  - intros l' st3 S'. inversion S'; subst. congruence.
Qed.
(** Any list of urls can be saved and read. *)
Theorem C65_listing_codec : forall l, representable parse_url l ->
  dec_urls parse_url (enc_urls l) = Some l /\ forall k, k < length (enc_urls l) -> dec_urls parse_url (firstn k (enc_urls l)) = None.
Proof. intros l R. split; [now apply dec_urls_enc|]. intros k Hk. now apply dec_urls_torn. Qed.
End Cache.

(** *** The hypotheses can be met *)
(** A digest of 64 characters, and a codec with one mark per byte and one at the end. *)
Definition toy_digest (u : text) : text := firstn 64 (u ++ repeat 48%N 64).
Example toy_sized : fixed_size toy_digest.
Proof. intros u. unfold toy_digest. rewrite firstn_length, app_length, repeat_length. lia. Qed.
Definition toy_write (ws : list bytes) (w : bytes) : bytes := flat_map (fun b => [1%N; b]) w.
Definition toy_finish (ws : list bytes) : bytes := [0%N].
Fixpoint toy_gunzip (l : bytes) : bytes * bool :=
  match l with
  | 0%N :: _ => ([], true)
  | _ :: b :: r => (b :: fst (toy_gunzip r), snd (toy_gunzip r))
  | _ => ([], false)
  end.
Lemma toy_pieces ws : forall before, pieces_from toy_write before ws = toy_write [] (concat ws).
Proof.
  induction ws as [|w ws IH]; intros before; [reflexivity|]. cbn [pieces_from concat]. rewrite IH. unfold toy_write. now rewrite flat_map_app.
Qed.
Example toy_codec : gzip_codec toy_write toy_finish toy_gunzip.
Proof.
  unfold gzip_codec, archive, pieces, toy_finish. csplit; [| |].
  - intros ws. rewrite toy_pieces. unfold toy_write. induction (concat ws) as [|b c IH]; [reflexivity|]. cbn [flat_map app]. cbn [toy_gunzip]. now rewrite IH.
  - intros ws. discriminate.
  - intros ws p q. rewrite toy_pieces. unfold toy_write. generalize (concat ws) as c. clear ws. intros c. revert p. induction c as [|b c IH]; intros p E Hq.
    + destruct p as [|x p]; [split; [reflexivity|exists []; reflexivity]|]. injection E as <- E. destruct p, q; try discriminate. contradiction.
    + destruct p as [|x [|y p]]; [split; [reflexivity|eexists; reflexivity]| |].
      * injection E as <- E. split; [reflexivity|eexists; reflexivity].
      * cbn [flat_map app] in E. injection E as <- <- E. destruct (IH p E Hq) as [F [r Er]]. cbn [toy_gunzip fst snd]. split; [exact F|]. exists r. cbn [app]. now rewrite <- Er.
Qed.
Definition u1 : text := lit "http://logs/a.log".
Definition u2 : text := lit "http://logs/sub/".
(** The url is downloaded in two reads while another one is in use and a listing is saved; the
    process ends and another one starts, which drops the other url. *)
Example C47_example : exists st, exec toy_digest Some toy_write toy_finish init
  ([EMiss u2 u2 1] ++ EMiss u1 u1 0 :: [ERead 1 (Val [7%N]) (Val [7%N]); ERead 0 (Val [1%N; 2%N]) (Val [1%N; 2%N]); EDirListed u2 [u1]; ERead 0 (Val []) (Val [])] ++
   EClose 0 :: [ECrash; EDrop u2 u2]) st.
Proof.
  eexists. cbn [app].
  eapply ExecStep; [eapply SMiss; reflexivity|]. eapply ExecStep; [eapply SMiss; reflexivity|].
  eapply ExecStep; [eapply (SRead _ _ _ _ _ 1 _ _ _ (Val [7%N])); reflexivity|].
  eapply ExecStep; [eapply (SRead _ _ _ _ _ 0 _ _ _ (Val [1%N; 2%N])); reflexivity|].
  eapply ExecStep; [eapply SDirListed; reflexivity|].
  eapply ExecStep; [eapply (SRead _ _ _ _ _ 0 _ _ _ (Val [])); reflexivity|].
  eapply ExecStep; [eapply SClose; reflexivity|]. eapply ExecStep; [apply SCrash|].
  eapply ExecStep; [apply SDrop|]. apply ExecNow.
Qed.
Example C65_example : representable Some [u1; u2].
Proof. split; [reflexivity|]. repeat constructor. Qed.

Print Assumptions C47_replay.
Print Assumptions C47_caller_sees_remote.
Print Assumptions C47_race_refuted.
Print Assumptions C48_origin.
Print Assumptions C48_crash_detected.
Print Assumptions C48_early_drop_refuted.
Print Assumptions C48_connection_failure_refuted.
Print Assumptions C49_kinds.
Print Assumptions C49_same_kind.
Print Assumptions C50_stable.
Print Assumptions C50_race_refuted.
Print Assumptions C65_listing_replayed.
Print Assumptions C65_recovers_refuted.
Print Assumptions C65_listing_codec.
