(** Where the files of the cache come from. *)
From Coq Require Import String List NArith PeanoNat Bool Lia.
From Verif Require Import Common CommonFacts FilesModel CacheModel CacheSpec CacheProofs.
Import ListNotations.
Open Scope nat_scope.

Section Origin.
Variable digest : text -> text.
Variable parse_url : text -> option text.
Variable enc_write : list bytes -> bytes -> bytes.
Variable enc_finish : list bytes -> bytes.
Hypothesis sized : fixed_size digest.
Hypothesis finish_some : forall ws, enc_finish ws <> [].
Notation step := (step digest parse_url enc_write enc_finish).
Notation exec := (exec digest parse_url enc_write enc_finish).
Notation pieces := (pieces enc_write).
Notation archive := (archive enc_write enc_finish).
Notation base := (base digest enc_write).

(** A file that lacks the end of an archive, or was written by a reader that was dropped. *)
Definition torn (c : bytes) : Prop := exists ws q, archive ws = c ++ q /\ q <> [].
Definition idle (st : state) (i : nat) : Prop := forall h off ws, readers st h <> Some (Cached i off ws).
Definition origin_of (tr : list event) (st : state) : Prop :=
  (forall h i off ws, readers st h = Some (Cached i off ws) -> exists b u tr1 tr2, tr = tr1 ++ EMiss b u h :: tr2 /\ Forall (keeps h) tr2 /\ chunks h tr2 = ws /\
    forall n, dir (files st) n = Some i -> n = http_name digest b u) /\
  (forall b u i, dir (files st) (http_name digest b u) = Some i ->
    (exists h off ws, readers st h = Some (Cached i off ws)) \/
    (idle st i /\ torn (inode (files st) i)) \/
    (idle st i /\ exists b' u' ws, http_name digest b' u' = http_name digest b u /\ wrote tr b' u' ws /\ inode (files st) i = archive ws)).

Lemma step_reader_inv st e st' h i off ws : step st e st' -> readers st' h = Some (Cached i off ws) ->
  (exists b u, e = EMiss b u h /\ i = fresh (files st) /\ ws = [] /\ forall n, dir (files st') n = Some i -> dir (files st) n = Some i \/ n = http_name digest b u) \/
  (exists off' ws', readers st h = Some (Cached i off' ws') /\ keeps h e /\ ws = ws' ++ chunks h [e]).
Proof.
  intros H E. destruct H; cbn [readers files] in *;
    try (right; exists off, ws; csplit; [exact E|exact I|now rewrite app_nil_r]);
    try (apply set_reader_cases in E as [[-> E]|[Hk E]]; [try discriminate|try (right; exists off, ws; csplit; [exact E|cbn; auto|now rewrite app_nil_r])]).
  - left. injection E as <- <- <-. exists b, u. apply create_some in H1 as (Hn & -> & _ & _ & Eo & _). csplit; auto. intros n Hn'.
    destruct (eqb_list n (http_name digest b u)) eqn:Eq; [apply eqb_text in Eq; now right|left]. rewrite Eo in Hn'; [exact Hn'|]. intros ->. rewrite eqb_list_refl in Eq. discriminate.
  - right. injection E as <- <- <-. exists off0, ws0. csplit; [exact H|exact I|]. unfold chunks. cbn [flat_map]. destruct remote as [w0|e0|]; cbn in H0 |- *; try discriminate. injection H0 as ->.
    now rewrite Nat.eqb_refl.
  - right. exists off, ws. csplit; [exact E|exact I|]. unfold chunks. cbn [flat_map]. destruct (fst (cached_read remote true)); rewrite ?app_nil_r; auto. destruct (Nat.eqb_spec h0 h); [congruence|]. now rewrite app_nil_r.
  - right. exists off, ws. csplit; [exact E|exact I|]. unfold chunks. cbn [flat_map]. destruct remote as [w0|e0|]; cbn in H0 |- *; try discriminate; now rewrite app_nil_r.
  - discriminate.
Qed.
Lemma step_dir_inv st e st' b u i : step st e st' -> dir (files st') (http_name digest b u) = Some i ->
  dir (files st) (http_name digest b u) = Some i \/ exists h, readers st' h = Some (Cached i 0 []).
Proof.
  intros H E.
  assert (Cr : forall m s j, create (files st) m = Some (s, j) -> m <> http_name digest b u -> dir s (http_name digest b u) = Some i -> dir (files st) (http_name digest b u) = Some i).
  { intros m s j C Hm D. apply create_some in C as (_ & _ & _ & _ & Eo & _). now rewrite Eo in D by congruence. }
  destruct H; cbn [files readers] in *; auto.
  - apply create_some in H1 as (Hn & -> & _ & Es & Eo & _). destruct (eqb_list (http_name digest b u) (http_name digest b0 u0)) eqn:Eq.
    + apply eqb_text in Eq. rewrite Eq in E. right. exists h. rewrite set_reader_same. rewrite Es in E. now injection E as <-.
    + left. rewrite Eo in E; [exact E|]. intros X. rewrite X, eqb_list_refl in Eq. discriminate.
  - apply drop_some in E as [_ E]. auto.
  - unfold head_set in H0. destruct (create (files st) _) as [[s j]|] eqn:C; [|discriminate]. injection H0 as <-. left. eapply Cr; [exact C| |exact E].
    destruct r; intros X; symmetry in X; [exact (http_success _ sized _ _ _ _ X)|exact (http_failure _ sized _ _ _ _ X)].
  - left. eapply Cr; [exact H0|discriminate|exact E].
  - left. eapply Cr; [exact H0|discriminate|exact E].
  - apply drop_some in E as [_ E]. auto.
Qed.
(** A step that ends the writing of a file. *)
Lemma step_end st e st' h i off ws : step st e st' -> base st -> readers st h = Some (Cached i off ws) ->
  (exists off' ws', readers st' h = Some (Cached i off' ws')) \/
  (idle st' i /\ ((e = EClose h /\ inode (files st') i = archive ws) \/ torn (inode (files st') i))).
Proof.
  intros H (B1 & B2 & B3 & B4 & B5) Hh. destruct (B3 _ _ _ _ Hh) as (Hi & Ei & ->).
  assert (Idle : forall x, (forall j o w, x <> Some (Cached j o w)) -> forall k o w, set_reader (readers st) h x k <> Some (Cached i o w)).
  { intros x Hx k o w E. apply set_reader_cases in E as [[-> E]|[Hk E]]; [exact (Hx _ _ _ E)|exact (Hk (B4 _ _ _ _ _ _ _ E Hh))]. }
  destruct H; cbn [readers files] in *; eauto;
    try (destruct (Nat.eq_dec h0 h) as [->|Hne]; [|left; rewrite set_reader_other by congruence; eauto]);
    try (rewrite Hh in H; try discriminate; injection H as <- <- <-).
  - left. rewrite set_reader_same. eauto.
  - right. split; [intros k' o' w'; apply Idle; discriminate|]. right. rewrite set_inode_same, Ei, write_at_end. exists (ws ++ [w]), (skipn k (enc_write ws w) ++ enc_finish (ws ++ [w])).
    unfold CacheSpec.archive. rewrite pieces_snoc. split; [rewrite <- (firstn_skipn k (enc_write ws w)) at 1; now rewrite <- !app_assoc|].
    intros X. apply app_eq_nil in X as [_ X]. exact (finish_some _ X).
  - right. split; [intros k' o' w'; apply Idle; discriminate|]. left. split; [reflexivity|]. now rewrite set_inode_same, Ei, write_at_end.
  - right. split; [intros k' o' w'; apply Idle; discriminate|]. right. rewrite set_inode_same, Ei, write_at_end. exists ws, (skipn k (enc_finish ws)).
    unfold CacheSpec.archive. split; [now rewrite <- app_assoc, firstn_skipn|]. intros X. apply (f_equal (@length N)) in X. rewrite skipn_length in X. change (length (@nil N)) with 0 in X. lia.
  - rewrite Hh in H. injection H as <-. destruct (H0 _ _ _ eq_refl).
  - right. split; [intros k o w X; discriminate X|]. right. rewrite Ei. exists ws, (enc_finish ws). split; [reflexivity|apply finish_some].
Qed.
Lemma wrote_more tr b u ws e : wrote tr b u ws -> wrote (tr ++ [e]) b u ws.
Proof.
  intros (tr1 & h & tr2 & tr3 & -> & K & C). exists tr1, h, tr2, (tr3 ++ [e]). csplit; auto. rewrite <- !app_assoc. cbn. rewrite <- app_assoc. reflexivity.
Qed.
Lemma step_origin tr st e st' : step st e st' -> base st -> origin_of tr st -> origin_of (tr ++ [e]) st'.
Proof.
  intros H B [O1 O2]. pose proof B as (B1 & B2 & B3 & B4 & B5). split.
  - intros h i off ws E. destruct (step_reader_inv _ _ _ _ _ _ _ H E) as [(b & u & -> & -> & -> & Hn)|(off' & ws' & E' & K & ->)].
    + exists b, u, tr, []. csplit; auto. intros n Hn'. apply Hn in Hn' as [Hn'| ->]; [|reflexivity]. apply B1 in Hn'. lia.
    + destruct (O1 _ _ _ _ E') as (b & u & tr1 & tr2 & -> & K2 & <- & Hn). exists b, u, tr1, (tr2 ++ [e]). csplit.
      * now rewrite <- app_assoc.
      * apply Forall_app. split; [exact K2|]. constructor; auto.
      * apply chunks_app.
      * intros n Hn'. apply Hn. destruct (B3 _ _ _ _ E') as (Hi & _).
        assert (Dn : forall n, dir (files st') n = Some i -> dir (files st) n = Some i).
        { clear - H Hi. intros n E. 
          assert (Cr : forall m s j, create (files st) m = Some (s, j) -> dir s n = Some i -> dir (files st) n = Some i).
          { intros m s j C D. apply create_some in C as (_ & -> & _ & Es & Eo & _). destruct (eqb_list n m) eqn:Eq; [apply eqb_text in Eq as ->; rewrite Es in D; injection D; lia|].
            rewrite Eo in D; [exact D|]. intros ->. rewrite eqb_list_refl in Eq. discriminate. }
          destruct H; cbn [files] in *; eauto; try (apply drop_some in E as [_ E]; auto; fail).
          unfold head_set in H0. destruct (create (files st) _) as [[s j]|] eqn:C; [|discriminate]. injection H0 as <-. eauto. }
        now apply Dn.
  - intros b u i E. destruct (step_dir_inv _ _ _ _ _ _ H E) as [D|[h Hh]]; [|left; eauto].
    assert (Hi : i < fresh (files st)) by eauto.
    destruct (O2 _ _ _ D) as [(h & off & ws & Hh)|Rest].
    + destruct (step_end _ _ _ _ _ _ _ H B Hh) as [(off' & ws' & Hh')|[Id [[-> Ea]|T]]]; [left; eauto| |right; left; auto].
      right. right. split; [exact Id|]. destruct (O1 _ _ _ _ Hh) as (b' & u' & tr1 & tr2 & -> & K & <- & Hn). exists b', u', (chunks h tr2). csplit; [now rewrite <- (Hn _ D)| |exact Ea].
      exists tr1, h, tr2, []. csplit; auto. now rewrite <- app_assoc.
    + assert (Id : idle st i) by (destruct Rest as [[Id _]|[Id _]]; exact Id).
      assert (Id' : idle st' i).
      { intros h off ws E'. destruct (step_writer _ _ _ _ _ _ _ _ _ _ _ H B Hi E') as (off' & ws' & E''). exact (Id _ _ _ E''). }
      assert (S : inode (files st') i = inode (files st) i).
      { destruct (step_file _ _ _ _ _ _ _ _ _ H B D) as [_ [X|(h & off & ws & X & _)]]; [| |exact X|destruct (Id _ _ _ X)].
        - intros b' u' -> X. inversion H; subst. cbn [files] in E. rewrite <- X, drop_same in E. discriminate.
        - intros u' _. discriminate. }
      right. destruct Rest as [[_ T]|[_ (b' & u' & ws & En & W & Ea)]]; [left|right]; (split; [exact Id'|]); rewrite S; [exact T|].
      exists b', u', ws. csplit; auto. now apply wrote_more.
Qed.
Lemma init_origin : origin_of [] init.
Proof. split; cbn; intros; discriminate. Qed.
Lemma exec_origin st tr' st' : exec st tr' st' -> forall tr, base st -> origin_of tr st -> origin_of (tr ++ tr') st'.
Proof.
  induction 1 as [|st e st1 tr' st2 H _ IH]; intros tr B O; [now rewrite app_nil_r|].
  change (e :: tr') with ([e] ++ tr'). rewrite app_assoc. apply IH; [eapply step_base; eauto|eapply step_origin; eauto].
Qed.
End Origin.
