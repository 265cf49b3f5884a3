(** The builds of a server, from its answers to what is compared: C96. *)
From Coq Require Import String List NArith ZArith PeanoNat Bool Lia.
From Verif Require Import Common CommonFacts FilesModel CrawlModel ZuulModel ZuulSpec ZuulProofs P_Zuul ZuulApiModel P_ZuulApi CliModel StoreModel BuildModel BuildSpec.
Import ListNotations.
Open Scope string_scope.
Open Scope list_scope.
Open Scope N_scope.
Ltac csplit := repeat match goal with |- _ /\ _ => split end.

(** ** The query *)
Lemma hex_char_ok d : d < 16 -> hex_digit (hex_char d) d.
Proof. intros H. unfold hex_char, hex_digit. destruct (N.ltb_spec d 10); lia. Qed.
Lemma plain_ok c : form_plain c = true -> ~ In c [38; 61; 43; 37; 35].
Proof. intros H I. cbn in I. destruct I as [<-|[<-|[<-|[<-|[<-|[]]]]]]; discriminate. Qed.
Lemma form_text_reads : forall s, Forall (fun c => c < 256) s -> form_reads (form_text s) s.
Proof.
  induction s as [|c s IH]; intros H; [constructor|]. inversion H as [|? ? Hc Hs]; subst. specialize (IH Hs). unfold form_text. cbn [flat_map]. unfold form_byte at 1.
  destruct (form_plain c) eqn:P; [constructor; [now apply plain_ok|exact IH]|]. destruct (N.eqb_spec c 32) as [->|N]; [now constructor|].
  assert (E : c = 16 * (c / 16) + c mod 16) by (apply N.div_mod; discriminate).
  assert (M : c mod 16 < 16) by (apply N.mod_lt; discriminate). assert (D : c / 16 < 16) by (apply N.div_lt_upper_bound; [discriminate|exact Hc]).
  cbn [app]. rewrite E at 3. constructor; [now apply hex_char_ok|now apply hex_char_ok|exact IH].
Qed.
Lemma form_pairs_query : forall l, l <> [] -> Forall (fun p => Forall (fun c => c < 256) (fst p) /\ Forall (fun c => c < 256) (snd p)) l -> form_query (form_pairs l) l.
Proof.
  induction l as [|[k v] l IH]; intros N H; [congruence|]. inversion H as [|? ? [Hk Hv] Hl]; subst. cbn [fst snd] in *. cbn [form_pairs]. destruct l as [|p l].
  - rewrite app_nil_r. constructor; now apply form_text_reads.
  - apply QueryMore; [now apply form_text_reads|now apply form_text_reads|]. apply IH; [discriminate|exact Hl].
Qed.
(** A query is read in one way. *)
Lemma digit_value c d d' : hex_digit c d -> hex_digit c d' -> d = d'.
Proof. unfold hex_digit. lia. Qed.
Lemma digit_plain c d : hex_digit c d -> ~ In c [38; 61].
Proof. unfold hex_digit. intros H I. cbn [In] in I. lia. Qed.
Lemma reads_plain : forall q s, form_reads q s -> Forall (fun c => ~ In c [38; 61]) q.
Proof.
  induction 1 as [|c q s N R IH|q s R IH|a b x y q s A B R IH]; [constructor|constructor; [|exact IH]|constructor; [|exact IH]|constructor; [|constructor; [|constructor; [|exact IH]]]].
  - intros I. apply N. cbn [In] in *. tauto.
  - cbn [In]. intuition discriminate.
  - cbn [In]. intuition discriminate.
  - eapply digit_plain; eauto.
  - eapply digit_plain; eauto.
Qed.
Lemma reads_one : forall q s, form_reads q s -> forall s', form_reads q s' -> s = s'.
Proof.
  induction 1 as [|c q s N R IH|q s R IH|a b x y q s A B R IH]; intros s' H; inversion H as [|? ? ? N' ? |? ? R'|? ? x' y' ? ? A' B' R']; subst; try (exfalso; cbn in *; tauto); try reflexivity; f_equal; auto.
  rewrite (digit_value _ _ _ A A'), (digit_value _ _ _ B B'). reflexivity.
Qed.
Lemma cut_once {A} (c : A) : forall a b x y, ~ In c a -> ~ In c b -> a ++ c :: x = b ++ c :: y -> a = b /\ x = y.
Proof.
  induction a as [|h a IH]; intros [|h' b] x y Na Nb E; cbn in E.
  - injection E as ->. auto.
  - injection E as <- _. exfalso. apply Nb. now left.
  - injection E as -> _. exfalso. apply Na. now left.
  - injection E as <- E. destruct (IH b x y) as [-> ->]; auto; intros I; [apply Na|apply Nb]; now right.
Qed.
Lemma reads_without q s c : form_reads q s -> In c [38; 61] -> ~ In c q.
Proof. intros R I J. apply reads_plain in R. rewrite Forall_forall in R. exact (R _ J I). Qed.
Lemma query_one : forall q l, form_query q l -> forall l', form_query q l' -> l = l'.
Proof.
  assert (E61 : In 61 [38; 61]) by (cbn; tauto). assert (E38 : In 38 [38; 61]) by (cbn; tauto).
  induction 1 as [k v qk qv K V|k v qk qv q l K V Q IH]; intros l' H; inversion H as [k' v' qk' qv' K' V' E|k' v' qk' qv' q' l0 K' V' Q' E]; subst.
  - apply cut_once in E; [|eapply reads_without; eauto|eapply reads_without; eauto]. destruct E as [-> E]. cbn [app] in E. subst. now rewrite (reads_one _ _ K _ K'), (reads_one _ _ V _ V').
  - exfalso. apply cut_once in E; [|eapply reads_without; eauto|eapply reads_without; eauto]. destruct E as [_ E]. cbn [app] in E. eapply (reads_without qv v 38); eauto. rewrite <- E. apply in_or_app. right. now left.
  - exfalso. apply cut_once in E; [|eapply reads_without; eauto|eapply reads_without; eauto]. destruct E as [_ E]. cbn [app] in E. eapply (reads_without qv' v' 38); eauto. rewrite E. apply in_or_app. right. now left.
  - apply cut_once in E; [|eapply reads_without; eauto|eapply reads_without; eauto]. destruct E as [-> E]. cbn [app] in E.
    apply cut_once in E; [|eapply reads_without; eauto|eapply reads_without; eauto]. destruct E as [-> ->]. rewrite (reads_one _ _ K _ K'), (reads_one _ _ V _ V'). f_equal. now apply IH.
Qed.

(** ** The fields of an answer *)
Lemma has_one f k v v' : has f k v -> has f k v' -> v = v'.
Proof. rewrite !(has_field Some (fun _ => None)). congruence. Qed.
Lemma has_lacks f k v : has f k v -> lacks f k -> False.
Proof. intros (f1 & f2 & -> & _) L. apply L. rewrite map_app. apply in_or_app. right. now left. Qed.
Lemma optional_one {A} f k (conv : json -> option A) o o' : conv JNull = None -> optional f k conv o -> optional f k conv o' -> o = o'.
Proof.
  intros N. destruct o as [x|], o' as [x'|]; cbn [optional]; [| | |reflexivity].
  - intros (v & H & C) (v' & H' & C'). rewrite (has_one _ _ _ _ H H') in C. congruence.
  - intros (v & H & C) [L|H']; [exfalso; eapply has_lacks; eauto|]. rewrite (has_one _ _ _ _ H H') in C. congruence.
  - intros [L|H'] (v & H & C); [exfalso; eapply has_lacks; eauto|]. rewrite (has_one _ _ _ _ H H') in C. congruence.
Qed.
Lemma str_field_has k f s : str_field k f = Some s <-> has f k (JStr s).
Proof. unfold str_field. rewrite (has_field Some (fun _ => None)). destruct (field k f) as [[]|]; split; congruence. Qed.

Section Build.
Context {Date : Type}.
Notation build := (@StoreModel.build Date).
Notation answer := (@BuildModel.answer Date).
Variable day_of : Date -> Z.
Variable parse_time : text -> option Date.
Variable parse_url : text -> option text.
Variable parts : text -> url.
Variable join_url : text -> text -> option text.
Variable get : text -> text -> res json.
Variable head : text -> res bool.
Variable today : Z.
Notation answer_of_json := (answer_of_json day_of parse_time parse_url).
Notation shows := (shows day_of parse_time parse_url).
Notation from_zuul_url := (BuildModel.from_zuul_url day_of parse_time parse_url parts join_url get).
Notation zuul_baselines := (BuildModel.zuul_baselines day_of parse_time parse_url join_url get head today).
Notation zuul_says := (BuildModel.zuul_says day_of parse_time parse_url join_url get head today).
Notation page_build := (BuildSpec.page_build day_of parse_time parse_url parts join_url get).
Notation samples := (BuildSpec.samples parse_url join_url get).
Notation candidate := (BuildSpec.candidate head).
Notation sample_points := (BuildSpec.sample_points day_of today).
Notation best_sample := (BuildSpec.best_sample day_of parse_time parse_url head today).
Notation found_for := (BuildSpec.found_for day_of parse_time parse_url join_url get head today).

(** The samples of a build are asked for with its job, at most 500, and the successful ones: a server
    reads this from the query, and can read nothing else from it. *)
Theorem C96_query : forall (b : build) u, Forall (fun c => c < 256) (StoreModel.b_job b) -> samples_url parse_url join_url b = Val u ->
  exists base address q, join_url (StoreModel.b_api b) (lit "builds") = Some base /\ parse_url base = Some address /\ u = address ++ lit "?" ++ q /\
    forall l, form_query q l <-> l = [(lit "job_name", StoreModel.b_job b); (lit "limit", lit "500"); (lit "result", lit "SUCCESS")].
Proof.
  intros b u F H. unfold samples_url in H. destruct (join_url _ _) as [base|] eqn:J; [|discriminate]. destruct (parse_url base) as [address|] eqn:P; [|discriminate]. injection H as <-.
  exists base, address. eexists. csplit; [reflexivity|exact P|reflexivity|].
  assert (Q : form_query (form_pairs [(lit "job_name", StoreModel.b_job b); (lit "limit", lit "500"); (lit "result", lit "SUCCESS")]) [(lit "job_name", StoreModel.b_job b); (lit "limit", lit "500"); (lit "result", lit "SUCCESS")]).
  { apply form_pairs_query; [discriminate|]. assert (L : forall s : bytes, forallb (fun c => c <? 256) s = true -> Forall (fun c => c < 256) s).
    { intros s Hs. apply Forall_forall. intros c Hc. rewrite forallb_forall in Hs. apply N.ltb_lt. now apply Hs. }
    constructor; [split; [now apply L|exact F]|]. constructor; [split; now apply L|]. constructor; [split; now apply L|constructor]. }
  intros l. split; [intros H; symmetry; exact (query_one _ _ Q _ H)|now intros ->].
Qed.

(** ** Answers *)
(** What is decoded is what the answer shows. *)
Theorem C96_decoded : forall v x, answer_of_json v = Some x <-> shows v x.
Proof.
  intros v x. unfold BuildModel.answer_of_json. split.
  - intros H. destruct v as [| | | | | |f]; try discriminate.
    destruct (build_of_json parse_url (parse_day day_of parse_time) (JObj f)) as [b|] eqn:B; [|discriminate]. cbn [ZuulApiModel.bind] in H.
    destruct (str_field (lit "job_name") f) as [job|] eqn:J; [|discriminate]. destruct (str_field (lit "result") f) as [result|] eqn:R; [|discriminate].
    destruct (str_field (lit "end_time") f) as [d|] eqn:E; [|discriminate]. cbn [ZuulApiModel.bind] in H. destruct (parse_time d) as [e|] eqn:T; [|discriminate]. injection H as <-.
    destruct (proj1 (C68_accepted parse_url (parse_day day_of parse_time) (JObj f)) (ex_intro _ _ B)) as (f' & [= <-] & D).
    destruct (C68_decoded _ _ _ _ B) as (H1 & H2 & H3 & H4 & H5 & (d' & H6 & H6') & H7 & H8 & H9). apply str_field_has in J, R, E.
    exists f. cbn [a_build a_job a_result a_end]. csplit; auto; [eauto|]. assert (d = d') as -> by (pose proof (has_one _ _ _ _ E H6); congruence).
    unfold parse_day in H6'. rewrite T in H6'. cbn in H6'. congruence.
  - intros (f & -> & D & H1 & HJ & H2 & H3 & HR & H4 & H5 & (d & HE & HT) & HD & H7 & H8 & H9).
    destruct (proj2 (C68_accepted parse_url (parse_day day_of parse_time) (JObj f)) (ex_intro _ f (conj eq_refl D))) as (b & B). rewrite B. cbn [ZuulApiModel.bind].
    destruct (C68_decoded _ _ _ _ B) as (K1 & K2 & K3 & K4 & K5 & (d' & K6 & K6') & K7 & K8 & K9). apply str_field_has in HJ, HR. rewrite HJ, HR. cbn [ZuulApiModel.bind].
    assert (d' = d) as -> by (pose proof (has_one _ _ _ _ K6 HE); congruence). apply str_field_has in HE. rewrite HE. cbn [ZuulApiModel.bind]. rewrite HT. cbn [ZuulApiModel.bind]. f_equal.
    destruct x as [b0 job result e]. cbn [a_build a_job a_result a_end] in *. f_equal.
    unfold parse_day in K6'. rewrite HT in K6'. cbn in K6'.
    apply (optional_one _ _ _ _ _ eq_refl K7) in H7. apply (optional_one _ _ _ _ _ eq_refl K8) in H8.
    pose proof (has_one _ _ _ _ K1 H1) as Q1. pose proof (has_one _ _ _ _ K2 H2) as Q2. pose proof (has_one _ _ _ _ K3 H3) as Q3. pose proof (has_one _ _ _ _ K4 H4) as Q4. pose proof (has_one _ _ _ _ K5 H5) as Q5.
    assert (Q9 : ZuulModel.b_change b = ZuulModel.b_change b0).
    { destruct (ZuulModel.b_change b) as [c|], (ZuulModel.b_change b0) as [c'|]; [| | |reflexivity].
      - destruct K9 as [K9 _], H9 as [H9 _]. pose proof (has_one _ _ _ _ K9 H9) as Q. injection Q as Q. f_equal. lia.
      - destruct K9 as [K9 _], H9 as [L|H9]; [exfalso; exact (has_lacks _ _ _ K9 L)|]. now pose proof (has_one _ _ _ _ K9 H9).
      - destruct H9 as [H9 _]. destruct K9 as [L|K0]; [exfalso; exact (has_lacks _ _ _ H9 L)|]. now pose proof (has_one _ _ _ _ K0 H9). }
    destruct b, b0. cbn in *. congruence.
Qed.
Lemma new_build_about a x (b : build) : new_build a x = Val b <-> about a x b.
Proof.
  unfold new_build, about. split.
  - destruct (ZuulModel.b_log_url (a_build x)), (ZuulModel.b_ref_url (a_build x)), (ZuulModel.b_change (a_build x)); try discriminate. intros [= <-]. cbn. csplit; reflexivity.
  - intros (<- & H1 & H2 & H3 & H4 & H5 & H6 & <- & <- & H7 & <-). destruct b. cbn in *. congruence.
Qed.
Lemma new_content_about a x c : new_content a x = Val c <-> exists b : build, c = CZuul b /\ about a x b.
Proof.
  unfold new_content. pose proof (new_build_about a x) as N. destruct (new_build a x) as [b|e|].
  - split; [intros [= <-]; exists b; split; [reflexivity|now apply N]|]. intros (b' & -> & H). apply N in H. congruence.
  - split; [discriminate|]. intros (b' & _ & H). apply N in H. discriminate.
  - split; [discriminate|]. intros (b' & _ & H). apply N in H. discriminate.
Qed.

(** ** The build of a page *)
Lemma occurrence_one p s b b' : first_occurrence p s b -> first_occurrence p s b' -> b = b'.
Proof. intros [O L] [O' L']. eapply occurs_same_length; eauto. specialize (L _ O'). specialize (L' _ O). lia. Qed.
Lemma last_one p s b b' : last_occurrence p s b -> last_occurrence p s b' -> b = b'.
Proof. intros [O L] [O' L']. eapply occurs_same_length; eauto. specialize (L _ O'). specialize (L' _ O). lia. Qed.
Lemma tenant_one u p t p' t' uid : tenant_path (upath u) p t uid -> tenant_path (upath u) p' t' uid -> t = t'.
Proof.
  intros T T'. apply tenant_segments in T, T'. rewrite T in T'. injection T' as E. apply (f_equal (@rev _)) in E. rewrite !rev_app_distr in E. cbn [rev app] in E. congruence.
Qed.
Lemma api_of_ok u a uid : get_zuul_api_url parse_url u = Some (Val (a, uid)) <-> api_of parse_url u a uid.
Proof.
  split.
  - intros H. destruct (C53_uid _ _ _ _ H) as (pre & BP). destruct (C53_exact parse_url u pre uid BP) as (base & address & S & E). rewrite E in H.
    destruct (parse_url address) as [a'|] eqn:P; [|discriminate]. injection H as <-. exists base, address. split; [|exact P]. destruct S as [S|S]; [now left|right; split; [eauto|exact S]].
  - intros (base & address & S & P).
    assert (B : exists pre, build_path (upath u) pre uid) by (destruct S as [(p & t & (T & _) & _)|(B & _)]; eauto).
    destruct B as (pre & BP). destruct (C53_exact parse_url u pre uid BP) as (base' & address' & S' & E). rewrite E. assert (address' = address) as -> by
      (destruct S as [(p & t & T & O & ->)|(_ & N & O & ->)], S' as [(p' & t' & T' & O' & ->)|(N' & O' & ->)]; [|exfalso; eapply N'; eauto|exfalso; eapply N; eauto|];
       [rewrite (tenant_one _ _ _ _ _ _ T T'), (occurrence_one _ _ _ _ O O')|rewrite (last_one _ _ _ _ O O')]; reflexivity).
    now rewrite P.
Qed.
(** The build of a page is what the api at the address of the page says of it. *)
Theorem C96_target : forall u b, from_zuul_url u = Some (Val (CZuul b)) <-> page_build u b.
Proof.
  intros u b. unfold BuildModel.from_zuul_url, BuildSpec.page_build. split.
  - intros H. destruct (get_zuul_api_url parse_url (parts u)) as [[[a uid]|e|]|] eqn:G; try discriminate. apply api_of_ok in G. unfold get_build in H.
    destruct (join_url a (lit "build/")) as [base|] eqn:J1; [|discriminate]. destruct (join_url base uid) as [address|] eqn:J2; [|discriminate]. destruct (get a address) as [v|e|] eqn:V; try discriminate.
    destruct (answer_of_json v) as [x|] eqn:X; [|discriminate]. apply C96_decoded in X. injection H as H. apply new_content_about in H. destruct H as (b' & [= <-] & A). eauto 15.
  - intros (a & uid & base & address & v & x & G & J1 & J2 & V & X & A). apply api_of_ok in G. rewrite G. unfold get_build. rewrite J1, J2, V. apply C96_decoded in X. rewrite X. f_equal. apply new_content_about. eauto.
Qed.
(** A page is the page of a build exactly if its path ends with build/ and 32 letters and digits. *)
Theorem C96_pages : forall u, from_zuul_url u = None <-> ~ exists pre uid, build_path (upath (parts u)) pre uid.
Proof.
  intros u. rewrite <- (C53_recognised parse_url). unfold BuildModel.from_zuul_url. destruct (get_zuul_api_url parse_url (parts u)) as [[[a uid]|e|]|]; split; try discriminate; try reflexivity; intros H; try (exfalso; apply H; discriminate).
  intros N. now apply N.
Qed.
(** Every content made from a page is a build. *)
Lemma page_content u c : from_zuul_url u = Some (Val c) -> exists b, c = CZuul b.
Proof.
  intros H. unfold BuildModel.from_zuul_url in H. destruct (get_zuul_api_url parse_url (parts u)) as [[[a uid]|e|]|]; try discriminate. destruct (get_build _ _ _ _ _ a uid) as [x|e|]; try discriminate.
  injection H as H. apply new_content_about in H. destruct H as (b & -> & _). eauto.
Qed.

(** ** The sample *)
Notation scores := (BuildModel.scores day_of today).
Notation place := (@BuildModel.place Date).
Notation by_score := (@BuildModel.by_score Date).
Lemma scores_in b s x : forall l, In (s, x) (scores b l) <-> In x l /\ ZuulModel.b_uuid (a_build x) <> StoreModel.b_uuid b /\ baseline_score (zuul_of day_of b) (a_build x) today = Some s.
Proof.
  induction l as [|y l IH]; cbn [BuildModel.scores]; [cbn; tauto|]. destruct (baseline_score (zuul_of day_of b) (a_build y) today) as [sy|] eqn:E.
  - destruct (eqb_list (StoreModel.b_uuid b) (ZuulModel.b_uuid (a_build y))) eqn:U.
    + apply eqb_list_spec in U. rewrite IH. cbn [In]. intuition congruence.
    + assert (ZuulModel.b_uuid (a_build y) <> StoreModel.b_uuid b) by (intros Q; rewrite Q, eqb_list_refl in U; discriminate).
      cbn [In]. rewrite IH. split; [intros [Q|Q]; [injection Q as <- <-|]; intuition congruence|intros ([->|Q] & Q1 & Q2); [left; congruence|auto]].
  - rewrite IH. cbn [In]. intuition congruence.
Qed.
Lemma scores_split b s x p2 : forall l p1, scores b l = p1 ++ (s, x) :: p2 -> exists l1 l2, l = l1 ++ x :: l2 /\ scores b l1 = p1 /\ scores b l2 = p2.
Proof.
  induction l as [|y l IH]; intros p1 H; cbn [BuildModel.scores] in H; [destruct p1; discriminate|].
  destruct (baseline_score (zuul_of day_of b) (a_build y) today) as [sy|] eqn:E; [destruct (eqb_list (StoreModel.b_uuid b) (ZuulModel.b_uuid (a_build y))) eqn:U|].
  - destruct (IH _ H) as (l1 & l2 & -> & H1 & H2). exists (y :: l1), l2. cbn [BuildModel.scores app]. now rewrite E, U.
  - destruct p1 as [|z p1]; cbn [app] in H.
    + injection H as -> -> <-. exists [], l. auto.
    + injection H as <- H. destruct (IH _ H) as (l1 & l2 & -> & H1 & H2). exists (y :: l1), l2. cbn [BuildModel.scores app]. now rewrite E, U, H1.
  - destruct (IH _ H) as (l1 & l2 & -> & H1 & H2). exists (y :: l1), l2. cbn [BuildModel.scores app]. now rewrite E.
Qed.
(** The first accepted element of the sorted list is the first of the best ones. *)
Section Sort.
Open Scope Z_scope.
Variable P : Z * answer -> bool.
Fixpoint down (l : list (Z * answer)) : Prop :=
  match l with [] => True | x :: r => (forall y, In y r -> fst y <= fst x) /\ down r end.
Lemma place_in x y l : In y (place x l) <-> y = x \/ In y l.
Proof. induction l as [|z l IH]; cbn; [intuition congruence|]. destruct (fst z <=? fst x); cbn; [|rewrite IH]; intuition congruence. Qed.
Lemma place_down x l : down l -> down (place x l).
Proof.
  induction l as [|z l IH]; cbn; [now intros|]. intros (H & D). destruct (Z.leb_spec (fst z) (fst x)).
  - cbn. split; [|now split]. intros y [<-|Hy]; [exact H0|]. specialize (H _ Hy). lia.
  - cbn. split; [|now apply IH]. intros y Hy. apply place_in in Hy. destruct Hy as [->|Hy]; [lia|now apply H].
Qed.
Lemma sort_down l : down (by_score l).
Proof. induction l; cbn; [exact I|now apply place_down]. Qed.
Lemma place_reject x l : P x = false -> filter P (place x l) = filter P l.
Proof. intros H. induction l as [|z l IH]; cbn; [now rewrite H|]. destruct (fst z <=? fst x); cbn; [now rewrite H|]. now rewrite IH. Qed.
Lemma place_accept x l : down l -> P x = true ->
  hd_error (filter P (place x l)) =
  match hd_error (filter P l) with Some y => if fst y <=? fst x then Some x else Some y | None => Some x end.
Proof.
  intros D H. induction l as [|z l IH]; cbn; [now rewrite H|]. cbn in D. destruct D as (M & D). specialize (IH D).
  destruct (Z.leb_spec (fst z) (fst x)).
  - cbn [filter]. rewrite H. cbn. destruct (P z) eqn:Z.
    + cbn. destruct (Z.leb_spec (fst z) (fst x)); [reflexivity|lia].
    + destruct (hd_error (filter P l)) as [y|] eqn:Y; [|reflexivity].
      assert (In y l) as Hy. { destruct (filter P l) eqn:F; [discriminate|]. injection Y as ->. assert (In y (filter P l)) as G by (rewrite F; now left). now apply filter_In in G. }
      specialize (M _ Hy). destruct (Z.leb_spec (fst y) (fst x)); [reflexivity|lia].
  - cbn [filter]. destruct (P z) eqn:Z.
    + cbn. destruct (Z.leb_spec (fst z) (fst x)); [lia|reflexivity].
    + exact IH.
Qed.
Lemma first_best l :
  match hd_error (filter P (by_score l)) with
  | None => forall y, In y l -> P y = false
  | Some x => P x = true /\ exists l1 l2, l = l1 ++ x :: l2 /\ (forall y, In y l1 -> P y = true -> fst y < fst x) /\ (forall y, In y l2 -> P y = true -> fst y <= fst x)
  end.
Proof.
  induction l as [|x l IH]; cbn; [intros ? []|]. fold (by_score l). destruct (P x) eqn:Px.
  - rewrite place_accept by (auto using sort_down). destruct (hd_error (filter P (by_score l))) as [y|].
    + destruct IH as (Py & l1 & l2 & -> & H1 & H2). destruct (Z.leb_spec (fst y) (fst x)).
      * split; [exact Px|]. exists [], (l1 ++ y :: l2). split; [reflexivity|]. split; [intros ? []|].
        intros z Hz Pz. apply in_app_or in Hz. destruct Hz as [Hz|[<-|Hz]]; [specialize (H1 _ Hz Pz)| |specialize (H2 _ Hz Pz)]; lia.
      * split; [exact Py|]. exists (x :: l1), l2. split; [reflexivity|]. split; [|exact H2]. intros z [<-|Hz] Pz; auto.
    + split; [exact Px|]. exists [], l. split; [reflexivity|]. split; [intros ? []|]. intros z Hz Pz. rewrite IH in Pz by exact Hz. discriminate.
  - rewrite place_reject by exact Px. destruct (hd_error (filter P (by_score l))) as [y|].
    + destruct IH as (Py & l1 & l2 & -> & H1 & H2). split; [exact Py|]. exists (x :: l1), l2. split; [reflexivity|]. split; [|exact H2].
      intros z [<-|Hz] Pz; [congruence|auto].
    + intros y [<-|Hy]; auto.
Qed.
End Sort.

Lemma available_ok x : logs_available head x = true <-> available head x.
Proof.
  unfold logs_available, available. destruct (ZuulModel.b_log_url x) as [u|]; [|split; [discriminate|intros (u & E & _); discriminate]].
  split; [intros H; exists u; split; [reflexivity|]; destruct (head u) as [n|e|]; congruence|]. intros (u' & [= <-] & H). now rewrite H.
Qed.
Lemma candidate_ok b s x l : In (s, x) (scores b l) /\ logs_available head (a_build x) = true <-> In x l /\ candidate b x /\ sample_points b x s.
Proof.
  rewrite scores_in, score_spec, available_ok. unfold BuildSpec.candidate, BuildSpec.sample_points. cbn [zuul_of project].
  split; [tauto|]. intros (I & (U & A & R & C) & P). csplit; auto. destruct A as (u & -> & _). discriminate.
Qed.
Lemma sample_points_exist b x : candidate b x -> exists s, sample_points b x s.
Proof.
  intros (U & A & R & C). destruct (points_exist (logs_available head) (zuul_of day_of b) today (a_build x)) as (s & P); [|now exists s].
  apply available_ok in A as A'. unfold ZuulSpec.eligible. csplit; auto. destruct A as (u & -> & _). discriminate.
Qed.
(** The samples that can be decoded, in the order of the answer *)
Lemma decoded_in x : forall vs, In x (filter_map answer_of_json vs) <-> exists v, In v vs /\ shows v x.
Proof.
  induction vs as [|v vs IH]; cbn [filter_map]; [split; [intros []|intros (v & [] & _)]|].
  assert (G : (exists v', In v' (v :: vs) /\ shows v' x) <-> shows v x \/ exists v', In v' vs /\ shows v' x).
  { cbn [In]. split; [intros (v' & [<-|I] & S); eauto|intros [S|(v' & I & S)]; eauto]. }
  rewrite G, <- IH, <- C96_decoded. destruct (answer_of_json v) as [y|]; cbn [In]; [|intuition discriminate]. split; (intros [Q|Q]; [left; congruence|tauto]).
Qed.
Lemma decoded_split x l2 : forall vs l1, filter_map answer_of_json vs = l1 ++ x :: l2 ->
  exists v1 v v2, vs = v1 ++ v :: v2 /\ shows v x /\ filter_map answer_of_json v1 = l1 /\ filter_map answer_of_json v2 = l2.
Proof.
  induction vs as [|v vs IH]; intros l1 H; cbn [filter_map] in H; [destruct l1; discriminate|]. destruct (answer_of_json v) as [y|] eqn:E.
  - destruct l1 as [|z l1]; cbn [app] in H.
    + injection H as -> <-. exists [], v, vs. csplit; auto. now apply C96_decoded.
    + injection H as <- H. destruct (IH _ H) as (v1 & w & v2 & -> & S & E1 & E2). exists (v :: v1), w, v2. cbn [filter_map app]. rewrite E, E1. auto.
  - destruct (IH _ H) as (v1 & w & v2 & -> & S & E1 & E2). exists (v :: v1), w, v2. cbn [filter_map app]. rewrite E. auto.
Qed.
(** There is no candidate, or the best one is taken. *)
Lemma sample_found b vs :
  match hd_error (filter (fun p => logs_available head (a_build (snd p))) (by_score (scores b (filter_map answer_of_json vs)))) with
  | None => forall v x, In v vs -> shows v x -> ~ candidate b x
  | Some (_, x) => best_sample b vs x
  end.
Proof.
  pose proof (first_best (fun p => logs_available head (a_build (snd p))) (scores b (filter_map answer_of_json vs))) as B. destruct (hd_error _) as [[s x]|].
  - destruct B as (A & p1 & p2 & E & H1 & H2). cbn [snd] in A. destruct (scores_split _ _ _ _ _ _ E) as (l1 & l2 & El & E1 & E2).
    assert (I : In x (l1 ++ x :: l2) /\ candidate b x /\ sample_points b x s) by (rewrite <- El; apply candidate_ok; split; [rewrite E; apply in_or_app; right; now left|exact A]).
    destruct I as (_ & C & P). destruct (decoded_split _ _ _ _ El) as (v1 & v & v2 & -> & S & D1 & D2). exists v1, v, v2, s. csplit; auto; intros v' x' s' I' S' C' P'.
    + assert (J : In x' l1) by (rewrite <- D1; apply decoded_in; eauto). destruct (proj2 (candidate_ok b s' x' l1) (conj J (conj C' P'))) as (K & A'). rewrite E1 in K. apply (H1 _ K A').
    + assert (J : In x' l2) by (rewrite <- D2; apply decoded_in; eauto). destruct (proj2 (candidate_ok b s' x' l2) (conj J (conj C' P'))) as (K & A'). rewrite E2 in K. apply (H2 _ K A').
  - intros v x I S C. destruct (sample_points_exist b x C) as (s & P). assert (J : In x (filter_map answer_of_json vs)) by (apply decoded_in; eauto).
    destruct (proj2 (candidate_ok b s x _) (conj J (conj C P))) as (K & A'). specialize (B _ K). cbn in B. congruence.
Qed.
Lemma shows_one v x x' : shows v x -> shows v x' -> x = x'.
Proof. rewrite <- !C96_decoded. congruence. Qed.
(** There is one best sample. *)
Lemma best_one b vs x x' : best_sample b vs x -> best_sample b vs x' -> x = x'.
Proof.
  intros (l1 & v & l2 & s & -> & S & C & P & H1 & H2) (l1' & v' & l2' & s' & E' & S' & C' & P' & H1' & H2').
  revert l1' E' H1'. induction l1 as [|y l1 IH]; intros [|y' l1'] E' H1'; cbn [app] in E'.
  - injection E' as <- <-. eapply shows_one; eauto.
  - injection E' as <- ->. assert (s < s')%Z by (exact (H1' _ _ _ (or_introl eq_refl) S C P)).
    assert (s' <= s)%Z by (refine (H2 _ _ _ _ S' C' P'); apply in_or_app; right; now left). lia.
  - injection E' as -> <-. assert (s' < s)%Z by (exact (H1 _ _ _ (or_introl eq_refl) S' C' P')).
    assert (s <= s')%Z by (refine (H2' _ _ _ _ S C P); apply in_or_app; right; now left). lia.
  - injection E' as -> E'. apply (IH (fun w a t I => H1 w a t (or_intror I)) l1' E' (fun w a t I => H1' w a t (or_intror I))).
Qed.
Lemma samples_ok (b : build) vs : samples b vs <-> exists u, samples_url parse_url join_url b = Val u /\ get (StoreModel.b_api b) u = Val (JArr vs).
Proof.
  unfold BuildSpec.samples, samples_url. split.
  - intros (base & address & J & P & G). rewrite J, P. eauto.
  - intros (u & H & G). destruct (join_url _ _) as [base|]; [|discriminate]. destruct (parse_url base) as [address|] eqn:P; [|discriminate]. injection H as <-. eauto 8.
Qed.
Lemma samples_one (b : build) vs vs' : samples b vs -> samples b vs' -> vs = vs'.
Proof. rewrite !samples_ok. intros (u & E & G) (u' & E' & G'). congruence. Qed.
Lemma baselines_of b vs : samples b vs -> zuul_baselines b =
  match hd_error (filter (fun p => logs_available head (a_build (snd p))) (by_score (scores b (filter_map answer_of_json vs)))) with
  | None => Val []
  | Some (_, x) => match new_content (StoreModel.b_api b) x with Val c => Val [c] | Fail e => Fail e | Panic => Panic end
  end.
Proof.
  rewrite samples_ok. intros (u & E & G). unfold BuildModel.zuul_baselines. rewrite E. unfold get_builds. rewrite G, first_one. destruct (hd_error _) as [[s x]|]; [|reflexivity].
  cbn [collect_contents]. now destruct (new_content _ x).
Qed.
Lemma baselines_samples b l : zuul_baselines b = Val l -> exists vs, samples b vs.
Proof.
  unfold BuildModel.zuul_baselines. intros H. destruct (samples_url _ _ b) as [u|e|] eqn:E; try discriminate. unfold get_builds in H. destruct (get _ u) as [v|e|] eqn:G; try discriminate.
  destruct v as [| | | | |vs|]; try discriminate. exists vs. apply samples_ok. eauto.
Qed.
(** The baseline that is found for a build is the best of the samples that the api gives for it, with all
    that the api says of it, and there is no other. *)
Theorem C96_baseline : forall b c l, zuul_baselines b = Val (c :: l) <-> l = [] /\ exists b', c = CZuul b' /\ found_for b b'.
Proof.
  intros b c l. split.
  - intros H. destruct (baselines_samples _ _ H) as (vs & V). rewrite (baselines_of _ _ V) in H. pose proof (sample_found b vs) as B. destruct (hd_error _) as [[s x]|]; [|discriminate].
    destruct (new_content _ x) as [c'|e|] eqn:N; try discriminate. injection H as -> <-. split; [reflexivity|]. apply new_content_about in N. destruct N as (b' & -> & A). exists b'. split; [reflexivity|]. exists vs, x. auto.
  - intros (-> & b' & -> & vs & x & V & B & A). rewrite (baselines_of _ _ V). pose proof (sample_found b vs) as B'. destruct (hd_error _) as [[s x']|].
    + rewrite (best_one _ _ _ _ B' B). assert (N : new_content (StoreModel.b_api b) x = Val (CZuul b')) by (apply new_content_about; eauto). now rewrite N.
    + exfalso. destruct B as (v1 & v & v2 & s & -> & S & C & _). refine (B' v x _ S C). apply in_or_app. right. now left.
Qed.
(** No baseline is found exactly if the api answers and none of its samples is a candidate. *)
Theorem C96_none : forall b, zuul_baselines b = Val [] <-> exists vs, samples b vs /\ forall v x, In v vs -> shows v x -> ~ candidate b x.
Proof.
  intros b. split.
  - intros H. destruct (baselines_samples _ _ H) as (vs & V). exists vs. split; [exact V|]. rewrite (baselines_of _ _ V) in H. pose proof (sample_found b vs) as B. destruct (hd_error _) as [[s x]|]; [|exact B].
    destruct (new_content _ x); discriminate.
  - intros (vs & V & N). rewrite (baselines_of _ _ V). pose proof (sample_found b vs) as B. destruct (hd_error _) as [[s x]|]; [|reflexivity].
    exfalso. destruct B as (v1 & v & v2 & t & -> & S & C & _). refine (N v x _ S C). apply in_or_app. right. now left.
Qed.
(** The program is stopped exactly if the best sample has no change: it is then of another project. *)
Theorem C96_stopped : forall b : build, (forall u, get (StoreModel.b_api b) u <> Panic) -> zuul_baselines b = Panic <->
  exists vs x, samples b vs /\ best_sample b vs x /\ ZuulModel.b_change (a_build x) = None.
Proof.
  intros b NP. assert (NC : forall x, candidate b x -> new_content (StoreModel.b_api b) x = Panic <-> ZuulModel.b_change (a_build x) = None).
  { intros x (_ & (u & U & _) & R & _). unfold new_content, new_build. rewrite U. destruct (ZuulModel.b_ref_url (a_build x)); [|congruence]. destruct (ZuulModel.b_change (a_build x)); split; congruence. }
  assert (CB : forall vs x, best_sample b vs x -> candidate b x) by (intros vs x (v1 & v & v2 & s & _ & _ & C & _); exact C).
  split.
  - intros H. destruct (samples_url parse_url join_url b) as [u|e|] eqn:E; [|unfold BuildModel.zuul_baselines in H; rewrite E in H; discriminate|unfold samples_url in E; destruct (join_url _ _) as [base|]; [destruct (parse_url base)|]; discriminate].
    assert (V : exists vs, samples b vs).
    { unfold BuildModel.zuul_baselines in H. rewrite E in H. unfold get_builds in H. destruct (get _ u) as [v|e|] eqn:G; [|discriminate|exfalso; now apply (NP u)]. destruct v as [| | | | |vs|]; try discriminate. exists vs. apply samples_ok. eauto. }
    destruct V as (vs & V). rewrite (baselines_of _ _ V) in H. pose proof (sample_found b vs) as B. destruct (hd_error _) as [[s x]|]; [|discriminate]. exists vs, x. csplit; auto. apply (NC _ (CB _ _ B)).
    destruct (new_content _ x); congruence.
  - intros (vs & x & V & B & N). rewrite (baselines_of _ _ V). pose proof (sample_found b vs) as B'. destruct (hd_error _) as [[s x']|].
    + rewrite (best_one _ _ _ _ B' B). apply (NC _ (CB _ _ B)) in N. now rewrite N.
    + exfalso. pose proof (CB _ _ B) as C. destruct B as (v1 & v & v2 & s & -> & S & _). refine (B' v x _ S C). apply in_or_app. right. now left.
Qed.

(** ** The messages *)
Notation unavailable := (BuildSpec.unavailable head).
Lemma sort_in y l : In y (by_score l) <-> In y l.
Proof. induction l as [|x l IH]; [tauto|]. unfold BuildModel.by_score in *. cbn [fold_right]. rewrite (place_in (fun _ => true)), IH. cbn [In]. intuition congruence. Qed.
Definition fails (x : answer) (m : bytes) : Prop := exists u e, ZuulModel.b_log_url (a_build x) = Some u /\ head u = Fail e /\ m = lit "Skipping build because logs are not available " ++ e ++ lit " url=" ++ u.
Lemma skipping_in m : (forall u, head u <> Panic) -> forall l, In m (skipping head l) <->
  exists l1 s x l2, l = l1 ++ (s, x) :: l2 /\ fails x m /\ forall p, In p l1 -> logs_available head (a_build (snd p)) = false.
Proof.
  intros NP. induction l as [|[s x] l IH].
  - split; [intros []|]. intros (l1 & s & x & l2 & E & _). destruct l1; discriminate.
  - assert (Skip : logs_available head (a_build x) = false -> ~ fails x m -> (In m (skipping head l) <-> exists l1 s' x' l2, (s, x) :: l = l1 ++ (s', x') :: l2 /\ fails x' m /\ forall p, In p l1 -> logs_available head (a_build (snd p)) = false)).
    { intros A F. rewrite IH. split.
      - intros (l1 & s' & x' & l2 & -> & F' & A'). exists ((s, x) :: l1), s', x', l2. csplit; auto. intros p [<-|Hp]; auto.
      - intros (l1 & s' & x' & l2 & E & F' & A'). destruct l1 as [|q l1]; cbn [app] in E; injection E as E1 E2; [congruence|]. exists l1, s', x', l2. csplit; auto. intros p Hp. apply A'. now right. }
    cbn [skipping]. unfold fails, logs_available in Skip. destruct (ZuulModel.b_log_url (a_build x)) as [u|] eqn:U.
    + destruct (head u) as [[]|e|] eqn:Hh; [| | |now apply NP in Hh].
      * split; [intros []|]. intros (l1 & s' & x' & l2 & E & (u' & e & U' & H' & _) & A'). destruct l1 as [|q l1]; cbn [app] in E; injection E as E1 E2; [congruence|].
        subst q. specialize (A' _ (or_introl eq_refl)). cbn [snd] in A'. unfold logs_available in A'. rewrite U, Hh in A'. discriminate.
      * apply Skip; [reflexivity|]. intros (u' & e & [= <-] & H' & _). congruence.
      * cbn [In]. split.
        -- intros [<-|I].
           ++ exists [], s, x, l. csplit; [reflexivity|exists u, e; auto|intros ? []].
           ++ apply IH in I. destruct I as (l1 & s' & x' & l2 & -> & F' & A'). exists ((s, x) :: l1), s', x', l2. csplit; auto. intros p [<-|Hp]; [|auto]. cbn [snd]. unfold logs_available. now rewrite U, Hh.
        -- intros (l1 & s' & x' & l2 & E & F' & A'). destruct l1 as [|q l1]; cbn [app] in E; injection E as E1 E2.
           ++ left. subst s' x'. destruct F' as (u' & e' & U' & H' & ->). rewrite U in U'. injection U' as <-. rewrite Hh in H'. injection H' as <-. reflexivity.
           ++ right. apply IH. exists l1, s', x', l2. csplit; auto. intros p Hp. apply A'. now right.
    + apply Skip; [reflexivity|]. intros (u' & e & H' & _). discriminate.
Qed.
Lemma down_split : forall l1 x l2, down (l1 ++ x :: l2) -> (forall y, In y l1 -> (fst x <= fst y)%Z) /\ (forall y, In y l2 -> (fst y <= fst x)%Z).
Proof.
  induction l1 as [|z l1 IH]; cbn [app down]; intros x l2 [H D]; [split; [intros ? []|exact H]|]. destruct (IH _ _ D) as [H1 H2]. split; [|exact H2].
  intros y [<-|Hy]; [apply H, in_or_app; right; now left|auto].
Qed.
(** What is said: first the build and the question for its samples; then, for samples that would have been
    candidates, that their logs are not available.  A sample that is said to be skipped has at least the
    points of the best one, and one with more points is said to be skipped. *)
Theorem C96_messages : forall (b : build) vs u, (forall u, head u <> Panic) -> samples b vs -> samples_url parse_url join_url b = Val u ->
  exists rest, zuul_says b = (lit "Discovering baselines for " ++ StoreModel.b_api b ++ lit "build/" ++ StoreModel.b_uuid b ++ lit " url=" ++ u) :: rest /\
    (forall m, In m rest -> exists v x s, In v vs /\ shows v x /\ unavailable b x m /\ sample_points b x s /\ forall y t, best_sample b vs y -> sample_points b y t -> (t <= s)%Z) /\
    (forall v x m s, In v vs -> shows v x -> unavailable b x m -> sample_points b x s -> (forall y t, best_sample b vs y -> sample_points b y t -> (t < s)%Z) -> In m rest).
Proof.
  intros b vs u NP V E. apply samples_ok in V as V'. destruct V' as (u' & E' & G). rewrite E in E'. injection E' as <-.
  exists (skipping head (by_score (scores b (filter_map answer_of_json vs)))). set (L := by_score (scores b (filter_map answer_of_json vs))).
  assert (DL : down L) by exact (sort_down (fun _ => true) _).
  assert (BL : forall y t, best_sample b vs y -> sample_points b y t -> In (t, y) L /\ logs_available head (a_build y) = true).
  { intros y t (v1 & v & v2 & s & -> & S & C & _) P. unfold L. rewrite sort_in. apply candidate_ok. csplit; auto. apply decoded_in. exists v. split; [apply in_or_app; right; now left|exact S]. }
  split; [|split].
  - unfold BuildModel.zuul_says. rewrite E. unfold searching, get_builds. now rewrite G.
  - intros m I. apply skipping_in in I; [|exact NP]. destruct I as (l1 & s & x & l2 & EL & (lu & e & U & H & ->) & A).
    assert (IL : In (s, x) L) by (rewrite EL; apply in_or_app; right; now left). unfold L in IL. rewrite sort_in, scores_in, score_spec in IL. destruct IL as (I & N & P & _ & R & C). apply decoded_in in I. destruct I as (v & I & S).
    exists v, x, s. csplit; auto; [exists lu, e; csplit; auto|]. intros y t B Pt. destruct (BL _ _ B Pt) as [IL AL]. rewrite EL in IL, DL. apply down_split in DL. apply in_app_or in IL. destruct IL as [IL|[IL|IL]].
    + specialize (A _ IL). cbn [snd] in A. congruence.
    + injection IL as <- <-. unfold logs_available in AL. rewrite U, H in AL. discriminate.
    + apply (proj2 DL) in IL. exact IL.
  - intros v x m s I S (lu & e & N & U & H & R & C & ->) P M. apply skipping_in; [exact NP|].
    assert (IL : In (s, x) L).
    { unfold L. rewrite sort_in, scores_in, score_spec. csplit; auto; [apply decoded_in; eauto|congruence]. }
    apply in_split in IL. destruct IL as (l1 & l2 & EL). exists l1, s, x, l2. csplit; [exact EL|exists lu, e; auto|].
    intros [t y] Hy. cbn [snd]. destruct (logs_available head (a_build y)) eqn:A; [exfalso|reflexivity]. rewrite EL in DL. apply down_split in DL. apply (proj1 DL) in Hy as Hst. cbn [fst] in Hst.
    assert (Iy : In (t, y) (scores b (filter_map answer_of_json vs))) by (apply sort_in; fold L; rewrite EL; apply in_or_app; now left).
    destruct (proj1 (candidate_ok b t y _) (conj Iy A)) as (Jy & Cy & Py). apply decoded_in in Jy. destruct Jy as (w & Iw & Sw).
    pose proof (sample_found b vs) as B. destruct (hd_error _) as [[t' z]|]; [|exact (B _ _ Iw Sw Cy)].
    pose proof B as (v1 & v' & v2 & t2 & -> & Sz & Cz & Pz & M1 & M2). specialize (M _ _ B Pz). apply in_app_or in Iw. destruct Iw as [Iw|[<-|Iw]].
    + specialize (M1 _ _ _ Iw Sw Cy Py). lia.
    + rewrite <- (shows_one _ _ _ Sz Sw) in Py. assert (F : forall a c, sample_points b z a -> sample_points b z c -> a = c).
      { intros a c Pa Pc. destruct Cz as (_ & (lz & Uz & _) & Rz & Chz). assert (X : forall a, sample_points b z a -> baseline_score (zuul_of day_of b) (a_build z) today = Some a) by (intros a0 Pa0; apply score_spec; csplit; auto; congruence).
        apply X in Pa, Pc. congruence. }
      rewrite (F _ _ Py Pz) in Hst. lia.
    + specialize (M2 _ _ _ Iw Sw Cy Py). lia.
Qed.
End Build.

(** ** A case that meets the hypotheses *)
(** A server with a build and the samples of its job: the build itself, one that cannot be decoded, one
    whose logs cannot be reached, two with logs. *)
Definition ex_time (s : text) : option Z := if eqb_list s (lit "2023-04-02T10:00:00") then Some 19449%Z else if eqb_list s (lit "2023-04-01T10:00:00") then Some 19448%Z else None.
Definition ex_json (uid pipeline time logs : text) (change : N) : json := JObj
  [(lit "uuid", JStr uid); (lit "job_name", JStr (lit "tox py38")); (lit "result", JStr (lit "SUCCESS")); (lit "start_time", JStr time); (lit "end_time", JStr time); (lit "duration", JInt 42);
   (lit "voting", JBool true); (lit "log_url", JStr logs); (lit "ref_url", JStr (lit "https://review/1")); (lit "artifacts", JArr []); (lit "project", JStr (lit "zuul/zuul")); (lit "branch", JStr (lit "master"));
   (lit "pipeline", JStr pipeline); (lit "change", JInt (Z.of_N change)); (lit "ref", JStr (lit "refs/1")); (lit "event_id", JStr (lit "e"))].
Definition ex_parts (u : text) : url := {| origin := firstn 12 u; upath := skipn 12 u; suffix := [] |}.
Definition ex_join (base rel : text) : option text := Some (base ++ rel).
Definition ex_uid : text := lit "2498d287ec4b442a95184b7a4bec9b2d".
Definition ex_answers : list json :=
  [ex_json ex_uid (lit "gate") (lit "2023-04-02T10:00:00") (lit "https://logs/2/") 7; JNull; ex_json (lit "gone") (lit "gate") (lit "2023-04-02T10:00:00") (lit "https://logs/0/") 5;
   ex_json (lit "older") (lit "check") (lit "2023-04-01T10:00:00") (lit "https://logs/3/") 5; ex_json (lit "good") (lit "check") (lit "2023-04-02T10:00:00") (lit "https://logs/1/") 6].
Definition ex_get (a u : text) : res json :=
  if eqb_list u (lit "https://zuul/api/build/" ++ ex_uid) then Val (ex_json ex_uid (lit "check") (lit "2023-04-02T10:00:00") (lit "https://logs/2/") 7)
  else if eqb_list u (lit "https://zuul/api/builds?job_name=tox+py38&limit=500&result=SUCCESS") then Val (JArr ex_answers) else Fail (lit "404").
Definition ex_head (u : text) : res bool := if eqb_list u (lit "https://logs/0/") then Fail (lit "timeout") else Val true.
Definition ex_build (uid logs : text) (change : N) : @StoreModel.build Z :=
  mkBuild (lit "https://zuul/api/") uid (lit "tox py38") (lit "zuul/zuul") (lit "master") (lit "SUCCESS") (lit "check") logs (lit "https://review/1") 19449%Z change.
Definition ex_target := ex_build ex_uid (lit "https://logs/2/") 7.
Definition ex_baseline := ex_build (lit "good") (lit "https://logs/1/") 6.
Example C96_example : page_build (fun d => d) ex_time Some ex_parts ex_join ex_get (lit "https://zuul/build/" ++ ex_uid) ex_target /\
  samples Some ex_join ex_get ex_target ex_answers /\ found_for (fun d => d) ex_time Some ex_join ex_get ex_head 19450%Z ex_target ex_baseline /\
  zuul_says (fun d => d) ex_time Some ex_join ex_get ex_head 19450%Z ex_target =
    [lit "Discovering baselines for https://zuul/api/build/2498d287ec4b442a95184b7a4bec9b2d url=https://zuul/api/builds?job_name=tox+py38&limit=500&result=SUCCESS";
     lit "Skipping build because logs are not available timeout url=https://logs/0/"].
Proof.
  csplit.
  - apply C96_target. vm_compute. reflexivity.
  - apply samples_ok. eexists. split; vm_compute; reflexivity.
  - destruct (proj1 (C96_baseline (fun d => d) ex_time Some ex_join ex_get ex_head 19450%Z ex_target (CZuul ex_baseline) []) ltac:(vm_compute; reflexivity)) as (_ & b' & [= <-] & F). exact F.
  - vm_compute. reflexivity.
Qed.
(** Servers whose only sample is the build itself, or a periodic build of another project *)
Definition ex_only (v : json) (a u : text) : res json := Val (JArr [v]).
Definition ex_periodic : json := JObj
  [(lit "uuid", JStr (lit "p")); (lit "job_name", JStr (lit "tox py38")); (lit "result", JStr (lit "SUCCESS")); (lit "start_time", JStr (lit "2023-04-01T10:00:00")); (lit "end_time", JStr (lit "2023-04-01T10:00:00")); (lit "duration", JFloat);
   (lit "voting", JBool true); (lit "log_url", JStr (lit "https://logs/4/")); (lit "ref_url", JStr (lit "https://git/zuul")); (lit "artifacts", JArr []); (lit "project", JStr (lit "zuul/nodepool")); (lit "branch", JStr (lit "master"));
   (lit "pipeline", JStr (lit "periodic")); (lit "change", JNull); (lit "ref", JStr (lit "refs/heads/master")); (lit "event_id", JStr (lit "e"))].
Example C96_example_none : exists vs, samples Some ex_join (ex_only (hd JNull ex_answers)) ex_target vs /\ forall v x, In v vs -> shows (fun d => d) ex_time Some v x -> ~ candidate ex_head ex_target x.
Proof. apply (C96_none (fun d => d) ex_time Some ex_join (ex_only (hd JNull ex_answers)) ex_head 19450%Z ex_target). vm_compute. reflexivity. Qed.
Example C96_example_stopped : exists vs x, samples Some ex_join (ex_only ex_periodic) ex_target vs /\ best_sample (fun d => d) ex_time Some ex_head 19450%Z ex_target vs x /\ ZuulModel.b_change (a_build x) = None.
Proof. apply (C96_stopped (fun d => d) ex_time Some ex_join (ex_only ex_periodic) ex_head 19450%Z ex_target); [discriminate|]. vm_compute. reflexivity. Qed.
(** The query of a job with a space, an ampersand and a letter outside of ASCII *)
Example C96_example_query : form_pairs [(lit "job_name", lit "a b&c" ++ [195; 169]); (lit "limit", lit "500")] = lit "job_name=a+b%26c%C3%A9&limit=500".
Proof. reflexivity. Qed.

Print Assumptions C96_query.
Print Assumptions C96_decoded.
Print Assumptions C96_target.
Print Assumptions C96_pages.
Print Assumptions C96_baseline.
Print Assumptions C96_none.
Print Assumptions C96_stopped.
Print Assumptions C96_messages.
