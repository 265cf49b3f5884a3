(** Properties C51 to C53 and C66: zuul builds. *)
From Coq Require Import String List NArith ZArith PeanoNat Bool Lia.
From Verif Require Import Common CommonFacts FilesModel CrawlModel ZuulModel ZuulSpec ZuulProofs.
Import ListNotations.
Open Scope nat_scope.

(** ** C51: the baseline *)
Section Select.
Variable available : api_build -> bool.
Variable self : build.
Variable now : Z.
Notation eligible := (eligible available self).
Notation points := (points self now).
Notation best := (best available self now).

Lemma in_scored b s l : In (s, b) (scored self now l) /\ available b = true <-> In b l /\ eligible b /\ points b s.
Proof.
  rewrite scored_in, score_spec. unfold ZuulSpec.eligible. tauto.
Qed.
Lemma points_exist b : eligible b -> exists s, points b s.
Proof.
  intros (_ & _ & L & R & C). destruct (baseline_score self b now) as [s|] eqn:E; [apply score_spec in E; exists s; apply E|].
  exfalso. unfold baseline_score in E. destruct (b_log_url b), (b_ref_url b); try congruence. cbn [is_some andb] in E.
  destruct (eqb_list (project self) (b_project b)) eqn:EP; [|discriminate]. apply eqb_list_spec in EP.
  destruct (b_change b); [discriminate|]. now apply C.
Qed.

(** No baseline exactly when no build is eligible; otherwise the best one, the first if several are
    equally good, and no other. *)
Theorem C51_best : forall samples,
  (discover_baselines available self now samples = Val [] /\ forall b, In b samples -> ~ eligible b) \/
  (exists b, best samples b /\
     discover_baselines available self now samples = match new_content (api self) b with Val c => Val [c] | Fail e => Fail e | Panic => Panic end).
Proof.
  intros samples. unfold discover_baselines. rewrite first_one.
  pose proof (best_first (fun p => available (snd p)) (scored self now samples)) as B.
  destruct (hd_error _) as [[s b]|].
  - right. destruct B as (A & p1 & p2 & E & H1 & H2). cbn [snd] in A.
    destruct (scored_split _ _ _ _ _ _ _ E) as (l1 & l2 & -> & E1 & E2).
    assert (I : In (s, b) (scored self now (l1 ++ b :: l2)) /\ available b = true) by (split; [rewrite E; apply in_or_app; right; now left|exact A]).
    apply in_scored in I. destruct I as (_ & EL & PT).
    exists b. split.
    + exists l1, l2, s. split; [reflexivity|]. split; [exact EL|]. split; [exact PT|]. split; intros b' s' I' EL' PT'.
      * destruct (proj2 (in_scored b' s' l1) (conj I' (conj EL' PT'))) as (J & A'). rewrite E1 in J. apply (H1 _ J A').
      * destruct (proj2 (in_scored b' s' l2) (conj I' (conj EL' PT'))) as (J & A'). rewrite E2 in J. apply (H2 _ J A').
    + cbn [collect_builds]. destruct (new_content (api self) b); reflexivity.
  - left. split; [reflexivity|]. intros b I EL. destruct (points_exist b EL) as (s & PT).
    destruct (proj2 (in_scored b s samples) (conj I (conj EL PT))) as (J & A'). specialize (B _ J). cbn in B. congruence.
Qed.
End Select.

(** There is one best build. *)
Theorem C51_unique : forall available self now samples b b',
  best available self now samples b -> best available self now samples b' -> b = b'.
Proof.
  intros A self now samples b b' (l1 & l2 & s & E & EL & PT & H1 & H2) (l1' & l2' & s' & E' & EL' & PT' & H1' & H2').
  subst samples. revert l1' E' H1'. induction l1 as [|x l1 IH]; intros [|y l1'] E' H1'; cbn in E'.
  - now injection E'.
  - injection E' as <- ->. assert (s < s')%Z by (exact (H1' _ _ (or_introl eq_refl) EL PT)).
    assert (s' <= s)%Z by (refine (H2 _ _ _ EL' PT'); apply in_or_app; right; now left). lia.
  - injection E' as -> <-. assert (s' < s)%Z by (exact (H1 _ _ (or_introl eq_refl) EL' PT')).
    assert (s <= s')%Z by (refine (H2' _ _ _ EL PT); apply in_or_app; right; now left). lia.
  - injection E' as -> E'. apply (IH (fun a t I => H1 a t (or_intror I)) l1' E' (fun a t I => H1' a t (or_intror I))).
Qed.
(** The selected build comes from the answer of the api and keeps its data. *)
Theorem C51_content : forall available self now samples c cs,
  discover_baselines available self now samples = Val (c :: cs) ->
  cs = [] /\ api c = api self /\ uuid c <> uuid self /\
  exists b, In b samples /\ available b = true /\ b_uuid b = uuid c /\ b_project b = project c /\ b_branch b = branch c /\ b_pipeline b = pipeline c /\
            b_date b = date c /\ b_log_url b = Some (log_url c) /\ b_ref_url b = Some (ref_url c) /\ b_change b = Some (change c).
Proof.
  intros A self now samples c cs H. destruct (C51_best A self now samples) as [(E & _)|(b & B & E)]; [congruence|].
  rewrite E in H. unfold new_content in H.
  destruct (b_log_url b) eqn:L; [|discriminate]. destruct (b_ref_url b) eqn:R; [|discriminate]. destruct (b_change b) eqn:C; [|discriminate].
  injection H as <- <-. destruct B as (l1 & l2 & s & -> & (U & V & _) & _). cbn.
  split; [reflexivity|]. split; [reflexivity|]. split; [exact U|]. exists b. rewrite L, R, C. repeat split; auto. apply in_or_app. right. now left.
Qed.
(** The score is an i32: it is bounded by the age. *)
Theorem C51_score_range : forall self now b s, points self now b s -> (-500 - age now b <= s <= 160 - age now b)%Z.
Proof.
  intros self now b s (p1 & p2 & p3 & p4 & C & B & P & V & ->). unfold change_points, branch_points, pipeline_points, voting_points in *.
  assert (-500 <= p1 <= 50)%Z by (destruct C as [(_ & _ & ->)|[(_ & _ & ->)|(_ & ->)]]; lia).
  assert (0 <= p2 <= 50)%Z by (destruct B as [(_ & ->)|(_ & ->)]; lia). assert (0 <= p3 <= 50)%Z by (destruct P as [(_ & ->)|(_ & ->)]; lia).
  assert (0 <= p4 <= 10)%Z by (destruct V as [(_ & ->)|(_ & ->)]; lia). lia.
Qed.

(** ** C66: what is preferred *)
(** Of two builds which have the same merits, not the older one. *)
Theorem C66_fresh : forall available self now samples b b',
  best available self now samples b -> In b' samples -> eligible available self b' ->
  b_project b' = project self /\ b_project b = project self /\ b_change b' <> Some (change self) \/ b_project b' <> project self /\ b_project b <> project self ->
  b_branch b' = b_branch b -> b_pipeline b' = b_pipeline b -> b_voting b' = b_voting b -> (b_date b < b_date b' <= now)%Z -> False.
Proof.
  intros A self now samples b b' (l1 & l2 & s & -> & EL & PT & H1 & H2) I EL' M EB EP EV D.
  destruct (points_exist _ _ now _ EL') as (s' & PT').
  assert (s' <= s)%Z.
  { apply in_app_or in I. destruct I as [I|[<-|I]]; [specialize (H1 _ _ I EL' PT'); lia|lia|exact (H2 _ _ I EL' PT')]. }
  destruct PT as (p1 & p2 & p3 & p4 & C & B & P & V & ->). destruct PT' as (q1 & q2 & q3 & q4 & C' & B' & P' & V' & ->).
  assert (p1 <= q1)%Z.
  { unfold change_points in *. destruct M as [(M1 & M2 & M3)|(M1 & M2)];
      destruct C as [(? & ? & ->)|[(? & ? & ->)|(? & ->)]]; destruct C' as [(? & ? & ->)|[(? & ? & ->)|(? & ->)]]; try contradiction; try lia. }
  assert (p2 = q2) by (unfold branch_points in *; rewrite EB in B'; destruct B as [(? & ->)|(? & ->)], B' as [(? & ->)|(? & ->)]; congruence).
  assert (p3 = q3) by (unfold pipeline_points, stable_pipeline in *; rewrite EP in P'; destruct P as [(? & ->)|(? & ->)], P' as [(? & ->)|(? & ->)]; tauto).
  assert (p4 = q4) by (unfold voting_points in *; rewrite EV in V'; destruct V as [(? & ->)|(? & ->)], V' as [(? & ->)|(? & ->)]; congruence).
  unfold age in *. lia.
Qed.
(** A build of the change under test is the baseline only if every other eligible build is over a
    year older. *)
Theorem C66_other_change : forall available self now samples b b',
  best available self now samples b -> b_project b = project self -> b_change b = Some (change self) ->
  In b' samples -> eligible available self b' -> (b_project b' = project self -> b_change b' <> Some (change self)) ->
  (age now b + 390 <= age now b')%Z.
Proof.
  intros A self now samples b b' (l1 & l2 & s & -> & EL & PT & H1 & H2) EP EC I EL' M.
  destruct (points_exist _ _ now _ EL') as (s' & PT').
  assert (s' <= s)%Z.
  { apply in_app_or in I. destruct I as [I|[<-|I]]; [specialize (H1 _ _ I EL' PT'); lia| |exact (H2 _ _ I EL' PT')]. exfalso. now apply M. }
  destruct PT as (p1 & p2 & p3 & p4 & C & B & P & V & ->). destruct PT' as (q1 & q2 & q3 & q4 & C' & B' & P' & V' & ->).
  assert (p1 = -500)%Z by (unfold change_points in C; destruct C as [(? & ? & ->)|[(? & (c & ? & ?) & ->)|(? & ->)]]; congruence).
  assert (0 <= q1)%Z by (unfold change_points in C'; destruct C' as [(? & ? & ->)|[(? & (c & ? & ?) & ->)|(? & ->)]]; [exfalso; now apply M|lia|lia]).
  unfold branch_points, pipeline_points, voting_points in *.
  assert (p2 <= 50 /\ p3 <= 50 /\ p4 <= 10)%Z by (destruct B as [(_ & ->)|(_ & ->)], P as [(_ & ->)|(_ & ->)], V as [(_ & ->)|(_ & ->)]; lia).
  assert (0 <= q2 /\ 0 <= q3 /\ 0 <= q4)%Z by (destruct B' as [(_ & ->)|(_ & ->)], P' as [(_ & ->)|(_ & ->)], V' as [(_ & ->)|(_ & ->)]; lia).
  lia.
Qed.

(** ** C52: panics *)
(** The discovery panics exactly when the best build has no change number. *)
Theorem C52_panics : forall available self now samples,
  discover_baselines available self now samples = Panic <-> exists b, best available self now samples b /\ b_change b = None.
Proof.
  intros A self now samples. destruct (C51_best A self now samples) as [(E & N)|(b & B & E)]; rewrite E.
  - split; [discriminate|]. intros (b & (l1 & l2 & s & -> & EL & _) & _). exfalso. apply (N b); [apply in_or_app; right; now left|exact EL].
  - unfold new_content. split.
    + intros H. exists b. split; [exact B|]. destruct B as (l1 & l2 & s & -> & (_ & _ & L & R & _) & _).
      destruct (b_log_url b); [|congruence]. destruct (b_ref_url b); [|congruence]. destruct (b_change b); [discriminate|reflexivity].
    + intros (b' & B' & C). rewrite (C51_unique _ _ _ _ _ _ B B'). rewrite C. now destruct (b_log_url b'), (b_ref_url b').
Qed.
Theorem C52_no_panic : forall available self now samples,
  (forall b, In b samples -> b_change b <> None) -> exists l, discover_baselines available self now samples = Val l /\ length l <= 1.
Proof.
  intros A self now samples H. destruct (C51_best A self now samples) as [(E & N)|(b & B & E)]; rewrite E.
  - exists []. split; [reflexivity|cbn; lia].
  - destruct B as (l1 & l2 & s & -> & (_ & _ & L & R & _) & _). unfold new_content.
    assert (b_change b <> None) by (apply H; apply in_or_app; right; now left).
    destruct (b_log_url b); [|congruence]. destruct (b_ref_url b); [|congruence]. destruct (b_change b); [|congruence].
    eexists. split; [reflexivity|cbn; lia].
Qed.
(** The target panics exactly when the api gives a build without logs, ref or change. *)
Theorem C52_target : forall parse_url get_build u,
  (forall a uid, get_build a uid <> Panic) ->
  (from_zuul_url parse_url get_build u = Some Panic <->
   exists a uid b, get_zuul_api_url parse_url u = Some (Val (a, uid)) /\ get_build a uid = Val b /\ (b_log_url b = None \/ b_ref_url b = None \/ b_change b = None)).
Proof.
  intros parse_url get_build u NP. unfold from_zuul_url. split.
  - intros H. destruct (get_zuul_api_url parse_url u) as [[[a uid]|e|]|] eqn:E; try discriminate.
    + destruct (get_build a uid) as [b|e|] eqn:G; [|discriminate|exfalso; eapply NP; eauto].
      exists a, uid, b. split; [reflexivity|]. split; [exact G|]. unfold new_content in H.
      destruct (b_log_url b); [|now left]. destruct (b_ref_url b); [|now right; left]. destruct (b_change b); [discriminate|now right; right].
    + exfalso. clear -E. unfold get_zuul_api_url in E. destruct (path_segments u) as [l|]; [|discriminate].
      destruct (rev l) as [|x [|y rest]]; try discriminate. destruct (is_uid x); [|discriminate]. destruct (eqb_list y _); [|discriminate].
      assert (W : with_uid (api_from_whitelabel parse_url u) x <> Panic).
      { unfold api_from_whitelabel. destruct (rsplit_once _ _); [destruct (parse_url _)|]; discriminate. }
      assert (T : forall t, with_uid (api_from_webui parse_url u t) x <> Panic).
      { intros t. unfold api_from_webui. destruct (split_once _ _); [destruct (parse_url _)|]; discriminate. }
      destruct rest as [|t [|q rest]]; try (injection E; congruence). destruct (eqb_list q _); injection E; [apply T|congruence].
  - intros (a & uid & b & -> & -> & H). unfold new_content. f_equal.
    destruct (b_log_url b), (b_ref_url b), (b_change b); try reflexivity. exfalso. intuition discriminate.
Qed.

(** ** C53: urls *)
Lemma tenant_segments u pre tenant uid : tenant_path (upath u) pre tenant uid ->
  path_segments u = Some (match pre with [] => [] | _ :: r => split_slash r end ++ [lit "t"; tenant; lit "build"; uid]).
Proof.
  intros ((E & _ & U) & RT & T).
  assert (RT' : rooted (pre ++ lit "/t/" ++ tenant)) by (destruct RT as [-> | (r & ->)]; right; eexists; reflexivity).
  rewrite (path_shape _ _ _ E RT' U). f_equal. change [lit "t"; tenant; lit "build"; uid] with ([lit "t"; tenant] ++ [lit "build"; uid]). rewrite (app_assoc (match pre with [] => [] | _ :: r => split_slash r end)). f_equal.
  assert (TT : split_slash (lit "t" ++ slash :: tenant) = [lit "t"; tenant]).
  { rewrite split_slash_app, (split_slash_one (lit "t")), split_slash_one; auto. cbn. intuition discriminate. }
  destruct RT as [-> | (r & ->)]; [exact TT|]. cbn [app].
  change (split_slash (r ++ slash :: (lit "t" ++ slash :: tenant)) = split_slash r ++ [lit "t"; tenant]). now rewrite split_slash_app, TT.
Qed.
Section Urls.
Variable parse_url : text -> option text.
(** A url is a build iff its path ends with build/ and 32 letters and digits. *)
Theorem C53_recognised : forall u, get_zuul_api_url parse_url u <> None <-> exists pre uid, build_path (upath u) pre uid.
Proof.
  intros u. unfold get_zuul_api_url. split.
  - intros H. destruct (path_segments u) as [l|] eqn:S; [|congruence].
    destruct (rev l) as [|uid [|b rest]] eqn:R; try congruence. destruct (is_uid uid) eqn:U; [|congruence]. destruct (eqb_list b _) eqn:B; [|congruence].
    apply eqb_list_spec in B. subst b. apply (f_equal (@rev _)) in R. rewrite rev_involutive in R. cbn [rev] in R. rewrite <- app_assoc in R. cbn [app] in R.
    subst l. destruct (path_unshape _ _ _ S) as (pre & E & RT & _). exists pre, uid. split; [exact E|]. split; [exact RT|]. now apply is_uid_spec.
  - intros (pre & uid & E & RT & U). rewrite (path_shape _ _ _ E RT U), rev_app_distr. cbn [rev app].
    apply is_uid_spec in U. rewrite U, eqb_list_refl. destruct (rev _) as [|t [|q rest]]; try discriminate. destruct (eqb_list q _); discriminate.
Qed.
(** The uid given back is the one of the path. *)
Theorem C53_uid : forall u a uid, get_zuul_api_url parse_url u = Some (Val (a, uid)) -> exists pre, build_path (upath u) pre uid.
Proof.
  intros u a uid H. destruct (proj1 (C53_recognised u)) as (pre & uid' & BP); [congruence|]. exists pre. replace uid with uid'; [exact BP|].
  destruct BP as (E & RT & U). unfold get_zuul_api_url in H. rewrite (path_shape _ _ _ E RT U), rev_app_distr in H. cbn [rev app] in H.
  apply is_uid_spec in U. rewrite U, eqb_list_refl in H.
  assert (W : forall r x y, @with_uid r x = Val (a, y) -> y = x) by (intros [?|?|] x y Q; cbn in Q; congruence).
  destruct (rev _) as [|t [|q rest]]; [| |destruct (eqb_list q _)]; injection H as H; symmetry; eapply W; eauto.
Qed.
(** With a tenant the api is beside the part before /t/, if this is the first /t/ of the url. *)
Theorem C53_tenant : forall u pre tenant uid a,
  tenant_path (upath u) pre tenant uid -> first_occurrence (lit "/t/") (as_str u) (origin u ++ pre) ->
  parse_url (origin u ++ pre ++ lit "/api/tenant/" ++ tenant ++ lit "/") = Some a -> get_zuul_api_url parse_url u = Some (Val (a, uid)).
Proof.
  intros u pre tenant uid a TP F P. unfold get_zuul_api_url. rewrite (tenant_segments _ _ _ _ TP), rev_app_distr. cbn [rev app].
  destruct TP as ((_ & _ & U) & _). apply is_uid_spec in U. rewrite U, eqb_list_refl, eqb_list_refl. unfold api_from_webui.
  rewrite (split_once_first _ _ _ F). rewrite <- app_assoc. now rewrite P.
Qed.
(** Otherwise it is beside the part before /build/, if this is the last /build/ of the url. *)
Theorem C53_whitelabel : forall u pre uid a,
  build_path (upath u) pre uid -> (forall p tenant, ~ tenant_path (upath u) p tenant uid) -> last_occurrence (lit "/build/") (as_str u) (origin u ++ pre) ->
  parse_url (origin u ++ pre ++ lit "/api/") = Some a -> get_zuul_api_url parse_url u = Some (Val (a, uid)).
Proof.
  intros u pre uid a BP NT L P. pose proof BP as (E & RT & U). pose proof (path_shape _ _ _ E RT U) as S.
  unfold get_zuul_api_url. rewrite S, rev_app_distr. cbn [rev app].
  apply is_uid_spec in U. rewrite U, eqb_list_refl.
  assert (W : with_uid (api_from_whitelabel parse_url u) uid = Val (a, uid)).
  { unfold api_from_whitelabel. rewrite (rsplit_once_last _ _ _ L). rewrite <- app_assoc. now rewrite P. }
  destruct (rev _) as [|t [|q rest]] eqn:R; [now rewrite W|now rewrite W|]. destruct (eqb_list q (lit "t")) eqn:Q; [|now rewrite W].
  exfalso. apply eqb_list_spec in Q. subst q. destruct RT as [-> | (r & ->)]; [discriminate|].
  apply (f_equal (@rev _)) in R. rewrite rev_involutive in R. cbn [rev] in R. rewrite <- app_assoc in R. cbn [app] in R.
  pose proof (split_no_slash r) as NS. rewrite R in NS. apply Forall_app in NS. destruct NS as (_ & NS). inversion_clear NS as [|? ? _ NS']. inversion_clear NS' as [|? ? Ht _].
  pose proof (join_split r) as J. rewrite R in J.
  apply (NT (match rev rest with [] => [] | _ => slash :: join_slash (rev rest) end) t).
  assert (G : slash :: r = match rev rest with [] => [] | _ => slash :: join_slash (rev rest) end ++ lit "/t/" ++ t).
  { destruct (rev rest) as [|x l] eqn:RR; [rewrite <- J; reflexivity|]. rewrite join_app in J by discriminate. rewrite <- J. reflexivity. }
  split; [|split; [destruct (rev rest); [now left|right; eauto]|exact Ht]]. exact (eq_ind _ (fun z => build_path (upath u) z uid) BP _ G).
Qed.
(** The result for every url of a build, with its error. *)
Lemma segments_tenant u pre uid (t : text) (rest : list text) : build_path (upath u) pre uid -> rev (match pre with [] => [] | _ :: r => split_slash r end) = t :: lit "t" :: rest ->
  exists p, tenant_path (upath u) p t uid.
Proof.
  intros BP R. pose proof BP as (E & RT & U). destruct RT as [-> | (r & ->)]; [discriminate|].
  apply (f_equal (@rev _)) in R. rewrite rev_involutive in R. cbn [rev] in R. rewrite <- app_assoc in R. cbn [app] in R.
  pose proof (split_no_slash r) as NS. rewrite R in NS. apply Forall_app in NS. destruct NS as (_ & NS). inversion_clear NS as [|? ? _ NS']. inversion_clear NS' as [|? ? Ht _].
  pose proof (join_split r) as J. rewrite R in J.
  exists (match rev rest with [] => [] | _ => slash :: join_slash (rev rest) end).
  assert (G : slash :: r = match rev rest with [] => [] | _ => slash :: join_slash (rev rest) end ++ lit "/t/" ++ t).
  { clear - J. destruct (rev rest) as [|x l]; [rewrite <- J; reflexivity|]. rewrite join_app in J by discriminate. rewrite <- J. reflexivity. }
  split; [|split; [destruct (rev rest); [now left|right; eauto]|exact Ht]]. exact (eq_ind _ (fun z => build_path (upath u) z uid) BP _ G).
Qed.
Theorem C53_exact : forall u pre uid, build_path (upath u) pre uid -> exists base api_url,
  ((exists p tenant, tenant_path (upath u) p tenant uid /\ first_occurrence (lit "/t/") (as_str u) base /\ api_url = base ++ lit "/api/tenant/" ++ tenant ++ lit "/") \/
   ((forall p tenant, ~ tenant_path (upath u) p tenant uid) /\ last_occurrence (lit "/build/") (as_str u) base /\ api_url = base ++ lit "/api/")) /\
  get_zuul_api_url parse_url u = Some (match parse_url api_url with Some a => Val (a, uid) | None => Fail (lit "Can't recreate zuul api url") end).
Proof.
  intros u pre uid BP. pose proof BP as (E & RT & U). pose proof (path_shape _ _ _ E RT U) as S.
  assert (T : (exists p tenant, tenant_path (upath u) p tenant uid) \/ (forall p tenant, ~ tenant_path (upath u) p tenant uid) /\
              get_zuul_api_url parse_url u = Some (with_uid (api_from_whitelabel parse_url u) uid)).
  { unfold get_zuul_api_url. rewrite S, rev_app_distr. cbn [rev app]. apply is_uid_spec in U. rewrite U, eqb_list_refl. apply is_uid_spec in U.
    assert (X : forall q t rest, rev (match pre with [] => [] | _ :: r => split_slash r end) = t :: q :: rest -> q = lit "t" -> exists p tenant, tenant_path (upath u) p tenant uid).
    { intros q t rest R ->. destruct (segments_tenant u pre uid t rest BP R) as [p H]. eauto. }
    assert (Y : (forall p tenant, tenant_path (upath u) p tenant uid -> exists rest, rev (match pre with [] => [] | _ :: r => split_slash r end) = tenant :: lit "t" :: rest)).
    { intros p tenant TP. pose proof (tenant_segments _ _ _ _ TP) as TS. rewrite S in TS. injection TS as TS.
      apply (f_equal (@rev _)) in TS. rewrite !rev_app_distr in TS. cbn [rev app] in TS. injection TS as TS. rewrite TS. eauto. }
    destruct (rev _) as [|t [|q rest]] eqn:R.
    - right. split; [|reflexivity]. intros p tn TP. destruct (Y p tn TP) as [r' Z]. discriminate.
    - right. split; [|reflexivity]. intros p tn TP. destruct (Y p tn TP) as [r' Z]. discriminate.
    - destruct (eqb_list q (lit "t")) eqn:Q; [left; apply eqb_list_spec in Q; eauto|]. right. split; [|reflexivity].
      intros p tn TP. destruct (Y p tn TP) as [r' Z]. injection Z as _ -> _. now rewrite eqb_list_refl in Q. }
  destruct T as [(p & tenant & TP)|[NT G]].
  - pose proof TP as ((E' & _) & _). destruct (split_once (lit "/t/") (as_str u)) as [base|] eqn:SO.
    + pose proof (split_once_some _ _ _ SO) as F. exists base, (base ++ lit "/api/tenant/" ++ tenant ++ lit "/"). split; [left; exists p, tenant; auto|].
      unfold get_zuul_api_url. rewrite (tenant_segments _ _ _ _ TP), rev_app_distr. cbn [rev app]. apply is_uid_spec in U. rewrite U, eqb_list_refl, eqb_list_refl. unfold api_from_webui. rewrite SO.
      destruct (parse_url _); reflexivity.
    + exfalso. apply (split_once_none _ _ SO (origin u ++ p)). unfold occurs_after, as_str. rewrite E'. eexists. rewrite <- !app_assoc. reflexivity.
  - destruct (rsplit_once (lit "/build/") (as_str u)) as [base|] eqn:RO.
    + exists base, (base ++ lit "/api/"). split; [right; split; [exact NT|]; split; [now apply rsplit_once_some|reflexivity]|]. rewrite G. unfold api_from_whitelabel. rewrite RO. destruct (parse_url _); reflexivity.
    + exfalso. apply (rsplit_once_none _ _ RO (origin u ++ pre)). unfold occurs_after, as_str. rewrite E. eexists. rewrite <- !app_assoc. reflexivity.
Qed.
(** What is made of the answer of the api: an error is never taken for another url. *)
Theorem C53_content : forall get_build u,
  (from_zuul_url parse_url get_build u = None <-> ~ exists pre uid, build_path (upath u) pre uid) /\
  (forall e, from_zuul_url parse_url get_build u = Some (Fail e) <->
     get_zuul_api_url parse_url u = Some (Fail e) \/ exists a uid, get_zuul_api_url parse_url u = Some (Val (a, uid)) /\ get_build a uid = Fail e) /\
  (forall c, from_zuul_url parse_url get_build u = Some (Val c) <-> exists a uid b,
     get_zuul_api_url parse_url u = Some (Val (a, uid)) /\ get_build a uid = Val b /\
     api c = a /\ uuid c = b_uuid b /\ project c = b_project b /\ branch c = b_branch b /\ pipeline c = b_pipeline b /\ date c = b_date b /\
     b_log_url b = Some (log_url c) /\ b_ref_url b = Some (ref_url c) /\ b_change b = Some (change c)).
Proof.
  intros get_build u. rewrite <- C53_recognised. unfold from_zuul_url. destruct (get_zuul_api_url parse_url u) as [[[a uid]|e|]|] eqn:G.
  - split; [split; [discriminate|intros H; exfalso; apply H; discriminate]|]. destruct (get_build a uid) as [b|e|] eqn:B.
    + split.
      * intros e. split; [unfold new_content; destruct (b_log_url b), (b_ref_url b), (b_change b); discriminate|]. intros [H|(a' & uid' & [= <- <-] & H)]; [discriminate|congruence].
      * intros c. split.
        -- unfold new_content. destruct (b_log_url b) eqn:E1; [|discriminate]. destruct (b_ref_url b) eqn:E2; [|discriminate]. destruct (b_change b) eqn:E3; [|discriminate].
           intros [= <-]. exists a, uid, b. cbn. auto 20.
        -- intros (a' & uid' & b' & [= <- <-] & Hb & E1 & E2 & E3 & E4 & E5 & E6 & E7 & E8 & E9). rewrite B in Hb. injection Hb as <-. unfold new_content. rewrite E7, E8, E9. destruct c; cbn in *; now subst.
    + split.
      * intros e'. split; [intros [= <-]; right; eauto|]. intros [H|(a' & uid' & [= <- <-] & H)]; [discriminate|congruence].
      * intros c. split; [discriminate|]. intros (a' & uid' & b' & [= <- <-] & Hb & _). congruence.
    + split.
      * intros e'. split; [discriminate|]. intros [H|(a' & uid' & [= <- <-] & H)]; [discriminate|congruence].
      * intros c. split; [discriminate|]. intros (a' & uid' & b' & [= <- <-] & Hb & _). congruence.
  - split; [split; [discriminate|intros H; exfalso; apply H; discriminate]|]. split.
    + intros e'. split; [intros [= <-]; now left|]. intros [[= <-]|(a' & uid' & H & _)]; [reflexivity|discriminate].
    + intros c. split; [discriminate|]. intros (a' & uid' & b' & H & _). discriminate.
  - split; [split; [discriminate|intros H; exfalso; apply H; discriminate]|]. split.
    + intros e'. split; [discriminate|]. intros [H|(a' & uid' & H & _)]; discriminate.
    + intros c. split; [discriminate|]. intros (a' & uid' & b' & H & _). discriminate.
  - split; [split; [intros _ H; congruence|reflexivity]|]. split.
    + intros e'. split; [discriminate|]. intros [H|(a' & uid' & H & _)]; discriminate.
    + intros c. split; [discriminate|]. intros (a' & uid' & b' & H & _). discriminate.
Qed.
(** It is the last one when what follows the path does not contain /build/. *)
Theorem C53_last_build : forall u pre uid, build_path (upath u) pre uid -> ~ (exists b, occurs_after (lit "/build/") (suffix u) b) ->
  last_occurrence (lit "/build/") (as_str u) (origin u ++ pre).
Proof.
  intros u pre uid (E & _ & U) N. unfold as_str. rewrite E. split; [exists (uid ++ suffix u); now rewrite !app_assoc|].
  intros b (t & H). destruct (Nat.le_gt_cases (length b) (length (origin u ++ pre))) as [|G]; [assumption|]. exfalso.
  assert (AS : (origin u ++ pre) ++ slash :: lit "build/" ++ uid ++ suffix u = b ++ lit "/build/" ++ t).
  { rewrite <- H, <- !app_assoc. reflexivity. }
  clear H. revert b AS G. generalize (origin u ++ pre). intros x. induction x as [|c x IH]; intros [|d b] AS G; cbn [length] in G; try lia.
  - cbn [app] in AS. injection AS as <- AS. change (lit "/build/") with (slash :: lit "build/") in AS. pose proof (uid_no_slash _ U) as NS. destruct U as (LU & _).
    (* the rest is build/ uid suffix *)
    assert (K : forall w, ~ In slash w -> forall z v y, w ++ z = v ++ slash :: y -> exists v', v = w ++ v' /\ z = v' ++ slash :: y).
    { clear. induction w as [|c w IH]; intros N z v y H; [exists v; auto|]. destruct v as [|d v]; cbn in H.
      - injection H as -> _. exfalso. apply N. now left.
      - injection H as -> H. destruct (IH (fun I => N (or_intror I)) _ _ _ H) as (v' & -> & ->). exists v'. auto. }
    assert (AS1 : lit "build" ++ (slash :: uid ++ suffix u) = b ++ slash :: (lit "build/" ++ t)) by exact AS.
    destruct (K _ build_no_slash _ _ _ AS1) as (v & -> & AS'). destruct v as [|e v].
    + (* the slash before the uid *)
      cbn [app] in AS'. injection AS' as AS'. destruct uid as [|u0 [|u1 [|u2 [|u3 [|u4 [|u5 uid]]]]]]; cbn [length] in LU; try lia. cbn [app] in AS'.
      injection AS' as _ _ _ _ _ Q _. apply NS. cbn. rewrite Q. unfold slash. tauto.
    + cbn [app] in AS'. injection AS' as _ AS'. destruct (K _ NS _ _ _ AS') as (v' & -> & S). apply N. exists v'. exists t. rewrite S. reflexivity.
  - cbn [app] in AS. injection AS as -> AS. apply (IH b AS). cbn [length] in G. lia.
Qed.
End Urls.

(** *** The hypotheses can be met *)
Definition uid : text := lit "a498f74ab32b49ffa9c9e7463fbf8885".
Definition web (o p s : string) : url := {| origin := lit o; upath := lit p ++ lit "/build/" ++ uid; suffix := lit s |}.
(** A decision procedure for the examples. *)
Definition first_dec p s b := match split_once p s with Some b' => eqb_list b b' | None => false end.
Lemma first_by_computation p s b : first_dec p s b = true -> first_occurrence p s b.
Proof. unfold first_dec. destruct (split_once p s) eqn:E; [|discriminate]. intros H. apply eqb_list_spec in H. subst. now apply split_once_some. Qed.
Example uid_ok : uid_text uid.
Proof. now apply is_uid_spec. Qed.
Example C53_tenant_example : tenant_path (upath (web "https://zuul.opendev.org" "/t/zuul" "")) [] (lit "zuul") uid /\
  first_occurrence (lit "/t/") (as_str (web "https://zuul.opendev.org" "/t/zuul" "")) (lit "https://zuul.opendev.org") /\
  get_zuul_api_url Some (web "https://zuul.opendev.org" "/t/zuul" "") = Some (Val (lit "https://zuul.opendev.org/api/tenant/zuul/", uid)).
Proof.
  split; [|split; [apply first_by_computation; reflexivity|reflexivity]].
  split; [|split; [now left|cbn; unfold slash; intuition discriminate]]. split; [reflexivity|]. split; [right; eexists; reflexivity|apply uid_ok].
Qed.
Example C53_whitelabel_example : build_path (upath (web "https://review.rdoproject.org" "/zuul" "#logs")) (lit "/zuul") uid /\
  (forall p tenant, ~ tenant_path (upath (web "https://review.rdoproject.org" "/zuul" "#logs")) p tenant uid) /\
  ~ (exists b, occurs_after (lit "/build/") (suffix (web "https://review.rdoproject.org" "/zuul" "#logs")) b) /\
  get_zuul_api_url Some (web "https://review.rdoproject.org" "/zuul" "#logs") = Some (Val (lit "https://review.rdoproject.org/zuul/api/", uid)).
Proof.
  split; [split; [reflexivity|]; split; [right; eexists; reflexivity|apply uid_ok]|]. split; [|split; [|reflexivity]].
  - intros p tenant TP. apply tenant_segments in TP. revert TP.
    change (path_segments (web "https://review.rdoproject.org" "/zuul" "#logs")) with (Some [lit "zuul"; lit "build"; uid]). intros H.
    apply (f_equal (fun o => match o with Some l => length l | None => 0 end)) in H. rewrite app_length in H. cbn [length] in H. lia.
  - intros (b & t & H). apply (f_equal (@length _)) in H. change (lit "/build/") with [47%N; 98%N; 117%N; 105%N; 108%N; 100%N; 47%N] in H. rewrite !app_length in H. cbn [length app suffix web lit] in H.
    change (length (lit "#logs")) with 5 in H. lia.
Qed.
(** Another /t/ before the tenant: the api is not beside the page. *)
Theorem C53_first_t_refuted : exists u pre tenant, tenant_path (upath u) pre tenant uid /\
  get_zuul_api_url Some u = Some (Val (lit "https://ci.org/api/tenant/zuul/", uid)) /\ lit "https://ci.org/api/tenant/zuul/" <> origin u ++ pre ++ lit "/api/tenant/" ++ tenant ++ lit "/".
Proof.
  exists (web "https://ci.org" "/t/web/t/zuul" ""), (lit "/t/web"), (lit "zuul"). split; [|split; [reflexivity|discriminate]].
  split; [|split; [right; eexists; reflexivity|cbn; unfold slash; intuition discriminate]]. split; [reflexivity|]. split; [right; eexists; reflexivity|apply uid_ok].
Qed.
(** Another /build/ after the path: the api has the uid and the query in its url. *)
Theorem C53_query_refuted : exists u pre, build_path (upath u) pre uid /\ (forall p tenant, ~ tenant_path (upath u) p tenant uid) /\
  get_zuul_api_url Some u = Some (Val (lit "https://ci.org/zuul/build/" ++ uid ++ lit "?from=/api/", uid)).
Proof.
  exists (web "https://ci.org" "/zuul" "?from=/build/1"), (lit "/zuul"). split; [split; [reflexivity|]; split; [right; eexists; reflexivity|apply uid_ok]|].
  split; [|reflexivity]. exact (proj1 (proj2 C53_whitelabel_example)).
Qed.

Definition sample (id project : string) (c : option N) (d : Z) (logs : bool) : api_build :=
  {| b_uuid := lit id; b_project := lit project; b_branch := lit "master"; b_pipeline := lit "gate"; b_voting := true;
     b_log_url := if logs then Some (lit "https://logs/") else None; b_ref_url := Some (lit "https://review/"); b_date := d; b_change := c |}.
Definition target : build :=
  {| uuid := lit "t"; project := lit "zuul"; branch := lit "master"; pipeline := lit "check"; log_url := lit "https://logs/t"; ref_url := lit "https://review/1";
     date := 100; change := 1; api := lit "https://ci/api/" |}.
Definition samples : list api_build :=
  [sample "t" "zuul" (Some 1%N) 100 true; sample "a" "zuul" (Some 1%N) 99 true; sample "b" "zuul" (Some 2%N) 99 false; sample "c" "zuul" (Some 3%N) 90 true;
   sample "d" "zuul" (Some 4%N) 90 true; sample "e" "nodepool" (Some 5%N) 100 true].
(** Its own build, its own change, no logs, the same score twice, another project. *)
Example C51_example : exists c, discover_baselines (fun _ => true) target 100 samples = Val [c] /\ uuid c = lit "c".
Proof. eexists. split; reflexivity. Qed.
Example C51_unavailable : exists c, discover_baselines (fun b => negb (eqb_list (b_uuid b) (lit "c"))) target 100 samples = Val [c] /\ uuid c = lit "d".
Proof. eexists. split; reflexivity. Qed.
Example C66_example : best (fun _ => true) target 100 samples (sample "c" "zuul" (Some 3%N) 90 true).
Proof.
  destruct (C51_best (fun _ => true) target 100 samples) as [(H & _)|(b & B & H)]; [discriminate|].
  destruct B as (l1 & l2 & s & E & R). assert (W : b = sample "c" "zuul" (Some 3%N) 90 true).
  { assert (I : In b samples) by (rewrite E; apply in_or_app; right; now left). cbn [In samples] in I.
    destruct I as [<-|[<-|[<-|[<-|[<-|[<-|[]]]]]]]; try reflexivity; vm_compute in H; discriminate. }
  subst b. exists l1, l2, s. split; [exact E|exact R].
Qed.
(** A build of the same change is chosen when the other one is two years old. *)
Example C66_other_change_example : exists c, discover_baselines (fun _ => true) target 1000 [sample "a" "zuul" (Some 1%N) 999 true; sample "b" "zuul" (Some 2%N) 200 true] = Val [c] /\ uuid c = lit "a".
Proof. eexists. split; reflexivity. Qed.
(** The best build is one of a periodic pipeline of another project: it has no change. *)
Theorem C52_periodic_refuted : exists self samples, discover_baselines (fun _ => true) self 100 samples = Panic.
Proof. exists target, [sample "a" "zuul" (Some 1%N) 99 true; sample "e" "nodepool" None 100 true]. reflexivity. Qed.

Print Assumptions C51_best.
Print Assumptions C51_unique.
Print Assumptions C51_content.
Print Assumptions C51_score_range.
Print Assumptions C66_fresh.
Print Assumptions C66_other_change.
Print Assumptions C52_panics.
Print Assumptions C52_no_panic.
Print Assumptions C52_target.
Print Assumptions C52_periodic_refuted.
Print Assumptions C53_recognised.
Print Assumptions C53_uid.
Print Assumptions C53_tenant.
Print Assumptions C53_whitelabel.
Print Assumptions C53_exact.
Print Assumptions C53_content.
Print Assumptions C53_last_build.
Print Assumptions C53_first_t_refuted.
Print Assumptions C53_query_refuted.
