(** Whole-stream results, with flags for maximality and disjointness. *)
From Coq Require Import String List NArith Arith Bool Lia Sorting ZifyBool ZifyN ZifyNat.
From Verif Require Import Common CommonFacts ProcModel ProcSpec ProcWalk ProcInv ProcMain ProcIndex.
Import ListNotations.
Open Scope nat_scope.

Section Result.
Context {D : Type}.
Variable above : D -> bool.
Variable tok : bytes -> bytes.
Variable search : list bytes -> list D.
Variable dist : bytes -> D.
Variable known : list bytes.
Hypothesis Hsearch : pointwise search dist.
Notation annot := (annot tok dist).
Notation seen_after := (seen_after tok).
Notation actx := (@actx D).

Definition swap (x : nat * actx) : actx * nat := (snd x, fst x).

Lemma combine_rev_swap (h : list (nat * actx)) :
  combine (rev (map snd h)) (rev (map fst h)) = rev (map swap h).
Proof.
  induction h as [|[i c] h IH]; cbn; [reflexivity|].
  rewrite <- IH. clear. assert (E : length (rev (map snd h)) = length (rev (map fst h))) by (rewrite !rev_length, !map_length; reflexivity).
  revert E. generalize (rev (map snd h)) (rev (map fst h)). intros a.
  induction a as [|x a IHa]; intros [|y b] E; cbn in *; try discriminate; [reflexivity|]. f_equal. apply IHa. lia.
Qed.

Lemma hist_ok_at mx ov L h1 : forall i c h2,
  hist_ok above mx ov L (h1 ++ (i, c) :: h2) -> ctx_ok above L i c /\ link mx ov h2 i c /\ hist_ok above mx ov L h2.
Proof.
  induction h1 as [|[j d] h1 IH]; intros i c h2; cbn [app hist_ok]; [tauto|]. intros (_ & _ & H). auto.
Qed.

(** A suffix of the history is a prefix of the result. *)
Lemma split_hist (h : list (nat * actx)) l1 x l2 : rev (map swap h) = l1 ++ x :: l2 ->
  exists h1 h2, h = h1 ++ (snd x, fst x) :: h2 /\ map swap h2 = rev l1 /\ map swap h1 = rev l2.
Proof.
  intros E. apply (f_equal (@rev _)) in E. rewrite rev_involutive, rev_app_distr in E.
  cbn [rev] in E. rewrite <- app_assoc in E. cbn [app] in E.
  apply map_eq_app in E. destruct E as (h1 & h2 & -> & E1 & E2).
  destruct h2 as [|[i c] h2]; [discriminate|]. cbn in E2. injection E2 as E2 E3.
  exists h1, h2. rewrite <- E2. auto.
Qed.

Lemma hist_ends mx ov L h : hist_ok above mx ov L h -> ov = true ->
  Forall (fun x => fst x + S (length (after (snd x))) <= ctxend h) h.
Proof.
  induction h as [|[i c] h IH]; intros Hh Ho; [constructor|]. cbn [hist_ok] in Hh.
  destruct Hh as (_ & (_ & _ & H3) & Hh). constructor.
  - cbn. lia.
  - eapply Forall_impl; [|apply (IH Hh Ho)]. cbn. intros x Hx. specialize (H3 Ho). lia.
Qed.

Definition about (lines : list (bytes * N)) (cs : list actx) : Prop :=
  exists idxs, enumerates above tok dist known lines idxs /\
    Forall2 (describes tok dist lines) cs idxs /\
    Forall2 (neighbours above tok dist known lines) cs idxs.

Lemma hist_forall2 mx ov lines h : hist_ok above mx ov (annot known lines) h ->
  Forall2 (describes tok dist lines) (rev (map snd h)) (rev (map fst h)) /\
  Forall2 (neighbours above tok dist known lines) (rev (map snd h)) (rev (map fst h)).
Proof.
  induction h as [|[i c] h IH]; cbn [hist_ok map rev fst snd]; [split; constructor|].
  intros (Hc & _ & Hh). destruct (IH Hh) as [I1 I2]. apply ctx_ok_spec in Hc. destruct Hc as [H1 H2].
  split; apply Forall2_app; auto.
Qed.

Lemma hist_contexts mx ov lines h : hist_ok above mx ov (annot known lines) h ->
  let l := combine (rev (map snd h)) (rev (map fst h)) in
  (ov = true -> disjoint_contexts l) /\ (mx = true -> before_maximal l /\ after_maximal l).
Proof.
  intros Hh. cbn zeta. rewrite combine_rev_swap. split; [|intros Hm; split; [split|]].
  - intros Ho l1 x l2 y l3 E.
    change (l1 ++ x :: l2 ++ y :: l3) with (l1 ++ (x :: l2) ++ y :: l3) in E. rewrite app_assoc in E.
    apply split_hist in E. destruct E as (h1 & h2 & -> & E1 & E2).
    apply hist_ok_at in Hh. destruct Hh as (_ & (_ & _ & H3) & Hh).
    pose proof (hist_ends _ _ _ _ Hh Ho) as Hf. specialize (H3 Ho).
    assert (Hin : In x (map swap h2)) by (rewrite E1, <- in_rev; apply in_app_iff; right; left; reflexivity).
    apply in_map_iff in Hin. destruct Hin as ([i c] & <- & Hin). rewrite Forall_forall in Hf.
    specialize (Hf _ Hin). unfold stop_of, start_of, swap. cbn in *. lia.
  - intros x l2 E. apply (split_hist h []) in E. destruct E as (h1 & h2 & -> & E1 & E2).
    destruct h2; [|discriminate]. apply hist_ok_at in Hh. destruct Hh as (_ & (_ & H2 & _) & _).
    destruct (H2 Hm) as [H|H]; [auto|]. right. unfold start_of. cbn in H. lia.
  - intros l1 x y l2 E. change (l1 ++ x :: y :: l2) with (l1 ++ [x] ++ y :: l2) in E. rewrite app_assoc in E.
    apply split_hist in E. destruct E as (h1 & h2 & -> & E1 & E2). rewrite rev_app_distr in E1.
    destruct h2 as [|[i c] h2]; [discriminate|]. cbn in E1. injection E1 as E1 _.
    apply hist_ok_at in Hh. destruct Hh as (_ & (_ & H2 & _) & _).
    destruct (H2 Hm) as [H|H]; [auto|]. right. subst x. unfold start_of, stop_of, swap. cbn in *. lia.
  - intros l1 x y l2 E. change (l1 ++ x :: y :: l2) with (l1 ++ [x] ++ y :: l2) in E. rewrite app_assoc in E.
    apply split_hist in E. destruct E as (h1 & h2 & -> & E1 & E2). rewrite rev_app_distr in E1.
    destruct h2 as [|[i c] h2]; [discriminate|]. cbn in E1. injection E1 as E1 _.
    apply hist_ok_at in Hh. destruct Hh as (_ & (H1 & _ & _) & _). subst x.
    destruct (H1 Hm) as [H|H]; [discriminate|right|left].
    + unfold stop_of, swap. cbn in *. lia.
    + exact H.
Qed.

(** Everything about a drained stream. *)
Lemma drained mx ov items :
  Req mx ov items [] ->
  match process_all above tok search items known with
  | (cs, PSEnd, p') => exists R P X h,
      items = ok_items R ++ src p' /\ all_valid R /\
      (src p' = [] \/ exists R0 m, R = R0 ++ [m] /\ is_marker (fst m) = true) /\
      skip p' = seen_after known (without_markers R) /\
      line_count p' = N.of_nat (length R) /\ byte_count p' = total_bytes R /\
      P ++ map fst X = annot known (without_markers R) /\
      buffer p' = xbuf X /\ Forall (fun x => etgt (fst x) = None) X /\
      hist_ok above mx ov (P ++ map fst X) h /\
      cs = rev (map snd h) /\ rev (map fst h) = rpos above (P ++ map fst X) /\
      (mx = true -> Last P h)
  | (cs, PSErr e, p') => exists R bad,
      items = ok_items R ++ bad :: src p' /\ all_valid R /\ failing bad e /\
      skip p' = seen_after known (without_markers R) /\
      line_count p' = N.of_nat (length R) /\ byte_count p' = total_bytes R
  | _ => False
  end.
Proof.
  intros HR. pose proof (process_all_spec above tok search dist known Hsearch mx ov items HR) as K.
  destruct (process_all above tok search items known) as [[cs stop] p'].
  destruct K as (R & P & X & h & hall & K1 & K2 & K3 & K4).
  destruct K3 as (H1 & H2 & H3 & H4 & HB & (C1 & C2 & C3 & C4) & HL & HBd).
  destruct stop as [|e| |]; try contradiction.
  - destruct K4 as (E & K4 & Hc & Hn). exists R, P, X, h. rewrite K2, app_nil_r in C1.
    rewrite Hc in *. cbn in C3. subst hall. destruct HB as (B1 & _).
    assert (Hnr : Forall (nrep above) (map fst X)).
    { apply Forall_map. eapply Forall_impl; [|exact Hn]. cbn. intros x Hx. unfold nrep, rep. now rewrite Hx. }
    csplit; auto.
    + now apply hist_ok_app.
    + now rewrite rpos_nrep.
    + intros Hm. destruct HBd as [(_ & _ & HBd)|(_ & _ & _ & HBd)]; [|auto].
      specialize (HBd Hm eq_refl). unfold Last. destruct h as [|[? ?] ?]; auto.
  - destruct K4 as (bad & E & Hf). exists R, bad. auto 10.
Qed.

Lemma req_no_marker lines : no_marker lines -> Req true false (ok_items lines) [].
Proof.
  intros H. split; [|discriminate]. intros _. unfold ok_items. apply Forall_map.
  eapply Forall_impl; [|exact H]. auto.
Qed.
Lemma req_none items : Req false false items [].
Proof. split; [intros [|]; discriminate|discriminate]. Qed.

Lemma ok_items_split lines R rest : ok_items lines = ok_items R ++ rest -> exists k, R = firstn k lines /\
  rest = ok_items (skipn k lines).
Proof.
  revert lines. induction R as [|[b n] R IH]; intros lines E.
  - exists 0. auto.
  - destruct lines as [|[b' n'] lines]; [discriminate|]. cbn in E. injection E as -> -> E.
    apply IH in E. destruct E as (k & -> & ->). exists (S k). auto.
Qed.

Lemma without_markers_id lines : no_marker lines -> without_markers lines = lines.
Proof.
  induction 1 as [|x l Hx _ IH]; [reflexivity|]. unfold without_markers. cbn [filter]. rewrite Hx. cbn [negb].
  f_equal. exact IH.
Qed.

Lemma ok_items_not_failing lines R bad rest e :
  all_valid lines -> ok_items lines = ok_items R ++ bad :: rest -> failing bad e -> False.
Proof.
  intros Hv E Hf. apply ok_items_split in E. destruct E as (k & _ & E).
  destruct (skipn k lines) as [|[b n] l] eqn:Es; [discriminate|]. cbn in E. injection E as -> _.
  destruct Hf as [Hf _]. unfold all_valid in Hv. rewrite <- (firstn_skipn k lines) in Hv.
  apply Forall_app in Hv. destruct Hv as [_ Hv]. rewrite Es in Hv. inversion Hv; subst. cbn in *. congruence.
Qed.

(** Streams without the marker are read to the end. *)
Lemma drained_no_marker mx ov lines :
  all_valid lines -> no_marker lines -> Req mx ov (ok_items lines) [] ->
  exists cs p' P X h,
    process_all above tok search (ok_items lines) known = (cs, PSEnd, p') /\
    src p' = [] /\ skip p' = seen_after known lines /\
    line_count p' = N.of_nat (length lines) /\ byte_count p' = total_bytes lines /\
    P ++ map fst X = annot known lines /\ buffer p' = xbuf X /\ Forall (fun x => etgt (fst x) = None) X /\
    hist_ok above mx ov (annot known lines) h /\
    cs = rev (map snd h) /\ rev (map fst h) = rpos above (annot known lines) /\ (mx = true -> Last P h).
Proof.
  intros Hv Hm HR. pose proof (drained mx ov (ok_items lines) HR) as K.
  destruct (process_all above tok search (ok_items lines) known) as [[cs stop] p'].
  destruct stop as [|e| |]; try contradiction.
  - destruct K as (R & P & X & h & E & KV & Kend & K1 & K2 & K3 & K4 & K5 & K6 & K7 & K8 & K9 & K10).
    apply ok_items_split in E. destruct E as (k & -> & E).
    assert (Hall : firstn k lines = lines /\ src p' = []).
    { destruct Kend as [Kend|(R0 & m & Kend & Hmk)].
      - rewrite Kend in E. destruct (skipn k lines) eqn:Es; [|discriminate].
        split; [|assumption]. rewrite <- (firstn_skipn k lines) at 2. rewrite Es, app_nil_r. reflexivity.
      - exfalso. unfold no_marker in Hm. rewrite <- (firstn_skipn k lines), Kend in Hm.
        rewrite !Forall_app in Hm. destruct Hm as [[_ Hm] _]. inversion Hm; subst. congruence. }
    destruct Hall as [Hall Hs]. rewrite Hall in *. rewrite (without_markers_id lines Hm) in *.
    exists cs, p', P, X, h. rewrite K4 in *. csplit; auto.
  - destruct K as (R & bad & E & _ & Hf & _). exfalso. eapply ok_items_not_failing; eauto.
Qed.

Lemma about_of_hist mx ov lines h : hist_ok above mx ov (annot known lines) h ->
  rev (map fst h) = rpos above (annot known lines) -> about lines (rev (map snd h)).
Proof.
  intros Hh E. exists (rev (map fst h)). destruct (hist_forall2 _ _ _ _ Hh). csplit; auto.
  rewrite E. apply rpos_enumerates.
Qed.

(** C10 and C11. *)
Lemma process_all_about lines : all_valid lines -> no_marker lines ->
  exists cs p', process_all above tok search (ok_items lines) known = (cs, PSEnd, p') /\ about lines cs.
Proof.
  intros Hv Hm.
  destruct (drained_no_marker true false lines Hv Hm (req_no_marker lines Hm))
    as (cs & p' & P & X & h & E & K1 & K2 & K3 & K4 & K5 & K6 & K7 & K8 & -> & K10 & K11).
  exists (rev (map snd h)), p'. split; [exact E|]. eapply about_of_hist; eauto.
Qed.

(** Any valid stream, with markers. *)
Lemma process_all_about_markers lines : all_valid lines ->
  exists k cs p', process_all above tok search (ok_items lines) known = (cs, PSEnd, p') /\
    (k = length lines \/ exists b nr, k > 0 /\ nth_error lines (k - 1) = Some (b, nr) /\ is_marker b = true) /\
    k <= length lines /\
    src p' = ok_items (skipn k lines) /\
    about (without_markers (firstn k lines)) cs /\
    (forall t, In t (skip p') <-> In t known \/ exists x, In x (without_markers (firstn k lines)) /\ tok (fst x) = t) /\
    line_count p' = N.of_nat k /\ byte_count p' = total_bytes (firstn k lines).
Proof.
  intros Hv. pose proof (drained false false (ok_items lines) (req_none _)) as K.
  destruct (process_all above tok search (ok_items lines) known) as [[cs stop] p'].
  destruct stop as [|e| |]; try contradiction.
  - destruct K as (R & P & X & h & E & KV & Kend & K1 & K2 & K3 & K4 & K5 & K6 & K7 & -> & K9 & K10).
    apply ok_items_split in E. destruct E as (k0 & -> & E).
    set (k := Nat.min k0 (length lines)).
    assert (Hk : firstn k0 lines = firstn k lines /\ skipn k0 lines = skipn k lines).
    { unfold k. destruct (Nat.min_spec k0 (length lines)) as [[_ ->]|[Hl ->]]; [auto|].
      rewrite !firstn_all2, !skipn_all2 by lia. auto. }
    assert (Hlen : length (firstn k lines) = k) by (apply firstn_length_le; unfold k; lia).
    destruct Hk as [Hk1 Hk2]. rewrite Hk1, Hk2 in *.
    exists k, (rev (map snd h)), p'. split; [reflexivity|]. rewrite K4 in *. csplit.
    + destruct Kend as [Kend|(R0 & m & Kend & Hmk)].
      * left. rewrite Kend in E. destruct (skipn k lines) eqn:Es; [|discriminate].
        apply (f_equal (@length _)) in Es. rewrite skipn_length in Es. cbn in Es. unfold k in *. lia.
      * right. destruct m as [b nr]. exists b, nr. cbn in Hmk.
        assert (Hl : length (R0 ++ [(b, nr)]) = k) by (rewrite <- Kend; exact Hlen).
        rewrite app_length in Hl. cbn in Hl. split; [lia|]. split; [|exact Hmk].
        rewrite <- (firstn_skipn k lines), Kend, <- app_assoc, nth_error_app2 by lia.
        replace (k - 1 - length R0) with 0 by lia. reflexivity.
    + unfold k. lia.
    + exact E.
    + eapply about_of_hist; eauto.
    + intros t. rewrite K1. apply seen_after_in.
    + now rewrite K2, Hlen.
    + exact K3.
  - destruct K as (R & bad & E & _ & Hf & _). exfalso. eapply ok_items_not_failing; eauto.
Qed.

(** C12. *)
Lemma process_all_contexts lines : all_valid lines -> no_marker lines ->
  exists cs p' idxs, process_all above tok search (ok_items lines) known = (cs, PSEnd, p') /\
    enumerates above tok dist known lines idxs /\ length cs = length idxs /\
    (Forall2 (describes tok dist lines) cs idxs) /\
    before_maximal (combine cs idxs) /\ after_maximal (combine cs idxs) /\
    last_after_known tok known lines (combine cs idxs) /\
    (length lines <= N.to_nat 5120 -> disjoint_contexts (combine cs idxs)).
Proof.
  intros Hv Hm.
  assert (Hmain : forall ov, (ov = true -> length lines <= N.to_nat 5120) ->
    exists cs p' idxs, process_all above tok search (ok_items lines) known = (cs, PSEnd, p') /\
    enumerates above tok dist known lines idxs /\ length cs = length idxs /\
    (Forall2 (describes tok dist lines) cs idxs) /\
    before_maximal (combine cs idxs) /\ after_maximal (combine cs idxs) /\
    last_after_known tok known lines (combine cs idxs) /\
    (ov = true -> disjoint_contexts (combine cs idxs))).
  { intros ov Hov. assert (HR : Req true ov (ok_items lines) []).
    { split; [intros _; apply (proj1 (req_no_marker lines Hm)); auto|]. intros Ho. unfold ok_items. rewrite map_length. cbn [length]. auto. }
    destruct (drained_no_marker true ov lines Hv Hm HR)
      as (cs & p' & P & X & h & E & K1 & K2 & K3 & K4 & K5 & K6 & K7 & K8 & -> & K10 & K11).
    exists (rev (map snd h)), p', (rev (map fst h)). split; [exact E|].
    destruct (hist_contexts _ _ _ _ K8) as [L1 L2]. specialize (L2 eq_refl). destruct L2 as [L2 L3].
    destruct (hist_forall2 _ _ _ _ K8) as [L4 _].
    csplit; auto.
    - rewrite K10. apply rpos_enumerates.
    - now rewrite !rev_length, !map_length.
    - intros l1 x El. rewrite combine_rev_swap in El. apply split_hist in El.
      destruct El as (h1 & h2 & Eh & _ & E2). destruct h1; [|discriminate]. cbn in Eh.
      specialize (K11 eq_refl). rewrite Eh in K11. cbn in K11. destruct K11 as [K|K]; [auto|]. right.
      intros j Hj Hf. destruct Hf as (b & nr & Hn & Hf').
      assert (Hfs : first_seen tok known lines j) by (exists b, nr; auto).
      apply (first_seen_iff above tok dist known lines j b nr Hn) in Hfs.
      pose proof (annot_nth above tok dist known lines j b nr Hn) as Ha. rewrite Hfs, <- K5 in Ha.
      rewrite nth_error_app2 in Ha by (unfold stop_of in Hj; lia). apply nth_error_In in Ha.
      apply in_map_iff in Ha. destruct Ha as (x0 & Ex & Hx). rewrite Forall_forall in K7. specialize (K7 _ Hx).
      rewrite Ex in K7. discriminate. }
  destruct (le_gt_dec (length lines) (N.to_nat 5120)) as [Hl|Hl].
  - destruct (Hmain true (fun _ => Hl)) as (cs & p' & idxs & M1 & M2 & M3 & M4 & M5 & M6 & M7 & M8).
    exists cs, p', idxs. csplit; auto.
  - destruct (Hmain false ltac:(discriminate)) as (cs & p' & idxs & M1 & M2 & M3 & M4 & M5 & M6 & M7 & M8).
    exists cs, p', idxs. csplit; auto. lia.
Qed.
End Result.
