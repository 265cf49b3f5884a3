(** Property C71: the command that checks datasets. *)
From Coq Require Import String List NArith Arith Bool Lia Permutation.
From Verif Require Import Common CommonFacts TokSpec TokModel ProcModel ProcSpec ProcInv ProcResult ProcStopSpec P_Proc IndexModel IndexSpec P_Index
  FilesModel FilesSpec FilesSources ReportModel ReportSpec ReportProofs P_Report P_Compare P_Complete DatasetModel DatasetSpec DatasetProofs.
Import ListNotations.
Open Scope N_scope.

Section Dataset.
Context {D : Type} (above : D -> bool) (tok : bytes -> bytes)
  (search_of : list (list bytes) -> list bytes -> list D) (dist_of : list (list bytes) -> bytes -> D)
  (open : source -> res (bool -> list item)) (err_text : option N -> text)
  (drain : list (text * list source) -> list (text * list source))
  (load_inf : bytes -> res dataset) (read_dir : bytes -> res (list (res bytes))).
Notation process := (process above tok search_of open err_text drain read_dir).
Notation test_datasets := (test_datasets above tok search_of open err_text drain load_inf read_dir).

(** The command succeeds if and only if each dataset does. *)
Theorem C71_all_datasets : forall paths,
  test_datasets paths = Val tt <-> Forall (fun p => exists expected, load_inf p = Val expected /\ process p expected = Val tt) paths.
Proof.
  induction paths as [|p paths IH]; [split; [constructor|reflexivity]|]. cbn [DatasetModel.test_datasets]. split.
  - destruct (load_inf p) as [ex|e|] eqn:L; try discriminate. destruct (process p ex) as [[]|e|] eqn:P; try discriminate.
    intros H. constructor; [eauto|now apply IH].
  - intros H. inversion H as [|? ? (ex & L & P) H2]. subst. rewrite L, P. now apply IH.
Qed.
(** Else its result is that of the first that does not, and the others are not looked at. *)
Theorem C71_first_failure : forall before p rest,
  Forall (fun q => exists expected, load_inf q = Val expected /\ process q expected = Val tt) before ->
  (forall e, load_inf p = Fail e -> test_datasets (before ++ p :: rest) = Fail e) /\
  (forall expected e, load_inf p = Val expected -> process p expected = Fail e -> test_datasets (before ++ p :: rest) = Fail e) /\
  (load_inf p = Panic \/ (exists expected, load_inf p = Val expected /\ process p expected = Panic) -> test_datasets (before ++ p :: rest) = Panic).
Proof.
  intros before p rest H. induction H as [|q before (ex & L & P) _ (IH1 & IH2 & IH3)]; cbn [app DatasetModel.test_datasets].
  - csplit; [intros e ->; reflexivity|intros ex e -> ->; reflexivity|]. intros [->|(ex & -> & ->)]; reflexivity.
  - rewrite L, P. auto.
Qed.

(** A dataset with both files, both opened, the second one a stream of valid lines: its
    result.  [positions] are the lines to report of the lines read of the second file; the
    index has the distinct tokenized lines of the first file. *)
Theorem C71_any_stream : forall d expected names good fail items items' lines,
  (forall batches, pointwise (search_of batches) (dist_of batches)) -> (forall l, Permutation (drain l) l) ->
  read_dir d = Val (map Val names) -> Forall normal_name names ->
  first_such (named_with (lit "good")) names good -> first_such (named_with (lit "fail")) names fail ->
  outside_etc (join d good) ->
  open (Local 0 (join d good)) = Val items -> open (Local 0 (join d fail)) = Val items' ->
  items' false = ok_items lines -> all_valid lines ->
  exists batches positions,
    concat batches = firsts [] (map (fun x => tok (fst x)) (good_prefix (items false))) /\
    (let read := without_markers (firstn (lines_read above tok (dist_of batches) (pace_new []) lines) lines) in
     enumerates above tok (dist_of batches) [] read positions /\
     (process d expected = Val tt <->
      Forall2 (fun e i => exists line nr, nth_error read i = Some (line, nr) /\ includes e line) expected positions)) /\
    process d expected <> Panic.
Proof.
  intros d expected names good fail items items' lines Hs Hd Hr Hn Hg Hf Ho Og Of Hi Hv.
  assert (Ng : named_with (lit "good") good) by (destruct Hg as (? & ? & _ & ? & _); assumption).
  assert (Nf : named_with (lit "fail") fail) by (destruct Hf as (? & ? & _ & ? & _); assumption).
  destruct (index_one tok open d good items Ng Og) as (ix & E1 & E2).
  destruct (train_one tok open drain d good Hd (good_valid d good Ng Ho)) as (n & E3). rewrite E1 in E3.
  destruct (C14_exact D above tok (search_of (ix_batches ix)) (dist_of (ix_batches ix)) [] lines (Hs _) Hv)
    as (cs & fin & ps & E4 & _ & _ & (E5 & E6 & _) & _).
  assert (P : process d expected = compare expected cs).
  { rewrite (process_files above tok search_of open err_text drain read_dir d expected names good fail Hr Hn Hg Hf).
    rewrite E3, get_one, (inspect_open above tok search_of open err_text ix d fail items' Nf Of), Hi, E4. reflexivity. }
  exists (ix_batches ix), ps. split; [exact E2|]. split; [|rewrite P; apply compare_safe].
  cbn zeta. split; [exact E5|]. rewrite P, compare_ok. clear - E6. split.
  - intros H. revert expected H. induction E6 as [|c i cs ps [Hc _] _ IH]; intros ex H; inversion H; subst; constructor; eauto.
  - revert expected. induction E6 as [|c i cs ps [Hc _] _ IH]; intros ex H; inversion H as [|? ? ? ? (x & nr & X1 & X2)]; subst; constructor; auto.
    rewrite Hc in X1. injection X1 as <- _. exact X2.
Qed.

(** Without markers all lines are read: the test passes if and only if the lines to report
    are as many as the expected ones, and each includes the expected one. *)
Lemma lines_read_all dist s lines : no_marker lines -> lines_read above tok dist s lines = length lines.
Proof.
  revert s. induction lines as [|[b nr] lines IH]; intros s H; [reflexivity|]. inversion H as [|? ? H1 H2]. subst. cbn [fst] in H1.
  cbn [lines_read length]. rewrite H1. now rewrite IH.
Qed.
Theorem C71_exact : forall d expected names good fail items items' lines,
  (forall batches, pointwise (search_of batches) (dist_of batches)) -> (forall l, Permutation (drain l) l) ->
  read_dir d = Val (map Val names) -> Forall normal_name names ->
  first_such (named_with (lit "good")) names good -> first_such (named_with (lit "fail")) names fail ->
  outside_etc (join d good) ->
  open (Local 0 (join d good)) = Val items -> open (Local 0 (join d fail)) = Val items' ->
  items' false = ok_items lines -> all_valid lines -> no_marker lines ->
  exists batches positions,
    concat batches = firsts [] (map (fun x => tok (fst x)) (good_prefix (items false))) /\
    enumerates above tok (dist_of batches) [] lines positions /\
    (process d expected = Val tt <->
     Forall2 (fun e i => exists line nr, nth_error lines i = Some (line, nr) /\ includes e line) expected positions).
Proof.
  intros d expected names good fail items items' lines Hs Hd Hr Hn Hg Hf Ho Og Of Hi Hv Hm.
  destruct (C71_any_stream d expected names good fail items items' lines Hs Hd Hr Hn Hg Hf Ho Og Of Hi Hv) as (batches & ps & H1 & (H2 & H3) & _).
  exists batches, ps. rewrite lines_read_all, firstn_all, (no_marker_id _ Hm) in H2, H3 by exact Hm. auto.
Qed.

(** Passing always means this: both files were there and could be read to their ends, and the
    anomalies found in the second, with the first as baseline, include the expected lines. *)
Theorem C71_passing : forall d expected names,
  (forall batches, pointwise (search_of batches) (dist_of batches)) -> (forall l, Permutation (drain l) l) ->
  read_dir d = Val (map Val names) -> Forall normal_name names -> process d expected = Val tt ->
  exists good fail items items' batches anomalies lines,
    first_such (named_with (lit "good")) names good /\ first_such (named_with (lit "fail")) names fail /\
    outside_etc (join d good) /\
    open (Local 0 (join d good)) = Val items /\ open (Local 0 (join d fail)) = Val items' /\
    concat batches = firsts [] (map (fun x => tok (fst x)) (good_prefix (items false))) /\
    analysis above tok (dist_of batches) [] (items' false) anomalies None lines /\
    Forall2 (fun e c => includes e (aline c)) expected anomalies.
Proof.
  intros d expected names Hs Hd Hr Hn H.
  assert (K : forall e, e = lit "good" \/ e = lit "fail" -> exists x, first_such (named_with e) names x).
  { intros e He.
    assert (Hdec : forall y, In y names -> has_extension e (join d y) = true <-> named_with e y).
    { intros y Hy. rewrite Forall_forall in Hn. apply extension_named; auto. destruct He as [-> | ->]; cbn; intuition discriminate. }
    destruct (find (fun y => has_extension e (join d y)) names) as [x|] eqn:F.
    - exists x. eapply first_of_find; [|exact F]. exact Hdec.
    - rewrite (process_missing above tok search_of open err_text drain read_dir d expected names e Hr Hn He) in H; [discriminate|].
      apply Forall_forall. intros y Hy Hc. apply Hdec in Hc; auto. apply (find_none _ _ F) in Hy. congruence. }
  destruct (K (lit "good") (or_introl eq_refl)) as (good & Hg). destruct (K (lit "fail") (or_intror eq_refl)) as (fail & Hf).
  assert (Ng : named_with (lit "good") good) by (destruct Hg as (? & ? & _ & ? & _); assumption).
  assert (Nf : named_with (lit "fail") fail) by (destruct Hf as (? & ? & _ & ? & _); assumption).
  rewrite (process_files above tok search_of open err_text drain read_dir d expected names good fail Hr Hn Hg Hf) in H.
  destruct (is_valid (Local 0 (join d good))) eqn:V; [|rewrite (train_one_no tok open drain d good V) in H; discriminate].
  assert (Ho : outside_etc (join d good)).
  { intros t Ht Hi. apply is_valid_ok in V. apply V. right. cbn. now rewrite Ht. }
  destruct (train_one tok open drain d good Hd V) as (n & E3). rewrite E3 in H. clear E3.
  destruct (open (Local 0 (join d good))) as [items|e|] eqn:Og.
  2,3: exfalso; unfold index_train in H; rewrite (not_json (lit "good") d good Ng) in H by auto; cbn [train_group] in H; rewrite Og in H; discriminate.
  destruct (index_one tok open d good items Ng Og) as (ix & E1 & E2). rewrite E1, get_one in H.
  destruct (open (Local 0 (join d fail))) as [items'|e|] eqn:Of.
  2: rewrite (inspect_not_open above tok search_of open err_text ix d fail e Of) in H; discriminate.
  2: { exfalso. unfold inspect_all, get_processor in H.
       assert (R : get_relative (Local 0 (join d fail)) = Some (as_str (Local 0 (join d fail)))) by (unfold get_relative; destruct (as_str _); reflexivity).
       rewrite R, Of in H. discriminate. }
  rewrite (inspect_open above tok search_of open err_text ix d fail items' Nf Of) in H.
  destruct (process_all above tok (search_of (ix_batches ix)) (items' false) []) as [[cs stop] fin] eqn:E.
  destruct (process_all_analysis above tok search_of dist_of Hs _ _ _ _ _ _ E) as (err & lines & S1 & S2 & _).
  rewrite S1 in H. destruct err as [e|]; [discriminate|]. apply compare_ok in H.
  exists good, fail, items, items', (ix_batches ix), cs, lines. csplit; auto.
Qed.

(** What else can happen, with the errors: a file is missing, the first file is below a
    directory named etc, a file cannot be opened, the second file cannot be read. *)
Theorem C71_errors : forall d expected names,
  (forall batches, pointwise (search_of batches) (dist_of batches)) -> (forall l, Permutation (drain l) l) ->
  read_dir d = Val (map Val names) -> Forall normal_name names ->
  (forall e, e = lit "good" \/ e = lit "fail" -> Forall (fun x => ~ named_with e x) names ->
     process d expected = Fail (lit "Can't find .good and .fail files")) /\
  (forall good fail, first_such (named_with (lit "good")) names good -> first_such (named_with (lit "fail")) names fail ->
     (~ outside_etc (join d good) -> process d expected = Fail (lit "Empty sources")) /\
     (outside_etc (join d good) ->
      (forall e, open (Local 0 (join d good)) = Fail e -> process d expected = Fail e) /\
      (forall items e, open (Local 0 (join d good)) = Val items -> open (Local 0 (join d fail)) = Fail e -> process d expected = Fail e) /\
      (forall items items' lines bad rest e, open (Local 0 (join d good)) = Val items -> open (Local 0 (join d fail)) = Val items' ->
         items' false = ok_items lines ++ bad :: rest -> all_valid lines -> no_marker lines -> failing bad e ->
         process d expected = Fail (err_text e)))).
Proof.
  intros d expected names Hs Hd Hr Hn. split.
  - intros e He Hm. exact (process_missing above tok search_of open err_text drain read_dir d expected names e Hr Hn He Hm).
  - intros good fail Hg Hf.
    assert (Ng : named_with (lit "good") good) by (destruct Hg as (? & ? & _ & ? & _); assumption).
    assert (Nf : named_with (lit "fail") fail) by (destruct Hf as (? & ? & _ & ? & _); assumption).
    rewrite (process_files above tok search_of open err_text drain read_dir d expected names good fail Hr Hn Hg Hf). split.
    { intros Ho. now rewrite (train_one_no tok open drain d good (good_excluded d good Ho)). }
    intros Ho. destruct (train_one tok open drain d good Hd (good_valid d good Ng Ho)) as (n & E3). rewrite E3. csplit.
    + intros e Og. unfold index_train. rewrite (not_json (lit "good") d good Ng) by auto. cbn [train_group]. now rewrite Og.
    + intros items e Og Of. destruct (index_one tok open d good items Ng Og) as (ix & E1 & _). rewrite E1, get_one.
      now rewrite (inspect_not_open above tok search_of open err_text ix d fail e Of).
    + intros items items' lines bad rest e Og Of Hi Hv Hm Hb. destruct (index_one tok open d good items Ng Og) as (ix & E1 & _). rewrite E1, get_one.
      rewrite (inspect_open above tok search_of open err_text ix d fail items' Nf Of), Hi.
      destruct (C16_prefix_before_failure D above tok (search_of (ix_batches ix)) (dist_of (ix_batches ix)) [] lines bad rest e (Hs _) Hv Hm Hb)
        as (cs & fin & -> & _). reflexivity.
Qed.

(** No panic, if none in the file system calls. *)
Theorem C71_no_panic : forall d expected names,
  (forall batches, pointwise (search_of batches) (dist_of batches)) -> (forall l, Permutation (drain l) l) ->
  read_dir d = Val (map Val names) -> Forall normal_name names -> (forall s, open s <> Panic) ->
  process d expected <> Panic.
Proof.
  intros d expected names Hs Hd Hr Hn Hp.
  assert (K : forall e, e = lit "good" \/ e = lit "fail" -> (exists x, first_such (named_with e) names x) \/ Forall (fun x => ~ named_with e x) names).
  { intros e He.
    assert (Hdec : forall y, In y names -> has_extension e (join d y) = true <-> named_with e y).
    { intros y Hy. rewrite Forall_forall in Hn. apply extension_named; auto. destruct He as [-> | ->]; cbn; intuition discriminate. }
    destruct (find (fun y => has_extension e (join d y)) names) as [x|] eqn:F.
    - left. exists x. eapply first_of_find; [|exact F]. exact Hdec.
    - right. apply Forall_forall. intros y Hy Hc. apply Hdec in Hc; auto. apply (find_none _ _ F) in Hy. congruence. }
  destruct (C71_errors d expected names Hs Hd Hr Hn) as [M1 M2].
  destruct (K (lit "good") (or_introl eq_refl)) as [(good & Hg)|Kg]; [|rewrite (M1 _ (or_introl eq_refl) Kg); discriminate].
  destruct (K (lit "fail") (or_intror eq_refl)) as [(fail & Hf)|Kf]; [|rewrite (M1 _ (or_intror eq_refl) Kf); discriminate].
  destruct (M2 good fail Hg Hf) as [M3 M4].
  destruct (is_valid (Local 0 (join d good))) eqn:V.
  - assert (Ho : outside_etc (join d good)).
    { intros t Ht Hi. apply is_valid_ok in V. apply V. right. cbn. now rewrite Ht. }
    destruct (M4 Ho) as (M5 & M6 & _).
    destruct (open (Local 0 (join d good))) as [items|e|] eqn:Og; [|rewrite (M5 e eq_refl); discriminate|elim (Hp _ Og)].
    destruct (open (Local 0 (join d fail))) as [items'|e|] eqn:Of; [|rewrite (M6 items e eq_refl eq_refl); discriminate|elim (Hp _ Of)].
    assert (Ng : named_with (lit "good") good) by (destruct Hg as (? & ? & _ & ? & _); assumption).
    assert (Nf : named_with (lit "fail") fail) by (destruct Hf as (? & ? & _ & ? & _); assumption).
    rewrite (process_files above tok search_of open err_text drain read_dir d expected names good fail Hr Hn Hg Hf).
    destruct (train_one tok open drain d good Hd V) as (n & ->). destruct (index_one tok open d good items Ng Og) as (ix & -> & _). rewrite get_one.
    rewrite (inspect_open above tok search_of open err_text ix d fail items' Nf Of).
    destruct (process_all above tok (search_of (ix_batches ix)) (items' false) []) as [[cs stop] fin] eqn:E.
    destruct (process_all_analysis above tok search_of dist_of Hs _ _ _ _ _ _ E) as (err & lines & -> & _).
    destruct err; [discriminate|]. apply compare_safe.
  - rewrite (process_files above tok search_of open err_text drain read_dir d expected names good fail Hr Hn Hg Hf).
    rewrite (train_one_no tok open drain d good V). discriminate.
Qed.
End Dataset.

(** With the index of the program: if every line of the second file has the tokenized form of
    a line of the first, the test passes if and only if nothing is expected. *)
Theorem C71_same_content : forall hash fused tok open err_text drain read_dir d expected names good fail items items' lines,
  (forall l, Permutation (drain l) l) ->
  read_dir d = Val (map Val names) -> Forall normal_name names ->
  first_such (named_with (lit "good")) names good -> first_such (named_with (lit "fail")) names fail ->
  outside_etc (join d good) ->
  open (Local 0 (join d good)) = Val items -> open (Local 0 (join d fail)) = Val items' ->
  items' false = ok_items lines -> all_valid lines -> no_marker lines ->
  (forall x, In x lines -> exists y, In y (good_prefix (items false)) /\ tok (fst y) = tok (fst x)) ->
  (process above_threshold tok (real_search hash fused) open err_text drain read_dir d expected = Val tt <-> expected = []).
Proof.
  intros hash fused tok open err_text drain read_dir d expected names good fail items items' lines Hd Hr Hn Hg Hf Ho Og Of Hi Hv Hm Hall.
  destruct (C71_exact above_threshold tok (real_search hash fused) (real_dist hash fused) open err_text drain read_dir
    d expected names good fail items items' lines (real_pointwise hash fused) Hd Hr Hn Hg Hf Ho Og Of Hi Hv Hm) as (batches & ps & H1 & [_ H2] & H3).
  assert (ps = []) as ->.
  { destruct ps as [|i ps]; [reflexivity|]. exfalso. destruct (proj1 (H2 i) (or_introl eq_refl)) as [_ (b & nr & B1 & B2)].
    destruct (Hall (b, nr) (nth_error_In _ _ B1)) as (y & Y1 & Y2). cbn [fst] in Y2.
    rewrite real_known in B2; [discriminate|]. rewrite H1, <- Y2. apply C18_firsts_meaning. split; [|intros []].
    apply (in_map (fun x => tok (fst x))). exact Y1. }
  rewrite H3. split; [intros H; now inversion H|intros ->; constructor].
Qed.

(** ** A case: the file 1.good has the lines a and b, 2.fail the lines a, boom and c. *)
Definition ds_names : list bytes := map lit ["inf.yaml"; "1.good"; "old.fail.txt"; "2.fail"; "3.good"]%string.
Definition ds_open (s : source) : res (bool -> list item) :=
  match s with
  | Local _ p => if eqb_list p (lit "ds/1.good") then Val (fun _ => ok_items [(lit "a", 1); (lit "b", 2)])
                 else if eqb_list p (lit "ds/2.fail") then Val (fun _ => ok_items [(lit "a", 1); (lit "boom", 2); (lit "c", 3)])
                 else Fail (lit "No such file")
  | Remote _ _ => Panic
  end.
Definition ds_process := process (fun b : bool => b) (fun t => t) exact_search ds_open (fun _ => lit "error") (fun l => l)
  (fun _ => Val (map Val ds_names)) (lit "ds").
Example C71_example : ds_process [lit " oo "; lit "c"] = Val tt /\ ds_process [lit "oo"] = Fail mismatch /\
  ds_process [lit "c"; lit "oo"] = Fail not_expected.
Proof. vm_compute. auto. Qed.
Example C71_example_hyps : Forall normal_name ds_names /\
  first_such (named_with (lit "good")) ds_names (lit "1.good") /\ first_such (named_with (lit "fail")) ds_names (lit "2.fail") /\
  outside_etc (join (lit "ds") (lit "1.good")) /\ all_valid [(lit "a", 1); (lit "boom", 2); (lit "c", 3)] /\
  no_marker [(lit "a", 1); (lit "boom", 2); (lit "c", 3)].
Proof.
  assert (N1 : Forall normal_name ds_names).
  { apply Forall_forall. intros x Hx. unfold ds_names in Hx. cbn [map In] in Hx.
    repeat (destruct Hx as [<-|Hx]; [split; [discriminate|split; [|split; discriminate]]; cbn; intuition discriminate|]). destruct Hx. }
  assert (F : forall e x, ~ In 46 e -> find (fun y => has_extension e (join (lit "ds") y)) ds_names = Some x -> first_such (named_with e) ds_names x).
  { intros e x He. apply (first_of_find _ (named_with e)). intros y Hy. apply extension_named; auto. rewrite Forall_forall in N1. auto. }
  csplit; [exact N1|apply F; [cbn; intuition discriminate|reflexivity]|apply F; [cbn; intuition discriminate|reflexivity]| |repeat constructor|repeat constructor].
  intros t Ht Hi. apply contains_spec in Hi. injection Ht as <-. discriminate.
Qed.

Print Assumptions C71_all_datasets.
Print Assumptions C71_first_failure.
Print Assumptions C71_any_stream.
Print Assumptions C71_exact.
Print Assumptions C71_passing.
Print Assumptions C71_errors.
Print Assumptions C71_no_panic.
Print Assumptions C71_same_content.
