(** Where reading stops in a stream of a single batch. *)
From Coq Require Import String List NArith Arith Bool Lia ZifyBool ZifyN ZifyNat.
From Verif Require Import Common ProcModel ProcSpec ProcStopSpec ProcIndex ProcMain ProcMore ProcRefute.
Import ListNotations.
Open Scope nat_scope.
Ltac csplit := repeat match goal with |- _ /\ _ => split end.

Section Small.
Context {D : Type}.
Variable above : D -> bool.
Variable tok : bytes -> bytes.
Variable dist : bytes -> D.
Variable known : list bytes.
Notation reported := (reported above tok dist known).
Notation toks l := (map (fun x : bytes * N => tok (fst x)) l).

Lemma first_snoc L b nr i : first_seen tok known (L ++ [(b, nr)]) i <->
  (i < length L /\ first_seen tok known L i) \/ (i = length L /\ ~ In (tok b) (known ++ toks L)).
Proof.
  unfold first_seen. split.
  - intros (b0 & nr0 & H & Hk & Hn). destruct (Nat.lt_ge_cases i (length L)) as [Hi|Hi].
    + left. split; [exact Hi|]. rewrite nth_error_app1 in H by exact Hi. exists b0, nr0. csplit; auto.
      intros j b' nr' Hj Hj'. apply (Hn j b' nr' Hj). rewrite nth_error_app1; [exact Hj'|lia].
    + right. assert (i < length (L ++ [(b, nr)])) by (apply nth_error_Some; congruence). rewrite app_length in *. cbn [length] in *.
      assert (i = length L) as -> by lia. split; [reflexivity|]. rewrite nth_error_app2, Nat.sub_diag in H by lia. cbn in H. injection H as <- <-.
      rewrite in_app_iff, in_map_iff. intros [K|((b1 & nr1) & K & K')]; [auto|]. cbn in K. apply In_nth_error in K'. destruct K' as (j & Kj).
      assert (j < length L) by (apply nth_error_Some; congruence). apply (Hn j b1 nr1); auto. rewrite nth_error_app1; auto.
  - intros [(Hi & b0 & nr0 & H & Hk & Hn)|(-> & Hn)].
    + exists b0, nr0. rewrite nth_error_app1 by exact Hi. csplit; auto. intros j b' nr' Hj Hj'. rewrite nth_error_app1 in Hj' by lia. eauto.
    + exists b, nr. rewrite nth_error_app2, Nat.sub_diag by lia. rewrite in_app_iff, in_map_iff in Hn. csplit; auto.
      intros j b' nr' Hj Hj' E. rewrite nth_error_app1 in Hj' by lia. apply nth_error_In in Hj'. apply Hn. right. exists (b', nr'). auto.
Qed.
Lemma reported_snoc L b nr i : reported (L ++ [(b, nr)]) i <->
  (i < length L /\ reported L i) \/ (i = length L /\ ~ In (tok b) (known ++ toks L) /\ above (dist (tok b)) = true).
Proof.
  unfold ProcSpec.reported. rewrite first_snoc. split.
  - intros ([(Hi & Hf)|(-> & Hn)] & b0 & nr0 & H & Ha).
    + rewrite nth_error_app1 in H by exact Hi. left. csplit; eauto.
    + rewrite nth_error_app2, Nat.sub_diag in H by lia. cbn in H. injection H as <- <-. auto.
  - intros [(Hi & Hf & b0 & nr0 & H & Ha)|(-> & Hn & Ha)].
    + split; [auto|]. exists b0, nr0. rewrite nth_error_app1; auto.
    + split; [auto|]. exists b, nr. rewrite nth_error_app2, Nat.sub_diag by lia. auto.
Qed.
Lemma reported_lt L i : reported L i -> i < length L.
Proof. intros ((b & nr & H & _) & _). apply nth_error_Some. congruence. Qed.

(** [A] ends with the last marker, [B] is the section behind it. *)
Definition Inv (A B : list (bytes * N)) (s : pace) : Prop :=
  no_marker B /\
  (A = [] \/ exists l b nr, A = l ++ [(b, nr)] /\ is_marker b = true) /\
  (forall t, In t (seen s) <-> In t (known ++ toks (without_markers A ++ B))) /\
  (size s <= N.of_nat (length A + length B))%N /\
  (fresh s <= N.of_nat (length (firsts known (toks (without_markers A ++ B)))))%N /\
  (since s <> None <-> exists i, length (without_markers A) <= i /\ reported (without_markers A ++ B) i).

Lemma wm_no_marker B : no_marker B -> without_markers B = B.
Proof.
  induction B as [|x B IH]; intros H; [reflexivity|]. inversion H as [|? ? H1 H2]; subst. unfold without_markers. cbn [filter]. rewrite H1. cbn.
  f_equal. now apply IH.
Qed.
Lemma firsts_le a b : length (firsts known a) <= length (firsts known (a ++ b)).
Proof. destruct (firsts_app a known b) as (l3 & -> & _). rewrite app_length. lia. Qed.

Lemma inv_line A B s b nr : Inv A B s -> is_marker b = false ->
  length (firsts known (toks (without_markers A ++ B ++ [(b, nr)]))) < N.to_nat 512 ->
  length A + length B + 1 <= N.to_nat 5120 ->
  Inv A (B ++ [(b, nr)]) (pace_line above tok dist s b).
Proof.
  intros (I1 & I2 & I3 & I4 & I5 & I6) Hm Hf Hl.
  assert (Enew : negb (mem_set (tok b) (seen s)) = true <-> ~ In (tok b) (known ++ toks (without_markers A ++ B))).
  { rewrite negb_true_iff, <- not_true_iff_false, mem_set_spec, I3. reflexivity. }
  assert (Efresh : length (firsts known (toks (without_markers A ++ B ++ [(b, nr)]))) =
    length (firsts known (toks (without_markers A ++ B))) + if negb (mem_set (tok b) (seen s)) then 1 else 0).
  { rewrite app_assoc, map_app. cbn [map fst]. rewrite (firsts_snoc tok), app_length. f_equal.
    destruct (in_dec _ _ _) as [K|K], (negb _); cbn; auto; exfalso; [exact (proj1 Enew eq_refl K)|apply Enew in K; discriminate]. }
  unfold pace_line. set (new := negb (mem_set (tok b) (seen s))) in *.
  set (s' := mkPace _ _ _ _). assert (Hb : batch_ends new s' = false).
  { unfold batch_ends, s'. cbn [fresh size]. destruct new; lia. }
  rewrite Hb. unfold Inv, s'. cbn [seen size fresh since]. csplit.
  - apply Forall_app. split; [exact I1|]. repeat constructor. exact Hm.
  - exact I2.
  - intros t. rewrite app_assoc, map_app, app_assoc, in_app_iff, <- I3. cbn [map fst In]. destruct new eqn:En.
    + cbn [In]. tauto.
    + split; [auto|]. intros [K|[<-|[]]]; [exact K|]. apply I3.
      destruct (in_dec (list_eq_dec N.eq_dec) (tok b) (known ++ toks (without_markers A ++ B))) as [K|K]; [exact K|].
      apply Enew in K. discriminate.
  - rewrite app_length. cbn [length]. lia.
  - rewrite Efresh. destruct new; lia.
  - rewrite app_assoc. destruct (new && above (dist (tok b))) eqn:Er.
    + apply andb_true_iff in Er. destruct Er as [E1 E2]. split; [|discriminate]. intros _.
      exists (length (without_markers A ++ B)). split; [rewrite app_length; lia|]. apply reported_snoc. right. rewrite <- Enew. auto.
    + assert (K : option_map N.succ (since s) <> None <-> since s <> None) by (destruct (since s); cbn; split; congruence).
      rewrite K, I6. split; intros (i & Hi & Hr); exists i; (split; [exact Hi|]).
      * apply reported_snoc. left. split; [now apply reported_lt|exact Hr].
      * apply reported_snoc in Hr. destruct Hr as [[_ Hr]|(_ & Hn & Ha)]; [exact Hr|]. apply Enew in Hn. rewrite Hn, Ha in Er. discriminate.
Qed.
Lemma inv_marker A B s b nr : Inv A B s -> is_marker b = true -> Inv (A ++ B ++ [(b, nr)]) [] (pace_marker s).
Proof.
  intros (I1 & I2 & I3 & I4 & I5 & I6) Hm.
  assert (E : without_markers (A ++ B ++ [(b, nr)]) ++ [] = without_markers A ++ B).
  { rewrite app_nil_r, app_assoc, without_markers_marker by exact Hm. rewrite without_markers_app. f_equal. now apply wm_no_marker. }
  unfold Inv. rewrite E. unfold pace_marker. cbn [seen size fresh since]. csplit.
  - constructor.
  - right. exists (A ++ B), b, nr. rewrite app_assoc. auto.
  - exact I3.
  - rewrite !app_length. cbn [length]. destruct (fresh s =? 0)%N; lia.
  - lia.
  - split; [congruence|]. intros (i & Hi & Hr). apply reported_lt in Hr. rewrite app_nil_r in E. rewrite E in Hi. lia.
Qed.

Lemma section_unique A B A' B' : A ++ B = A' ++ B' -> no_marker B -> no_marker B' ->
  (A = [] \/ exists l b nr, A = l ++ [(b, nr)] /\ is_marker b = true) ->
  (A' = [] \/ exists l b nr, A' = l ++ [(b, nr)] /\ is_marker b = true) -> A = A'.
Proof.
  assert (K : forall A B A' B' : list (bytes * N), A ++ B = A' ++ B' -> no_marker B ->
    (A' = [] \/ exists l b nr, A' = l ++ [(b, nr)] /\ is_marker b = true) -> length A' <= length A).
  { intros a b a' b' E Hb H. destruct H as [-> |(l & x & nr & -> & Hx)]; [cbn; lia|].
    destruct (Nat.le_gt_cases (length (l ++ [(x, nr)])) (length a)) as [?|Hlt]; [assumption|exfalso].
    rewrite app_length in Hlt. cbn [length] in Hlt.
    assert (Hn : nth_error (a ++ b) (length l) = Some (x, nr)).
    { rewrite E, <- app_assoc, nth_error_app2, Nat.sub_diag by lia. reflexivity. }
    rewrite nth_error_app2 in Hn by lia. apply nth_error_In in Hn. unfold no_marker in Hb. rewrite Forall_forall in Hb.
    specialize (Hb _ Hn). cbn [fst] in Hb. congruence. }
  intros E Hb Hb' HA HA'. pose proof (K _ _ _ _ E Hb HA'). pose proof (K _ _ _ _ (eq_sym E) Hb' HA).
  apply (f_equal (firstn (length A))) in E. rewrite firstn_app, Nat.sub_diag, firstn_all in E. cbn [firstn] in E. rewrite app_nil_r in E.
  replace (length A) with (length A') in E by lia. rewrite firstn_app, Nat.sub_diag, firstn_all in E. cbn [firstn] in E. now rewrite app_nil_r in E.
Qed.

Lemma quiet_iff A B s b nr rest : Inv A B s -> is_marker b = true ->
  (quiet_at above tok dist known (A ++ B ++ (b, nr) :: rest) (length A + length B) <-> since s = None).
Proof.
  intros (I1 & I2 & I3 & I4 & I5 & I6) Hm.
  assert (Ef : firstn (length A + length B) (A ++ B ++ (b, nr) :: rest) = A ++ B).
  { rewrite app_assoc, <- app_length, firstn_app, Nat.sub_diag, firstn_all. cbn [firstn]. now rewrite app_nil_r. }
  split.
  - intros (_ & A' & B' & E & H1 & H2 & H3). rewrite Ef in E. pose proof (section_unique _ _ _ _ E I1 H1 I2 H2). subst A'.
    apply app_inv_head in E. subst B'. destruct (since s) eqn:Es; [|reflexivity]. destruct (proj1 I6) as (i & Hi & Hr); [congruence|].
    destruct (H3 i Hi Hr).
  - intros Hs. split.
    + exists b, nr. split; [|exact Hm]. rewrite app_assoc, <- app_length, nth_error_app2, Nat.sub_diag by lia. reflexivity.
    + exists A, B. csplit; auto. intros i Hi Hr. assert (since s <> None) by (apply I6; eauto). congruence.
Qed.

Lemma small_stop : forall rest A B s,
  Inv A B s ->
  length (firsts known (toks (without_markers (A ++ B ++ rest)))) < N.to_nat 512 ->
  length (A ++ B ++ rest) <= N.to_nat 5120 ->
  let k := length A + length B + lines_read above tok dist s rest in
  (forall j, length A + length B <= j -> quiet_at above tok dist known (A ++ B ++ rest) j -> k <= S j) /\
  (k = length (A ++ B ++ rest) \/ exists j, k = S j /\ quiet_at above tok dist known (A ++ B ++ rest) j).
Proof.
  induction rest as [|[b nr] rest IH]; intros A B s HI Hf Hl; cbn zeta; cbn [lines_read].
  - rewrite !app_length, Nat.add_0_r. cbn [length]. split; [lia|left; lia].
  - destruct (is_marker b) eqn:Em.
    + pose proof (quiet_iff A B s b nr rest HI Em) as Hq. destruct (since s) eqn:Es.
      * pose proof (inv_marker A B s b nr HI Em) as HI'.
        assert (E : (A ++ B ++ [(b, nr)]) ++ [] ++ rest = A ++ B ++ (b, nr) :: rest) by (cbn [app]; now rewrite <- !app_assoc).
        destruct (IH _ _ _ HI') as (K1 & K2); rewrite E in *; try assumption.
        rewrite !app_length in K1, K2. cbn [length] in K1, K2.
        set (m := lines_read above tok dist (pace_marker s) rest) in *.
        replace (length A + (length B + 1) + 0 + m) with (length A + length B + S m) in * by lia.
        split; [|exact K2]. intros j Hj Hq'.
        destruct (Nat.eq_dec j (length A + length B)) as [-> |Hne]; [apply Hq in Hq'; discriminate|]. apply K1; [lia|exact Hq'].
      * split; [lia|]. right. exists (length A + length B). split; [lia|]. now apply Hq.
    + assert (E : A ++ (B ++ [(b, nr)]) ++ rest = A ++ B ++ (b, nr) :: rest) by now rewrite <- app_assoc.
      assert (HI' : Inv A (B ++ [(b, nr)]) (pace_line above tok dist s b)).
      { destruct HI as (I1 & HI). apply inv_line; [split; assumption|exact Em| |].
        - eapply Nat.le_lt_trans; [|exact Hf].
          replace (A ++ B ++ (b, nr) :: rest) with ((A ++ B ++ [(b, nr)]) ++ rest) by (rewrite <- !app_assoc; reflexivity).
          rewrite (without_markers_app (A ++ B ++ [(b, nr)])), (without_markers_app A), (wm_no_marker (B ++ [(b, nr)])), (map_app _ (without_markers A ++ B ++ [(b, nr)])).
          + apply firsts_le.
          + apply Forall_app. split; [exact I1|]. repeat constructor. exact Em.
        - rewrite !app_length in Hl. cbn [length] in Hl. lia. }
      destruct (IH _ _ _ HI') as (K1 & K2); rewrite E in *; try assumption.
      rewrite !app_length in K1, K2. cbn [length] in K1, K2.
      set (m := lines_read above tok dist (pace_line above tok dist s b) rest) in *.
      replace (length A + (length B + 1) + m) with (length A + length B + S m) in * by lia.
      split; [|exact K2]. intros j Hj Hq.
      destruct (Nat.eq_dec j (length A + length B)) as [-> |Hne]; [|apply K1; [lia|exact Hq]].
      destruct Hq as ((b0 & nr0 & Hn & Hm) & _). rewrite app_assoc, <- app_length, nth_error_app2, Nat.sub_diag in Hn by lia. cbn in Hn.
      injection Hn as <- <-. congruence.
Qed.

Lemma inv_start : Inv [] [] (pace_new known).
Proof.
  unfold Inv, pace_new. cbn [seen size fresh since without_markers filter app length map]. csplit; try lia.
  - constructor.
  - now left.
  - intros t. rewrite app_nil_r. reflexivity.
  - split; [congruence|]. intros (i & _ & Hr). apply reported_lt in Hr. cbn in Hr. lia.
Qed.
End Small.
