(** Property C72: the generated logs. *)
From Coq Require Import String List NArith Arith Bool Lia.
From Verif Require Import Common CommonFacts TokSpec IterModel IterSpec IterMain P_Iter ProcSpec ProcInv P_Report GenerateModel.
Import ListNotations.
Open Scope N_scope.

(** The draws are in range; ASCII letters and digits are sampled. *)
Definition ranges {R} (gen_range : N -> N -> R -> N * R) : Prop :=
  forall lo hi r, lo < hi -> lo <= fst (gen_range lo hi r) < hi.
Definition samples {R} (sample : R -> N * R) : Prop := forall r, alnum (fst (sample r)).

(** A word, and a line: words with single spaces between them. *)
Definition generated_word (w : bytes) : Prop := Forall alnum w /\ (2 <= length w <= 17)%nat.
Inductive spaced : list bytes -> bytes -> Prop :=
| SpacedOne w : spaced [w] w
| SpacedMore w ws l : spaced ws l -> spaced (w :: ws) (w ++ [32] ++ l).
Definition generated_line (l : bytes) : Prop :=
  exists ws, (2 <= length ws <= 9)%nat /\ Forall generated_word ws /\ spaced ws l.

Section Generate.
Context {R : Type} (gen_range : N -> N -> R -> N * R) (sample : R -> N * R) (fixed_rng : R).
Hypothesis Hr : ranges gen_range.
Hypothesis Hs : samples sample.

Lemma gen_word_ok n : forall r, Forall alnum (fst (gen_word sample n r)) /\ length (fst (gen_word sample n r)) = n.
Proof.
  induction n as [|n IH]; intros r; cbn [gen_word]; [split; [constructor|reflexivity]|]. pose proof (Hs r) as H. destruct (sample r) as [c r1]. cbn [fst] in H.
  specialize (IH r1). destruct (gen_word sample n r1) as [w r2]. cbn [fst length] in *. destruct IH as [I1 I2]. split; [now constructor|now rewrite I2].
Qed.
Lemma gen_words_ok n : forall acc r, exists ws, length ws = n /\ Forall generated_word ws /\
  fst (gen_words gen_range sample n acc r) = acc ++ concat (map (fun w => w ++ [32]) ws).
Proof.
  induction n as [|n IH]; intros acc r; cbn [gen_words]; [exists []; csplit; auto; cbn; now rewrite app_nil_r|].
  pose proof (Hr 2 18 r ltac:(lia)) as H. destruct (gen_range 2 18 r) as [size r1]. cbn [fst] in H.
  pose proof (gen_word_ok (N.to_nat size) r1) as [W1 W2]. destruct (gen_word sample (N.to_nat size) r1) as [w r2]. cbn [fst] in W1, W2.
  destruct (IH (acc ++ w ++ [32]) r2) as (ws & I1 & I2 & I3). exists (w :: ws). rewrite I3. cbn [length map concat]. csplit; auto.
  - constructor; auto. split; [exact W1|]. lia.
  - now rewrite !app_assoc.
Qed.
Lemma spaced_concat ws : ws <> [] -> spaced ws (removelast (concat (map (fun w => w ++ [32]) ws))).
Proof.
  induction ws as [|w ws IH]; [congruence|]. intros _. cbn [map concat]. destruct ws as [|w' ws].
  - cbn [map concat]. rewrite app_nil_r, removelast_last. constructor.
  - rewrite removelast_app by (cbn [map concat]; destruct w'; discriminate). rewrite <- app_assoc. constructor. apply IH. discriminate.
Qed.
Lemma gen_line_ok r : generated_line (fst (gen_line gen_range sample r)).
Proof.
  unfold gen_line. pose proof (Hr 2 10 r ltac:(lia)) as H. destruct (gen_range 2 10 r) as [count r1]. cbn [fst] in H.
  destruct (gen_words_ok (N.to_nat count) [] r1) as (ws & W1 & W2 & W3). destruct (gen_words gen_range sample (N.to_nat count) [] r1) as [res r2].
  cbn [fst app] in *. subst res. exists ws. csplit; try lia; auto. apply spaced_concat. intros ->. cbn in W1. lia.
Qed.
Lemma take_lines_ok n : forall r, length (take_lines gen_range sample n r) = n /\ Forall generated_line (take_lines gen_range sample n r).
Proof.
  induction n as [|n IH]; intros r; cbn [take_lines]; [split; [reflexivity|constructor]|]. pose proof (gen_line_ok r) as H. destruct (gen_line gen_range sample r) as [l r1]. cbn [fst] in H.
  destruct (IH r1) as [I1 I2]. split; [cbn; now rewrite I1|now constructor].
Qed.
(** Any number of lines, each of 2 to 9 words of 2 to 17 letters and digits. *)
Theorem C72_lines : forall n, length (gen_lines gen_range sample fixed_rng n) = n /\ Forall generated_line (gen_lines gen_range sample fixed_rng n).
Proof. intros n. apply take_lines_ok. Qed.
(** Asking for more lines gives the same first lines. *)
Theorem C72_prefix : forall n m, gen_lines gen_range sample fixed_rng n = firstn n (gen_lines gen_range sample fixed_rng (n + m)).
Proof.
  intros n m. unfold gen_lines. generalize fixed_rng as r. induction n as [|n IH]; intros r; [reflexivity|]. cbn [Nat.add take_lines].
  destruct (gen_line gen_range sample r) as [l r1]. cbn [firstn]. f_equal. apply IH.
Qed.
End Generate.

(** A line has 5 to 161 characters: letters, digits, spaces.  It fits in the reserved 256. *)
Lemma spaced_length ws l : spaced ws l -> Forall generated_word ws -> (3 * length ws <= length l + 1 /\ length l + 1 <= 18 * length ws)%nat.
Proof.
  induction 1 as [w|w ws l Hsp IH]; intros H; inversion H as [|? ? [_ Hw] Hws]; subst; cbn [length].
  - lia.
  - rewrite !app_length. cbn [length]. specialize (IH Hws). lia.
Qed.
Lemma spaced_chars ws l : spaced ws l -> Forall generated_word ws -> Forall (fun c => alnum c \/ c = 32) l.
Proof.
  induction 1 as [w|w ws l Hsp IH]; intros H; inversion H as [|? ? [Hw _] Hws]; subst.
  - eapply Forall_impl; [|exact Hw]. auto.
  - apply Forall_app. split; [eapply Forall_impl; [|exact Hw]; auto|]. constructor; auto.
Qed.
Theorem C72_length : forall l, generated_line l -> (5 <= length l <= 161)%nat.
Proof. intros l (ws & H1 & H2 & H3). pose proof (spaced_length ws l H3 H2). lia. Qed.

(** What is read back, in both modes and however the bytes arrive: these lines. *)
Lemma feed_line json l : Forall (fun c => alnum c \/ c = 32) l -> forall cur n rest,
  lex (mkLex (if json : bool then Some false else None) false cur n) (l ++ rest) =
  lex (mkLex (if json then Some false else None) false (cur ++ l) n) rest.
Proof.
  induction 1 as [|c l Hc _ IH]; intros cur n rest; cbn [app lex]; [now rewrite app_nil_r|].
  assert (E : forall k, In k [92; 10; 34; 44; 91; 93; 123; 125] -> (c =? k) = false).
  { intros k Hk. apply N.eqb_neq. intros ->. unfold alnum, letter, lower_letter, upper_letter, digit, TokSpec.between in Hc. cbn in Hk.
    repeat (destruct Hk as [<-|Hk]; [lia|]). exact Hk. }
  unfold feed. cbn [esc js IterSpec.cur IterSpec.nr]. rewrite !E by (cbn; tauto).
  destruct json; cbn [negb andb orb]; rewrite IH, <- app_assoc; reflexivity.
Qed.
Lemma lex_joined json : forall ls n, ls <> [] -> Forall (fun l => l <> [] /\ Forall (fun c => alnum c \/ c = 32) l) ls ->
  let (out, L) := lex (mkLex (if json : bool then Some false else None) false [] n) (join_with [10] ls) in
  out ++ match IterSpec.cur L with [] => [] | _ :: _ => [(IterSpec.cur L, IterSpec.nr L)] end = number_from n ls.
Proof.
  induction ls as [|l ls IH]; intros n Hne H; [congruence|]. inversion H as [|? ? [H1 H2] H3]. subst. destruct ls as [|l' ls].
  - cbn [join_with]. pose proof (feed_line json l H2 [] n []) as E. rewrite app_nil_r in E. rewrite E. cbn [lex app IterSpec.cur IterSpec.nr number_from]. destruct l; [congruence|reflexivity].
  - change (join_with [10] (l :: l' :: ls)) with (l ++ [10] ++ join_with [10] (l' :: ls)). rewrite feed_line by exact H2.
    specialize (IH (n + 1) ltac:(discriminate) H3). cbn [app lex]. unfold feed. cbn [esc js IterSpec.cur IterSpec.nr N.eqb Pos.eqb].
    destruct (lex (mkLex (if json then Some false else None) false [] (n + 1)) (join_with [10] (l' :: ls))) as [out L] eqn:E.
    cbn [app number_from] in *. now rewrite IH.
Qed.
Theorem C72_read_back : forall R (gen_range : N -> N -> R -> N * R) sample fixed_rng n ovf json chunks,
  ranges gen_range -> samples sample -> read_sizes chunks ->
  concat chunks = generate gen_range sample fixed_rng n ->
  all_lines ovf json (map Data chunks) = (number_from 1 (gen_lines gen_range sample fixed_rng n), SEnd).
Proof.
  intros R gen_range sample fixed_rng n ovf json chunks Hr Hs Hc E.
  pose proof (C72_lines gen_range sample fixed_rng Hr Hs n) as [Hn Hl]. unfold generate in E.
  set (ls := gen_lines gen_range sample fixed_rng n) in *. clearbody ls.
  assert (Seg : segments json (concat chunks) = number_from 1 ls).
  { rewrite E. destruct ls as [|l ls]; [destruct json; reflexivity|]. unfold segments, lex0.
    pose proof (lex_joined json (l :: ls) 1 ltac:(discriminate)) as K.
    destruct (lex _ _) as [out L]. apply K. eapply Forall_impl; [|exact Hl]. intros x Hx. pose proof (C72_length x Hx) as Hx2.
    destruct Hx as (ws & _ & X1 & X2). split; [intros ->; cbn in Hx2; lia|]. eapply spaced_chars; eauto. }
  assert (Hin : forall x, In x (number_from 1 ls) -> (5 <= length (fst x) <= 161)%nat).
  { intros x Hx. apply number_from_in in Hx. rewrite Forall_forall in Hl. apply C72_length, Hl. tauto. }
  rewrite C01_split_exact; [|exact Hc|].
  - rewrite Seg. f_equal. apply filter_id. intros x Hx. apply Hin in Hx. unfold deliverable. destruct (fst x); [cbn in Hx; lia|]. apply N.leb_le. lia.
  - apply short_no_long_pending. rewrite Seg. apply Forall_forall. intros x Hx. apply Hin in Hx. unfold bytes in Hx. lia.
Qed.

(** ** A case: a counter as generator. *)
Definition count_range (lo hi : N) (r : N) : N * N := (lo + r mod (hi - lo), r + 1).
Definition count_sample (r : N) : N * N := (97 + r mod 26, r + 7).
Example C72_example_hyps : ranges count_range /\ samples count_sample.
Proof.
  split.
  - intros lo hi r H. cbn [count_range fst]. pose proof (N.mod_lt r (hi - lo) ltac:(lia)). lia.
  - intros r. cbn [count_sample fst]. pose proof (N.mod_lt r 26 ltac:(lia)). left. left. unfold lower_letter, between. lia.
Qed.
Example C72_example : generate count_range count_sample 0 1 = lit "cjq yfmtahovc" /\
  map fst (fst (all_lines true false [Data (generate count_range count_sample 0 2)])) = gen_lines count_range count_sample 0 2.
Proof. vm_compute. auto. Qed.

Print Assumptions C72_lines.
Print Assumptions C72_prefix.
Print Assumptions C72_length.
Print Assumptions C72_read_back.
