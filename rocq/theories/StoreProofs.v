(** Proofs about saved models and reports: each codec is lawful. *)
From Coq Require Import String List NArith ZArith PeanoNat Bool Lia.
From Verif Require Import Common CommonFacts FilesModel CliModel CacheModel CacheSpec CacheProofs StoreModel StoreSpec.
Import ListNotations.
Open Scope N_scope.

Definition is_byte (x : N) : Prop := x < 256.
(** [wf]: the values that a program can hold; [good]: those of them that can be saved; [k]: the least
    number of bytes of a value. *)
Record lawful {A} (c : codec A) (wf good : A -> Prop) (k : nat) : Prop := {
  law_good : forall x, wf x -> (snd (enc c x) = true <-> good x);
  law_round : forall x r, wf x -> good x -> dec c (fst (enc c x) ++ r) = Val (x, r);
  law_torn : forall x p q, wf x -> fst (enc c x) = p ++ q -> q <> [] \/ snd (enc c x) = false -> exists e, dec c p = Fail e;
  law_empty : (0 < k)%nat -> exists e, dec c [] = Fail e;
  law_eats : forall b x r, dec c b = Val (x, r) -> exists p, b = p ++ r /\ (k <= length p)%nat;
  law_sound : forall b x r, Forall is_byte b -> dec c b = Val (x, r) -> wf x /\ good x
}.
Definition anything {A} (x : A) : Prop := True.

Lemma bind_val {A B} (r : res (A * bytes)) (k : A -> bytes -> res (B * bytes)) v : bind r k = Val v -> exists x rest, r = Val (x, rest) /\ k x rest = Val v.
Proof. destruct r as [[x rest]|e|]; cbn; intros H; [now exists x, rest|discriminate|discriminate]. Qed.
Lemma prefix_split {A} (a b p q : list A) : a ++ b = p ++ q -> (exists s, a = p ++ s /\ s <> [] /\ q = s ++ b) \/ (exists s, p = a ++ s /\ b = s ++ q).
Proof.
  revert p. induction a as [|x a IH]; intros p E.
  - right. exists p. auto.
  - destruct p as [|y p]; cbn in E.
    + left. exists (x :: a). csplit; [reflexivity|discriminate|now rewrite <- E].
    + injection E as -> E. destruct (IH _ E) as [(s & -> & H & ->)|(s & -> & ->)].
      * left. exists s. auto.
      * right. exists s. auto.
Qed.
Lemma bytes_rest p r : Forall is_byte (p ++ r) -> Forall is_byte r.
Proof. intros H. now apply Forall_app in H. Qed.

(** ** Weakening *)
Lemma lawful_weaken {A} (c : codec A) wf good wf' good' k k' : lawful c wf good k -> (forall x, wf x <-> wf' x) -> (forall x, wf x -> (good x <-> good' x)) -> (k' <= k)%nat ->
  lawful c wf' good' k'.
Proof.
  intros L W G K. split.
  - intros x X. rewrite (law_good _ _ _ _ L x) by now apply W. now apply G, W.
  - intros x r X Y. apply (law_round _ _ _ _ L); [now apply W|]. apply G; [now apply W|exact Y].
  - intros x p q X. apply (law_torn _ _ _ _ L). now apply W.
  - intros H. apply (law_empty _ _ _ _ L). lia.
  - intros b x r H. destruct (law_eats _ _ _ _ L _ _ _ H) as (p & -> & E). exists p. split; [reflexivity|lia].
  - intros b x r F H. destruct (law_sound _ _ _ _ L _ _ _ F H) as [X Y]. split; [now apply W|now apply G].
Qed.

(** ** Bytes and integers *)
Lemma read_exact_val n b x r : read_exact n b = Val (x, r) -> b = x ++ r /\ N.of_nat (length x) = n.
Proof.
  unfold read_exact. destruct (N.leb_spec n (N.of_nat (length b))) as [H|H]; [|discriminate]. intros E. injection E as <- <-.
  split; [symmetry; apply firstn_skipn|]. rewrite firstn_length. lia.
Qed.
Lemma read_exact_app x r : read_exact (N.of_nat (length x)) (x ++ r) = Val (x, r).
Proof.
  unfold read_exact. rewrite app_length. destruct (N.leb_spec (N.of_nat (length x)) (N.of_nat (length x + length r))); [|lia].
  rewrite Nnat.Nat2N.id, firstn_app, skipn_app, firstn_all, skipn_all, Nat.sub_diag. cbn. now rewrite app_nil_r.
Qed.
Lemma read_exact_short n b : N.of_nat (length b) < n -> exists e, read_exact n b = Fail e.
Proof. intros H. unfold read_exact. destruct (N.leb_spec n (N.of_nat (length b))); [lia|]. now eexists. Qed.
Lemma of_le_bound b : Forall is_byte b -> of_le b < 256 ^ N.of_nat (length b).
Proof.
  induction 1 as [|x b H _ IH]; [reflexivity|]. cbn [of_le length]. rewrite Nnat.Nat2N.inj_succ, N.pow_succ_r'. unfold is_byte in H.
  revert IH. generalize (of_le b), (256 ^ N.of_nat (length b)). intros u v. lia.
Qed.
Lemma int_lawful k : (0 < k)%nat -> lawful (int k) (fun n => n < 256 ^ N.of_nat k) anything k.
Proof.
  intros K. assert (R : forall x r, x < 256 ^ N.of_nat k -> dec (int k) (le_bytes k x ++ r) = Val (x, r)).
  { intros x r X. cbn [int dec]. rewrite <- (le_bytes_length k x) at 1. rewrite read_exact_app. cbn [bind]. now rewrite of_le_bytes. }
  split.
  - intros x _. now split.
  - intros x r X _. now apply R.
  - intros x p q X E [Q|Q]; [|discriminate]. cbn [int enc fst] in E.
    assert (L : (length p < k)%nat). { rewrite <- (le_bytes_length k x), E, app_length. destruct q; [contradiction|]. cbn [length]. lia. }
    cbn [int dec]. destruct (read_exact_short (N.of_nat k) p) as [e ->]; [lia|]. now exists e.
  - intros _. cbn [int dec]. destruct (read_exact_short (N.of_nat k) []) as [e ->]; [cbn [length]; lia|]. now exists e.
  - intros b x r E. cbn [int dec] in E. apply bind_val in E as (y & rest & E & Z). injection Z as _ <-. apply read_exact_val in E as [-> E]. exists y. split; [reflexivity|lia].
  - intros b x r F E. cbn [int dec] in E. apply bind_val in E as (y & rest & E & Z). injection Z as <- _. apply read_exact_val in E as [-> E].
    apply Forall_app in F as [F _]. apply of_le_bound in F. rewrite E in F. split; [exact F|exact I].
Qed.
Lemma u32_lawful : lawful u32 word32 anything 4.
Proof. apply (int_lawful 4). lia. Qed.
Lemma u64_lawful : lawful u64 word64 anything 8.
Proof. apply (int_lawful 8). lia. Qed.
Lemma unit_lawful : lawful unit_codec anything anything 0.
Proof.
  split; cbn.
  - now intros.
  - now intros [] r _ _.
  - intros x p q _ E [Q|Q]; [|discriminate]. destruct p; [|discriminate]. cbn in E. now subst.
  - intros H. lia.
  - intros b x r E. injection E as _ <-. exists []. now split.
  - now intros.
Qed.

(** ** Combinations *)
Lemma via_lawful {A B} (to : A -> option B) (from : B -> option A) (c : codec B) (wf good : B -> Prop) (wf' good' : A -> Prop) k : lawful c wf good k ->
  (forall x y, wf' x -> to x = Some y -> wf y /\ (good y -> from y = Some x)) ->
  (forall x, wf' x -> (good' x <-> exists y, to x = Some y /\ good y)) ->
  (forall y x, wf y -> good y -> from y = Some x -> wf' x /\ good' x) ->
  (0 < k)%nat \/ (forall x, wf' x -> to x <> None) ->
  lawful (via to from c) wf' good' k.
Proof.
  intros L T G S K. split.
  - intros x X. cbn [via enc]. rewrite (G x X). destruct (to x) as [y|] eqn:E; cbn [snd].
    + rewrite (law_good _ _ _ _ L y) by apply (T x y X E). split; [intros H; now exists y|]. intros (z & Z & H). injection Z as <-. exact H.
    + split; [discriminate|]. now intros (z & Z & _).
  - intros x r X Y. apply (G x X) in Y as (y & E & Y). cbn [via enc dec]. rewrite E. destruct (T x y X E) as [W F]. rewrite (law_round _ _ _ _ L y r W Y). cbn [bind]. now rewrite (F Y).
  - intros x p q X E Q. cbn [via enc dec] in *. destruct (to x) as [y|] eqn:E'.
    + destruct (T x y X E') as [W _]. destruct (law_torn _ _ _ _ L y p q W E Q) as [e ->]. now exists e.
    + cbn [fst] in E. destruct p; [|discriminate]. destruct K as [K|K]; [|now destruct (K x X)].
      destruct (law_empty _ _ _ _ L K) as [e ->]. now exists e.
  - intros H. cbn [via dec]. destruct (law_empty _ _ _ _ L H) as [e ->]. now exists e.
  - intros b x r H. cbn [via dec] in H. apply bind_val in H as (y & rest & D & H). destruct (from y) as [x'|] eqn:F; [|discriminate]. injection H as _ <-. apply (law_eats _ _ _ _ L _ _ _ D).
  - intros b x r F H. cbn [via dec] in H. apply bind_val in H as (y & rest & D & H). destruct (from y) as [x'|] eqn:E; [|discriminate]. injection H as <- _.
    destruct (law_sound _ _ _ _ L _ _ _ F D) as [W Y]. now apply (S y).
Qed.
Lemma iso_lawful {A B} (to : A -> B) (from : B -> A) (c : codec B) (wf good : B -> Prop) (wf' good' : A -> Prop) k : lawful c wf good k ->
  (forall x, from (to x) = x) -> (forall y, to (from y) = y) -> (forall x, wf' x <-> wf (to x)) -> (forall x, good' x <-> good (to x)) -> lawful (iso to from c) wf' good' k.
Proof.
  intros L F T W G. unfold iso. apply via_lawful with (wf := wf) (good := good); [exact L| | | |].
  - intros x y X E. injection E as <-. split; [now apply W|]. intros _. now rewrite F.
  - intros x X. rewrite G. split; [intros Y; now exists (to x)|]. intros (y & E & Y). injection E as <-. exact Y.
  - intros y x X Y E. injection E as <-. rewrite W, G, T. auto.
  - right. discriminate.
Qed.
Lemma and_then_snd a b : snd (and_then a b) = snd a && snd b.
Proof. unfold and_then. now destruct (snd a) eqn:E; cbn [snd]; rewrite ?E. Qed.
Lemma pair_lawful {A B} (a : codec A) (b : codec B) wfa gooda ka wfb goodb kb : lawful a wfa gooda ka -> lawful b wfb goodb kb -> (0 < ka)%nat ->
  lawful (pair a b) (fun p => wfa (fst p) /\ wfb (snd p)) (fun p => gooda (fst p) /\ goodb (snd p)) (ka + kb).
Proof.
  intros La Lb K. split.
  - intros [x y] [X Y]. cbn [pair enc fst snd] in *. rewrite and_then_snd, andb_true_iff, (law_good _ _ _ _ La x X), (law_good _ _ _ _ Lb y Y). reflexivity.
  - intros [x y] r [X Y] [GX GY]. cbn [pair enc dec fst snd] in *. pose proof (proj2 (law_good _ _ _ _ La x X) GX) as E. unfold and_then. rewrite E. cbn [fst].
    rewrite <- app_assoc, (law_round _ _ _ _ La) by assumption. cbn [bind]. rewrite (law_round _ _ _ _ Lb) by assumption. reflexivity.
  - intros [x y] p q [X Y] E Q. cbn [pair enc dec fst snd] in *. rewrite and_then_snd in Q. unfold and_then in E.
    destruct (snd (enc a x)) eqn:S; cbn [fst andb] in *.
    + apply prefix_split in E as [(s & E & N & _)|(s & -> & E)].
      * destruct (law_torn _ _ _ _ La x p s X E (or_introl N)) as [e ->]. now exists e.
      * rewrite (law_round _ _ _ _ La) by (try assumption; now apply (law_good _ _ _ _ La)). cbn [bind].
        destruct (law_torn _ _ _ _ Lb y s q Y E Q) as [e ->]. now exists e.
    + destruct (law_torn _ _ _ _ La x p q X E (or_intror S)) as [e ->]. now exists e.
  - intros _. cbn [pair dec]. destruct (law_empty _ _ _ _ La K) as [e ->]. now exists e.
  - intros i [x y] r H. cbn [pair dec] in H. apply bind_val in H as (x' & s & D & H). apply bind_val in H as (y' & t & D' & H). injection H as <- <- <-.
    destruct (law_eats _ _ _ _ La _ _ _ D) as (p & -> & E). destruct (law_eats _ _ _ _ Lb _ _ _ D') as (p' & -> & E'). exists (p ++ p'). rewrite app_length, app_assoc. split; [reflexivity|lia].
  - intros i [x y] r F H. cbn [pair dec] in H. apply bind_val in H as (x' & s & D & H). apply bind_val in H as (y' & t & D' & H). injection H as <- <- <-.
    destruct (law_eats _ _ _ _ La _ _ _ D) as (p & -> & _). destruct (law_sound _ _ _ _ La _ _ _ F D) as [X GX]. destruct (law_sound _ _ _ _ Lb _ _ _ (bytes_rest _ _ F) D') as [Y GY]. cbn [fst snd]. auto.
Qed.

(** ** Texts *)
Lemma buffer_lawful : lawful buffer (fun s => N.of_nat (length s) <= isize_max) anything 8.
Proof.
  assert (W : forall s : bytes, N.of_nat (length s) <= isize_max -> word64 (N.of_nat (length s))) by (intros s; unfold isize_max, word64; lia).
  assert (U : forall n r, word64 n -> dec u64 (le_bytes 8 n ++ r) = Val (n, r)) by (intros n r H; apply (law_round _ _ _ _ u64_lawful n r H I)).
  split.
  - now split.
  - intros s r H _. cbn [buffer enc dec fst]. rewrite <- app_assoc, U by now apply W. cbn [bind]. destruct (N.ltb_spec isize_max (N.of_nat (length s))); [lia|]. apply read_exact_app.
  - intros s p q H E [Q|Q]; [|discriminate]. cbn [buffer enc dec fst] in *. apply prefix_split in E as [(t & E & N & _)|(t & -> & E)].
    + destruct (law_torn _ _ _ _ u64_lawful _ p t (W s H) E (or_introl N)) as [e ->]. now exists e.
    + rewrite U by now apply W. cbn [bind]. destruct (N.ltb_spec isize_max (N.of_nat (length s))); [lia|]. apply read_exact_short.
      rewrite E, app_length. destruct q; [contradiction|]. cbn [length]. lia.
  - intros _. cbn [buffer dec]. destruct (law_empty _ _ _ _ u64_lawful) as [e ->]; [lia|]. now exists e.
  - intros b x r H. cbn [buffer dec] in H. apply bind_val in H as (n & s & D & H). destruct (N.ltb_spec isize_max n); [discriminate|]. apply read_exact_val in H as [-> _].
    destruct (law_eats _ _ _ _ u64_lawful _ _ _ D) as (p & -> & E). exists (p ++ x). rewrite app_length, app_assoc. split; [reflexivity|lia].
  - intros b x r F H. cbn [buffer dec] in H. apply bind_val in H as (n & s & D & H). destruct (N.ltb_spec isize_max n); [discriminate|]. apply read_exact_val in H as [_ <-]. split; [assumption|exact I].
Qed.
Lemma is_utf8_true s : is_utf8 s = true <-> unicode s.
Proof. unfold is_utf8, unicode. destruct (utf8_decode s); split; intros H; try reflexivity; try discriminate; now destruct H. Qed.
Lemma string_lawful : lawful string_codec rust_string anything 8.
Proof.
  unfold string_codec. eapply via_lawful; [apply buffer_lawful| | | |left; lia].
  - intros x y [X L] E. injection E as <-. split; [exact L|]. intros _. apply is_utf8_true in X. now rewrite X.
  - intros x X. split; [intros _; now exists x|now intros].
  - intros y x L _ E. destruct (is_utf8 y) eqn:V; [|discriminate]. injection E as <-. apply is_utf8_true in V. split; [now split|exact I].
Qed.
Lemma path_lawful : lawful path_codec rust_path unicode 8.
Proof.
  unfold path_codec. eapply via_lawful; [apply string_lawful| | | |left; lia].
  - intros x y X E. destruct (is_utf8 x) eqn:V; [|discriminate]. injection E as <-. apply is_utf8_true in V. split; [now split|]. reflexivity.
  - intros x X. rewrite <- is_utf8_true. destruct (is_utf8 x); split; [intros _; now exists x|reflexivity|discriminate|now intros (y & E & _)].
  - intros y x [V L] _ E. injection E as <-. now split.
Qed.

(** ** Sequences *)
Section Seq.
Context {A : Type}.
Variable c : codec A.
Variables wf good : A -> Prop.
Variable k : nat.
Hypothesis L : lawful c wf good k.
Hypothesis K : (0 < k)%nat.
Lemma enc_seq_snd l : Forall wf l -> (snd (enc_seq c l) = true <-> Forall good l).
Proof.
  induction 1 as [|x l X _ IH]; cbn [enc_seq]; [now split|]. rewrite and_then_snd, andb_true_iff, IH, (law_good _ _ _ _ L x X).
  split; [intros [a b]; now constructor|]. intros H. now inversion H.
Qed.
Lemma enc_pos x : wf x -> good x -> (0 < length (fst (enc c x)))%nat.
Proof.
  intros X Y. pose proof (law_round _ _ _ _ L x [] X Y) as E. destruct (law_eats _ _ _ _ L _ _ _ E) as (p & H & P). rewrite !app_nil_r in H. rewrite H. lia.
Qed.
Lemma dec_seq_round l : Forall wf l -> Forall good l -> forall fuel r, (length l <= fuel)%nat ->
  dec_seq c fuel (N.of_nat (length l)) (fst (enc_seq c l) ++ r) = Val (l, r).
Proof.
  induction l as [|x l IH]; intros W G fuel r F.
  - destruct fuel; reflexivity.
  - inversion W as [|? ? X Wl]; inversion G as [|? ? GX Gl]; subst. destruct fuel as [|fuel]; [cbn [length] in F; lia|].
    cbn [enc_seq]. unfold and_then. rewrite (proj2 (law_good _ _ _ _ L x X) GX). cbn [fst].
    cbn [dec_seq]. destruct (N.eqb_spec (N.of_nat (length (x :: l))) 0) as [E|_]; [cbn [length] in E; lia|].
    rewrite <- app_assoc, (law_round _ _ _ _ L) by assumption. cbn [bind]. replace (N.of_nat (length (x :: l)) - 1) with (N.of_nat (length l)) by (cbn [length]; lia).
    rewrite IH by (try assumption; cbn [length] in F; lia). reflexivity.
Qed.
Lemma dec_seq_torn l : Forall wf l -> forall fuel p q, fst (enc_seq c l) = p ++ q -> q <> [] \/ snd (enc_seq c l) = false ->
  exists e, dec_seq c fuel (N.of_nat (length l)) p = Fail e.
Proof.
  induction 1 as [|x l X _ IH]; intros fuel p q E Q.
  - cbn in E, Q. destruct Q as [Q|Q]; [|discriminate]. destruct p; [|discriminate]. now cbn in E; subst.
  - destruct fuel as [|fuel]; cbn [dec_seq]; destruct (N.eqb_spec (N.of_nat (length (x :: l))) 0) as [Z|_]; try (cbn [length] in Z; lia); [now eexists|].
    cbn [enc_seq] in E, Q. rewrite and_then_snd in Q. unfold and_then in E. destruct (snd (enc c x)) eqn:S; cbn [fst andb] in *.
    + apply prefix_split in E as [(s & E & N & _)|(s & -> & E)].
      * destruct (law_torn _ _ _ _ L x p s X E (or_introl N)) as [e ->]. now exists e.
      * rewrite (law_round _ _ _ _ L) by (try assumption; now apply (law_good _ _ _ _ L)). cbn [bind].
        replace (N.of_nat (length (x :: l)) - 1) with (N.of_nat (length l)) by (cbn [length]; lia). destruct (IH fuel s q E Q) as [e ->]. now exists e.
    + destruct (law_torn _ _ _ _ L x p q X E (or_intror S)) as [e ->]. now exists e.
Qed.
Lemma dec_seq_val fuel : forall n b l r, dec_seq c fuel n b = Val (l, r) -> n = N.of_nat (length l) /\ exists p, b = p ++ r /\ (Forall is_byte b -> Forall wf l /\ Forall good l).
Proof.
  induction fuel as [|fuel IH]; intros n b l r H; cbn [dec_seq] in H; destruct (N.eqb_spec n 0) as [->|Z]; try discriminate.
  - injection H as <- <-. split; [reflexivity|]. exists []. auto.
  - injection H as <- <-. split; [reflexivity|]. exists []. auto.
  - apply bind_val in H as (x & s & D & H). apply bind_val in H as (l' & t & D' & H). injection H as <- <-. destruct (IH _ _ _ _ D') as (E & p' & -> & W).
    split; [cbn [length]; lia|]. destruct (law_eats _ _ _ _ L _ _ _ D) as (p & -> & _). exists (p ++ p'). rewrite <- app_assoc. split; [reflexivity|]. intros F.
    destruct (law_sound _ _ _ _ L _ _ _ F D). destruct (W (bytes_rest _ _ F)). split; now constructor.
Qed.
(** The fuel of [dec_seq] is no limit: more of it changes nothing. *)
Lemma enough fuel : forall fuel' n b, (length b < fuel)%nat -> (length b < fuel')%nat -> dec_seq c fuel n b = dec_seq c fuel' n b.
Proof.
  induction fuel as [|fuel IH]; intros [|fuel'] n b F F'; try lia. cbn [dec_seq]. destruct (n =? 0); [reflexivity|].
  destruct (dec c b) as [[x r]|e|] eqn:D; cbn [bind]; [|reflexivity|reflexivity]. destruct (law_eats _ _ _ _ L _ _ _ D) as (p & -> & E). rewrite app_length in F, F'.
  now rewrite (IH fuel') by lia.
Qed.
Lemma enc_seq_length l : Forall wf l -> Forall good l -> (length l <= length (fst (enc_seq c l)))%nat.
Proof.
  induction l as [|x l IH]; intros W G; [cbn; lia|]. inversion W as [|? ? X Wl]; inversion G as [|? ? GX Gl]; subst.
  cbn [enc_seq]. unfold and_then. rewrite (proj2 (law_good _ _ _ _ L x X) GX). cbn [fst length]. rewrite app_length. specialize (IH Wl Gl). pose proof (enc_pos x X GX). lia.
Qed.
Lemma vec_lawful : lawful (vec c) (rust_vec wf) (Forall good) 8.
Proof.
  assert (U : forall n r, word64 n -> dec u64 (le_bytes 8 n ++ r) = Val (n, r)) by (intros n r H; apply (law_round _ _ _ _ u64_lawful n r H I)).
  split.
  - intros l [_ W]. cbn [vec enc u64 int]. rewrite and_then_snd. cbn [snd andb]. now apply enc_seq_snd.
  - intros l r [B W] G. cbn [vec enc dec]. unfold and_then. cbn [u64 int enc snd fst]. rewrite <- app_assoc. change (int 8) with u64. rewrite U by exact B. cbn [bind].
    apply dec_seq_round; try assumption. rewrite app_length. pose proof (enc_seq_length l W G). lia.
  - intros l p q [B W] E Q. cbn [vec enc dec] in *. rewrite and_then_snd in Q. unfold and_then in E. cbn [u64 int enc snd fst andb] in *. change (int 8) with u64 in *.
    apply prefix_split in E as [(t & E & N & _)|(t & -> & E)].
    + destruct (law_torn _ _ _ _ u64_lawful _ p t B E (or_introl N)) as [e ->]. now exists e.
    + rewrite U by exact B. cbn [bind]. now apply dec_seq_torn with (q := q).
  - intros _. cbn [vec dec]. destruct (law_empty _ _ _ _ u64_lawful) as [e ->]; [lia|]. now exists e.
  - intros b l r H. cbn [vec dec] in H. apply bind_val in H as (n & s & D & H). apply dec_seq_val in H as (_ & p' & -> & _).
    destruct (law_eats _ _ _ _ u64_lawful _ _ _ D) as (p & -> & E). exists (p ++ p'). rewrite app_length, app_assoc. split; [reflexivity|lia].
  - intros b l r F H. cbn [vec dec] in H. apply bind_val in H as (n & s & D & H). apply dec_seq_val in H as (-> & p' & -> & W).
    destruct (law_sound _ _ _ _ u64_lawful _ _ _ F D) as [B _]. destruct (law_eats _ _ _ _ u64_lawful _ _ _ D) as (p & -> & _). destruct (W (bytes_rest _ _ F)). split; [now split|assumption].
Qed.
End Seq.

(** ** Hash maps *)
Lemma eqb_list_reflect a b : reflect (a = b) (eqb_list a b).
Proof. apply iff_reflect. symmetry. apply eqb_list_spec. Qed.
Lemma N2Nat_le a b : (a <= b)%nat -> N.of_nat a <= N.of_nat b.
Proof. lia. Qed.
Section Map.
Context {V : Type}.
Implicit Types m l : list (bytes * V).
Lemma insert_new k v m : ~ In k (map fst m) -> insert k v m = m ++ [(k, v)].
Proof.
  induction m as [|[k' v'] m IH]; intros H; [reflexivity|]. cbn [insert]. destruct (eqb_list_reflect k k') as [->|_]; [destruct H; now left|].
  cbn [app]. rewrite IH; [reflexivity|]. intros I. apply H. now right.
Qed.
Lemma insert_keys k v m : map fst (insert k v m) = map fst m \/ (map fst (insert k v m) = map fst m ++ [k] /\ ~ In k (map fst m)).
Proof.
  induction m as [|[k' v'] m IH]; [right; split; [reflexivity|intros []]|]. cbn [insert]. destruct (eqb_list_reflect k k') as [->|N]; [now left|]. cbn [map fst].
  destruct IH as [->|[-> H]]; [now left|]. right. split; [reflexivity|]. intros [E|I]; [now apply N|contradiction].
Qed.
Lemma from_entries_app l : forall m, NoDup (map fst (m ++ l)) -> fold_left (fun m e => insert (fst e) (snd e) m) l m = m ++ l.
Proof.
  induction l as [|[k v] l IH]; intros m D; cbn [fold_left]; [now rewrite app_nil_r|]. cbn [fst snd]. rewrite insert_new.
  - rewrite IH; [now rewrite <- app_assoc|]. now rewrite <- app_assoc.
  - rewrite map_app in D. cbn [map fst] in D. apply NoDup_remove_2 in D. intros I. apply D, in_or_app. now left.
Qed.
Lemma from_entries_same l : NoDup (map fst l) -> from_entries l = l.
Proof. intros D. unfold from_entries. now rewrite from_entries_app. Qed.
Lemma insert_ok (P : bytes * V -> Prop) k v m : P (k, v) -> Forall P m -> Forall P (insert k v m).
Proof.
  intros H. induction 1 as [|[k' v'] m X F IH]; cbn [insert]; [now repeat constructor|]. destruct (eqb_list_reflect k k') as [->|_]; now constructor.
Qed.
Lemma insert_length k v m : (length (insert k v m) <= S (length m))%nat.
Proof. induction m as [|[k' v'] m IH]; cbn [insert length]; [lia|]. destruct (eqb_list k k'); cbn [length]; lia. Qed.
Lemma from_entries_ok (P : bytes * V -> Prop) l : Forall P l -> NoDup (map fst (from_entries l)) /\ Forall P (from_entries l) /\ (length (from_entries l) <= length l)%nat.
Proof.
  unfold from_entries. intros F. assert (G : forall m, NoDup (map fst m) -> Forall P m ->
    NoDup (map fst (fold_left (fun m e => insert (fst e) (snd e) m) l m)) /\ Forall P (fold_left (fun m e => insert (fst e) (snd e) m) l m) /\
    (length (fold_left (fun m e => insert (fst e) (snd e) m) l m) <= length m + length l)%nat).
  { induction F as [|[k v] l X F IH]; intros m D M; cbn [fold_left]; [csplit; [exact D|exact M|cbn [length]; lia]|]. cbn [fst snd].
    destruct (IH (insert k v m)) as (a & b & c).
    - destruct (insert_keys k v m) as [->|[-> H]]; [exact D|]. apply NoDup_Add with (a := k) (l := map fst m); [|now split]. rewrite <- (app_nil_r (map fst m)) at 1. apply Add_app.
    - now apply insert_ok.
    - csplit; [exact a|exact b|]. pose proof (insert_length k v m). cbn [length]. lia. }
  destruct (G [] ltac:(constructor) ltac:(constructor)) as (a & b & c). csplit; [exact a|exact b|cbn [length] in c; lia].
Qed.
Lemma hashmap_lawful (c : codec V) wf good k : lawful c wf good k -> lawful (hashmap c) (rust_map wf) (Forall (fun e => good (snd e))) 8.
Proof.
  intros L. unfold hashmap. eapply via_lawful.
  - apply vec_lawful with (k := (8 + k)%nat); [apply pair_lawful; [apply string_lawful|exact L|lia]|lia].
  - intros x y (B & D & W) E. injection E as <-. split; [split; assumption|]. intros _. now rewrite from_entries_same.
  - intros x (B & D & W). split.
    + intros G. exists x. split; [reflexivity|]. eapply Forall_impl; [|exact G]. intros e H. split; [exact I|exact H].
    + intros (y & E & G). injection E as <-. eapply Forall_impl; [|exact G]. now intros e [_ H].
  - intros y x [B W] G E. injection E as <-. assert (F : Forall (fun e => (rust_string (fst e) /\ wf (snd e)) /\ good (snd e)) y).
    { apply Forall_forall. intros e I. rewrite Forall_forall in W, G. destruct (G e I). destruct (W e I). auto. }
    destruct (from_entries_ok _ y F) as (a & b & d). split; [unfold rust_map; csplit|].
    + eapply N.le_lt_trans; [|exact B]. apply N2Nat_le, d.
    + exact a.
    + eapply Forall_impl; [|exact b]. now intros e [H _].
    + eapply Forall_impl; [|exact b]. now intros e [_ H].
  - left. lia.
Qed.
End Map.

(** ** Variants *)
Lemma enum_lawful {A} (tag : A -> nat) variants (wf good : A -> Prop) : N.of_nat (length variants) < 2 ^ 32 -> (forall x, tag x < length variants)%nat ->
  (forall i c, nth_error variants i = Some c -> lawful c (fun x => wf x /\ tag x = i) good 0) -> lawful (enum tag variants) wf good 4.
Proof.
  intros B T V. assert (W : forall x, word32 (N.of_nat (tag x))) by (intros x; specialize (T x); unfold word32; lia).
  assert (U : forall x r, dec u32 (le_bytes 4 (N.of_nat (tag x)) ++ r) = Val (N.of_nat (tag x), r)) by (intros x r; apply (law_round _ _ _ _ u32_lawful _ r (W x) I)).
  assert (G : forall x, exists c, nth_error variants (tag x) = Some c /\ lawful c (fun y => wf y /\ tag y = tag x) good 0).
  { intros x. destruct (nth_error variants (tag x)) as [c|] eqn:E; [exists c; split; [reflexivity|now apply V]|]. apply nth_error_None in E. specialize (T x). lia. }
  split.
  - intros x X. cbn [enum enc]. destruct (G x) as (c & -> & L). rewrite and_then_snd. cbn [u32 int enc snd andb]. now apply (law_good _ _ _ _ L).
  - intros x r X Y. cbn [enum enc dec]. destruct (G x) as (c & E & L). rewrite E. unfold and_then. cbn [u32 int enc snd fst]. change (int 4) with u32. rewrite <- app_assoc, U. cbn [bind].
    destruct (N.ltb_spec (N.of_nat (tag x)) (N.of_nat (length variants))) as [_|H]; [|specialize (T x); lia]. rewrite Nnat.Nat2N.id, E. now apply (law_round _ _ _ _ L).
  - intros x p q X E Q. cbn [enum enc dec] in *. destruct (G x) as (c & E' & L). rewrite E' in *. rewrite and_then_snd in Q. unfold and_then in E. cbn [u32 int enc snd fst andb] in *. change (int 4) with u32 in *.
    apply prefix_split in E as [(t & E & N & _)|(t & -> & E)].
    + destruct (law_torn _ _ _ _ u32_lawful _ p t (W x) E (or_introl N)) as [e ->]. now exists e.
    + rewrite U. cbn [bind]. destruct (N.ltb_spec (N.of_nat (tag x)) (N.of_nat (length variants))) as [_|H]; [|specialize (T x); lia]. rewrite Nnat.Nat2N.id, E'.
      apply (law_torn _ _ _ _ L x t q); auto.
  - intros _. cbn [enum dec]. destruct (law_empty _ _ _ _ u32_lawful) as [e ->]; [lia|]. now exists e.
  - intros b x r H. cbn [enum dec] in H. apply bind_val in H as (n & s & D & H). destruct (N.ltb_spec n (N.of_nat (length variants))); [|discriminate].
    destruct (nth_error variants (N.to_nat n)) as [c|] eqn:E; [|discriminate]. destruct (law_eats _ _ _ _ (V _ _ E) _ _ _ H) as (p' & -> & _).
    destruct (law_eats _ _ _ _ u32_lawful _ _ _ D) as (p & -> & E'). exists (p ++ p'). rewrite app_length, app_assoc. split; [reflexivity|lia].
  - intros b x r F H. cbn [enum dec] in H. apply bind_val in H as (n & s & D & H). destruct (N.ltb_spec n (N.of_nat (length variants))); [|discriminate].
    destruct (nth_error variants (N.to_nat n)) as [c|] eqn:E; [|discriminate]. destruct (law_eats _ _ _ _ u32_lawful _ _ _ D) as (p & -> & _).
    destruct (law_sound _ _ _ _ (V _ _ E) _ _ _ (bytes_rest _ _ F) H) as [[X _] Y]. auto.
Qed.

(** ** Times *)
Lemma duration_lawful : lawful duration_codec rust_duration anything 12.
Proof.
  unfold duration_codec. eapply via_lawful; [eapply pair_lawful with (a := u64) (b := u32) (ka := 8%nat) (kb := 4%nat); [apply u64_lawful|apply u32_lawful|lia]| | | |left; lia].
  - intros [s n] y [X Y] E. injection E as <-. cbn [fst snd] in *. split; [split; [exact X|unfold word32; lia]|]. intros _. unfold to_duration.
    rewrite N.div_small, N.mod_small, N.add_0_r by exact Y. unfold word64 in X. apply N.ltb_lt in X. now rewrite X.
  - intros x _. split; [intros _; exists x; now split|now intros].
  - intros [s n] x [X Y] _ E. unfold to_duration in E. destruct (N.ltb_spec (s + n / giga) (2 ^ 64)) as [H|H]; [|discriminate]. injection E as <-. cbn [fst snd].
    split; [|exact I]. split; [exact H|]. apply N.mod_lt. discriminate.
Qed.
Lemma time_lawful : lawful time_codec rust_time since_epoch 12.
Proof.
  unfold time_codec. eapply via_lawful; [apply duration_lawful| | | |left; lia].
  - intros [s n] y [X Y] E. cbn [fst snd] in *. destruct (Z.leb_spec 0 s) as [H|H]; [|discriminate]. injection E as <-. cbn [fst snd].
    assert (Z.to_N s < 2 ^ 63) as H' by lia. split; [split; cbn [fst snd]; [unfold word64; lia|exact Y]|]. intros _. apply N.ltb_lt in H'. rewrite H'. now rewrite Z2N.id.
  - intros [s n] _. unfold since_epoch. cbn [fst snd]. destruct (Z.leb_spec 0 s) as [H|H]; split; [intros _; eexists; now split|intros _; exact H|lia|now intros (y & E & _)].
  - intros [s n] x [X Y] _ E. cbn [fst snd] in *. destruct (N.ltb_spec s (2 ^ 63)) as [H|H]; [|discriminate]. injection E as <-. unfold since_epoch, rust_time. cbn [fst snd]. csplit; [lia|lia|exact Y|lia].
Qed.

(** ** The types *)
Lemma struct_lawful {A B} (to : A -> B) (from : B -> A) (c : codec B) (wf good : B -> Prop) (wf' good' : A -> Prop) k : lawful c wf good k ->
  (1 <= k)%nat -> (forall x, from (to x) = x) -> (forall y, to (from y) = y) -> (forall x, wf' x <-> wf (to x)) -> (forall x, wf' x -> (good' x <-> good (to x))) -> lawful (iso to from c) wf' good' 1.
Proof.
  intros L K F T W G. apply lawful_weaken with (wf := wf') (good := fun x => good (to x)) (k := k); [|reflexivity| |exact K].
  - apply iso_lawful with (wf := wf) (good := good); auto. reflexivity.
  - intros x X. symmetry. now apply G.
Qed.
Create HintDb codecs.
Ltac fields :=
  lazymatch goal with
  | |- lawful (pair _ _) _ _ _ => eapply pair_lawful; [fields|fields|lia]
  | |- lawful (vec _) _ _ _ => eapply vec_lawful; [fields|lia]
  | |- lawful (hashmap _) _ _ _ => eapply hashmap_lawful; fields
  | |- _ => solve [eauto 2 with codecs]
  end.
#[local] Hint Resolve u32_lawful u64_lawful string_lawful path_lawful duration_lawful time_lawful unit_lawful : codecs.
Section Types.
Context {Matrix Date : Type}.
Variable matrix : codec Matrix.
Variable ok_matrix : Matrix -> Prop.
Variable show_date : Date -> bytes.
Variable parse_date : bytes -> option Date.
Variable parse_url : bytes -> option bytes.
Hypothesis GM : good_matrices ok_matrix matrix.
Hypothesis GU : good_urls parse_url.
Hypothesis GD : good_dates show_date parse_date.
Notation rust_url := (rust_url parse_url).
Notation rust_date := (rust_date show_date parse_date).

Lemma url_lawful : lawful (url_codec parse_url) rust_url anything 8.
Proof.
  unfold url_codec. eapply via_lawful; [apply string_lawful| | | |left; lia].
  - intros x y [X P] E. injection E as <-. auto.
  - intros x _. split; [intros _; now exists x|now intros].
  - intros y x _ _ E. split; [now apply (GU y)|exact I].
Qed.
Lemma date_lawful : lawful (date_codec show_date parse_date) rust_date anything 8.
Proof.
  unfold date_codec. eapply via_lawful; [apply string_lawful| | | |left; lia].
  - intros x y [X P] E. injection E as <-. auto.
  - intros x _. split; [intros _; now exists (show_date x)|now intros].
  - intros y x _ _ E. split; [now apply (GD y)|exact I].
Qed.
#[local] Hint Resolve url_lawful date_lawful : codecs.
Lemma build_lawful : lawful (build_codec show_date parse_date parse_url) (rust_build show_date parse_date parse_url) anything 1.
Proof.
  unfold build_codec. eapply struct_lawful.
  - fields.
  - lia.
  - now intros [].
  - now intros (a & b & c & d & e & f & g & h & i & j & k).
  - intros []; cbn. reflexivity.
  - intros [] _; cbn. unfold anything. tauto.
Qed.
Definition source_good (s : source) : Prop := Forall unicode (source_paths s).
Lemma source_lawful : lawful (source_codec parse_url) (rust_source parse_url) source_good 4.
Proof.
  unfold source_codec. apply enum_lawful.
  - cbn [length]. lia.
  - intros []; cbn; lia.
  - intros [|[|[|i]]] c E; cbn in E; try discriminate; injection E as <-.
    + apply lawful_weaken with (wf := fun x => rust_source parse_url x /\ source_tag x = 0%nat) (good := source_good) (k := 16%nat); [|reflexivity|reflexivity|lia].
      eapply via_lawful; [eapply pair_lawful with (a := u64) (b := path_codec) (ka := 8%nat) (kb := 8%nat); [apply u64_lawful|apply path_lawful|lia]| | | |left; lia].
      * intros [n p|n u] y [W T] E; [|discriminate]. injection E as <-. split; [exact W|]. reflexivity.
      * intros [n p|n u] [W T]; [|discriminate]. unfold source_good, anything. cbn. split.
        -- intros H. inversion H; subst. exists (n, p). auto.
        -- intros ([n' p'] & E & _ & U). injection E as <- <-. repeat constructor. exact U.
      * intros [n p] x W G E. injection E as <-. cbn in *. split; [now split|]. constructor; [apply G|constructor].
    + apply lawful_weaken with (wf := fun x => rust_source parse_url x /\ source_tag x = 1%nat) (good := source_good) (k := 16%nat); [|reflexivity|reflexivity|lia].
      eapply via_lawful; [eapply pair_lawful with (a := u64) (b := (url_codec parse_url)) (ka := 8%nat) (kb := 8%nat); [apply u64_lawful|apply url_lawful|lia]| | | |left; lia].
      * intros [n p|n u] y [W T] E; [discriminate|]. injection E as <-. split; [exact W|]. reflexivity.
      * intros [n p|n u] [W T]; [discriminate|]. unfold source_good, anything. cbn. split.
        -- intros H. exists (n, u). auto.
        -- intros _. constructor.
      * intros [n p] x W G E. injection E as <-. cbn in *. split; [now split|constructor].
Qed.
Definition content_good (c : content (@build Date)) : Prop := Forall unicode (content_paths c).
Notation content_codec := (content_codec show_date parse_date parse_url).
Notation rust_content := (rust_content show_date parse_date parse_url).
Lemma content_lawful : lawful content_codec rust_content content_good 4.
Proof.
  unfold StoreModel.content_codec. apply enum_lawful.
  - cbn [length]. lia.
  - intros []; cbn; lia.
  - intros [|[|[|[|i]]]] c E; cbn in E; try discriminate; injection E as <-.
    + apply lawful_weaken with (wf := fun x => rust_content x /\ content_tag x = 0%nat) (good := content_good) (k := 4%nat); [|reflexivity|reflexivity|lia].
      eapply via_lawful; [apply source_lawful| | | |left; lia].
      * intros [s|s|b] y [W T] E; try discriminate. injection E as <-. split; [exact W|]. reflexivity.
      * intros [s|s|b] [W T]; try discriminate. split; [intros H; now exists s|]. intros (y & E & G). injection E as <-. exact G.
      * intros s x W G E. injection E as <-. split; [now split|exact G].
    + apply lawful_weaken with (wf := fun x => rust_content x /\ content_tag x = 1%nat) (good := content_good) (k := 4%nat); [|reflexivity|reflexivity|lia].
      eapply via_lawful; [apply source_lawful| | | |left; lia].
      * intros [s|s|b] y [W T] E; try discriminate. injection E as <-. split; [exact W|]. reflexivity.
      * intros [s|s|b] [W T]; try discriminate. split; [intros H; now exists s|]. intros (y & E & G). injection E as <-. exact G.
      * intros s x W G E. injection E as <-. split; [now split|exact G].
    + apply lawful_weaken with (wf := fun x => rust_content x /\ content_tag x = 2%nat) (good := content_good) (k := 1%nat); [|reflexivity|reflexivity|lia].
      eapply via_lawful; [apply build_lawful| | | |left; lia].
      * intros [s|s|b] y [W T] E; try discriminate. injection E as <-. split; [exact W|]. reflexivity.
      * intros [s|s|b] [W T]; try discriminate. split; [intros H; now exists b|]. intros _. constructor.
      * intros s x W G E. injection E as <-. split; [now split|constructor].
Qed.
Lemma matrix_lawful : lawful matrix ok_matrix anything 1.
Proof.
  destruct GM as (R & T & Z & E & S). split.
  - intros x X. destruct (R x [] X) as [H _]. now split.
  - intros x r X _. now apply R.
  - intros x p q X H [Q|Q]; [now apply (T x p q)|]. destruct (R x [] X) as [H' _]. congruence.
  - intros _. exact Z.
  - intros b x r D. destruct (E _ _ _ D) as (p & -> & N). exists p. split; [reflexivity|]. destruct p; [contradiction|]. cbn [length]. lia.
  - intros b x r F D. split; [now apply (S b x r)|exact I].
Qed.
#[local] Hint Resolve build_lawful source_lawful content_lawful matrix_lawful : codecs.
Lemma chunk_lawful : lawful (chunk_codec matrix) (rust_chunk ok_matrix) anything 4.
Proof.
  unfold chunk_codec. apply enum_lawful.
  - cbn [length]. lia.
  - intros []; cbn; lia.
  - intros [|[|[|i]]] c E; cbn in E; try discriminate; injection E as <-.
    + apply lawful_weaken with (wf := fun x => rust_chunk ok_matrix x /\ chunk_tag x = 0%nat) (good := anything) (k := 8%nat); [|reflexivity|reflexivity|lia].
      eapply via_lawful; [fields| | | |left; lia].
      * intros [l|] y [W T] E; try discriminate. injection E as <-. split; [exact W|]. reflexivity.
      * intros [l|] [W T]; try discriminate. split; [intros _; exists l|now intros]. split; [reflexivity|]. now apply Forall_forall.
      * intros l x W G E. injection E as <-. split; [now split|exact I].
    + eapply via_lawful; [fields| | | |].
      * intros [l|] y [W T] E; try discriminate. injection E as <-. now split.
      * intros [l|] [W T]; try discriminate. split; [intros _; now exists tt|now intros].
      * intros y x W G E. injection E as <-. split; [now split|exact I].
      * right. intros [l|] [W T]; discriminate.
Qed.
#[local] Hint Resolve chunk_lawful : codecs.
Lemma index_lawful : lawful (index_codec matrix parse_url) (rust_index ok_matrix parse_url)
  (fun i => since_epoch (i_created i) /\ Forall source_good (i_sources i)) 1.
Proof.
  unfold index_codec. eapply struct_lawful; [fields|lia|now intros []|now intros (a & b & c & d & e & f)|now intros []|].
  intros [] _; cbn. unfold anything. tauto.
Qed.
#[local] Hint Resolve index_lawful : codecs.
Lemma model_lawful : lawful (model_codec matrix show_date parse_date parse_url) (rust_model ok_matrix show_date parse_date parse_url)
  (fun m => since_epoch (m_created m) /\ Forall content_good (m_baselines m) /\
            Forall (fun e => since_epoch (i_created (snd e)) /\ Forall source_good (i_sources (snd e))) (m_indexes m)) 1.
Proof. unfold model_codec. eapply struct_lawful; [fields|lia|now intros []|now intros (a & b & c)|now intros []|now intros []]. Qed.
Lemma anomaly_lawful : lawful anomaly_codec rust_anomaly anything 1.
Proof.
  unfold anomaly_codec. eapply struct_lawful; [fields|lia|now intros []|now intros (a & b & c)|now intros []|].
  intros [] _; cbn. unfold anything. tauto.
Qed.
Lemma anything_list {A} (l : list A) : Forall anything l.
Proof. now apply Forall_forall. Qed.
#[local] Hint Resolve anomaly_lawful : codecs.
Lemma context_lawful : lawful context_codec rust_context anything 1.
Proof.
  unfold context_codec. eapply struct_lawful; [fields|lia|now intros []|now intros (a & b & c)|now intros []|].
  intros [] _; cbn. unfold anything at 1 3. split; [|easy]. intros _. csplit; [apply anything_list|exact I|apply anything_list].
Qed.
#[local] Hint Resolve context_lawful : codecs.
Lemma log_lawful : lawful (log_report_codec parse_url) (rust_log parse_url) (fun l => source_good (l_source l)) 1.
Proof.
  unfold log_report_codec. eapply struct_lawful; [fields|lia|now intros []|now intros (a & b & c & d & e & f)|now intros []|].
  intros [] _; cbn. split; [|easy]. intros H. csplit; try exact I; [apply anything_list|exact H].
Qed.
Lemma index_report_lawful : lawful (index_report_codec parse_url) (rust_index_report parse_url) (fun i => Forall source_good (ir_sources i)) 1.
Proof.
  unfold index_report_codec. eapply struct_lawful; [fields|lia|now intros []|now intros (a & b)|now intros []|].
  intros [] _; cbn. unfold anything. tauto.
Qed.
#[local] Hint Resolve log_lawful index_report_lawful : codecs.
Lemma report_lawful : lawful (report_codec show_date parse_date parse_url) (rust_report show_date parse_date parse_url)
  (fun r => since_epoch (r_created r) /\ content_good (r_target r) /\ Forall content_good (r_baselines r) /\ Forall (fun l => source_good (l_source l)) (r_logs r) /\
            Forall (fun e => Forall source_good (ir_sources (snd e))) (r_indexes r) /\ Forall (Forall source_good) (r_index_errors r) /\
            Forall (fun e => source_good (fst e)) (r_read_errors r)) 1.
Proof.
  unfold report_codec. eapply struct_lawful; [fields|lia|now intros []|now intros (a & b & c & d & e & f & g & h & i & j)|now intros []|].
  intros [] _; cbn. unfold anything. split.
  - intros (a & b & c & d & e & f & g). csplit; auto. eapply Forall_impl; [|exact g]. auto.
  - intros (a & _ & b & c & d & e & f & g & _). csplit; auto. eapply Forall_impl; [|exact g]. now intros ? [].
Qed.

(** ** What can be saved *)
Lemma Forall_flat_map {A B} (P : B -> Prop) (f : A -> list B) l : Forall P (flat_map f l) <-> Forall (fun x => Forall P (f x)) l.
Proof. induction l as [|x l IH]; cbn [flat_map]; [split; constructor|]. rewrite Forall_app, IH. split; [intros []; now constructor|intros H; now inversion H]. Qed.
Lemma Forall_iff {A} (P Q : A -> Prop) l : (forall x, P x <-> Q x) -> Forall P l <-> Forall Q l.
Proof. intros H. split; apply Forall_impl; intros x; apply H. Qed.
Lemma saveable_report_lawful : lawful (report_codec show_date parse_date parse_url) (rust_report show_date parse_date parse_url) saveable_report 1.
Proof.
  eapply lawful_weaken; [apply report_lawful|reflexivity| |lia]. intros r _. unfold saveable_report, report_paths, content_good, source_good. rewrite !Forall_app, !Forall_flat_map.
  rewrite (Forall_iff (fun x => Forall unicode (flat_map source_paths (ir_sources (snd x)))) (fun e => Forall (fun s => Forall unicode (source_paths s)) (ir_sources (snd e)))) by (intros e; apply Forall_flat_map).
  rewrite (Forall_iff (fun x => Forall unicode (flat_map source_paths x)) (Forall (fun s => Forall unicode (source_paths s)))) by (intros e; apply Forall_flat_map).
  reflexivity.
Qed.
Lemma saveable_model_lawful : lawful (model_codec matrix show_date parse_date parse_url) (rust_model ok_matrix show_date parse_date parse_url) saveable_model 1.
Proof.
  eapply lawful_weaken; [apply model_lawful|reflexivity| |lia]. intros m _. unfold saveable_model, model_paths, content_good, source_good. rewrite !Forall_app, !Forall_flat_map.
  rewrite (Forall_iff (fun x => Forall unicode (flat_map source_paths (i_sources (snd x)))) (fun e => Forall (fun s => Forall unicode (source_paths s)) (i_sources (snd e)))) by (intros e; apply Forall_flat_map).
  rewrite !Forall_forall. split.
  - intros (a & b & c). csplit; auto; intros e E; now apply (c e E).
  - intros (a & b & c & d). csplit; auto.
Qed.
End Types.
