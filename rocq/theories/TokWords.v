(** Trimming and splitting a line into words. *)
From Coq Require Import String List NArith Bool Lia.
From Verif Require Import Common CommonFacts Regex TokModel TokSpec TokRe.
Import ListNotations.
Open Scope N_scope.

(** ** Trimming *)
Section Trim.
Variable p : N -> bool.
Lemma trim_start_app a w : Forall (fun c => p c = true) a -> trim_start p (a ++ w) = trim_start p w.
Proof. induction 1; [reflexivity|]. cbn. now rewrite H. Qed.
Lemma trim_start_keep w : (forall c r, w = c :: r -> p c = false) -> trim_start p w = w.
Proof. destruct w as [|c w]; [reflexivity|]. intros H. cbn. now rewrite (H c w). Qed.
Lemma trim_start_dec w : exists a, w = a ++ trim_start p w /\ Forall (fun c => p c = true) a /\
  (forall c r, trim_start p w = c :: r -> p c = false).
Proof.
  induction w as [|c w (a & E & Ha & Hk)]; [exists []; repeat split; [constructor|discriminate]|].
  cbn. destruct (p c) eqn:P.
  - exists (c :: a). split; [cbn; congruence|]. split; [now constructor|exact Hk].
  - exists []. split; [reflexivity|]. split; [constructor|]. now intros ? ? [= <- <-].
Qed.
Lemma trim_end_app a w : Forall (fun c => p c = true) a -> trim_end p (w ++ a) = trim_end p w.
Proof. intros H. unfold trim_end. rewrite rev_app_distr, trim_start_app; [reflexivity|]. now apply Forall_rev. Qed.
Lemma trim_end_keep w : (forall c r, w = r ++ [c] -> p c = false) -> trim_end p w = w.
Proof.
  intros H. unfold trim_end. rewrite trim_start_keep; [apply rev_involutive|]. intros c r E.
  apply (H c (rev r)). rewrite <- (rev_involutive w), E. reflexivity.
Qed.
Lemma trim_end_dec w : exists a, w = trim_end p w ++ a /\ Forall (fun c => p c = true) a /\
  (forall c r, trim_end p w = r ++ [c] -> p c = false).
Proof.
  destruct (trim_start_dec (rev w)) as (a & E & Ha & Hk). exists (rev a). split.
  - rewrite <- (rev_involutive w) at 1. rewrite E, rev_app_distr. reflexivity.
  - split; [now apply Forall_rev|]. intros c r Hr. unfold trim_end in Hr. apply (Hk c (rev r)).
    rewrite <- (rev_involutive (trim_start p (rev w))), Hr, rev_app_distr. reflexivity.
Qed.
Lemma trim_both_app a w b : Forall (fun c => p c = true) a -> Forall (fun c => p c = true) b ->
  trim_both p (a ++ w ++ b) = trim_both p w.
Proof.
  intros Ha Hb. unfold trim_both. rewrite trim_start_app by exact Ha.
  destruct (trim_start_dec w) as (a' & E & Ha' & Hk). rewrite E at 1. rewrite <- app_assoc, trim_start_app by exact Ha'.
  destruct (trim_start p w) as [|c r] eqn:T.
  - cbn. rewrite <- (app_nil_r b), (trim_start_app b []) by exact Hb. reflexivity.
  - rewrite trim_start_keep; [|intros x y [= <- <-]; now apply (Hk c r)]. apply trim_end_app. exact Hb.
Qed.
Lemma trim_both_keep w : (forall c r, w = c :: r -> p c = false) -> (forall c r, w = r ++ [c] -> p c = false) -> trim_both p w = w.
Proof. intros H1 H2. unfold trim_both. rewrite trim_start_keep by exact H1. now apply trim_end_keep. Qed.
Lemma trim_both_dec w : exists a b, w = a ++ trim_both p w ++ b /\ Forall (fun c => p c = true) a /\ Forall (fun c => p c = true) b /\
  (forall c r, trim_both p w = c :: r -> p c = false) /\ (forall c r, trim_both p w = r ++ [c] -> p c = false).
Proof.
  unfold trim_both. destruct (trim_start_dec w) as (a & E & Ha & Hk). destruct (trim_end_dec (trim_start p w)) as (b & E2 & Hb & Hk2).
  exists a, b. rewrite E at 1. split; [now rewrite <- E2|]. split; [exact Ha|]. split; [exact Hb|]. split; [|exact Hk2].
  intros c r Hc. rewrite Hc in E2. now apply (Hk c (r ++ b)).
Qed.
(** Around a text whose ends are kept. *)
Lemma trim_both_around x w y : w <> [] -> (forall c r, w = c :: r -> p c = false) -> (forall c r, w = r ++ [c] -> p c = false) ->
  trim_both p (x ++ w ++ y) = trim_start p x ++ w ++ trim_end p y.
Proof.
  intros Hne H1 H2. unfold trim_both.
  assert (S : trim_start p (x ++ w ++ y) = trim_start p x ++ w ++ y).
  { destruct (trim_start_dec x) as (a & E & Ha & Hk). rewrite E at 1. rewrite <- app_assoc, trim_start_app by exact Ha.
    destruct (trim_start p x) as [|c r] eqn:T; [|apply trim_start_keep; intros u v [= <- <-]; now apply (Hk c r)].
    cbn. destruct w as [|c w]; [congruence|]. apply trim_start_keep. intros u v [= <- <-]. now apply (H1 c w). }
  rewrite S. destruct (trim_end_dec y) as (b & E & Hb & Hk). rewrite E at 1. rewrite !app_assoc, trim_end_app by exact Hb.
  rewrite <- !app_assoc. apply trim_end_keep. intros c r Hc. destruct (trim_end p y) as [|z zs] eqn:T.
  - rewrite app_nil_r in Hc. destruct (exists_last Hne) as (ws & w1 & Ew). rewrite Ew in Hc. apply (H2 c ws). rewrite Ew. rewrite app_assoc in Hc.
    apply app_inj_tail in Hc. destruct Hc as [_ ->]. reflexivity.
  - destruct (@exists_last _ (z :: zs) ltac:(discriminate)) as (ls & l & El). rewrite El in Hc, Hk. rewrite !app_assoc in Hc.
    apply app_inj_tail in Hc. destruct Hc as [_ ->]. now apply (Hk c ls).
Qed.
End Trim.

Lemma trim_ok w : trimmed_of (trim w) w.
Proof.
  destruct (trim_both_dec is_whitespace w) as (a & b & E & Ha & Hb & H1 & H2). exists a, b. split; [exact E|].
  split; [revert Ha; apply Forall_impl; intros c; apply is_whitespace_ok|].
  split; [revert Hb; apply Forall_impl; intros c; apply is_whitespace_ok|].
  split; intros c r Hc Hw; apply is_whitespace_ok in Hw; [rewrite (H1 c r Hc) in Hw|rewrite (H2 c r Hc) in Hw]; discriminate.
Qed.
Lemma not_white c : ~ white c -> is_whitespace c = false.
Proof. intros H. destruct (is_whitespace c) eqn:E; [|reflexivity]. apply is_whitespace_ok in E. destruct (H E). Qed.
Lemma trimmed_unique t w : trimmed_of t w -> trim w = t.
Proof.
  intros (a & b & -> & Ha & Hb & H1 & H2). unfold trim. rewrite trim_both_app.
  - apply trim_both_keep; intros c r E; apply not_white; eauto.
  - revert Ha. apply Forall_impl. intros c. apply is_whitespace_ok.
  - revert Hb. apply Forall_impl. intros c. apply is_whitespace_ok.
Qed.
Lemma trim_around a w b : Forall white a -> Forall white b -> trim (a ++ w ++ b) = trim w.
Proof.
  intros Ha Hb. unfold trim. apply trim_both_app.
  - revert Ha. apply Forall_impl. intros c. apply is_whitespace_ok.
  - revert Hb. apply Forall_impl. intros c. apply is_whitespace_ok.
Qed.

(** ** Words *)
Lemma sep_unit_cases u : sep_unit u <-> (exists c, u = [c] /\ is_blank c = true) \/ (exists c d, u = [c; d] /\ is_escape c d = true).
Proof.
  unfold sep_unit, is_blank, is_escape. split.
  - intros [-> | [-> | [-> | ->]]]; [left; exists 32|left; exists 9|right; exists 92, 110|right; exists 92, 114]; auto.
  - intros [(c & -> & H)|(c & d & -> & H)].
    + apply orb_prop in H. destruct H as [H|H]; apply N.eqb_eq in H; subst; auto.
    + apply andb_prop in H. destruct H as [H1 H]. apply orb_prop in H. apply N.eqb_eq in H1. subst. destruct H as [H|H]; apply N.eqb_eq in H; subst; auto.
Qed.
Lemma escape_blank c d : is_escape c d = true -> is_blank c = false /\ is_blank d = false.
Proof.
  unfold is_escape, is_blank. intros H. apply andb_prop in H. destruct H as [H1 H]. apply N.eqb_eq in H1. subst.
  apply orb_prop in H. destruct H as [H|H]; apply N.eqb_eq in H; subst; auto.
Qed.
Lemma go_unit b acc u r : (b = true -> acc = []) -> sep_unit u ->
  words_go b acc (u ++ r) = (if b then [] else [rev acc]) ++ words_go true [] r.
Proof.
  intros Hb Hu. apply sep_unit_cases in Hu. destruct Hu as [(c & -> & Hc)|(c & d & -> & H)].
  - cbn [app words_go]. rewrite Hc. destruct b; [now rewrite Hb|reflexivity].
  - destruct (escape_blank c d H) as [H1 _]. cbn [app words_go]. rewrite H1, H. destruct b; [now rewrite Hb|reflexivity].
Qed.
Lemma go_units us r : Forall sep_unit us -> words_go true [] (concat us ++ r) = words_go true [] r.
Proof. induction 1 as [|u us Hu _ IH]; [reflexivity|]. cbn [concat]. rewrite <- app_assoc, go_unit; auto. Qed.
Lemma go_separator acc s r : separator s -> words_go false acc (s ++ r) = rev acc :: words_go true [] r.
Proof.
  intros (us & Hne & Hu & ->). destruct us as [|u us]; [congruence|]. inversion Hu; subst. cbn [concat]. rewrite <- app_assoc, go_unit by (auto; discriminate).
  cbn [app]. now rewrite go_units.
Qed.
(** Off a separator, being after one makes no difference. *)
Lemma go_start r : (forall u, sep_unit u -> ~ prefix u r) -> words_go true [] r = words_go false [] r.
Proof.
  intros H. destruct r as [|c r]; [reflexivity|]. cbn [words_go].
  destruct (is_blank c) eqn:B.
  - exfalso. apply (H [c]); [apply sep_unit_cases; left; eauto|]. exists r. reflexivity.
  - destruct r as [|d r]; [reflexivity|]. destruct (is_escape c d) eqn:E; [|reflexivity].
    exfalso. apply (H [c; d]); [apply sep_unit_cases; right; eauto|]. exists r. reflexivity.
Qed.
Lemma no_sep_cons c w : no_separator (c :: w) -> no_separator w /\ is_blank c = false /\ (forall d r, w = d :: r -> is_escape c d = false).
Proof.
  intros H. split; [|split].
  - intros u Hu (a & b & E). apply (H u Hu). exists (c :: a), b. cbn. congruence.
  - destruct (is_blank c) eqn:B; [|reflexivity]. exfalso. apply (H [c]); [apply sep_unit_cases; left; eauto|]. exists [], w. reflexivity.
  - intros d r ->. destruct (is_escape c d) eqn:B; [|reflexivity]. exfalso. apply (H [c; d]); [apply sep_unit_cases; right; eauto|]. exists [], r. reflexivity.
Qed.
Lemma sep_first s : separator s -> exists c r, s = c :: r /\ c <> 110 /\ c <> 114 /\ (forall d, is_escape d c = false).
Proof.
  intros (us & Hne & Hu & ->). destruct us as [|u us]; [congruence|]. inversion Hu as [|? ? H _]; subst.
  assert (exists c r, u = c :: r /\ c <> 110 /\ c <> 114) as (c & r & -> & H1 & H2).
  { destruct H as [-> | [-> | [-> | ->]]]; eexists _, _; (split; [reflexivity|]); split; discriminate. }
  exists c, (r ++ concat us). split; [reflexivity|]. split; [exact H1|]. split; [exact H2|]. intros d. unfold is_escape.
  apply N.eqb_neq in H1, H2. rewrite H1, H2. apply andb_false_r.
Qed.
Definition safe_next (s : list N) : Prop := s = [] \/ exists c r, s = c :: r /\ forall d, is_escape d c = false.
Lemma go_word w : forall acc s, no_separator w -> safe_next s -> words_go false acc (w ++ s) = words_go false (rev w ++ acc) s.
Proof.
  induction w as [|c w IH]; intros acc s Hw Hs; [reflexivity|].
  apply no_sep_cons in Hw. destruct Hw as (Hw & Hb & He). cbn [app words_go]. rewrite Hb.
  assert (R : words_go false (c :: acc) (w ++ s) = words_go false (rev (c :: w) ++ acc) s).
  { rewrite (IH _ _ Hw Hs). cbn [rev]. now rewrite <- app_assoc. }
  destruct (w ++ s) as [|d t] eqn:E; [exact R|].
  assert (is_escape c d = false) as ->; [|exact R].
  destruct w as [|x w]; cbn in E.
  - subst s. destruct Hs as [Hs|(y & r & [= -> ->] & Hs)]; [discriminate|apply Hs].
  - injection E as -> _. now apply (He d w).
Qed.
Lemma go_last w : no_separator w -> forall acc, words_go false acc w = [rev acc ++ w].
Proof. intros H acc. rewrite <- (app_nil_r w) at 1. rewrite go_word by (auto; now left). cbn. now rewrite rev_app_distr, rev_involutive. Qed.
(** The words are those of the declarative splitting. *)
Theorem splits_words l ws : splits l ws -> words l = ws.
Proof.
  unfold words. induction 1 as [w Hw|w s rest ws Hw Hs Hp Hr IH].
  - now rewrite go_last.
  - destruct (sep_first s Hs) as (c & r & Es & _ & _ & He). rewrite go_word; [|exact Hw|right; exists c, (r ++ rest); split; [now rewrite Es|exact He]].
    rewrite go_separator by exact Hs. rewrite go_start by exact Hp. rewrite IH. now rewrite app_nil_r, rev_involutive.
Qed.
Lemma sep_run l : exists us l', l = concat us ++ l' /\ Forall sep_unit us /\ (forall u, sep_unit u -> ~ prefix u l').
Proof.
  remember (length l) as n eqn:En. assert (Hn : (length l <= n)%nat) by lia. clear En. revert l Hn.
  induction n as [|n IH]; intros l Hn.
  - destruct l; [|cbn in Hn; lia]. exists [], []. split; [reflexivity|]. split; [constructor|].
    intros u Hu (r & E). apply sep_unit_cases in Hu. destruct Hu as [(c & -> & _)|(c & d & -> & _)]; discriminate.
  - assert (STOP : (forall u, sep_unit u -> ~ prefix u l) \/ exists u r, sep_unit u /\ l = u ++ r).
    { destruct l as [|c r]; [left; intros u Hu (r & E); apply sep_unit_cases in Hu; destruct Hu as [(c & -> & _)|(c & d & -> & _)]; discriminate|].
      destruct (is_blank c) eqn:B; [right; exists [c], r; split; [apply sep_unit_cases; left; eauto|reflexivity]|].
      destruct r as [|d r].
      - left. intros u Hu (t & E). apply sep_unit_cases in Hu. destruct Hu as [(x & -> & Hx)|(x & y & -> & _)]; [|discriminate]. injection E as Ex _. congruence.
      - destruct (is_escape c d) eqn:Q; [right; exists [c; d], r; split; [apply sep_unit_cases; right; eauto|reflexivity]|].
        left. intros u Hu (t & E). apply sep_unit_cases in Hu. destruct Hu as [(x & -> & Hx)|(x & y & -> & Hx)]; injection E; intros; subst; congruence. }
    destruct STOP as [S|(u & r & Hu & ->)].
    + exists [], l. split; [reflexivity|]. split; [constructor|exact S].
    + assert (Hl : (length r <= n)%nat).
      { rewrite app_length in Hn. apply sep_unit_cases in Hu. destruct Hu as [(c & -> & _)|(c & d & -> & _)]; cbn in Hn; lia. }
      destruct (IH r Hl) as (us & l' & -> & H1 & H2). exists (u :: us), l'. cbn. rewrite app_assoc. split; [reflexivity|]. split; [now constructor|exact H2].
Qed.
(** Where the first word ends. *)
Lemma first_word l : no_separator l \/ exists w u r, l = w ++ u ++ r /\ no_separator w /\ sep_unit u.
Proof.
  induction l as [|c l IH].
  - left. intros u Hu (a & b & E). symmetry in E. apply app_eq_nil in E. destruct E as [_ E]. apply app_eq_nil in E. destruct E as [-> _].
    apply sep_unit_cases in Hu. destruct Hu as [(c & Hc & _)|(c & d & Hc & _)]; discriminate.
  - assert (NS : no_separator []).
    { intros u Hu (a & b & E). symmetry in E. apply app_eq_nil in E. destruct E as [_ E]. apply app_eq_nil in E. destruct E as [-> _].
      apply sep_unit_cases in Hu. destruct Hu as [(x & Hc & _)|(x & d & Hc & _)]; discriminate. }
    destruct (is_blank c) eqn:B; [right; exists [], [c], l; split; [reflexivity|]; split; [exact NS|]; apply sep_unit_cases; left; eauto|].
    assert (CONS : forall w, no_separator w -> (forall d r, w = d :: r -> is_escape c d = false) -> no_separator (c :: w)).
    { intros w Hw He u Hu (a & b & E). destruct a as [|x a].
      - cbn in E. apply sep_unit_cases in Hu. destruct Hu as [(x & -> & Hx)|(x & y & -> & Hx)].
        + injection E as -> ->. congruence.
        + injection E as -> Ew. rewrite (He y b Ew) in Hx. discriminate.
      - injection E as -> E. apply (Hw u Hu). exists a, b. exact E. }
    destruct l as [|d l'].
    { left. apply CONS; [exact NS|discriminate]. }
    destruct (is_escape c d) eqn:Q.
    { right. exists [], [c; d], l'. split; [reflexivity|]. split; [exact NS|]. apply sep_unit_cases. right. eauto. }
    destruct IH as [H|(w & u & r & E & H1 & H2)].
    + left. apply CONS; [exact H|]. intros ? ? [= <- <-]. exact Q.
    + right. exists (c :: w), u, r. split; [cbn; now rewrite <- E|]. split; [|exact H2]. apply CONS; [exact H1|].
      intros x y ->. injection E as <- _. exact Q.
Qed.
Theorem words_splits l : splits l (words l).
Proof.
  assert (EX : forall n l, (length l <= n)%nat -> exists ws, splits l ws).
  { induction n as [|n IH]; intros l0 Hl.
    - destruct l0; [|cbn in Hl; lia]. exists [[]]. constructor. intros u Hu (a & b & E). symmetry in E. apply app_eq_nil in E. destruct E as [_ E]. apply app_eq_nil in E. destruct E as [-> _].
      apply sep_unit_cases in Hu. destruct Hu as [(x & Hc & _)|(x & d & Hc & _)]; discriminate.
    - destruct (first_word l0) as [H|(w & u & r & -> & Hw & Hu)]; [exists [l0]; now constructor|].
      destruct (sep_run r) as (us & r' & -> & H1 & H2).
      assert (Hr : (length r' <= n)%nat).
      { rewrite !app_length in Hl. apply sep_unit_cases in Hu. destruct Hu as [(c & -> & _)|(c & d & -> & _)]; cbn in Hl; lia. }
      destruct (IH r' Hr) as (ws & Hws). exists (w :: ws). rewrite (app_assoc u). apply SplitsMore; try assumption.
      exists (u :: us). split; [discriminate|]. split; [now constructor|reflexivity]. }
  destruct (EX (length l) l (le_n _)) as (ws & H). rewrite (splits_words l ws H). exact H.
Qed.
Lemma words_chars l w c : In w (words l) -> In c w -> In c l /\ c <> 32 /\ c <> 9.
Proof.
  intros Hw Hc. pose proof (words_splits l) as S. assert (no_separator w /\ (forall c, In c w -> In c l)) as [Hn Hs].
  { clear Hc. induction S as [x Hx|x s rest ws Hx Hs Hp Hr IH].
    - destruct Hw as [<-|[]]. auto.
    - destruct Hw as [<-|Hw]; [split; [exact Hx|intros; apply in_or_app; now left]|]. destruct (IH Hw) as [H1 H2]. split; [exact H1|].
      intros y Hy. apply in_or_app. right. apply in_or_app. right. auto. }
  split; [auto|]. apply in_split in Hc. destruct Hc as (a & b & ->). split; intros ->.
  - apply (Hn [32]); [now left|]. exists a, b. reflexivity.
  - apply (Hn [9]); [now right; left|]. exists a, b. reflexivity.
Qed.

(** A word standing alone between blanks. *)
Lemma go_prefix p : forall b acc, (b = true -> acc = []) -> forall x, is_blank x = true ->
  exists xs, forall r, words_go b acc (p ++ x :: r) = xs ++ words_go true [] r.
Proof.
  remember (length p) as n eqn:En. assert (Hn : (length p <= n)%nat) by lia. clear En. revert p Hn.
  induction n as [|n IH]; intros p Hn b acc Hb x Hx.
  - destruct p; [|cbn in Hn; lia]. exists (if b then [] else [rev acc]). intros r. change ([] ++ x :: r) with ([x] ++ r). rewrite go_unit; [reflexivity|exact Hb|].
    apply sep_unit_cases. left. eauto.
  - destruct p as [|c p].
    { exists (if b then [] else [rev acc]). intros r. change ([] ++ x :: r) with ([x] ++ r). rewrite go_unit; [reflexivity|exact Hb|]. apply sep_unit_cases. left. eauto. }
    cbn in Hn. destruct (is_blank c) eqn:B.
    { destruct (IH p (le_S_n _ _ Hn) true [] (fun _ => eq_refl) x Hx) as (xs & Hxs). exists ((if b then [] else [rev acc]) ++ xs). intros r.
      change ((c :: p) ++ x :: r) with ([c] ++ (p ++ x :: r)). rewrite go_unit; [|exact Hb|apply sep_unit_cases; left; eauto]. rewrite Hxs. apply app_assoc. }
    destruct p as [|d p].
    { exists [rev (c :: acc)]. intros r. cbn [app words_go]. rewrite B.
      assert (E : is_escape c x = false).
      { unfold is_blank in Hx. unfold is_escape. apply orb_prop in Hx. destruct Hx as [Hx|Hx]; apply N.eqb_eq in Hx; subst; apply andb_false_r. }
      rewrite E, Hx. reflexivity. }
    destruct (is_escape c d) eqn:E.
    { destruct (IH p ltac:(cbn in Hn; lia) true [] (fun _ => eq_refl) x Hx) as (xs & Hxs). exists ((if b then [] else [rev acc]) ++ xs). intros r.
      change ((c :: d :: p) ++ x :: r) with ([c; d] ++ (p ++ x :: r)). rewrite go_unit; [|exact Hb|apply sep_unit_cases; right; eauto]. rewrite Hxs. apply app_assoc. }
    destruct (IH (d :: p) ltac:(cbn in Hn |- *; lia) false (c :: acc) ltac:(discriminate) x Hx) as (xs & Hxs). exists xs. intros r.
    specialize (Hxs r). cbn [app] in Hxs |- *. rewrite <- Hxs. cbn [words_go]. now rewrite B, E.
Qed.
Lemma words_alone pre post : ends_blank pre -> starts_blank post -> exists xs ys, forall a, a <> [] -> no_separator a ->
  words (pre ++ a ++ post) = xs ++ [a] ++ ys.
Proof.
  intros Hp Hq. unfold words.
  assert (BL : forall c, c = 32 \/ c = 9 -> is_blank c = true) by (intros c [->| ->]; reflexivity).
  assert (NP : forall a, a <> [] -> no_separator a -> safe_next post -> forall u, sep_unit u -> ~ prefix u (a ++ post)).
  { intros a Ha Hn Hs u Hu (r & E). destruct a as [|c a]; [congruence|]. apply no_sep_cons in Hn. destruct Hn as (_ & Hb & He).
    apply sep_unit_cases in Hu. destruct Hu as [(x & -> & Hx)|(x & y & -> & Hx)].
    - injection E as -> _. congruence.
    - injection E as -> E. destruct a as [|d a].
      + cbn in E. destruct Hs as [->|(z & t & -> & Hz)]; [discriminate|]. injection E as -> _. rewrite Hz in Hx. discriminate.
      + injection E as -> _. rewrite (He y a eq_refl) in Hx. discriminate. }
  assert (SN : safe_next post).
  { destruct Hq as [->|(c & q & -> & Hc)]; [now left|]. right. exists c, q. split; [reflexivity|]. intros d. unfold is_escape.
    destruct Hc as [->| ->]; apply andb_false_r. }
  assert (MID : exists ys, forall a, a <> [] -> no_separator a -> words_go false [] (a ++ post) = a :: ys).
  { destruct Hq as [->|(c & q & -> & Hc)].
    - exists []. intros a Ha Hn. now rewrite app_nil_r, go_last.
    - exists (words_go true [] q). intros a Ha Hn. rewrite go_word by assumption. change (c :: q) with ([c] ++ q).
      rewrite go_unit; [|discriminate|apply sep_unit_cases; left; exists c; split; [reflexivity|now apply BL]]. cbn [app]. now rewrite app_nil_r, rev_involutive. }
  destruct MID as (ys & MID). destruct Hp as [->|(p & c & -> & Hc)].
  - exists [], ys. intros a Ha Hn. cbn [app]. now rewrite MID.
  - destruct (go_prefix p false [] ltac:(discriminate) c (BL c Hc)) as (xs & Hxs). exists xs, ys. intros a Ha Hn.
    rewrite <- app_assoc. cbn [app]. rewrite Hxs, go_start, MID by (try apply NP; assumption). reflexivity.
Qed.
(** ... also after trimming the line. *)
Lemma before_trim p pre : ends_blank pre -> ends_blank (trim_start p pre).
Proof.
  intros H. destruct (trim_start_dec p pre) as (a & E & _ & _). destruct (trim_start p pre) as [|x r] eqn:T; [now left|].
  right. destruct H as [->|(q & c & -> & Hc)]; [symmetry in E; apply app_eq_nil in E; destruct E; discriminate|].
  destruct (@exists_last _ (x :: r) ltac:(discriminate)) as (ls & l & El). rewrite El in E |- *. exists ls, l. split; [reflexivity|]. rewrite app_assoc in E. apply app_inj_tail in E. destruct E as [_ <-]. exact Hc.
Qed.
Lemma after_trim p post : starts_blank post -> starts_blank (trim_end p post).
Proof.
  intros H. destruct (trim_end_dec p post) as (a & E & _ & _). destruct (trim_end p post) as [|x r] eqn:T; [now left|].
  right. destruct H as [->|(c & q & -> & Hc)]; [discriminate|]. injection E as -> _. exists x, r. auto.
Qed.
