(** The table of a page says what the report says: C77. *)
From Coq Require Import String List NArith ZArith Reals Bool Lia.
From Verif Require Import Common CommonFacts FilesModel CliModel FilesSpec FilesSources HtmlModel HtmlSpec IndexModel ProcModel ReportModel ShownModel ShownSpec ShownProofs P_Shown SummarySpec.
From Verif Require StoreModel StoreSpec P_Store P_Page.
Import ListNotations.
Open Scope string_scope.
Open Scope list_scope.
Open Scope N_scope.
Ltac csplit := repeat match goal with |- _ /\ _ => split end.

Lemma utf8_len_bytes t : utf8_len t = N.of_nat (length (utf8_encode t)).
Proof.
  induction t as [|c t IH]; [reflexivity|]. unfold utf8_encode in *. cbn [utf8_len flat_map]. rewrite app_length, Nat2N.inj_add, <- IH. f_equal.
  unfold utf8_len1, utf8_encode1. destruct (c <? 128); [reflexivity|]. destruct (c <? 2048); [reflexivity|]. destruct (c <? 65536); reflexivity.
Qed.
(** One name for a source, and none exactly when there is a panic. *)
Lemma source_called s t : source_text s = Some t <-> called_source s t.
Proof.
  assert (E : get_relative s = drop_bytes (base_bytes s) (full_name s)) by (destruct s; reflexivity).
  unfold source_text. rewrite E. split.
  - destruct (drop_bytes (base_bytes s) (full_name s)) as [r|] eqn:D; [|discriminate]. intros [= <-]. apply drop_bytes_some in D. destruct D as (b & D1 & D2).
    apply CalledSource with (base := b); [exact D1|]. now rewrite <- utf8_len_bytes.
  - intros [b r D1 D2]. rewrite D1, D2, <- utf8_len_bytes, drop_bytes_app. reflexivity.
Qed.
Lemma content_called {Date} (c : content (@StoreModel.build Date)) t : content_text c = Some t <-> called c t.
Proof.
  destruct c as [s|s|b]; cbn [content_text].
  1, 2: split; [destruct (source_text s) eqn:E; [|discriminate]; intros [= <-]; constructor; now apply source_called|]; intros H; inversion H as [? u K|? u K|]; subst; apply source_called in K; now rewrite K.
  split; [intros [= <-]; constructor|]. intros H. now inversion H.
Qed.
Lemma join_listed l : listed l (join_text (lit ", ") l).
Proof. induction l as [|x [|y l] IH]; cbn [join_text] in *; constructor; auto. Qed.
Lemma listed_one l t t' : listed l t -> listed l t' -> t = t'.
Proof. intros H. revert t'. induction H as [| |x y l t H IH]; intros t' H'; inversion H'; subst; auto. f_equal. f_equal. auto. Qed.
Lemma texts_called {Date} (l : list (content (@StoreModel.build Date))) ts : all_texts content_text l = Some ts <-> Forall2 called l ts.
Proof.
  revert ts. induction l as [|c l IH]; intros ts; cbn [all_texts]; [split; [intros [= <-]; constructor|intros H; now inversion H]|]. split.
  - destruct (content_text c) eqn:E; [|discriminate]. destruct (all_texts content_text l) eqn:E'; [|discriminate]. intros [= <-]. constructor; [now apply content_called|now apply IH].
  - intros H. inversion H as [|? t ? ts' K K']; subst. apply content_called in K. apply IH in K'. now rewrite K, K'.
Qed.

(** C77: the five texts of the table: the target, the baselines in their order, when the report was
    made, how long it took, and the result. *)
Theorem C77_summary : forall Date up has_year (r : @StoreModel.report Date) s, summary_of up has_year r = Some s ->
  called (StoreModel.r_target r) (s_target s) /\
  (exists names, Forall2 called (StoreModel.r_baselines r) names /\ listed names (s_baselines s)) /\
  called_time (fst (StoreModel.r_created r)) (s_created s) /\
  (StoreSpec.rust_duration (StoreModel.r_run r) -> called_duration (fst (StoreModel.r_run r)) (snd (StoreModel.r_run r)) (s_time s)) /\
  (1 <= StoreModel.r_lines r < 2 ^ 64 -> StoreModel.r_anomalies r <= StoreModel.r_lines r -> called_result (StoreModel.r_lines r) (StoreModel.r_anomalies r) (s_result s)).
Proof.
  intros Date up has_year r s. unfold summary_of. destruct (content_text _) as [t|] eqn:E1; [|discriminate]. destruct (all_texts _ _) as [ts|] eqn:E2; [|discriminate].
  destruct (render_time has_year _) as [c|] eqn:E3; [|discriminate]. intros [= <-]. cbn [s_target s_baselines s_created s_time s_result]. csplit.
  - now apply content_called.
  - exists ts. split; [now apply texts_called|apply join_listed].
  - destruct (C77_created has_year (StoreModel.r_created r)) as (y & m & d & h & mi & sec & D1 & D2 & D3 & D4 & D5 & D6 & D7).
    destruct (has_year y); [|rewrite D7 in E3 by reflexivity; discriminate]. destruct (D6 eq_refl) as (ty & tm & td & th & tmi & ts' & E & X). rewrite E in E3. injection E3 as <-.
    exists y, m, d, h, mi, sec, ty, tm, td, th, tmi, ts'. csplit; try tauto.
  - destruct (StoreModel.r_run r) as [secs nanos]. intros [B1 B2]. exact (C77_time up secs nanos B1 B2).
  - intros L A. exact (C77_result up _ _ L A).
Qed.
(** The texts determine the names: two reports with the same target and baselines have the same. *)
Theorem C77_names_one : forall Date (c : content (@StoreModel.build Date)) t t', called c t -> called c t' -> t = t'.
Proof. intros Date c t t' H H'. apply content_called in H, H'. congruence. Qed.

Example C77_summary_example : exists s, summary_of P_Page.ex_up P_Page.ex_years P_Store.report1 = Some s /\
  StoreSpec.rust_duration (StoreModel.r_run P_Store.report1) /\ 1 <= StoreModel.r_lines P_Store.report1 < 2 ^ 64 /\ StoreModel.r_anomalies P_Store.report1 <= StoreModel.r_lines P_Store.report1.
Proof.
  destruct (summary_of P_Page.ex_up P_Page.ex_years P_Store.report1) as [s|] eqn:Es; [|vm_compute in Es; discriminate]. exists s.
  split; [reflexivity|]. vm_compute. csplit; try discriminate; reflexivity.
Qed.
Print Assumptions C77_summary.
Print Assumptions C77_names_one.
