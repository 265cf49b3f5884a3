(** One call of the iterator: what is left of the reader, and that what is left does not matter. *)
From Coq Require Import List NArith Bool Lia ZifyBool ZifyN ZifyNat.
From Verif Require Import Common IterModel IterSpec IterProofs IterSafety IterMain.
Import ListNotations.
Open Scope N_scope.

Ltac csplit := repeat match goal with |- _ /\ _ => split end.

Lemma find_chunk ovf s :
  match find_next_line ovf s with
  | FPanic => True
  | FNone s1 => chunk_size s1 = chunk_size s /\ st s1 = st s
  | FSome _ _ s1 => chunk_size s1 = chunk_size s /\ st s1 <> EoF
  end.
Proof.
  unfold find_next_line. destruct (blen (buf s) <? prev_pos s); [exact I|].
  destruct (scan _ _ _ _) as [[[[p sp]|] e] j]; [|split; reflexivity].
  destruct sp; try (split; [reflexivity|discriminate]).
  destruct (usize_sub _ _ _); [|exact I]. split; [reflexivity|discriminate].
Qed.
Lemma advance_chunk ovf s p sp s' : advance ovf s p sp = Some s' -> chunk_size s' = chunk_size s /\ st s' = st s.
Proof.
  unfold advance. destruct (usize_add _ _ _); [|discriminate]. destruct (_ <? _); [discriminate|].
  intros E. injection E as <-. split; reflexivity.
Qed.

Definition no_empty (r : reader) : Prop := Forall (fun e => e <> Data []) r.

Lemma do_read_left cap r x r' : 0 < cap -> no_empty r -> do_read cap r = (x, r') ->
  no_empty r' /\ (x = ROk [] -> r = [] /\ r' = []) /\ (reader_weight r' <= reader_weight r)%nat.
Proof.
  intros Hc Hn E. destruct r as [|[d|e] r]; cbn [do_read] in E.
  - injection E as <- <-. split; [exact Hn|]. split; [auto|lia].
  - inversion Hn as [|? ? Hd Hr]; subst. destruct (N.leb_spec (blen d) cap).
    + injection E as <- <-. split; [exact Hr|]. split; [|cbn [reader_weight]; lia]. intros X. injection X as ->. now destruct Hd.
    + injection E as <- <-. assert (Hl : blen (skipn (N.to_nat cap) d) = blen d - cap) by apply blen_skipn.
      assert (Hf : blen (firstn (N.to_nat cap) d) = N.min cap (blen d)) by apply blen_firstn. split; [|split].
      * constructor; [|exact Hr]. intros X. injection X as X. rewrite X in Hl. cbn in Hl. lia.
      * intros X. injection X as X. rewrite X in Hf. cbn in Hf. lia.
      * cbn [reader_weight]. unfold blen in *. lia.
  - inversion Hn; subst. injection E as <- <-. split; [assumption|]. split; [discriminate|cbn [reader_weight]; lia].
Qed.

Ltac run_cases IH E :=
  repeat match type of E with
  | context [do_read ?c ?r] => let X := fresh "Rd" in destruct (do_read c r) as [[[|? ?]|?] ?] eqn:X
  | context [find_next_line ?o ?s] => let X := fresh "Fi" in pose proof (find_chunk o s) as X; destruct (find_next_line o s)
  | context [advance ?o ?s ?p ?sp] => let X := fresh "Ad" in destruct (advance o s p sp) eqn:X; [apply advance_chunk in X|]
  | context [if ?b then _ else _] => destruct b
  | context [match firstn ?a ?b with _ => _ end] => destruct (firstn a b)
  end.

Lemma run_left ovf : forall fuel m s r o s' r', 0 < chunk_size s -> no_empty r -> run ovf fuel m s r = (o, s', r') ->
  no_empty r' /\ (o = ONone -> r' = []) /\ (st s <> EoF -> st s' = EoF -> r' = []) /\ chunk_size s' = chunk_size s /\
  (reader_weight r' <= reader_weight r)%nat.
Proof.
  induction fuel as [|fuel IH]; intros m s r o s' r' Hc Hn E.
  { injection E as <- <- <-. split; [exact Hn|]. split; [discriminate|]. split; [contradiction|]. split; [reflexivity|lia]. }
  destruct m; cbn [run] in E; run_cases IH E;
    repeat match goal with
    | R : do_read _ _ = _ |- _ => apply do_read_left in R; [destruct R as (? & ? & ?)|exact Hc|exact Hn]
    | H : _ /\ _ |- _ => destruct H
    | H : ?a = ?a -> _ |- _ => specialize (H eq_refl)
    end;
    try (injection E as <- <- <-; csplit; auto; try discriminate; try contradiction; try (intros; congruence); try lia; fail);
    try (match goal with r1 : reader |- _ =>
      apply IH in E; [|iter_simpl; congruence|assumption];
      destruct E as (E1 & E2 & E3 & E4 & E5);
      iter_simpl; csplit; auto; try congruence; try lia;
      intros HS HS'; apply E3; auto; congruence end).
  all: try (apply IH in E; [|iter_simpl; congruence|assumption];
      destruct E as (E1 & E2 & E3 & E4 & E5); iter_simpl; csplit; auto; try congruence; try lia;
      intros HS HS'; apply E3; auto; congruence).
  all: injection E as <- <- <-; iter_simpl; csplit; auto; try discriminate; try (intros; congruence); try congruence; lia.
Qed.

Lemma run_fuel ovf : forall fuel m s r o s' r' k, run ovf fuel m s r = (o, s', r') -> o <> OFuel -> run ovf (fuel + k) m s r = (o, s', r').
Proof.
  induction fuel as [|fuel IH]; intros m s r o s' r' k E Ho; [injection E as <- <- <-; now destruct Ho|].
  rewrite PeanoNat.Nat.add_succ_l. destruct m; cbn [run] in E |- *; run_cases IH E; try exact E; apply IH; assumption.
Qed.

(** Reading inside [r1] does not depend on what follows. *)
Lemma do_read_local cap r1 x y r' : 0 < cap -> x <> [] -> no_empty x -> do_read cap (r1 ++ x) = (y, r') ->
  (reader_weight x <= reader_weight r')%nat -> exists r1', r' = r1' ++ x /\ do_read cap r1 = (y, r1').
Proof.
  intros Hc Hx Hn E Hw. destruct r1 as [|e r1].
  - exfalso. cbn [app] in E. destruct x as [|[d|e] x]; [now destruct Hx| |]; cbn [do_read] in E.
    + inversion Hn as [|? ? Hd _]; subst. destruct (N.leb_spec (blen d) cap).
      * injection E as <- <-. cbn [reader_weight] in Hw. lia.
      * injection E as <- <-. cbn [reader_weight] in Hw. assert (L : blen (skipn (N.to_nat cap) d) = blen d - cap) by apply blen_skipn. unfold blen in *. lia.
    + injection E as <- <-. cbn [reader_weight] in Hw. lia.
  - cbn [app] in E. destruct e as [d|e]; cbn [do_read] in E |- *.
    + destruct (blen d <=? cap); injection E as <- <-; eexists; (split; [|reflexivity]); reflexivity.
    + injection E as <- <-. exists r1. auto.
Qed.

Lemma no_empty_app a b : no_empty (a ++ b) <-> no_empty a /\ no_empty b.
Proof. apply Forall_app. Qed.

Lemma run_local ovf : forall fuel m s r1 x o s' r', 0 < chunk_size s -> no_empty (r1 ++ x) -> x <> [] ->
  run ovf fuel m s (r1 ++ x) = (o, s', r') -> (reader_weight x <= reader_weight r')%nat ->
  exists r1', r' = r1' ++ x /\ run ovf fuel m s r1 = (o, s', r1').
Proof.
  induction fuel as [|fuel IH]; intros m s r1 x o s' r' Hc Hn Hx E Hw.
  { injection E as <- <- <-. exists r1. split; reflexivity. }
  destruct m; cbn [run] in E |- *.
  - destruct (do_read (chunk_size s) (r1 ++ x)) as [y r2] eqn:Rd.
    assert (W : (reader_weight x <= reader_weight r2)%nat).
    { destruct (do_read_left _ _ _ _ Hc Hn Rd) as (N2 & _ & _). destruct y as [[|c d]|e].
      - destruct (0 <? _); injection E as <- <- <-; exact Hw.
      - apply run_left in E; [|iter_simpl; exact Hc|exact N2]. lia.
      - injection E as <- <- <-; exact Hw. }
    destruct (do_read_left _ _ _ _ Hc Hn Rd) as (N2 & _ & _).
    destruct (do_read_local _ _ _ _ _ Hc Hx (proj2 (proj1 (no_empty_app _ _) Hn)) Rd W) as (r1' & -> & ->).
    destruct y as [[|c d]|e].
    + destruct (0 <? _); injection E as <- <- <-; eexists; (split; reflexivity).
    + apply IH in E; auto.
    + injection E as <- <- <-; eexists; (split; reflexivity).
  - pose proof (find_chunk ovf s) as Fi. destruct (find_next_line ovf s) as [|s1|pos sp s1].
    + injection E as <- <- <-. eexists. split; reflexivity.
    + destruct Fi as [F1 F2]. destruct (_ <? _); apply IH in E; auto; iter_simpl; congruence.
    + destruct Fi as [F1 F2]. destruct (_ <? pos).
      * destruct (advance ovf (set_prev s1 0) pos sp) as [s3|] eqn:A.
        -- apply advance_chunk in A as [A1 A2]. apply IH in E; auto. iter_simpl. congruence.
        -- injection E as <- <- <-. eexists. split; reflexivity.
      * destruct (_ <? pos); [injection E as <- <- <-; eexists; split; reflexivity|].
        destruct (advance ovf _ 0 sp) as [s4|] eqn:A; [|injection E as <- <- <-; eexists; split; reflexivity].
        apply advance_chunk in A as [A1 A2]. destruct (firstn _ _).
        -- apply IH in E; auto. iter_simpl. congruence.
        -- injection E as <- <- <-. eexists. split; reflexivity.
  - destruct (do_read (chunk_size s) (r1 ++ x)) as [y r2] eqn:Rd.
    destruct (do_read_left _ _ _ _ Hc Hn Rd) as (N2 & _ & _).
    assert (W : (reader_weight x <= reader_weight r2)%nat).
    { destruct y as [[|c d]|e]; [injection E as <- <- <-; exact Hw| |injection E as <- <- <-; exact Hw].
      set (s2 := set_buf _ (_ ++ skipn _ _)) in E. pose proof (find_chunk ovf s2) as Fi. assert (C2 : chunk_size s2 = chunk_size s) by reflexivity.
      destruct (find_next_line ovf s2) as [|s1|pos sp s1].
      - injection E as <- <- <-; exact Hw.
      - destruct Fi as [F1 F2]. apply run_left in E; [|iter_simpl; congruence|exact N2]. lia.
      - destruct Fi as [F1 F2]. destruct (_ =? _); [apply run_left in E; [|iter_simpl; congruence|exact N2]; lia|].
        destruct (advance ovf s1 pos sp) as [s4|] eqn:A; [|injection E as <- <- <-; exact Hw].
        apply advance_chunk in A as [A1 A2]. apply run_left in E; [|congruence|exact N2]. lia. }
    destruct (do_read_local _ _ _ _ _ Hc Hx (proj2 (proj1 (no_empty_app _ _) Hn)) Rd W) as (r1' & -> & ->).
    destruct y as [[|c d]|e]; [injection E as <- <- <-; eexists; split; reflexivity| |injection E as <- <- <-; eexists; split; reflexivity].
    set (s2 := set_buf _ (_ ++ skipn _ _)) in *. pose proof (find_chunk ovf s2) as Fi. assert (C2 : chunk_size s2 = chunk_size s) by reflexivity.
    destruct (find_next_line ovf s2) as [|s1|pos sp s1].
    + injection E as <- <- <-. eexists. split; reflexivity.
    + destruct Fi as [F1 F2]. apply IH in E; auto. iter_simpl. congruence.
    + destruct Fi as [F1 F2]. destruct (_ =? _); [apply IH in E; auto; iter_simpl; congruence|].
      destruct (advance ovf s1 pos sp) as [s4|] eqn:A; [|injection E as <- <- <-; eexists; split; reflexivity].
      apply advance_chunk in A as [A1 A2]. apply IH in E; auto. congruence.
Qed.

(** Reads that fit in the buffer are taken one by one. *)
Definition fits (cap : N) (r : reader) : Prop := Forall (fun e => match e with Data d => blen d <= cap | Fail _ => True end) r.
Lemma do_read_suffix cap r x r' : fits cap r -> do_read cap r = (x, r') -> exists pre, r = pre ++ r'.
Proof.
  intros F E. destruct r as [|[d|e] r]; cbn [do_read] in E.
  - injection E as <- <-. exists []. reflexivity.
  - inversion F as [|? ? Hd _]; subst. destruct (N.leb_spec (blen d) cap); [|lia]. injection E as <- <-. exists [Data d]. reflexivity.
  - injection E as <- <-. exists [Fail e]. reflexivity.
Qed.
Ltac same_cap s := match goal with |- fits ?a _ => replace a with (chunk_size s) by congruence; assumption end.
Lemma run_suffix ovf : forall fuel m s r o s' r', fits (chunk_size s) r -> run ovf fuel m s r = (o, s', r') -> exists pre, r = pre ++ r'.
Proof.
  assert (T : forall a b c, (exists p, a = p ++ b) -> (exists q, b = q ++ c) -> exists z, a = z ++ c :> reader).
  { intros a b c [p ->] [q ->]. exists (p ++ q). apply app_assoc. }
  induction fuel as [|fuel IH]; intros m s r o s' r' F E; [injection E as <- <- <-; exists []; reflexivity|].
  destruct m; cbn [run] in E; run_cases IH E;
    repeat match goal with
    | R : do_read _ _ = _ |- _ => apply do_read_suffix in R; [|exact F]
    | H : _ /\ _ |- _ => destruct H
    end;
    try (injection E as <- <- <-; first [assumption|exists []; reflexivity]);
    try (eapply IH; [|exact E]; iter_simpl; same_cap s; fail);
    match goal with X : exists _, r = _ ++ _ |- _ => eapply T; [exact X|]; destruct X as [pre X]; rewrite X in F; apply Forall_app in F as [_ F] end;
    (eapply IH; [|exact E]); iter_simpl; same_cap s.
Qed.

(** ** next() *)
(** The states that a reader leads to whose reads are neither empty nor too large. *)
Definition good (s : iter) (r : reader) : Prop := OK s /\ chunk_size s = 8192 /\ no_empty r /\ (st s = EoF -> r = []) /\ fits 8192 r.
Lemma good_new json r : no_empty r -> fits 8192 r -> good (new json) r.
Proof. intros H F. split; [apply OK_new|]. split; [reflexivity|]. split; [exact H|]. split; [discriminate|exact F]. Qed.

Lemma next_good ovf s r o s' r' : good s r -> next ovf s r = (o, s', r') -> o <> OPanic ->
  good s' r' /\ o <> OFuel /\ (o = ONone -> r' = [] /\ finished_state s') /\ (exists pre, r = pre ++ r') /\
  (forall l n, o = OLine l n -> st s' = EoF \/ (Psi s' r' < Psi s r)%nat).
Proof.
  intros (HO & Hc & Hn & He & Hs8) E Hp. destruct (next_OK _ _ _ _ _ _ HO E Hp) as (HO' & Hf & _).
  destruct (st s) as [|sp] eqn:Es.
  - rewrite next_eof in E by exact Es. injection E as <- <- <-. specialize (He eq_refl). subst r. unfold good. csplit; auto; try discriminate.
    + intros _. split; auto. split; auto.
    + exists []. reflexivity.
  - pose proof (next_safe ovf s r HO) as Hs. rewrite E, Es in Hs. specialize (Hs ltac:(discriminate)).
    assert (R : no_empty r' /\ (o = ONone -> r' = []) /\ (st s <> EoF -> st s' = EoF -> r' = []) /\ chunk_size s' = chunk_size s /\ (reader_weight r' <= reader_weight r)%nat).
    { unfold next in E. rewrite Es in E. destruct (buf s); apply run_left in E; auto; rewrite Hc; lia. }
    assert (Su : exists pre, r = pre ++ r').
    { unfold next in E. rewrite Es in E. destruct (buf s); apply run_suffix in E; auto; now rewrite Hc. }
    destruct R as (R1 & R2 & R3 & R4 & R5). unfold good. csplit; auto; try congruence.
    + intros X. apply R3; [congruence|exact X].
    + destruct Su as [pre ->]. now apply Forall_app in Hs8.
    + intros ->. split; [auto|]. destruct Hs as [[Hs1 Hs2] _]. split; auto.
    + intros l n ->. destruct Hs as [Hs1 _]. tauto.
Qed.

Lemma next_local ovf s r1 x o s' r' : good s (r1 ++ x) -> x <> [] -> next ovf s (r1 ++ x) = (o, s', r') ->
  (reader_weight x <= reader_weight r')%nat -> exists r1', r' = r1' ++ x /\ next ovf s r1 = (o, s', r1').
Proof.
  intros (HO & Hc & Hn & He & Hs8) Hx E Hw. unfold next in E |- *. destruct (st s) as [|sp] eqn:Es.
  { injection E as <- <- <-. exists r1. auto. }
  assert (W : forall a, reader_weight (a ++ x) = (reader_weight a + reader_weight x)%nat).
  { induction a as [|[d|e] a IHa]; cbn [app reader_weight]; [reflexivity| |]; rewrite IHa; lia. }
  assert (F : fuel_for s (r1 ++ x) = (fuel_for s r1 + 3 * reader_weight x)%nat) by (unfold fuel_for; rewrite W; lia).
  assert (G : forall m, OKmode m s -> (mu m s r1 <= fuel_for s r1)%nat -> run ovf (fuel_for s (r1 ++ x)) m s (r1 ++ x) = (o, s', r') ->
    exists r1', r' = r1' ++ x /\ run ovf (fuel_for s r1) m s r1 = (o, s', r1')).
  { intros m Hm Hmu Er. apply run_local in Er as (r1' & -> & Er); auto; [|rewrite Hc; lia]. exists r1'. split; [reflexivity|].
    pose proof (run_safe ovf (fuel_for s r1) m s r1 Hm Hmu) as Po.
    destruct (run ovf (fuel_for s r1) m s r1) as [[o2 s2] r2] eqn:E2.
    assert (o2 <> OFuel) by (intros ->; destruct Po as [Po _]; exact Po).
    apply (run_fuel _ _ _ _ _ _ _ _ (3 * reader_weight x)) in E2; [|assumption]. rewrite <- F, Er in E2. now symmetry. }
  destruct HO as (Hpk & Hl & [X|HO]); [congruence|].
  destruct (buf s) as [|b0 b] eqn:Eb; apply G; auto; unfold mu, fuel_for; lia.
Qed.
