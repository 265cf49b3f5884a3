(** Facts about utf-8 decoding. *)
From Coq Require Import String List Arith NArith Bool Lia.
From Verif Require Import Common CommonFacts.
Import ListNotations.
Open Scope N_scope.

Definition push (c : N) (r : option (list N)) : option (list N) := match r with Some t => Some (c :: t) | None => None end.
(** One character at a time. *)
Definition utf8_first (l : bytes) : option (N * bytes) :=
  match l with
  | [] => None
  | b0 :: l1 =>
    if b0 <? 128 then Some (b0, l1)
    else if (194 <=? b0) && (b0 <=? 223) then
      match l1 with
      | b1 :: l2 => if is_cont b1 then Some ((b0 - 192) * 64 + (b1 - 128), l2) else None
      | _ => None
      end
    else if (224 <=? b0) && (b0 <=? 239) then
      match l1 with
      | b1 :: b2 :: l3 =>
        if is_cont b1 && is_cont b2 && ((negb (b0 =? 224)) || (160 <=? b1)) && ((negb (b0 =? 237)) || (b1 <=? 159))
        then Some ((b0 - 224) * 4096 + (b1 - 128) * 64 + (b2 - 128), l3) else None
      | _ => None
      end
    else if (240 <=? b0) && (b0 <=? 244) then
      match l1 with
      | b1 :: b2 :: b3 :: l4 =>
        if is_cont b1 && is_cont b2 && is_cont b3 && ((negb (b0 =? 240)) || (144 <=? b1)) && ((negb (b0 =? 244)) || (b1 <=? 143))
        then Some ((b0 - 240) * 262144 + (b1 - 128) * 4096 + (b2 - 128) * 64 + (b3 - 128), l4) else None
      | _ => None
      end
    else None
  end.
Lemma utf8_decode_first l : utf8_decode l =
  match l with [] => Some [] | _ => match utf8_first l with Some (c, r) => push c (utf8_decode r) | None => None end end.
Proof.
  destruct l as [|b0 l1]; [reflexivity|]. cbn [utf8_decode utf8_first]. destruct (b0 <? 128); [reflexivity|].
  destruct ((194 <=? b0) && (b0 <=? 223)). { destruct l1 as [|b1 l2]; [reflexivity|]. destruct (is_cont b1); reflexivity. }
  destruct ((224 <=? b0) && (b0 <=? 239)).
  { destruct l1 as [|b1 [|b2 l3]]; try reflexivity. destruct (is_cont b1 && is_cont b2 && _ && _); reflexivity. }
  destruct ((240 <=? b0) && (b0 <=? 244)); [|reflexivity].
  destruct l1 as [|b1 [|b2 [|b3 l4]]]; try reflexivity. destruct (is_cont b1 && is_cont b2 && is_cont b3 && _ && _); reflexivity.
Qed.
Lemma utf8_first_app l c r b : utf8_first l = Some (c, r) -> utf8_first (l ++ b) = Some (c, r ++ b).
Proof.
  destruct l as [|b0 l1]; [discriminate|]. cbn [utf8_first app]. destruct (b0 <? 128); [now intros [= <- <-]|].
  destruct ((194 <=? b0) && (b0 <=? 223)). { destruct l1 as [|b1 l2]; [discriminate|]. cbn. destruct (is_cont b1); [now intros [= <- <-]|discriminate]. }
  destruct ((224 <=? b0) && (b0 <=? 239)).
  { destruct l1 as [|b1 [|b2 l3]]; try discriminate. cbn [app]. destruct (is_cont b1 && is_cont b2 && _ && _); [now intros [= <- <-]|discriminate]. }
  destruct ((240 <=? b0) && (b0 <=? 244)); [|discriminate].
  destruct l1 as [|b1 [|b2 [|b3 l4]]]; try discriminate. cbn [app]. destruct (is_cont b1 && is_cont b2 && is_cont b3 && _ && _); [now intros [= <- <-]|discriminate].
Qed.
Lemma utf8_first_len l c r : utf8_first l = Some (c, r) -> N.of_nat (length l) = utf8_len1 c + N.of_nat (length r).
Proof.
  destruct l as [|b0 l1]; [discriminate|]. cbn [utf8_first]. unfold is_cont, utf8_len1. destruct (b0 <? 128) eqn:E0.
  { intros [= <- <-]. rewrite E0. cbn [length]. lia. }
  destruct ((194 <=? b0) && (b0 <=? 223)) eqn:E1.
  { destruct l1 as [|b1 l2]; [discriminate|]. destruct ((128 <=? b1) && (b1 <=? 191)) eqn:C1; [|discriminate]. intros [= <- <-].
    rewrite andb_true_iff, !N.leb_le in *. apply N.ltb_ge in E0. cbn [length].
    assert (A : (b0 - 192) * 64 + (b1 - 128) < 2048) by lia. assert (B : 128 <= (b0 - 192) * 64 + (b1 - 128)) by lia.
    apply N.ltb_lt in A. apply N.ltb_ge in B. rewrite A, B. lia. }
  destruct ((224 <=? b0) && (b0 <=? 239)) eqn:E2.
  { destruct l1 as [|b1 [|b2 l3]]; try discriminate.
    destruct (((128 <=? b1) && (b1 <=? 191)) && ((128 <=? b2) && (b2 <=? 191)) && _ && _) eqn:C; [|discriminate]. intros [= <- <-].
    rewrite !andb_true_iff, !orb_true_iff, !negb_true_iff, !N.eqb_neq, !N.leb_le in *. cbn [length]. destruct C as (((C1 & C2) & C3) & C4).
    assert (A : (b0 - 224) * 4096 + (b1 - 128) * 64 + (b2 - 128) < 65536) by lia. assert (B : 2048 <= (b0 - 224) * 4096 + (b1 - 128) * 64 + (b2 - 128)) by lia.
    assert (D : 128 <= (b0 - 224) * 4096 + (b1 - 128) * 64 + (b2 - 128)) by lia.
    apply N.ltb_lt in A. apply N.ltb_ge in B, D. rewrite A, B, D. lia. }
  destruct ((240 <=? b0) && (b0 <=? 244)) eqn:E3; [|discriminate].
  destruct l1 as [|b1 [|b2 [|b3 l4]]]; try discriminate.
  destruct (((128 <=? b1) && (b1 <=? 191)) && ((128 <=? b2) && (b2 <=? 191)) && ((128 <=? b3) && (b3 <=? 191)) && _ && _) eqn:C; [|discriminate]. intros [= <- <-].
  rewrite !andb_true_iff, !orb_true_iff, !negb_true_iff, !N.eqb_neq, !N.leb_le in *. cbn [length]. destruct C as ((((C1 & C2) & C3) & C4) & C5).
  assert (A : 65536 <= (b0 - 240) * 262144 + (b1 - 128) * 4096 + (b2 - 128) * 64 + (b3 - 128)) by lia.
  set (v := (b0 - 240) * 262144 + (b1 - 128) * 4096 + (b2 - 128) * 64 + (b3 - 128)) in *. clearbody v.
  replace (v <? 128) with false by (symmetry; apply N.ltb_ge; lia). replace (v <? 2048) with false by (symmetry; apply N.ltb_ge; lia). replace (v <? 65536) with false by (symmetry; apply N.ltb_ge; lia). lia.
Qed.
Lemma utf8_len1_pos c : 1 <= utf8_len1 c.
Proof. unfold utf8_len1. destruct (c <? 128), (c <? 2048), (c <? 65536); lia. Qed.
Lemma utf8_first_shorter l c r : utf8_first l = Some (c, r) -> (length r < length l)%nat.
Proof. intros H. apply utf8_first_len in H. pose proof (utf8_len1_pos c). lia. Qed.
Lemma utf8_ind (P : bytes -> Prop) : P [] ->
  (forall l, l <> [] -> (forall c r, utf8_first l = Some (c, r) -> P r) -> P l) -> forall l, P l.
Proof.
  intros H0 HS l. remember (length l) as n eqn:E. revert l E. induction n as [n IH] using lt_wf_ind. intros l ->. destruct l as [|b l]; [exact H0|].
  apply HS; [discriminate|]. intros c r H. apply (IH (length r)); [now apply utf8_first_shorter in H|reflexivity].
Qed.
Lemma utf8_decode_len : forall l t, utf8_decode l = Some t -> utf8_len t = N.of_nat (length l).
Proof.
  intros l. induction l as [|l Hne IH] using utf8_ind; intros t H; [now injection H as <-|]. rewrite utf8_decode_first in H. destruct l as [|b l]; [congruence|].
  destruct (utf8_first (b :: l)) as [[c r]|] eqn:F; [|discriminate]. destruct (utf8_decode r) as [t'|] eqn:D; [|discriminate]. injection H as <-.
  cbn [utf8_len]. rewrite (IH _ _ eq_refl _ D). apply utf8_first_len in F. lia.
Qed.
Lemma utf8_decode_app a b x : utf8_decode a = Some x -> utf8_decode (a ++ b) = match utf8_decode b with Some y => Some (x ++ y) | None => None end.
Proof.
  revert x. induction a as [|l Hne IH] using utf8_ind; intros x H.
  - injection H as <-. cbn [app]. now destruct (utf8_decode b).
  - rewrite utf8_decode_first in H. destruct l as [|b0 l]; [congruence|]. destruct (utf8_first (b0 :: l)) as [[c r]|] eqn:F; [|discriminate].
    destruct (utf8_decode r) as [t'|] eqn:D; [|discriminate]. injection H as <-. rewrite utf8_decode_first. cbn [app]. rewrite (utf8_first_app _ _ _ b F : utf8_first (b0 :: l ++ b) = _).
    rewrite (IH c r eq_refl t' D). now destruct (utf8_decode b).
Qed.
Lemma utf8_ascii l : Forall (fun c => c < 128) l -> utf8_decode l = Some l.
Proof. induction 1 as [|c l Hc _ IH]; [reflexivity|]. rewrite utf8_decode_first. cbn [utf8_first]. apply N.ltb_lt in Hc. rewrite Hc, IH. reflexivity. Qed.
Lemma utf8_len_ascii l : Forall (fun c => c < 128) l -> utf8_len l = N.of_nat (length l).
Proof. intros H. apply utf8_decode_len. now apply utf8_ascii. Qed.
