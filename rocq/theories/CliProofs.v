(** Proof method for the command line: a property of all reachable points of a program. *)
From Coq Require Import String List NArith Bool.
From Verif Require Import Common CommonFacts FilesModel CliModel.
Import ListNotations.
Open Scope N_scope.
Ltac csplit := repeat match goal with |- _ /\ _ => split end.

Section Proofs.
Context {Build Model Report : Type}.
Notation prog := (@prog Build Model Report).
Notation event := (@event Build Model Report).
Notation fs := (@fs Model Report).
(** A property of the events so far, the files and the outcome, if there is one. *)
Variable Q : list event -> fs -> option outcome -> Prop.

Definition here (s : fs) (p : path) : bool := match s p with Some _ => true | None => false end.
Fixpoint always (h : list event) (q : prog) (s : fs) {struct q} : Prop :=
  match q with
  | Done o => Q h s (Some o)
  | GetContent i k => Q h s None /\ forall c, always (h ++ [Got i c]) (k c) s
  | Discover c k => Q h s None /\ forall l, always (h ++ [Discovered c l]) (k l) s
  | Exists p k => Q h s None /\ always (h ++ [Asked p (here s p)]) (k (here s p)) s
  | Load p k => Q h s None /\ always (h ++ [Loaded p (load (s p))]) (k (load (s p))) s
  | Train l k => Q h s None /\ forall m, always (h ++ [Trained l m]) (k m) s
  | Create p _ k => Q h s None /\ always (h ++ [Created p true]) (k true) (set s p (Some Junk)) /\ always (h ++ [Created p false]) (k false) s
  | Write p f k => Q h s None /\ always (h ++ [Written p f true]) (k true) (set s p (Some f)) /\
      always (h ++ [Written p f false]) (k false) (set s p (Some Junk)) /\
      (encoded f = true -> always (h ++ [Lost p f]) (k true) (set s p (Some Junk)))
  | Live c m k => Q h s None /\ forall r, always (h ++ [Analysed c m]) (k r) s
  | MakeReport c m k => Q h s None /\ forall r, always (h ++ [Analysed c m]) (k r) s
  | Render _ r k => Q h s None /\ forall o, always (h ++ [Other]) (k o) s
  | Debug k => Q h s None /\ forall o, always (h ++ [Other]) (k o) s
  end.
Definition status (q : prog) : option outcome := match q with Done o => Some o | _ => None end.

Lemma always_now h q s : always h q s -> Q h s (status q).
Proof. destruct q; cbn; tauto. Qed.
Lemma always_step h q s e q' s' : step (q, s) e (q', s') -> always h q s -> always (h ++ [e]) q' s'.
Proof.
  intros H. inversion H; subst; cbn [always]; unfold here; try tauto; intros A; destruct A as [_ A]; auto.
Qed.
Lemma always_exec c tr c' : exec c tr c' -> forall h, always h (fst c) (snd c) -> Q (h ++ tr) (snd c') (status (fst c')).
Proof.
  induction 1 as [c|c e c' tr c'' Hs _ IH]; intros h A.
  - rewrite app_nil_r. now apply always_now.
  - destruct c as [q s], c' as [q' s']. cbn [fst snd] in *. replace (h ++ e :: tr) with ((h ++ [e]) ++ tr) by now rewrite <- app_assoc.
    apply IH. eapply always_step; eauto.
Qed.
Theorem reach q s tr q' s' : always [] q s -> exec (q, s) tr (q', s') -> Q tr s' (status q').
Proof. intros A E. exact (always_exec _ _ _ E [] A). Qed.

Lemma always_save h s p f k : Q h s None -> Q (h ++ [Created p true]) (set s p (Some Junk)) None -> Q (h ++ [Created p false]) s (Some Failure) ->
  Q (h ++ [Created p true; Written p f false]) (set (set s p (Some Junk)) p (Some Junk)) (Some Failure) ->
  always (h ++ [Created p true; Written p f true]) k (set (set s p (Some Junk)) p (Some f)) ->
  (encoded f = true -> always (h ++ [Created p true; Lost p f]) k (set (set s p (Some Junk)) p (Some Junk))) ->
  always h (save p f k) s.
Proof.
  intros H1 H2 H3 H4 H5 H6. unfold save. split; [exact H1|]. split; [|exact H3]. split; [exact H2|].
  rewrite <- !app_assoc. auto.
Qed.

(** The contents of inputs, in order. *)
Definition got (l : list input) (cs : list (content Build)) : list event := map (fun x => Got (fst x) (Val (snd x))) (combine l cs).
Definition gets (l : list input) (e : event) : Prop := match e with Got i _ => In i l | _ => False end.
Lemma gets_got l cs : Forall (gets l) (got l cs).
Proof. unfold got. apply Forall_forall. intros e H. apply in_map_iff in H as [[i c] [<- H]]. exact (in_combine_l _ _ _ _ H). Qed.
Lemma gets_cons i l t : Forall (gets l) t -> Forall (gets (i :: l)) t.
Proof. apply Forall_impl. intros [ ]; cbn; auto. Qed.
Lemma always_contents s : forall l h k,
  (forall t, Forall (gets l) t -> Q (h ++ t) s None) -> (forall t, Forall (gets l) t -> Q (h ++ t) s (Some Failure)) -> (forall t, Forall (gets l) t -> Q (h ++ t) s (Some Panicked)) ->
  (forall cs, length cs = length l -> always (h ++ got l cs) (k cs) s) -> always h (get_contents l k) s.
Proof.
  induction l as [|i l IH]; intros h k H1 H2 H3 H4; cbn [get_contents].
  - rewrite <- (app_nil_r h). now apply (H4 []).
  - cbn [always]. split; [rewrite <- (app_nil_r h); apply (H1 []); constructor|]. intros [c|e|]; cbn [try always].
    + apply IH; [intros t Ht; rewrite <- app_assoc; apply H1; constructor; [now left|now apply gets_cons]|intros t Ht; rewrite <- app_assoc; apply H2; constructor; [now left|now apply gets_cons]
        |intros t Ht; rewrite <- app_assoc; apply H3; constructor; [now left|now apply gets_cons]|].
      intros cs E. rewrite <- app_assoc. apply (H4 (c :: cs)). cbn. now rewrite E.
    + apply (H2 [_]). repeat constructor.
    + apply (H3 [_]). repeat constructor.
Qed.
End Proofs.

Lemma set_same {M R} (s : @fs M R) p f : set s p f p = f.
Proof. unfold set. now rewrite eqb_list_refl. Qed.
Lemma set_other {M R} (s : @fs M R) p q f : q <> p -> set s p f q = s q.
Proof. intros H. unfold set. destruct (eqb_list q p) eqn:E; [|reflexivity]. apply eqb_list_spec in E. contradiction. Qed.
