(** The tokenizer does exactly what its grammar says: C89. *)
From Coq Require Import String List Arith NArith Bool Lia.
From Verif Require Import Common CommonFacts Regex RegexFacts TokModel TokSpec TokRe TokNoise TokWords TokWord TokLine TokExactSpec TokExact.
Import ListNotations.
Open Scope N_scope.

(** The text of a line is the one the grammar gives, and there is one. *)
Theorem C89_lines : forall word_char line out, process word_char line = Some out <-> tokenized word_char line out.
Proof. apply process_exact. Qed.
Theorem C89_total : forall word_char line, exists out, tokenized word_char line out /\ forall out', tokenized word_char line out' -> out' = out.
Proof.
  intros wc line. destruct (process_total wc line) as (out & E & _). exists out. split; [now apply process_exact|].
  intros out' H. apply process_exact in H. congruence.
Qed.
(** The same for a word and for the separator that is due after it. *)
Theorem C89_words : forall word_char w t b, do_process word_char (S (length w)) w = Some (t, b) <-> reads word_char w t b.
Proof. apply do_process_exact. Qed.
Theorem C89_one_reading : forall word_char w, exists t b, reads word_char w t b /\ forall t' b', reads word_char w t' b' -> t' = t /\ b' = b.
Proof.
  intros wc w. destruct (do_process_reads wc (S (length w)) w ltac:(lia)) as (t & b & E & R). exists t, b. split; [exact R|].
  intros t' b' R'. apply do_process_exact in R'. rewrite E in R'. injection R' as -> ->. auto.
Qed.

(** A line that takes most of the rules. *)
Example C89_example : exists word_char, tokenized word_char
  (lit "sshd[42]: user=bob42 token=abcd lib/python3.11/tail-light worker-alpha-beta-gamma-delta a%bc Error call(users) host|remote")
  (lit "sshd%PID%EQ user%EQ bobN token%EQ %VALUE_ID pythonN/ tail- light %DASH %ODD Error Error%A Error%B Error%C Error%D call users host| remote").
Proof. exists (fun c => in_ranges [(97, 122); (65, 90); (48, 57); (95, 95)] c). apply C89_lines. reflexivity. Qed.
Example C89_example_word : reads (fun _ => false) (lit "u'worker-a-b-c-d',") (lit "%DASH") true.
Proof.
  apply (ReadsDashes _ _ (lit "worker-a-b-c-d") (lit "worker") (lit "a-b-c-d")).
  - exists (lit "u'worker-a-b-c-d',"), (lit "worker-a-b-c-d',"). split; [|split].
    + exists 0%nat. split; [reflexivity|]. intros (r & E). discriminate.
    + exists 1%nat. split; [reflexivity|]. intros (r & E). discriminate.
    + exists [], (lit "',"). split; [reflexivity|]. split; [constructor|]. split; [repeat constructor; vm_compute; tauto|].
      split; intros c r E; [injection E as <- _|change (lit "worker-a-b-c-d") with (lit "worker-a-b-c-" ++ lit "d") in E; apply app_inj_tail in E; destruct E as [_ <-]]; vm_compute; intuition discriminate.
  - apply simple_ok. split; [|split; [|split]]; try reflexivity. apply ordinary_ok. split; [|split]; reflexivity.
  - apply (never_one "/" 47); reflexivity.
  - apply (cut_one "-" 45); reflexivity.
  - exists (lit "a"), (lit "b"), (lit "c"), 100, []. split; [reflexivity|]. repeat (split; [discriminate|]). vm_compute. intuition discriminate.
Qed.

Print Assumptions C89_lines.
Print Assumptions C89_total.
Print Assumptions C89_words.
Print Assumptions C89_one_reading.
