(** The grammar of the tokenizer: the text every word is replaced by, rule by rule, in
    order of precedence.  Nothing here uses the functions or the expressions of the model. *)
From Coq Require Import String List NArith Bool.
From Verif Require Import Common TokSpec.
Import ListNotations.
Open Scope N_scope.

(** ** Parts of a word *)
(** The first place where a character of the set stands, with what is before and after. *)
Definition cut (P : N -> Prop) (w a b : list N) : Prop :=
  exists c, w = a ++ [c] ++ b /\ P c /\ Forall (fun x => ~ P x) a.
Definition never (P : N -> Prop) (w : list N) : Prop := Forall (fun x => ~ P x) w.
(** [t] is [w] without the characters of the set at its ends. *)
Definition peeled_end (P : N -> Prop) (t w : list N) : Prop :=
  exists b, w = t ++ b /\ Forall P b /\ forall c r, t = r ++ [c] -> ~ P c.
Definition peeled (P : N -> Prop) (t w : list N) : Prop :=
  exists a b, w = a ++ t ++ b /\ Forall P a /\ Forall P b /\
    (forall c r, t = c :: r -> ~ P c) /\ (forall c r, t = r ++ [c] -> ~ P c).
(** [t] is [w] without the copies of [u] it begins with. *)
Definition unprefixed (u t w : list N) : Prop :=
  exists n, w = concat (repeat u n) ++ t /\ ~ prefix u t.
(** [core] is the word [w] without the openings of Python strings it begins with, then
    without the punctuation around it. *)
Definition stripped (core w : list N) : Prop :=
  exists x y, unprefixed (lit "u""") x w /\ unprefixed (lit "u'") y x /\ peeled punct core y.

(** ** Shapes *)
(** Neither volatile nor an error word, and long enough. *)
Definition ordinary (word_char : N -> bool) (w : list N) : Prop :=
  (forall t, ~ recognised word_char w t) /\ ~ error_word w /\ 3 < utf8_len w.
(** name[123: what is left of a process number once the closing bracket is stripped. *)
Definition process_number (w name : list N) : Prop :=
  exists ds, w = name ++ lit "[" ++ ds /\ Forall digit ds.
Definition odd (w : list N) : Prop := exists c, In c w /\ one_of "<>{}%$,*" c.
(** key=value or key:value *)
Definition pair (w k v : list N) : Prop :=
  cut (one_of "=:") w k v /\ exists c r, k = c :: r /\ (letter c \/ c = 95).
Definition names_secret (k : list N) : Prop :=
  exists m, infix m k /\
    In (map fold_lower m) (map lit ["id"; "key"; "ref"; "region"; "token"; "secret"; "password"]%string).
(** a-b-c-d, where none of the four is empty *)
Definition dashed (w : list N) : Prop :=
  exists a b c x r, w = a ++ lit "-" ++ b ++ lit "-" ++ c ++ lit "-" ++ [x] ++ r /\
    a <> [] /\ b <> [] /\ c <> [] /\ no_newline (a ++ b ++ c ++ [x]).
(** None of the first rules applies. *)
Definition simple (word_char : N -> bool) (w : list N) : Prop :=
  ordinary word_char w /\ (forall b, ~ process_number w b) /\ ~ odd w /\ (forall k v, ~ pair w k v).

(** ** The grammar *)
(** Two parts of a word, with a separator if something was written last for the first. *)
Definition both (t1 : list N) (wrote : bool) (sep t2 : list N) : list N :=
  t1 ++ (if wrote then sep else []) ++ t2.

(** [reads w t b]: the word [w] is written as the text [t]; [b] is whether a separator is
    due after it. *)
Inductive reads (word_char : N -> bool) : list N -> list N -> bool -> Prop :=
| ReadsToken w c t : stripped c w -> recognised word_char c t -> reads word_char w t true
| ReadsError w c : stripped c w -> (forall t, ~ recognised word_char c t) -> error_word c ->
    reads word_char w (amplified c) true
| ReadsShort w c : stripped c w -> (forall t, ~ recognised word_char c t) -> ~ error_word c -> utf8_len c <= 3 ->
    reads word_char w [] false
| ReadsProcess w c name t b : stripped c w -> ordinary word_char c -> process_number c name ->
    reads word_char name t b -> reads word_char w (t ++ lit "%PID") true
| ReadsOdd w c : stripped c w -> ordinary word_char c -> (forall n, ~ process_number c n) -> odd c ->
    reads word_char w (lit "%ODD") true
| ReadsSecret w c k v t b : stripped c w -> ordinary word_char c -> (forall n, ~ process_number c n) -> ~ odd c ->
    pair c k v -> names_secret k ->
    reads word_char k t b -> reads word_char w (t ++ lit "%EQ %VALUE_ID") true
| ReadsPair w c k v tk bk tv bv : stripped c w -> ordinary word_char c -> (forall n, ~ process_number c n) -> ~ odd c ->
    pair c k v -> ~ names_secret k ->
    reads word_char k tk bk -> reads word_char v tv bv -> reads word_char w (tk ++ lit "%EQ " ++ tv) bv
| ReadsSlash w c x y tx bx ty b : stripped c w -> simple word_char c -> cut (one_of "/") c x y ->
    reads word_char x tx bx -> reads word_char y ty b -> reads word_char w (both tx bx (lit "/ ") ty) b
| ReadsDashes w c x y : stripped c w -> simple word_char c -> never (one_of "/") c -> cut (one_of "-") c x y ->
    dashed y -> reads word_char w (lit "%DASH") true
| ReadsDash w c x y tx bx ty b : stripped c w -> simple word_char c -> never (one_of "/") c -> cut (one_of "-") c x y ->
    ~ dashed y -> reads word_char x tx bx -> reads word_char y ty b -> reads word_char w (both tx bx (lit "- ") ty) b
| ReadsBar w c x y tx bx ty b : stripped c w -> simple word_char c -> never (one_of "/-") c -> cut (one_of "|") c x y ->
    reads word_char x tx bx -> reads word_char y ty b -> reads word_char w (both tx bx (lit "| ") ty) b
| ReadsBig w c : stripped c w -> simple word_char c -> never (one_of "/-|") c -> 32 <= utf8_len c ->
    reads word_char w (lit "%BIG") true
| ReadsTwo w c x y y' tx bx ty b : stripped c w -> simple word_char c -> never (one_of "/-|") c -> utf8_len c < 32 ->
    cut (one_of "[(\@") c x y' -> peeled_end (one_of "])") y y' ->
    reads word_char x tx bx -> reads word_char y ty b -> reads word_char w (both tx bx (lit " ") ty) b
| ReadsWord w c t : stripped c w -> simple word_char c -> never (one_of "/-|[(\@") c -> utf8_len c < 32 ->
    collapsed c t -> 3 < utf8_len t -> reads word_char w t true
| ReadsSmall w c t : stripped c w -> simple word_char c -> never (one_of "/-|[(\@") c -> utf8_len c < 32 ->
    collapsed c t -> utf8_len t <= 3 -> reads word_char w [] false.

(** What a word adds to the line: its text, without a separator at the end. *)
Definition written (word_char : N -> bool) (w t : list N) : Prop :=
  exists o b, reads word_char w o b /\ (o = t \/ o = t ++ [32]) /\ forall r, t <> r ++ [32].
(** [tokenized line out] *)
Inductive tokenized (word_char : N -> bool) : list N -> list N -> Prop :=
| TokenizedDropped line : dropped word_char line -> tokenized word_char line (lit "%GL_FILTER")
| TokenizedKept line t ws texts out : ~ dropped word_char line -> trimmed_of t line -> splits t ws ->
    Forall2 (written word_char) ws texts -> trimmed_of out (join_space (filter nonempty texts)) ->
    tokenized word_char line out.
