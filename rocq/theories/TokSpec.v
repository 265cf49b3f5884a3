(** Vocabulary for the statements about the tokenizer: words of a line, the classes of
    volatile words, the noise lines, letter case.  Nothing here uses the regular
    expressions or the functions of the model. *)
From Coq Require Import String List NArith Bool.
From Verif Require Import Common.
Import ListNotations.
Open Scope N_scope.

(** ** Characters *)
Definition between (a b c : N) : Prop := a <= c <= b.
Definition digit (c : N) : Prop := between 48 57 c.
Definition lower_letter (c : N) : Prop := between 97 122 c.
Definition upper_letter (c : N) : Prop := between 65 90 c.
Definition letter (c : N) : Prop := lower_letter c \/ upper_letter c.
Definition alnum (c : N) : Prop := letter c \/ digit c.
Definition one_of (s : string) (c : N) : Prop := In c (lit s).
(** Unicode White_Space. *)
Definition white (c : N) : Prop :=
  between 9 13 c \/ c = 32 \/ c = 133 \/ c = 160 \/ c = 5760 \/ between 8192 8202 c \/
  c = 8232 \/ c = 8233 \/ c = 8239 \/ c = 8287 \/ c = 12288.
(** Quotes and punctuation around words. *)
Definition punct (c : N) : Prop := one_of "'"",;()[]{}<>\" c.

(** Letter case: ASCII, and Unicode simple folding (the Kelvin sign folds to k, the long s
    to s). *)
Definition ascii_lower (c : N) : N := if (65 <=? c) && (c <=? 90) then c + 32 else c.
Definition fold_lower (c : N) : N :=
  if c =? 8490 then 107 else if c =? 383 then 115 else ascii_lower c.

(** ** Texts *)
Definition prefix (p w : list N) : Prop := exists r, w = p ++ r.
Definition infix (p w : list N) : Prop := exists a b, w = a ++ p ++ b.
Definition suffix (p w : list N) : Prop := exists a, w = a ++ p.

(** ** Words of a line: what lies between maximal runs of separators. *)
Definition sep_unit (u : list N) : Prop :=
  u = [32] \/ u = [9] \/ u = lit "\n" \/ u = lit "\r".
Definition separator (s : list N) : Prop :=
  exists us, us <> [] /\ Forall sep_unit us /\ s = concat us.
Definition no_separator (w : list N) : Prop := forall u, sep_unit u -> ~ infix u w.
Inductive splits : list N -> list (list N) -> Prop :=
| SplitsLast w : no_separator w -> splits w [w]
| SplitsMore w s rest ws :
    no_separator w -> separator s -> (forall u, sep_unit u -> ~ prefix u rest) ->
    splits rest ws -> splits (w ++ s ++ rest) (w :: ws).

(** What may precede and follow a word standing alone: nothing, or a blank. *)
Definition ends_blank (pre : list N) : Prop := pre = [] \/ exists p c, pre = p ++ [c] /\ (c = 32 \/ c = 9).
Definition starts_blank (post : list N) : Prop := post = [] \/ exists c q, post = c :: q /\ (c = 32 \/ c = 9).
(** A word of a line: not empty, without white space and without a separator. *)
Definition plain_word (w : list N) : Prop :=
  w <> [] /\ no_separator w /\ forall c, In c w -> ~ white c.
(** [w] is [core] with quotes and punctuation around it, and maybe the u of a Python
    string before the opening quote. *)
Definition python_prefix (u : list N) : Prop := In u [[]; lit "u'"; lit "u"""].
Definition surrounded (core w : list N) : Prop :=
  (exists u p q, w = u ++ p ++ core ++ q /\ python_prefix u /\ Forall punct p /\ Forall punct q /\
     ~ prefix (lit "u""") (p ++ core ++ q) /\ ~ prefix (lit "u'") (p ++ core ++ q)) /\
  core <> [] /\ (forall c r, core = c :: r -> ~ punct c) /\ (forall c r, core = r ++ [c] -> ~ punct c).
(** No space at the ends, no two spaces in a row. *)
Definition clean (t : list N) : Prop :=
  (forall r, t <> 32 :: r) /\ (forall r, t <> r ++ [32]) /\ ~ infix [32; 32] t.

(** Joining with single spaces. *)
Fixpoint join_space (ts : list (list N)) : list N :=
  match ts with
  | [] => []
  | [t] => t
  | t :: ts' => t ++ [32] ++ join_space ts'
  end.
Definition nonempty (t : list N) : bool := match t with [] => false | _ => true end.

(** The text without the white space around it. *)
Definition trimmed_of (t w : list N) : Prop :=
  exists a b, w = a ++ t ++ b /\ Forall white a /\ Forall white b /\
    (forall c r, t = c :: r -> ~ white c) /\ (forall c r, t = r ++ [c] -> ~ white c).

(** ** Classes of volatile words *)
Definition DateWord (w : list N) : Prop :=
  In (map ascii_lower w) (map lit
    ["sunday"; "monday"; "tuesday"; "wednesday"; "thursday"; "friday"; "saturday";
     "january"; "february"; "march"; "april"; "may"; "june"; "july"; "august";
     "september"; "october"; "november"; "december"]%string).
(** hash12:..., sha..., md5:..., or 64 consecutive token characters. *)
Definition HashWord (w : list N) : Prop :=
  (exists p d r, w = p ++ d ++ [58] ++ r /\
     In (map fold_lower p) (map lit ["hash"; "sha"; "md"]%string) /\ Forall digit d) \/
  (exists a b r, w = a ++ b ++ r /\ length b = 64%nat /\ Forall (fun c => alnum c \/ one_of "_+/-" c) b).
(** Groups of hexadecimal digits (and [ ] x Z) separated by colons, dots and dashes. *)
Definition hex_char (c : N) : Prop :=
  digit c \/ between 97 102 c \/ between 65 70 c \/ one_of "[]xZ" c.
Definition uid_group (g : list N) : Prop :=
  exists a h s, g = a ++ h ++ s /\ Forall (fun c => c = 58) a /\ h <> [] /\ Forall hex_char h /\
    Forall (one_of ":.-") s.
Definition UidWord (w : list N) : Prop :=
  exists gs, gs <> [] /\ Forall uid_group gs /\ w = concat gs.
Definition CookieWord (w : list N) : Prop :=
  (exists p, In p (map lit ["gAAAA"; "AAAA"; "tap"; "req-"; "AUTH_"]%string) /\ prefix p w) \/
  (exists c, lower_letter c /\ prefix (lit "tx" ++ [c]) w).
(** x...-abcd-abcd-abcd- *)
Definition UuidWord (w : list N) : Prop :=
  exists x m a b c, w = [x] ++ m ++ [45] ++ a ++ [45] ++ b ++ [45] ++ c ++ [45] /\
    alnum x /\ Forall (fun c => c <> 10) m /\
    Forall (fun g => length g = 4%nat /\ Forall alnum g) [a; b; c].
Definition UrlWord (w : list N) : Prop :=
  exists s r, w = s ++ r /\
    In (map fold_lower s) (map lit ["https://"; "http://"; "ftp://"; "ssh://"]%string).
Definition PathWord (w : list N) : Prop :=
  infix (lit "tmp/") w \/ infix (lit "/tmp") w \/ prefix (lit "tmp") w.
Definition RefWord (word_char : N -> bool) (w : list N) : Prop :=
  prefix (lit "refs/") w \/ prefix (lit "repos/") w \/
  exists a b, w = a ++ lit ".." ++ b /\ length a = 7%nat /\ length b = 7%nat /\
    Forall (fun c => word_char c = true) (a ++ b).
Definition Base64Word (w : list N) : Prop :=
  suffix (lit "==") w \/
  (24 < utf8_len w /\ Forall (fun c => alnum c \/ one_of "+/=" c) w).

(** In order of precedence, with their tokens. *)
Definition literal_classes (word_char : N -> bool) : list ((list N -> Prop) * list N) :=
  [ (DateWord, lit "%DATE"); (HashWord, lit "%HASH"); (UidWord, lit "%ID");
    (CookieWord, lit "%COOKIE"); (UuidWord, lit "%UID"); (UrlWord, lit "%URL");
    (PathWord, lit "%PATH"); (RefWord word_char, lit "%REF"); (Base64Word, lit "%BASE64") ].
(** The first class a word belongs to, in a list of classes. *)
Inductive first_class : list ((list N -> Prop) * list N) -> list N -> list N -> Prop :=
| FirstHere (C : list N -> Prop) t l w : C w -> first_class ((C, t) :: l) w t
| FirstLater (C : list N -> Prop) t l w t' : ~ C w -> first_class l w t' -> first_class ((C, t) :: l) w t'.
(** [w] is volatile and stands for token [t]. *)
Definition recognised (word_char : N -> bool) (w t : list N) : Prop :=
  first_class (literal_classes word_char) w t.

(** ** Noise lines *)
Definition ends_a_word (word_char : N -> bool) (r : list N) : Prop :=
  match r with [] => True | c :: _ => word_char c = false end.
Definition no_newline (w : list N) : Prop := ~ In 10 w.
Inductive noise (word_char : N -> bool) : list N -> Prop :=
| NoiseGet a c b : c <> 10 -> noise word_char (a ++ lit "GET / HTTP/1" ++ [c] ++ lit "1" ++ b)
| NoiseMirror a k v : k <> [] -> Forall letter k -> Forall (fun c => alnum c \/ one_of ".-" c) v ->
    noise word_char (a ++ lit "* " ++ k ++ lit ": " ++ v)
| NoiseTrying a c b : c <> 10 -> noise word_char (a ++ lit "Trying other mirror" ++ [c] ++ b)
| NoiseOvs a m cmd b : no_newline m -> In cmd (map lit ["dump-ports"; "dump-flows"; "show"]%string) ->
    ends_a_word word_char b -> noise word_char (a ++ lit "ovs-ofctl " ++ m ++ lit " " ++ cmd ++ b)
| NoiseTables a t m b : In t (map lit ["iptables "; "ebtables "]%string) -> no_newline m ->
    ends_a_word word_char b -> noise word_char (a ++ t ++ m ++ lit " -L" ++ b)
| NoiseChrony x h d b : one_of "+*-" x -> (5 <= length h)%nat ->
    Forall (fun c => lower_letter c \/ digit c \/ one_of ".>-" c) h -> digit d ->
    noise word_char (lit "^" ++ [x] ++ lit " " ++ h ++ lit " " ++ [d] ++ b)
| NoiseMemcached k n b : k <> [] -> Forall (fun c => between 97 102 c \/ digit c \/ one_of "s/" c) k ->
    n <> [] -> Forall digit n -> noise word_char (k ++ lit ">" ++ n ++ lit " " ++ b)
| NoiseEcho w : w <> [] -> ~ In 32 w -> noise word_char (lit "++ echo " ++ w)
| NoiseArt a m b : Forall (one_of " '"",") a -> length m = 17%nat -> no_newline m ->
    Forall (one_of " '"",") b -> noise word_char (a ++ lit "|" ++ m ++ lit "|" ++ b).
(** The line has no inner white space: it is one word at most. *)
Definition single_word (line : list N) : Prop := forall c, In c line -> ~ white c.

(** ** Error words *)
Definition error_word (w : list N) : Prop :=
  In (map ascii_lower w) (map lit
    ["error"; "fatal"; "failure"; "failed"; "warning"; "err"; "fail"; "warn"; "denied";
     "assert"; "assertion"; "non-zero"; "exception"; "traceback"]%string).
(** w w%A w%B w%C w%D *)
Definition amplified (w : list N) : list N :=
  join_space [w; w ++ lit "%A"; w ++ lit "%B"; w ++ lit "%C"; w ++ lit "%D"].

(** ** Identifying keys *)
Definition key_char (c : N) : Prop := ~ one_of "=:['""" c.
Definition identifying_key (k : list N) : Prop :=
  (exists c r, k = c :: r /\ (letter c \/ c = 95)) /\ Forall key_char k /\
  exists a m b, k = a ++ m ++ b /\
    In (map fold_lower m) (map lit ["id"; "key"; "ref"; "region"; "token"; "secret"; "password"]%string).

(** The ASCII digits of a text, in order. *)
Definition digits_of (w : list N) : list N := filter (fun c => (48 <=? c) && (c <=? 57)) w.

(** A line, without the white space around it, that the filter drops. *)
Definition dropped (word_char : N -> bool) (line : list N) : Prop :=
  exists t, trimmed_of t line /\ (single_word t \/ noise word_char t).

(** ** Numbers *)
(** [n] is a whole number, or a decimal, standing before [r]. *)
Inductive number_before : list N -> list N -> Prop :=
| Whole d r : d <> [] -> Forall digit d -> (forall c x, r = c :: x -> ~ digit c) ->
    (forall c x, r = 46 :: c :: x -> ~ digit c) -> number_before d r
| Decimal d e r : d <> [] -> Forall digit d -> e <> [] -> Forall digit e ->
    (forall c x, r = c :: x -> ~ digit c) -> number_before (d ++ [46] ++ e) r.
(** [s] is [w] with every number replaced by the letter N. *)
Inductive collapsed : list N -> list N -> Prop :=
| CollapsedNil : collapsed [] []
| CollapsedChar c w s : ~ digit c -> collapsed w s -> collapsed (c :: w) (c :: s)
| CollapsedNumber n r s : number_before n r -> collapsed r s -> collapsed (n ++ r) (lit "N" ++ s).
Definition identifier_char (c : N) : Prop := alnum c \/ one_of "_." c.
