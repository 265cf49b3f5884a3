(** Model of tokenizer/src/tokenizer.rs.  Definitions only.

    Text (Rust [&str], [String]) is the list of its code points; [str::len], which counts
    bytes, is [utf8_len].  Regular expressions are terms of Regex.v, matched by [matchb]
    (proved in RegexFacts.v to decide their language); [Regex::is_match] looks for a match
    anywhere, which the [search...] combinators make explicit.  \w and \b depend on the
    Unicode tables of the regex crate, which is not in the repository: [word_char] is a
    parameter.  Functions that append to a [String] return the appended text. *)
From Coq Require Import String List NArith Bool.
From Verif Require Import Common Regex.
Import ListNotations.
Open Scope N_scope.

(** Rust [char::is_whitespace]: Unicode White_Space. *)
Definition is_whitespace (c : N) : bool :=
  in_ranges [(9, 13); (32, 32); (133, 133); (160, 160); (5760, 5760); (8192, 8202);
             (8232, 8233); (8239, 8239); (8287, 8287); (12288, 12288)] c.

(** Rust [str::trim_start_matches], [trim_end_matches], [trim_matches] with a predicate. *)
Fixpoint trim_start (p : N -> bool) (w : list N) : list N :=
  match w with
  | [] => []
  | c :: w' => if p c then trim_start p w' else w
  end.
Definition trim_end (p : N -> bool) (w : list N) : list N := rev (trim_start p (rev w)).
Definition trim_both (p : N -> bool) (w : list N) : list N := trim_end p (trim_start p w).
(** Rust [str::trim]. *)
Definition trim (w : list N) : list N := trim_both is_whitespace w.
(** Rust [trim_start_matches] with a two character pattern. *)
Fixpoint trim_start2 (a b : N) (w : list N) : list N :=
  match w with
  | x :: y :: w' => if (x =? a) && (y =? b) then trim_start2 a b w' else w
  | _ => w
  end.
(** Rust [str::split_once] with a predicate. *)
Fixpoint split_once (p : N -> bool) (w : list N) : option (list N * list N) :=
  match w with
  | [] => None
  | c :: w' => if p c then Some ([], w')
               else match split_once p w' with Some (a, b) => Some (c :: a, b) | None => None end
  end.

(** tokenizer.rs:43-48 [words]: split at the maximal runs of blanks, tabs and the two
    character texts backslash-n and backslash-r.  [in_sep]: the previous characters were a
    separator; [acc]: the current word, reversed. *)
Definition is_blank (c : N) : bool := (c =? 32) || (c =? 9).
Definition is_escape (c d : N) : bool := (c =? 92) && ((d =? 110) || (d =? 114)).
Fixpoint words_go (in_sep : bool) (acc l : list N) : list (list N) :=
  match l with
  | [] => [rev acc]
  | c :: r =>
    if is_blank c then (if in_sep then words_go true acc r else rev acc :: words_go true [] r)
    else match r with
         | [] => words_go false (c :: acc) r
         | d :: r' =>
           if is_escape c d then (if in_sep then words_go true acc r' else rev acc :: words_go true [] r')
           else words_go false (c :: acc) r
         end
  end.
Definition words (line : list N) : list (list N) := words_go false [] line.

(** tokenizer.rs:50-59 [trim_quote_and_punctuation] *)
Definition is_punct (c : N) : bool := memb c (lit "'"",;()[]{}<>\").
Definition trim_quote_and_punctuation (w : list N) : list N :=
  trim_both is_punct (trim_start2 117 39 (trim_start2 117 34 w)).

(** Character classes. *)
Definition r_digit : cls := Ranges [(48, 57)].
Definition r_lower : list (N * N) := [(97, 122)].
Definition r_alpha : list (N * N) := [(97, 122); (65, 90)].
Definition r_alnum : list (N * N) := [(97, 122); (65, 90); (48, 57)].

Section Word.
Variable word_char : N -> bool.
Notation matchb := (matchb word_char).

(** tokenizer.rs:62-83 [global_filter] *)
Definition re_noise : re :=
  alts
  [ (* GET / HTTP/1.1 *)
    search (Cat (str (lit "GET / HTTP/1")) (Cat dot (str (lit "1"))));
    (* \* [a-zA-Z]+: [a-zA-Z0-9\.-]*$ *)
    search_to_end (Cat (str (lit "* ")) (Cat (plus (Cls (Ranges r_alpha)))
      (Cat (str (lit ": ")) (Star (Cls (Ranges (r_alnum ++ [(46, 46); (45, 45)])))))));
    (* Trying other mirror. *)
    search (Cat (str (lit "Trying other mirror")) dot);
    (* ovs-ofctl .* (dump-ports|dump-flows|show)\b *)
    search_boundary (Cat (str (lit "ovs-ofctl ")) (Cat (Star dot) (Cat (str (lit " "))
      (alts [str (lit "dump-ports"); str (lit "dump-flows"); str (lit "show")]))));
    (* (ip|eb)tables .* -L\b *)
    search_boundary (Cat (alts [str (lit "ip"); str (lit "eb")]) (Cat (str (lit "tables "))
      (Cat (Star dot) (str (lit " -L")))));
    (* ^\^[+*-] [a-z0-9\.>-]{5,} [0-9] *)
    search_from_start (Cat (str (lit "^")) (Cat (Cls (Ranges [(43, 43); (42, 42); (45, 45)]))
      (Cat (str (lit " ")) (Cat (rep_from 5 (Cls (Ranges [(97, 122); (48, 57); (46, 46); (62, 62); (45, 45)])))
      (Cat (str (lit " ")) (Cls r_digit))))));
    (* ^[a-f0-9s/]+>[0-9]+  *)
    search_from_start (Cat (plus (Cls (Ranges [(97, 102); (48, 57); (115, 115); (47, 47)])))
      (Cat (str (lit ">")) (Cat (plus (Cls r_digit)) (str (lit " ")))));
    (* ^\+\+ echo [^ ]+$ *)
    search_whole (Cat (str (lit "++ echo ")) (plus (Cls (NotRanges [(32, 32)]))));
    (* ^[ '",]*\|.{17}\|[ '",]*$ *)
    search_whole (Cat (Star (Cls (Ranges [(32, 32); (39, 39); (34, 34); (44, 44)]))) (Cat (str (lit "|"))
      (Cat (rep 17 dot) (Cat (str (lit "|")) (Star (Cls (Ranges [(32, 32); (39, 39); (34, 34); (44, 44)])))))))
  ].
Definition global_filter (line : list N) : bool :=
  let is_single_word := negb (existsb is_whitespace line) in
  is_single_word || matchb re_noise line.

(** tokenizer.rs:102-107 [remove_numbers]: every leftmost match of digits.digits or else
    digits becomes N.  [st]: 0 outside, 1 in the integer part, 2 in the fraction. *)
Definition is_digit (c : N) : bool := (48 <=? c) && (c <=? 57).
Fixpoint remove_numbers_go (st : nat) (w : list N) : list N :=
  match w with
  | [] => []
  | c :: r =>
    if is_digit c then
      match st with O => 78 :: remove_numbers_go 1 r | _ => remove_numbers_go st r end
    else
      match st with
      | 1%nat => if (c =? 46) && match r with d :: _ => is_digit d | [] => false end
                 then remove_numbers_go 2 r
                 else c :: remove_numbers_go 0 r
      | _ => c :: remove_numbers_go 0 r
      end
  end.
Definition remove_numbers (w : list N) : list N := remove_numbers_go 0 w.

(** tokenizer.rs:114-125 [is_date] *)
Definition date_words : list (list N) := map lit
  ["sunday"; "monday"; "tuesday"; "wednesday"; "thursday"; "friday"; "saturday";
   "january"; "february"; "march"; "april"; "may"; "june"; "july"; "august";
   "september"; "october"; "november"; "december"]%string.
Definition is_date (w : list N) : bool := matchb (search_whole (alts (map istr date_words))) w.

(** tokenizer.rs:135-149 [is_error] *)
Definition error_words : list (list N) := map lit
  ["error"; "fatal"; "failure"; "failed"; "warning"; "err"; "fail"; "warn"; "denied";
   "assert"; "assertion"; "non-zero"; "exception"; "traceback"]%string.
Definition is_error (w : list N) : bool := matchb (search_whole (alts (map istr error_words))) w.

(** tokenizer.rs:152-157 [contains_odd_char] *)
Definition contains_odd_char (w : list N) : bool :=
  matchb (search (Cls (Ranges [(60, 60); (62, 62); (123, 123); (125, 125); (37, 37); (36, 36); (44, 44); (42, 42)]))) w.

(** tokenizer.rs:165-171 [is_uid] *)
Definition is_uid (w : list N) : bool :=
  matchb (search_whole (plus (Cat (Star (ch 58))
    (Cat (plus (Cls (Ranges [(91, 91); (93, 93); (48, 57); (97, 102); (65, 70); (120, 120); (90, 90)])))
         (Star (Cls (Ranges [(58, 58); (46, 46); (45, 45)]))))))) w.

(** tokenizer.rs:180-190 [is_uuid] *)
Definition is_uuid (w : list N) : bool :=
  let an := Cls (Ranges r_alnum) in
  let dash4 := Cat (ch 45) (rep 4 an) in
  matchb (search_whole (Cat an (Cat (Star dot) (Cat dash4 (Cat dash4 (Cat dash4 (ch 45))))))) w.

(** tokenizer.rs:193-198 [has_many_dash] *)
Definition has_many_dash (w : list N) : bool :=
  matchb (search_from_start (Cat (plus dot) (Cat (ch 45) (Cat (plus dot) (Cat (ch 45) (Cat (plus dot) (Cat (ch 45) dot))))))) w.

(** tokenizer.rs:200-206 [is_cookie] *)
Definition is_cookie (w : list N) : bool :=
  matchb (search_from_start (alts [str (lit "gAAAA"); str (lit "AAAA");
    Cat (str (lit "tx")) (Cls (Ranges r_lower)); str (lit "tap"); str (lit "req-"); str (lit "AUTH_")])) w.

(** tokenizer.rs:208-214 [is_url] *)
Definition is_url (w : list N) : bool :=
  matchb (search_from_start (Cat (alts (map (fun s => ustr (lit s)) ["https"; "http"; "ftp"; "ssh"]%string))
    (ustr (lit "://")))) w.

(** tokenizer.rs:216-221 [is_base64] *)
Definition is_base64 (w : list N) : bool :=
  ends_with (lit "==") w ||
  ((24 <? utf8_len w) &&
   matchb (search_whole (plus (Cls (Ranges [(65, 90); (97, 122); (48, 57); (43, 43); (47, 47); (61, 61)])))) w).

(** tokenizer.rs:240-252 [is_hash] *)
Definition is_hash (w : list N) : bool :=
  matchb (Alt
    (search_from_start (Cat (alts (map (fun s => ustr (lit s)) ["hash"; "sha"; "md"]%string))
      (Cat (Star (Cls r_digit)) (ch 58))))
    (search (Cat (opt (ch 46))
      (rep_from 64 (Cls (Ranges [(97, 122); (65, 90); (48, 57); (95, 95); (43, 43); (47, 47); (45, 45)])))))) w.

(** tokenizer.rs:265-270 [is_refs] *)
Definition is_refs (w : list N) : bool :=
  starts_with (lit "refs/") w || starts_with (lit "repos/") w ||
  matchb (search_whole (Cat (rep 7 (Cls WordClass)) (Cat (str (lit "..")) (rep 7 (Cls WordClass))))) w.

(** tokenizer.rs:273-284 [is_key_value] *)
Definition is_key_value (w : list N) : option (list N * list N) :=
  match split_once (fun c => (c =? 61) || (c =? 58)) w with
  | Some (k, v) =>
    match k with
    | c :: _ => if in_ranges r_alpha c || (c =? 95) then Some (k, v) else None
    | [] => None
    end
  | None => None
  end.

(** tokenizer.rs:291-294 [is_two_words] *)
Definition is_two_words (w : list N) : option (list N * list N) :=
  match split_once (fun c => memb c (lit "[(\@")) w with
  | Some (k, v) => Some (k, trim_end (fun c => (c =? 93) || (c =? 41)) v)
  | None => None
  end.

(** tokenizer.rs:296-306 [is_key_for_id] *)
Definition is_key_for_id (w : list N) : bool :=
  matchb (search (alts (map (fun s => ustr (lit s))
    ["id"; "key"; "ref"; "region"; "token"; "secret"; "password"]%string))) w.

(** tokenizer.rs:308-310 [is_random_path] *)
Definition is_random_path (w : list N) : bool :=
  contains (lit "tmp/") w || contains (lit "/tmp") w || starts_with (lit "tmp") w.

(** tokenizer.rs:380-402 [parse_literal] *)
Definition parse_literal (w : list N) : option (list N) :=
  if is_date w then Some (lit "%DATE")
  else if is_hash w then Some (lit "%HASH")
  else if is_uid w then Some (lit "%ID")
  else if is_cookie w then Some (lit "%COOKIE")
  else if is_uuid w then Some (lit "%UID")
  else if is_url w then Some (lit "%URL")
  else if is_random_path w then Some (lit "%PATH")
  else if is_refs w then Some (lit "%REF")
  else if is_base64 w then Some (lit "%BASE64")
  else None.

(** tokenizer.rs:404-407 [trim_pid] *)
Definition trim_pid (w : list N) : option (list N) :=
  match rev (trim_end is_digit w) with
  | 91 :: r => Some (rev r)
  | _ => None
  end.

(** tokenizer.rs:410-422 [push_error]: the pushed text. *)
Definition push_error (w : list N) : list N :=
  w ++ lit " " ++ w ++ lit "%A " ++ w ++ lit "%B " ++ w ++ lit "%C " ++ w ++ lit "%D".

(** tokenizer.rs:432-500 [do_process]: the text appended to [result] and the returned
    [added].  [fuel] bounds the recursion depth; [None] is running out of it. *)
Fixpoint do_process (fuel : nat) (word : list N) : option (list N * bool) :=
  match fuel with
  | O => None
  | S fuel =>
    (* the three ways of splitting in two and processing both parts *)
    let both (w1 sep w2 : list N) :=
      match do_process fuel w1, do_process fuel w2 with
      | Some (o1, added1), Some (o2, added2) =>
        Some (o1 ++ (if added1 then sep else []) ++ o2, added2)
      | _, _ => None
      end in
    let word := trim_quote_and_punctuation word in
    match parse_literal word with
    | Some token => Some (token, true)
    | None =>
    if is_error word then Some (push_error word, true)
    else if utf8_len word <=? 3 then Some ([], false)
    else match trim_pid word with
    | Some strip =>
      match do_process fuel strip with
      | Some (o, _) => Some (o ++ lit "%PID", true)
      | None => None
      end
    | None =>
    if contains_odd_char word then Some (lit "%ODD", true)
    else match is_key_value word with
    | Some (key, value) =>
      match do_process fuel key with
      | Some (ok, _) =>
        if is_key_for_id key then Some (ok ++ lit "%EQ %VALUE_ID", true)
        else match do_process fuel value with
             | Some (ov, added) => Some (ok ++ lit "%EQ " ++ ov, added)
             | None => None
             end
      | None => None
      end
    | None =>
    match split_once (N.eqb 47) word with
    | Some (w1, w2) => both w1 (lit "/ ") w2
    | None =>
    match split_once (N.eqb 45) word with
    | Some (w1, w2) => if has_many_dash w2 then Some (lit "%DASH", true) else both w1 (lit "- ") w2
    | None =>
    match split_once (N.eqb 124) word with
    | Some (w1, w2) => both w1 (lit "| ") w2
    | None =>
    if 32 <=? utf8_len word then Some (lit "%BIG", true)
    else match is_two_words word with
    | Some (w1, w2) => both w1 (lit " ") w2
    | None =>
      let x := remove_numbers word in
      if 3 <? utf8_len x then Some (x, true) else Some ([], false)
    end end end end end end end
  end.

(** What [process] appends for one word (tokenizer.rs:514-518); the recursion of
    [do_process] is given one more step than the word has characters. *)
Definition piece (w : list N) : option (list N) :=
  match do_process (S (length w)) w with
  | Some (o, added) => Some (o ++ (if added then [32] else []))
  | None => None
  end.
Fixpoint pieces (ws : list (list N)) : option (list N) :=
  match ws with
  | [] => Some []
  | w :: ws' =>
    match piece w, pieces ws' with
    | Some a, Some b => Some (a ++ b)
    | _, _ => None
    end
  end.

(** tokenizer.rs:503-521 [process] *)
Definition process (line : list N) : option (list N) :=
  let line := trim line in
  if global_filter line then Some (lit "%GL_FILTER")
  else match pieces (words line) with
       | Some r => Some (trim r)
       | None => None
       end.
End Word.
