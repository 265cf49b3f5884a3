(** Shared vocabulary: bytes, code points, text literals, results with panics.
    Definitions only (no proofs). *)
From Coq Require Import List NArith Bool Ascii String.
Import ListNotations.
Open Scope N_scope.

(** A byte (Rust [u8]) or a Unicode code point (Rust [char]) is an [N]. *)
Definition byte := N.
Definition bytes := list N.

(** Literal ASCII text as bytes (equally: as code points). *)
Definition lit (s : string) : list N := map N_of_ascii (list_ascii_of_string s).

Definition ch_lf : N := 10.        (* '\n' *)
Definition ch_bs : N := 92.        (* backslash *)
Definition ch_n : N := 110.        (* 'n' *)
Definition ch_quote : N := 34.     (* double quote *)
Definition ch_sp : N := 32.        (* ' ' *)

(** Machine word arithmetic ([usize], 64 bits).  [None] is the panic of a build
    with overflow checks; [ovf] says whether the build has them. *)
Definition word : N := 2 ^ 64.
Definition usize_sub (ovf : bool) (a b : N) : option N :=
  if b <=? a then Some (a - b)
  else if ovf then None else Some (word + a - b).
Definition usize_add (ovf : bool) (a b : N) : option N :=
  if a + b <? word then Some (a + b)
  else if ovf then None else Some ((a + b) mod word).

(** Equality of byte strings, as a boolean. *)
Fixpoint eqb_list (a b : list N) : bool :=
  match a, b with
  | [], [] => true
  | x :: a', y :: b' => (x =? y) && eqb_list a' b'
  | _, _ => false
  end.

Fixpoint starts_with (p s : list N) : bool :=
  match p, s with
  | [], _ => true
  | x :: p', y :: s' => (x =? y) && starts_with p' s'
  | _ :: _, [] => false
  end.

(** Rust [str::contains] / [slice] infix search. *)
Fixpoint contains (p s : list N) : bool :=
  starts_with p s ||
  match s with
  | [] => false
  | _ :: s' => contains p s'
  end.

Definition ends_with (p s : list N) : bool := starts_with (rev p) (rev s).

Definition memb (x : N) (l : list N) : bool := existsb (N.eqb x) l.

(** ** UTF-8, as validated by Rust's [std::str::from_utf8]. *)
Definition is_cont (b : N) : bool := (128 <=? b) && (b <=? 191).

Fixpoint utf8_decode (l : bytes) : option (list N) :=
  let push c r := match r with Some t => Some (c :: t) | None => None end in
  match l with
  | [] => Some []
  | b0 :: l1 =>
    if b0 <? 128 then push b0 (utf8_decode l1)
    else if (194 <=? b0) && (b0 <=? 223) then
      match l1 with
      | b1 :: l2 =>
        if is_cont b1 then push ((b0 - 192) * 64 + (b1 - 128)) (utf8_decode l2) else None
      | _ => None
      end
    else if (224 <=? b0) && (b0 <=? 239) then
      match l1 with
      | b1 :: b2 :: l3 =>
        if is_cont b1 && is_cont b2
           && ((negb (b0 =? 224)) || (160 <=? b1))     (* no overlong forms *)
           && ((negb (b0 =? 237)) || (b1 <=? 159))     (* no surrogates *)
        then push ((b0 - 224) * 4096 + (b1 - 128) * 64 + (b2 - 128)) (utf8_decode l3) else None
      | _ => None
      end
    else if (240 <=? b0) && (b0 <=? 244) then
      match l1 with
      | b1 :: b2 :: b3 :: l4 =>
        if is_cont b1 && is_cont b2 && is_cont b3
           && ((negb (b0 =? 240)) || (144 <=? b1))     (* no overlong forms *)
           && ((negb (b0 =? 244)) || (b1 <=? 143))     (* at most U+10FFFF *)
        then push ((b0 - 240) * 262144 + (b1 - 128) * 4096 + (b2 - 128) * 64 + (b3 - 128))
                  (utf8_decode l4) else None
      | _ => None
      end
    else None
  end.

(** Number of bytes of a code point in UTF-8 (Rust [char::len_utf8]). *)
Definition utf8_len1 (c : N) : N :=
  if c <? 128 then 1 else if c <? 2048 then 2 else if c <? 65536 then 3 else 4.
(** Rust [str::len] of a text given as code points. *)
Fixpoint utf8_len (s : list N) : N :=
  match s with
  | [] => 0
  | c :: r => utf8_len1 c + utf8_len r
  end.

Definition utf8_encode1 (c : N) : bytes :=
  if c <? 128 then [c]
  else if c <? 2048 then [192 + c / 64; 128 + c mod 64]
  else if c <? 65536 then [224 + c / 4096; 128 + (c / 64) mod 64; 128 + c mod 64]
  else [240 + c / 262144; 128 + (c / 4096) mod 64; 128 + (c / 64) mod 64; 128 + c mod 64].
Definition utf8_encode (s : list N) : bytes := flat_map utf8_encode1 s.

(** A Unicode scalar value (the values of Rust's [char]). *)
Definition is_scalar (c : N) : bool := (c <? 55296) || ((57344 <=? c) && (c <? 1114112)).
