(** Specification vocabulary for shown numbers and times: decimal texts and the calendar.  Nothing
    here knows how texts are made. *)
From Coq Require Import String List NArith ZArith Reals Bool.
From Verif Require Import Common HtmlSpec.
Import ListNotations.
Open Scope string_scope.
Open Scope list_scope.
Open Scope N_scope.

(** A natural number as a real one. *)
Definition nat_r (n : N) : R := IZR (Z.of_N n).
(** [s] is the number [n] with two digits or more. *)
Definition two_digits (n : N) (s : bytes) : Prop := exists d, decimal n d /\ padded 48 2 d s.
(** [s] is [q] hundredths with two decimals. *)
Definition hundredths (q : N) (s : bytes) : Prop :=
  exists a b, s = a ++ lit "." ++ b /\ decimal (q / 100) a /\ two_digits (q mod 100) b.
(** Two digits of base 16. *)
Definition hex_digit (c : N) : Prop := 48 <= c <= 57 \/ 65 <= c <= 70.

(** ** The Gregorian calendar *)
Open Scope Z_scope.
Definition leap_year (y : Z) : bool := (y mod 4 =? 0) && negb (y mod 100 =? 0) || (y mod 400 =? 0).
Definition month_length (y m : Z) : Z :=
  if m =? 2 then (if leap_year y then 29 else 28) else if (m =? 4) || (m =? 6) || (m =? 9) || (m =? 11) then 30 else 31.
Definition date (y m d : Z) : Prop := 1 <= m <= 12 /\ 1 <= d <= month_length y m.
(** How many of the years from 1 to [y] are leap years; negative for years before. *)
Definition leap_years (y : Z) : Z := y / 4 - y / 100 + y / 400.
(** The days of the year [y] before the month [m]. *)
Definition before_month (y m : Z) : Z :=
  fold_right Z.add 0 (map (fun i => if Z.of_nat i <? m then month_length y (Z.of_nat i) else 0) (seq 1 12)).
(** The number of a day: the first of January 1970 is day 0. *)
Definition day_number (y m d : Z) : Z :=
  365 * (y - 1970) + (leap_years (y - 1) - leap_years 1969) + before_month y m + (d - 1).
(** A year is shown with four digits or more, and with its sign when it is not one of four digits. *)
Definition year_text (y : Z) (s : bytes) : Prop :=
  exists sign d t, decimal (Z.abs_N y) d /\ padded 48 4 d t /\ s = sign ++ t /\
    sign = (if (y <? 0)%Z then lit "-" else if (9999 <? y)%Z then lit "+" else []).
