(** Words of C77 for the table of a page: what each of its texts says of a report.  The models are
    imported for the types of reports, contents and sources. *)
From Coq Require Import String List NArith ZArith Reals Bool.
From Verif Require Import Common FilesModel CliModel FilesSpec HtmlSpec ShownSpec.
From Verif Require StoreModel.
Import ListNotations.
Open Scope string_scope.
Open Scope list_scope.
Open Scope N_scope.

(** A source is called by its kind and its name below its base: the base is the first bytes of the name. *)
Definition base_bytes (s : source) : N := match s with Local n _ => n | Remote n _ => n end.
Inductive called_source (s : source) : bytes -> Prop :=
| CalledSource base rest : full_name s = base ++ rest -> base_bytes s = N.of_nat (length (utf8_encode base)) ->
    called_source s ((match s with Local _ _ => lit "local: " | Remote _ _ => lit "remote: " end) ++ utf8_encode rest).
(** A content is called by its kind and its source or the address of its build. *)
Inductive called {Date} : content (@StoreModel.build Date) -> bytes -> Prop :=
| CalledFile s t : called_source s t -> called (CFile s) (lit "File(" ++ t ++ lit ")")
| CalledDirectory s t : called_source s t -> called (CDirectory s) (lit "Directory(" ++ t ++ lit ")")
| CalledBuild b : called (CZuul b) (lit "Zuul(" ++ StoreModel.b_api b ++ lit "build/" ++ StoreModel.b_uuid b ++ lit ")").
(** The texts with a comma and a space between each two. *)
Inductive listed : list bytes -> bytes -> Prop :=
| ListedNone : listed [] []
| ListedLast x : listed [x] x
| ListedMore x y l t : listed (y :: l) t -> listed (x :: y :: l) (x ++ lit ", " ++ t).
(** The date and the time of the day of a number of seconds since 1970. *)
Definition called_time (t : Z) (s : bytes) : Prop := exists y m d h mi sec ty tm td th tmi ts,
  (date y m d /\ 0 <= h < 24 /\ 0 <= mi < 60 /\ 0 <= sec < 60 /\ t = day_number y m d * 86400 + h * 3600 + mi * 60 + sec)%Z /\
  s = ty ++ lit "-" ++ tm ++ lit "-" ++ td ++ lit " " ++ th ++ lit ":" ++ tmi ++ lit ":" ++ ts /\
  year_text y ty /\ two_digits (Z.to_N m) tm /\ two_digits (Z.to_N d) td /\ two_digits (Z.to_N h) th /\ two_digits (Z.to_N mi) tmi /\ two_digits (Z.to_N sec) ts.
(** Seconds with two decimals, up to the rounding. *)
Definition called_duration (secs nanos : N) (s : bytes) : Prop := exists q shown,
  s = shown ++ lit " sec" /\ hundredths q shown /\
  (Rabs (nat_r q / 100 - (nat_r secs + nat_r nanos / 1000000000)) <= 0.00501 + (nat_r secs + nat_r nanos / 1000000000) / 4194304)%R.
(** The share of the lines that are no anomalies in percent, up to the rounding, and the two numbers. *)
Definition called_result (lines anomalies : N) (s : bytes) : Prop := exists q shown l a,
  s = shown ++ lit "% reduction (from " ++ l ++ lit " to " ++ a ++ lit ")" /\ hundredths q shown /\ decimal lines l /\ decimal anomalies a /\
  q <= 10000 /\ (Rabs (nat_r q / 100 - 100 * (1 - nat_r anomalies / nat_r lines)) <= 0.00504)%R.
