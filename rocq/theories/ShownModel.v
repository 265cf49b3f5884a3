(** Model of the numbers, times and names that the page (/repo/report/src/report.rs) and the live
    output (/repo/cli/src/main.rs) show.  Definitions only.

    Outside the repository and modelled by their documentation: the conversions between f32 and
    usize, the formats of core::fmt, Duration::as_secs_f32, and chrono (a DateTime is a date of the
    Gregorian calendar and a time of the day). *)
From Coq Require Import String List NArith ZArith Bool.
From Flocq Require Import IEEE754.BinarySingleNaN IEEE754.Binary IEEE754.Bits.
From Verif Require Import Common FilesModel CliModel IndexModel ProcModel ReportModel HtmlModel.
From Verif Require StoreModel.
Import ListNotations.
Open Scope string_scope.
Open Scope list_scope.
Open Scope N_scope.

(** ** Numbers *)
(** usize as f32: to the nearest *)
Definition as_f32 (n : N) : F := binary_normalize 24 128 eq_refl eq_refl mode_NE (Z.of_N n) 0 false.
(** f32 as usize: towards zero, at the bounds what is outside of them, NaN to zero *)
Definition usize_max : N := 2 ^ 64 - 1.
Definition as_usize (x : F) : N :=
  match x with
  | B754_finite _ _ false m e _ => N.min usize_max (N.pos m * 2 ^ Z.to_N e / 2 ^ Z.to_N (- e))
  | B754_infinity _ _ false => usize_max
  | _ => 0
  end.
(** report.rs:354-355, dist and color *)
Definition percent (d : F) : N := as_usize (fmul d (as_f32 99)).
Definition colour (d : F) : N := as_usize (fmul d (as_f32 255)).

Section Shown.
(** core::fmt rounds to the nearest decimal.  Its choice between two of them changed between
    versions: [up q] tells whether it leaves [q] for the next one. *)
Variable up : N -> bool.
(** The years that chrono has. *)
Variable has_year : Z -> bool.

(** [m * 2 ^ e] as the nearest number of parts of which [10 ^ k] make one *)
Definition nearest (k : N) (m : positive) (e : Z) : N :=
  let num := N.pos m * 10 ^ k * 2 ^ Z.to_N e in
  let den := 2 ^ Z.to_N (- e) in
  let q := num / den in
  match 2 * (num mod den) ?= den with
  | Lt => q
  | Eq => if up q then q + 1 else q
  | Gt => q + 1
  end.
Definition places (k q : N) : bytes := fmt (q / 10 ^ k) ++ if k =? 0 then [] else 46 :: pad 48 (N.to_nat k) (fmt (q mod 10 ^ k)).
Definition minus (s : bool) : bytes := if s then lit "-" else [].
(** The format [{:0w.k}] of an f32: with [k] decimals, and zeros on the left up to the width [w] *)
Definition fmt_float (w : nat) (k : N) (x : F) : bytes :=
  match x with
  | B754_nan _ _ _ _ _ => lit "NaN"
  | B754_infinity _ _ s => minus s ++ lit "inf"
  | B754_zero _ _ s => minus s ++ pad 48 (w - List.length (minus s)) (places k 0)
  | B754_finite _ _ s m e _ => minus s ++ pad 48 (w - List.length (minus s)) (places k (nearest k m e))
  end.

(** report.rs:172-182, the result *)
Definition reduction (lines anomalies : N) : F := fsub (as_f32 100) (fmul (fdiv (as_f32 anomalies) (as_f32 lines)) (as_f32 100)).
Definition result_text (lines anomalies : N) : bytes :=
  fmt_float 2 2 (reduction lines anomalies) ++ lit "% reduction (from " ++ fmt lines ++ lit " to " ++ fmt anomalies ++ lit ")".
(** report.rs:167-170, the run time; std: Duration::as_secs_f32 *)
Definition as_secs_f32 (d : StoreModel.duration) : F := fadd (as_f32 (fst d)) (fdiv (as_f32 (snd d)) (as_f32 1000000000)).
Definition time_text (d : StoreModel.duration) : bytes := fmt_float 0 2 (as_secs_f32 d) ++ lit " sec".

(** ** Dates *)
Definition leap (y : Z) : bool := ((y mod 4 =? 0) && (negb (y mod 100 =? 0) || (y mod 400 =? 0)))%Z.
Definition year_days (y : Z) : N := if leap y then 366 else 365.
Definition months (y : Z) : list N := [31; if leap y then 29 else 28; 31; 30; 31; 30; 31; 31; 30; 31; 30; 31].
Fixpoint find_year (fuel : nat) (y : Z) (days : N) : Z * N :=
  match fuel with
  | O => (y, days)
  | S fuel => if days <? year_days y then (y, days) else find_year fuel (y + 1) (days - year_days y)
  end.
Fixpoint find_month (l : list N) (m days : N) : N * N :=
  match l with
  | [] => (m, days)
  | n :: l => if days <? n then (m, days) else find_month l (m + 1) (days - n)
  end.
(** The date, [days] after the first day of 1970; the calendar repeats after 400 years. *)
Definition civil (days : Z) : Z * N * N :=
  let (y, d) := find_year 400 (1970 + 400 * (days / 146097)) (Z.to_N (days mod 146097)) in
  let (m, d) := find_month (months y) 1 d in
  (y, m, d + 1).
(** chrono's [%Y] *)
Definition fmt_year (y : Z) : bytes :=
  if ((0 <=? y) && (y <=? 9999))%Z then pad 48 4 (fmt (Z.to_N y))
  else (if (y <? 0)%Z then lit "-" else lit "+") ++ pad 48 4 (fmt (Z.abs_N y)).
Definition fmt_two (n : N) : bytes := pad 48 2 (fmt n).
(** report.rs:377-380, render_time, format [%Y-%m-%d %T]; [None] is a panic: chrono has no such date. *)
Definition render_time (t : StoreModel.system_time) : option bytes :=
  let '(y, m, d) := civil (fst t / 86400) in
  let s := Z.to_N (fst t mod 86400) in
  if has_year y
  then Some (fmt_year y ++ lit "-" ++ fmt_two m ++ lit "-" ++ fmt_two d ++ lit " " ++
             fmt_two (s / 3600) ++ lit ":" ++ fmt_two (s / 60 mod 60) ++ lit ":" ++ fmt_two (s mod 60))
  else None.

(** ** Names *)
(** model.rs:82-89, Display for Source; [None] is a panic. *)
Definition source_text (s : source) : option bytes :=
  option_map (fun r => (match s with Local _ _ => lit "local: " | Remote _ _ => lit "remote: " end) ++ utf8_encode r) (get_relative s).
(** model.rs:65-73, Display for Content; zuul.rs:28-32, Display for Build *)
Definition content_text {Date} (c : content (@StoreModel.build Date)) : option bytes :=
  match c with
  | CFile s => option_map (fun t => lit "File(" ++ t ++ lit ")") (source_text s)
  | CDirectory s => option_map (fun t => lit "Directory(" ++ t ++ lit ")") (source_text s)
  | CZuul b => Some (lit "Zuul(" ++ StoreModel.b_api b ++ lit "build/" ++ StoreModel.b_uuid b ++ lit ")")
  end.
(** Itertools::format *)
Fixpoint join_text (sep : bytes) (l : list bytes) : bytes :=
  match l with [] => [] | [x] => x | x :: l => x ++ sep ++ join_text sep l end.
Fixpoint all_texts {A} (f : A -> option bytes) (l : list A) : option (list bytes) :=
  match l with
  | [] => Some []
  | x :: l => match f x, all_texts f l with Some t, Some ts => Some (t :: ts) | _, _ => None end
  end.

(** ** The page of a saved report *)
(** report.rs:158-184, the table *)
Definition summary_of {Date} (r : @StoreModel.report Date) : option summary :=
  match content_text (StoreModel.r_target r), all_texts content_text (StoreModel.r_baselines r), render_time (StoreModel.r_created r) with
  | Some t, Some bs, Some c => Some (mkSummary t (join_text (lit ", ") bs) c (time_text (StoreModel.r_run r)) (result_text (StoreModel.r_lines r) (StoreModel.r_anomalies r)))
  | _, _, _ => None
  end.
(** The report of ReportModel.v that is in a saved one: names are texts there, and times left out. *)
Definition name_text (n : bytes) : text := match utf8_decode n with Some t => t | None => [] end.
Definition context_of (c : StoreModel.anomaly_context) : @actx F :=
  mkCtx (StoreModel.c_before c) (StoreModel.c_after c) (b32_of_bits (Z.of_N (StoreModel.a_distance (StoreModel.c_anomaly c))))
        (StoreModel.a_pos (StoreModel.c_anomaly c)) (StoreModel.a_line (StoreModel.c_anomaly c)).
Definition log_of (l : StoreModel.log_report) : @log_report F :=
  mkLog (StoreModel.l_lines l) (StoreModel.l_bytes l) (map context_of (StoreModel.l_anomalies l)) (StoreModel.l_source l) (name_text (StoreModel.l_index l)).
Definition report_of {Date} (r : @StoreModel.report Date) : @report F :=
  mkReport (map log_of (StoreModel.r_logs r)) (map (fun x => (name_text (fst x), StoreModel.ir_sources (snd x))) (StoreModel.r_indexes r))
    (StoreModel.r_index_errors r) (map (fun x => (fst x, name_text (snd x))) (StoreModel.r_read_errors r)) (StoreModel.r_lines r) (StoreModel.r_anomalies r).
(** report.rs:11-13, render *)
Definition render_saved {Date} (write : bytes -> bytes) (checks : bool) (f : fixed) (r : @StoreModel.report Date) : res bytes :=
  match summary_of r with
  | Some s => match render write percent colour checks f s (report_of r) with Some p => Val p | None => Panic end
  | None => Panic
  end.

(** ** The live output *)
(** cli/main.rs:279-283, 303, 308-313, 334, 342 and 349: what is printed; [None] is a panic. *)
Definition live_text (o : @out_line F) : option bytes :=
  match o with
  | Printed Hr => Some (lit "--")
  | Printed (Ctx n x) => Some (lit "   " ++ fmt n ++ lit " | " ++ x)
  | Printed (Anom d n x) => Some (fmt_float 2 0 (fmul d (as_f32 99)) ++ lit " " ++ fmt n ++ lit " | " ++ x)
  | CouldNotRead s e => option_map (fun t => lit "Could not read " ++ t ++ lit ": " ++ utf8_encode e) (source_text s)
  | NoBaselines s => option_map (fun t => lit " -> No baselines for " ++ t) (source_text s)
  end.
End Shown.
