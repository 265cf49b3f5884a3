(** Properties of what is shown about a report: C77 and C78.
    [val d] is the real number that the float [d] stands for. *)
From Coq Require Import String List NArith ZArith Arith PeanoNat Reals Bool Lia Lra Sorted Permutation.
From Flocq Require Import Core.Core IEEE754.BinarySingleNaN IEEE754.Binary IEEE754.Bits.
From Verif Require Import Common CommonFacts TokModel FilesModel FilesSources CliModel IterSpec ProcModel ProcSpec ReportModel ReportSpec ReportProofs ReportMore.
From Verif Require Import HtmlModel HtmlSpec HtmlReportSpec HtmlProofs HtmlPage P_Html CacheSpec P_Store RenderModel.
From Verif Require Import IndexModel IndexFloat IndexNum P_Index P_Compare P_Report ShownModel ShownSpec ShownProofs.
From Verif Require StoreModel StoreSpec.
Import ListNotations.
Open Scope string_scope.
Open Scope list_scope.
Open Scope R_scope.
Ltac csplit := repeat match goal with |- _ /\ _ => split end.

(** ** C77: the result *)
(** The reduction is right up to 0.00504 points, and between 0.00 and 100.00. *)
Theorem C77_result : forall up lines anomalies, (1 <= lines < 2 ^ 64)%N -> (anomalies <= lines)%N ->
  exists q shown l a, result_text up lines anomalies = shown ++ lit "% reduction (from " ++ l ++ lit " to " ++ a ++ lit ")" /\
    hundredths q shown /\ decimal lines l /\ decimal anomalies a /\ (q <= 10000)%N /\
    Rabs (nat_r q / 100 - 100 * (1 - nat_r anomalies / nat_r lines)) <= 0.00504.
Proof.
  intros up lines anomalies Hl Ha. destruct (reduction_ok lines anomalies Hl Ha) as (F & [R0 R1] & S & E).
  destruct (fmt_float_ok up 2 2 (reduction lines anomalies) F R0 S) as (q & Eq & Hq). exists q, (places 2 q), (fmt lines), (fmt anomalies).
  unfold half in Hq. change (nat_r (10 ^ 2)) with 100 in Hq. csplit.
  - unfold result_text. rewrite Eq, pad_long; [reflexivity|]. pose proof (places_2_length q). lia.
  - apply places_2.
  - apply fmt_decimal.
  - apply fmt_decimal.
  - apply Rabs_le_inv in Hq. assert (L : nat_r q < nat_r 10001) by (change (nat_r 10001) with 10001; lra). apply nat_r_lt in L. lia.
  - apply Rabs_le_inv in Hq, E. apply Rabs_le. lra.
Qed.
Example C77_result_example : result_text (fun _ => true) 3 1 = lit "66.67% reduction (from 3 to 1)" /\
  result_text (fun _ => true) 1200 7 = lit "99.42% reduction (from 1200 to 7)".
Proof. split; vm_compute; reflexivity. Qed.
(** Without lines the result is not a number, and a hundred percent may be shown although there are
    anomalies. *)
Theorem C77_number_refuted : forall up, result_text up 0 0 = lit "NaN% reduction (from 0 to 0)".
Proof. reflexivity. Qed.
Theorem C77_hundred_refuted : forall up, exists lines anomalies, (0 < anomalies <= lines)%N /\
  result_text up lines anomalies = lit "100.00% reduction (from " ++ fmt lines ++ lit " to " ++ fmt anomalies ++ lit ")".
Proof. intros up. exists 100000%N, 1%N. split; [lia|]. vm_compute. reflexivity. Qed.

(** The anomalies of a report are lines of it: the first hypothesis above. *)
Lemma sorted_bound (l : list nat) : StronglySorted lt l -> forall lo n, Forall (fun i => lo <= i < n)%nat l -> (List.length l <= n - lo)%nat.
Proof.
  induction 1 as [|x l Hs IH F]; intros lo n B; cbn [List.length]; [lia|]. inversion B as [|? ? Bx Bl]; subst.
  specialize (IH (S x) n). assert (K : Forall (fun i => S x <= i < n)%nat l).
  { rewrite Forall_forall in *. intros i Hi. specialize (F i Hi). specialize (Bl i Hi). lia. }
  specialize (IH K). lia.
Qed.
Lemma sorted_left (a b : list nat) : StronglySorted lt (a ++ b) -> StronglySorted lt a.
Proof.
  induction a as [|x a IH]; intros H; [constructor|]. cbn [app] in H. inversion H as [|? ? S F]; subst. constructor; [now apply IH|]. now apply Forall_app in F as [F _].
Qed.
Lemma analysis_length {D} (above : D -> bool) tok dist known items cs err lines :
  analysis above tok dist known items cs err lines -> (List.length cs <= List.length lines)%nat.
Proof.
  intros [_ (ps & more & [Hs _] & _ & Hd & _)]. assert (El : List.length cs = List.length ps) by (clear - Hd; induction Hd; cbn [List.length]; congruence). rewrite El. pose proof (sorted_bound ps (sorted_left _ _ Hs) 0 (List.length lines)) as B.
  rewrite Nat.sub_0_r in B. apply B. apply Forall_forall. intros i Hi. split; [lia|]. destruct (forall2_in_r _ _ _ _ Hd Hi) as (c & _ & D1 & _).
  assert (L : (i < List.length (without_markers lines))%nat) by (apply nth_error_Some; rewrite D1; discriminate). unfold without_markers in L. 
  assert (G : (List.length (filter (fun l => negb (is_marker (fst l))) lines) <= List.length lines)%nat) by (clear; induction lines as [|x l IH]; cbn [filter List.length]; [lia|]; destruct (negb _); cbn [List.length]; lia).
  lia.
Qed.
Theorem C77_anomalies_are_lines : forall D (above : D -> bool) tok search_of (dist_of : list (list bytes) -> bytes -> D) open err_text drain m target r,
  (forall batches, pointwise (search_of batches) (dist_of batches)) -> (forall l, Permutation (drain l) l) ->
  NoDup (map fst m) -> model_report above tok search_of open err_text drain m target = Val r ->
  (total_anomaly_count r <= total_line_count r)%N.
Proof.
  intros D above tok search_of dist_of open err_text drain m target r Hs Hd Hm H.
  destruct (C41_totals above tok search_of dist_of open err_text drain m target r Hs Hd Hm H) as (T1 & T2 & _).
  destruct (model_report_made above tok search_of dist_of Hs open err_text drain Hd m target r Hm H) as (sources & groups & gs & H1 & H2 & H3 & H4).
  rewrite T1. apply N.le_trans with (2 := T2).
  assert (K : forall lr, In lr (log_reports r) -> (N.of_nat (List.length (lr_anomalies lr)) <= lr_lines lr)%N).
  { intros lr Hl. destruct (made_log gs r lr H4 Hl) as (g & ix & outs & s & c0 & cs & err & lines & G1 & G2 & G3 & ->). cbn [lr_anomalies lr_lines].
    destruct (forall2_in_r _ _ _ _ H3 G1) as ([nm l] & R1 & R2 & R3). rewrite G2 in R3. destruct R3 as [R3 R4].
    destruct (group_outcome_analysed above tok dist_of open err_text _ _ _ _ _ _ _ _ R4 G3) as (items & json & known & err' & l1 & l2 & A1 & A2 & A3 & A4 & _).
    apply analysis_length in A4. lia. }
  clear - K. induction (log_reports r) as [|lr l IH]; [cbn; lia|]. cbn [map sum fold_right]. pose proof (K lr (or_introl eq_refl)). specialize (IH (fun x Hx => K x (or_intror Hx))). unfold sum in *. cbn [fold_right]. lia.
Qed.

(** ** C77: the run time *)
Theorem C77_time : forall up secs nanos, (secs < 2 ^ 64)%N -> (nanos < 1000000000)%N ->
  exists q shown, time_text up (secs, nanos) = shown ++ lit " sec" /\ hundredths q shown /\
    Rabs (nat_r q / 100 - (nat_r secs + nat_r nanos / 1000000000)) <= 0.00501 + (nat_r secs + nat_r nanos / 1000000000) / 4194304.
Proof.
  intros up s n Hs Hn. destruct (as_secs_ok s n Hs Hn) as (F & R0 & S & E). destruct (fmt_float_ok up 0 2 _ F R0 S) as (q & Eq & Hq). exists q, (places 2 q).
  unfold half in Hq. change (nat_r (10 ^ 2)) with 100 in Hq. csplit.
  - unfold time_text. rewrite Eq, pad_long by apply Nat.le_0_l. reflexivity.
  - apply places_2.
  - rewrite u_val in E. apply Rabs_le_inv in Hq, E. apply Rabs_le. lra.
Qed.
Example C77_time_example : time_text (fun _ => true) (83, 120000000)%N = lit "83.12 sec" /\ time_text (fun _ => true) (0, 4000000)%N = lit "0.00 sec".
Proof. split; vm_compute; reflexivity. Qed.

(** ** C77: the date *)
(** The time of creation is shown as the date of the calendar and the time of the day; rendering
    panics for the years that chrono does not have. *)
Open Scope Z_scope.
Theorem C77_created : forall has_year t, exists y m d h mi s,
  date y m d /\ 0 <= h < 24 /\ 0 <= mi < 60 /\ 0 <= s < 60 /\ fst t = day_number y m d * 86400 + h * 3600 + mi * 60 + s /\
  (has_year y = true -> exists ty tm td th tmi ts, render_time has_year t = Some (ty ++ lit "-" ++ tm ++ lit "-" ++ td ++ lit " " ++ th ++ lit ":" ++ tmi ++ lit ":" ++ ts) /\
    year_text y ty /\ two_digits (Z.to_N m) tm /\ two_digits (Z.to_N d) td /\ two_digits (Z.to_N h) th /\ two_digits (Z.to_N mi) tmi /\ two_digits (Z.to_N s) ts) /\
  (has_year y = false -> render_time has_year t = None).
Proof.
  intros has_year t. unfold render_time. pose proof (civil_ok (fst t / 86400)) as C. destruct (civil (fst t / 86400)) as [[y m] d]. destruct C as [C1 C2].
  pose proof (Z.div_mod (fst t) 86400 ltac:(lia)) as E. pose proof (Z.mod_pos_bound (fst t) 86400 ltac:(lia)) as B. set (s := Z.to_N (fst t mod 86400)) in *.
  assert (Es : fst t mod 86400 = Z.of_N s) by (unfold s; lia). rewrite Es in *. clearbody s.
  exists y, (Z.of_N m), (Z.of_N d), (Z.of_N (s / 3600)), (Z.of_N (s / 60 mod 60)), (Z.of_N (s mod 60)).
  assert (H1 : (s / 3600 < 24)%N) by (apply N.div_lt_upper_bound; lia). assert (H2 : (s / 60 mod 60 < 60)%N) by (apply N.mod_lt; lia). assert (H3 : (s mod 60 < 60)%N) by (apply N.mod_lt; lia).
  assert (S : s = (s / 3600 * 3600 + s / 60 mod 60 * 60 + s mod 60)%N).
  { pose proof (N.div_mod s 60 ltac:(lia)) as A1. pose proof (N.div_mod (s / 60) 60 ltac:(lia)) as A2. rewrite N.div_div in A2 by lia. change (60 * 60)%N with 3600%N in A2. lia. }
  csplit; try apply C1; try lia.
  - intros ->. do 6 eexists. csplit; [reflexivity|apply fmt_year_ok| | | | |]; rewrite N2Z.id; apply two_digits_ok.
  - intros ->. reflexivity.
Qed.
(** The calendar: the dates have the numbers of the days, one each. *)
Theorem C77_calendar : (forall n, exists y m d, date y m d /\ day_number y m d = n) /\
  (forall y m d y' m' d', date y m d -> date y' m' d' -> day_number y m d = day_number y' m' d' -> (y, m, d) = (y', m', d')) /\
  day_number 1970 1 1 = 0 /\ (forall y m d, date y m d -> date y m (d + 1) -> day_number y m (d + 1) = day_number y m d + 1) /\
  (forall y m, 1 <= m < 12 -> day_number y (m + 1) 1 = day_number y m (month_length y m) + 1) /\
  (forall y, day_number (y + 1) 1 1 = day_number y 12 31 + 1).
Proof.
  csplit.
  - intros n. pose proof (civil_ok n) as C. destruct (civil n) as [[y m] d]. now exists y, (Z.of_N m), (Z.of_N d).
  - apply day_number_inj.
  - reflexivity.
  - intros y m d _ _. unfold day_number. lia.
  - intros y m H. unfold day_number. rewrite before_step by exact H. lia.
  - intros y. pose proof (year_step y) as E. unfold new_year in E. unfold day_number, before_month, month_length, year_days in *. rewrite leap_same in E. destruct (leap_year y); closed_sums; lia.
Qed.
Example C77_created_example : render_time (fun _ => true) (1663929296, 5%N) = Some (lit "2022-09-23 10:34:56") /\ render_time (fun _ => true) (951782400, 0%N) = Some (lit "2000-02-29 00:00:00") /\
  render_time (fun _ => true) (253402300800, 0%N) = Some (lit "+10000-01-01 00:00:00").
Proof. csplit; vm_compute; reflexivity. Qed.

(** ** C77: the names *)
(** The target and the baselines are shown with the path or the url that they were given as. *)
Lemma drop_zero t : drop_bytes 0 t = Some t.
Proof. pose proof (drop_bytes_app [] t) as H. exact H. Qed.
Open Scope N_scope.
Definition shown_kind (dir : bool) : bytes := if dir then lit "Directory(" else lit "File(".
Theorem C77_path_shown : forall Date kind_of p (c : content (@StoreModel.build Date)), utf8_decode p <> None -> from_path kind_of p = Val c ->
  content_text c = Some (shown_kind (match kind_of p with KDir => true | _ => false end) ++ lit "local: " ++ p ++ lit ")").
Proof.
  intros Date kind_of p c U. unfold from_path. destruct (utf8_decode p) as [t|] eqn:E; [|congruence]. pose proof (utf8_encode_decode _ _ E) as D.
  destruct (kind_of p); [intros [= <-]|intros [= <-]|discriminate]; cbn [content_text source_text get_relative as_str to_str]; unfold source_text, get_relative, as_str, to_str; rewrite E, drop_zero; cbn [option_map]; rewrite D; cbn [shown_kind]; now rewrite <- app_assoc.
Qed.
Theorem C77_url_shown : forall Date has_authority from_zuul_url u (c : content (@StoreModel.build Date)),
  from_zuul_url u = None -> from_url has_authority from_zuul_url u = Val c ->
  content_text c = Some (shown_kind (ends_with (lit "/") u) ++ lit "remote: " ++ utf8_encode u ++ lit ")").
Proof.
  intros Date has_authority from_zuul_url u c Z. unfold from_url. rewrite Z. destruct (negb (has_authority u)); [discriminate|].
  destruct (ends_with (lit "/") u); intros [= <-]; cbn [content_text]; unfold source_text, get_relative, as_str; rewrite drop_zero; cbn [option_map shown_kind]; now rewrite <- app_assoc.
Qed.
Theorem C77_build_shown : forall Date (b : @StoreModel.build Date),
  content_text (CZuul b) = Some (lit "Zuul(" ++ StoreModel.b_api b ++ lit "build/" ++ StoreModel.b_uuid b ++ lit ")").
Proof. reflexivity. Qed.
Example C77_names_example : @content_text bytes (CDirectory (Local 0 (lit "/var/log"))) = Some (lit "Directory(local: /var/log)") /\
  utf8_decode (lit "/var/log") <> None.
Proof. split; [reflexivity|discriminate]. Qed.

(** ** C78: the distances *)
Open Scope R_scope.
(** On the page a distance is shown as the whole part of 99 times it; only the distance 1 is shown as 99;
    a larger distance is not shown as a smaller number. *)
Theorem C78_percent : forall d, fin d -> 0 <= val d <= 1 ->
  (percent d <= 99)%N /\ Rabs (nat_r (percent d) + / 2 - val d * 99) <= 0.5001 /\ (percent d = 99%N <-> val d = 1) /\
  (forall d', fin d' -> val d <= val d' <= 1 -> (percent d <= percent d')%N).
Proof.
  intros d Hf Hd. destruct (scaled_usize 99 d ltac:(lia) Hf Hd) as [K L]. destruct (scaled_ok 99 d ltac:(lia) Hf Hd) as (_ & V & _ & E). rewrite V in E. fold (percent d) in K, L. change (nat_r 99) with 99 in *. csplit.
  - exact L.
  - apply Rabs_le_inv in E. apply Rabs_le. lra.
  - now apply percent_99.
  - intros d' Hf' Hd'. apply scaled_mono; auto; try lia; lra.
Qed.
(** The color of an anomaly has exactly two hexadecimal digits, and is never dark. *)
Lemma hex_two n : (16 <= n < 256)%N -> exists a b, fmt2X n = [a; b] /\ hex_digit a /\ hex_digit b /\ n = ((if a <? 65 then a - 48 else a - 55) * 16 + (if b <? 65 then b - 48 else b - 55))%N.
Proof.
  intros [A B]. exists (digit_char (n / 16)), (digit_char (n mod 16)).
  assert (Q : (1 <= n / 16 < 16)%N) by (split; [apply N.div_le_lower_bound; lia|apply N.div_lt_upper_bound; lia]). assert (M : (n mod 16 < 16)%N) by (apply N.mod_lt; lia).
  assert (HX : forall x, (x < 16)%N -> hex_digit (digit_char x) /\ (if digit_char x <? 65 then digit_char x - 48 else digit_char x - 55)%N = x).
  { intros x Hx. unfold hex_digit, digit_char. destruct (N.ltb_spec x 10) as [L|L].
    - split; [left; lia|]. destruct (N.ltb_spec (48 + x) 65); lia.
    - split; [right; lia|]. destruct (N.ltb_spec (55 + x) 65); lia. }
  destruct (HX _ (proj2 Q)) as [X1 X2]. destruct (HX _ M) as [Y1 Y2]. csplit; auto.
  - unfold fmt2X, fmt_base. assert (D : digits 16 (S (N.size_nat n)) n = [n / 16; n mod 16]%N).
    { assert (Sz : exists k, N.size_nat n = S (S k)). { destruct n as [|[p|p|]]; try lia; destruct p; try (now eexists); lia. }
      destruct Sz as [k ->]. cbn [digits]. destruct (N.ltb_spec n 16) as [L|L]; [lia|]. destruct (N.ltb_spec (n / 16) 16) as [L'|L']; [reflexivity|lia]. }
    rewrite D. reflexivity.
  - rewrite X2, Y2. pose proof (N.div_mod n 16 ltac:(lia)). lia.
Qed.
Theorem C78_anomaly : forall d, fin d -> val d <= 1 -> above_threshold d = true ->
  (29 <= percent d <= 99)%N /\ (76 <= colour d <= 255)%N /\ Rabs (nat_r (colour d) + / 2 - val d * 255) <= 0.5001 /\
  exists a b, fmt2X (colour d) = [a; b] /\ hex_digit a /\ hex_digit b.
Proof.
  intros d Hf Hd A. apply (fgt_ok _ _ Hf fin_threshold) in A. pose proof val_threshold as T. assert (D0 : 0 <= val d <= 1) by lra.
  destruct (scaled_usize 99 d ltac:(lia) Hf D0) as [K L]. destruct (scaled_ok 99 d ltac:(lia) Hf D0) as (_ & V & _ & E). rewrite V in E. fold (percent d) in K, L.
  destruct (scaled_usize 255 d ltac:(lia) Hf D0) as [K' L']. destruct (scaled_ok 255 d ltac:(lia) Hf D0) as (_ & V' & _ & E'). rewrite V' in E'. fold (colour d) in K', L'. change (nat_r 99) with 99 in *. change (nat_r 255) with 255 in *.
  apply Rabs_le_inv in E, E'.
  assert (P : (28 < percent d)%N) by (apply nat_r_lt; change (nat_r 28) with 28; lra). assert (C : (75 < colour d)%N) by (apply nat_r_lt; change (nat_r 75) with 75; lra).
  csplit; try lia; [apply Rabs_le; lra|]. destruct (hex_two (colour d) ltac:(lia)) as (a & b & X1 & X2 & X3 & _). now exists a, b.
Qed.
(** The live output shows the nearest number. *)
Theorem C78_live : forall up d n x, fin d -> val d <= 1 -> above_threshold d = true ->
  exists q shown pos, live_text up (Printed (Anom d n x)) = Some (shown ++ lit " " ++ pos ++ lit " | " ++ x) /\
    decimal q shown /\ decimal n pos /\ (30 <= q <= 99)%N /\ Rabs (nat_r q - val d * 99) <= 0.5001.
Proof.
  intros up d n x Hf Hd A. apply (fgt_ok _ _ Hf fin_threshold) in A. pose proof val_threshold as T. assert (D0 : 0 <= val d <= 1) by lra.
  destruct (scaled_ok 99 d ltac:(lia) Hf D0) as (F & _ & B & E). change (nat_r 99) with 99 in *. apply Rabs_le_inv in E.
  destruct (fmt_float_ok up 2 0 (fmul d (as_f32 99)) F ltac:(lra)) as (q & Eq & Hq); [intros Z; lra|]. unfold half in Hq. change (nat_r (10 ^ 0)) with 1 in Hq. apply Rabs_le_inv in Hq.
  assert (Q1 : (29 < q)%N) by (apply nat_r_lt; change (nat_r 29) with 29; lra). assert (Q2 : (q < 100)%N) by (apply nat_r_lt; change (nat_r 100) with 100; lra).
  exists q, (fmt q), (fmt n). csplit; try lia; [|apply fmt_decimal|apply fmt_decimal|apply Rabs_le; lra].
  cbn [live_text]. rewrite Eq, places_0. do 2 f_equal. apply pad_long. 
  destruct (fmt_decimal q) as (A1 & A2 & _). destruct (fmt q) as [|c [|c' r]] eqn:Fq; cbn [List.length]; [|exfalso|lia].
  - cbn in A2. lia.
  - cbn in A2. inversion A1; subst. lia.
Qed.
(** So the page and the live output disagree. *)
Theorem C78_same_refuted : exists d, fin d /\ val d <= 1 /\ above_threshold d = true /\ percent d = 39%N /\
  forall up, live_text up (Printed (Anom d 7 (lit "x"))) = Some (lit "40 7 | x").
Proof.
  exists (b32_of_bits 0x3ecccccd). csplit; try reflexivity. unfold val. vm_compute. lra.
Qed.
(** The hypotheses hold for every anomaly of a report. *)
Theorem C78_report : forall hash fused tok open err_text drain m target r lr c,
  (forall l, Permutation (drain l) l) -> NoDup (map fst m) ->
  model_report above_threshold tok (real_search hash fused) open err_text drain m target = Val r ->
  In lr (log_reports r) -> In c (lr_anomalies lr) ->
  fin (distance c) /\ val (distance c) <= 1 /\ above_threshold (distance c) = true.
Proof.
  intros hash fused tok open err_text drain m target r lr c Hd Hm H Hl Hc.
  destruct (model_report_made above_threshold tok (real_search hash fused) (real_dist hash fused) (real_pointwise hash fused) open err_text drain Hd m target r Hm H) as (sources & groups & gs & H1 & H2 & H3 & H4).
  destruct (made_log gs r lr H4 Hl) as (g & ix & outs & s & c0 & cs & err & lines & G1 & G2 & G3 & ->). cbn [lr_anomalies] in *.
  destruct (forall2_in_r _ _ _ _ H3 G1) as ([nm l] & R1 & R2 & R3). rewrite G2 in R3. destruct R3 as [R3 R4].
  destruct (group_outcome_analysed above_threshold tok (real_dist hash fused) open err_text _ _ _ _ _ _ _ _ R4 G3) as (items & json & known & err' & l1 & l2 & A1 & A2 & A3 & A4 & _).
  destruct (analysis_anomaly above_threshold tok _ _ _ _ _ _ c A4 Hc) as (_ & _ & _ & K & _). destruct A4 as [_ (ps & more & _ & _ & Dd & _)].
  destruct (forall2_in_l _ _ _ _ Dd Hc) as (i & _ & _ & D2). rewrite D2. destruct (C24_range hash fused (ix_batches ix) (tok (aline c))) as [(d & E & F & B) _].
  unfold hashing_search in E. rewrite (search_pointwise hash fused _ [tok (aline c)]) in E. cbn [map] in E. injection E as E. unfold real_dist in *. rewrite E in *. csplit; [exact F|lra|exact K].
Qed.

Print Assumptions C77_result.
Print Assumptions C77_number_refuted.
Print Assumptions C77_hundred_refuted.
Print Assumptions C77_anomalies_are_lines.
Print Assumptions C77_time.
Print Assumptions C77_created.
Print Assumptions C77_calendar.
Print Assumptions C77_path_shown.
Print Assumptions C77_url_shown.
Print Assumptions C77_build_shown.
Print Assumptions C78_percent.
Print Assumptions C78_anomaly.
Print Assumptions C78_live.
Print Assumptions C78_same_refuted.
Print Assumptions C78_report.
