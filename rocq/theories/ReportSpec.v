(** Specification vocabulary for reports: what the analysis of a source, of a group of
    sources and of a target is.  The model is imported for the types of results. *)
From Coq Require Import String List NArith Bool Permutation.
From Verif Require Import Common ProcModel ProcSpec FilesModel FilesSpec FilesSources ReportModel.
Import ListNotations.
Open Scope N_scope.

(** [v] is stored under [n], [v] is the only value. *)
Definition stored {V} (m : list (text * V)) (n : text) (v : V) : Prop := In (n, v) m.
Definition only_value {V} (m : list (text * V)) (v : V) : Prop := exists n, m = [(n, v)].

(** The index for a name: the one stored under it, else the only one. *)
Definition has_index {V} (m : list (text * V)) (n : text) (v : V) : Prop :=
  stored m n v \/ ((forall w, ~ stored m n w) /\ only_value m v).
Definition no_index {V} (m : list (text * V)) (n : text) : Prop := forall v, ~ has_index m n v.

(** ** Training *)
(** The index [ix] is trained from the lines of the sources [l], all of which can be opened:
    read as json if the first source is.  Its content is their distinct tokenized lines. *)
Definition trained_from (tok : bytes -> bytes) (open : source -> res (bool -> list item)) (l : list source) (ix : index_of) : Prop :=
  ix_sources ix = l /\
  exists json items, (forall s r, l = s :: r -> is_json s = Some json) /\
    Forall2 (fun s it => open s = Val it) l items /\
    let lines := concat (map (fun it => good_prefix (it json)) items) in
    concat (ix_batches ix) = firsts [] (map (fun x => tok (fst x)) lines) /\
    ix_lines ix = N.of_nat (length lines) /\ ix_bytes ix = total_bytes lines.

(** ** Reports *)
Section Spec.
Context {D : Type}.
Variable above : D -> bool.
Variable tok : bytes -> bytes.
Variable dist_of : list (list bytes) -> bytes -> D.     (* distance to the lines of an index *)
Variable open : source -> res (bool -> list item).
Variable err_text : option N -> text.

(** The analysis of a source with the items [items], when the lines [known] are known: of
    the lines in [read], the anomalies [cs] and an error [err]. *)
Record analysis (dist : bytes -> D) (known : list bytes) (items : list item)
    (cs : list (@actx D)) (err : option (option N)) (lines : list (bytes * N)) : Prop := mkAnalysis {
  (** [lines] are the first lines of the source, all valid *)
  an_lines : exists rest, items = ok_items lines ++ rest /\ all_valid lines /\
    match err with
    | None => rest = [] \/ exists l m, lines = l ++ [m] /\ is_marker (fst m) = true
    | Some e => exists bad rest', rest = bad :: rest' /\ failing bad e
    end;
  (** the anomalies are about the lines to report, all of them if there is no error *)
  an_found : exists positions more,
    enumerates above tok dist known (without_markers lines) (positions ++ more) /\
    (err = None -> more = []) /\
    Forall2 (describes tok dist (without_markers lines)) cs positions /\
    Forall2 (neighbours above tok dist known (without_markers lines)) cs positions
}.

(** What became of a source. *)
Inductive outcome :=
| Analysed (s : source) (cs : list (@actx D)) (err : option text) (lines : list (bytes * N))
| NotOpened (s : source) (e : text)
| Skipped (s : source).

(** The sources of a group, one after the other: [known] are tokenized lines of the earlier
    sources.  A source that cannot be opened ends the group. *)
Inductive group_outcome (batches : list (list bytes)) : list bytes -> list source -> list outcome -> Prop :=
| GroupEnd known : group_outcome batches known [] []
| GroupBroken known s e rest : open s = Fail e ->
    group_outcome batches known (s :: rest) (NotOpened s e :: map Skipped rest)
| GroupNext known s items json cs err lines known' rest outs :
    open s = Val items -> is_json s = Some json ->
    analysis (dist_of batches) known (items json) cs err lines ->
    (forall t, In t known' <-> In t known \/ exists x, In x (without_markers lines) /\ tok (fst x) = t) ->
    group_outcome batches known' rest outs ->
    group_outcome batches known (s :: rest) (Analysed s cs (option_map err_text err) lines :: outs).

(** What an outcome adds to a report. *)
Definition logs_of (n : text) (o : outcome) : list log_report :=
  match o with
  | Analysed s (c :: cs) _ lines => [mkLog (N.of_nat (length lines)) (total_bytes lines) (c :: cs) s n]
  | _ => []
  end.
Definition errors_of (o : outcome) : list (source * text) :=
  match o with
  | Analysed s _ (Some e) _ => [(s, e)]
  | NotOpened s e => [(s, e)]
  | _ => []
  end.
Definition lines_of (o : outcome) : N :=
  match o with Analysed _ _ _ lines => N.of_nat (length lines) | _ => 0 end.
Definition anomalies_of (o : outcome) : N :=
  match o with Analysed _ cs _ _ => N.of_nat (length cs) | _ => 0 end.
Definition sum (l : list N) : N := fold_right N.add 0 l.

(** A group with its name, and its index and outcomes, if it has an index. *)
Definition group_result : Type := text * list source * option (index_of * list outcome).
Definition gr_outs (g : group_result) : list outcome := match snd g with Some (_, outs) => outs | None => [] end.
Definition gr_logs (g : group_result) : list log_report := flat_map (logs_of (fst (fst g))) (gr_outs g).

(** The result of a group with the model [m]. *)
Definition result_of (m : model) (g : text * list source) (gr : group_result) : Prop :=
  fst gr = g /\
  match snd gr with
  | Some (ix, outs) => has_index m (fst g) ix /\ group_outcome (ix_batches ix) [] (snd g) outs
  | None => no_index m (fst g)
  end.

(** The report [r] is made of the results [gs]. *)
Record made_of (gs : list group_result) (r : report) : Prop := mkMade {
  mo_logs : log_reports r = flat_map gr_logs gs;
  mo_index : index_reports r =
    flat_map (fun g => match snd g with
                       | Some (ix, _) => match gr_logs g with [] => [] | _ :: _ => [(fst (fst g), ix_sources ix)] end
                       | None => []
                       end) gs;
  mo_no_index : index_errors r = flat_map (fun g => match snd g with None => [snd (fst g)] | Some _ => [] end) gs;
  mo_errors : read_errors r = flat_map errors_of (flat_map gr_outs gs);
  mo_lines : total_line_count r = sum (map lines_of (flat_map gr_outs gs));
  mo_anomalies : total_anomaly_count r = sum (map anomalies_of (flat_map gr_outs gs))
}.

(** ** Live output *)
(** What became of a source of the live output. *)
Inductive live_result :=
| Shown (s : source) (cs : list (@actx D)) (err : option text) (lines : list (bytes * N))
| NoIndex (s : source)
| Broken (s : source) (e : text)
| NotReached (s : source).
(** The sources one after the other, each without known lines.  A source that cannot be
    opened ends everything. *)
Inductive live_outcome (m : model) : list source -> list live_result -> Prop :=
| LiveEnd : live_outcome m [] []
| LiveNoIndex s n rest outs : source_name s = Some n -> no_index m n -> live_outcome m rest outs ->
    live_outcome m (s :: rest) (NoIndex s :: outs)
| LiveBroken s n ix e rest : source_name s = Some n -> has_index m n ix -> open s = Fail e ->
    live_outcome m (s :: rest) (Broken s e :: map NotReached rest)
| LiveNext s n ix items json cs err lines rest outs : source_name s = Some n -> has_index m n ix ->
    open s = Val items -> is_json s = Some json ->
    analysis (dist_of (ix_batches ix)) [] (items json) cs err lines ->
    live_outcome m rest outs ->
    live_outcome m (s :: rest) (Shown s cs (option_map err_text err) lines :: outs).
Definition live_lines (o : live_result) : N := match o with Shown _ _ _ lines => N.of_nat (length lines) | _ => 0 end.
Definition live_anomalies (o : live_result) : N := match o with Shown _ cs _ _ => N.of_nat (length cs) | _ => 0 end.

(** ** Rendering *)
(** The lines that are shown for an anomaly at position [i]: its line and its contexts. *)
Definition shown (lines : list (bytes * N)) (c : @actx D) (i : nat) : list (bytes * N) :=
  firstn (length (before c) + 1 + length (after c)) (skipn (i - length (before c)) lines).
(** Numbered one by one. *)
Fixpoint consecutive (l : list (bytes * N)) : Prop :=
  match l with
  | (_, n) :: (((_, n') :: _) as r) => n' = n + 1 /\ consecutive r
  | _ => True
  end.
Definition number_of (l : @rline D) : option N :=
  match l with Hr => None | Ctx n _ => Some n | Anom _ n _ => Some n end.
(** A line of output shows this text with this number, and the distance if it is the anomaly. *)
Definition row_shows (shift : N) (c : @actx D) (x : bytes * N) (is_anomaly : bool) (row : @rline D) : Prop :=
  if is_anomaly then row = Anom (distance c) (snd x) (fst x)
  else exists n, row = Ctx n (fst x) /\ n + shift = snd x.
(** The rows for the anomaly [c] at position [i]: the shown lines in order, with their numbers. *)
Definition block (shift : N) (lines : list (bytes * N)) (c : @actx D) (i : nat) (rows : list rline) : Prop :=
  length rows = length (shown lines c i) /\
  forall k x row, nth_error (shown lines c i) k = Some x -> nth_error rows k = Some row ->
    row_shows shift c x (Nat.eqb k (length (before c))) row.
(** The blocks one after the other, with a separator where the shown lines do not follow
    each other by number. *)
Definition first_number (lines : list (bytes * N)) (c : @actx D) (i : nat) : option N := option_map snd (hd_error (shown lines c i)).
Definition last_number (lines : list (bytes * N)) (c : @actx D) (i : nat) : option N := option_map snd (hd_error (rev (shown lines c i))).
Inductive page (shift : N) (lines : list (bytes * N)) : list (@actx D * nat) -> list (@rline D) -> Prop :=
| PageEmpty : page shift lines [] []
| PageLast c i rows : block shift lines c i rows -> page shift lines [(c, i)] rows
| PageNext c i rows c' i' l out a b sep : block shift lines c i rows -> page shift lines ((c', i') :: l) out ->
    last_number lines c i = Some a -> first_number lines c' i' = Some b ->
    sep = (if b =? a + 1 then [] else [Hr]) ->
    page shift lines ((c, i) :: (c', i') :: l) (rows ++ sep ++ out).
End Spec.
