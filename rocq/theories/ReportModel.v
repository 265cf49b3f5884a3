(** Model of Index::train, Model::train, Model::get_index and Model::report
    (/repo/model/src/model.rs), of the lines of the html report
    (/repo/report/src/report.rs) and of the command line (/repo/cli/src/main.rs).
    Definitions only.

    Counters are unbounded, times are left out. *)
From Coq Require Import String List NArith Bool.
From Verif Require Import Common ProcModel FilesModel.
Import ListNotations.
Open Scope N_scope.

(** model.rs:176-183, struct Index; [ix_batches] is what its ChunkIndex holds. *)
Record index_at (B : Type) := mkIndex {
  ix_sources : list source;
  ix_batches : B;
  ix_lines : N;
  ix_bytes : N
}.
Arguments mkIndex {B}.
Arguments ix_sources {B}.
Arguments ix_batches {B}.
Arguments ix_lines {B}.
Arguments ix_bytes {B}.
(** The index that is trained: the batches are the calls of ChunkIndex::add. *)
Notation index_of := (index_at (list (list bytes))).

Section Report.
(** The distances, the threshold, the tokenizer, and the search in an index: ChunkIndex
    (model.rs:558-590), given by the batches of lines that were added to it, or by what was loaded. *)
Context {D B : Type}.
Variable above : D -> bool.
Variable tok : bytes -> bytes.
Variable search_of : B -> list bytes -> list D.
(** Source::file_open and Source::url_open with the line iterator on top: a failure to open, a
    panic, or the items read in json mode or not. *)
Variable open : source -> res (bool -> list item).
(** The text of a read error. *)
Variable err_text : option N -> text.
(** The order in which a hash map is drained. *)
Variable drain : list (text * list source) -> list (text * list source).

(** model.rs:269-279: the loop over the sources.  A source that cannot be opened is an error,
    a source that cannot be read is not. *)
Fixpoint train_group (json : bool) (sources : list source) (t : trainer) : res trainer :=
  match sources with
  | [] => Val (tcomplete t)
  | s :: rest =>
    match open s with
    | Val items => train_group json rest (snd (tadd tok (items json) t))
    | Fail e => Fail e
    | Panic => Panic
    end
  end.
(** model.rs:260-288, Index::train *)
Definition index_train (sources : list source) : res index_of :=
  let json := match sources with [] => Some false | s :: _ => is_json s end in
  match json with
  | None => Panic
  | Some json =>
    match train_group json sources trainer_new with
    | Val t => Val (mkIndex sources (added t) (tline_count t) (tbyte_count t))
    | Fail e => Fail e
    | Panic => Panic
    end
  end.

(** model.rs:149-154, the indexes of struct Model; the hash map is a list of pairs. *)
Definition model := list (text * index_of).
(** HashMap::insert of a name that is not in the map: the names of groups are distinct. *)
Fixpoint train_all (groups : list (text * list source)) : res model :=
  match groups with
  | [] => Val []
  | (n, sources) :: rest =>
    match index_train sources with
    | Val ix => match train_all rest with Val m => Val ((n, ix) :: m) | Fail e => Fail e | Panic => Panic end
    | Fail e => Fail e
    | Panic => Panic
    end
  end.
(** model.rs:409-433, Model::train, on the listings of the baselines *)
Definition model_train (baselines : list (list (res source))) : res model :=
  match group_sources baselines with
  | Val groups => train_all (drain groups)
  | Fail e => Fail e
  | Panic => Panic
  end.

(** HashMap::get *)
Fixpoint hm_get {V} (n : text) (m : list (text * V)) : option V :=
  match m with
  | [] => None
  | (k, v) :: r => if eqb_list k n then Some v else hm_get n r
  end.
(** model.rs:544-556, lookup_or_single *)
Definition lookup_or_single {V} (m : list (text * V)) (n : text) : option V :=
  match hm_get n m with
  | None => match map snd m with [v] => Some v | _ => None end
  | Some v => Some v
  end.
(** model.rs:456-458, Model::get_index *)
Definition get_index (m : list (text * index_at B)) (n : text) : option (index_at B) := lookup_or_single m n.

(** model.rs:290-308, Index::get_processor: the items of the source.  The message is
    formatted in all modes, which computes the relative name. *)
Definition get_processor (s : source) : res (list item) :=
  match get_relative s with
  | None => Panic
  | Some _ =>
    match open s with
    | Val items => match is_json s with Some json => Val (items json) | None => Panic end
    | Fail e => Fail e
    | Panic => Panic
    end
  end.
(** The end of a processor as a read error: None if the stream was read.  Panics, and the
    bound of [process_all], are ruled out by C13. *)
Definition stop_error (s : pstop) : res (option (option N)) :=
  match s with
  | PSEnd => Val None
  | PSErr e => Val (Some e)
  | PSPanic => Panic
  | PSFuel => Panic
  end.

(** model.rs:197-205, struct LogReport *)
Record log_report := mkLog {
  lr_lines : N;
  lr_bytes : N;
  lr_anomalies : list (@actx D);
  lr_source : source;
  lr_index : text
}.
(** model.rs:224-236, struct Report *)
Record report := mkReport {
  log_reports : list log_report;
  index_reports : list (text * list source);
  index_errors : list (list source);
  read_errors : list (source * text);
  total_line_count : N;
  total_anomaly_count : N
}.
Definition report_new : report := mkReport [] [] [] [] 0 0.
(** model.rs:482, 507 *)
Definition add_read_error (r : report) (s : source) (e : text) : report :=
  mkReport (log_reports r) (index_reports r) (index_errors r) (read_errors r ++ [(s, e)])
           (total_line_count r) (total_anomaly_count r).
(** model.rs:487-504 *)
Definition add_anomalies (r : report) (ix : index_at B) (n : text) (s : source) (l : list (@actx D)) (lines bytes : N) : report :=
  let total := total_line_count r + lines in
  match l with
  | [] => mkReport (log_reports r) (index_reports r) (index_errors r) (read_errors r) total (total_anomaly_count r)
  | _ :: _ =>
    mkReport (log_reports r ++ [mkLog lines bytes l s n])
             (match hm_get n (index_reports r) with
              | Some _ => index_reports r
              | None => index_reports r ++ [(n, ix_sources ix)]
              end)
             (index_errors r) (read_errors r) total (total_anomaly_count r + N.of_nat (length l))
  end.
(** model.rs:473-511: the loop over the sources of a group, with the skip set. *)
Fixpoint report_group (ix : index_at B) (n : text) (sources : list source) (skip_lines : list bytes) (r : report) : res report :=
  match sources with
  | [] => Val r
  | s :: rest =>
    match get_processor s with
    | Panic => Panic
    | Fail e => Val (add_read_error r s e)                              (* 507-508, break *)
    | Val items =>
      match process_all above tok (search_of (ix_batches ix)) items skip_lines with
      | (l, stop, p) =>
        match stop_error stop with
        | Val err =>
          let r1 := match err with Some e => add_read_error r s (err_text e) | None => r end in
          report_group ix n rest (skip p) (add_anomalies r1 ix n s l (line_count p) (byte_count p))
        | _ => Panic
        end
      end
    end
  end.
(** model.rs:470-515: the loop over the groups. *)
Fixpoint report_all (m : list (text * index_at B)) (groups : list (text * list source)) (r : report) : res report :=
  match groups with
  | [] => Val r
  | (n, sources) :: rest =>
    match get_index m n with
    | Some ix =>
      match report_group ix n sources [] r with
      | Val r' => report_all m rest r'
      | Fail e => Fail e
      | Panic => Panic
      end
    | None => report_all m rest (mkReport (log_reports r) (index_reports r) (index_errors r ++ [sources])
                                          (read_errors r) (total_line_count r) (total_anomaly_count r))
    end
  end.
(** model.rs:462-530, Model::report, on the listing of the target *)
Definition model_report (m : list (text * index_at B)) (target : list (res source)) : res report :=
  match group_sources [target] with
  | Val groups => report_all m (drain groups) report_new
  | Fail e => Fail e
  | Panic => Panic
  end.

(** ** The html report *)
(** A line of the report: a separator, a line of context, an anomaly. *)
Inductive rline := Hr | Ctx (number : N) (line : bytes) | Anom (distance : D) (number : N) (line : bytes).
(** [usize] arithmetic without overflow checks. *)
Definition wrap (n : N) : N := n mod 2 ^ 64.
(** report.rs:337-344, render_context.  (With overflow checks an overflow here would panic;
    that takes a line number within 4 of 2^64 and is left out.) *)
Fixpoint render_context (pos : N) (xs : list bytes) : list rline :=
  match xs with
  | [] => []
  | x :: r => Ctx (wrap (pos + 1)) x :: render_context (pos + 1) r
  end.
(** [anomaly.pos - 1 - before.len()] (report.rs:350): on underflow a panic with overflow
    checks, else modulo 2^64. *)
Definition usize_sub (checks : bool) (a b : N) : option N :=
  if b <=? a then Some (a - b) else if checks then None else Some (2 ^ 64 + a - b).
Definition starting_pos (checks : bool) (c : @actx D) : option N :=
  match usize_sub checks (apos c) 1 with
  | Some p => usize_sub checks p (N.of_nat (length (before c)))
  | None => None
  end.
(** report.rs:346-375, render_lines; [None] is a panic. *)
Fixpoint render_lines (checks : bool) (last_pos : option N) (l : list (@actx D)) : option (list rline) :=
  match l with
  | [] => Some []
  | c :: rest =>
    match starting_pos checks c with
    | None => None
    | Some start =>
      let sep := match last_pos with Some p => if p =? start then [] else [Hr] | None => [] end in
      match render_lines checks (Some (wrap (apos c + N.of_nat (length (after c))))) rest with
      | None => None
      | Some out =>
        Some (sep ++ render_context start (before c) ++
              [Anom (distance c) (apos c) (aline c)] ++ render_context (apos c) (after c) ++ out)
      end
    end
  end.

(** ** The live output *)
(** A line of output. *)
Inductive out_line := Printed (l : rline) | CouldNotRead (s : source) (e : text) | NoBaselines (s : source).
(** cli/main.rs:279-283, print_context *)
Fixpoint print_context (pos : N) (xs : list bytes) : list rline :=
  match xs with
  | [] => []
  | x :: r => Ctx pos x :: print_context (pos + 1) r
  end.
(** cli/main.rs:294-320, print_anomaly: output and the new [last_pos] *)
Definition print_anomaly (last_pos : option N) (c : @actx D) : list rline * N :=
  let context_size := 1 + N.of_nat (length (before c)) in
  let start := if context_size <? apos c then apos c - context_size else 0 in
  let sep := match last_pos with Some p => if p =? start then [] else [Hr] | None => [] end in
  (sep ++ print_context start (before c) ++ [Anom (distance c) (apos c) (aline c)] ++
   print_context (apos c) (after c), apos c + N.of_nat (length (after c))).
Fixpoint print_anomalies (last_pos : option N) (l : list (@actx D)) : list rline :=
  match l with
  | [] => []
  | c :: rest => let (out, p) := print_anomaly last_pos c in out ++ print_anomalies (Some p) rest
  end.
(** cli/main.rs:288-353: the loop over the sources: output, lines read and anomalies. *)
Fixpoint live_sources (m : list (text * index_at B)) (sources : list source) : res (list out_line * N * N) :=
  match sources with
  | [] => Val ([], 0, 0)
  | s :: rest =>
    match get_relative s with
    | None => Panic
    | Some rel =>
      match get_index m (index_name rel) with
      | None =>
        match live_sources m rest with
        | Val (out, n, k) => Val (NoBaselines s :: out, n, k)
        | r => r
        end
      | Some ix =>
        match get_processor s with
        | Panic => Panic
        | Fail e => Val ([CouldNotRead s e], 0, 0)                      (* 342-345, break *)
        | Val items =>
          match process_all above tok (search_of (ix_batches ix)) items [] with
          | (l, stop, p) =>
            match stop_error stop with
            | Val err =>
              let e := match err with Some e => [CouldNotRead s (err_text e)] | None => [] end in
              match live_sources m rest with
              | Val (out, n, k) => Val (map Printed (print_anomalies None l) ++ e ++ out, line_count p + n, N.of_nat (length l) + k)
              | r => r
              end
            | _ => Panic
            end
          end
        end
      end
    end
  end.
(** cli/main.rs:278-365, process_live, on the listing of the content *)
Definition process_live (m : list (text * index_at B)) (target : list (res source)) : res (list out_line * N * N) :=
  match get_sources target with
  | Val sources => live_sources m sources
  | Fail e => Fail e
  | Panic => Panic
  end.
End Report.
