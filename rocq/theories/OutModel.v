(** Model of what the commands write to the standard output (/repo/cli/src/main.rs and
    debug_or_progress of /repo/model/src/model.rs).  Definitions only.

    What tracing writes in the debug mode is left out; see ReportModel.v and ShownModel.v for the
    lines of the live output. *)
From Coq Require Import String List NArith Bool.
From Verif Require Import IterModel Common FilesModel CliModel IndexModel ProcModel ReportModel HtmlModel ShownModel.
From Verif Require StoreModel.
Import ListNotations.
Open Scope string_scope.
Open Scope list_scope.
Open Scope N_scope.

(** model.rs:22-30, enum OutputMode *)
Inductive out_mode := DebugMode | FastTerminal | Quiet.
(** model.rs:32-36, OutputMode::inlined *)
Definition inlined (o : out_mode) : bool := match o with FastTerminal => true | _ => false end.
(** cli/main.rs:165-207: [log] is whether LOGREDUCE_LOG is set, [tty] whether the output is a terminal. *)
Definition output_mode (log tty : bool) : out_mode := if log then DebugMode else if tty then FastTerminal else Quiet.

(** What is written, piece by piece: a progress message, a row of the live output or a message of
    its own, both with an end of line, an end of line, the code that erases a line. *)
Inductive piece := Progress (msg : bytes) | Row (o : @out_line F) | Says (msg : bytes) | EndLine | Erase.
(** model.rs:534-540, debug_or_progress *)
Definition progress (o : out_mode) (msg : bytes) : list piece := match o with FastTerminal => [Progress msg] | _ => [] end.
(** cli/main.rs:326-330: the separator before the first item of a source *)
Definition separator (o : out_mode) (shown : bool) : list piece := if inlined o && negb shown then [EndLine] else [].

Section Out.
Variable up : N -> bool.
Variable tok : bytes -> bytes.
(** The search in an index, given by the batches that were added to it or by what was loaded. *)
Context {B : Type}.
Variable search_of : B -> list bytes -> list F.
Variable open : source -> res (bool -> list item).
Variable err_text : option N -> text.
Variable drain : list (text * list source) -> list (text * list source).

(** The bytes of a piece; [None] is a panic. *)
Definition piece_bytes (p : piece) : option bytes :=
  match p with
  | Progress msg => Some ([13; 27] ++ lit "[1;33m[+]" ++ [27] ++ lit "[0m " ++ msg)
  | Row o => option_map (fun t => t ++ [10]) (live_text up o)
  | Says msg => Some (msg ++ [10])
  | EndLine => Some [10]
  | Erase => Some ([13; 27] ++ lit "[K")
  end.
Definition written (l : list piece) : option bytes := option_map (@concat N) (all_texts piece_bytes l).
Definition to_res {A} (o : option A) : res A := match o with Some x => Val x | None => Panic end.

(** model.rs:296, the message of get_processor; [None] is a panic, in all modes. *)
Definition inspecting (s : source) : option bytes := option_map (fun t => lit "Inspecting " ++ t) (source_text s).

(** cli/main.rs:288-352, the loop over the sources, from [progress_sep_shown]: the pieces, the
    counters, and the last [progress_sep_shown].  A source without anomaly and without error does
    not enter the loop 325-338. *)
Fixpoint live_loop (o : out_mode) (m : list (text * index_at B)) (sources : list source) (shown : bool) : res (list piece * N * N * bool) :=
  match sources with
  | [] => Val ([], 0, 0, shown)
  | s :: rest =>
    match get_relative s with
    | None => Panic
    | Some rel =>
      match get_index m (index_name rel) with
      | None =>
        match live_loop o m rest true with
        | Val (ps, n, k, b) => Val (Row (NoBaselines s) :: ps, n, k, b)
        | r => r
        end
      | Some ix =>
        match inspecting s, get_processor open s with
        | None, _ | _, Panic => Panic
        | Some msg, Fail e => Val (progress o msg ++ [Row (CouldNotRead s e)], 0, 0, false)
        | Some msg, Val items =>
          match process_all above_threshold tok (search_of (ix_batches ix)) items [] with
          | (l, stop, p) =>
            match stop_error stop with
            | Val err =>
              let rows := map Printed (print_anomalies None l) ++ match err with Some e => [CouldNotRead s (err_text e)] | None => [] end in
              let found := match rows with [] => false | _ => true end in
              match live_loop o m rest (inlined o && found) with
              | Val (ps, n, k, b) =>
                Val (progress o msg ++ (if found then separator o false else []) ++ map Row rows ++ ps, line_count p + n, N.of_nat (length l) + k, b)
              | r => r
              end
            | _ => Panic
            end
          end
        end
      end
    end
  end.
(** cli/main.rs:278-365, process_live, on the listing of the content *)
Definition live_pieces {Date} (o : out_mode) (m : list (text * index_at B)) (c : content (@StoreModel.build Date)) (target : list (res source)) : res (list piece) :=
  match get_sources target with
  | Val sources =>
    match live_loop o m sources false with
    | Val (ps, n, k, shown) =>
      match content_text c with
      | Some t => Val (ps ++ (if inlined o && negb shown then [Erase] else []) ++ progress o (t ++ lit ": Reduced from " ++ fmt n ++ lit " to " ++ fmt k))
      | None => Panic
      end
    | Fail e => Fail e
    | Panic => Panic
    end
  | Fail e => Fail e
  | Panic => Panic
  end.
Definition live_stdout {Date} (o : out_mode) (m : list (text * index_at B)) (c : content (@StoreModel.build Date)) (target : list (res source)) : res bytes :=
  match live_pieces o m c target with
  | Val ps => to_res (written ps)
  | Fail e => Fail e
  | Panic => Panic
  end.

(** ** The debug commands *)
(** std: Ord for str *)
Fixpoint text_leb (a b : text) : bool :=
  match a, b with
  | [], _ => true
  | _, [] => false
  | x :: a, y :: b => if x <? y then true else if x =? y then text_leb a b else false
  end.
(** Itertools::sorted_by, by the names *)
Fixpoint insert_group (g : text * list source) (l : list (text * list source)) : list (text * list source) :=
  match l with
  | [] => [g]
  | h :: l => if text_leb (fst g) (fst h) then g :: h :: l else h :: insert_group g l
  end.
Definition sort_groups (l : list (text * list source)) : list (text * list source) := fold_right insert_group [] l.
(** The format [{:?}: {:#?}] of a name and of sources *)
Variable show_group : text * list source -> bytes.
(** cli/main.rs:367-376, debug_groups, on the listing of the content *)
Definition debug_groups (target : list (res source)) : res bytes :=
  match group_sources [target] with
  | Val groups => Val (flat_map (fun g => show_group g ++ [10]) (sort_groups (drain groups)))
  | Fail e => Fail e
  | Panic => Panic
  end.
(** std: Display for Utf8Error and for an io error *)
Variable utf8_error : bytes -> bytes.
Variable io_error : N -> bytes.
(** cli/main.rs:142-148: what is printed for an item of the iterator *)
Definition debug_item (l : bytes) (nr : N) : bytes :=
  fmt nr ++ lit " | " ++ (if valid_utf8 l then l else lit "error: " ++ utf8_error l) ++ [10].
(** cli/main.rs:141-149: the loop goes on after an error. *)
Inductive debug_loop (ovf : bool) : iter -> reader -> bytes -> Prop :=
| LoopEnd s r s' r' : next ovf s r = (ONone, s', r') -> debug_loop ovf s r []
| LoopLine s r l nr s' r' out : next ovf s r = (OLine l nr, s', r') -> debug_loop ovf s' r' out -> debug_loop ovf s r (debug_item l nr ++ out)
| LoopErr s r e s' r' out : next ovf s r = (OErr e, s', r') -> debug_loop ovf s' r' out -> debug_loop ovf s r (io_error e ++ [10] ++ out).
End Out.
