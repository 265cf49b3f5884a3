(** Model of the command that checks datasets (/repo/cli/src/dataset.rs).  Definitions only.

    Opening and reading of logs is that of ReportModel.v.  The messages are constants. *)
From Coq Require Import String List NArith Bool.
From Verif Require Import Common TokModel ProcModel FilesModel ReportModel.
Import ListNotations.
Open Scope N_scope.

(** dataset.rs:12-20, structs DatasetAnomaly and Dataset: the expected lines. *)
Definition dataset := list text.

Section Dataset.
Context {D : Type}.
Variable above : D -> bool.
Variable tok : bytes -> bytes.
Variable search_of : list (list bytes) -> list bytes -> list D.
Variable open : source -> res (bool -> list item).
Variable err_text : option N -> text.
Variable drain : list (text * list source) -> list (text * list source).
(** dataset.rs:22-27, load_inf: File::open and serde_yaml::from_reader on inf.yaml in the
    directory. *)
Variable load_inf : bytes -> res dataset.
(** std::fs::read_dir: the names of the entries in any order; an entry may be an error. *)
Variable read_dir : bytes -> res (list (res bytes)).

(** dataset.rs:40-42: the paths of the entries; the unwrap panics on an error. *)
Fixpoint entry_paths (path : bytes) (entries : list (res bytes)) : option (list bytes) :=
  match entries with
  | [] => Some []
  | Val name :: rest => option_map (cons (join path name)) (entry_paths path rest)
  | _ :: _ => None
  end.
(** dataset.rs:46, 49 *)
Definition has_extension (e : text) (p : bytes) : bool :=
  match extension p with Some x => eqb_list x e | None => false end.

(** model.rs:310-322, Index::inspect, collected into a Result<Vec> (dataset.rs:60-66): the
    first error is the result. *)
Definition inspect_all (ix : index_of) (s : source) : res (list (@actx D)) :=
  match get_processor open s with
  | Panic => Panic
  | Fail e => Fail e
  | Val items =>
    match process_all above tok (search_of (ix_batches ix)) items [] with
    | (l, stop, _) =>
      match stop_error stop with
      | Val None => Val l
      | Val (Some e) => Fail (err_text e)
      | _ => Panic
      end
    end
  end.

(** dataset.rs:90-96, assert_anomaly_includes; the texts are compared as UTF-8. *)
Definition not_expected : text := lit "Expected ".
Definition assert_anomaly_includes (line : text) (c : @actx D) : res unit :=
  if contains (utf8_encode (trim line)) (aline c) then Val tt else Fail not_expected.
(** dataset.rs:68-70: zip stops with the shorter list. *)
Fixpoint check_anomalies (expected : dataset) (l : list (@actx D)) : res unit :=
  match expected, l with
  | e :: expected', c :: l' =>
    match assert_anomaly_includes e c with
    | Val _ => check_anomalies expected' l'
    | Fail m => Fail m
    | Panic => Panic
    end
  | _, _ => Val tt
  end.

(** dataset.rs:38-88, process *)
Definition mismatch : text := lit "Expect miss-match".
Definition not_found : text := lit "Can't find .good and .fail files".
Definition process (path : bytes) (expected : dataset) : res unit :=
  match read_dir path with
  | Panic => Panic
  | Fail e => Fail e
  | Val entries =>
    match entry_paths path entries with
    | None => Panic
    | Some paths =>
      match find (has_extension (lit "good")) paths, find (has_extension (lit "fail")) paths with
      | Some good, Some fail =>
        match model_train tok open drain [file_iter (Local 0 good)] with
        | Panic => Panic
        | Fail e => Fail e
        | Val m =>
          match get_index m [] with
          | None => Panic                                               (* unwrap *)
          | Some ix =>
            match inspect_all ix (Local 0 fail) with
            | Panic => Panic
            | Fail e => Fail e
            | Val l =>
              match check_anomalies expected l with
              | Panic => Panic
              | Fail e => Fail e
              | Val _ =>
                if Nat.eqb (length l) (length expected) then Val tt else Fail mismatch
              end
            end
          end
        end
      | _, _ => Fail not_found
      end
    end
  end.

(** dataset.rs:29-36, test_datasets *)
Fixpoint test_datasets (paths : list bytes) : res unit :=
  match paths with
  | [] => Val tt
  | p :: rest =>
    match load_inf p with
    | Panic => Panic
    | Fail e => Fail e
    | Val expected =>
      match process p expected with
      | Val _ => test_datasets rest
      | Fail e => Fail e
      | Panic => Panic
      end
    end
  end.
End Dataset.
