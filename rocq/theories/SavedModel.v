(** Model of a model that was loaded from a file, as Model::report (/repo/model/src/model.rs:462-530)
    and process_live (/repo/cli/src/main.rs:278-365) use it.  Definitions only.

    The bytes of the file are those of StoreModel.v and MatModel.v; the analysis is the one of
    ReportModel.v.  [hash] is any hash function, [fused] either way of accumulating products. *)
From Coq Require Import String List NArith Bool.
From Verif Require Import Common ProcModel FilesModel IndexModel StoreModel MatModel ReportModel.
Import ListNotations.
Open Scope N_scope.

Section Saved.
Variable hash : bytes -> N.
Variable fused : bool.
(** model.rs:580-585, ChunkIndex::search.  A search in a matrix that was not made by the program can
    panic (C80); the analysis, which would panic too, is not modelled there. *)
Definition loaded_search (c : chunk) (targets : list bytes) : list F :=
  match chunk_search hash fused c targets with Val l => l | _ => [] end.
(** A Rust string is UTF-8. *)
Definition text_of (b : bytes) : text := match utf8_decode b with Some t => t | None => [] end.
(** model.rs:149-154 and 176-183: what the analysis uses of struct Model and struct Index *)
Definition loaded_indexes {Date} (m : @StoreModel.model csmat Date) : list (text * index_at chunk) :=
  map (fun e => (text_of (fst e), mkIndex (i_sources (snd e)) (i_index (snd e)) (i_lines (snd e)) (i_bytes (snd e)))) (m_indexes m).

Variable tok : bytes -> bytes.
Variable open : source -> res (bool -> list item).
Variable err_text : option N -> text.
Variable drain : list (text * list source) -> list (text * list source).
(** model.rs:462-530, Model::report *)
Definition loaded_report {Date} (m : @StoreModel.model csmat Date) (target : list (res source)) : res (@ReportModel.report F) :=
  model_report above_threshold tok loaded_search open err_text drain (loaded_indexes m) target.
(** cli/main.rs:278-365, process_live *)
Definition loaded_live {Date} (m : @StoreModel.model csmat Date) (target : list (res source)) : res (list (@out_line F) * N * N) :=
  process_live above_threshold tok loaded_search open err_text (loaded_indexes m) target.
(** model.rs:280-287, 419-433: the values that Index::train and Model::train give, of which
    ReportModel.v has the batches only.  [times] are the creation and training times. *)
Definition stored_index (times : system_time * duration) (ix : ReportModel.index_of) : @StoreModel.index csmat :=
  StoreModel.mkIndex (fst times) (snd times) (ix_sources ix) (fold_left (chunk_add hash) (ix_batches ix) hashing_index_new) (ix_lines ix) (ix_bytes ix).
Definition stored_indexes (times : text -> system_time * duration) (m : ReportModel.model) : list (bytes * @StoreModel.index csmat) :=
  map (fun e => (utf8_encode (fst e), stored_index (times (fst e)) (snd e))) m.
End Saved.
