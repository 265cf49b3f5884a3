(** Words of the properties of saved models and reports. *)
From Coq Require Import String List NArith ZArith Bool.
From Verif Require Import Common FilesModel CliModel StoreModel.
Import ListNotations.
Open Scope N_scope.

(** ** The values that a program can hold *)
Definition word64 (n : N) : Prop := n < 2 ^ 64.
Definition word32 (n : N) : Prop := n < 2 ^ 32.
Definition rust_string (s : bytes) : Prop := utf8_decode s <> None /\ N.of_nat (length s) <= 2 ^ 63 - 1.
Definition rust_path (s : bytes) : Prop := N.of_nat (length s) <= 2 ^ 63 - 1.
Definition rust_vec {A} (ok : A -> Prop) (l : list A) : Prop := word64 (N.of_nat (length l)) /\ Forall ok l.
Definition rust_map {V} (ok : V -> Prop) (l : list (bytes * V)) : Prop :=
  word64 (N.of_nat (length l)) /\ NoDup (map fst l) /\ Forall (fun e => rust_string (fst e) /\ ok (snd e)) l.
Definition rust_duration (d : duration) : Prop := word64 (fst d) /\ snd d < 1000000000.
Definition rust_time (t : system_time) : Prop := (- 2 ^ 63 <= fst t < 2 ^ 63)%Z /\ snd t < 1000000000.

Section Values.
Context {Matrix Date : Type}.
(** A matrix that its codec can save. *)
Variable ok_matrix : Matrix -> Prop.
Variable show_date : Date -> bytes.
Variable parse_date : bytes -> option Date.
Variable parse_url : bytes -> option bytes.

(** The text of a url is parsed to the same url; the same for a date. *)
Definition rust_url (u : bytes) : Prop := rust_string u /\ parse_url u = Some u.
Definition rust_date (d : Date) : Prop := rust_string (show_date d) /\ parse_date (show_date d) = Some d.
Definition rust_build (b : build) : Prop :=
  rust_url (b_api b) /\ rust_string (b_uuid b) /\ rust_string (b_job b) /\ rust_string (b_project b) /\ rust_string (b_branch b) /\
  rust_string (b_result b) /\ rust_string (b_pipeline b) /\ rust_url (b_log_url b) /\ rust_url (b_ref_url b) /\ rust_date (b_end b) /\ word64 (b_change b).
Definition rust_source (s : source) : Prop :=
  match s with Local n p => word64 n /\ rust_path p | Remote n u => word64 n /\ rust_url u end.
Definition rust_content (c : content build) : Prop :=
  match c with CFile s => rust_source s | CDirectory s => rust_source s | CZuul b => rust_build b end.
Definition rust_chunk (c : @chunk_index Matrix) : Prop := match c with HashingTrick l => rust_vec ok_matrix l | Noop => True end.
Definition rust_index (i : @index Matrix) : Prop :=
  rust_time (i_created i) /\ rust_duration (i_train i) /\ rust_vec rust_source (i_sources i) /\ rust_chunk (i_index i) /\ word64 (i_lines i) /\ word64 (i_bytes i).
Definition rust_model (m : @model Matrix Date) : Prop :=
  rust_time (m_created m) /\ rust_vec rust_content (m_baselines m) /\ rust_map rust_index (m_indexes m).
Definition rust_anomaly (a : anomaly) : Prop := word32 (a_distance a) /\ word64 (a_pos a) /\ rust_string (a_line a).
Definition rust_context (c : anomaly_context) : Prop := rust_vec rust_string (c_before c) /\ rust_anomaly (c_anomaly c) /\ rust_vec rust_string (c_after c).
Definition rust_log (l : log_report) : Prop :=
  rust_duration (l_test l) /\ word64 (l_lines l) /\ word64 (l_bytes l) /\ rust_vec rust_context (l_anomalies l) /\ rust_source (l_source l) /\ rust_string (l_index l).
Definition rust_index_report (i : index_report) : Prop := rust_duration (ir_train i) /\ rust_vec rust_source (ir_sources i).
Definition rust_report (r : @report Date) : Prop :=
  rust_time (r_created r) /\ rust_duration (r_run r) /\ rust_content (r_target r) /\ rust_vec rust_content (r_baselines r) /\ rust_vec rust_log (r_logs r) /\
  rust_map rust_index_report (r_indexes r) /\ rust_vec (rust_vec rust_source) (r_index_errors r) /\
  rust_vec (fun e => rust_source (fst e) /\ rust_string (snd e)) (r_read_errors r) /\ word64 (r_lines r) /\ word64 (r_anomalies r).
(** What bincode needs of the matrices: their codec is as good as the others. *)
Definition good_matrices (c : codec Matrix) : Prop :=
  (forall m r, ok_matrix m -> snd (enc c m) = true /\ dec c (fst (enc c m) ++ r) = Val (m, r)) /\
  (forall m p q, ok_matrix m -> fst (enc c m) = p ++ q -> q <> [] -> exists e, dec c p = Fail e) /\
  (exists e, dec c [] = Fail e) /\
  (forall b m r, dec c b = Val (m, r) -> exists p, b = p ++ r /\ p <> []) /\
  (forall b m r, Forall (fun x => x < 256) b -> dec c b = Val (m, r) -> ok_matrix m).
(** Urls and dates that were read are printed as a text that is read again. *)
Definition good_urls : Prop := forall u v, parse_url u = Some v -> rust_url v.
Definition good_dates : Prop := forall s d, parse_date s = Some d -> rust_date d.
End Values.

(** ** What cannot be saved *)
Section Saveable.
Context {Matrix Date : Type}.
Definition source_paths (s : source) : list bytes := match s with Local _ p => [p] | Remote _ _ => [] end.
Definition content_paths (c : content (@build Date)) : list bytes :=
  match c with CFile s => source_paths s | CDirectory s => source_paths s | CZuul _ => [] end.
Definition unicode (p : bytes) : Prop := utf8_decode p <> None.
Definition since_epoch (t : system_time) : Prop := (0 <= fst t)%Z.
(** The local paths that a report names; those that a model names. *)
Definition report_paths (r : @report Date) : list bytes :=
  content_paths (r_target r) ++ flat_map content_paths (r_baselines r) ++ flat_map (fun l => source_paths (l_source l)) (r_logs r) ++
  flat_map (fun e => flat_map source_paths (ir_sources (snd e))) (r_indexes r) ++ flat_map (flat_map source_paths) (r_index_errors r) ++
  flat_map (fun e => source_paths (fst e)) (r_read_errors r).
Definition model_paths (m : @model Matrix Date) : list bytes :=
  flat_map content_paths (m_baselines m) ++ flat_map (fun e => flat_map source_paths (i_sources (snd e))) (m_indexes m).
Definition saveable_report (r : @report Date) : Prop := since_epoch (r_created r) /\ Forall unicode (report_paths r).
Definition saveable_model (m : @model Matrix Date) : Prop :=
  since_epoch (m_created m) /\ Forall (fun e => since_epoch (i_created (snd e))) (m_indexes m) /\ Forall unicode (model_paths m).
End Saveable.

