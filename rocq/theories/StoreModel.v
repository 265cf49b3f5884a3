(** Model of the saving and the loading of models and reports (/repo/model/src/model.rs), of the
    types that they save, and of the command that renders a saved report
    (/repo/report/src/render.rs).  Definitions only.

    The files are modelled byte by byte: bincode 1.3 (integers of fixed size, little endian; a
    length of eight bytes before a text or a sequence; a tag of four bytes before a variant; the
    fields of a struct one after the other), inside gzip, which is a parameter with the laws of
    CacheSpec.v.  A Rust String is the list of its bytes, which are UTF-8; a hash map is the list of
    its entries in the order of its iteration. *)
From Coq Require Import String List NArith ZArith Bool.
From Verif Require Import Common FilesModel CliModel CacheModel.
Import ListNotations.
Open Scope N_scope.

(** ** bincode *)
(** What derive(Serialize) and derive(Deserialize) give for a type.  The encoder gives what it has
    written, and whether it succeeded; the decoder gives the value and what it has not read. *)
Record codec (A : Type) := mkCodec { enc : A -> bytes * bool; dec : bytes -> res (A * bytes) }.
Arguments mkCodec {A}.
Arguments enc {A}.
Arguments dec {A}.

Definition bind {A B} (r : res (A * bytes)) (k : A -> bytes -> res (B * bytes)) : res (B * bytes) :=
  match r with Val (x, rest) => k x rest | Fail e => Fail e | Panic => Panic end.
Definition and_then (a : bytes * bool) (b : bytes * bool) : bytes * bool :=
  if snd a then (fst a ++ fst b, snd b) else a.

(** Read::read_exact of [n] bytes *)
Definition read_exact (n : N) (b : bytes) : res (bytes * bytes) :=
  if n <=? N.of_nat (length b) then Val (firstn (N.to_nat n) b, skipn (N.to_nat n) b) else Fail (lit "unexpected end of file").
(** An integer of [k] bytes: u32, u64, usize, and f32 by its bits. *)
Definition int (k : nat) : codec N :=
  mkCodec (fun n => (le_bytes k n, true)) (fun b => bind (read_exact (N.of_nat k) b) (fun x r => Val (of_le x, r))).
Definition u32 := int 4.
Definition u64 := int 8.
(** A type that is saved as another one: [to] fails before anything is written. *)
Definition via {A B} (to : A -> option B) (from : B -> option A) (c : codec B) : codec A :=
  mkCodec (fun x => match to x with Some y => enc c y | None => ([], false) end)
          (fun b => bind (dec c b) (fun y r => match from y with Some x => Val (x, r) | None => Fail (lit "invalid value") end)).
Definition iso {A B} (to : A -> B) (from : B -> A) (c : codec B) : codec A := via (fun x => Some (to x)) (fun y => Some (from y)) c.
Definition unit_codec : codec unit := mkCodec (fun _ => ([], true)) (fun b => Val (tt, b)).
Definition pair {A B} (a : codec A) (b : codec B) : codec (A * B) :=
  mkCodec (fun p => and_then (enc a (fst p)) (enc b (snd p)))
          (fun i => bind (dec a i) (fun x r => bind (dec b r) (fun y r' => Val ((x, y), r')))).
(** A buffer of bytes: the reader makes room for the announced length before it reads
    (Vec::resize), which panics beyond isize::MAX.  A lack of memory is not modelled. *)
Definition isize_max : N := 2 ^ 63 - 1.
Definition buffer : codec bytes :=
  mkCodec (fun s => (le_bytes 8 (N.of_nat (length s)) ++ s, true))
          (fun b => bind (dec u64 b) (fun n r => if isize_max <? n then Panic else read_exact n r)).
Definition is_utf8 (s : bytes) : bool := match utf8_decode s with Some _ => true | None => false end.
(** String::serialize and deserialize *)
Definition string_codec : codec bytes := via Some (fun s => if is_utf8 s then Some s else None) buffer.
(** PathBuf: a path that is not unicode cannot be saved. *)
Definition path_codec : codec bytes := via (fun p => if is_utf8 p then Some p else None) Some string_codec.
(** A sequence of [n] elements.  Each of them takes a byte or more (see [StoreProofs.enough]), so
    that [fuel], the bytes left, is no limit. *)
Fixpoint dec_seq {A} (c : codec A) (fuel : nat) (n : N) (b : bytes) : res (list A * bytes) :=
  if n =? 0 then Val ([], b)
  else match fuel with
  | O => Fail (lit "unexpected end of file")
  | S fuel => bind (dec c b) (fun x r => bind (dec_seq c fuel (n - 1) r) (fun l r' => Val (x :: l, r')))
  end.
Fixpoint enc_seq {A} (c : codec A) (l : list A) : bytes * bool :=
  match l with [] => ([], true) | x :: l => and_then (enc c x) (enc_seq c l) end.
Definition vec {A} (c : codec A) : codec (list A) :=
  mkCodec (fun l => and_then (enc u64 (N.of_nat (length l))) (enc_seq c l))
          (fun b => bind (dec u64 b) (fun n r => dec_seq c (S (length r)) n r)).
(** HashMap::insert *)
Fixpoint insert {V} (k : bytes) (v : V) (m : list (bytes * V)) : list (bytes * V) :=
  match m with
  | [] => [(k, v)]
  | (k', v') :: m => if eqb_list k k' then (k', v) :: m else (k', v') :: insert k v m
  end.
Definition from_entries {V} (l : list (bytes * V)) : list (bytes * V) := fold_left (fun m e => insert (fst e) (snd e) m) l [].
(** HashMap<String, V>: an entry that comes later replaces one with the same key. *)
Definition hashmap {V} (c : codec V) : codec (list (bytes * V)) :=
  via Some (fun l => Some (from_entries l)) (vec (pair string_codec c)).
(** An enum: the number of the variant, then its fields.  [variants] save the values of their
    variant only. *)
Definition enum {A} (tag : A -> nat) (variants : list (codec A)) : codec A :=
  mkCodec (fun x => match nth_error variants (tag x) with
                    | Some c => and_then (enc u32 (N.of_nat (tag x))) (enc c x)
                    | None => ([], false)
                    end)
          (fun b => bind (dec u32 b) (fun n r =>
             if n <? N.of_nat (length variants)
             then match nth_error variants (N.to_nat n) with Some c => dec c r | None => Fail (lit "invalid value") end
             else Fail (lit "invalid value"))).

(** ** Times *)
(** std::time::Duration: seconds and nanoseconds *)
Definition duration : Type := N * N.
(** std::time::SystemTime: seconds since the epoch, which can be negative, and nanoseconds *)
Definition system_time : Type := Z * N.
Definition giga : N := 1000000000.
(** serde: the nanoseconds are carried over, and the sum is checked. *)
Definition to_duration (p : N * N) : option duration :=
  let (s, n) := p in if s + n / giga <? 2 ^ 64 then Some (s + n / giga, n mod giga) else None.
Definition duration_codec : codec duration := via Some to_duration (pair u64 u32).
(** serde: a time before the epoch cannot be saved; UNIX_EPOCH.checked_add when it is loaded. *)
Definition time_codec : codec system_time :=
  via (fun t => if (0 <=? fst t)%Z then Some (Z.to_N (fst t), snd t) else None)
      (fun d => if fst d <? 2 ^ 63 then Some (Z.of_N (fst d), snd d) else None) duration_codec.

(** ** The types of model.rs and zuul.rs *)
Section Types.
(** logreduce_index::FeaturesMatrix (sprs) and chrono::DateTime<Utc> *)
Context {Matrix Date : Type}.
Variable matrix : codec Matrix.
Variable show_date : Date -> bytes.
Variable parse_date : bytes -> option Date.
(** Url::parse, and the text of the url *)
Variable parse_url : bytes -> option bytes.

Definition url_codec : codec bytes := via Some parse_url string_codec.
Definition date_codec : codec Date := via (fun d => Some (show_date d)) parse_date string_codec.

(** zuul.rs:13-26, struct Build *)
Record build := mkBuild { b_api : bytes; b_uuid : bytes; b_job : bytes; b_project : bytes; b_branch : bytes; b_result : bytes;
  b_pipeline : bytes; b_log_url : bytes; b_ref_url : bytes; b_end : Date; b_change : N }.
Definition build_codec : codec build :=
  iso (fun b => (b_api b, (b_uuid b, (b_job b, (b_project b, (b_branch b, (b_result b, (b_pipeline b, (b_log_url b, (b_ref_url b, (b_end b, b_change b)))))))))))
      (fun '(a, (u, (j, (p, (br, (re, (pi, (l, (rf, (e, c)))))))))) => mkBuild a u j p br re pi l rf e c)
      (pair url_codec (pair string_codec (pair string_codec (pair string_codec (pair string_codec (pair string_codec (pair string_codec
        (pair url_codec (pair url_codec (pair date_codec u64)))))))))).
(** model.rs:76-80, enum Source *)
Definition source_tag (s : source) : nat := match s with Local _ _ => 0 | Remote _ _ => 1 end.
Definition source_codec : codec source := enum source_tag
  [ via (fun s => match s with Local n p => Some (n, p) | _ => None end) (fun '(n, p) => Some (Local n p)) (pair u64 path_codec);
    via (fun s => match s with Remote n u => Some (n, u) | _ => None end) (fun '(n, u) => Some (Remote n u)) (pair u64 url_codec) ].
(** model.rs:57-63, enum Content *)
Definition content_tag (c : content build) : nat := match c with CFile _ => 0 | CDirectory _ => 1 | CZuul _ => 2 end.
Definition content_codec : codec (content build) := enum content_tag
  [ via (fun c => match c with CFile s => Some s | _ => None end) (fun s => Some (CFile s)) source_codec;
    via (fun c => match c with CDirectory s => Some s | _ => None end) (fun s => Some (CDirectory s)) source_codec;
    via (fun c => match c with CZuul b => Some b | _ => None end) (fun b => Some (CZuul b)) build_codec ].
(** model.rs:558-562 and 588-594, enum ChunkIndex and struct HashingIndex *)
Inductive chunk_index := HashingTrick (baselines : list Matrix) | Noop.
Definition chunk_tag (c : chunk_index) : nat := match c with HashingTrick _ => 0 | Noop => 1 end.
Definition chunk_codec : codec chunk_index := enum chunk_tag
  [ via (fun c => match c with HashingTrick l => Some l | _ => None end) (fun l => Some (HashingTrick l)) (vec matrix);
    via (fun c => match c with Noop => Some tt | _ => None end) (fun _ => Some Noop) unit_codec ].
(** model.rs:175-183, struct Index *)
Record index := mkIndex { i_created : system_time; i_train : duration; i_sources : list source; i_index : chunk_index; i_lines : N; i_bytes : N }.
Definition index_codec : codec index :=
  iso (fun i => (i_created i, (i_train i, (i_sources i, (i_index i, (i_lines i, i_bytes i))))))
      (fun '(c, (t, (s, (x, (l, b))))) => mkIndex c t s x l b)
      (pair time_codec (pair duration_codec (pair (vec source_codec) (pair chunk_codec (pair u64 u64))))).
(** model.rs:149-154, struct Model; IndexName is a String (model.rs:156-158). *)
Record model := mkModel { m_created : system_time; m_baselines : list (content build); m_indexes : list (bytes * index) }.
Definition model_codec : codec model :=
  iso (fun m => (m_created m, (m_baselines m, m_indexes m))) (fun '(c, (b, i)) => mkModel c b i)
      (pair time_codec (pair (vec content_codec) (hashmap index_codec))).
(** model.rs:185-190, struct Anomaly; the distance is the bits of an f32. *)
Record anomaly := mkAnomaly { a_distance : N; a_pos : N; a_line : bytes }.
Definition anomaly_codec : codec anomaly :=
  iso (fun a => (a_distance a, (a_pos a, a_line a))) (fun '(d, (p, l)) => mkAnomaly d p l) (pair u32 (pair u64 string_codec)).
(** model.rs:192-197, struct AnomalyContext *)
Record anomaly_context := mkContext { c_before : list bytes; c_anomaly : anomaly; c_after : list bytes }.
Definition context_codec : codec anomaly_context :=
  iso (fun c => (c_before c, (c_anomaly c, c_after c))) (fun '(b, (a, f)) => mkContext b a f) (pair (vec string_codec) (pair anomaly_codec (vec string_codec))).
(** model.rs:199-207, struct LogReport *)
Record log_report := mkLogReport { l_test : duration; l_lines : N; l_bytes : N; l_anomalies : list anomaly_context; l_source : source; l_index : bytes }.
Definition log_report_codec : codec log_report :=
  iso (fun l => (l_test l, (l_lines l, (l_bytes l, (l_anomalies l, (l_source l, l_index l))))))
      (fun '(t, (n, (b, (a, (s, i))))) => mkLogReport t n b a s i)
      (pair duration_codec (pair u64 (pair u64 (pair (vec context_codec) (pair source_codec string_codec))))).
(** model.rs:209-213, struct IndexReport *)
Record index_report := mkIndexReport { ir_train : duration; ir_sources : list source }.
Definition index_report_codec : codec index_report :=
  iso (fun i => (ir_train i, ir_sources i)) (fun '(t, s) => mkIndexReport t s) (pair duration_codec (vec source_codec)).
(** model.rs:224-236, struct Report *)
Record report := mkReport { r_created : system_time; r_run : duration; r_target : content build; r_baselines : list (content build);
  r_logs : list log_report; r_indexes : list (bytes * index_report); r_index_errors : list (list source);
  r_read_errors : list (source * bytes); r_lines : N; r_anomalies : N }.
Definition report_codec : codec report :=
  iso (fun r => (r_created r, (r_run r, (r_target r, (r_baselines r, (r_logs r, (r_indexes r, (r_index_errors r, (r_read_errors r, (r_lines r, r_anomalies r))))))))))
      (fun '(c, (t, (g, (b, (l, (i, (ie, (re, (n, a))))))))) => mkReport c t g b l i ie re n a)
      (pair time_codec (pair duration_codec (pair content_codec (pair (vec content_codec) (pair (vec log_report_codec)
        (pair (hashmap index_report_codec) (pair (vec (vec source_codec)) (pair (vec (pair source_codec string_codec)) (pair u64 u64))))))))).
End Types.

(** ** Files *)
Section Files.
(** flate2, see CacheModel.v and CacheSpec.v: what a write of an encoder adds to its file, what its
    drop adds; what a decoder gives, and whether it reached the end of an archive *)
Variable enc_write : list bytes -> bytes -> bytes.
Variable enc_finish : list bytes -> bytes.
Variable gunzip : bytes -> bytes * bool.
Context {A : Type}.
Variable c : codec A.

(** What an encoder that took [ws] has given its file, once it is dropped. *)
Fixpoint written_from (before ws : list bytes) : bytes :=
  match ws with [] => [] | w :: r => enc_write before w ++ written_from (before ++ [w]) r end.
Definition gzip (ws : list bytes) : bytes := written_from [] ws ++ enc_finish ws.

(** model.rs:250-255 and 435-441, Report::load and Model::load: bincode stops reading with the last
    byte that it needs, so that a failure behind it goes unnoticed. *)
Definition load (file : option bytes) : res A :=
  match file with
  | None => Fail (lit "Can't open file")
  | Some f => match dec c (fst (gunzip f)) with Val (x, _) => Val x | Fail _ => Fail (lit "Can't load") | Panic => Panic end
  end.

(** model.rs:239-248 and 443-453, Report::save and Model::save: what the call can do to the file at
    its path, and its result, or None if the process ended meanwhile.
    - The encoder takes some bytes [ws] in writes of any sizes: at most what bincode writes.
    - What it gives to its file can lack the end, because the process ended, because a write failed
      (then it has not taken everything), or because the write of its drop failed, which is ignored.
    - File::create empties the file. *)
Inductive save (x : A) (before : option bytes) : option (res unit) -> option bytes -> Prop :=
| NotStarted : save x before None before
| NotCreated : save x before (Some (Fail (lit "Can't create file"))) before
| Ended ws rest f lost : concat ws ++ rest = fst (enc c x) -> f ++ lost = gzip ws -> save x before None (Some f)
| NotWritten ws rest f lost : concat ws ++ rest = fst (enc c x) -> rest <> [] -> f ++ lost = gzip ws ->
    save x before (Some (Fail (lit "Can't save"))) (Some f)
| NotEncoded ws f lost : concat ws = fst (enc c x) -> snd (enc c x) = false -> f ++ lost = gzip ws ->
    save x before (Some (Fail (lit "Can't save"))) (Some f)
| Written ws f lost : concat ws = fst (enc c x) -> snd (enc c x) = true -> f ++ lost = gzip ws ->
    save x before (Some (Val tt)) (Some f).
(** Saves to the same path, one after the other. *)
Inductive saves (before : option bytes) : list (A * option (res unit)) -> option bytes -> Prop :=
| NoSave : saves before [] before
| MoreSave h f x o f' : saves before h f -> save x f o f' -> saves before (h ++ [(x, o)]) f'.
End Files.
