(** Model of the download cache (/repo/cache/src/cache.rs) and of its use in
    /repo/model/src/reader.rs and /repo/model/src/urls.rs, with LOGREDUCE_CACHE set.
    Definitions only.

    Files are inodes with names, so that a handle can outlive its name.  Not modelled: crashes of
    the machine (what a process wrote stays), missing rights. *)
From Coq Require Import String List NArith Bool.
From Verif Require Import Common FilesModel.
Import ListNotations.
Open Scope nat_scope.

(** ** Names *)
Section Names.
(** Sha256::digest in upper case hexadecimal, of the text of a url *)
Variable digest : text -> text.
(** cache.rs:18-20, filename::new *)
Definition new_name (prefix : string) (u : text) : text := lit prefix ++ digest u.
(** cache.rs:22-24, filename::httpdir *)
Definition httpdir_name (u : text) : text := new_name "0" u.
(** cache.rs:26-28, filename::http *)
Definition http_name (b u : text) : text := new_name "1" b ++ lit "/" ++ new_name "2" u.
(** cache.rs:30-32, filename::head_success *)
Definition success_name (b u : text) : text := new_name "1" b ++ lit "/" ++ new_name "3" u.
(** cache.rs:34-36, filename::head_failure *)
Definition failure_name (b u : text) : text := new_name "1" b ++ lit "/" ++ new_name "4" u.
End Names.

(** ** bincode, for a list of urls *)
(** An integer of eight bytes, little endian. *)
Fixpoint le_bytes (k : nat) (n : N) : bytes := match k with O => [] | S k => (n mod 256)%N :: le_bytes k (n / 256) end.
Fixpoint of_le (b : bytes) : N := match b with [] => 0%N | x :: r => (x + 256 * of_le r)%N end.
Definition take_exact (k : nat) (b : bytes) : option (bytes * bytes) :=
  if Nat.leb k (length b) then Some (firstn k b, skipn k b) else None.
Definition enc_u64 (n : nat) : bytes := le_bytes 8 (N.of_nat n).
Definition dec_u64 (b : bytes) : option (N * bytes) :=
  match take_exact 8 b with Some (x, r) => Some (of_le x, r) | None => None end.
Definition enc_url (u : text) : bytes := enc_u64 (length u) ++ u.
(** bincode::serialize_into of &[Url] *)
Definition enc_urls (l : list text) : bytes := enc_u64 (length l) ++ concat (map enc_url l).
Section Bincode.
(** Url::parse, and its text *)
Variable parse_url : text -> option text.
Definition dec_url (b : bytes) : option (text * bytes) :=
  match dec_u64 b with
  | Some (n, r) =>
    if (n <=? N.of_nat (length r))%N then
      match take_exact (N.to_nat n) r with
      | Some (u, r') => match parse_url u with Some u' => Some (u', r') | None => None end
      | None => None
      end
    else None
  | None => None
  end.
Fixpoint dec_many (k : nat) (b : bytes) : option (list text * bytes) :=
  match k with
  | O => Some ([], b)
  | S k =>
    match dec_url b with
    | Some (u, r) => match dec_many k r with Some (l, r') => Some (u :: l, r') | None => None end
    | None => None
    end
  end.
(** bincode::deserialize_from of Vec<Url>: each url takes at least eight bytes, so a count beyond
    the length of the file fails; what follows is ignored. *)
Definition dec_urls (b : bytes) : option (list text) :=
  match dec_u64 b with
  | Some (n, r) =>
    if (n <=? N.of_nat (length r))%N then match dec_many (N.to_nat n) r with Some (l, _) => Some l | None => None end else None
  | None => None
  end.
End Bincode.

(** ** Files *)
Record store := { dir : text -> option nat; inode : nat -> bytes; fresh : nat }.
Definition empty_store : store := {| dir := fun _ => None; inode := fun _ => []; fresh := 0 |}.
Definition set_inode (s : store) (i : nat) (b : bytes) : store :=
  {| dir := dir s; inode := fun j => if Nat.eqb j i then b else inode s j; fresh := fresh s |}.
Definition unlink (s : store) (n : text) : store :=
  {| dir := fun m => if eqb_list m n then None else dir s m; inode := inode s; fresh := fresh s |}.
(** cache.rs:117-124, Cache::get: is there a file? *)
Definition exists_ (s : store) (n : text) : bool := match dir s n with Some _ => true | None => false end.
(** File::create: truncates, or makes a new file; gives the inode. *)
Definition file_create (s : store) (n : text) : store * nat :=
  match dir s n with
  | Some i => (set_inode s i [], i)
  | None => ({| dir := fun m => if eqb_list m n then Some (fresh s) else dir s m;
                inode := fun j => if Nat.eqb j (fresh s) then [] else inode s j; fresh := S (fresh s) |}, fresh s)
  end.
(** cache.rs:127-137, Cache::create *)
Definition create (s : store) (n : text) : option (store * nat) := if exists_ s n then None else Some (file_create s n).
(** cache.rs:38-43, filename::drop *)
Definition drop (s : store) (n : text) : store := if exists_ s n then unlink s n else s.
(** Write of a file handle at its offset; a hole is filled with zeros. *)
Definition write_at (off : nat) (b old : bytes) : bytes :=
  firstn off (old ++ repeat 0%N off) ++ b ++ skipn (off + length b) old.

(** ** Readers *)
Section Cache.
Variable digest : text -> text.
Variable parse_url : text -> option text.
(** flate2: what GzEncoder passes to its file when [w] is written after [ws], and when it is
    dropped after [ws]; what GzDecoder delivers, and whether it ends without an error. *)
Variable enc_write : list bytes -> bytes -> bytes.
Variable enc_finish : list bytes -> bytes.
Variable gunzip : bytes -> bytes * bool.

(** reader.rs:40-47, DecompressReader: the readers of the cache *)
Inductive reader :=
| Gz (i : nat)                                       (* cache.rs:76-81 *)
| Cached (i : nat) (off : nat) (ws : list bytes)     (* cache.rs:141-144, CacheReader: file handle, chunks written *)
| Stuck.                                             (* a CacheReader whose file could not be written: nothing more will be *)
Record state := { files : store; readers : nat -> option reader }.
Definition set_reader (r : nat -> option reader) (h : nat) (x : option reader) : nat -> option reader :=
  fun k => if Nat.eqb k h then x else r k.
Definition init : state := {| files := empty_store; readers := fun _ => None |}.
(** What reading from [h] to its end gives: for a file of the cache. *)
Definition delivers (st : state) (h : nat) : option (bytes * bool) :=
  match readers st h with Some (Gz i) => Some (gunzip (inode (files st) i)) | _ => None end.
(** cache.rs:146-160, CacheReader::read; [remote] is what the server sends, [ok] whether the file
    can be written.  Gives what the caller sees, and what is given to the encoder. *)
Definition cached_read (remote : res bytes) (ok : bool) : res bytes * option bytes :=
  match remote with
  | Val w => if ok then (Val w, Some w) else (Fail (lit "write error"), None)
  | Fail e => (Fail e, None)
  | Panic => (Panic, None)
  end.
(** cache.rs:59-64, Cache::head *)
Definition head (s : store) (b u : text) : option bool :=
  if exists_ s (success_name digest b u) then Some true else if exists_ s (failure_name digest b u) then Some false else None.
(** cache.rs:66-73, Cache::head_set *)
Definition head_set (s : store) (b u : text) (r : bool) : option store :=
  match create s (if r then success_name digest b u else failure_name digest b u) with Some (s', _) => Some s' | None => None end.
(** cache.rs:91-97, Cache::httpdir_get *)
Definition httpdir_get (s : store) (u : text) : option (res (list text)) :=
  match dir s (httpdir_name digest u) with
  | Some i => Some (match dec_urls parse_url (inode s i) with Some l => Val l | None => Fail (lit "Failed to decode cached result") end)
  | None => None
  end.

(** What happens, as seen by the caller and by the server. *)
Inductive event :=
| EHit (b u : text) (h : nat)              (* from_url: from the cache *)
| EMiss (b u : text) (h : nat)             (* from_url: asks the server *)
| EMissFailed (b u : text)                 (* the same, and it fails *)
| ERead (h : nat) (remote seen : res bytes)
| EClose (h : nat)                         (* the reader is dropped *)
| ELost (h : nat)                          (* the same, and its last bytes cannot be written *)
| EDrop (b u : text)                       (* drop_url *)
| EHead (b u : text) (r : bool)            (* head_url: from the cache *)
| EHeadAsked (b u : text) (r : bool)       (* head_url: asks the server *)
| EHeadFailed (b u : text)
| EDirHit (u : text) (r : res (list text)) (* httpdir_iter: from the cache *)
| EDirListed (u : text) (l : list text)    (* httpdir_iter: asks the server *)
| EDirFailed (u : text)
| EDirTorn (u : text) (l : list text)      (* the same, and writing the list fails *)
| EDirDrop (u : text)
| ECrash.                                  (* the process ends without dropping its readers *)

Inductive step : state -> event -> state -> Prop :=
(* reader.rs:79-87 and cache.rs:76-81 *)
| SHit st b u h i : readers st h = None -> dir (files st) (http_name digest b u) = Some i ->
    step st (EHit b u h) {| files := files st; readers := set_reader (readers st) h (Some (Gz i)) |}
(* reader.rs:88-93 and cache.rs:84-90 *)
| SMiss st b u h s' i : readers st h = None -> exists_ (files st) (http_name digest b u) = false ->
    create (files st) (http_name digest b u) = Some (s', i) ->
    step st (EMiss b u h) {| files := s'; readers := set_reader (readers st) h (Some (Cached i 0 [])) |}
| SMissFailed st b u : exists_ (files st) (http_name digest b u) = false -> step st (EMissFailed b u) st
| SRead st h i off ws remote w : readers st h = Some (Cached i off ws) -> snd (cached_read remote true) = Some w ->
    step st (ERead h remote (fst (cached_read remote true)))
      {| files := set_inode (files st) i (write_at off (enc_write ws w) (inode (files st) i));
         readers := set_reader (readers st) h (Some (Cached i (off + length (enc_write ws w)) (ws ++ [w]))) |}
| SReadFailed st h i off ws remote : readers st h = Some (Cached i off ws) -> snd (cached_read remote true) = None ->
    step st (ERead h remote (fst (cached_read remote true))) st
(* only a part of the bytes could be written *)
| SWriteFailed st h i off ws w k : readers st h = Some (Cached i off ws) -> k < length (enc_write ws w) ->
    step st (ERead h (Val w) (fst (cached_read (Val w) false)))
      {| files := set_inode (files st) i (write_at off (firstn k (enc_write ws w)) (inode (files st) i));
         readers := set_reader (readers st) h (Some Stuck) |}
(* the drop of GzEncoder; its errors are ignored *)
| SClose st h i off ws : readers st h = Some (Cached i off ws) ->
    step st (EClose h) {| files := set_inode (files st) i (write_at off (enc_finish ws) (inode (files st) i)); readers := set_reader (readers st) h None |}
| SLost st h i off ws k : readers st h = Some (Cached i off ws) -> k < length (enc_finish ws) ->
    step st (ELost h) {| files := set_inode (files st) i (write_at off (firstn k (enc_finish ws)) (inode (files st) i)); readers := set_reader (readers st) h None |}
| SCloseOther st h x : readers st h = Some x -> (forall i off ws, x <> Cached i off ws) ->
    step st (EClose h) {| files := files st; readers := set_reader (readers st) h None |}
(* cache.rs:106-108 *)
| SDrop st b u : step st (EDrop b u) {| files := drop (files st) (http_name digest b u); readers := readers st |}
(* reader.rs:60-75 *)
| SHead st b u r : head (files st) b u = Some r -> step st (EHead b u r) st
| SHeadAsked st b u r s' : head (files st) b u = None -> head_set (files st) b u r = Some s' ->
    step st (EHeadAsked b u r) {| files := s'; readers := readers st |}
| SHeadFailed st b u : head (files st) b u = None -> step st (EHeadFailed b u) st
(* urls.rs:38-52, with cache.rs:91-103 *)
| SDirHit st u r : httpdir_get (files st) u = Some r -> step st (EDirHit u r) st
| SDirListed st u l s' i : httpdir_get (files st) u = None -> create (files st) (httpdir_name digest u) = Some (s', i) ->
    step st (EDirListed u l) {| files := set_inode s' i (enc_urls l); readers := readers st |}
| SDirFailed st u : httpdir_get (files st) u = None -> step st (EDirFailed u) st
| SDirTorn st u l s' i k : httpdir_get (files st) u = None -> create (files st) (httpdir_name digest u) = Some (s', i) -> k < length (enc_urls l) ->
    step st (EDirTorn u l) {| files := set_inode s' i (firstn k (enc_urls l)); readers := readers st |}
(* cache.rs:111-113 *)
| SDirDrop st u : step st (EDirDrop u) {| files := drop (files st) (httpdir_name digest u); readers := readers st |}
| SCrash st : step st ECrash {| files := files st; readers := fun _ => None |}.

Inductive exec : state -> list event -> state -> Prop :=
| ExecNow st : exec st [] st
| ExecStep st e st' tr st'' : step st e st' -> exec st' tr st'' -> exec st (e :: tr) st''.

(** With other processes on the same files: each looks whether a file exists and creates it in two
    steps (cache.rs:127-136), so a file can be created that exists by now. *)
Inductive shared_step : state -> state -> Prop :=
| SharedOwn st e st' : step st e st' -> shared_step st st'
| SharedHead st b u r : shared_step st {| files := fst (file_create (files st) (if r : bool then success_name digest b u else failure_name digest b u)); readers := readers st |}
| SharedMiss st b u h s' i : readers st h = None -> file_create (files st) (http_name digest b u) = (s', i) ->
    shared_step st {| files := s'; readers := set_reader (readers st) h (Some (Cached i 0 [])) |}.
End Cache.
