(** Several processes that use one cache of downloads (/repo/cache/src/cache.rs).  Definitions only.

    Cache::create (cache.rs:127-137) looks whether a file exists and then creates it: between the two
    another process can create it, so a file that exists can be created again, which makes it empty.
    Handles of the processes are distinct numbers.  A list of a directory is written in one step. *)
From Coq Require Import String List NArith Bool.
From Verif Require Import Common FilesModel CacheModel.
Import ListNotations.
Open Scope nat_scope.

(** What happens: something in one of the processes, or processes end without dropping their readers. *)
Inductive action := One (e : event) | End (gone : nat -> bool).

Section Shared.
Variable digest : text -> text.
Variable parse_url : text -> option text.
Variable enc_write : list bytes -> bytes -> bytes.
Variable enc_finish : list bytes -> bytes.

Inductive shared : state -> action -> state -> Prop :=
(* as with one process: CacheModel.v *)
| SharedDoes st e st' : step digest parse_url enc_write enc_finish st e st' -> shared st (One e) st'
(* cache.rs:84-90 and 127-137: there was no file when the process looked *)
| SharedMisses st b u h s' i : readers st h = None -> file_create (files st) (http_name digest b u) = (s', i) ->
    shared st (One (EMiss b u h)) {| files := s'; readers := set_reader (readers st) h (Some (Cached i 0 [])) |}
(* cache.rs:66-73 and 127-137, in the same way *)
| SharedHeads st b u r s' i : file_create (files st) (if r : bool then success_name digest b u else failure_name digest b u) = (s', i) ->
    shared st (One (EHeadAsked b u r)) {| files := s'; readers := readers st |}
(* cache.rs:100-103 and 127-137, in the same way *)
| SharedLists st u l s' i : file_create (files st) (httpdir_name digest u) = (s', i) ->
    shared st (One (EDirListed u l)) {| files := set_inode s' i (enc_urls l); readers := readers st |}
| SharedEnds st gone : shared st (End gone) {| files := files st; readers := fun h => if gone h : bool then None else readers st h |}.

Inductive shared_exec : state -> list action -> state -> Prop :=
| SharedNow st : shared_exec st [] st
| SharedThen st a st' tr st'' : shared st a st' -> shared_exec st' tr st'' -> shared_exec st (a :: tr) st''.
End Shared.
