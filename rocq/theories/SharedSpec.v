(** Words of the properties of a cache that several processes share: C100. *)
From Coq Require Import String List NArith Bool.
From Verif Require Import Common FilesModel CacheModel CacheSpec SharedModel.
Import ListNotations.
Open Scope nat_scope.

(** What the server sent to the reader [h], read by read. *)
Definition sent (h : nat) (tr : list action) : list bytes :=
  flat_map (fun a => match a with One (ERead k (Val w) _) => if Nat.eqb k h then [w] else [] | _ => [] end) tr.
(** The reader [h] is still there after [a]. *)
Definition stays (h : nat) (a : action) : Prop := match a with One e => keeps h e | End gone => gone h = false end.
(** What the server sent to [h] could be saved. *)
Definition all_saved (h : nat) (a : action) : Prop := match a with One e => saved h e | End _ => True end.

(** Gzip gives the same archive for the same bytes, whatever the sizes of the writes. *)
Definition steady (enc_write : list bytes -> bytes -> bytes) (enc_finish : list bytes -> bytes) : Prop :=
  forall ws ws', concat ws = concat ws' -> archive enc_write enc_finish ws = archive enc_write enc_finish ws'.

Section Url.
Variable digest : text -> text.
Variables b u : text.
(** The entry of another url with the same digests is the same one. *)
Definition asks (a : action) (h : nat) : Prop := exists b' u', a = One (EMiss b' u' h) /\ digest b' = digest b /\ digest u' = digest u.
(** In [tr], which ends now, the reader [h] asked the server for the url; since then [q] happened and it is still there. *)
Definition downloading (tr : list action) (h : nat) (q : list action) : Prop :=
  exists p a, tr = p ++ a :: q /\ asks a h /\ Forall (stays h) q.
(** The server sends the content [c], or the beginning of it, to every reader of the url. *)
Definition serves (c : bytes) (tr : list action) : Prop :=
  forall p r h q, tr = p ++ r -> downloading p h q -> exists rest, concat (sent h q) ++ rest = c.
(** No reader of the url is dropped before it was sent all of the content. *)
Definition read_to_end (c : bytes) (tr : list action) : Prop :=
  forall p r h q e, tr = p ++ One e :: r -> downloading p h q -> e = EClose h \/ e = ELost h -> concat (sent h q) = c.
(** The entry of the url is not removed. *)
Definition not_removed (a : action) : Prop := match a with One e => undropped digest b u e | End _ => True end.
End Url.
