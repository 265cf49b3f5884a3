(** Words of the properties of the cache: about events, not about files. *)
From Coq Require Import String List NArith Bool.
From Verif Require Import Common FilesModel CacheModel.
Import ListNotations.
Open Scope nat_scope.

(** A digest has 64 characters: Sha256 in hexadecimal. *)
Definition fixed_size (digest : text -> text) : Prop := forall u, length (digest u) = 64.

Section Codec.
Variable enc_write : list bytes -> bytes -> bytes.
Variable enc_finish : list bytes -> bytes.
Variable gunzip : bytes -> bytes * bool.
(** What is in the file after some writes; after the drop of the encoder. *)
Fixpoint pieces_from (before ws : list bytes) : bytes :=
  match ws with [] => [] | w :: r => enc_write before w ++ pieces_from (before ++ [w]) r end.
Definition pieces (ws : list bytes) : bytes := pieces_from [] ws.
Definition archive (ws : list bytes) : bytes := pieces ws ++ enc_finish ws.
(** gzip: an archive gives what was written, whatever the sizes of the writes; a file that lacks the
    end of an archive gives an error, after some of it. *)
Definition gzip_codec : Prop :=
  (forall ws, gunzip (archive ws) = (concat ws, true)) /\
  (forall ws, enc_finish ws <> []) /\
  (forall ws p q, archive ws = p ++ q -> q <> [] -> snd (gunzip p) = false /\ exists r, concat ws = fst (gunzip p) ++ r).
End Codec.

(** The bytes that the caller of the reader [h] saw, read by read. *)
Definition chunks (h : nat) (tr : list event) : list bytes :=
  flat_map (fun e => match e with ERead k _ (Val w) => if Nat.eqb k h then [w] else [] | _ => [] end) tr.
(** The reader [h] is not dropped by [e]. *)
Definition keeps (h : nat) (e : event) : Prop := match e with EClose k | ELost k => k <> h | ECrash => False | _ => True end.
(** What the server sent to [h] could be saved. *)
Definition saved (h : nat) (e : event) : Prop := match e with ERead k (Val w) seen => k = h -> seen = Val w | _ => True end.
Section Names.
Variable digest : text -> text.
(** The entry of a url is not dropped by [e]. *)
Definition undropped (b u : text) (e : event) : Prop :=
  match e with EDrop b' u' => digest b' <> digest b \/ digest u' <> digest u | _ => True end.
Definition dir_undropped (u : text) (e : event) : Prop := match e with EDirDrop u' => digest u' <> digest u | _ => True end.
End Names.
(** In [tr] a reader of [b], [u] asked the server, its caller saw [ws], then it was dropped. *)
Definition wrote (tr : list event) (b u : text) (ws : list bytes) : Prop :=
  exists tr1 h tr2 tr3, tr = tr1 ++ EMiss b u h :: tr2 ++ EClose h :: tr3 /\ Forall (keeps h) tr2 /\ chunks h tr2 = ws.
(** A list of urls that bincode can represent. *)
Definition representable (parse_url : text -> option text) (l : list text) : Prop :=
  (N.of_nat (length l) < 2 ^ 64)%N /\ Forall (fun u => (N.of_nat (length u) < 2 ^ 64)%N /\ parse_url u = Some u) l.
