(** What crawling means, without threads, queue or channel. *)
From Coq Require Import String List NArith Bool.
From Verif Require Import Common FilesModel CrawlModel.
Import ListNotations.
Open Scope nat_scope.

(** ** Links of a page *)
(** [link] is a link of [page]: it is in the page, between quotes, as the target of an anchor. *)
Definition link_starts : text := lit "/\ABCDEFGHIJKLMNOPQRSTUVWXYZabcdefghijklmnopqrstuvwxyz0123456789".
Definition link_ok (link : text) : Prop :=
  exists c d r, link = c :: d :: r /\ In c link_starts /\ ~ In 34%N link.
Definition has_link (page link : text) : Prop :=
  link_ok link /\ exists before after, page = before ++ lit "<a href=" ++ [34%N] ++ link ++ [34%N] ++ lit ">" ++ after.
(** [link] is a link of [page], at the place [i]. *)
Definition link_at (page : text) (i : nat) (link : text) : Prop :=
  link_ok link /\ exists after, skipn i page = lit "<a href=" ++ [34%N] ++ link ++ [34%N] ++ lit ">" ++ after.

Section Site.
Variable http_list : url -> res (list url).

(** A link is a directory that is crawled below [d], or a file. *)
Definition skipped (l : url) : Prop := exists p, upath l = p ++ lit "/etc/".
(** [l] names the directory [d]: by its path or by its page. *)
Definition directory (l d : url) : Prop :=
  origin d = origin l /\ suffix d = suffix l /\
  exists p, upath d = p ++ lit "/" /\ (upath l = p ++ lit "/" \/ upath l = p ++ lit "/index.html").
Definition sub_directory (d l d' : url) : Prop := ~ skipped l /\ directory l d' /\ length (upath d) < length (upath d').
Definition is_file (l : url) : Prop := ~ skipped l /\ forall d, ~ directory l d.

(** The directories that are reached from [u]. *)
Inductive reached (u : url) : url -> Prop :=
| ReachedFirst : 0 < length (upath u) -> reached u u
| ReachedNext d links l d' : reached u d -> http_list d = Val links -> In l links -> sub_directory d l d' -> reached u d'.

(** The requests and messages of a sequential crawl that goes down each link in turn; a directory
    that is reached twice is listed twice. *)
Inductive found := FVisit (u : url) | FFile (u : url) | FError (e : text) | FPanic.
Inductive crawls : url -> list found -> Prop :=
| CrawlFailed d e : http_list d = Fail e -> crawls d [FVisit d; FError e]
| CrawlPanicked d : http_list d = Panic -> crawls d [FVisit d; FPanic]
| CrawlListed d links l : http_list d = Val links -> crawls_links d links l -> crawls d (FVisit d :: l)
with crawls_links : url -> list url -> list found -> Prop :=
| LinksNil d : crawls_links d [] []
| LinksSkip d l r f : skipped l -> crawls_links d r f -> crawls_links d (l :: r) f
| LinksFile d l r f : is_file l -> crawls_links d r f -> crawls_links d (l :: r) (FFile l :: f)
| LinksDown d l d' r f g : sub_directory d l d' -> crawls d' f -> crawls_links d r g -> crawls_links d (l :: r) (f ++ g)
| LinksUp d l d' r f : ~ skipped l -> directory l d' -> length (upath d') <= length (upath d) -> crawls_links d r f -> crawls_links d (l :: r) f.
(** What a crawl that starts at [u] finds: nothing for an empty path. *)
Definition crawls_from (u : url) (f : list found) : Prop :=
  if Nat.ltb 0 (length (upath u)) then crawls u f else f = [].
(** The files of the reached directories; a directory that cannot be listed. *)
Definition reached_file (u f : url) : Prop := exists d links, reached u d /\ http_list d = Val links /\ In f links /\ is_file f.
Definition reached_error (u : url) : Prop := exists d, reached u d /\ forall links, http_list d <> Val links.
End Site.
Definition files_of (l : list found) : list url := flat_map (fun f => match f with FFile u => [u] | _ => [] end) l.
Definition visits_of (l : list found) : list url := flat_map (fun f => match f with FVisit u => [u] | _ => [] end) l.
Definition failed (f : found) : Prop := match f with FError _ | FPanic => True | _ => False end.
