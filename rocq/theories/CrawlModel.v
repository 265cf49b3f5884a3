(** Model of the crawler of "Index of" pages (/repo/httpdir/src/httpdir.rs).  Definitions only.

    Threads are interleaved step by step.  The thread pool (crate threadpool) is modelled by its
    documentation: jobs are started in order, at most [ThreadPool::new(4)] at the same time;
    [join] returns when no job is running or queued; each counter is read in one step.  The
    channel (std::sync::mpsc) is unbounded and ordered. *)
From Coq Require Import String List NArith Bool.
From Verif Require Import Common FilesModel.
Import ListNotations.
Open Scope nat_scope.

(** A url: what comes before the path, the path, the query and fragment (url::Url). *)
Record url := { origin : text; upath : text; suffix : text }.
(** Url::path().len(): the path of a url is ASCII. *)
Definition path_len (u : url) : nat := length (upath u).

(** httpdir.rs:229-240, path_dir *)
Definition path_dir (u : url) : option url :=
  if ends_with (lit "/") (upath u) then Some u
  else if ends_with (lit "/index.html") (upath u) then
    Some {| origin := origin u; upath := firstn (path_len u - 10) (upath u); suffix := suffix u |}
  else None.

(** ** Links of a page *)
Definition quote : N := 34.
(** httpdir.rs:260, the class [\\/a-zA-Z0-9] *)
Definition first_char (c : N) : bool :=
  ((c =? 92) || (c =? 47) || ((97 <=? c) && (c <=? 122)) || ((65 <=? c) && (c <=? 90)) || ((48 <=? c) && (c <=? 57)))%N.
(** The text before the first quote, and what follows the quote. *)
Fixpoint until_quote (s : text) : option (text * text) :=
  match s with
  | [] => None
  | c :: r => if (c =? quote)%N then Some ([], r)
              else match until_quote r with Some (a, b) => Some (c :: a, b) | None => None end
  end.
Definition anchor : text := lit "<a href=" ++ [quote].
(** One match of the expression of httpdir.rs:260 at the beginning of a text: the group, and what
    follows the match.  The group ends at the first quote, since it contains none. *)
Definition match_link (s : text) : option (text * text) :=
  if starts_with anchor s then
    match until_quote (skipn (length anchor) s) with
    | Some (c :: d :: link, after) =>
      if first_char c && starts_with (lit ">") after then Some (c :: d :: link, skipn 1 after) else None
    | _ => None
    end
  else None.
(** Regex::captures_iter: matches from left to right, without overlap. *)
Fixpoint find_links (fuel : nat) (s : text) : list text :=
  match fuel with
  | O => []
  | S fuel =>
    match match_link s with
    | Some (link, after) => link :: find_links fuel after
    | None => match s with [] => [] | _ :: r => find_links fuel r end
    end
  end.
Section Page.
(** Url::join *)
Variable join_url : url -> text -> res url.
Fixpoint collect_links (base : url) (l : list text) : res (list url) :=
  match l with
  | [] => Val []
  | t :: r =>
    match join_url base t with
    | Val u => match collect_links base r with Val us => Val (u :: us) | Fail e => Fail e | Panic => Panic end
    | Fail e => Fail (lit "Invalid link")
    | Panic => Panic
    end
  end.
(** httpdir.rs:257-272, parse_index_of; an empty match is not possible, so the length of the page
    is enough fuel. *)
Definition parse_index_of (base : url) (page : text) : res (list url) := collect_links base (find_links (S (length page)) page).
End Page.

(** ** Workers *)
Section Crawl.
(** httpdir.rs:243-255, http_list, for a site that answers always the same; [Panic] is a panic of
    the worker. *)
Variable http_list : url -> res (list url).
Variable threads : nat.                                     (* httpdir.rs:88, 4 *)

(** httpdir.rs:64-68, Message *)
Inductive message := MFile (u : url) | MErr (e : text) | MDone.

(** A running job, httpdir.rs:148-169.  The visitor of a job has the length of its path
    (httpdir.rs:54-61). *)
Inductive running :=
| RFetch (u : url)                         (* before http_list *)
| RLinks (min_len : nat) (l : list url)    (* in the loop of httpdir.rs:151 *)
| RExit.                                   (* the last message was sent *)

Record crawl_state := { queue : list url; active : list running; chan : list message; panics : nat; requests : list url }.

(** httpdir.rs:54-61 and 141-148, Visitor::visit and pool.execute *)
Definition submit (min_len : nat) (u : url) (q : list url) : list url :=
  if Nat.ltb min_len (path_len u) then q ++ [u] else q.

(** httpdir.rs:152-161, one link *)
Definition on_link (min_len : nat) (u : url) (q : list url) (c : list message) : list url * list message :=
  if ends_with (lit "/etc/") (upath u) then (q, c)
  else match path_dir u with
       | Some d => (submit min_len d q, c)
       | None => (q, c ++ [MFile u])
       end.

Inductive worker : crawl_state -> crawl_state -> Prop :=
| WStart u q a c p r : length a < threads ->
    worker {| queue := u :: q; active := a; chan := c; panics := p; requests := r |}
           {| queue := q; active := a ++ [RFetch u]; chan := c; panics := p; requests := r |}
| WListed u links q a b c p r : http_list u = Val links ->
    worker {| queue := q; active := a ++ RFetch u :: b; chan := c; panics := p; requests := r |}
           {| queue := q; active := a ++ RLinks (path_len u) links :: b; chan := c; panics := p; requests := r ++ [u] |}
| WFailed u e q a b c p r : http_list u = Fail e ->
    worker {| queue := q; active := a ++ RFetch u :: b; chan := c; panics := p; requests := r |}
           {| queue := q; active := a ++ RExit :: b; chan := c ++ [MErr e]; panics := p; requests := r ++ [u] |}
| WPanicked u q a b c p r : http_list u = Panic ->
    worker {| queue := q; active := a ++ RFetch u :: b; chan := c; panics := p; requests := r |}
           {| queue := q; active := a ++ b; chan := c; panics := S p; requests := r ++ [u] |}
| WLink v u l q a b c p r :
    worker {| queue := q; active := a ++ RLinks v (u :: l) :: b; chan := c; panics := p; requests := r |}
           {| queue := fst (on_link v u q c); active := a ++ RLinks v l :: b; chan := snd (on_link v u q c); panics := p; requests := r |}
| WDone v q a b c p r :
    worker {| queue := q; active := a ++ RLinks v [] :: b; chan := c; panics := p; requests := r |}
           {| queue := q; active := a ++ RExit :: b; chan := c ++ [MDone]; panics := p; requests := r |}
| WExit q a b c p r :
    worker {| queue := q; active := a ++ RExit :: b; chan := c; panics := p; requests := r |}
           {| queue := q; active := a ++ b; chan := c; panics := p; requests := r |}.

Inductive steps {S : Type} (R : S -> S -> Prop) : nat -> S -> S -> Prop :=
| Steps0 s : steps R 0 s s
| StepsS n s s' s'' : R s s' -> steps R n s' s'' -> steps R (Datatypes.S n) s s''.

(** ** list *)
(** httpdir.rs:86-100, Crawler::new *)
Definition new_crawler : crawl_state := {| queue := []; active := []; chan := []; panics := 0; requests := [] |}.
(** httpdir.rs:128-131, start: the visitor has length 0. *)
Definition start (s : crawl_state) (u : url) : crawl_state :=
  {| queue := submit 0 u (queue s); active := active s; chan := chan s; panics := panics s; requests := requests s |}.
(** httpdir.rs:112: try_iter().flatten().collect() stops at the first error; the messages behind
    it stay in the channel. *)
Fixpoint collect (c : list message) : res (list url) * list message :=
  match c with
  | [] => (Val [], [])
  | MDone :: r => collect r
  | MErr e :: r => (Fail e, r)
  | MFile u :: r => match collect r with (Val l, r') => (Val (u :: l), r') | (x, r') => (x, r') end
  end.
Definition finished (s : crawl_state) : Prop := queue s = [] /\ active s = [].
(** httpdir.rs:103-114, Crawler::list, from the state of a crawler to its next state. *)
Inductive list_call (s : crawl_state) (u : url) : crawl_state -> res (list url) -> Prop :=
| ListCall n s' : steps worker n (start s u) s' -> finished s' ->
    list_call s u {| queue := []; active := []; chan := if Nat.ltb 0 (panics s') then chan s' else snd (collect (chan s')); panics := panics s'; requests := requests s' |}
      (if Nat.ltb 0 (panics s') then Fail (lit "Crawler panicked!") else fst (collect (chan s'))).

(** ** walk *)
(** Where the iterator is in [next], httpdir.rs:189-226. *)
Inductive position :=
| PTry                    (* try_recv *)
| PActive                 (* reads active_count *)
| PQueued (a : nat)       (* reads queued_count *)
| PPanic                  (* reads panic_count, in is_done *)
| PPanic2                 (* reads panic_count, after is_done *)
| PRecv                   (* in recv_timeout *)
| PStop.                  (* returned None *)
Record walk_state := { crawl : crawl_state; pos : position; abort : bool; items : list (res url) }.
Definition item_of (m : message) : list (res url) := match m with MFile u => [Val u] | MErr e => [Fail e] | MDone => [] end.
Definition with_chan (s : crawl_state) (c : list message) : crawl_state :=
  {| queue := queue s; active := active s; chan := c; panics := panics s; requests := requests s |}.
(** One step of a worker, or of the iterator.  Its caller asks again for the next item. *)
Inductive walk_step : walk_state -> walk_state -> Prop :=
| SWorker s s' p ab l : worker s s' ->
    walk_step {| crawl := s; pos := p; abort := ab; items := l |} {| crawl := s'; pos := p; abort := ab; items := l |}
| SReceived s m c ab l : chan s = m :: c ->
    walk_step {| crawl := s; pos := PTry; abort := ab; items := l |} {| crawl := with_chan s c; pos := PTry; abort := ab; items := l ++ item_of m |}
| SEmpty s ab l : chan s = [] ->
    walk_step {| crawl := s; pos := PTry; abort := ab; items := l |} {| crawl := s; pos := if ab then PStop else PActive; abort := ab; items := l |}
| SActive s ab l :
    walk_step {| crawl := s; pos := PActive; abort := ab; items := l |} {| crawl := s; pos := PQueued (length (active s)); abort := ab; items := l |}
| SQueued s a ab l :
    walk_step {| crawl := s; pos := PQueued a; abort := ab; items := l |}
              {| crawl := s; pos := if Nat.eqb (a + length (queue s)) 0 then PPanic else PPanic2; abort := ab; items := l |}
| SPanic s ab l :
    walk_step {| crawl := s; pos := PPanic; abort := ab; items := l |}
              {| crawl := s; pos := if Nat.eqb (panics s) 0 then PStop else PPanic2; abort := ab; items := l |}
| SPanicked s ab l : 0 < panics s ->
    walk_step {| crawl := s; pos := PPanic2; abort := ab; items := l |}
              {| crawl := s; pos := PTry; abort := true; items := l ++ [Fail (lit "Crawler panicked!")] |}
| SWait s ab l : panics s = 0 ->
    walk_step {| crawl := s; pos := PPanic2; abort := ab; items := l |} {| crawl := s; pos := PRecv; abort := ab; items := l |}
| SWaited s m c ab l : chan s = m :: c ->
    walk_step {| crawl := s; pos := PRecv; abort := ab; items := l |} {| crawl := with_chan s c; pos := PTry; abort := ab; items := l ++ item_of m |}
| STimeout s ab l : chan s = [] ->
    walk_step {| crawl := s; pos := PRecv; abort := ab; items := l |} {| crawl := s; pos := PTry; abort := ab; items := l |}.
(** httpdir.rs:117-126, Crawler::walk *)
Definition walk_start (u : url) : walk_state := {| crawl := start new_crawler u; pos := PTry; abort := false; items := [] |}.
End Crawl.
