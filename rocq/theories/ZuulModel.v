(** Model of zuul builds (/repo/model/src/zuul.rs): which urls are builds, where the api is, which
    baseline is selected.  Definitions only.

    The answers of the api and of the log server are parameters; what is decoded (crate
    zuul-build) is in ZuulApiModel.v, what is asked in BuildModel.v. *)
From Coq Require Import String List NArith ZArith Bool.
From Verif Require Import Common FilesModel CrawlModel.
Import ListNotations.
Open Scope nat_scope.

(** ** Urls *)
(** Url::as_str *)
Definition as_str (u : url) : text := origin u ++ upath u ++ suffix u.
Definition slash : N := 47.
(** str::split at each slash *)
Fixpoint split_slash (s : text) : list text :=
  match s with
  | [] => [[]]
  | c :: r =>
    if (c =? slash)%N then [] :: split_slash r
    else match split_slash r with x :: l => (c :: x) :: l | [] => [[c]] end
  end.
(** Url::path_segments *)
Definition path_segments (u : url) : option (list text) :=
  match upath u with c :: r => if (c =? slash)%N then Some (split_slash r) else None | [] => None end.
(** str::split_once: the text before the first occurrence *)
Fixpoint split_once (p s : text) : option text :=
  if starts_with p s then Some []
  else match s with
       | [] => None
       | c :: r => match split_once p r with Some b => Some (c :: b) | None => None end
       end.
(** str::rsplit_once: the text before the last occurrence *)
Fixpoint rsplit_once (p s : text) : option text :=
  match s with
  | [] => if starts_with p s then Some [] else None
  | c :: r =>
    match rsplit_once p r with
    | Some b => Some (c :: b)
    | None => if starts_with p s then Some [] else None
    end
  end.
(** zuul.rs:166-171, is_uid; a path segment is ASCII. *)
Definition alnum (c : N) : bool := (((97 <=? c) && (c <=? 122)) || ((65 <=? c) && (c <=? 90)) || ((48 <=? c) && (c <=? 57)))%N.
Definition is_uid (s : text) : bool := Nat.eqb (length s) 32 && forallb alnum s.

Section Api.
(** Url::parse, and its text *)
Variable parse_url : text -> option text.
(** zuul.rs:173-181, api_from_webui *)
Definition api_from_webui (u : url) (tenant : text) : res text :=
  match split_once (lit "/t/") (as_str u) with
  | None => Fail (lit "Invalid zuul url")
  | Some b => match parse_url (b ++ lit "/api/tenant/" ++ tenant ++ lit "/") with Some a => Val a | None => Fail (lit "Can't recreate zuul api url") end
  end.
(** zuul.rs:183-190, api_from_whitelabel_webui *)
Definition api_from_whitelabel (u : url) : res text :=
  match rsplit_once (lit "/build/") (as_str u) with
  | None => Fail (lit "Invalid zuul url")
  | Some b => match parse_url (b ++ lit "/api/") with Some a => Val a | None => Fail (lit "Can't recreate zuul api url") end
  end.
Definition with_uid (r : res text) (uid : text) : res (text * text) :=
  match r with Val a => Val (a, uid) | Fail e => Fail e | Panic => Panic end.
(** zuul.rs:192-214, get_zuul_api_url: the segments from the last one *)
Definition get_zuul_api_url (u : url) : option (res (text * text)) :=
  match path_segments u with
  | None => None
  | Some l =>
    match rev l with
    | uid :: build :: rest =>
      if is_uid uid then
        if eqb_list build (lit "build") then
          match rest with
          | tenant :: t :: _ =>
            if eqb_list t (lit "t") then Some (with_uid (api_from_webui u tenant) uid) else Some (with_uid (api_from_whitelabel u) uid)
          | _ => Some (with_uid (api_from_whitelabel u) uid)
          end
        else None
      else None
    | _ => None
    end
  end.
End Api.

(** ** Builds *)
(** The build of the crate zuul-build, as the api gives it; the date is a number of days. *)
Record api_build := { b_uuid : text; b_project : text; b_branch : text; b_pipeline : text; b_voting : bool;
                      b_log_url : option text; b_ref_url : option text; b_date : Z; b_change : option N }.
(** zuul.rs:13-26, Build; some fields are only copied and left out. *)
Record build := { uuid : text; project : text; branch : text; pipeline : text; log_url : text; ref_url : text; date : Z; change : N; api : text }.

Open Scope Z_scope.
(** zuul.rs:34-41, elapsed_days; the difference of two dates of the crate chrono fits in an i32. *)
Definition elapsed_days (now since : Z) : Z := if now - since <? 0 then 0 else now - since.
Definition is_some {A} (o : option A) : bool := match o with Some _ => true | None => false end.
(** zuul.rs:60-87, baseline_score *)
Definition baseline_score (self : build) (target : api_build) (now : Z) : option Z :=
  let rest score :=
    let score := if eqb_list (branch self) (b_branch target) then score + 50 else score in
    let score := if contains (lit "gate") (b_pipeline target) || contains (lit "periodic") (b_pipeline target) then score + 50 else score in
    let score := if b_voting target then score + 10 else score in
    let score := score - elapsed_days now (b_date target) in
    if is_some (b_log_url target) && is_some (b_ref_url target) then Some score else None in
  if eqb_list (project self) (b_project target) then
    match b_change target with
    | None => None
    | Some c => rest (if (change self =? c)%N then 0 - 500 else 0 + 50)
    end
  else rest 0.
(** zuul.rs:133-147, new_content *)
Definition new_content (a : text) (b : api_build) : res build :=
  match b_log_url b, b_ref_url b, b_change b with
  | Some l, Some r, Some c =>
    Val {| uuid := b_uuid b; project := b_project b; branch := b_branch b; pipeline := b_pipeline b; log_url := l; ref_url := r; date := b_date b; change := c; api := a |}
  | _, _, _ => Panic
  end.
(** A stable sort by descending score: itertools' sorted_by. *)
Fixpoint insert_by (x : Z * api_build) (l : list (Z * api_build)) : list (Z * api_build) :=
  match l with
  | [] => [x]
  | y :: r => if fst y <=? fst x then x :: l else y :: insert_by x r
  end.
Definition sort_by_score (l : list (Z * api_build)) : list (Z * api_build) := fold_right insert_by [] l.
Section Discover.
(** zuul.rs:89-104, logs_available: the answer of the log server, or of the cache *)
Variable logs_available : api_build -> bool.
Fixpoint scored (self : build) (now : Z) (samples : list api_build) : list (Z * api_build) :=
  match samples with
  | [] => []
  | b :: r =>
    match baseline_score self b now with
    | Some s => if eqb_list (uuid self) (b_uuid b) then scored self now r else (s, b) :: scored self now r
    | None => scored self now r
    end
  end.
Fixpoint collect_builds (a : text) (l : list (Z * api_build)) : res (list build) :=
  match l with
  | [] => Val []
  | (_, b) :: r =>
    match new_content a b with
    | Val x => match collect_builds a r with Val xs => Val (x :: xs) | Fail e => Fail e | Panic => Panic end
    | Fail e => Fail e
    | Panic => Panic
    end
  end.
(** zuul.rs:106-126, discover_baselines, from the samples *)
Definition discover_baselines (self : build) (now : Z) (samples : list api_build) : res (list build) :=
  collect_builds (api self) (firstn 1 (filter (fun p => logs_available (snd p)) (sort_by_score (scored self now samples)))).
End Discover.
(** zuul.rs:216-222, Content::from_zuul_url; [get_build] asks the api. *)
Definition from_zuul_url (parse_url : text -> option text) (get_build : text -> text -> res api_build) (u : url) : option (res build) :=
  match get_zuul_api_url parse_url u with
  | None => None
  | Some (Val (a, uid)) =>
    Some (match get_build a uid with Val b => new_content a b | Fail e => Fail e | Panic => Panic end)
  | Some (Fail e) => Some (Fail e)
  | Some Panic => Some Panic
  end.
