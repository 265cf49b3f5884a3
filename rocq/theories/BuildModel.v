(** Model of what is asked of the servers about a zuul build and what is made of their answers
    (/repo/model/src/zuul.rs), with all parts of a build.  Definitions only.

    ZuulModel.v has the selection of a baseline, ZuulApiModel.v the decoding.  Strings are their
    UTF-8 bytes.  What Url::parse and Url::join do, the answers of the servers, or of the cache
    (CacheModel.v), and the date are parameters. *)
From Coq Require Import String List NArith ZArith Bool.
From Verif Require Import Common FilesModel CrawlModel ZuulModel ZuulApiModel CliModel StoreModel.
Import ListNotations.
Open Scope N_scope.

(** ** The query *)
(** The crate form_urlencoded, byte_serialize *)
Definition form_plain (c : N) : bool := alnum c || existsb (N.eqb c) [42; 45; 46; 95].
Definition hex_char (d : N) : N := if d <? 10 then 48 + d else 55 + d.
Definition form_byte (c : N) : bytes :=
  if form_plain c then [c] else if c =? 32 then [43] else [37; hex_char (c / 16); hex_char (c mod 16)].
Definition form_text (s : bytes) : bytes := flat_map form_byte s.
(** Serializer::extend_pairs *)
Fixpoint form_pairs (l : list (bytes * bytes)) : bytes :=
  match l with
  | [] => []
  | (k, v) :: r => form_text k ++ [61] ++ form_text v ++ match r with [] => [] | _ => [38] ++ form_pairs r end
  end.

Section Build.
Context {Date : Type}.
Notation build := (@StoreModel.build Date).
(** DateTime::date_naive, as a number of days; zuul-build.rs:92-98 *)
Variable day_of : Date -> Z.
Variable parse_time : text -> option Date.
(** Url::parse and its text; its parts; Url::join *)
Variable parse_url : text -> option text.
Variable parts : text -> url.
Variable join_url : text -> text -> option text.
(** reader::from_url and the json that is read; reader::head_url *)
Variable get : text -> text -> res json.
Variable head : text -> res bool.
(** Utc::now().date_naive() *)
Variable today : Z.
Definition parse_day (s : text) : option Z := option_map day_of (parse_time s).

(** ** Builds with all their parts *)
(** zuul-build.rs:17-57, Build *)
Record answer := { a_build : api_build; a_job : text; a_result : text; a_end : Date }.
Definition answer_of_json (v : json) : option answer :=
  match v with
  | JObj f =>
    ZuulApiModel.bind (build_of_json parse_url parse_day v) (fun b =>
    ZuulApiModel.bind (str_field (lit "job_name") f) (fun job =>
    ZuulApiModel.bind (str_field (lit "result") f) (fun result =>
    ZuulApiModel.bind (ZuulApiModel.bind (str_field (lit "end_time") f) parse_time) (fun e =>
    Some {| a_build := b; a_job := job; a_result := result; a_end := e |}))))
  | _ => None
  end.
(** zuul.rs:133-147, new_content *)
Definition new_build (api : text) (x : answer) : res build :=
  match ZuulModel.b_log_url (a_build x), ZuulModel.b_ref_url (a_build x), ZuulModel.b_change (a_build x) with
  | Some l, Some r, Some c => Val (mkBuild api (ZuulModel.b_uuid (a_build x)) (a_job x) (ZuulModel.b_project (a_build x)) (ZuulModel.b_branch (a_build x)) (a_result x) (ZuulModel.b_pipeline (a_build x)) l r (a_end x) c)
  | _, _, _ => Panic
  end.
Definition new_content (api : text) (x : answer) : res (content build) := match new_build api x with Val b => Val (CZuul b) | Fail e => Fail e | Panic => Panic end.
(** The parts that the selection uses *)
Definition zuul_of (b : build) : ZuulModel.build :=
  {| uuid := StoreModel.b_uuid b; project := StoreModel.b_project b; branch := StoreModel.b_branch b; pipeline := StoreModel.b_pipeline b; log_url := StoreModel.b_log_url b;
     ref_url := StoreModel.b_ref_url b; date := day_of (StoreModel.b_end b); change := StoreModel.b_change b; api := StoreModel.b_api b |}.

(** ** The target *)
(** zuul.rs:149-156, get_build; dropping a bad answer from the cache is in ZuulApiModel.v. *)
Definition get_build (api uid : text) : res answer :=
  match join_url api (lit "build/") with
  | None => Fail (lit "relative URL without a base")
  | Some base =>
    match join_url base uid with
    | None => Fail (lit "relative URL without a base")
    | Some u => match get api u with Val v => match answer_of_json v with Some x => Val x | None => Fail (lit "Can't decode zuul api") end | Fail e => Fail e | Panic => Panic end
    end
  end.
(** zuul.rs:216-222, Content::from_zuul_url *)
Definition from_zuul_url (u : text) : option (res (content build)) :=
  match get_zuul_api_url parse_url (parts u) with
  | None => None
  | Some (Val (a, uid)) => Some (match get_build a uid with Val x => new_content a x | Fail e => Fail e | Panic => Panic end)
  | Some (Fail e) => Some (Fail e)
  | Some Panic => Some Panic
  end.

(** ** The baseline *)
(** zuul.rs:45-55: a joined url has no query and no fragment. *)
Definition samples_url (b : build) : res text :=
  match join_url (StoreModel.b_api b) (lit "builds") with
  | None => Fail (lit "Can't create builds url")
  | Some base =>
    match parse_url base with
    | None => Fail (lit "Can't create query url")
    | Some u => Val (u ++ lit "?" ++ form_pairs [(lit "job_name", StoreModel.b_job b); (lit "limit", lit "500"); (lit "result", lit "SUCCESS")])
    end
  end.
(** zuul.rs:158-164, get_builds; zuul-build.rs:72-80 *)
Definition get_builds (api u : text) : res (list answer) :=
  match get api u with
  | Val (JArr l) => Val (filter_map answer_of_json l)
  | Val _ => Fail (lit "Can't decode zuul api")
  | Fail e => Fail e
  | Panic => Panic
  end.
(** zuul.rs:89-104, logs_available *)
Definition logs_available (b : api_build) : bool :=
  match ZuulModel.b_log_url b with
  | None => false
  | Some u => match head u with Val n => n | _ => false end
  end.
(** zuul.rs:110-117: the builds with their scores; as in ZuulModel.v *)
Fixpoint scores (self : build) (l : list answer) : list (Z * answer) :=
  match l with
  | [] => []
  | x :: r =>
    match baseline_score (zuul_of self) (a_build x) today with
    | Some s => if eqb_list (StoreModel.b_uuid self) (ZuulModel.b_uuid (a_build x)) then scores self r else (s, x) :: scores self r
    | None => scores self r
    end
  end.
Fixpoint place (x : Z * answer) (l : list (Z * answer)) : list (Z * answer) :=
  match l with
  | [] => [x]
  | y :: r => if (fst y <=? fst x)%Z then x :: l else y :: place x r
  end.
Definition by_score (l : list (Z * answer)) : list (Z * answer) := fold_right place [] l.
(** zuul.rs:118-126 *)
Fixpoint collect_contents (api : text) (l : list (Z * answer)) : res (list (content build)) :=
  match l with
  | [] => Val []
  | (_, x) :: r =>
    match new_content api x with
    | Val c => match collect_contents api r with Val cs => Val (c :: cs) | Fail e => Fail e | Panic => Panic end
    | Fail e => Fail e
    | Panic => Panic
    end
  end.
(** zuul.rs:106-126, Build::discover_baselines *)
Definition zuul_baselines (b : build) : res (list (content build)) :=
  match samples_url b with
  | Val u =>
    match get_builds (StoreModel.b_api b) u with
    | Val l => collect_contents (StoreModel.b_api b) (firstn 1 (filter (fun p => logs_available (a_build (snd p))) (by_score (scores b l))))
    | Fail e => Fail e
    | Panic => Panic
    end
  | Fail e => Fail e
  | Panic => Panic
  end.

(** ** The messages *)
(** zuul.rs:56; zuul.rs:28-32, Display for Build *)
Definition searching (b : build) (u : text) : bytes := lit "Discovering baselines for " ++ StoreModel.b_api b ++ lit "build/" ++ StoreModel.b_uuid b ++ lit " url=" ++ u.
(** zuul.rs:94-98: iterators are lazy, so the servers are asked about the builds up to the one that is kept. *)
Fixpoint skipping (l : list (Z * answer)) : list bytes :=
  match l with
  | [] => []
  | (_, x) :: r =>
    match ZuulModel.b_log_url (a_build x) with
    | None => skipping r
    | Some u =>
      match head u with
      | Val true => []
      | Val false => skipping r
      | Fail e => (lit "Skipping build because logs are not available " ++ e ++ lit " url=" ++ u) :: skipping r
      | Panic => []
      end
    end
  end.
Definition zuul_says (b : build) : list bytes :=
  match samples_url b with
  | Val u => searching b u :: match get_builds (StoreModel.b_api b) u with Val l => skipping (by_score (scores b l)) | _ => [] end
  | _ => []
  end.
End Build.
