(** Words of the property of the builds of a server: C96.  What a query says, what an answer says of a
    build, and which answer is the best sample.  The words for the page of a build and for the points of
    a sample are in ZuulSpec.v, those for the fields of an answer in P_ZuulApi.v. *)
From Coq Require Import String List NArith ZArith Bool.
From Verif Require Import Common FilesModel CrawlModel ZuulModel ZuulSpec ZuulApiModel P_ZuulApi CliModel StoreModel BuildModel.
Import ListNotations.
Open Scope N_scope.

(** ** Queries *)
(** A hexadecimal digit and its value *)
Definition hex_digit (c d : N) : Prop := (c = 48 + d /\ d < 10) \/ (c = 55 + d /\ 10 <= d < 16) \/ (c = 87 + d /\ 10 <= d < 16).
(** How a server reads a part of a query: a plus is a space, a percent sign and two digits are a byte;
    an ampersand, an equals sign and a number sign cannot be in it. *)
Inductive form_reads : bytes -> bytes -> Prop :=
| ReadsEnd : form_reads [] []
| ReadsPlain c q s : ~ In c [38; 61; 43; 37; 35] -> form_reads q s -> form_reads (c :: q) (c :: s)
| ReadsSpace q s : form_reads q s -> form_reads (43 :: q) (32 :: s)
| ReadsHex a b x y q s : hex_digit a x -> hex_digit b y -> form_reads q s -> form_reads (37 :: a :: b :: q) (16 * x + y :: s).
(** The names and values of a query *)
Inductive form_query : bytes -> list (bytes * bytes) -> Prop :=
| QueryLast k v qk qv : form_reads qk k -> form_reads qv v -> form_query (qk ++ [61] ++ qv) [(k, v)]
| QueryMore k v qk qv q l : form_reads qk k -> form_reads qv v -> form_query q l -> form_query (qk ++ [61] ++ qv ++ [38] ++ q) ((k, v) :: l).

Section Build.
Context {Date : Type}.
Notation build := (@StoreModel.build Date).
Notation answer := (@BuildModel.answer Date).
Variable day_of : Date -> Z.
Variable parse_time : text -> option Date.
Variable parse_url : text -> option text.
Variable parts : text -> url.
Variable join_url : text -> text -> option text.
Variable get : text -> text -> res json.
Variable head : text -> res bool.
Variable today : Z.

(** ** Answers *)
(** The json [v] describes a build with all its fields, and this is what they say. *)
Definition shows (v : json) (x : answer) : Prop := exists f, v = JObj f /\ described parse_url (parse_day day_of parse_time) f /\
  has f (lit "uuid") (JStr (ZuulModel.b_uuid (a_build x))) /\ has f (lit "job_name") (JStr (a_job x)) /\ has f (lit "project") (JStr (ZuulModel.b_project (a_build x))) /\
  has f (lit "branch") (JStr (ZuulModel.b_branch (a_build x))) /\ has f (lit "result") (JStr (a_result x)) /\ has f (lit "pipeline") (JStr (ZuulModel.b_pipeline (a_build x))) /\
  has f (lit "voting") (JBool (b_voting (a_build x))) /\
  (exists d, has f (lit "end_time") (JStr d) /\ parse_time d = Some (a_end x)) /\ b_date (a_build x) = day_of (a_end x) /\
  optional f (lit "log_url") (fun v => match v with JStr s => parse_url s | _ => None end) (ZuulModel.b_log_url (a_build x)) /\
  optional f (lit "ref_url") (fun v => match v with JStr s => parse_url s | _ => None end) (ZuulModel.b_ref_url (a_build x)) /\
  match ZuulModel.b_change (a_build x) with None => lacks f (lit "change") \/ has f (lit "change") JNull | Some c => has f (lit "change") (JInt (Z.of_N c)) /\ (c < 2 ^ 64)%N end.
(** The build of the api [a] that the answer is about; it has logs, a page and a change. *)
Definition about (a : text) (x : answer) (b : build) : Prop :=
  StoreModel.b_api b = a /\ StoreModel.b_uuid b = ZuulModel.b_uuid (a_build x) /\ StoreModel.b_job b = a_job x /\ StoreModel.b_project b = ZuulModel.b_project (a_build x) /\
  StoreModel.b_branch b = ZuulModel.b_branch (a_build x) /\ StoreModel.b_result b = a_result x /\ StoreModel.b_pipeline b = ZuulModel.b_pipeline (a_build x) /\
  Some (StoreModel.b_log_url b) = ZuulModel.b_log_url (a_build x) /\ Some (StoreModel.b_ref_url b) = ZuulModel.b_ref_url (a_build x) /\ StoreModel.b_end b = a_end x /\
  Some (StoreModel.b_change b) = ZuulModel.b_change (a_build x).

(** ** The build of a page *)
(** The address of the api for a page, and the name of the build: from the text of the url. *)
Definition api_of (u : url) (a uid : text) : Prop := exists base address,
  ((exists p tenant, tenant_path (upath u) p tenant uid /\ first_occurrence (lit "/t/") (as_str u) base /\ address = base ++ lit "/api/tenant/" ++ tenant ++ lit "/") \/
   ((exists p, build_path (upath u) p uid) /\ (forall p tenant, ~ tenant_path (upath u) p tenant uid) /\ last_occurrence (lit "/build/") (as_str u) base /\ address = base ++ lit "/api/")) /\
  parse_url address = Some a.
(** The answer of the api for build/ and the name of the build *)
Definition page_build (u : text) (b : build) : Prop := exists a uid base address v x,
  api_of (parts u) a uid /\ join_url a (lit "build/") = Some base /\ join_url base uid = Some address /\ get a address = Val v /\ shows v x /\ about a x b.

(** ** The sample *)
(** The logs are there. *)
Definition available (x : api_build) : Prop := exists u, ZuulModel.b_log_url x = Some u /\ head u = Val true.
(** A sample that can be the baseline, and its points: those of ZuulSpec.v, for the fields of the build. *)
Definition candidate (b : build) (x : answer) : Prop :=
  ZuulModel.b_uuid (a_build x) <> StoreModel.b_uuid b /\ available (a_build x) /\ ZuulModel.b_ref_url (a_build x) <> None /\
  (ZuulModel.b_project (a_build x) = StoreModel.b_project b -> ZuulModel.b_change (a_build x) <> None).
Definition sample_points (b : build) (x : answer) (s : Z) : Prop := points (zuul_of day_of b) today (a_build x) s.
(** The best sample of an answer; of several that are as good, the first one. *)
Definition best_sample (b : build) (vs : list json) (x : answer) : Prop := exists v1 v v2 s,
  vs = v1 ++ v :: v2 /\ shows v x /\ candidate b x /\ sample_points b x s /\
  (forall v' x' s', In v' v1 -> shows v' x' -> candidate b x' -> sample_points b x' s' -> (s' < s)%Z) /\
  (forall v' x' s', In v' v2 -> shows v' x' -> candidate b x' -> sample_points b x' s' -> (s' <= s)%Z).
(** The answer of the api of a build for its successful samples: to builds and a query, which says this
    and nothing else (C96_query). *)
Definition samples (b : build) (vs : list json) : Prop := exists base address,
  join_url (StoreModel.b_api b) (lit "builds") = Some base /\ parse_url base = Some address /\
  get (StoreModel.b_api b) (address ++ lit "?" ++ form_pairs [(lit "job_name", StoreModel.b_job b); (lit "limit", lit "500"); (lit "result", lit "SUCCESS")]) = Val (JArr vs).
(** The build that is found for another one *)
Definition found_for (b b' : build) : Prop := exists vs x, samples b vs /\ best_sample b vs x /\ about (StoreModel.b_api b) x b'.
(** A sample that would be a candidate if the question for its logs had not failed, and what is said of it *)
Definition unavailable (b : build) (x : answer) (m : bytes) : Prop := exists u e,
  ZuulModel.b_uuid (a_build x) <> StoreModel.b_uuid b /\ ZuulModel.b_log_url (a_build x) = Some u /\ head u = Fail e /\ ZuulModel.b_ref_url (a_build x) <> None /\
  (ZuulModel.b_project (a_build x) = StoreModel.b_project b -> ZuulModel.b_change (a_build x) <> None) /\
  m = lit "Skipping build because logs are not available " ++ e ++ lit " url=" ++ u.
End Build.
