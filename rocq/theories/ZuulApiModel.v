(** Model of the answers of the zuul api: decoding (/repo/zuul/src/zuul-build.rs) and asking with the
    cache (/repo/model/src/zuul.rs:149-164).  Definitions only.

    The text of json is not modelled: [json] is serde_json::Value.  A struct written as an array,
    which serde accepts as well, is left out; so is an object with a key twice. *)
From Coq Require Import String List NArith ZArith Bool.
From Verif Require Import Common FilesModel CrawlModel ZuulModel CacheModel.
Import ListNotations.
Open Scope nat_scope.

Inductive json :=
| JNull | JBool (b : bool) | JInt (n : Z) | JFloat | JStr (s : text) | JArr (l : list json) | JObj (fields : list (text * json)).

Section Decode.
(** Url::parse, and its text *)
Variable parse_url : text -> option text.
(** zuul-build.rs:92-98: the day of a date *)
Variable parse_date : text -> option Z.

Fixpoint field (k : text) (fields : list (text * json)) : option json :=
  match fields with [] => None | (k', v) :: r => if eqb_list k k' then Some v else field k r end.
Definition bind {A B} (o : option A) (f : A -> option B) : option B := match o with Some x => f x | None => None end.
Definition str_field (k : text) (f : list (text * json)) : option text := match field k f with Some (JStr s) => Some s | _ => None end.
Definition bool_field (k : text) (f : list (text * json)) : option bool := match field k f with Some (JBool b) => Some b | _ => None end.
Definition date_field (k : text) (f : list (text * json)) : option Z := bind (str_field k f) parse_date.
(** zuul-build.rs:119-125: any number *)
Definition number_field (k : text) (f : list (text * json)) : option unit := match field k f with Some (JInt _) | Some JFloat => Some tt | _ => None end.
(** A field of type Option: it can be null or missing, but not wrong. *)
Definition opt_field {A} (conv : json -> option A) (k : text) (f : list (text * json)) : option (option A) :=
  match field k f with None | Some JNull => Some None | Some v => match conv v with Some x => Some (Some x) | None => None end end.
Definition conv_url (v : json) : option text := match v with JStr s => parse_url s | _ => None end.
Definition conv_u64 (v : json) : option N := match v with JInt n => if ((0 <=? n) && (n <? 2 ^ 64))%Z then Some (Z.to_N n) else None | _ => None end.
Definition conv_str (v : json) : option text := match v with JStr s => Some s | _ => None end.
(** zuul-build.rs:61-66, Artifact *)
Definition is_artifact (v : json) : bool :=
  match v with
  | JObj f => is_some (str_field (lit "name") f) && is_some (bind (field (lit "url") f) conv_url)
  | _ => false
  end.
Definition artifacts_field (f : list (text * json)) : option unit :=
  match field (lit "artifacts") f with Some (JArr l) => if forallb is_artifact l then Some tt else None | _ => None end.
(** zuul-build.rs:17-57, Build; the fields which are not used later are only checked. *)
Definition build_of_json (v : json) : option api_build :=
  match v with
  | JObj f =>
    bind (str_field (lit "uuid") f) (fun uuid =>
    bind (str_field (lit "job_name") f) (fun _ =>
    bind (str_field (lit "result") f) (fun _ =>
    bind (date_field (lit "start_time") f) (fun _ =>
    bind (date_field (lit "end_time") f) (fun date =>
    bind (number_field (lit "duration") f) (fun _ =>
    bind (bool_field (lit "voting") f) (fun voting =>
    bind (opt_field conv_url (lit "log_url") f) (fun log_url =>
    bind (opt_field conv_url (lit "ref_url") f) (fun ref_url =>
    bind (artifacts_field f) (fun _ =>
    bind (str_field (lit "project") f) (fun project =>
    bind (str_field (lit "branch") f) (fun branch =>
    bind (str_field (lit "pipeline") f) (fun pipeline =>
    bind (opt_field conv_u64 (lit "change") f) (fun change =>
    bind (opt_field conv_str (lit "patchset") f) (fun _ =>
    bind (str_field (lit "ref") f) (fun _ =>
    bind (str_field (lit "event_id") f) (fun _ =>
    Some {| b_uuid := uuid; b_project := project; b_branch := branch; b_pipeline := pipeline; b_voting := voting;
            b_log_url := log_url; b_ref_url := ref_url; b_date := date; b_change := change |})))))))))))))))))
  | _ => None
  end.
(** zuul-build.rs:68-70, decode_build *)
Definition decode_build (v : json) : res api_build := match build_of_json v with Some b => Val b | None => Fail (lit "Can't decode zuul api") end.
(** zuul-build.rs:72-80, decode_builds *)
Fixpoint filter_map {A B} (f : A -> option B) (l : list A) : list B :=
  match l with [] => [] | x :: r => match f x with Some y => y :: filter_map f r | None => filter_map f r end end.
Definition decode_builds (v : json) : res (list api_build) :=
  match v with JArr l => Val (filter_map build_of_json l) | _ => Fail (lit "Can't decode zuul api") end.
End Decode.

(** ** Asking the api *)
Section Ask.
Variable digest : text -> text.
Variable parse_url : text -> option text.
Variable enc_write : list bytes -> bytes -> bytes.
Variable enc_finish : list bytes -> bytes.
Variable gunzip : bytes -> bytes * bool.
Notation step := (step digest parse_url enc_write enc_finish).
Notation exec := (exec digest parse_url enc_write enc_finish).
Variable A : Type.
(** serde_json::from_reader: from the bytes of a reader, and whether it ends without an error *)
Variable decode : bytes -> bool -> res A.
(** The decoder reads the answer of the server to its end. *)
Definition read_all (h : nat) (ws : list bytes) : list event := map (fun w => ERead h (Val w) (Val w)) ws ++ [ERead h (Val []) (Val [])].
Definition reads (h : nat) (e : event) : Prop := match e with ERead k _ _ => k = h | _ => False end.
(** zuul.rs:149-164, get_build and get_builds: [b] is the api, [u] the url.  The decoder drops its
    reader; when it succeeds it has read everything. *)
Inductive ask (st : state) (b u : text) : res A -> state -> Prop :=
| AskHit h st1 x ok st2 a : step st (EHit b u h) st1 -> delivers gunzip st1 h = Some (x, ok) -> step st1 (EClose h) st2 ->
    decode x ok = Val a -> ask st b u (Val a) st2
| AskHitBad h st1 x ok st2 e st3 : step st (EHit b u h) st1 -> delivers gunzip st1 h = Some (x, ok) -> step st1 (EClose h) st2 ->
    decode x ok = Fail e -> step st2 (EDrop b u) st3 -> ask st b u (Fail e) st3
| AskMiss h st1 ws st2 st3 a : step st (EMiss b u h) st1 -> exec st1 (read_all h ws) st2 -> step st2 (EClose h) st3 ->
    decode (concat ws) true = Val a -> ask st b u (Val a) st3
| AskMissBad h st1 tr st2 st3 x ok e st4 : step st (EMiss b u h) st1 -> exec st1 tr st2 -> Forall (reads h) tr -> step st2 (EClose h) st3 ->
    decode x ok = Fail e -> step st3 (EDrop b u) st4 -> ask st b u (Fail e) st4
| AskFailed e st1 : step st (EMissFailed b u) st1 -> ask st b u (Fail e) st1.
End Ask.
