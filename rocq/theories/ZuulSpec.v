(** What zuul urls and baselines are. *)
From Coq Require Import String List NArith ZArith Bool.
From Verif Require Import Common FilesModel CrawlModel ZuulModel.
Import ListNotations.
Open Scope nat_scope.

(** 32 letters and digits. *)
Definition letter_or_digit (c : N) : Prop := (97 <= c <= 122 \/ 65 <= c <= 90 \/ 48 <= c <= 57)%N.
Definition uid_text (s : text) : Prop := length s = 32 /\ Forall letter_or_digit s.
(** [p] occurs in [s] after [before]. *)
Definition occurs_after (p s before : text) : Prop := exists after, s = before ++ p ++ after.
Definition first_occurrence (p s before : text) : Prop := occurs_after p s before /\ forall b, occurs_after p s b -> length before <= length b.
Definition last_occurrence (p s before : text) : Prop := occurs_after p s before /\ forall b, occurs_after p s b -> length b <= length before.

(** The beginning of an absolute path: nothing, or a slash and more. *)
Definition rooted (p : text) : Prop := p = [] \/ exists r, p = slash :: r.
(** The path of a build, without and with a tenant. *)
Definition build_path (p pre uid : text) : Prop := p = pre ++ lit "/build/" ++ uid /\ rooted pre /\ uid_text uid.
Definition tenant_path (p pre tenant uid : text) : Prop := build_path p (pre ++ lit "/t/" ++ tenant) uid /\ rooted pre /\ ~ In slash tenant.

(** ** Baselines *)
Section Baselines.
Variable available : api_build -> bool.
Variable self : build.
Variable now : Z.
Open Scope Z_scope.
(** Another build than the target, with logs, and a change number if it is of the same project. *)
Definition eligible (b : api_build) : Prop :=
  b_uuid b <> uuid self /\ available b = true /\ b_log_url b <> None /\ b_ref_url b <> None /\ (b_project b = project self -> b_change b <> None).
(** The points of a build: change, branch, pipeline, voting, age in days. *)
Definition change_points (b : api_build) (p : Z) : Prop :=
  (b_project b = project self /\ b_change b = Some (change self) /\ p = -500) \/
  (b_project b = project self /\ (exists c, b_change b = Some c /\ c <> change self) /\ p = 50) \/
  (b_project b <> project self /\ p = 0).
Definition branch_points (b : api_build) (p : Z) : Prop := (b_branch b = branch self /\ p = 50) \/ (b_branch b <> branch self /\ p = 0).
Definition occurs (p s : text) : Prop := exists x y, s = x ++ p ++ y.
Definition stable_pipeline (b : api_build) : Prop := occurs (lit "gate") (b_pipeline b) \/ occurs (lit "periodic") (b_pipeline b).
Definition pipeline_points (b : api_build) (p : Z) : Prop := (stable_pipeline b /\ p = 50) \/ (~ stable_pipeline b /\ p = 0).
Definition voting_points (b : api_build) (p : Z) : Prop := (b_voting b = true /\ p = 10) \/ (b_voting b = false /\ p = 0).
Definition age (b : api_build) : Z := Z.max 0 (now - b_date b).
Definition points (b : api_build) (s : Z) : Prop :=
  exists p1 p2 p3 p4, change_points b p1 /\ branch_points b p2 /\ pipeline_points b p3 /\ voting_points b p4 /\ s = p1 + p2 + p3 + p4 - age b.
(** The best eligible build, the first one if there are several. *)
Definition best (samples : list api_build) (b : api_build) : Prop :=
  exists l1 l2 s, samples = l1 ++ b :: l2 /\ eligible b /\ points b s /\
    (forall b' s', In b' l1 -> eligible b' -> points b' s' -> s' < s) /\ (forall b' s', In b' l2 -> eligible b' -> points b' s' -> s' <= s).
End Baselines.
