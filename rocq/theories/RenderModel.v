(** Model of Path::set_extension (std) and of the command that renders a saved report
    (/repo/report/src/render.rs).  Definitions only. *)
From Coq Require Import String List NArith Bool.
From Verif Require Import Common TokModel FilesModel.
Import ListNotations.
Open Scope N_scope.

(** The path, reversed, without the slashes and the single dots at its end, which
    Path::components ignores. *)
Fixpoint strip_end (r : list N) : list N :=
  match r with
  | c :: r' =>
    if c =? 47 then strip_end r'
    else if c =? 46 then match r' with d :: _ => if d =? 47 then strip_end r' else r | [] => r end
    else r
  | [] => []
  end.
(** The file name of a path, reversed, and what comes before it, reversed. *)
Fixpoint cut_name (r : list N) : list N * list N :=
  match r with
  | [] => ([], [])
  | c :: r' => if c =? 47 then ([], r) else let (n, d) := cut_name r' in (c :: n, d)
  end.
(** std: Path::file_stem of a file name: what precedes its last dot, or all of it if that is empty *)
Definition stem (name : list N) : list N :=
  match split_once (N.eqb 46) (rev name) with
  | Some (_, []) => name
  | Some (_, before) => rev before
  | None => name
  end.
(** std: PathBuf::set_extension: the path is cut behind the stem of its file name, and the new
    extension is added; nothing happens without a file name. *)
Definition set_extension (ext path : bytes) : bytes :=
  let (n, d) := cut_name (strip_end (rev path)) in
  let name := rev n in
  if eqb_list name [] || eqb_list name (lit ".") || eqb_list name (lit "..") then path
  else rev d ++ stem name ++ match ext with [] => [] | _ => 46 :: ext end.

Section Render.
Context {Report : Type}.
(** Report::load (StoreModel.v) of what is at a path, and logreduce_report::render *)
Variable load : option bytes -> res Report.
Variable render : Report -> res bytes.
Definition disk := bytes -> option bytes.
Definition update (s : disk) (p : bytes) (f : bytes) : disk := fun q => if eqb_list q p then Some f else s q.
(** std::fs::write can fail before anything happens, or with some of the content written. *)
Inductive fs_write (s : disk) (p content : bytes) : bool -> disk -> Prop :=
| WOk : fs_write s p content true (update s p content)
| WNotOpened : fs_write s p content false s
| WSome f rest : f ++ rest = content -> fs_write s p content false (update s p f).
Inductive rendered := Updated (p : bytes) | Usage | RPanicked.
(** render.rs:4-17, render and main; [args] are the arguments behind the name of the program. *)
Inductive render_main (s : disk) : list bytes -> rendered -> disk -> Prop :=
| RUsage args : length args <> 1%nat -> render_main s args Usage s
| RNotLoaded fp : (forall r, load (s fp) <> Val r) -> render_main s [fp] RPanicked s
| RNotRendered fp r : load (s fp) = Val r -> (forall h, render r <> Val h) -> render_main s [fp] RPanicked s
| RWritten fp r h ok s' : load (s fp) = Val r -> render r = Val h -> fs_write s (set_extension (lit "html") fp) h ok s' ->
    render_main s [fp] (if ok then Updated (set_extension (lit "html") fp) else RPanicked) s'.
End Render.
