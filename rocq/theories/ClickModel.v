(** Model of the script of the page (/repo/report/src/report.rs:409-425), for the document of the
    page.  Definitions only.

    jQuery is outside the repository: [find] gives the elements inside of an element, [toggle] of an
    element shows it if its own display is none and else hides it; the handlers of a click run for the
    element that is clicked and then for each element that it is in.  The names of the classes never
    depend on the script, so a handler is bound to the elements that have them when the page is
    loaded. *)
From Coq Require Import String List NArith PeanoNat Bool.
From Verif Require Import Common HtmlSpec FormSpec DomSpec.
Import ListNotations.
Open Scope string_scope.
Open Scope list_scope.

Definition eqb_place (p q : location) : bool := if list_eq_dec Nat.eq_dec p q then true else false.
Definition memb_place (p : location) (l : list location) : bool := existsb (eqb_place p) l.
(** The place and those that it is in, from inside to outside. *)
Fixpoint path_up (p : location) : list location := p :: match p with [] => [] | _ :: up => path_up up end.
(** Properly inside *)
Definition is_below (u p : location) : bool := memb_place u (tl (path_up p)).

Section Script.
Variable doc : list (location * (bytes * bytes)).
(** The classes of the elements now; the elements that [toggle] has shown. *)
Record page_state := mkPage { now_class : string -> location -> bool; now_shown : location -> bool }.
Definition loaded : page_state := mkPage (fun c p => memb_place p (places (has_class c) doc)) (fun _ => false).
Definition set_class (c : string) (l : list location) (f : bool -> bool) (s : page_state) : page_state :=
  mkPage (fun c' p => if String.eqb c' c && memb_place p l then f (now_class s c' p) else now_class s c' p) (now_shown s).
Definition toggle_class c l := set_class c l negb.
Definition add_class c l := set_class c l (fun _ => true).
Definition remove_class c l := set_class c l (fun _ => false).
(** [$(this).find(".c")] *)
Definition find_class (s : page_state) (this : location) (c : string) : list location :=
  filter (fun p => is_below this p && now_class s c p) (map fst doc).
(** report.rs:411 *)
Definition debug_click (s : page_state) : page_state :=
  mkPage (now_class s) (fun p => if memb_place p (places (has_id "debuginfo") doc) then negb (now_shown s p) else now_shown s p).
(** report.rs:413-419 *)
Definition header_click (this target : location) (s : page_state) : page_state :=
  if memb_place target (places (fun x => is_tag "button" x || is_tag "a" x || is_tag "input" x) doc) || now_class s "fa-ellipsis-v" target then s
  else
    let s1 := toggle_class "fa-angle-down" (find_class s this "fa-angle-right") s in
    let s2 := toggle_class "list-view-pf-expand-active" [tl this] s1 in
    toggle_class "hidden" (find_class s2 (tl this) "list-group-item-container") s2.
(** report.rs:420-424 *)
Definition close_click (this : location) (s : page_state) : page_state :=
  let s1 := add_class "hidden" [tl this] s in
  let s2 := remove_class "list-view-pf-expand-active" [tl (tl this)] s1 in
  remove_class "fa-angle-down" (find_class s2 (tl (tl this)) "fa-angle-right") s2.
(** The handlers of an element. *)
Definition handle (target : location) (s : page_state) (this : location) : page_state :=
  let s1 := match places (has_id "debugbtn") doc with p :: _ => if eqb_place p this then debug_click s else s | [] => s end in
  let s2 := if memb_place this (places (has_class "list-group-item-header") doc) then header_click this target s1 else s1 in
  if memb_place this (places (has_class "close") doc) && existsb (fun u => memb_place u (places (has_class "list-group-item-container") doc)) (tl (path_up this))
  then close_click this s2 else s2.
Definition click (s : page_state) (target : location) : page_state := fold_left (handle target) (path_up target) s.
End Script.
