(** Model of report/src/report.rs: the html page of a report.  Definitions only.

    The page is a string of utf-8 bytes.  The crate html-builder is outside the repository: a
    [Node] is an element with its attributes, texts and children in the order in which they are
    added; the line breaks and the indentation it may write between tags are left out.  What it
    writes for a text is the parameter [write]; attributes are written as they are given (the code
    gives them with their quotes). *)
From Coq Require Import String List NArith Bool.
From Verif Require Import Common FilesModel ProcModel ReportModel.
Import ListNotations.
Open Scope string_scope.
Open Scope list_scope.
Open Scope N_scope.

(** ** html-builder *)
Inductive node := Elem (tag : bytes) (attrs : list bytes) (children : list node) | Txt (t : bytes).
Definition el (tag : string) (attrs : list bytes) (children : list node) : node := Elem (lit tag) attrs children.
(** Elements without a closing tag that the report uses. *)
Definition void (tag : bytes) : bool := existsb (eqb_list tag) [lit "meta"; lit "link"; lit "img"; lit "hr"].

Section Html.
Context {D : Type}.
Variable write : bytes -> bytes.
Definition write_attr (a : bytes) : bytes := 32 :: a.
(** [Buffer::finish] *)
Fixpoint html (n : node) : bytes :=
  match n with
  | Txt t => write t
  | Elem tag attrs children =>
    (60 :: tag ++ flat_map write_attr attrs ++ [62]) ++ flat_map html children ++
    (if void tag then [] else 60 :: 47 :: tag ++ [62])
  end.

(** ** Formats: [{}], [{:4}], [{:02}] and [{:2X}] of a [usize] *)
Fixpoint digits (base : N) (fuel : nat) (n : N) : list N :=
  match fuel with
  | O => []
  | S fuel => if n <? base then [n] else digits base fuel (n / base) ++ [n mod base]
  end.
Definition digit_char (d : N) : N := if d <? 10 then 48 + d else 55 + d.
Definition fmt_base (base n : N) : bytes := map digit_char (digits base (S (N.size_nat n)) n).
Definition fmt (n : N) : bytes := fmt_base 10 n.
Definition pad (c : N) (w : nat) (s : bytes) : bytes := repeat c (w - List.length s) ++ s.
Definition fmt4 (n : N) : bytes := pad 32 4 (fmt n).
Definition fmt02 (n : N) : bytes := pad 48 2 (fmt n).
Definition fmt2X (n : N) : bytes := pad 32 2 (fmt_base 16 n).

(** ** The page *)
(** [name="value"] as the code formats it *)
Definition attr (name : string) (value : bytes) : bytes := lit name ++ [61; 34] ++ value ++ [34].

(** report.rs:337-375: the lines of [ReportModel.render_lines] as nodes.  [percent] and
    [colour] are [(distance * 99.0) as usize] and [(distance * 255.0) as usize]. *)
Variables (percent colour : D -> N).
Definition line_node (l : @rline D) : node :=
  match l with
  | Hr => el "hr" [attr "class" (lit "ls")] []
  | Ctx n x => el "pre" [] [Txt (lit "   " ++ fmt4 n ++ lit " | " ++ x)]
  | Anom d n x => el "pre" [attr "style" (lit "color: #" ++ fmt2X (colour d) ++ lit "0000")]
                     [Txt (fmt02 (percent d) ++ lit " " ++ fmt4 n ++ lit " | " ++ x)]
  end.
(** report.rs:36-60, without columns *)
Definition table (rows : list (bytes * bytes)) : node :=
  el "div" [lit "id='debuginfo'"; lit "style='overflow-x: auto'"]
   [el "table" [lit "style='white-space: nowrap; margi: 0px'"; lit "class='table table-condensed table-responsive table-bordered'"]
     [el "tbody" [] (map (fun r => el "tr" [] [el "td" [] [Txt (fst r)]; el "td" [] [Txt (snd r)]]) rows)]].
Definition str (s : source) : bytes := utf8_encode (as_str s).
(** report.rs:307-317: the first three sources of the index *)
Definition samples (sources : list source) : node :=
  el "div" [lit "id='debuginfo'"]
    [Txt (lit "Baseline samples:");
     el "ul" [] (map (fun s => el "li" [] [el "a" [attr "href" (str s)] [Txt (str s)]]) (firstn 3 sources))].
(** report.rs:214-322; [None] is a panic. *)
Definition content_report (checks : bool) (lr : @log_report D) (sources : option (list source)) (expand : bool) : option node :=
  match get_relative (lr_source lr), render_lines checks None (lr_anomalies lr) with
  | Some name, Some lines =>
    Some (el "div" [attr "class" (lit "list-group-item" ++ if expand then lit " list-view-pf-expand-active" else []);
                    attr "id" (lit "TODO")]
      [el "div" [attr "class" (lit "list-group-item-header")]
        [el "div" [attr "class" (lit "list-view-pf-expand")]
          [el "span" [attr "class" (lit "fa fa-angle-right" ++ if expand then lit " fa-angle-down" else [])] []];
         el "div" [attr "class" (lit "list-view-pf-main-info")]
          [el "div" [attr "class" (lit "list-view-pf-left")]
            [el "span" [attr "class" (lit "fa pficon-degraded list-view-pf-icon-sm")] []];
           el "div" [attr "class" (lit "list-view-pf-body")]
            [el "div" [attr "class" (lit "list-view-pf-description")]
              [el "div" [attr "class" (lit "list-group-item-heading")] [Txt (utf8_encode name)]];
             el "div" [attr "class" (lit "list-view-pf-additional-info-item"); lit "id='debuginfo'"]
              [el "span" [attr "class" (lit "pficon pficon-registry")] [];
               el "a" [attr "href" (lit "#model_" ++ utf8_encode (lr_index lr))] [Txt (utf8_encode (lr_index lr))];
               Txt (lit " model")];
             el "div" [attr "class" (lit "list-view-pf-additional-info-item")]
              [el "span" [attr "class" (lit "fa fa-external-link")] [];
               el "a" [attr "href" (str (lr_source lr))] [Txt (lit "file")]];
             el "div" [attr "class" (lit "list-view-pf-additional-info-item")]
              [el "span" [attr "class" (lit "fa fa-bug")] [];
               el "strong" [] [Txt (fmt (N.of_nat (List.length (lr_anomalies lr))))]]]]];
       el "div" [attr "class" (lit "list-group-item-container container-fluid" ++ if expand then [] else lit " hidden")]
        ([el "div" [attr "class" (lit "close")] [el "span" [attr "class" (lit "pficon pficon-close")] []]] ++
         (match sources with Some l => [samples l] | None => [] end) ++
         [el "div" [attr "class" (lit "loglines")] (map line_node lines)])])
  | _, _ => None
  end.
(** report.rs:188-200: the reports in order, the first one expanded *)
Fixpoint content_reports (checks expand : bool) (r : @report D) (l : list (@log_report D)) : option (list node) :=
  match l with
  | [] => Some []
  | lr :: rest =>
    match content_report checks lr (hm_get (lr_index lr) (index_reports r)) expand, content_reports checks false r rest with
    | Some n, Some ns => Some (n :: ns)
    | _, _ => None
    end
  end.
(** What the page shows of a report besides its logs: its target, baselines, creation time,
    run time and result (report.rs:158-184), formatted. *)
Record summary := mkSummary { s_target : bytes; s_baselines : bytes; s_created : bytes; s_time : bytes; s_result : bytes }.
(** The fixed parts: LOGO, STYLES, SCRIPTS, style.css, JS and the version. *)
Record fixed := mkFixed { f_logo : bytes; f_styles : list (bytes * bytes); f_scripts : list (bytes * bytes);
                          f_css : bytes; f_js : bytes; f_version : bytes }.
(** report.rs:62-78, add_head *)
Definition head (f : fixed) (s : summary) : node :=
  el "head" []
    ([el "title" [] [Txt (lit "Logreduce of " ++ s_target s)]; el "meta" [lit "charset='utf-8'"] []] ++
     map (fun x => el "link" [attr "href" (fst x); attr "rel" (lit "stylesheet"); attr "integrity" (snd x); attr "crossorigin" (lit "anonymous")] []) (f_styles f) ++
     [el "style" [] [Txt (f_css f)]]).
(** report.rs:105-151, add_nav *)
Definition nav (f : fixed) : node :=
  el "nav" [attr "class" (lit "navbar navbar-default navbar-pf"); attr "role" (lit "navigation")]
   [el "div" [attr "class" (lit "navbar-header")] [el "img" [f_logo f; attr "alt" (lit "LogReduce")] []];
    el "div" [attr "class" (lit "collapse navbar-collapse navbar-collapse-1")]
     [el "ul" [attr "class" (lit "nav navbar-nav navbar-utility")]
       [el "li" [] [el "a" [attr "href" (lit "#"); lit "id='debugbtn'"] [Txt (lit "Show Debug")]];
        el "li" [] [el "a" [attr "href" (lit "https://github.com/logreduce/logreduce"); attr "target" (lit "_blank")] [Txt (lit "Documentation")]];
        el "li" [] [el "a" [attr "href" (lit "#")] [el "strong" [] [Txt (lit "Version")]; Txt (f_version f)]]];
      el "ul" [attr "class" (lit "nav navbar-nav navbar-primary")]
       [el "li" [attr "class" (lit "active")] [el "a" [attr "href" (lit "log-classify.html")] [Txt (lit "Report")]];
        el "li" [] [el "a" [attr "href" (lit "./")] [Txt (lit "Job Artifacts")]]]]].
(** report.rs:153-212, add_container *)
Definition container (checks : bool) (s : summary) (r : @report D) : option node :=
  match content_reports checks true r (log_reports r) with
  | Some items =>
    Some (el "div" [attr "class" (lit "container"); lit "style='width: 100%'"]
      [table [(lit "Target", s_target s); (lit "Baselines", s_baselines s); (lit "Created at", s_created s);
              (lit "Run time", s_time s); (lit "Result", s_result s)];
       el "div" [attr "class" (lit "list-group list-view-pf list-view-pf-view")] items])
  | None => None
  end.
(** report.rs:11-35 and 80-96: render *)
Definition page_node (checks : bool) (f : fixed) (s : summary) (r : @report D) : option node :=
  match container checks s r with
  | Some c =>
    Some (el "html" [lit "lang='en'"]
      [head f s;
       el "body" []
         ([nav f; c] ++
          map (fun x => el "script" [attr "src" (fst x); attr "integrity" (snd x); attr "crossorigin" (lit "anonymous")] []) (f_scripts f) ++
          [el "script" [] [Txt (f_js f)]])])
  | None => None
  end.
Definition render (checks : bool) (f : fixed) (s : summary) (r : @report D) : option bytes :=
  option_map html (page_node checks f s r).
End Html.
