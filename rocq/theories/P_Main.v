(** A command as a whole: C88. *)
From Coq Require Import String List NArith ZArith PeanoNat Bool Lia Permutation FunctionalExtensionality.
From Verif Require Import Common CommonFacts ProcModel ProcSpec ProcRefute FilesModel FilesSpec FilesSources CliModel IndexModel IndexSpec P_Index CacheSpec StoreModel StoreSpec StoreProofs P_Store MatModel MatSpec MatProofs P_Mat
  ReportModel ReportSpec ReportProofs ReportMore ReportLive P_Report P_Compare P_Live HtmlModel ShownModel RenderModel OutModel P_Out SavedModel P_Saved MainModel MainSpec.
From Verif Require P_Cache P_Html P_Page.
Import ListNotations.
Open Scope string_scope.
Open Scope list_scope.
Open Scope N_scope.
Ltac csplit := repeat match goal with |- _ /\ _ => split end.

(** ** What is written *)
Lemma printed_app a b : printed (a ++ b) = printed a ++ printed b.
Proof. apply flat_map_app. Qed.
Lemma findings_app a b : findings (a ++ b) = findings a ++ findings b.
Proof. unfold findings. now rewrite printed_app, flat_map_app. Qed.
Lemma printed_out l : printed (map Out l) = l.
Proof. unfold printed. rewrite flat_map_concat_map, map_map. induction l as [|p l IH]; [reflexivity|]. cbn [map concat app] in *. now rewrite IH. Qed.
Lemma printed_logs l : printed (map (Log Info) l) = [].
Proof. induction l as [|x l IH]; [reflexivity|exact IH]. Qed.
Definition rows_of (l : list piece) : list (@out_line F) := flat_map (fun p => match p with Row r => [r] | _ => [] end) l.
Lemma rows_app a b : rows_of (a ++ b) = rows_of a ++ rows_of b.
Proof. apply flat_map_app. Qed.
Lemma rows_rows l : rows_of (map Row l) = l.
Proof. unfold rows_of. rewrite flat_map_concat_map, map_map. induction l as [|p l IH]; [reflexivity|]. cbn [map concat app] in *. now rewrite IH. Qed.
Lemma findings_out l : findings (map Out l) = rows_of l.
Proof. unfold findings. now rewrite printed_out. Qed.
Lemma progress_rows o msg : rows_of (progress o msg) = [].
Proof. now destruct o. Qed.

(** ** The rows of the live output *)
Section Live.
Context {Ix : Type} (tok : bytes -> bytes) (search_of : Ix -> list bytes -> list F)
  (open : source -> res (bool -> list item)) (err_text : option N -> text).
Lemma loop_rows o m : forall sources shown ps n k b, live_loop tok search_of open err_text o m sources shown = Val (ps, n, k, b) ->
  live_sources above_threshold tok search_of open err_text m sources = Val (rows_of ps, n, k).
Proof.
  induction sources as [|s sources IH]; intros shown ps n k b H; cbn [live_loop live_sources] in *; [now injection H as <- <- <- _|].
  destruct (get_relative s) as [rel|] eqn:R; [|discriminate]. destruct (get_index m _) as [ix|].
  - unfold inspecting in H. destruct (source_text s) as [t|]; [|discriminate]. cbn [option_map] in H.
    destruct (get_processor open s) as [items|e|]; [| |discriminate].
    + destruct (process_all _ _ _ _ _) as [[l stop] p]. destruct (stop_error stop) as [err|e|]; try discriminate. cbv zeta in H.
      destruct (live_loop _ _ _ _ o m sources _) as [[[[ps' n'] k'] b']|e|] eqn:E; try discriminate. injection H as <- <- <- _. rewrite (IH _ _ _ _ _ E).
      rewrite !rows_app, progress_rows, rows_rows, <- !app_assoc. cbn [app].
      match goal with |- context [rows_of (if ?c then separator o false else [])] => replace (rows_of (if c then separator o false else [])) with (@nil (@out_line F)) by (now destruct c, o) end. reflexivity.
    + injection H as <- <- <- _. now rewrite rows_app, progress_rows.
  - destruct (live_loop _ _ _ _ o m sources true) as [[[[ps' n'] k'] b']|e|] eqn:E; try discriminate. injection H as <- <- <- _. now rewrite (IH _ _ _ _ _ E).
Qed.
Lemma pieces_rows {Date} o m (c : content (@StoreModel.build Date)) target ps : live_pieces tok search_of open err_text o m c target = Val ps ->
  exists n k, process_live above_threshold tok search_of open err_text m target = Val (rows_of ps, n, k).
Proof.
  unfold live_pieces, process_live. destruct (get_sources target) as [sources|e|]; try discriminate.
  destruct (live_loop _ _ _ _ o m sources false) as [[[[ps' n] k] b]|e|] eqn:E; try discriminate. destruct (content_text c); [|discriminate]. intros [= <-].
  exists n, k. rewrite (loop_rows _ _ _ _ _ _ _ _ E), !rows_app, progress_rows. now destruct (inlined o && negb b); rewrite ?app_nil_r.
Qed.
Lemma pieces_quiet {Date} m (c : content (@StoreModel.build Date)) target ps : live_pieces tok search_of open err_text Quiet m c target = Val ps ->
  ps = map Row (rows_of ps).
Proof.
  unfold live_pieces. destruct (get_sources target) as [sources|e|]; try discriminate.
  destruct (live_loop _ _ _ _ Quiet m sources false) as [[[[ps' n] k] b]|e|] eqn:E; try discriminate. destruct (content_text c); [|discriminate]. cbn [inlined andb app progress]. rewrite app_nil_r. intros [= ->].
  pose proof (loop_rows _ _ _ _ _ _ _ _ E) as L. destruct (loop_quiet (fun _ => false) tok search_of open err_text Quiet m ltac:(discriminate) sources false _ _ _ L) as (ts & b' & _ & E').
  rewrite E in E'. now injection E' as E' _.
Qed.
End Live.

Section Same.
Context {B1 B2 : Type}.
Variables (tok : bytes -> bytes) (s1 : B1 -> list bytes -> list F) (s2 : B2 -> list bytes -> list F)
  (open : source -> res (bool -> list item)) (err_text : option N -> text).
Lemma loop_same o m1 m2 l : same_answers s1 s2 m1 m2 -> forall shown, live_loop tok s1 open err_text o m1 l shown = live_loop tok s2 open err_text o m2 l shown.
Proof.
  intros H. induction l as [|s l IH]; intros shown; [reflexivity|]. cbn [live_loop]. destruct (get_relative s) as [rel|]; [|reflexivity]. specialize (H (index_name rel)) as Hn.
  destruct (get_index m1 _) as [i1|], (get_index m2 _) as [i2|]; try contradiction; [|now rewrite IH].
  destruct (inspecting s); [|reflexivity]. destruct (get_processor open s) as [items|e|]; [|reflexivity|reflexivity]. destruct Hn as [_ E2]. rewrite (functional_extensionality _ _ E2).
  destruct (process_all _ _ _ _ _) as [[out stop] p]. destruct (stop_error stop) as [err|e|]; [|reflexivity|reflexivity]. cbv zeta. now rewrite IH.
Qed.
Lemma pieces_same {Date} o m1 m2 (c : content (@StoreModel.build Date)) target : same_answers s1 s2 m1 m2 ->
  live_pieces tok s1 open err_text o m1 c target = live_pieces tok s2 open err_text o m2 c target.
Proof. intros H. unfold live_pieces. destruct (get_sources target) as [l|e|]; [|reflexivity|reflexivity]. now rewrite (loop_same o m1 m2 l H). Qed.
End Same.
Lemma same_sym {B1 B2} (s1 : B1 -> list bytes -> list F) (s2 : B2 -> list bytes -> list F) m1 m2 : same_answers s1 s2 m1 m2 -> same_answers s2 s1 m2 m1.
Proof. intros H n. specialize (H n). destruct (get_index m1 n), (get_index m2 n); try contradiction; [|exact I]. destruct H as [A B]. split; [now symmetry|]. intros t. now rewrite B. Qed.
Lemma same_trans {B1 B2 B3} (s1 : B1 -> list bytes -> list F) (s2 : B2 -> list bytes -> list F) (s3 : B3 -> list bytes -> list F) m1 m2 m3 :
  same_answers s1 s2 m1 m2 -> same_answers s2 s3 m2 m3 -> same_answers s1 s3 m1 m3.
Proof.
  intros H K n. specialize (H n). specialize (K n). destruct (get_index m1 n), (get_index m2 n), (get_index m3 n); try contradiction; [|exact I].
  destruct H as [A B], K as [C D]. split; [congruence|]. intros t. now rewrite B.
Qed.

(** ** A map that is drained in a given order *)
Lemma source_dec (s s' : source) : {s = s'} + {s <> s'}.
Proof. repeat decide equality. Qed.
Lemma groups_dec (g g' : list (text * list source)) : {g = g'} + {g <> g'}.
Proof. repeat decide equality. Qed.
Lemma drained (g g' : list (text * list source)) : Permutation g' g -> exists drain : list (text * list source) -> list (text * list source), (forall l, Permutation (drain l) l) /\ drain g = g'.
Proof.
  intros P. exists (fun l => if groups_dec l g then g' else l). split.
  - intros l. destruct (groups_dec l g) as [->|]; [exact P|reflexivity].
  - now destruct (groups_dec g g).
Qed.

(** ** Commands *)
Section Main.
Variables (hash : bytes -> N) (fused checked : bool) (tok : bytes -> bytes).
Variable enc_write : list bytes -> bytes -> bytes.
Variable enc_finish : list bytes -> bytes.
Variable gunzip : bytes -> bytes * bool.
Context {Date : Type}.
Variable show_date : Date -> bytes.
Variable parse_date : bytes -> option Date.
Variable parse_url : bytes -> option bytes.
Variables (up : N -> bool) (has_year : Z -> bool) (write : bytes -> bytes) (checks : bool) (fixed_parts : fixed).
Notation build := (@StoreModel.build Date).
Notation model := (@StoreModel.model csmat Date).
Notation report := (@StoreModel.report Date).
Notation prog := (@prog build model report).
Notation file := (@file model report).
Variable get_content : input -> res (content build).
Variable discover : content build -> res (list (content build)).
Variable discovery : content build -> list bytes.
Variable tree : bytes -> FilesModel.node.
Variable crawl : text -> res (list text).
Variable open : source -> res (bool -> list item).
Variable err_text : option N -> text.
Variable tty : bool.
Variable show_path : bytes -> bytes.
Variable cache : bool.
Notation listing := (@listing Date tree crawl).
Notation trains := (trains hash checked tok show_date parse_date parse_url tree crawl open err_text tty).
Notation reports := (reports hash fused tok tree crawl open err_text tty).
Notation prints := (prints hash fused tok tree crawl open err_text tty).
Notation writes := (writes checked enc_write enc_finish show_date parse_date parse_url up has_year write checks fixed_parts).
Notation codec := (MainModel.model_codec checked show_date parse_date parse_url).
Notation does := (does hash fused checked tok enc_write enc_finish gunzip show_date parse_date parse_url up has_year write checks fixed_parts get_content discover discovery tree crawl open err_text tty show_path).
Notation main := (main hash fused checked tok enc_write enc_finish gunzip show_date parse_date parse_url up has_year write checks fixed_parts get_content discover discovery tree crawl open err_text tty show_path cache).
Notation process := (@process build model report (set_extension (lit "json")) cache).
Notation inspect := (@inspect build model report (set_extension (lit "json")) cache).
Notation uses := (uses hash checked tok gunzip show_date parse_date parse_url get_content discover discovery tree crawl open err_text tty).
Notation loaded_live := (loaded_live hash fused tok open err_text).
Notation loaded_report := (loaded_report hash fused tok open err_text).

(** *** One operation after the other *)
Lemma does_try {A} (r : res A) k s out o s' : does (try r k) s out o s' ->
  (exists x, r = Val x /\ does (k x) s out o s') \/ (exists e, r = Fail e /\ out = [] /\ o = Failure /\ s' = s) \/ (r = Panic /\ out = [] /\ o = Panicked /\ s' = s).
Proof. intros H. destruct r as [x|e|]; cbn [try] in H; [left; eauto| |]; inversion H; subst; eauto 10. Qed.
Lemma does_contents : forall l k s out o s', does (get_contents l k) s out o s' ->
  (exists cs, Forall2 (fun i c => get_content i = Val c) l cs /\ does (k cs) s out o s') \/
  ((forall cs, ~ Forall2 (fun i c => get_content i = Val c) l cs) /\ out = [] /\ o <> Success /\ s' = s).
Proof.
  induction l as [|i l IH]; intros k s out o s' H; cbn [get_contents] in H; [left; eauto|].
  inversion H as [|i' k' ? ? ? ? H1| | | | | | | | | |]; subst. apply does_try in H1. destruct H1 as [(c & E & H1)|[(e & E & -> & -> & ->)|(E & -> & -> & ->)]].
  - apply IH in H1. destruct H1 as [(cs & F & H1)|(N & -> & N' & ->)]; [left; exists (c :: cs); split; [now constructor|exact H1]|].
    right. csplit; auto. intros cs F. inversion F as [|? c' ? cs' F1 F2]; subst. now apply N in F2.
  - right. csplit; auto; [|discriminate]. intros cs F. inversion F as [|? c' ? cs' F1 F2]; subst. congruence.
  - right. csplit; auto; [|discriminate]. intros cs F. inversion F as [|? c' ? cs' F1 F2]; subst. congruence.
Qed.
Lemma does_save p f k s out o s' : does (CliModel.save p f k) s out o s' ->
  (o = Failure /\ out = create_says f p /\ (s' = s \/ exists b, writes f false b /\ s' = update (update s p []) p b)) \/
  exists b out', writes f true b /\ does k (update (update s p []) p b) out' o s' /\ out = create_says f p ++ out'.
Proof.
  intros H. unfold CliModel.save in H. inversion H as [| | | | | |p' f' k' ? out' ? ? H1|p' f' k' ? out' ? ? H1| | | |]; subst.
  - inversion H1 as [| | | | | | | |p' f' ok b k' ? ? ? ? W H2| | |]; subst. destruct ok.
    + right. exists b, out'. auto.
    + inversion H2; subst. left. rewrite app_nil_r. csplit; auto. right. eauto.
  - inversion H1; subst. left. rewrite app_nil_r. auto.
Qed.
Lemma update_same s p f : update s p f p = Some f.
Proof. unfold update. now rewrite eqb_list_refl. Qed.
Lemma update_other s p f q : q <> p -> update s p f q = s q.
Proof. intros N. unfold update. destruct (eqb_list q p) eqn:E; [|reflexivity]. apply eqb_list_spec in E. contradiction. Qed.

(** *** Progress messages are no rows, and are on terminals only *)
Lemma group_says_quiet json l : printed (group_says open err_text json l) = [].
Proof. induction l as [|s l IH]; [reflexivity|]. cbn [group_says]. destruct (open s); [|reflexivity|reflexivity]. rewrite printed_app, IH. now destruct (first_error _). Qed.
Lemma train_says_quiet groups : rows_of (printed (train_says tok open err_text tty groups)) = [] /\ (tty = false -> printed (train_says tok open err_text tty groups) = []).
Proof.
  induction groups as [|[n l] groups [IH1 IH2]]; [now split|]. cbn [train_says]. rewrite !printed_app, printed_out, group_says_quiet, !rows_app, progress_rows. cbn [app rows_of flat_map].
  split.
  - destruct (index_train tok open l); [exact IH1|reflexivity|reflexivity].
  - intros E. unfold mode in *. rewrite E in *. cbn [output_mode progress app]. destruct (index_train tok open l); [now apply IH2|reflexivity|reflexivity].
Qed.
Lemma trains_quiet l b r : trains l b r -> findings b = [] /\ (tty = false -> printed b = []).
Proof. intros H. inversion H; subst; try (now split); apply train_says_quiet. Qed.
Lemma report_says_quiet m groups : rows_of (printed (report_says open tty m groups)) = [] /\ (tty = false -> printed (report_says (Date := Date) open tty m groups) = []).
Proof.
  unfold report_says. rewrite printed_out. assert (G : forall l, rows_of (group_reads open tty l) = [] /\ (tty = false -> group_reads open tty l = [])).
  { induction l as [|s l [IH1 IH2]]; [now split|]. cbn [group_reads]. rewrite rows_app, progress_rows. split.
    - destruct (get_processor open s); [exact IH1|reflexivity|reflexivity].
    - intros E. unfold mode. rewrite E in *. cbn [output_mode progress app]. destruct (get_processor open s); [now apply IH2|reflexivity|reflexivity]. }
  induction groups as [|g groups [IH1 IH2]]; [now split|]. cbn [flat_map]. rewrite rows_app, IH1, app_nil_r. destruct (get_index _ _); [|split; [reflexivity|exact IH2]].
  split; [apply G|]. intros E. rewrite (IH2 E), app_nil_r. now apply G.
Qed.
Lemma create_says_quiet (f : file) p : printed (create_says f p) = [].
Proof. now destruct f. Qed.

(** *** The model that a command uses *)
(** It is saved if there is no file yet. *)
Inductive kept (s : disk) (mp : option path) (m : model) : list said -> disk -> Prop :=
| KeptNot : (forall p, mp = Some p -> s p <> None) -> kept s mp m [] s
| KeptNow p b : mp = Some p -> s p = None -> writes (ModelFile m) true b -> kept s mp m (create_says (ModelFile m) p) (update (update s p []) p b).
Lemma uses_quiet s mp bs c b m : uses s mp bs c b m -> findings b = [] /\ (tty = false -> printed b = []).
Proof.
  intros H. inversion H as [p m' E1 E2 E3|l b' m' E1 E2 E3 T|is l b' m' E1 E2 E3 T]; subst; [now split| |now apply trains_quiet in T].
  apply trains_quiet in T. destruct T as [T1 T2]. rewrite findings_app, printed_app, T1. unfold findings. rewrite printed_logs. split; [reflexivity|]. intros E. now rewrite (T2 E).
Qed.
Lemma kept_quiet s mp m b s1 : kept s mp m b s1 -> printed b = [].
Proof. intros H. inversion H; reflexivity. Qed.
Lemma kept_files s mp m b s1 : kept s mp m b s1 -> forall q, (mp = Some q -> s q <> None) -> s1 q = s q.
Proof.
  intros H q Hq. inversion H as [|p b' E N W]; subst; [reflexivity|]. destruct (list_eq_dec N.eq_dec q p) as [->|D]; [now apply Hq in N|]. now rewrite !update_other.
Qed.

Lemma does_keep mp m k s out o s' : does (keep_model mp m k) s out o s' ->
  (exists b out' s1, kept s mp m b s1 /\ does k s1 out' o s' /\ out = b ++ out') \/
  (o = Failure /\ findings out = [] /\ printed out = [] /\ (exists p, mp = Some p /\ s p = None) /\ forall q, (mp = Some q -> s q <> None) -> s' q = s q).
Proof.
  intros H. unfold keep_model in H. destruct mp as [p|]; [|left; exists [], out, s; csplit; auto; constructor; discriminate].
  inversion H as [| | |p' k' ? ? ? ? H1| | | | | | | |]; subst. destruct (s p) as [f|] eqn:E.
  - left. exists [], out, s. csplit; auto. constructor. intros q [= <-]. congruence.
  - apply does_save in H1. destruct H1 as [(-> & -> & S)|(b & out' & W & H1 & ->)].
    + right. csplit; eauto. intros q Hq. destruct S as [->|(b & _ & ->)]; [reflexivity|]. destruct (list_eq_dec N.eq_dec q p) as [->|D]; [exfalso; now apply (Hq eq_refl) in E|]. now rewrite !update_other.
    + left. exists (create_says (ModelFile m) p), out', (update (update s p []) p b). csplit; auto. now constructor.
Qed.
(** Why there is no analysis, once the input is known. *)
Inductive stops (s : disk) (mp : option path) (baselines : option (list input)) (c : content build) : Prop :=
| StopsAmbiguous p : mp = Some p -> s p <> None -> baselines <> None -> stops s mp baselines c
| StopsLoad p : mp = Some p -> s p <> None -> (forall m, load gunzip codec (s p) <> Val m) -> stops s mp baselines c
| StopsDiscover : (forall p, mp = Some p -> s p = None) -> baselines = None -> (forall l, discover c <> Val l) -> stops s mp baselines c
| StopsContents is : (forall p, mp = Some p -> s p = None) -> baselines = Some is -> (forall l, ~ Forall2 (fun i c => get_content i = Val c) is l) -> stops s mp baselines c
| StopsTrain l b r : (forall p, mp = Some p -> s p = None) -> (baselines = None /\ discover c = Val l) \/ (exists is, baselines = Some is /\ Forall2 (fun i c => get_content i = Val c) is l) ->
    trains l b r -> (forall m, r <> Val m) -> stops s mp baselines c
| StopsSave p : mp = Some p -> s p = None -> stops s mp baselines c.
Definition stopped s mp baselines i o : Prop :=
  match get_content i with Val c => stops s mp baselines c /\ o <> Success | Fail _ => o = Failure | Panic => o = Panicked end.
Lemma stopped_not s mp baselines i o : stopped s mp baselines i o -> o <> Success.
Proof. unfold stopped. destruct (get_content i); [now intros []|now intros ->|now intros ->]. Qed.
Lemma does_process rp mp baselines i s out o s' : does (process rp mp baselines i) s out o s' ->
  (exists c m b1 b2 out' s1, get_content i = Val c /\ uses s mp baselines c b1 m /\ kept s mp m b2 s1 /\ does (inspect rp c m) s1 out' o s' /\ out = b1 ++ b2 ++ out') \/
  (stopped s mp baselines i o /\ findings out = [] /\ (tty = false -> printed out = []) /\ forall q, (mp = Some q -> s q <> None) -> s' q = s q).
Proof.
  intros H. unfold CliModel.process in H. inversion H as [|i' k' ? ? ? ? H1| | | | | | | | | |]; subst. unfold stopped. apply does_try in H1.
  destruct H1 as [(c & Ec & H1)|[(e & E & -> & -> & ->)|(E & -> & -> & ->)]]; [|right; rewrite E; csplit; auto|right; rewrite E; csplit; auto]. cbv zeta in H1. rewrite Ec.
  set (finish := fun m => try m (fun m => keep_model mp m (inspect rp c m))) in H1.
  assert (Fin : forall b r out', does (finish r) s out' o s' -> (forall m, r = Val m -> uses s mp baselines c b m) -> ((forall m, r <> Val m) -> stops s mp baselines c) -> findings b = [] -> (tty = false -> printed b = []) ->
    (exists c0 m b1 b2 out2 s1, Val c = Val c0 /\ uses s mp baselines c0 b1 m /\ kept s mp m b2 s1 /\ does (inspect rp c0 m) s1 out2 o s' /\ b ++ out' = b1 ++ b2 ++ out2) \/
    ((stops s mp baselines c /\ o <> Success) /\ findings (b ++ out') = [] /\ (tty = false -> printed (b ++ out') = []) /\ forall q, (mp = Some q -> s q <> None) -> s' q = s q)).
  { intros b r out' Hf Hu Hs F P. subst finish. apply does_try in Hf. destruct Hf as [(m & -> & Hf)|[(e & -> & -> & -> & ->)|(-> & -> & -> & ->)]].
    - apply does_keep in Hf. destruct Hf as [(b2 & out2 & s1 & K & Hi & ->)|(-> & Ff & Pf & (p & E1 & E2) & U)].
      + left. exists c, m, b, b2, out2, s1. csplit; auto.
      + right. rewrite findings_app, printed_app, F, Ff, Pf. csplit; auto; try discriminate; [eapply StopsSave; eauto|]. intros E. now rewrite (P E).
    - right. rewrite app_nil_r. csplit; auto; try discriminate. apply Hs. discriminate.
    - right. rewrite app_nil_r. csplit; auto; try discriminate. apply Hs. discriminate. }
  assert (Build : (forall p, mp = Some p -> s p = None) ->
    does (match baselines with None => Discover c (fun bs => try bs (fun bs => Train bs finish)) | Some l => get_contents l (fun bs => Train bs finish) end) s out o s' ->
    (exists c0 m b1 b2 out2 s1, Val c = Val c0 /\ uses s mp baselines c0 b1 m /\ kept s mp m b2 s1 /\ does (inspect rp c0 m) s1 out2 o s' /\ out = b1 ++ b2 ++ out2) \/
    ((stops s mp baselines c /\ o <> Success) /\ findings out = [] /\ (tty = false -> printed out = []) /\ forall q, (mp = Some q -> s q <> None) -> s' q = s q)).
  { intros Hs Hb. destruct baselines as [l|].
    - apply does_contents in Hb. destruct Hb as [(cs & F & Hb)|(N' & -> & N & ->)]; [|right; csplit; auto; eapply StopsContents; eauto].
      inversion Hb as [| | | | |l' k' ? r b out' ? ? T Hf| | | | | |]; subst. apply trains_quiet in T as Q. apply Fin with (b := b) in Hf; [exact Hf| | |apply Q|apply Q].
      + intros m ->. eapply UsesGiven; eauto.
      + intros Nr. eapply StopsTrain; eauto.
    - inversion Hb as [| |c' k' ? out' ? ? Hd| | | | | | | | |]; subst. apply does_try in Hd. destruct Hd as [(l & El & Hd)|[(e & E & -> & -> & ->)|(E & -> & -> & ->)]].
      + inversion Hd as [| | | | |l' k' ? r b out2 ? ? T Hf| | | | | |]; subst. apply trains_quiet in T as Q. rewrite app_assoc. apply Fin with (b := map (Log Info) (discovery c) ++ b) in Hf; [exact Hf| | | |].
        * intros m ->. eapply UsesFound; eauto.
        * intros Nr. eapply StopsTrain; eauto.
        * rewrite findings_app. unfold findings at 1. rewrite printed_logs. apply Q.
        * intros Et. rewrite printed_app, printed_logs. now apply Q.
      + right. rewrite app_nil_r. unfold findings. rewrite printed_logs. csplit; auto; [apply StopsDiscover; [exact Hs|reflexivity|congruence]|discriminate].
      + right. rewrite app_nil_r. unfold findings. rewrite printed_logs. csplit; auto; [apply StopsDiscover; [exact Hs|reflexivity|congruence]|discriminate]. }
  destruct mp as [p|]; [|apply Build; [discriminate|exact H1]].
  inversion H1 as [| | |p' k' ? ? ? ? H2| | | | | | | |]; subst. destruct (s p) as [f|] eqn:Es; [|apply Build; [intros q [= <-]; exact Es|exact H2]].
  destruct baselines as [l|]; [inversion H2; subst; right; csplit; auto; [eapply StopsAmbiguous; [reflexivity|congruence|discriminate]|discriminate]|].
  inversion H2 as [| | | |p' k' ? out' ? ? H3| | | | | | |]; subst. rewrite Es in H3.
  apply Fin with (b := [Log Info (lit "Loading provided model path=" ++ p)]) in H3; [exact H3| | |reflexivity|reflexivity].
  - intros m E. apply UsesLoaded; [reflexivity|reflexivity|]. now rewrite Es.
  - intros N. eapply StopsLoad; [reflexivity|congruence|]. rewrite Es. exact N.
Qed.
Lemma does_live c m s out o s' : does (inspect None c m) s out o s' ->
  s' = s /\ match live_pieces tok (loaded_search hash fused) open err_text (mode tty) (loaded_indexes m) c (listing c) with
            | Val ps => o = Success /\ out = map Out ps
            | Fail _ => o = Failure /\ out = []
            | Panic => o = Panicked
            end.
Proof.
  intros H. cbn [CliModel.inspect] in H. inversion H as [| | | | | | | | |c' m' k' ? r b out' ? ? P H1| |]; subst. apply does_try in H1.
  inversion P as [ps E|e E|l E]; subst; rewrite E.
  - destruct H1 as [(x & _ & H1)|[(e & X & _)|(X & _)]]; try discriminate. inversion H1; subst. rewrite app_nil_r. auto.
  - destruct H1 as [(x & X & _)|[(e' & _ & -> & -> & ->)|(X & _)]]; try discriminate. auto.
  - destruct H1 as [(x & X & _)|[(e & X & _)|(_ & -> & -> & ->)]]; try discriminate. auto.
Qed.
(** The files that a report is written to *)
Definition written_to (rp : option path) (q : path) : Prop :=
  match rp with None => False | Some file => q = file \/ (cache = true /\ q = set_extension (lit "json") file) end.
Lemma does_report file c m s out o s' : does (inspect (Some file) c m) s out o s' ->
  (forall q, ~ written_to (Some file) q -> s' q = s q) /\ (o = Failure -> findings out = []) /\ (tty = false -> o = Failure -> printed out = [] \/ printed out = [Says (show_path file ++ lit ": Writing report...")]) /\
  (o = Success -> exists b r page, reports c m b (Val r) /\ render_saved up has_year write checks fixed_parts r = Val page /\ s' file = Some page /\
     printed out = printed b ++ [Says (show_path file ++ lit ": Writing report...")]).
Proof.
  intros H. cbn [CliModel.inspect] in H. inversion H as [| | | | | | | | | |c' m' k' ? r b out' ? ? R H1|]; subst. apply does_try in H1.
  destruct H1 as [(x & -> & H1)|[(e & -> & -> & -> & ->)|(-> & -> & -> & ->)]].
  - assert (Q : findings b = [] /\ (tty = false -> printed b = [])).
    { inversion R; subst. apply report_says_quiet. }
    assert (Rest : forall s1 out1, does (Render file x (fun o => try o (fun _ => Create file (Page x) (fun created => if created then Write file (Page x) (fun written => Done (if written then Success else Failure)) else Done Failure)))) s1 out1 o s' ->
      (forall q, q <> file -> s' q = s1 q) /\ printed out1 = [Says (show_path file ++ lit ": Writing report...")] /\
      (o = Success -> exists page, render_saved up has_year write checks fixed_parts x = Val page /\ s' file = Some page)).
    { clear H1 H. intros s1 out1 H. inversion H as [| | | | | | | | | | |p' r' k2 ? out2 ? ? H1]; subst. apply does_try in H1.
      destruct H1 as [(u & E & H1)|[(e & E & -> & -> & ->)|(E & -> & -> & ->)]]; [|csplit; auto; discriminate|csplit; auto; discriminate].
      inversion H1 as [| | | | | |p' f' k2 ? out3 ? ? H2|p' f' k2 ? out3 ? ? H2| | | |]; subst; cbn [create_says app].
      - inversion H2 as [| | | | | | | |p' f' ok pg k3 ? ? ? ? W H3| | |]; subst. inversion H3; subst. csplit; [|reflexivity|].
        + intros q Hq. now rewrite !update_other.
        + intros Eo. destruct ok; [|discriminate]. inversion W; subst. rewrite update_same. eauto.
      - inversion H2; subst. csplit; auto. discriminate. }
    destruct cache eqn:Ec.
    + apply does_save in H1. destruct H1 as [(-> & -> & S)|(pg & out2 & W & H1 & ->)].
      * cbn [create_says]. rewrite app_nil_r. csplit; [|intros _; apply Q|intros Et _; left; now apply Q|discriminate]. intros q Hq. destruct S as [->|(pg & _ & ->)]; [reflexivity|]. rewrite !update_other; [reflexivity|intros ->..]; apply Hq; cbn; auto.
      * cbn [create_says app]. apply Rest in H1. destruct H1 as (K1 & K2 & K3). csplit.
        -- intros q Hq. rewrite K1 by (intros ->; apply Hq; now left). rewrite !update_other; [reflexivity|intros ->..]; apply Hq; cbn; auto.
        -- intros _. unfold findings. rewrite printed_app, K2. destruct Q as [Q _]. unfold findings in Q. now rewrite flat_map_app, Q.
        -- intros Et _. rewrite printed_app, K2. destruct Q as [_ Q]. rewrite (Q Et). now right.
        -- intros Eo. destruct (K3 Eo) as (page & P1 & P2). exists b, x, page. rewrite printed_app, K2. csplit; auto.
    + apply Rest in H1. destruct H1 as (K1 & K2 & K3). csplit.
      * intros q Hq. apply K1. intros ->. apply Hq. now left.
      * intros _. unfold findings. rewrite printed_app, K2. destruct Q as [Q _]. unfold findings in Q. now rewrite flat_map_app, Q.
      * intros Et _. rewrite printed_app, K2. destruct Q as [_ Q]. rewrite (Q Et). now right.
      * intros Eo. destruct (K3 Eo) as (page & P1 & P2). exists b, x, page. rewrite printed_app, K2. csplit; auto.
  - rewrite app_nil_r. assert (b = []) as -> by (inversion R; reflexivity). csplit; auto. discriminate.
  - csplit; auto; discriminate.
Qed.

(** *** Models that were trained with the same logs *)
Lemma trained_answers l b sm : trains l b (Val sm) -> exists drain m, (forall g, Permutation (drain g) g) /\ model_train tok open drain (map listing l) = Val m /\
  m_baselines sm = l /\ same_answers (loaded_search hash fused) (real_search hash fused) (loaded_indexes sm) m.
Proof.
  intros H. inversion H as [g g' m times now ixs G P T Q R| | | |]; subst. destruct (drained _ _ P) as (drain & D1 & D2).
  assert (M : model_train tok open drain (map listing l) = Val m) by (unfold model_train; now rewrite G, D2).
  exists drain, m. csplit; auto. destruct (C40_trained_names tok open drain (map listing l) m D1 M) as (_ & _ & Nd & _).
  eapply stored_answers; [exact Nd|exact Q|]. destruct R as (_ & _ & _ & _ & R). eapply Forall_impl; [|exact R]. now intros e [].
Qed.
Lemma trained_same l b1 m1 b2 m2 : trains l b1 (Val m1) -> trains l b2 (Val m2) ->
  same_answers (loaded_search hash fused) (loaded_search hash fused) (loaded_indexes m1) (loaded_indexes m2).
Proof.
  intros H1 H2. destruct (trained_answers _ _ _ H1) as (d1 & t1 & D1 & T1 & _ & A1), (trained_answers _ _ _ H2) as (d2 & t2 & D2 & T2 & _ & A2).
  eapply same_trans; [exact A1|]. apply same_sym in A2. eapply same_trans; [|exact A2].
  destruct (C40_trained_names tok open d1 _ t1 D1 T1) as (_ & _ & Nd & _).
  assert (P : Permutation t1 t2).
  { unfold model_train in T1, T2. destruct (group_sources (map listing l)) as [g|e|]; try discriminate. apply train_all_ok in T1, T2.
    assert (Pg : Permutation (d1 g) (d2 g)) by (rewrite D1, D2; reflexivity). destruct (Permutation_Forall2 Pg T1) as (t' & P & F). replace t2 with t'; [exact P|].
    clear - F T2. revert t2 T2. induction F as [|x y l k [A B] _ IH]; intros t2 T2; inversion T2 as [|? y' ? k' [A' B'] T2']; subst; [reflexivity|]. f_equal; [|now apply IH].
    destruct y, y'. cbn [fst snd] in *. congruence. }
  intros n. rewrite (get_index_perm t1 t2 n Nd P). destruct (get_index t2 n); [|exact I]. now split.
Qed.
Lemma trained_again l b1 m1 b2 r : trains l b1 (Val m1) -> trains l b2 r -> exists m2, r = Val m2.
Proof.
  intros H1 H2. inversion H1 as [g g' m times now ixs G P T Q R| | | |]; subst. inversion H2 as [g2 g2' m2 times2 now2 ixs2 G2 P2 T2|g2 g2' e G2 P2 T2|g2 g2' G2 P2 T2|e G2|G2]; subst; try congruence; [eauto| |].
  all: rewrite G in G2; injection G2 as <-; apply train_all_ok in T; assert (Pg : Permutation g' g2') by (rewrite P, P2; reflexivity);
    destruct (Permutation_Forall2 Pg T) as (t' & _ & F); apply train_all_val in F; congruence.
Qed.

(** *** C88: what a command writes *)
Lemma run_analyses cmd baselines i rp mp : analyses cmd baselines i -> run (set_extension (lit "json")) cache rp mp cmd = process rp mp baselines i.
Proof. now intros []. Qed.
(** What analyses with the model of a training give is what they give with the lines of its logs. *)
Theorem C88_trained : forall l b sm, trains l b (Val sm) -> exists drain m, (forall g, Permutation (drain g) g) /\ model_train tok open drain (map listing l) = Val m /\ m_baselines sm = l /\
  (forall target, loaded_live sm target = process_live above_threshold tok (real_search hash fused) open err_text m target) /\
  (forall drain' target, loaded_report drain' sm target = model_report above_threshold tok (real_search hash fused) open err_text drain' m target).
Proof.
  intros l b sm H. destruct (trained_answers _ _ _ H) as (drain & m & D & T & B & A). exists drain, m. csplit; auto.
  - intros target. now apply process_live_same.
  - intros drain' target. now apply model_report_same.
Qed.
(** Without --report, a command that succeeds has written the rows of the analysis of its input with its
    model; without a terminal each on its line, and nothing else but the lines of tracing.  It has
    changed no file, but for the model, which it does not change if it is there. *)
Theorem C88_live : forall cmd baselines i mp s out s', analyses cmd baselines i -> main None mp cmd s out Success s' ->
  exists c b m rows n k, get_content i = Val c /\ uses s mp baselines c b m /\ loaded_live m (listing c) = Val (rows, n, k) /\ findings out = rows /\
    (tty = false -> exists texts, Forall2 (fun row t => live_text up row = Some t) rows texts /\ written up (printed out) = Some (flat_map (fun t => t ++ [10]) texts)) /\
    forall q, (mp = Some q -> s q <> None) -> s' q = s q.
Proof.
  intros cmd baselines i mp s out s' A H. inversion H as [out' o s1 D]; subst. rewrite app_nil_r in *. rewrite (run_analyses _ _ _ _ _ A) in D.
  apply does_process in D. destruct D as [(c & m & b1 & b2 & out2 & s1 & Ec & U & K & D & ->)|(N & _)]; [|now apply stopped_not in N].
  apply does_live in D. destruct D as [-> L]. destruct (live_pieces tok _ open err_text _ _ c (listing c)) as [ps|e|] eqn:E; [|destruct L; discriminate|discriminate]. destruct L as [_ ->].
  destruct (pieces_rows _ _ _ _ _ _ _ _ _ E) as (n & k & R). destruct (uses_quiet _ _ _ _ _ _ U) as [Q1 Q2]. pose proof (kept_quiet _ _ _ _ _ K) as Q3.
  exists c, b1, m, (rows_of ps), n, k. csplit; auto.
  - rewrite !findings_app, Q1, findings_out. unfold findings. now rewrite Q3.
  - intros Et. rewrite !printed_app, printed_out, Q3, (Q2 Et). cbn [app].
    assert (C : content_text c <> None) by (unfold live_pieces in E; destruct (get_sources _); [|discriminate|discriminate]; destruct (live_loop _ _ _ _ _ _ _ _) as [[[[? ?] ?] ?]|?|]; [|discriminate|discriminate]; now destruct (content_text c)).
    destruct (C83_quiet up tok (loaded_search hash fused) open err_text Date false tty (loaded_indexes m) c (listing c) _ _ _ (or_intror Et) R C) as (texts & T1 & T2).
    exists texts. split; [exact T1|]. unfold live_stdout in T2. change (output_mode false tty) with (mode tty) in T2. rewrite E in T2. destruct (written up ps); [|discriminate]. now injection T2 as ->.
  - eapply kept_files; eauto.
Qed.
(** A command that fails, whichever it is, has written no row, and without a terminal nothing, but for
    the line about the report. *)
Theorem C88_failure : forall cmd rp mp s out s', main rp mp cmd s out Failure s' ->
  findings out = [] /\ (tty = false -> printed out = [] \/ exists file, rp = Some file /\ printed out = [Says (show_path file ++ lit ": Writing report...")]).
Proof.
  intros cmd rp mp s out s' H. inversion H as [out' o s1 D]; subst.
  assert (End : findings out' = [] /\ (tty = false -> printed out' = [] \/ exists file, rp = Some file /\ printed out' = [Says (show_path file ++ lit ": Writing report...")])).
  { assert (P : forall baselines i, does (process rp mp baselines i) s out' Failure s' -> findings out' = [] /\ (tty = false -> printed out' = [] \/ exists file, rp = Some file /\ printed out' = [Says (show_path file ++ lit ": Writing report...")])).
    { clear D H. intros baselines i D. apply does_process in D. destruct D as [(c & m & b1 & b2 & out2 & s1 & Ec & U & K & D & ->)|(_ & F & P & _)]; [|auto].
      destruct (uses_quiet _ _ _ _ _ _ U) as [Q1 Q2]. pose proof (kept_quiet _ _ _ _ _ K) as Q3. destruct rp as [file|].
      - apply does_report in D. destruct D as (_ & D1 & D2 & _). rewrite !findings_app, !printed_app, Q1, (D1 eq_refl), Q3. unfold findings. rewrite Q3. split; [reflexivity|].
        intros Et. rewrite (Q2 Et). destruct (D2 Et eq_refl) as [-> | ->]; eauto.
      - apply does_live in D. destruct D as [-> L]. destruct (live_pieces tok _ open err_text _ _ c (listing c)) as [ps|e|] eqn:E; [destruct L; discriminate| |discriminate]. destruct L as [_ ->].
        rewrite !findings_app, !printed_app, Q1, Q3. unfold findings. rewrite Q3. split; [reflexivity|]. intros Et. left. now rewrite (Q2 Et). }
    destruct cmd; cbn [run] in D; try (now apply P in D); try (now inversion D).
    destruct mp as [p|]; [|inversion D; subst; auto]. apply does_contents in D. destruct D as [(cs & F & D)|(_ & -> & _)]; [|auto].
    inversion D as [| | | | |l' k' ? r b out2 ? ? T D1| | | | | |]; subst. apply trains_quiet in T. destruct T as [T1 T2]. apply does_try in D1.
    destruct D1 as [(m & -> & D1)|[(e & -> & -> & _ & ->)|(_ & _ & X & _)]]; [| |discriminate].
    - apply does_save in D1. assert (Q : printed out2 = []).
      { destruct D1 as [(_ & -> & _)|(x & out3 & _ & D1 & ->)]; [reflexivity|]. inversion D1; subst; reflexivity. }
      rewrite findings_app, printed_app, T1. unfold findings. rewrite Q. split; [reflexivity|]. intros Et. left. now rewrite (T2 Et).
    - rewrite app_nil_r. auto. }
  destruct End as [E1 E2]. rewrite findings_app, printed_app, E1. split.
  - now destruct (inlined (mode tty)).
  - intros Et. specialize (E2 Et). unfold mode. rewrite Et. cbn [output_mode inlined printed flat_map]. rewrite app_nil_r. auto.
Qed.

(** With --report, a command that succeeds has written a page to the file: the page of a report of the
    analysis of its input with its model.  Without a terminal it writes one line about it, and
    nothing else but the lines of tracing.  It has changed no other file but those it is asked for. *)
Theorem C88_report : forall cmd baselines i file mp s out s', analyses cmd baselines i -> main (Some file) mp cmd s out Success s' ->
  exists c b m drain found r page, get_content i = Val c /\ uses s mp baselines c b m /\ (forall g, Permutation (drain g) g) /\
    loaded_report drain m (listing c) = Val found /\ report_about c m found r /\ render_saved up has_year write checks fixed_parts r = Val page /\ s' file = Some page /\
    findings out = [] /\ (tty = false -> written up (printed out) = Some (show_path file ++ lit ": Writing report..." ++ [10])) /\
    forall q, q <> file -> (cache = true -> q <> set_extension (lit "json") file) -> (mp = Some q -> s q <> None) -> s' q = s q.
Proof.
  intros cmd baselines i file mp s out s' A H. inversion H as [out' o s1 D]; subst. rewrite app_nil_r in *. rewrite (run_analyses _ _ _ _ _ A) in D.
  apply does_process in D. destruct D as [(c & m & b1 & b2 & out2 & s1 & Ec & U & K & D & ->)|(N & _)]; [|now apply stopped_not in N].
  apply does_report in D. destruct D as (D1 & _ & _ & D4). destruct (D4 eq_refl) as (b & r & page & R & P1 & P2 & P3).
  destruct (uses_quiet _ _ _ _ _ _ U) as [Q1 Q2]. pose proof (kept_quiet _ _ _ _ _ K) as Q3.
  inversion R as [g g' found r' G P E M| | |]; subst. destruct (drained _ _ P) as (drain & X1 & X2).
  exists c, b1, m, drain, found, r, page. csplit; auto.
  - unfold SavedModel.loaded_report, model_report. now rewrite G, X2.
  - rewrite !findings_app, Q1. unfold findings. rewrite Q3, P3, flat_map_app. fold (rows_of (printed (report_says open tty m g'))). now rewrite (proj1 (report_says_quiet _ _)).
  - intros Et. rewrite !printed_app, Q3, P3, (Q2 Et), (proj2 (report_says_quiet _ _) Et). cbn [app]. rewrite written_cons. cbn [piece_bytes]. unfold written. cbn [all_texts option_map concat]. now rewrite app_nil_r, <- app_assoc.
  - intros q N1 N2 N3. rewrite D1 by (cbn; intuition). eapply kept_files; eauto.
Qed.

Lemma trained_rust l b m : trains l b (Val m) -> rust_model (ok_mat checked) show_date parse_date parse_url m.
Proof. intros T. inversion T as [g g' t times now ixs G P Tr Q R| | | |]; subst. exact R. Qed.
Lemma written_model m f : gzip_codec enc_write enc_finish gunzip -> good_urls parse_url -> good_dates show_date parse_date ->
  rust_model (ok_mat checked) show_date parse_date parse_url m -> writes (ModelFile m) true f ->
  load gunzip codec (Some f) = Val m \/ exists e, load gunzip codec (Some f) = Fail e.
Proof.
  intros gz GU GD R W. inversion W as [m' r f' S Em Er| | |]; subst.
  destruct (C74_model_saves enc_write enc_finish gunzip gz (csmat_codec checked) (ok_mat checked) show_date parse_date parse_url (csmat_good checked) GU GD (Some []) [(m, Some r)] (Some f)) as [[E N]|(h1 & m' & o & h2 & E & _ & _ & L & _)].
  - constructor; [exact R|constructor].
  - apply (MoreSave _ _ _ _ []) with (f := Some []); [constructor|exact S].
  - inversion N as [|x y N1 _]; subst. exfalso. apply N1. cbn [snd]. destruct r as [[]|e|]; [reflexivity|discriminate|discriminate].
  - destruct h1 as [|x h1]; [|destruct h1; discriminate]. injection E as <- <- <-. destruct L as [L|L]; [now left|right; eauto].
Qed.
(** A train command that succeeds: the model that it has trained is what loads from its file, unless the
    end of the file was lost. *)
Lemma trained_file bs M s out s' : gzip_codec enc_write enc_finish gunzip -> good_urls parse_url -> good_dates show_date parse_date ->
  main None (Some M) (CmdTrain bs) s out Success s' ->
  exists l b m, Forall2 (fun i c => get_content i = Val c) (map input_from_string bs) l /\ trains l b (Val m) /\
    s' M <> None /\ (load gunzip codec (s' M) = Val m \/ exists e, load gunzip codec (s' M) = Fail e).
Proof.
  intros gz GU GD H. inversion H as [out' o s1 D]; subst. cbn [run] in D. apply does_contents in D. destruct D as [(cs & F & D)|(_ & _ & N & _)]; [|congruence].
  inversion D as [| | | | |l' k' ? r b out2 ? ? T D1| | | | | |]; subst. apply does_try in D1.
  destruct D1 as [(m & -> & D1)|[(e & _ & _ & X & _)|(_ & _ & X & _)]]; [|discriminate|discriminate].
  apply does_save in D1. destruct D1 as [(X & _)|(f & out3 & W & D1 & ->)]; [discriminate|]. inversion D1; subst. exists cs, b, m. csplit; auto.
  - now rewrite update_same.
  - rewrite update_same. eapply written_model; eauto. now apply trained_rust in T.
Qed.
Lemma contents_unique is l l' : Forall2 (fun i c => get_content i = Val c) is l -> Forall2 (fun i c => get_content i = Val c) is l' -> l = l'.
Proof.
  intros H. revert l'. induction H as [|i c is l E _ IH]; intros l' H'; inversion H' as [|? c' ? l2 E' H2]; subst; [reflexivity|]. f_equal; [congruence|now apply IH].
Qed.
(** Two analyses of a content with models that answer the same. *)
Lemma live_twice c m1 m2 s1 s2 out1 out2 o1 o2 s1' s2' : same_answers (loaded_search hash fused) (loaded_search hash fused) (loaded_indexes m1) (loaded_indexes m2) ->
  does (inspect None c m1) s1 out1 o1 s1' -> does (inspect None c m2) s2 out2 o2 s2' -> o1 = o2 /\ (o1 <> Panicked -> out1 = out2) /\ s1' = s1 /\ s2' = s2.
Proof.
  intros A H1 H2. apply does_live in H1, H2. rewrite (pieces_same tok _ _ open err_text (mode tty) _ _ c (listing c) A) in H1. destruct H1 as [-> H1], H2 as [-> H2].
  destruct (live_pieces _ _ _ _ _ _ _ _) as [ps|e|]; [destruct H1 as [-> ->], H2 as [-> ->]; auto..|]. subst. csplit; auto. congruence.
Qed.
(** C88: to train a model, and later to analyse an input with it, prints what comparing the input with
    the baselines prints, unless the file of the model lost its end: then the command fails. *)
Theorem C88_train_then_analyse : forall bs t M cmd s out1 s1 out2 o2 s2 s0 out3 o3 s3,
  gzip_codec enc_write enc_finish gunzip -> good_urls parse_url -> good_dates show_date parse_date ->
  analyses cmd None (input_from_string t) ->
  main None (Some M) (CmdTrain bs) s out1 Success s1 -> main None (Some M) cmd s1 out2 o2 s2 -> main None None (CmdDiff bs t) s0 out3 o3 s3 ->
  (o2 = o3 /\ s2 M = s1 M /\ (o3 = Success -> findings out2 = findings out3 /\ (tty = false -> printed out2 = printed out3))) \/
  ((exists e, load gunzip codec (s1 M) = Fail e) /\ o2 <> Success /\ findings out2 = []).
Proof.
  intros bs t M cmd s out1 s1 out2 o2 s2 s0 out3 o3 s3 gz GU GD A H1 H2 H3. destruct (trained_file _ _ _ _ _ gz GU GD H1) as (l & b & m & F & T & N & L). clear H1.
  inversion H2 as [out2' o s' D2]; subst. inversion H3 as [out3' o s' D3]; subst. rewrite (run_analyses _ _ _ _ _ A) in D2. rewrite (run_analyses _ _ _ _ _ (AnalysesDiff bs t)) in D3.
  assert (E : forall o l', printed (l' ++ match o with Failure => if inlined (mode tty) then [Out EndLine] else [] | _ => [] end) = printed l' ++ match o with Failure => if inlined (mode tty) then [EndLine] else [] | _ => [] end).
  { intros o l'. rewrite printed_app. now destruct o, (inlined (mode tty)). }
  unfold findings. rewrite !E, !flat_map_app. fold (findings out2') (findings out3').
  apply does_process in D2. apply does_process in D3. destruct D3 as [(c3 & m3 & x1 & x2 & y3 & z3 & C3 & U3 & K3 & D3 & ->)|(S3 & F3 & P3 & _)].
  - inversion U3 as [? ? _ X|? ? ? _ X|is l3 b3 m3' _ Xb F' T3]; subst; try discriminate. injection Xb as <-. rewrite <- (contents_unique _ _ _ F F') in *.
    inversion K3; subst; [|discriminate]. destruct (trains_quiet _ _ _ T3) as [Q3 Q3']. destruct D2 as [(c2 & m2 & w1 & w2 & y2 & z2 & C2 & U2 & K2 & D2 & ->)|(S2 & F2 & P2 & _)].
    + inversion U2 as [p m2' Xp _ Lm|? ? ? Xs _ _ _|? ? ? ? _ X]; subst; [|now destruct (N (Xs M eq_refl))|discriminate]. injection Xp as <-.
      inversion K2 as [Ks|? ? Xp Xs]; subst; [|injection Xp as <-; congruence]. rewrite C3 in C2. injection C2 as <-.
      destruct L as [L|(e & L)]; [|rewrite L in Lm; discriminate]. rewrite Lm in L. injection L as <-. left.
      destruct (live_twice _ _ _ _ _ _ _ _ _ _ _ (trained_same _ _ _ _ _ T T3) D2 D3) as (Eo & Eout & E1 & E2). rewrite E1, Eo in *. csplit; auto. intros ->. rewrite Eout by discriminate.
      rewrite !findings_app, !printed_app, Q3. cbn [findings printed flat_map app]. split; [reflexivity|]. intros Et. now rewrite (Q3' Et).
    + unfold stopped in S2. rewrite C3 in S2. destruct S2 as [S2 No]. destruct L as [L|L].
      * exfalso. inversion S2 as [? ? ? X|p Xp Xs Xl|Xs|? Xs|? ? ? Xs|p Xp Xs]; subst; try (now apply N, Xs); try congruence; injection Xp as <-; congruence.
      * right. csplit; auto. rewrite F2. now destruct o2, (inlined (mode tty)).
  - unfold stopped in S3. destruct (get_content (input_from_string t)) as [c|e|] eqn:C.
    + exfalso. destruct S3 as [S3 No]. inversion S3 as [? X|? X|_ X|is _ X Xn|l3 b3 r3 _ Xc T3 Xn|? X]; subst; try discriminate.
      * injection X as <-. now apply Xn in F.
      * destruct Xc as [[Xc _]|(is & Xc & F')]; [discriminate|]. injection Xc as <-. rewrite (contents_unique _ _ _ F' F) in T3. destruct (trained_again _ _ _ _ _ T T3) as [m3 ->]. now apply (Xn m3).
    + subst o3. left. destruct D2 as [(c2 & m2 & w1 & w2 & y2 & z2 & C2 & _)|(S2 & F2 & P2 & U2)]; [congruence|]. unfold stopped in S2. rewrite C in S2. csplit; [exact S2|apply U2; auto|discriminate].
    + subst o3. left. destruct D2 as [(c2 & m2 & w1 & w2 & y2 & z2 & C2 & _)|(S2 & F2 & P2 & U2)]; [congruence|]. unfold stopped in S2. rewrite C in S2. csplit; [exact S2|apply U2; auto|discriminate].
Qed.
(** C88: with --report, the page then shows the report that comparing with the baselines gives, up to the
    order of its entries: for both, the hash maps are drained in any order. *)
Theorem C88_train_then_report : forall bs t M f2 f3 cmd s out1 s1 out2 s2 s0 out3 s3,
  gzip_codec enc_write enc_finish gunzip -> good_urls parse_url -> good_dates show_date parse_date ->
  analyses cmd None (input_from_string t) ->
  main None (Some M) (CmdTrain bs) s out1 Success s1 -> main (Some f2) (Some M) cmd s1 out2 Success s2 -> main (Some f3) None (CmdDiff bs t) s0 out3 Success s3 ->
  exists (r2 r3 : report) page2 page3, s2 f2 = Some page2 /\ s3 f3 = Some page3 /\
    render_saved up has_year write checks fixed_parts r2 = Val page2 /\ render_saved up has_year write checks fixed_parts r3 = Val page3 /\
    r_target r2 = r_target r3 /\ r_baselines r2 = r_baselines r3 /\
    Permutation (log_reports (report_of r2)) (log_reports (report_of r3)) /\ Permutation (index_reports (report_of r2)) (index_reports (report_of r3)) /\
    Permutation (index_errors (report_of r2)) (index_errors (report_of r3)) /\ Permutation (read_errors (report_of r2)) (read_errors (report_of r3)) /\
    total_line_count (report_of r2) = total_line_count (report_of r3) /\ total_anomaly_count (report_of r2) = total_anomaly_count (report_of r3).
Proof.
  intros bs t M f2 f3 cmd s out1 s1 out2 s2 s0 out3 s3 gz GU GD A H1 H2 H3. destruct (trained_file _ _ _ _ _ gz GU GD H1) as (l & b & m & F & T & N & L). clear H1.
  destruct (C88_report _ _ _ _ _ _ _ _ A H2) as (c & b2 & m2 & d2 & found2 & r2 & page2 & C2 & U2 & D2 & R2 & M2 & P2 & S2 & _).
  destruct (C88_report _ _ _ _ _ _ _ _ (AnalysesDiff bs t) H3) as (c3 & b3 & m3 & d3 & found3 & r3 & page3 & C3 & U3 & D3 & R3 & M3 & P3 & S3 & _).
  rewrite C2 in C3. injection C3 as <-.
  inversion U2 as [p m2' Xp _ Lm|? ? ? Xs _ _ _|? ? ? ? _ X]; subst; [|now destruct (N (Xs M eq_refl))|discriminate]. injection Xp as <-.
  destruct L as [L|(e & L)]; [|rewrite L in Lm; discriminate]. rewrite Lm in L. injection L as <-.
  inversion U3 as [? ? _ X|? ? ? _ X|is l3 b3' m3' _ Xb F' T3]; subst; try discriminate. injection Xb as <-. rewrite <- (contents_unique _ _ _ F F') in *.
  destruct (C88_trained _ _ _ T) as (d & tm & D & Tm & B2 & _ & E2). destruct (C88_trained _ _ _ T3) as (d' & tm' & D' & Tm' & B3 & _ & E3). rewrite E2 in R2. rewrite E3 in R3.
  destruct (C57_training_order_irrelevant above_threshold tok (real_search hash fused) (real_dist hash fused) open err_text d d2 d' d3 _ _ _ _ (real_pointwise hash fused) D D2 D' D3 Tm R2) as (tm2 & found & Q1 & Q2 & Q).
  rewrite Tm' in Q1. injection Q1 as <-. rewrite R3 in Q2. injection Q2 as <-.
  destruct M2 as (X1 & X2 & X3 & X4 & X5 & X6 & X7 & X8), M3 as (Y1 & Y2 & Y3 & Y4 & Y5 & Y6 & Y7 & Y8), Q as (Q1 & Q2 & Q3 & Q4 & Q5 & Q6).
  exists r2, r3, page2, page3. csplit; auto; try congruence; try (cbn [report_of total_line_count total_anomaly_count]; congruence). rewrite X4, Y4. exact Q2.
Qed.
(** C88: a command with --model that succeeded, given again, prints the same with the model that was saved
    the first time, unless the file of the model lost its end: then the command fails. *)
Theorem C88_again : forall cmd i M s out1 s1 out2 o2 s2,
  gzip_codec enc_write enc_finish gunzip -> good_urls parse_url -> good_dates show_date parse_date ->
  analyses cmd None i -> main None (Some M) cmd s out1 Success s1 -> main None (Some M) cmd s1 out2 o2 s2 ->
  (o2 = Success /\ (forall q, s2 q = s1 q) /\ findings out2 = findings out1 /\ (tty = false -> printed out2 = printed out1)) \/
  (s M = None /\ (exists e, load gunzip codec (s1 M) = Fail e) /\ o2 <> Success /\ findings out2 = []).
Proof.
  intros cmd i M s out1 s1 out2 o2 s2 gz GU GD A H1 H2. inversion H1 as [out1' o s' D1]; subst. inversion H2 as [out2' o s' D2]; subst. rewrite (run_analyses _ _ _ _ _ A) in D1, D2. rewrite app_nil_r in *.
  apply does_process in D1. destruct D1 as [(c & m & b1 & b2 & y1 & z1 & C & U1 & K1 & D1 & ->)|(N & _)]; [|now apply stopped_not in N].
  apply does_live in D1 as X1. destruct X1 as [Es X1]. subst z1.
  assert (L : s1 M <> None /\ (load gunzip codec (s1 M) = Val m \/ (s M = None /\ exists e, load gunzip codec (s1 M) = Fail e))).
  { inversion K1 as [Ks|p b Xp Xs W]; subst.
    - specialize (Ks M eq_refl). split; [exact Ks|left]. inversion U1 as [p m' Xp _ Lm|? ? ? Xs _ _ _|? ? ? ? _ X]; subst; [|now destruct (Ks (Xs M eq_refl))|discriminate]. now injection Xp as <-.
    - injection Xp as <-. rewrite update_same. split; [discriminate|]. assert (R : rust_model (ok_mat checked) show_date parse_date parse_url m).
      { inversion U1 as [p m' Xp _ Lm|l b' m' _ _ _ T|? ? ? ? _ X]; subst; [|now apply trained_rust in T|discriminate]. injection Xp as <-. rewrite Xs in Lm. discriminate. }
      destruct (written_model _ _ gz GU GD R W) as [E|E]; auto. }
  destruct L as [N L]. destruct (uses_quiet _ _ _ _ _ _ U1) as [Q1 Q1']. pose proof (kept_quiet _ _ _ _ _ K1) as Q2.
  apply does_process in D2. destruct D2 as [(c2 & m2 & w1 & w2 & y2 & z2 & C2 & U2 & K2 & D2 & ->)|(S2 & F2 & P2 & _)].
  - rewrite C in C2. injection C2 as <-. inversion U2 as [p m2' Xp _ Lm|? ? ? Xs _ _ _|? ? ? ? _ X]; subst; [|now destruct (N (Xs M eq_refl))|discriminate]. injection Xp as <-.
    inversion K2 as [Ks|? ? Xp Xs]; subst; [|injection Xp as <-; congruence]. destruct L as [L|(_ & e & L)]; [|rewrite L in Lm; discriminate]. rewrite L in Lm. injection Lm as <-.
    apply does_live in D2. destruct D2 as [-> X2]. left. destruct (live_pieces _ _ _ _ _ _ _ _) as [ps|e|]; [|destruct X1; discriminate|discriminate]. destruct X1 as [_ ->], X2 as [-> ->].
    rewrite app_nil_r, !findings_app, !printed_app, Q1, Q2. cbn [findings printed flat_map app]. unfold findings at 2. rewrite Q2. csplit; auto. intros Et. now rewrite (Q1' Et).
  - unfold stopped in S2. rewrite C in S2. destruct S2 as [S2 No]. destruct L as [L|[L0 L]].
    + exfalso. inversion S2 as [? ? ? X|p Xp Xs Xl|Xs|? Xs|? ? ? Xs|p Xp Xs]; subst; try (now apply N, Xs); try congruence; injection Xp as <-; congruence.
    + right. csplit; auto. rewrite findings_app, F2. now destruct o2, (inlined (mode tty)).
Qed.

(** *** A target that is one of the baselines *)
Lemma analysis_readable dist known items cs err lines : @analysis F above_threshold tok dist known items cs err lines ->
  Forall (fun it => match it with ILine b _ => valid_utf8 b = true | IErr _ => False end) items -> err = None.
Proof.
  intros [(rest & -> & _ & E) _] R. destruct err as [e|]; [exfalso|reflexivity]. destruct E as (bad & rest' & -> & Fb). apply Forall_app in R. destruct R as [_ R]. inversion R as [|? ? R1 _]; subst.
  destruct bad as [b nr|e']; [|exact R1]. cbn [failing] in Fb. destruct Fb as [Fb _]. congruence.
Qed.
Lemma live_known drain baselines target m out n k : (forall g, Permutation (drain g) g) -> In target baselines ->
  (forall items items' l l' s s', In items baselines -> In items' baselines -> get_sources items = Val l -> get_sources items' = Val l' ->
     In s l -> In s' l' -> source_name s = source_name s' -> is_json s = is_json s') ->
  model_train tok open drain baselines = Val m ->
  process_live above_threshold tok (real_search hash fused) open err_text m target = Val (out, n, k) ->
  Forall unreadable out /\ ((forall sources s, get_sources target = Val sources -> In s sources -> readable open s) -> out = []).
Proof.
  intros Hd Hin Hj Ht Hp. destruct (C40_trained_names tok open drain baselines m Hd Ht) as (_ & _ & Nd & _).
  destruct (C58_model_of_baselines tok open drain baselines m Hd Ht) as (contents & C1 & C2 & C3).
  destruct (C59_live_output above_threshold tok (real_search hash fused) (real_dist hash fused) open err_text m target out n k (real_pointwise hash fused) Nd Hp) as (sources & outs & Hs & Hl & -> & _ & ->).
  assert (Hsrc : incl sources (concat contents)).
  { intros s Hi. destruct (forall2_in_l _ _ _ _ C1 Hin) as (l & L1 & L2). rewrite Hs in L2. injection L2 as <-. apply in_concat. eauto. }
  assert (Hfrom : forall s, In s (concat contents) -> exists items l, In items baselines /\ get_sources items = Val l /\ In s l).
  { intros s Hi. apply in_concat in Hi. destruct Hi as (l & L1 & L2). destruct (forall2_in_r _ _ _ _ C1 L1) as (items & I1 & I2). eauto. }
  assert (Hno : forall s items json ix nm cs err lines c, In s sources -> source_name s = Some nm -> has_index m nm ix -> open s = Val items -> is_json s = Some json ->
    analysis above_threshold tok (real_dist hash fused (ix_batches ix)) [] (items json) cs err lines -> ~ In c cs).
  { intros s items json ix nm cs err lines c Hi En Hx Eo Ej An Hc. destruct (C3 s (Hsrc _ Hi)) as (nm' & ix' & N1 & N2 & _); [congruence|]. rewrite En in N1. injection N1 as <-.
    assert (Hst : stored m nm ix) by (destruct Hx as [Hx|[Hx _]]; [exact Hx|now destruct (Hx ix' N2)]).
    destruct (C2 _ _ Hst) as (l & Ne & S1 & S2). destruct l as [|first rest]; [congruence|].
    assert (Il : In s (first :: rest)) by (apply (selected_in _ _ _ _ S1); auto).
    destruct (analysis_anomaly above_threshold tok _ _ _ _ _ _ c An Hc) as (K1 & _ & _ & K2 & _).
    assert (Bl : baseline_line open (concat contents) nm (aline c, apos c)).
    { exists first, rest, s, json, items. csplit; auto. rewrite <- Ej.
      assert (Hf : In first (concat contents) /\ source_name first = Some nm) by (apply (selected_in _ _ _ first S1); now left).
      destruct Hf as [F1 F2]. destruct (Hfrom _ F1) as (i1 & l1 & I1 & I2 & I3). destruct (Hfrom _ (Hsrc _ Hi)) as (i2 & l2 & J1 & J2 & J3). apply (Hj i1 i2 l1 l2); auto; congruence. }
    pose proof (indexed_lines _ _ _ _ _ _ _ S1 S2 Bl) as K. apply (real_known hash fused) in K. cbn [fst] in K. congruence. }
  assert (Hnone : forall s nm, In s sources -> source_name s = Some nm -> ~ no_index m nm).
  { intros s nm Hi En Hx. destruct (C3 s (Hsrc _ Hi)) as (nm' & ix' & N1 & N2 & _); [congruence|]. rewrite En in N1. injection N1 as <-. apply (Hx ix'). now left. }
  assert (G : forall srcs, incl srcs sources -> live_outcome above_threshold tok (real_dist hash fused) open err_text m srcs outs ->
    Forall unreadable (flat_map live_rows outs) /\ ((forall s, In s srcs -> readable open s) -> flat_map live_rows outs = [])).
  { clear Hl Hs Hp. intros srcs I H. induction H as [|s nm rest outs En Nx _ IH|s nm ix e rest En Hx Eo|s nm ix items json cs err lines rest outs En Hx Eo Ej An _ IH].
    - split; [constructor|reflexivity].
    - destruct (Hnone s nm (I s (or_introl eq_refl)) En Nx).
    - cbn [flat_map live_rows]. assert (E : flat_map live_rows (map (@NotReached F) rest) = []) by (clear; induction rest; auto). rewrite E. split; [repeat constructor|]. intros R. destruct (R s (or_introl eq_refl)) as (items & Eo' & _). congruence.
    - destruct IH as [IH1 IH2]; [intros x Hx'; apply I; now right|]. destruct cs as [|c cs]; [|destruct (Hno s items json ix nm _ err lines c (I s (or_introl eq_refl)) En Hx Eo Ej An (or_introl eq_refl))].
      cbn [flat_map live_rows]. change (map Printed (print_anomalies None (@nil (@actx F)))) with (@nil (@out_line F)). cbn [app]. split.
      + destruct err; cbn [option_map app]; [constructor; [exact Logic.I|exact IH1]|exact IH1].
      + intros R. destruct (R s (or_introl eq_refl)) as (items' & Eo' & Rd). rewrite Eo in Eo'. injection Eo' as <-. rewrite (analysis_readable _ _ _ _ _ _ An (Rd json)). cbn [option_map app]. apply IH2. intros x Hx'. apply R. now right. }
  destruct (G sources (incl_refl _) Hl) as [G1 G2]. split; [exact G1|]. intros R. apply G2. intros s Hi. exact (R _ _ Hs Hi).
Qed.
(** C88: comparing a run with itself, perhaps among other baselines, says nothing about it but which of
    its logs cannot be read; if all of them are read, and without a terminal, it prints nothing. *)
Theorem C88_same : forall bs t s out s' c, In t bs -> get_content (input_from_string t) = Val c ->
  (forall b b' d d' l l' x x', In b bs -> In b' bs -> get_content (input_from_string b) = Val d -> get_content (input_from_string b') = Val d' ->
     get_sources (listing d) = Val l -> get_sources (listing d') = Val l' -> In x l -> In x' l' -> source_name x = source_name x' -> is_json x = is_json x') ->
  main None None (CmdDiff bs t) s out Success s' ->
  Forall unreadable (findings out) /\
  ((forall l x, get_sources (listing c) = Val l -> In x l -> readable open x) -> findings out = [] /\ (tty = false -> printed out = [])).
Proof.
  intros bs t s out s' c It Ec Hj H. inversion H as [out' o s1 D]; subst. rewrite app_nil_r in *. rewrite (run_analyses _ _ _ _ _ (AnalysesDiff bs t)) in D.
  apply does_process in D. destruct D as [(c' & m & b1 & b2 & out2 & s1 & Ec' & U & K & D & ->)|(N & _)]; [|now apply stopped_not in N]. rewrite Ec in Ec'. injection Ec' as <-.
  destruct (uses_quiet _ _ _ _ _ _ U) as [Q1 Q2]. pose proof (kept_quiet _ _ _ _ _ K) as Q3.
  inversion U as [? ? _ X|? ? ? _ X|is l b m' _ Xb Fl T]; subst; try discriminate. injection Xb as <-. destruct (trained_answers _ _ _ T) as (drain & tm & Dp & Tm & _ & A).
  apply does_live in D. destruct D as [-> L]. destruct (live_pieces tok _ open err_text _ _ c (listing c)) as [ps|e|] eqn:E; [|destruct L; discriminate|discriminate]. destruct L as [_ ->].
  destruct (pieces_rows _ _ _ _ _ _ _ _ _ E) as (n & k & R). rewrite (process_live_same above_threshold tok _ _ open err_text _ _ _ A) in R.
  assert (From : forall d, In d l -> exists b0, In b0 bs /\ get_content (input_from_string b0) = Val d).
  { intros d Hd. destruct (forall2_in_r _ _ _ _ Fl Hd) as (i & I1 & I2). apply in_map_iff in I1. destruct I1 as (b0 & <- & I1). eauto. }
  assert (Ic : In c l). { destruct (forall2_in_l _ _ _ _ Fl (in_map input_from_string _ _ It)) as (d & D1 & D2). rewrite Ec in D2. injection D2 as <-. exact D1. }
  destruct (fun Hj => live_known drain (map listing l) (listing c) tm _ n k Dp (in_map listing _ _ Ic) Hj Tm R) as [R1 R2].
  - intros items items' l1 l2 x x' I1 I2 G1 G2. apply in_map_iff in I1, I2. destruct I1 as (d & <- & I1), I2 as (d' & <- & I2). destruct (From d I1) as (b0 & B1 & B2), (From d' I2) as (b0' & B1' & B2').
    now apply (Hj b0 b0' d d' l1 l2 x x').
  - assert (Ef : findings (b1 ++ b2 ++ map Out ps) = rows_of ps) by (rewrite !findings_app, Q1, findings_out; unfold findings; now rewrite Q3).
    rewrite Ef. split; [exact R1|]. intros Rd. rewrite R2 by exact Rd. split; [reflexivity|]. intros Et. rewrite !printed_app, printed_out, Q3, (Q2 Et). cbn [app].
    unfold mode in E. rewrite Et in E. cbn [output_mode] in E. rewrite (pieces_quiet _ _ _ _ _ _ _ _ E), R2 by exact Rd. reflexivity.
Qed.
End Main.

(** ** Cases that meet the hypotheses *)
Definition old_run := lit "old/".
Definition new_run := lit "new/".
Definition runs (p : bytes) : FilesModel.node :=
  if eqb_list p old_run then Dir [(lit "app.log", RegularFile); (lit "db.log", RegularFile)]
  else Dir [(lit "app.log", RegularFile); (lit "app.log.1", RegularFile); (lit "db.log", RegularFile); (lit "web.log", RegularFile); (lit "x.png", RegularFile)].
Definition as_dir (i : input) : res (content (@StoreModel.build bytes)) := match i with InPath p => Val (CDirectory (Local 4 p)) | InUrl _ => Fail (lit "no network") end.
Definition on_runs := MainModel.main byte_hash false true tok_id P_Cache.toy_write P_Cache.toy_finish P_Cache.toy_gunzip (fun d : bytes => d) toy_url toy_url P_Page.ex_up P_Page.ex_years P_Html.verbatim true P_Html.ex_fixed
  as_dir (fun _ => Fail (lit "no baseline")) (fun _ => []) runs (fun _ => Fail (lit "no network")) all_files error_e false (fun p => p) false.
Definition no_disk : disk := fun _ => None.
Definition run_model : @StoreModel.model csmat bytes := mkModel (m_created ex_saved) [CDirectory (Local 4 old_run)] (m_indexes ex_saved).
Lemma run_trained : trains byte_hash true tok_id (fun d : bytes => d) toy_url toy_url runs (fun _ => Fail (lit "no network")) all_files error_e false [CDirectory (Local 4 old_run)] [] (Val run_model).
Proof.
  destruct C86_example as (T & N & (R1 & R2 & R3) & _).
  replace (@nil said) with (train_says tok_id all_files error_e false [(lit "app.log", [Local 4 (lit "old/app.log")]); (lit "db.log", [Local 4 (lit "old/db.log")])]) by (vm_compute; reflexivity).
  eapply Trained with (m := ex_trained) (times := fun _ => ((1680000000%Z, 6), (1, 0))).
  - vm_compute. reflexivity.
  - reflexivity.
  - vm_compute. reflexivity.
  - reflexivity.
  - unfold rust_model. cbn [m_created m_baselines m_indexes]. csplit; try apply R3; [exact R1|cbn; settle..].
Qed.
Definition new_content : content (@StoreModel.build bytes) := CDirectory (Local 4 new_run).
Definition run_rows : list (@out_line F) :=
  [Printed (Ctx 0 (lit "start")); Printed (Anom f_one 2 (lit "crash")); Printed (Anom f_one 1 (lit "burn")); NoBaselines (Local 4 (lit "new/web.log"))].
Lemma run_pieces : live_pieces tok_id (loaded_search byte_hash false) all_files error_e (mode false) (loaded_indexes run_model) new_content (MainModel.listing runs (fun _ => Fail (lit "no network")) new_content) = Val (map Row run_rows).
Proof.
  destruct C86_example as (T & N & (_ & _ & _ & _ & R) & _).
  rewrite (pieces_same tok_id _ (real_search byte_hash false) all_files error_e (mode false) (loaded_indexes run_model) ex_trained).
  - vm_compute. reflexivity.
  - apply (stored_answers byte_hash false (fun _ => ((1680000000%Z, 6), (1, 0)))).
    + rewrite N. repeat constructor; cbn [In]; intuition discriminate.
    + reflexivity.
    + eapply Forall_impl; [|exact R]. now intros e [].
Qed.
Definition run_file : bytes := gzip P_Cache.toy_write P_Cache.toy_finish [fst (enc (MainModel.model_codec true (fun d : bytes => d) toy_url toy_url) run_model)].
Lemma run_saveable : rust_model (ok_mat true) (fun d : bytes => d) toy_url toy_url run_model /\ saveable_model run_model.
Proof.
  destruct C86_example as (T & N & (R1 & R2 & R3) & S1 & S2 & S3). split.
  - unfold rust_model. cbn [run_model m_created m_baselines m_indexes]. csplit; try apply R3; [exact R1|cbn; settle..].
  - unfold saveable_model. cbn [run_model m_created m_baselines m_indexes]. csplit; [exact S1|exact S2|]. change (model_paths run_model) with (old_run :: tl (model_paths ex_saved)). constructor; [discriminate|]. now inversion S3.
Qed.
Lemma run_loads : load P_Cache.toy_gunzip (MainModel.model_codec true (fun d : bytes => d) toy_url toy_url) (Some run_file) = Val run_model.
Proof.
  destruct run_saveable as [R S]. eapply C73_model_round_trip; try eassumption; [exact P_Cache.toy_codec|apply csmat_good|exact toy_urls|exact toy_dates|]. cbn [concat]. now rewrite app_nil_r.
Qed.
Definition does_on_runs := MainModel.does byte_hash false true tok_id P_Cache.toy_write P_Cache.toy_finish P_Cache.toy_gunzip (fun d : bytes => d) toy_url toy_url P_Page.ex_up P_Page.ex_years P_Html.verbatim true P_Html.ex_fixed
  as_dir (fun _ => Fail (lit "no baseline")) (fun _ => []) runs (fun _ => Fail (lit "no network")) all_files error_e false (fun p => p).
Lemma run_success rp mp cmd s out s' : does_on_runs (run (set_extension (lit "json")) false rp mp cmd) s out Success s' -> on_runs rp mp cmd s out Success s'.
Proof. intros H. unfold on_runs. rewrite <- (app_nil_r out). exact (Main _ _ _ _ _ _ _ _ _ _ _ _ _ _ _ _ _ _ _ _ _ _ _ _ _ _ _ _ _ out Success s' H). Qed.
Example C88_example : exists out1 s1 out2 out3, on_runs None (Some (lit "m")) (CmdTrain [old_run]) no_disk out1 Success s1 /\
  on_runs None (Some (lit "m")) (CmdPath new_run) s1 out2 Success s1 /\ on_runs None None (CmdDiff [old_run] new_run) no_disk out3 Success no_disk /\
  s1 (lit "m") = Some run_file /\ findings out2 = run_rows /\ findings out3 = run_rows /\ analyses (CmdPath new_run) None (input_from_string new_run).
Proof.
  exists (create_says (ModelFile run_model : @file _ (@StoreModel.report bytes)) (lit "m")), (update (update no_disk (lit "m") []) (lit "m") run_file),
    (Log Info (lit "Loading provided model path=m") :: map Out (map Row run_rows)), (map Out (map Row run_rows)).
  csplit; try reflexivity; [| | |apply AnalysesPath].
  - change (create_says (ModelFile run_model : @file _ (@StoreModel.report bytes)) (lit "m")) with (([] ++ create_says (ModelFile run_model : @file _ (@StoreModel.report bytes)) (lit "m") ++ []) : list said). apply run_success. unfold does_on_runs. cbn [run map get_contents]. constructor. change (as_dir (input_from_string old_run)) with (Val (CDirectory (Local 4 old_run) : content (@StoreModel.build bytes))). cbn [try].
    econstructor; [exact run_trained|]. cbn [try]. unfold CliModel.save. apply DoesCreate. apply DoesWrite with (ok := is_val (Val tt)) (b := run_file); [|constructor].
    apply WritesModel. eapply Written with (lost := []); [| |rewrite app_nil_r; reflexivity]; [cbn [concat]; now rewrite app_nil_r|].
    destruct run_saveable as [R S]. exact (proj2 (law_good _ _ _ _ (saveable_model_lawful _ _ _ _ _ (csmat_good true) toy_urls toy_dates) _ R) S).
  - replace (Log Info (lit "Loading provided model path=m") :: map Out (map Row run_rows)) with ((Log Info (lit "Loading provided model path=" ++ lit "m") :: map Out (map Row run_rows) ++ [])) by (rewrite !app_nil_r; reflexivity).
    apply run_success. unfold does_on_runs. cbn [run CliModel.process]. constructor. cbn [as_dir try]. constructor. rewrite update_same. constructor. rewrite update_same.
    change (StoreModel.load P_Cache.toy_gunzip (MainModel.model_codec true (fun d : bytes => d) toy_url toy_url) (Some run_file)) with (load P_Cache.toy_gunzip (MainModel.model_codec true (fun d : bytes => d) toy_url toy_url) (Some run_file)).
    rewrite run_loads. cbn [try keep_model]. constructor. rewrite update_same. cbn [inspect]. econstructor; [apply LivePrinted; exact run_pieces|]. constructor.
  - replace (map Out (map Row run_rows)) with ([] ++ map Out (map Row run_rows) ++ []) by (now rewrite !app_nil_r). apply run_success. unfold does_on_runs. cbn [run CliModel.process map]. constructor. change (as_dir (input_from_string new_run)) with (Val new_content). cbn [try get_contents].
    constructor. change (as_dir (input_from_string old_run)) with (Val (CDirectory (Local 4 old_run) : content (@StoreModel.build bytes))). cbn [try].
    econstructor; [exact run_trained|]. cbn [try keep_model inspect]. econstructor; [apply LivePrinted; exact run_pieces|]. constructor.
Qed.
(** The report, with an empty list of findings, and the page. *)
Definition old_content : content (@StoreModel.build bytes) := CDirectory (Local 4 old_run).
Definition run_report : @StoreModel.report bytes := StoreModel.mkReport (1680000000%Z, 5) (3, 250000000) old_content [old_content] [] [] [] [] 3 0.
Lemma run_same {A} (f : forall B, (B -> list bytes -> list F) -> list (text * index_at B) -> A) :
  (forall B1 B2 (s1 : B1 -> list bytes -> list F) (s2 : B2 -> list bytes -> list F) m1 m2, same_answers s1 s2 m1 m2 -> f B1 s1 m1 = f B2 s2 m2) ->
  f _ (loaded_search byte_hash false) (loaded_indexes run_model) = f _ (real_search byte_hash false) ex_trained.
Proof.
  intros H. destruct C86_example as (T & N & (_ & _ & _ & _ & R) & _). apply H. apply (stored_answers byte_hash false (fun _ => ((1680000000%Z, 6), (1, 0)))).
  - rewrite N. repeat constructor; cbn [In]; intuition discriminate.
  - reflexivity.
  - eapply Forall_impl; [|exact R]. now intros e [].
Qed.
Example C88_example_report : exists out s' page, on_runs (Some (lit "r.html")) None (CmdDiff [old_run] old_run) no_disk out Success s' /\ s' (lit "r.html") = Some page /\
  written P_Page.ex_up (printed out) = Some (lit "r.html: Writing report..." ++ [10]) /\ analyses (CmdDiff [old_run] old_run) (Some [InPath old_run]) (InPath old_run).
Proof.
  destruct (render_saved P_Page.ex_up P_Page.ex_years P_Html.verbatim true P_Html.ex_fixed run_report) as [page| |] eqn:Ep; [|exfalso; vm_compute in Ep; discriminate|exfalso; vm_compute in Ep; discriminate].
  eexists _, _, page. split; [|split; [|split; [|apply (AnalysesDiff [old_run] old_run)]]].
  - apply run_success. unfold does_on_runs. cbn [run CliModel.process map]. constructor. change (as_dir (input_from_string old_run)) with (Val old_content). cbn [try get_contents].
    constructor. change (as_dir (input_from_string old_run)) with (Val old_content). cbn [try].
    econstructor; [exact run_trained|]. cbn [try keep_model inspect]. econstructor.
    + eapply Reported with (r := run_report) (groups' := [(lit "app.log", [Local 4 (lit "old/app.log")]); (lit "db.log", [Local 4 (lit "old/db.log")])]).
      * vm_compute. reflexivity.
      * reflexivity.
      * rewrite (run_same (fun B sr m => report_all above_threshold tok_id sr all_files error_e m [(lit "app.log", [Local 4 (lit "old/app.log")]); (lit "db.log", [Local 4 (lit "old/db.log")])] report_new)).
        -- vm_compute. reflexivity.
        -- intros B1 B2 q1 q2 m1 m2 H. now apply report_all_same.
      * unfold made_of. csplit; reflexivity.
    + cbn [try]. constructor. rewrite Ep. cbn [try]. apply DoesCreate. apply DoesWrite with (ok := true) (b := page); [now constructor|]. constructor.
  - apply update_same.
  - vm_compute. reflexivity.
Qed.
Example C88_example_same : on_runs None None (CmdDiff [old_run] old_run) no_disk [] Success no_disk /\
  as_dir (input_from_string old_run) = Val old_content /\
  (forall b b' d d' l l' x x', In b [old_run] -> In b' [old_run] -> as_dir (input_from_string b) = Val d -> as_dir (input_from_string b') = Val d' ->
     get_sources (MainModel.listing runs (fun _ => Fail (lit "no network")) d) = Val l -> get_sources (MainModel.listing runs (fun _ => Fail (lit "no network")) d') = Val l' ->
     In x l -> In x' l' -> source_name x = source_name x' -> is_json x = is_json x') /\
  forall l x, get_sources (MainModel.listing runs (fun _ => Fail (lit "no network")) old_content) = Val l -> In x l -> readable all_files x.
Proof.
  assert (G : get_sources (MainModel.listing runs (fun _ => Fail (lit "no network")) old_content) = Val [Local 4 (lit "old/app.log"); Local 4 (lit "old/db.log")]) by (vm_compute; reflexivity).
  csplit.
  - change (@nil said) with (([] ++ map Out (map Row []) ++ []) : list said). apply run_success. unfold does_on_runs. cbn [run CliModel.process map]. constructor. change (as_dir (input_from_string old_run)) with (Val old_content). cbn [try get_contents].
    constructor. change (as_dir (input_from_string old_run)) with (Val old_content). cbn [try].
    econstructor; [exact run_trained|]. cbn [try keep_model inspect]. econstructor; [apply (LivePrinted _ _ _ _ _ _ _ _ _ _ [])|constructor].
    rewrite (run_same (fun B sr m => live_pieces tok_id sr all_files error_e (mode false) m old_content (MainModel.listing runs (fun _ => Fail (lit "no network")) old_content))).
    + vm_compute. reflexivity.
    + intros B1 B2 q1 q2 m1 m2 H. now apply pieces_same.
  - reflexivity.
  - intros b b' d d' l l' x x' [<-|[]] [<-|[]] E E'. change (as_dir (input_from_string old_run)) with (Val old_content) in E, E'. injection E as <-. injection E' as <-. rewrite G. intros [= <-] [= <-].
    intros [<-|[<-|[]]] [<-|[<-|[]]] _; reflexivity.
  - intros l x. rewrite G. intros [= <-] [<-|[<-|[]]]; (eexists; split; [vm_compute; reflexivity|]); intros json; repeat constructor.
Qed.

Print Assumptions C88_trained.
Print Assumptions C88_live.
Print Assumptions C88_failure.
Print Assumptions C88_report.
Print Assumptions C88_train_then_analyse.
Print Assumptions C88_train_then_report.
Print Assumptions C88_again.
Print Assumptions C88_same.
