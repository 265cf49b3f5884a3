(** Properties C33-C39: index names, sources and their groups. *)
From Coq Require Import String List Arith NArith Bool Lia.
From Verif Require Import Common CommonFacts Utf8Facts TokModel TokSpec TokRe TokWords TokWord FilesModel FilesSpec FilesNames FilesSources.
Import ListNotations.
Open Scope N_scope.

(** ** C33 *)
(** Only letters and / . _ - outside of the groups of pods and services. *)
Theorem C33_characters : forall path,
  prefix (lit "pod/") (index_name path) \/ prefix (lit "k8s_") (index_name path) \/ Forall name_char (index_name path).
Proof. apply index_chars. Qed.
(** What the name of a file is exactly. *)
Theorem C33_plain_name : forall path lab name, labelled path lab name -> ~ special_name lab name ->
  stripped (index_name path) (filter is_name_char (lab ++ name)).
Proof. intros path lab name Hl Hs. rewrite (index_plain _ _ _ Hl Hs). apply strip_ok. Qed.
Theorem C33_stripped_unique : forall n n' s, stripped n s -> stripped n' s -> n = n'.
Proof. intros n n' s H H'. apply strip_unique in H, H'. congruence. Qed.
Theorem C33_kept_characters : forall c, is_name_char c = true <-> name_char c.
Proof. apply name_char_ok. Qed.
(** Digits, and all characters but letters and / . _ -, do not matter. *)
Theorem C33_digits_do_not_matter : forall path path' lab lab' name name',
  labelled path lab name -> labelled path' lab' name' -> ~ special_name lab name -> ~ special_name lab' name' ->
  filter is_name_char (lab ++ name) = filter is_name_char (lab' ++ name') -> index_name path = index_name path'.
Proof. intros path path' lab lab' name name' H H' S S' E. now rewrite (index_plain _ _ _ H S), (index_plain _ _ _ H' S'), E. Qed.
Theorem C33_inserted_digits : forall path path' lab a d b,
  labelled path lab (a ++ b) -> labelled path' lab (a ++ d ++ b) -> ~ special_name lab (a ++ b) -> ~ special_name lab (a ++ d ++ b) ->
  Forall digit d -> index_name path = index_name path'.
Proof.
  intros path path' lab a d b H H' S S' D. apply (C33_digits_do_not_matter _ _ _ _ _ _ H H' S S'). rewrite !filter_app_. do 2 f_equal.
  replace (filter is_name_char d) with (@nil N); [reflexivity|]. clear - D. induction D as [|c d Hc _ IH]; [reflexivity|]. cbn.
  destruct (is_name_char c) eqn:E; [|exact IH]. apply name_char_ok in E. unfold digit, name_char, letter, lower_letter, upper_letter, separator_char, one_of, between in *.
  destruct E as [E|E]; [lia|]. cbn in E. destruct Hc. repeat (destruct E as [E|E]; [subst c; lia|]). destruct E.
Qed.
Theorem C33_rotation : forall path path' lab name s,
  labelled path lab name -> labelled path' lab (name ++ s) -> ~ special_name lab name -> ~ special_name lab (name ++ s) ->
  rotation s -> index_name path' = index_name path.
Proof.
  intros path path' lab name s H H' S S' R. rewrite (index_plain _ _ _ H S), (index_plain _ _ _ H' S'), app_assoc, filter_app_.
  now rewrite (strip_rotation _ _ (rotation_filter _ R)).
Qed.
(** Compressing a file that does not end in a separator (or digits after a separator) does not change its name either. *)
Theorem C33_compressed : forall path path' lab name,
  labelled path lab name -> labelled path' lab (name ++ lit ".gz") -> ~ special_name lab name -> ~ special_name lab (name ++ lit ".gz") ->
  (exists r c, filter is_name_char (lab ++ name) = r ++ [c] /\ letter c) -> index_name path' = index_name path.
Proof.
  intros path path' lab name H H' S S' (r & c & E & Hc). pose proof (C33_plain_name _ _ _ H S) as P. set (n := index_name path) in *. clearbody n. rewrite (index_plain _ _ _ H' S'). apply strip_unique.
  rewrite app_assoc, filter_app_. change (filter is_name_char (lit ".gz")) with (lit ".gz"). destruct P as (a & b & k & Es & Ha & Hb & H1 & H2 & Hn).
  assert (Hc' : ~ separator_char c).
  { intros X. unfold letter, lower_letter, upper_letter, between, separator_char, one_of in *. cbn in X. repeat (destruct X as [X|X]; [subst c; lia|]). destruct X. }
  assert (b = []) as ->.
  { destruct b as [|x b] using rev_ind; [reflexivity|]. rewrite Es in E. rewrite !app_assoc in E. apply app_inj_tail in E. destruct E as [_ ->].
    apply Forall_app in Hb. destruct Hb as [_ Hb]. inversion Hb; subst. contradiction. }
  rewrite app_nil_r in Es.
  assert (K : concat (repeat (lit ".gz") k) ++ lit ".gz" = concat (repeat (lit ".gz") (Datatypes.S k))).
  { clear. induction k as [|k IH]; [reflexivity|]. cbn [repeat concat] in *. rewrite <- app_assoc, IH. reflexivity. }
  exists a, [], (Datatypes.S k). rewrite <- K, app_nil_r, Es. split; [now rewrite !app_assoc|]. split; [exact Ha|]. split; [constructor|]. split; [|split; [|exact Hn]].
  - intros x q Eq. set (m := n ++ concat (repeat (lit ".gz") k)) in *. rewrite app_assoc in Eq. change (n ++ concat (repeat (lit ".gz") k)) with m in Eq. clearbody m. destruct m as [|y m].
    + exfalso. rewrite app_nil_r in Es. rewrite Es in E. subst a. apply Forall_app in Ha. destruct Ha as [_ Ha]. inversion Ha; subst. contradiction.
    + injection Eq as -> _. now apply (H1 x m).
  - intros x q Eq. rewrite app_assoc in Eq. change (lit ".gz") with (lit ".g" ++ [122]) in Eq at 2. rewrite app_assoc in Eq. apply app_inj_tail in Eq. destruct Eq as [_ <-].
    intros X. unfold separator_char, one_of in X. cbn in X. repeat (destruct X as [X|X]; [discriminate|]). destruct X.
Qed.
(** A compressed rotated file is not grouped with the file: its name keeps the dot. *)
Theorem C33_compressed_rotation_refuted : forall path path' lab name d,
  labelled path lab name -> labelled path' lab (name ++ lit "." ++ d ++ lit ".gz") ->
  ~ special_name lab name -> ~ special_name lab (name ++ lit "." ++ d ++ lit ".gz") -> Forall digit d ->
  (exists a z, filter is_name_char (lab ++ name) = a :: z /\ ~ separator_char a) ->
  (exists r c, filter is_name_char (lab ++ name) = r ++ [c] /\ letter c) -> ~ suffix (lit ".gz") (filter is_name_char (lab ++ name)) ->
  index_name path' = index_name path ++ lit "." /\ index_name path' <> index_name path.
Proof.
  intros path path' lab name d H H' S S' D (x & z & Ex & Hx) (r & c & E & Hc) Hg. rewrite (index_plain _ _ _ H S), (index_plain _ _ _ H' S').
  assert (Hc' : ~ separator_char c).
  { intros X. unfold letter, lower_letter, upper_letter, between, separator_char, one_of in *. cbn in X. repeat (destruct X as [X|X]; [subst c; lia|]). destruct X. }
  rewrite app_assoc, !(filter_app_ is_name_char (lab ++ name)), !(filter_app_ is_name_char (lit ".")), (filter_app_ is_name_char d). change (filter is_name_char (lit ".")) with (lit "."). change (filter is_name_char (lit ".gz")) with (lit ".gz").
  replace (filter is_name_char d) with (@nil N).
  2: { clear - D. induction D as [|k d Hc _ IH]; [reflexivity|]. cbn.
    destruct (is_name_char k) eqn:E; [|exact IH]. apply name_char_ok in E. unfold digit, name_char, letter, lower_letter, upper_letter, separator_char, one_of, between in *.
    destruct E as [E|E]; [lia|]. cbn in E. destruct Hc. repeat (destruct E as [E|E]; [subst k; lia|]). destruct E. }
  set (s := filter is_name_char (lab ++ name)) in *. clearbody s. cbn [app].
  assert (A : trim_end_text (lit ".gz") (trim_both is_separator s) = s).
  { apply strip_unique. exists [], [], 0%nat. cbn [repeat concat app]. rewrite !app_nil_r. split; [reflexivity|]. split; [constructor|]. split; [constructor|].
    split; [intros k q Eq; rewrite Ex in Eq; injection Eq as <- _; exact Hx|]. split; [|exact Hg]. intros k q Eq. rewrite E in Eq. apply app_inj_tail in Eq. destruct Eq as [_ <-]. exact Hc'. }
  assert (B : trim_end_text (lit ".gz") (trim_both is_separator (s ++ lit "." ++ lit ".gz")) = s ++ lit ".").
  { apply strip_unique. exists [], [], 1%nat. cbn [repeat concat app]. rewrite !app_nil_r. split; [now rewrite <- app_assoc|]. split; [constructor|]. split; [constructor|].
    split; [intros k q Eq; rewrite Ex in Eq; cbn in Eq; injection Eq as <- _; exact Hx|]. split.
    - intros k q Eq. change (lit ".gz") with (lit ".g" ++ [122]) in Eq. rewrite app_assoc in Eq. apply app_inj_tail in Eq. destruct Eq as [_ <-].
      intros X. unfold separator_char, one_of in X. cbn in X. repeat (destruct X as [X|X]; [discriminate|]). destruct X.
    - intros (q & Eq). change (lit ".gz") with (lit ".g" ++ [122]) in Eq. rewrite app_assoc in Eq. change (lit ".") with [46] in Eq at 1. apply app_inj_tail in Eq. destruct Eq as [_ Eq]. discriminate. }
  change (lit "." ++ [] ++ lit ".gz") with (lit "." ++ lit ".gz") in *. cbn [app] in B |- *. rewrite A, B. split; [reflexivity|]. intros X. apply (f_equal (@length N)) in X. rewrite app_length in X. cbn in X. lia.
Qed.

(** ** C34 *)
Theorem C34_services : forall path lab svc rest, labelled path lab (lit "k8s_" ++ svc ++ lit "-" ++ rest) ->
  ~ In 45 svc -> ~ prefix (lit "pod/") lab -> index_name path = lit "k8s_" ++ svc.
Proof. apply index_k8s. Qed.
Theorem C34_volumes : forall path lab rest, labelled path lab (lit "pvc-" ++ rest) -> ~ prefix (lit "pod/") lab -> index_name path = lit "pvc".
Proof. apply index_pvc. Qed.
Theorem C34_pods : forall path svc rest, labelled path (lit "pod/") (svc ++ rest) -> ~ In 45 svc -> rest = [] \/ prefix (lit "-") rest ->
  index_name path = lit "pod/" ++ svc.
Proof. apply index_pod. Qed.
Theorem C34_instances : forall path rest, labelled path (lit "qemu/") (lit "instance-" ++ rest) -> index_name path = lit "qemu/instance".
Proof. apply index_qemu. Qed.

(** ** C35 *)
Theorem C35_relevant_sources_in_order : forall items out, get_sources items = Val out <->
  exists l, items = map Val l /\ selected (fun s => ~ excluded s) l out /\ out <> [].
Proof. apply get_sources_ok. Qed.
Theorem C35_first_error_reported : forall l e rest, get_sources (map Val l ++ Fail e :: rest) = Fail e.
Proof. apply get_sources_fail. Qed.
Theorem C35_nothing_left_is_an_error : forall l, Forall excluded l -> get_sources (map Val l) = Fail (lit "Empty sources").
Proof. apply get_sources_empty. Qed.

(** ** C36 *)
(** [contents] are the listings.  [source_name s] is the index name of the relative name of [s]. *)
Theorem C36_partition : forall contents groups, group_sources contents = Val groups ->
  exists ls, Forall2 (fun items l => get_sources items = Val l) contents ls /\
    NoDup (map fst groups) /\
    forall n l, In (n, l) groups <-> l <> [] /\ selected (fun s => exists rel, get_relative s = Some rel /\ index_name rel = n) (concat ls) l.
Proof.
  intros contents groups H. apply group_sources_ok in H. destruct H as (ls & Hl & Hd & Hg). exists ls. split; [exact Hl|]. split; [exact Hd|].
  intros n l. rewrite Hg. apply and_iff_compat_l. apply selected_iff. intros s. unfold source_name. destruct (get_relative s) as [rel|]; cbn [option_map].
  - split; [intros [= <-]; eauto|intros (r & [= <-] & <-); reflexivity].
  - split; [discriminate|intros (r & E & _); discriminate].
Qed.
(** So every source is in exactly one group. *)
Theorem C36_each_source_in_one_group : forall contents groups, group_sources contents = Val groups ->
  exists ls, Forall2 (fun items l => get_sources items = Val l) contents ls /\
    forall s, In s (concat ls) -> exists n l, In (n, l) groups /\ In s l /\ forall n' l', In (n', l') groups -> In s l' -> n' = n /\ l' = l.
Proof.
  intros contents groups H. pose proof (group_sources_names _ _ H) as R. apply group_sources_ok in H. destruct H as (ls & Hl & Hd & Hg). exists ls. split; [exact Hl|].
  intros s Hs. specialize (R ls Hl s Hs). destruct (source_name s) as [n|] eqn:E; [|congruence].
  destruct (selected_exists source_name n (concat ls)) as (l & Sl). assert (I : In s l) by (apply (selected_in _ _ _ Sl); auto).
  exists n, l. split; [apply Hg; split; [intros ->; destruct I|exact Sl]|]. split; [exact I|]. intros n' l' H' I'. apply Hg in H'. destruct H' as [_ S'].
  apply (selected_in _ _ _ S') in I'. destruct I' as [_ E']. assert (n' = n) by congruence. subst n'. split; [reflexivity|]. exact (selected_unique _ _ _ _ S' Sl).
Qed.
Theorem C36_succeeds : forall contents ls, Forall2 (fun items l => get_sources items = Val l) contents ls ->
  (forall s, In s (concat ls) -> get_relative s <> None) -> exists groups, group_sources contents = Val groups.
Proof. apply group_sources_val. Qed.
Theorem C36_errors_reported : forall contents ls items e rest, Forall2 (fun items l => get_sources items = Val l) contents ls ->
  (forall s, In s (concat ls) -> get_relative s <> None) -> get_sources items = Fail e -> group_sources (contents ++ items :: rest) = Fail e.
Proof. apply group_sources_fail. Qed.

(** ** C37 *)
(** [fold_left join way root] is the path of a file. *)
Theorem C37_all_regular_files : forall root tree s, In (Val s) (dir_iter root (walk root tree)) <->
  exists way, file_at tree way /\
    s = Local (match utf8_decode root with Some t => utf8_len t | None => 0 end) (fold_left join way root).
Proof.
  intros root tree s. rewrite dir_iter_val. split.
  - intros (p & H & ->). apply walk_files in H. destruct H as (way & Hw & ->). exists way. auto.
  - intros (way & Hw & ->). exists (fold_left join way root). split; [|reflexivity]. apply walk_files. exists way. auto.
Qed.
Theorem C37_errors_are_kept : forall root tree e, In (Fail e) (dir_iter root (walk root tree)) <-> unreadable_in tree e.
Proof. intros. rewrite dir_iter_fail. apply walk_errors. Qed.
(** Under a utf-8 directory with utf-8 names, the relative name is the rest of the path. *)
Theorem C37_relative_names_of_files : forall root tree t s, utf8_decode root = Some t -> utf8_names tree ->
  In (Val s) (dir_iter root (walk root tree)) -> exists rel, get_relative s = Some rel /\ full_name s = t ++ rel.
Proof.
  intros root tree t s Ht Hu H. apply C37_all_regular_files in H. destruct H as (way & Hw & ->). destruct (way_decode _ _ Hw Hu root t Ht) as (y & Y).
  exists y. rewrite Ht. unfold get_relative, as_str, to_str, full_name. unfold way_path in Y. rewrite Y. split; [apply drop_bytes_app|reflexivity].
Qed.
(** A file name that is not utf-8 panics. *)
Theorem C37_relative_names_of_files_refuted : forall root tree t s, utf8_decode root = Some t -> t <> [] ->
  In (Val s) (dir_iter root (walk root tree)) -> full_name s = [] -> get_relative s = None.
Proof.
  intros root tree t s Ht Hne H E. apply C37_all_regular_files in H. destruct H as (way & Hw & ->). rewrite Ht. unfold get_relative. rewrite as_str_full, Ht in *. rewrite E. cbn [drop_bytes].
  destruct t as [|c t]; [congruence|]. cbn [utf8_len]. pose proof (utf8_len1_pos c). replace (utf8_len1 c + utf8_len t =? 0) with false; [reflexivity|]. symmetry. apply N.eqb_neq. lia.
Qed.
(** Of a remote listing: everything inside the directory is fine, *)
Theorem C37_relative_names_of_links : forall base slashes urls s, Forall (fun c => c = 47) slashes -> ~ suffix (lit "/") base ->
  In (Val s) (httpdir_iter (base ++ slashes) (Val urls)) ->
  exists u, In u urls /\ full_name s = u /\ forall rel, u = base ++ lit "/" ++ rel -> get_relative s = Some rel.
Proof.
  intros base sl urls s Hs Hb H. apply in_map_iff in H. destruct H as (u & E & Hu). injection E as <-. exists u. split; [exact Hu|]. split; [reflexivity|].
  intros rel ->. unfold get_relative, as_str. rewrite (trim_slashes base sl Hs Hb). replace (utf8_len base + 1) with (utf8_len (base ++ lit "/")) by (rewrite utf8_len_app; reflexivity).
  rewrite (app_assoc base). apply drop_bytes_app.
Qed.
(** and the relative name panics iff the link is not longer than the directory's (urls are ASCII). *)
Theorem C37_relative_names_of_links_refuted : forall base slashes urls s, Forall (fun c => c = 47) slashes -> ~ suffix (lit "/") base ->
  Forall (fun c => c < 128) base -> Forall (Forall (fun c => c < 128)) urls ->
  In (Val s) (httpdir_iter (base ++ slashes) (Val urls)) -> get_relative s = None <-> (length (full_name s) <= length base)%nat.
Proof.
  intros base sl urls s Hs Hb Ab Au H. apply in_map_iff in H. destruct H as (u & E & Hu). injection E as <-. unfold get_relative, as_str, full_name. rewrite (trim_slashes base sl Hs Hb).
  rewrite Forall_forall in Au. pose proof (drop_bytes_ascii (utf8_len base + 1) u (Au u Hu)) as D. rewrite (utf8_len_ascii base Ab) in *.
  destruct (drop_bytes (N.of_nat (length base) + 1) u); split; intros; try discriminate; try reflexivity.
  - assert (N.of_nat (length base) + 1 <= N.of_nat (length u)) by (apply D; discriminate). lia.
  - destruct (Nat.le_gt_cases (length u) (length base)) as [L|L]; [exact L|]. assert (@None text <> None) by (apply D; lia). congruence.
Qed.

(** ** C38 *)
Theorem C38_no_panic_without_prefix : forall url_parse url, url_open_base url_parse 0 url = Val url.
Proof. reflexivity. Qed.
Theorem C38_no_panic_if_long : forall url_parse prefix url, Forall (fun c => c < 128) url -> (42 <= length url)%nat ->
  (forall t, url_parse t <> Panic) -> url_open_base url_parse prefix url <> Panic.
Proof.
  intros up p url A L P. unfold url_open_base. destruct (p =? 0); [discriminate|]. unfold take_bytes. pose proof (drop_bytes_ascii 42 url A) as D.
  destruct (drop_bytes 42 url); [apply P|]. destruct D as [D _]. exfalso. apply D; [lia|reflexivity].
Qed.
Theorem C38_no_panic_refuted : forall url_parse prefix url, Forall (fun c => c < 128) url -> prefix <> 0 -> (length url < 42)%nat ->
  url_open_base url_parse prefix url = Panic.
Proof.
  intros up p url A Hp L. unfold url_open_base. apply N.eqb_neq in Hp. rewrite Hp. unfold take_bytes. pose proof (drop_bytes_ascii 42 url A) as D.
  destruct (drop_bytes 42 url); [|reflexivity]. assert (42 <= N.of_nat (length url)) by (apply D; discriminate). lia.
Qed.
(** Sources found by crawling have a prefix. *)
Theorem C38_crawled_sources_have_a_prefix : forall url urls s, In (Val s) (httpdir_iter url (Val urls)) ->
  exists n u, s = Remote n u /\ In u urls /\ n <> 0.
Proof. intros url urls s H. apply in_map_iff in H. destruct H as (u & E & Hu). injection E as <-. eexists _, u. split; [reflexivity|]. split; [exact Hu|]. lia. Qed.

(** ** C39 *)
Theorem C39_never_decompressed : forall path, reader_of_path path = Flat.
Proof. apply reader_flat. Qed.
Theorem C39_compressed_files_are_decompressed_refuted : exists path, suffix (lit ".gz") path /\ reader_of_path path <> Gz.
Proof. exists (lit "/var/log/messages.1.gz"). split; [exists (lit "/var/log/messages.1"); reflexivity|]. rewrite C39_never_decompressed. discriminate. Qed.

(** ** The hypotheses hold of concrete cases *)
Ltac not_in := let X := fresh in intros X; cbn in X; repeat (destruct X as [X|X]; [discriminate|]); destruct X.
Ltac normal := split; [discriminate|]; split; [not_in|]; split; discriminate.
Ltac not_special := apply special_dec; reflexivity.
Example labelled_examples :
  labelled (lit "a/zuul/merger.log") (lit "zuul/") (lit "merger.log") /\
  labelled (lit "config-update/015da2b/job-output.json.gz") (lit "config-update/") (lit "job-output.json.gz") /\
  labelled (lit "/messages") [] (lit "messages") /\ labelled (lit "015da2b/log") (lit "/") (lit "log").
Proof.
  assert (H : small_hash (lit "015da2b")) by (split; [reflexivity|]; apply Forall_forall; intros c Hc; cbn in Hc; unfold digit, between; repeat (destruct Hc as [<-|Hc]; [lia|]); destruct Hc).
  split; [|split; [|split]].
  - apply (InDir (lit "a/") (lit "zuul")); [right; exists (lit "a"); reflexivity|normal| |normal]. intros [X _]. discriminate.
  - apply (InHashDir [] (lit "config-update") (lit "015da2b")); [now left|normal|exact H|normal].
  - apply (UnderRoot (lit "messages")). normal.
  - apply (InTopHashDir (lit "015da2b")); [exact H|normal].
Qed.
Example plain_examples : ~ special_name (lit "zuul/") (lit "merger.log") /\ ~ special_name (lit "zuul/") (lit "merger.log.2017-11-12") /\ rotation (lit ".2017-11-12") /\
  ~ special_name (lit "zuul/") (lit "merger.log.gz") /\ ~ special_name (lit "zuul/") (lit "merger.log.1.gz") /\
  (exists r c, filter is_name_char (lit "zuul/" ++ lit "merger.log") = r ++ [c] /\ letter c) /\
  (exists a z, filter is_name_char (lit "zuul/" ++ lit "merger.log") = a :: z /\ ~ separator_char a) /\
  ~ suffix (lit ".gz") (filter is_name_char (lit "zuul/" ++ lit "merger.log")).
Proof.
  split; [not_special|]. split; [not_special|]. split; [|split; [not_special|split; [not_special|split; [|split]]]].
  - apply Forall_forall. intros c Hc. unfold digit, between, one_of. cbn in Hc. repeat (destruct Hc as [<-|Hc]; [first [left; lia|right; cbn; tauto]|]). destruct Hc.
  - exists (lit "zuul/merger.lo"), 103. split; [reflexivity|]. left. unfold lower_letter, between. lia.
  - exists 122, (lit "uul/merger.log"). split; [reflexivity|]. unfold separator_char, one_of. not_in.
  - intros H. apply suffix_ok in H. vm_compute in H. discriminate.
Qed.
Example name_examples :
  index_name (lit "a/zuul/merger.log") = lit "zuul/merger.log" /\ index_name (lit "a/zuul/merger.log.2017-11-12") = lit "zuul/merger.log" /\
  index_name (lit "a/zuul/merger.log.gz") = lit "zuul/merger.log" /\ index_name (lit "a/zuul/merger.log.1.gz") = lit "zuul/merger.log." /\
  index_name (lit "a/zuul12/merger7.log") = lit "zuul/merger.log".
Proof. repeat split; reflexivity. Qed.
(** The unit tests of files.rs. *)
Example unit_tests :
  is_small_hash (lit "015da2b") = true /\ is_small_hash (lit "abcda2z") = false /\
  index_name (lit "config-update/015da2b/job-output.json.gz") = lit "config-update/job-output.json" /\
  is_k8s_service (lit "k8s_zuul-uuid") = Some (lit "k8s_zuul") /\ is_k8s_service (lit "k3s_zuul-uuid") = None /\
  is_k8s_service (lit "pvc-328297fa-9941-4df5-b34f-336f02c76be4.txt") = Some (lit "pvc") /\
  take_until_pod_uuid (lit "pod/zuul-7fdb57778f-qkzkc.log") = lit "pod/zuul" /\
  take_until_pod_uuid (lit "pod/nodepool-launcher-fcd58c584-wbcmc.txt") = lit "pod/nodepool" /\
  index_name (lit "containers/libvirt/qemu/instance-0000001d.log.txt.gz") = lit "qemu/instance" /\
  index_name (lit "libvirt/qemu/instance-000000ec.log.txt.gz") = lit "qemu/instance" /\
  index_name (lit "builds/2/log") = lit "log" /\ index_name (lit "42/log") = lit "log" /\
  index_name (lit "audit/audit.log") = lit "audit/audit.log" /\ index_name (lit "audit/audit.log.1") = lit "audit/audit.log" /\
  index_name (lit "zuul/merger.log") = lit "zuul/merger.log" /\ index_name (lit "zuul/merger.log.2017-11-12") = lit "zuul/merger.log".
Proof. repeat split; reflexivity. Qed.
Example service_examples :
  labelled (lit "logs/docker/k8s_zuul-1234") (lit "docker/") (lit "k8s_" ++ lit "zuul" ++ lit "-" ++ lit "1234") /\
  labelled (lit "pvc-12.txt") [] (lit "pvc-" ++ lit "12.txt") /\ labelled (lit "x/pod/zuul-7f.log") (lit "pod/") (lit "zuul" ++ lit "-7f.log") /\
  labelled (lit "qemu/instance-01") (lit "qemu/") (lit "instance-" ++ lit "01").
Proof.
  split; [|split; [|split]].
  - apply (InDir (lit "logs/") (lit "docker")); [right; exists (lit "logs"); reflexivity|normal| |normal]. intros [X _]. discriminate.
  - apply TopLevel. normal.
  - apply (InDir (lit "x/") (lit "pod")); [right; exists (lit "x"); reflexivity|normal| |normal]. intros [X _]. discriminate.
  - apply (InDir [] (lit "qemu")); [now left|normal| |normal]. intros [X _]. discriminate.
Qed.
Definition sample_tree : node :=
  Dir [(lit "zuul", Dir [(lit "merger.log", RegularFile); (lit "merger.log.1", RegularFile); (lit "link", Symlink); (lit "x.png", RegularFile)]);
       (lit "messages", RegularFile); (lit "socket", OtherNode); (lit "empty", Dir [])].
Example tree_example : utf8_decode (lit "/logs") = Some (lit "/logs") /\ utf8_names sample_tree /\
  group_sources [dir_iter (lit "/logs") (walk (lit "/logs") sample_tree); file_iter (Local 0 (lit "/x/messages.2"))] =
  Val [(lit "zuul/merger.log", [Local 5 (lit "/logs/zuul/merger.log"); Local 5 (lit "/logs/zuul/merger.log.1")]);
       (lit "messages", [Local 5 (lit "/logs/messages")]); (lit "x/messages", [Local 0 (lit "/x/messages.2")])].
Proof.
  split; [reflexivity|]. split; [|vm_compute; reflexivity].
  unfold sample_tree.
  repeat match goal with
  | |- utf8_names _ => constructor
  | |- forall name child, _ -> _ => intros name child Hi
  | H : In _ [] |- _ => destruct H
  | H : In _ (_ :: _) |- _ => destruct H as [H|H]
  | H : (_, _) = (_, _) |- _ => injection H as <- <-
  | H : False |- _ => destruct H
  | |- _ /\ _ => split; [vm_compute; discriminate|]
  end.
Qed.
Example unreadable_example : get_sources (dir_iter (lit "/l") (walk (lit "/l") (Dir [(lit "a", RegularFile); (lit "b", Unreadable (lit "denied"))]))) = Fail (lit "denied").
Proof. reflexivity. Qed.
Example excluded_example : excluded (Local 0 (lit "/logs/a.png.gz")) /\ ~ excluded (Local 0 (lit "/logs/a.log")) /\ get_sources [Val (Local 0 (lit "/logs/a.png.gz"))] = Fail (lit "Empty sources").
Proof.
  split; [|split; [apply is_valid_ok; vm_compute; reflexivity|reflexivity]]. left. exists (lit ".png"). split; [right; left; reflexivity|]. right. exists (lit "/logs/a"). reflexivity.
Qed.
(** A latin-1 file name under /logs. *)
Example not_utf8_example : In (Val (Local 5 (lit "/logs/caf" ++ [233]))) (dir_iter (lit "/logs") (walk (lit "/logs") (Dir [(lit "caf" ++ [233], RegularFile)]))) /\
  full_name (Local 5 (lit "/logs/caf" ++ [233])) = [] /\ group_sources [dir_iter (lit "/logs") (walk (lit "/logs") (Dir [(lit "caf" ++ [233], RegularFile)]))] = Panic.
Proof. split; [left; reflexivity|]. split; reflexivity. Qed.
Example link_examples :
  httpdir_iter (lit "http://host/logs/" ++ lit "/") (Val [lit "http://host/logs/a/b"; lit "http://host/x"]) = [Val (Remote 17 (lit "http://host/logs/a/b")); Val (Remote 17 (lit "http://host/x"))] /\
  get_relative (Remote 17 (lit "http://host/logs/a/b")) = Some (lit "a/b") /\ get_relative (Remote 17 (lit "http://host/x")) = None /\
  Forall (fun c => c < 128) (lit "http://host/logs/a/b").
Proof. split; [reflexivity|]. split; [reflexivity|]. split; [reflexivity|]. apply Forall_forall. intros c Hc. cbn in Hc. repeat (destruct Hc as [<-|Hc]; [lia|]). destruct Hc. Qed.
Example open_examples : url_open_base Val 17 (lit "http://host/logs/a/b") = Panic /\
  url_open_base Val 17 (lit "https://logserver.example.com/123/456/abcd/job-output.txt") = Val (lit "https://logserver.example.com/123/456/abcd").
Proof. split; reflexivity. Qed.

Print Assumptions C33_characters.
Print Assumptions C33_plain_name.
Print Assumptions C33_stripped_unique.
Print Assumptions C33_kept_characters.
Print Assumptions C33_digits_do_not_matter.
Print Assumptions C33_inserted_digits.
Print Assumptions C33_rotation.
Print Assumptions C33_compressed.
Print Assumptions C33_compressed_rotation_refuted.
Print Assumptions C34_services.
Print Assumptions C34_volumes.
Print Assumptions C34_pods.
Print Assumptions C34_instances.
Print Assumptions C35_relevant_sources_in_order.
Print Assumptions C35_first_error_reported.
Print Assumptions C35_nothing_left_is_an_error.
Print Assumptions C36_partition.
Print Assumptions C36_each_source_in_one_group.
Print Assumptions C36_succeeds.
Print Assumptions C36_errors_reported.
Print Assumptions C37_all_regular_files.
Print Assumptions C37_errors_are_kept.
Print Assumptions C37_relative_names_of_files.
Print Assumptions C37_relative_names_of_files_refuted.
Print Assumptions C37_relative_names_of_links.
Print Assumptions C37_relative_names_of_links_refuted.
Print Assumptions C38_no_panic_without_prefix.
Print Assumptions C38_no_panic_if_long.
Print Assumptions C38_no_panic_refuted.
Print Assumptions C38_crawled_sources_have_a_prefix.
Print Assumptions C39_never_decompressed.
Print Assumptions C39_compressed_files_are_decompressed_refuted.
