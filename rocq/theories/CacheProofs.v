(** Proofs about the cache. *)
From Coq Require Import String List NArith PeanoNat Bool Lia.
From Verif Require Import Common CommonFacts FilesModel CacheModel CacheSpec.
Import ListNotations.
Open Scope nat_scope.
Ltac csplit := repeat match goal with |- _ /\ _ => split end.

(** ** bincode *)
Lemma le_bytes_length k n : length (le_bytes k n) = k.
Proof. revert n. induction k as [|k IH]; intros n; [reflexivity|]. cbn. now rewrite IH. Qed.
Lemma of_le_bytes k : forall n, (n < 256 ^ N.of_nat k)%N -> of_le (le_bytes k n) = n.
Proof.
  induction k as [|k IH]; intros n H; cbn [le_bytes of_le].
  - change (256 ^ N.of_nat 0)%N with 1%N in H. lia.
  - rewrite IH.
    + pose proof (N.div_mod n 256). lia.
    + rewrite Nnat.Nat2N.inj_succ, N.pow_succ_r' in H. apply N.div_lt_upper_bound; [discriminate|exact H].
Qed.
Lemma take_exact_app x r k : length x = k -> take_exact k (x ++ r) = Some (x, r).
Proof.
  intros <-. unfold take_exact. rewrite app_length. destruct (Nat.leb_spec (length x) (length x + length r)); [|lia].
  rewrite firstn_app, skipn_app, firstn_all, skipn_all, Nat.sub_diag. cbn. now rewrite app_nil_r.
Qed.
Lemma take_exact_more k b x r q : take_exact k b = Some (x, r) -> take_exact k (b ++ q) = Some (x, r ++ q).
Proof.
  unfold take_exact. destruct (Nat.leb_spec k (length b)); [|discriminate]. intros E. injection E as <- <-. rewrite app_length.
  destruct (Nat.leb_spec k (length b + length q)); [|lia]. rewrite firstn_app, skipn_app.
  replace (k - length b) with 0 by lia. cbn [firstn skipn]. now rewrite app_nil_r.
Qed.
Lemma dec_u64_enc n r : (N.of_nat n < 2 ^ 64)%N -> dec_u64 (enc_u64 n ++ r) = Some (N.of_nat n, r).
Proof.
  intros H. unfold dec_u64, enc_u64. rewrite take_exact_app by apply le_bytes_length. rewrite of_le_bytes; [reflexivity|].
  replace (256 ^ N.of_nat 8)%N with (2 ^ 64)%N by reflexivity. exact H.
Qed.
Lemma dec_u64_more b n r q : dec_u64 b = Some (n, r) -> dec_u64 (b ++ q) = Some (n, r ++ q).
Proof.
  unfold dec_u64. destruct (take_exact 8 b) as [[x y]|] eqn:E; [|discriminate]. intros H. injection H as <- <-. now rewrite (take_exact_more _ _ _ _ _ E).
Qed.
Section Bincode.
Variable parse_url : text -> option text.
Lemma dec_url_enc u r : (N.of_nat (length u) < 2 ^ 64)%N -> parse_url u = Some u -> dec_url parse_url (enc_url u ++ r) = Some (u, r).
Proof.
  intros H P. unfold dec_url, enc_url. rewrite <- app_assoc, dec_u64_enc by exact H. rewrite app_length.
  destruct (N.leb_spec (N.of_nat (length u)) (N.of_nat (length u + length r))); [|lia].
  rewrite Nnat.Nat2N.id, take_exact_app by reflexivity. now rewrite P.
Qed.
Lemma dec_url_more b u r q : dec_url parse_url b = Some (u, r) -> dec_url parse_url (b ++ q) = Some (u, r ++ q).
Proof.
  unfold dec_url. destruct (dec_u64 b) as [[n y]|] eqn:E; [|discriminate]. rewrite (dec_u64_more _ _ _ _ E).
  destruct (N.leb_spec n (N.of_nat (length y))); [|discriminate]. rewrite app_length.
  destruct (N.leb_spec n (N.of_nat (length y + length q))); [|lia].
  destruct (take_exact (N.to_nat n) y) as [[x z]|] eqn:E'; [|discriminate]. rewrite (take_exact_more _ _ _ _ _ E').
  destruct (parse_url x); [|discriminate]. intros H1. now injection H1 as <- <-.
Qed.
Lemma dec_many_enc l : Forall (fun u => (N.of_nat (length u) < 2 ^ 64)%N /\ parse_url u = Some u) l -> forall r,
  dec_many parse_url (length l) (concat (map enc_url l) ++ r) = Some (l, r).
Proof.
  induction 1 as [|u l [H P] _ IH]; intros r; [reflexivity|]. cbn [length dec_many map concat]. rewrite <- app_assoc, dec_url_enc by assumption. now rewrite IH.
Qed.
Lemma dec_many_more k : forall b l r q, dec_many parse_url k b = Some (l, r) -> dec_many parse_url k (b ++ q) = Some (l, r ++ q).
Proof.
  induction k as [|k IH]; intros b l r q; cbn [dec_many]; [intros E; now injection E as <- <-|].
  destruct (dec_url parse_url b) as [[u y]|] eqn:E; [|discriminate]. rewrite (dec_url_more _ _ _ _ E).
  destruct (dec_many parse_url k y) as [[l' z]|] eqn:E'; [|discriminate]. rewrite (IH _ _ _ _ E'). intros H. now injection H as <- <-.
Qed.
Lemma concat_enc_length l : length l <= length (concat (map enc_url l)).
Proof.
  induction l as [|u l IH]; cbn [map concat length]; [lia|]. rewrite app_length. assert (H : 8 <= length (enc_url u)) by (unfold enc_url, enc_u64; rewrite app_length, le_bytes_length; lia). lia.
Qed.
Lemma dec_urls_enc l : representable parse_url l -> dec_urls parse_url (enc_urls l) = Some l.
Proof.
  intros [H F]. unfold dec_urls, enc_urls. rewrite dec_u64_enc by exact H. pose proof (concat_enc_length l).
  destruct (N.leb_spec (N.of_nat (length l)) (N.of_nat (length (concat (map enc_url l))))); [|lia].
  rewrite Nnat.Nat2N.id. rewrite <- (app_nil_r (concat _)), dec_many_enc by exact F. reflexivity.
Qed.
Lemma dec_urls_torn l k : representable parse_url l -> k < length (enc_urls l) -> dec_urls parse_url (firstn k (enc_urls l)) = None.
Proof.
  intros [H F] Hk. set (p := firstn k (enc_urls l)). set (q := skipn k (enc_urls l)).
  assert (E : enc_urls l = p ++ q) by (symmetry; apply firstn_skipn).
  assert (Hq : q <> []) by (unfold q; intros E'; apply (f_equal (@length N)) in E'; rewrite skipn_length in E'; change (length (@nil N)) with 0 in E'; lia).
  clearbody p q. unfold dec_urls. destruct (dec_u64 p) as [[n r]|] eqn:En; [|reflexivity].
  pose proof (dec_u64_more _ _ _ q En) as En'. rewrite <- E in En'. unfold enc_urls in En'. rewrite dec_u64_enc in En' by exact H. injection En' as <- Er.
  destruct (N.leb_spec (N.of_nat (length l)) (N.of_nat (length r))); [|reflexivity]. rewrite Nnat.Nat2N.id.
  destruct (dec_many parse_url (length l) r) as [[l' z]|] eqn:Em; [|reflexivity]. apply (dec_many_more _ _ _ _ q) in Em.
  rewrite <- Er, <- (app_nil_r (concat _)), dec_many_enc in Em by exact F. injection Em as _ Ez. symmetry in Ez. apply app_eq_nil in Ez as [_ ->]. contradiction.
Qed.
End Bincode.

(** ** Names *)
Section Names.
Variable digest : text -> text.
Hypothesis sized : fixed_size digest.
Lemma app_same_length {A} (a b c d : list A) : length a = length c -> a ++ b = c ++ d -> a = c /\ b = d.
Proof.
  revert c. induction a as [|x a IH]; intros [|y c] L E; try discriminate; [auto|]. cbn in E. injection E as -> E. injection L as L. destruct (IH _ L E) as [-> ->]. auto.
Qed.
Lemma pair_name x y b u b' u' : lit x = [hd 0%N (lit x)] -> lit y = [hd 0%N (lit y)] -> new_name digest "1" b ++ lit "/" ++ new_name digest x u = new_name digest "1" b' ++ lit "/" ++ new_name digest y u' ->
  lit x = lit y /\ digest b = digest b' /\ digest u = digest u'.
Proof.
  intros X Y E. unfold new_name in E. apply app_same_length in E as [E1 E2]; [|rewrite !app_length, !sized; reflexivity].
  apply app_inv_head in E1. apply app_inv_head in E2. rewrite X, Y in *. injection E2 as E3 E4. csplit; [now rewrite E3|exact E1|exact E4].
Qed.
Lemma http_name_inj b u b' u' : http_name digest b u = http_name digest b' u' <-> digest b = digest b' /\ digest u = digest u'.
Proof.
  split; [intros E; apply pair_name in E as [_ E]; [exact E|reflexivity|reflexivity]|]. intros [E1 E2]. unfold http_name, new_name. now rewrite E1, E2.
Qed.
Lemma success_name_inj b u b' u' : success_name digest b u = success_name digest b' u' <-> digest b = digest b' /\ digest u = digest u'.
Proof.
  split; [intros E; apply pair_name in E as [_ E]; [exact E|reflexivity|reflexivity]|]. intros [E1 E2]. unfold success_name, new_name. now rewrite E1, E2.
Qed.
Lemma failure_name_inj b u b' u' : failure_name digest b u = failure_name digest b' u' <-> digest b = digest b' /\ digest u = digest u'.
Proof.
  split; [intros E; apply pair_name in E as [_ E]; [exact E|reflexivity|reflexivity]|]. intros [E1 E2]. unfold failure_name, new_name. now rewrite E1, E2.
Qed.
Lemma httpdir_name_inj u u' : httpdir_name digest u = httpdir_name digest u' <-> digest u = digest u'.
Proof. unfold httpdir_name, new_name. split; [apply app_inv_head|now intros ->]. Qed.
Lemma http_success b u b' u' : http_name digest b u <> success_name digest b' u'.
Proof. intros E. apply pair_name in E as [E _]; try reflexivity. discriminate. Qed.
Lemma http_failure b u b' u' : http_name digest b u <> failure_name digest b' u'.
Proof. intros E. apply pair_name in E as [E _]; try reflexivity. discriminate. Qed.
Lemma success_failure b u b' u' : success_name digest b u <> failure_name digest b' u'.
Proof. intros E. apply pair_name in E as [E _]; try reflexivity. discriminate. Qed.
Lemma http_httpdir b u u' : http_name digest b u <> httpdir_name digest u'.
Proof. discriminate. Qed.
Lemma success_httpdir b u u' : success_name digest b u <> httpdir_name digest u'.
Proof. discriminate. Qed.
Lemma failure_httpdir b u u' : failure_name digest b u <> httpdir_name digest u'.
Proof. discriminate. Qed.
End Names.

(** ** Files *)
Lemma write_at_end b old : write_at (length old) b old = old ++ b.
Proof.
  unfold write_at. rewrite firstn_app, Nat.sub_diag, firstn_all. cbn [firstn]. rewrite app_nil_r. f_equal.
  rewrite skipn_all2 by lia. apply app_nil_r.
Qed.
Lemma set_inode_same s i b : inode (set_inode s i b) i = b.
Proof. cbn. now rewrite Nat.eqb_refl. Qed.
Lemma set_inode_other s i j b : j <> i -> inode (set_inode s i b) j = inode s j.
Proof. intros H. cbn. destruct (Nat.eqb_spec j i); [contradiction|reflexivity]. Qed.
Lemma eqb_text (a b : text) : eqb_list a b = true <-> a = b.
Proof. apply eqb_list_spec. Qed.
Lemma create_some s n s' i : create s n = Some (s', i) ->
  dir s n = None /\ i = fresh s /\ fresh s' = S (fresh s) /\ dir s' n = Some i /\ (forall m, m <> n -> dir s' m = dir s m) /\
  inode s' i = [] /\ forall j, j <> i -> inode s' j = inode s j.
Proof.
  unfold create, exists_, file_create. destruct (dir s n) as [k|] eqn:E; [discriminate|]. intros H. injection H as <- <-. cbn [fresh dir inode].
  csplit; try reflexivity.
  - now rewrite eqb_list_refl.
  - intros m Hm. destruct (eqb_list m n) eqn:E'; [apply eqb_text in E'; contradiction|reflexivity].
  - now rewrite Nat.eqb_refl.
  - intros j Hj. destruct (Nat.eqb_spec j (fresh s)); [contradiction|reflexivity].
Qed.
Lemma drop_same s n : dir (drop s n) n = None.
Proof. unfold drop, exists_. destruct (dir s n) eqn:E; [|exact E]. cbn. now rewrite eqb_list_refl. Qed.
Lemma drop_other s n m : m <> n -> dir (drop s n) m = dir s m.
Proof.
  intros H. unfold drop, exists_. destruct (dir s n) eqn:E; [|reflexivity]. cbn. destruct (eqb_list m n) eqn:E'; [apply eqb_text in E'; contradiction|reflexivity].
Qed.
Lemma drop_some s n m i : dir (drop s n) m = Some i -> m <> n /\ dir s m = Some i.
Proof.
  intros H. assert (m <> n) by (intros ->; rewrite drop_same in H; discriminate). split; [assumption|]. now rewrite drop_other in H.
Qed.
Lemma drop_inode s n : inode (drop s n) = inode s.
Proof. unfold drop. now destruct (exists_ s n). Qed.
Lemma drop_fresh s n : fresh (drop s n) = fresh s.
Proof. unfold drop. now destruct (exists_ s n). Qed.
Lemma set_reader_same r h x : set_reader r h x h = x.
Proof. unfold set_reader. now rewrite Nat.eqb_refl. Qed.
Lemma set_reader_other r h x k : k <> h -> set_reader r h x k = r k.
Proof. intros H. unfold set_reader. destruct (Nat.eqb_spec k h); [contradiction|reflexivity]. Qed.

(** ** Readers and files *)
Section Cache.
Variable digest : text -> text.
Variable parse_url : text -> option text.
Variable enc_write : list bytes -> bytes -> bytes.
Variable enc_finish : list bytes -> bytes.
Hypothesis sized : fixed_size digest.
Notation step := (step digest parse_url enc_write enc_finish).
Notation exec := (exec digest parse_url enc_write enc_finish).
Notation pieces := (pieces enc_write).
Notation archive := (archive enc_write enc_finish).

Lemma pieces_from_snoc ws : forall before w, pieces_from enc_write before (ws ++ [w]) = pieces_from enc_write before ws ++ enc_write (before ++ ws) w.
Proof.
  induction ws as [|x ws IH]; intros before w; cbn [app pieces_from].
  - now rewrite !app_nil_r.
  - rewrite IH, <- !app_assoc. reflexivity.
Qed.
Lemma pieces_snoc ws w : pieces (ws ++ [w]) = pieces ws ++ enc_write ws w.
Proof. exact (pieces_from_snoc ws [] w). Qed.

Definition base (st : state) : Prop :=
  (forall n i, dir (files st) n = Some i -> i < fresh (files st)) /\
  (forall n m i, dir (files st) n = Some i -> dir (files st) m = Some i -> n = m) /\
  (forall h i off ws, readers st h = Some (Cached i off ws) -> i < fresh (files st) /\ inode (files st) i = pieces ws /\ off = length (pieces ws)) /\
  (forall h h' i off ws off' ws', readers st h = Some (Cached i off ws) -> readers st h' = Some (Cached i off' ws') -> h = h') /\
  (forall h i off ws n, readers st h = Some (Cached i off ws) -> dir (files st) n = Some i -> exists b u, n = http_name digest b u).
Lemma init_base : base init.
Proof. unfold base. csplit; cbn; intros; discriminate. Qed.

(** Reader cases of a changed table. *)
Lemma set_reader_cases r h x k y : set_reader r h x k = Some y -> (k = h /\ x = Some y) \/ (k <> h /\ r k = Some y).
Proof. unfold set_reader. destruct (Nat.eqb_spec k h); auto. Qed.

(** A write of the reader [h]. *)
Lemma base_write st h i off ws piece x : base st -> readers st h = Some (Cached i off ws) ->
  match x with Some (Cached j o w) => j = i /\ pieces w = pieces ws ++ piece /\ o = off + length piece | _ => True end ->
  base {| files := set_inode (files st) i (write_at off piece (inode (files st) i)); readers := set_reader (readers st) h x |}.
Proof.
  intros (B1 & B2 & B3 & B4 & B5) Hh Hx. destruct (B3 _ _ _ _ Hh) as (Hi & Ei & ->). rewrite Ei, write_at_end.
  unfold base. cbn [files readers set_inode dir fresh]. csplit; [exact B1|exact B2| | |].
  - intros k j o w H. apply set_reader_cases in H as [[-> ->]|[Hk H]].
    + destruct Hx as (-> & Ew & ->). csplit; [exact Hi| |rewrite Ew, app_length; reflexivity]. cbn [set_inode inode]. rewrite Nat.eqb_refl. now symmetry.
    + destruct (B3 _ _ _ _ H) as (Hj & Ej & ->). csplit; [exact Hj| |reflexivity]. cbn [set_inode inode]. destruct (Nat.eqb_spec j i) as [->|_]; [|exact Ej].
      destruct (Hk (B4 _ _ _ _ _ _ _ H Hh)).
  - intros k k' j o w o' w' H H'. apply set_reader_cases in H as [[-> ->]|[Hk H]]; apply set_reader_cases in H' as [[-> E']|[Hk' H']]; auto.
    + destruct Hx as (-> & _). exact (B4 _ _ _ _ _ _ _ Hh H').
    + subst x. destruct Hx as (-> & _). exact (B4 _ _ _ _ _ _ _ H Hh).
    + exact (B4 _ _ _ _ _ _ _ H H').
  - intros k j o w n H. apply set_reader_cases in H as [[-> ->]|[Hk H]]; [|exact (B5 _ _ _ _ _ H)]. destruct Hx as (-> & _). exact (B5 _ _ _ _ _ Hh).
Qed.
(** A new file, with any content; [x] is its reader. *)
Lemma base_create st n s' i c h x : base st -> create (files st) n = Some (s', i) -> 
  match x with Some (Cached j o w) => j = i /\ o = 0 /\ w = [] /\ c = [] /\ readers st h = None /\ exists b u, n = http_name digest b u | Some _ => False | None => readers st h = None end ->
  base {| files := set_inode s' i c; readers := set_reader (readers st) h x |}.
Proof.
  intros (B1 & B2 & B3 & B4 & B5) E Hx. apply create_some in E as (En & -> & Ef & Es & Eo & Ei & Ej).
  assert (Old : forall m j, dir s' m = Some j -> (m = n /\ j = fresh (files st)) \/ (m <> n /\ dir (files st) m = Some j)).
  { intros m j H. destruct (eqb_list m n) eqn:Em; [apply eqb_text in Em as ->; left; split; congruence|].
    assert (m <> n) by (intros ->; rewrite eqb_list_refl in Em; discriminate). right. split; [assumption|]. now rewrite <- Eo. }
  unfold base. cbn [files readers set_inode dir fresh]. rewrite Ef. csplit.
  - intros m j H. apply Old in H as [[_ ->]|[_ H]]; [lia|]. apply B1 in H. lia.
  - intros m m' j H H'. apply Old in H as [[-> ->]|[_ H]]; apply Old in H' as [[-> E']|[_ H']]; auto.
    + apply B1 in H'. lia.
    + apply B1 in H. lia.
    + exact (B2 _ _ _ H H').
  - intros k j o w H. apply set_reader_cases in H as [[-> ->]|[Hk H]].
    + destruct Hx as (-> & -> & -> & -> & _). csplit; [lia| |reflexivity]. cbn [set_inode inode]. now rewrite Nat.eqb_refl.
    + destruct (B3 _ _ _ _ H) as (Hj & Ec & ->). csplit; [lia| |reflexivity]. cbn [set_inode inode]. destruct (Nat.eqb_spec j (fresh (files st))); [lia|]. rewrite Ej by assumption. exact Ec.
  - intros k k' j o w o' w' H H'. apply set_reader_cases in H as [[-> ->]|[Hk H]]; apply set_reader_cases in H' as [[-> E']|[Hk' H']]; auto.
    + destruct Hx as (-> & _). apply B3 in H'. lia.
    + subst x. destruct Hx as (-> & _). apply B3 in H. lia.
    + exact (B4 _ _ _ _ _ _ _ H H').
  - intros k j o w m H Hm. apply Old in Hm as [[-> ->]|[Hn Hm]].
    + apply set_reader_cases in H as [[-> ->]|[Hk H]]; [|apply B3 in H; lia]. destruct Hx as (_ & _ & _ & _ & _ & Hx). exact Hx.
    + apply set_reader_cases in H as [[-> ->]|[Hk H]]; [|exact (B5 _ _ _ _ _ H Hm)]. destruct Hx as (-> & _). apply B1 in Hm. lia.
Qed.
Lemma base_readers st r : base st -> (forall h i off ws, r h = Some (Cached i off ws) -> readers st h = Some (Cached i off ws)) -> base {| files := files st; readers := r |}.
Proof.
  intros (B1 & B2 & B3 & B4 & B5) H. unfold base. cbn [files readers]. csplit; auto.
  - intros h i off ws Hh. eapply B3; eauto.
  - intros. eapply B4; eauto.
  - intros. eapply B5; eauto.
Qed.
Lemma base_drop st n : base st -> base {| files := drop (files st) n; readers := readers st |}.
Proof.
  intros (B1 & B2 & B3 & B4 & B5). unfold base. cbn [files readers]. rewrite drop_fresh, drop_inode. csplit; auto.
  - intros m i H. apply drop_some in H as [_ H]. eauto.
  - intros m m' i H H'. apply drop_some in H as [_ H]. apply drop_some in H' as [_ H']. eauto.
  - intros h i off ws m H H'. apply drop_some in H' as [_ H']. eauto.
Qed.
(** Writing nothing leaves the file as it is. *)
Lemma base_eq st st' : base st -> (forall n, dir (files st') n = dir (files st) n) -> fresh (files st') = fresh (files st) -> (forall i, inode (files st') i = inode (files st) i) ->
  (forall h, readers st' h = readers st h) -> base st'.
Proof.
  intros (B1 & B2 & B3 & B4 & B5) D F I R. unfold base. csplit.
  - intros n i H. rewrite F. rewrite D in H. eauto.
  - intros n m i H H'. rewrite D in H, H'. eauto.
  - intros h i off ws H. rewrite R in H. rewrite F, I. eauto.
  - intros h h' i off ws off' ws' H H'. rewrite R in H, H'. eauto.
  - intros h i off ws n H H'. rewrite R in H. rewrite D in H'. eauto.
Qed.
Lemma set_reader_none r h k : r h = None -> set_reader r h None k = r k.
Proof. intros H. unfold set_reader. destruct (Nat.eqb_spec k h) as [->|]; auto. Qed.

(** The file store only needs a free handle to be seen as a create with no reader. *)
Lemma base_create_only st n s' i c : base st -> create (files st) n = Some (s', i) -> base {| files := set_inode s' i c; readers := readers st |}.
Proof.
  intros B E. destruct B as (B1 & B2 & B3 & B4 & B5). 
  assert (B' : base {| files := files st; readers := fun h => match h with O => None | S h => readers st h end |}).
  { unfold base. cbn [files readers]. csplit; auto.
    - intros [|h] j off ws H; [discriminate|]. eauto.
    - intros [|h] [|h'] j off ws off' ws' H H'; try discriminate. f_equal. eauto.
    - intros [|h] j off ws m H H'; [discriminate|]. eauto. }
  pose proof (base_create _ n s' i c 0 None B' E eq_refl) as X. destruct X as (C1 & C2 & C3 & C4 & C5). cbn [files readers] in *.
  unfold base. cbn [files readers]. csplit; auto.
  - intros h j off ws H. apply (C3 (S h) j off ws). exact H.
  - intros h j off ws m H. apply (C5 (S h) j off ws). exact H.
Qed.
Lemma step_base st e st' : step st e st' -> base st -> base st'.
Proof.
  intros H B. destruct H.
  - apply base_readers; [exact B|]. intros k j off ws E. apply set_reader_cases in E as [[_ E]|[_ E]]; [discriminate|exact E].
  - assert (X : base {| files := set_inode s' i []; readers := set_reader (readers st) h (Some (Cached i 0 [])) |}).
    { eapply base_create; [exact B|eassumption|]. csplit; auto. eauto. }
    apply create_some in H1 as (_ & _ & _ & _ & _ & Ei & _).
    eapply base_eq; [exact X|reflexivity|reflexivity| |reflexivity]. intros j. cbn [files set_inode inode]. destruct (Nat.eqb_spec j i) as [->|]; auto.
  - exact B.
  - apply (base_write st h i off ws _ _ B H). csplit; [reflexivity|apply pieces_snoc|reflexivity].
  - exact B.
  - exact (base_write st h i off ws (firstn k (enc_write ws w)) (Some Stuck) B H I).
  - exact (base_write st h i off ws (enc_finish ws) None B H I).
  - exact (base_write st h i off ws (firstn k (enc_finish ws)) None B H I).
  - apply base_readers; [exact B|]. intros k j off ws E. apply set_reader_cases in E as [[_ E]|[_ E]]; [discriminate|exact E].
  - now apply base_drop.
  - exact B.
  - unfold head_set in H0. destruct (create (files st) _) as [[s i]|] eqn:E; [|discriminate]. injection H0 as <-.
    pose proof (base_create_only _ _ _ _ [] B E) as X. apply create_some in E as (_ & _ & _ & _ & _ & Ei & _).
    eapply base_eq; [exact X|reflexivity|reflexivity| |reflexivity]. intros j. cbn [files set_inode inode]. destruct (Nat.eqb_spec j i) as [->|]; auto.
  - exact B.
  - exact B.
  - eapply base_create_only; eauto.
  - exact B.
  - eapply base_create_only; eauto.
  - now apply base_drop.
  - apply base_readers; [exact B|]. intros k j off ws E. discriminate.
Qed.
Lemma exec_base st tr st' : exec st tr st' -> base st -> base st'.
Proof. induction 1 as [|st e st1 tr st2 H _ IH]; intros B; [exact B|]. apply IH. eapply step_base; eauto. Qed.
Lemma exec_app st tr st' tr' st'' : exec st tr st' -> exec st' tr' st'' -> exec st (tr ++ tr') st''.
Proof. induction 1; intros H'; cbn; [exact H'|]. econstructor; eauto. Qed.

(** What a step does to a file: its name, its content, who writes it. *)
Lemma step_file st e st' n i : step st e st' -> base st -> dir (files st) n = Some i ->
  (forall b u, e = EDrop b u -> http_name digest b u <> n) -> (forall u, e = EDirDrop u -> httpdir_name digest u <> n) ->
  dir (files st') n = Some i /\
  (inode (files st') i = inode (files st) i \/ exists h off ws, readers st h = Some (Cached i off ws) /\ (~ keeps h e \/ exists r s, e = ERead h r s)).
Proof.
  intros H B Hn D1 D2. assert (Hi : i < fresh (files st)) by (destruct B as (B1 & _); eauto).
  assert (Cr : forall m s j c, create (files st) m = Some (s, j) -> dir (set_inode s j c) n = Some i /\ inode (set_inode s j c) i = inode (files st) i).
  { intros m s j c E. apply create_some in E as (Em & -> & _ & _ & Eo & _ & Ej). split.
    - cbn [set_inode dir]. rewrite Eo; [exact Hn|]. intros ->. congruence.
    - cbn [set_inode inode]. destruct (Nat.eqb_spec i (fresh (files st))); [lia|]. apply Ej. assumption. }
  assert (Cr' : forall m s j, create (files st) m = Some (s, j) -> dir s n = Some i /\ inode s i = inode (files st) i).
  { intros m s j E. apply create_some in E as (Em & -> & _ & _ & Eo & _ & Ej). split.
    - rewrite Eo; [exact Hn|]. intros ->. congruence.
    - apply Ej. lia. }
  assert (Wr : forall h j off ws c, readers st h = Some (Cached j off ws) -> (~ keeps h e \/ exists r s, e = ERead h r s) ->
    dir (set_inode (files st) j c) n = Some i /\ (inode (set_inode (files st) j c) i = inode (files st) i \/ exists h off ws, readers st h = Some (Cached i off ws) /\ (~ keeps h e \/ exists r s, e = ERead h r s))).
  { intros h j off ws c E K. split; [exact Hn|]. cbn [set_inode inode]. destruct (Nat.eqb_spec i j) as [->|]; [right; exists h, off, ws; auto|left; reflexivity]. }
  destruct H; cbn [files]; auto.
  - destruct (Cr' _ _ _ H1); auto.
  - eapply Wr; [eassumption|right; eauto].
  - eapply Wr; [eassumption|right; eauto].
  - eapply Wr; [eassumption|left; cbn; congruence].
  - eapply Wr; [eassumption|left; cbn; congruence].
  - rewrite drop_inode. split; [|left; reflexivity]. rewrite drop_other; [exact Hn|]. intros ->. exact (D1 _ _ eq_refl eq_refl).
  - unfold head_set in H0. destruct (create (files st) _) as [[s j]|] eqn:E; [|discriminate]. injection H0 as <-. destruct (Cr' _ _ _ E); auto.
  - destruct (Cr _ _ _ (enc_urls l) H0); auto.
  - destruct (Cr _ _ _ (firstn k (enc_urls l)) H0); auto.
  - rewrite drop_inode. split; [|left; reflexivity]. rewrite drop_other; [exact Hn|]. intros ->. exact (D2 _ eq_refl eq_refl).
Qed.
(** No new writer of an old file. *)
Lemma step_writer st e st' i h off ws : step st e st' -> base st -> i < fresh (files st) -> readers st' h = Some (Cached i off ws) ->
  exists off' ws', readers st h = Some (Cached i off' ws').
Proof.
  intros H B Hi E. destruct H; cbn [files readers] in *; eauto;
    try (apply set_reader_cases in E as [[-> E]|[_ E]]; [|eauto]; try discriminate).
  - injection E as <- <- <-. apply create_some in H1 as (_ & -> & _). lia.
  - injection E as <- <- <-. eauto.
  - discriminate.
Qed.
Definition sealed (st : state) (n : text) (i : nat) (c : bytes) : Prop :=
  dir (files st) n = Some i /\ inode (files st) i = c /\ forall h off ws, readers st h <> Some (Cached i off ws).
Lemma step_sealed st e st' n i c : step st e st' -> base st -> sealed st n i c ->
  (forall b u, e = EDrop b u -> http_name digest b u <> n) -> (forall u, e = EDirDrop u -> httpdir_name digest u <> n) -> sealed st' n i c.
Proof.
  intros H B (Hn & Hc & Hw) D1 D2. destruct (step_file _ _ _ _ _ H B Hn D1 D2) as [Hn' Hc']. split; [exact Hn'|]. split.
  - destruct Hc' as [->|(h & off & ws & Hh & _)]; [exact Hc|]. destruct (Hw _ _ _ Hh).
  - intros h off ws E. assert (Hi : i < fresh (files st)) by (destruct B as (B1 & _); eauto).
    destruct (step_writer _ _ _ _ _ _ _ H B Hi E) as (off' & ws' & E'). exact (Hw _ _ _ E').
Qed.
Lemma exec_sealed st tr st' n i c : exec st tr st' -> base st -> sealed st n i c ->
  Forall (fun e => (forall b u, e = EDrop b u -> http_name digest b u <> n) /\ (forall u, e = EDirDrop u -> httpdir_name digest u <> n)) tr -> sealed st' n i c.
Proof.
  induction 1 as [|st e st1 tr st2 H _ IH]; intros B S F; [exact S|]. inversion F as [|x l [F1 F2] F3]; subst. apply IH; [eapply step_base; eauto|eapply step_sealed; eauto|exact F3].
Qed.
Lemma undropped_http b u tr : Forall (undropped digest b u) tr ->
  Forall (fun e => (forall b' u', e = EDrop b' u' -> http_name digest b' u' <> http_name digest b u) /\ (forall u', e = EDirDrop u' -> httpdir_name digest u' <> http_name digest b u)) tr.
Proof.
  apply Forall_impl. intros e H. split; [|intros u' _; discriminate]. intros b' u' -> E. apply (http_name_inj _ sized) in E as [E1 E2]. cbn in H. tauto.
Qed.
Lemma undropped_dir u tr : Forall (dir_undropped digest u) tr ->
  Forall (fun e => (forall b' u', e = EDrop b' u' -> http_name digest b' u' <> httpdir_name digest u) /\ (forall u', e = EDirDrop u' -> httpdir_name digest u' <> httpdir_name digest u)) tr.
Proof.
  apply Forall_impl. intros e H. split; [intros b' u' _; discriminate|]. intros u' -> E. exact (H (proj1 (httpdir_name_inj _ _ _) E)).
Qed.

(** A reader that is being filled. *)
Definition filling (st : state) (n : text) (i h : nat) (ws : list bytes) : Prop :=
  dir (files st) n = Some i /\ readers st h = Some (Cached i (length (pieces ws)) ws).
Lemma step_reader st e st' h i off ws : step st e st' -> readers st h = Some (Cached i off ws) -> keeps h e -> saved h e ->
  exists off', readers st' h = Some (Cached i off' (ws ++ chunks h [e])).
Proof.
  assert (No : forall x, ws ++ x = ws ++ x) by reflexivity.
  intros H Hh K S. unfold chunks. destruct H; cbn [readers flat_map app keeps saved] in *; rewrite ?app_nil_r; eauto;
    try (exists off; rewrite set_reader_other by congruence; exact Hh).
  - cbn [cached_read] in *. destruct remote as [w0|e0|]; cbn [cached_read fst snd] in *; try discriminate. injection H0 as ->.
    destruct (Nat.eqb_spec h0 h) as [->|Hne].
    + rewrite Hh in H. injection H as <- <- <-. rewrite set_reader_same. eauto.
    + rewrite set_reader_other by congruence. rewrite app_nil_r. eauto.
  - destruct remote as [w0|e0|]; cbn [cached_read fst snd] in *; try discriminate; rewrite ?app_nil_r; eauto.
  - cbn [cached_read fst] in *. destruct (Nat.eq_dec h0 h) as [->|Hne]; [specialize (S eq_refl); discriminate|].
    rewrite set_reader_other by congruence. rewrite ?app_nil_r. eauto.
  - contradiction.
Qed.
Lemma chunks_app h a b : chunks h (a ++ b) = chunks h a ++ chunks h b.
Proof. unfold chunks. apply flat_map_app. Qed.
Lemma exec_filling st tr st' n i h : exec st tr st' -> base st -> forall ws, filling st n i h ws -> Forall (keeps h) tr -> Forall (saved h) tr ->
  Forall (fun e => (forall b u, e = EDrop b u -> http_name digest b u <> n) /\ (forall u, e = EDirDrop u -> httpdir_name digest u <> n)) tr ->
  filling st' n i h (ws ++ chunks h tr).
Proof.
  induction 1 as [|st e st1 tr st2 H _ IH]; intros B ws [Hn Hh] K S F; [cbn; now rewrite app_nil_r|].
  inversion K as [|? ? K1 K2]; subst. inversion S as [|? ? S1 S2]; subst. inversion F as [|? ? [F1 F2] F3]; subst.
  destruct (step_reader _ _ _ _ _ _ _ H Hh K1 S1) as [off' Hh']. destruct (step_file _ _ _ _ _ H B Hn F1 F2) as [Hn' _].
  pose proof (step_base _ _ _ H B) as B'. assert (off' = length (pieces (ws ++ chunks h [e]))) as ->.
  { destruct B' as (_ & _ & B3 & _). apply B3 in Hh'. tauto. }
  change (e :: tr) with ([e] ++ tr). rewrite chunks_app, app_assoc. apply IH; auto. split; assumption.
Qed.
End Cache.
