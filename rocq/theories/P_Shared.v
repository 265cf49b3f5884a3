(** Several processes download the same url through one cache: C100. *)
From Coq Require Import String List NArith PeanoNat Bool Lia.
From Verif Require Import Common CommonFacts FilesModel CacheModel CacheSpec CacheProofs SharedModel SharedSpec.
From Verif Require P_Cache.
Import ListNotations.
Open Scope nat_scope.
Ltac csplit := repeat match goal with |- _ /\ _ => split end.

(** ** Bytes *)
(** The first [m] bytes of the file are those of the archive, and it is not longer. *)
Definition filled (arch : bytes) (m : nat) (f : bytes) : Prop :=
  m <= length f /\ length f <= length arch /\ forall k, k < m -> nth k f 0%N = nth k arch 0%N.
Lemma write_length off piece old : length (write_at off piece old) = Nat.max (off + length piece) (length old).
Proof. unfold write_at. rewrite !app_length, firstn_length, app_length, repeat_length, skipn_length. lia. Qed.
Lemma write_nth off piece old k : nth k (write_at off piece old) 0%N =
  if k <? off then nth k old 0%N else if k <? off + length piece then nth (k - off) piece 0%N else nth k old 0%N.
Proof.
  unfold write_at. assert (L : length (firstn off (old ++ repeat 0%N off)) = off) by (rewrite firstn_length, app_length, repeat_length; lia).
  destruct (k <? off) eqn:E.
  - apply Nat.ltb_lt in E. rewrite app_nth1 by lia. assert (X : nth k (firstn off (old ++ repeat 0%N off)) 0%N = nth k (old ++ repeat 0%N off) 0%N).
    { rewrite <- (firstn_skipn off (old ++ repeat 0%N off)) at 2. now rewrite app_nth1 by lia. }
    rewrite X. destruct (Nat.lt_ge_cases k (length old)); [now rewrite app_nth1|]. rewrite app_nth2, nth_repeat by lia. now rewrite nth_overflow.
  - apply Nat.ltb_ge in E. rewrite app_nth2 by lia. rewrite L. destruct (k <? off + length piece) eqn:E'.
    + apply Nat.ltb_lt in E'. now rewrite app_nth1 by lia.
    + apply Nat.ltb_ge in E'. rewrite app_nth2 by lia.
      destruct (Nat.lt_ge_cases k (length old)) as [H|H].
      * rewrite <- (firstn_skipn (off + length piece) old) at 2. rewrite app_nth2; rewrite firstn_length_le by lia; [f_equal; lia|lia].
      * rewrite (nth_overflow old) by lia. apply nth_overflow. rewrite skipn_length. lia.
Qed.
Lemma filled_write arch x piece y m old : arch = x ++ piece ++ y -> filled arch m old -> filled arch m (write_at (length x) piece old) /\ (m = length x -> filled arch (length x + length piece) (write_at (length x) piece old)).
Proof.
  intros -> (A & B & C). assert (P : forall k, length x <= k < length x + length piece -> nth (k - length x) piece 0%N = nth k (x ++ piece ++ y) 0%N).
  { intros k H. rewrite (app_nth2 x) by lia. now rewrite app_nth1 by lia. }
  unfold filled. rewrite write_length. rewrite !app_length in *. split; [|intros ->]; csplit; try lia; intros k H; rewrite write_nth.
  - destruct (k <? length x) eqn:E; [now apply C|]. apply Nat.ltb_ge in E. destruct (k <? length x + length piece) eqn:E'; [apply Nat.ltb_lt in E'; apply P; lia|now apply C].
  - destruct (k <? length x) eqn:E; [apply Nat.ltb_lt in E; now apply C|]. apply Nat.ltb_ge in E. replace (k <? length x + length piece) with true by (symmetry; apply Nat.ltb_lt; lia). apply P. lia.
Qed.
Lemma filled_all arch f : filled arch (length arch) f -> f = arch.
Proof. intros (A & B & C). apply nth_ext with (d := 0%N) (d' := 0%N); [lia|]. intros k H. apply C. lia. Qed.

Section Shared.
Variable digest : text -> text.
Variable parse_url : text -> option text.
Variable enc_write : list bytes -> bytes -> bytes.
Variable enc_finish : list bytes -> bytes.
Variable gunzip : bytes -> bytes * bool.
Hypothesis sized : fixed_size digest.
Hypothesis codec : gzip_codec enc_write enc_finish gunzip.
Hypothesis same_archive : steady enc_write enc_finish.
Notation step := (step digest parse_url enc_write enc_finish).
Notation shared := (shared digest parse_url enc_write enc_finish).
Notation shared_exec := (shared_exec digest parse_url enc_write enc_finish).
Notation delivers := (delivers gunzip).
Notation pieces := (pieces enc_write).
Notation archive := (archive enc_write enc_finish).

Lemma shared_exec_app st tr st' tr' st'' : shared_exec st tr st' -> shared_exec st' tr' st'' -> shared_exec st (tr ++ tr') st''.
Proof. induction 1; [easy|]. intros. cbn. econstructor; eauto. Qed.
Lemma shared_exec_split tr : forall st tr' st'', shared_exec st (tr ++ tr') st'' -> exists st', shared_exec st tr st' /\ shared_exec st' tr' st''.
Proof.
  induction tr as [|a tr IH]; intros st tr' st'' E; [exists st; split; [constructor|exact E]|]. inversion E as [|? ? st' ? ? S E']; subst. destruct (IH _ _ _ E') as (x & X1 & X2). exists x. split; [econstructor; eauto|exact X2].
Qed.
Lemma file_create_cases s n s' i : file_create s n = (s', i) ->
  (dir s n = Some i /\ s' = set_inode s i []) \/
  (dir s n = None /\ i = fresh s /\ dir s' n = Some i /\ (forall m, m <> n -> dir s' m = dir s m) /\ fresh s' = S (fresh s) /\ inode s' i = [] /\ forall j, j <> i -> inode s' j = inode s j).
Proof.
  unfold file_create. destruct (dir s n) as [j|] eqn:D; intros [= <- <-]; [now left|]. right. cbn. csplit; auto.
  - now rewrite eqb_list_refl.
  - intros m H. destruct (eqb_list m n) eqn:E; [apply eqb_text in E; contradiction|reflexivity].
  - now rewrite Nat.eqb_refl.
  - intros j H. apply Nat.eqb_neq in H. now rewrite H.
Qed.

Variables b u : text.
Notation n := (http_name digest b u).
Notation asks := (asks digest b u).
Notation downloading := (downloading digest b u).

(** ** Who writes to the file *)
Definition writers (p : list action) (st : state) : Prop :=
  (forall m i, dir (files st) m = Some i -> i < fresh (files st)) /\
  (forall m m' i, dir (files st) m = Some i -> dir (files st) m' = Some i -> m = m') /\
  (forall h i off ws, readers st h = Some (Cached i off ws) -> i < fresh (files st)) /\
  (forall i h off ws, dir (files st) n = Some i -> readers st h = Some (Cached i off ws) -> off = length (pieces ws) /\ exists q, downloading p h q /\ sent h q = ws).
Lemma writers_init : writers [] init.
Proof. unfold writers, init, empty_store. cbn. csplit; intros; discriminate. Qed.
Lemma downloading_more p h q a : downloading p h q -> stays h a -> downloading (p ++ [a]) h (q ++ [a]).
Proof. intros (x & y & -> & A & F) S. exists x, y. csplit; [now rewrite <- app_assoc|exact A|]. apply Forall_app. auto. Qed.
Lemma sent_snoc h q a : sent h (q ++ [a]) = sent h q ++ sent h [a].
Proof. unfold sent. apply flat_map_app. Qed.
(** The directory is the same, each reader that is left is as before, and is not dropped. *)
Lemma writers_same p st st' a : writers p st -> (forall m i, dir (files st') m = Some i -> dir (files st) m = Some i) -> fresh (files st) <= fresh (files st') ->
  (forall h i off ws, readers st' h = Some (Cached i off ws) -> stays h a /\ readers st h = Some (Cached i off ws) /\ sent h [a] = []) -> writers (p ++ [a]) st'.
Proof.
  intros (W1 & W2 & W3 & W4) D F R. unfold writers. csplit.
  - intros m i H. apply D, W1 in H. lia.
  - intros m m' i H H'. eapply W2; eauto.
  - intros h i off ws H. apply R in H as (_ & H & _). apply W3 in H. lia.
  - intros i h off ws Di H. apply R in H as (S & H & E). apply D in Di. destruct (W4 _ _ _ _ Di H) as (X & q & Q & Es). split; [exact X|]. exists (q ++ [a]). split; [now apply downloading_more|]. rewrite sent_snoc, E, app_nil_r. exact Es.
Qed.
(** A file is made, or made empty. *)
Lemma writers_made p st m s' i r a : writers p st -> file_create (files st) m = (s', i) ->
  (forall h j off ws, r h = Some (Cached j off ws) -> (stays h a /\ readers st h = Some (Cached j off ws) /\ sent h [a] = []) \/ (j = i /\ off = 0 /\ ws = [] /\ (m = n -> asks a h) /\ forall q, sent h (a :: q) = sent h q)) ->
  forall c, writers (p ++ [a]) {| files := set_inode s' i c; readers := r |}.
Proof.
  intros W C R c. pose proof W as (W1 & W2 & W3 & W4). apply file_create_cases in C. unfold writers. cbn [files readers set_inode dir fresh].
  assert (N : forall h, m = n -> asks a h -> downloading (p ++ [a]) h []) by (intros h _ A; exists p, a; csplit; [reflexivity|exact A|constructor]).
  destruct C as [(D & ->)|(D & -> & D1 & D2 & Ef & _ & _)]; cbn [set_inode dir fresh].
  - csplit; [exact W1|exact W2| |].
    + intros h j off ws H. apply R in H as [(_ & H & _)|(-> & _)]; [now apply W3 in H|now apply W1 in D].
    + intros j h off ws Dj H. apply R in H as [(S & H & E)|(-> & -> & -> & A & Sn)].
      * destruct (W4 _ _ _ _ Dj H) as (X & q & Q & Es). split; [exact X|]. exists (q ++ [a]). split; [now apply downloading_more|]. rewrite sent_snoc, E, app_nil_r. exact Es.
      * assert (m = n) by (eapply W2; eauto). split; [reflexivity|]. exists []. split; [apply N; auto|reflexivity].
  - assert (D3 : forall k j, dir s' k = Some j -> (k = m /\ j = fresh (files st)) \/ (k <> m /\ dir (files st) k = Some j)).
    { intros k j H. destruct (eqb_list k m) eqn:E; [apply eqb_text in E; subst k; left; split; [reflexivity|congruence]|]. assert (k <> m) by (intros ->; rewrite eqb_list_refl in E; discriminate). right. split; [assumption|]. now rewrite D2 in H. }
    csplit.
    + intros k j H. rewrite Ef. apply D3 in H as [(_ & ->)|(_ & H)]; [lia|]. apply W1 in H. lia.
    + intros k k' j H H'. apply D3 in H, H'. destruct H as [(-> & Ej)|(X & H)], H' as [(-> & Ej')|(X' & H')]; [reflexivity| | |eapply W2; eauto]; [apply W1 in H'; lia|apply W1 in H; lia].
    + intros h j off ws H. rewrite Ef. apply R in H as [(_ & H & _)|(-> & _)]; [apply W3 in H; lia|lia].
    + intros j h off ws Dj H. apply D3 in Dj as [(Em & ->)|(X & Dj)].
      * apply R in H as [(_ & H & _)|(_ & -> & -> & A & Sn)]; [apply W3 in H; lia|]. split; [reflexivity|]. exists []. split; [apply N; auto|reflexivity].
      * apply R in H as [(S & H & E)|(-> & _)]; [|apply W1 in Dj; lia]. destruct (W4 _ _ _ _ Dj H) as (Y & q & Q & Es). split; [exact Y|]. exists (q ++ [a]). split; [now apply downloading_more|]. rewrite sent_snoc, E, app_nil_r. exact Es.
Qed.
Lemma create_made s m s' i : create s m = Some (s', i) -> file_create s m = (s', i).
Proof. unfold create. destruct (exists_ s m); [discriminate|congruence]. Qed.
Lemma cached_other (r : nat -> option CacheModel.reader) h x k j off ws : set_reader r h x k = Some (Cached j off ws) -> (forall j off ws, x <> Some (Cached j off ws)) -> k <> h /\ r k = Some (Cached j off ws).
Proof. intros H X. apply set_reader_cases in H as [(-> & H)|H]; [now apply X in H|exact H]. Qed.
Lemma sent_other h k w seen : k <> h -> sent k [One (ERead h (Val w) seen)] = [].
Proof. intros H. cbn. destruct (Nat.eqb_spec h k); [congruence|reflexivity]. Qed.
Lemma shared_writers p st a st' : writers p st -> shared st a st' -> writers (p ++ [a]) st'.
Proof.
  intros W S. assert (M : forall m s' i h, readers st h = None -> file_create (files st) m = (s', i) -> forall b' u', m = http_name digest b' u' ->
    writers (p ++ [One (EMiss b' u' h)]) {| files := s'; readers := set_reader (readers st) h (Some (Cached i 0 [])) |}).
  { intros m s' i h Hh C b' u' Em. apply (writers_made p st m s' i _ _ W C) with (c := []). intros k j off ws H. apply set_reader_cases in H as [(-> & H)|(Hk & H)].
    - right. injection H as <- <- <-. csplit; auto. intros E. exists b', u'. split; [reflexivity|]. rewrite Em in E. apply http_name_inj in E; [exact E|exact sized].
    - left. csplit; [exact I|exact H|reflexivity]. }
  assert (K : forall e s' i m, file_create (files st) m = (s', i) -> (forall k, keeps k e) -> (forall k, sent k [One e] = []) -> forall c, writers (p ++ [One e]) {| files := set_inode s' i c; readers := readers st |}).
  { intros e s' i m C Ke Se c. apply (writers_made p st m s' i _ _ W C). intros k j off ws H. left. csplit; [apply Ke|exact H|apply Se]. }
  destruct S as [st e st' S|st b' u' h s' i Hh C|st b' u' r s' i C|st u' l s' i C|st gone].
  - destruct S as [st b' u' h i Hh D|st b' u' h s' i Hh Ex C|st b' u' Ex|st h i off ws remote w R E|st h i off ws remote R E|st h i off ws w k R L|st h i off ws R|st h i off ws k R L|st h x R X|st b' u'|st b' u' r E|st b' u' r s' E C|st b' u' E|st u' r E|st u' l s' i E C|st u' E|st u' l s' i k E C L|st u'|st].
    + apply (writers_same p st _ _ W); cbn; auto. intros k j off ws H. apply cached_other in H as (Hk & H); [|discriminate]. auto.
    + apply create_made in C. eapply M; [exact Hh|exact C|reflexivity].
    + apply (writers_same p st _ _ W); cbn; auto.
    + destruct W as (W1 & W2 & W3 & W4). unfold writers. cbn [files readers set_inode dir fresh]. csplit; [exact W1|exact W2| |].
      * intros k j o x H. apply set_reader_cases in H as [(-> & H)|(Hk & H)]; [injection H as <- _ _; now apply W3 in R|now apply W3 in H].
      * destruct remote as [v|e|]; try discriminate. cbn in E. injection E as ->. intros j k o x Dj H. apply set_reader_cases in H as [(-> & H)|(Hk & H)].
        -- injection H as <- <- <-. destruct (W4 _ _ _ _ Dj R) as (-> & q & Q & Es). split; [rewrite pieces_snoc, app_length; reflexivity|]. exists (q ++ [One (ERead h (Val w) (fst (cached_read (Val w) true)))]). split; [now apply downloading_more|]. rewrite sent_snoc, Es. f_equal. cbn. now rewrite Nat.eqb_refl.
        -- destruct (W4 _ _ _ _ Dj H) as (Y & q & Q & Es). split; [exact Y|]. eexists. split; [apply downloading_more; [exact Q|exact I]|]. rewrite sent_snoc, sent_other, app_nil_r; auto.
    + apply (writers_same p st _ _ W); auto. intros k j o x H. destruct remote; [discriminate|cbn; auto..].
    + apply (writers_same p st _ _ W); cbn; auto. intros j y o x H. apply cached_other in H as (Hk & H); [|discriminate]. csplit; auto. destruct (Nat.eqb_spec h j); [congruence|reflexivity].
    + apply (writers_same p st _ _ W); cbn; auto. intros j y o x H. apply cached_other in H as (Hk & H); [|discriminate]. auto.
    + apply (writers_same p st _ _ W); cbn; auto. intros j y o x H. apply cached_other in H as (Hk & H); [|discriminate]. auto.
    + apply (writers_same p st _ _ W); cbn; auto. intros j y o z H. apply cached_other in H as (Hk & H); [|discriminate]. auto.
    + apply (writers_same p st _ _ W); cbn; auto; [|rewrite drop_fresh; auto]. intros m i H. now apply drop_some in H.
    + apply (writers_same p st _ _ W); cbn; auto.
    + unfold head_set in C. destruct (create _ _) as [[s'' i]|] eqn:C'; [|discriminate]. injection C as <-. apply create_made in C'. exact (K (EHeadAsked b' u' r) s'' i _ C' (fun _ => I) (fun _ => eq_refl) []).
    + apply (writers_same p st _ _ W); cbn; auto.
    + apply (writers_same p st _ _ W); cbn; auto.
    + apply create_made in C. exact (K (EDirListed u' l) s' i _ C (fun _ => I) (fun _ => eq_refl) _).
    + apply (writers_same p st _ _ W); cbn; auto.
    + apply create_made in C. exact (K (EDirTorn u' l) s' i _ C (fun _ => I) (fun _ => eq_refl) _).
    + apply (writers_same p st _ _ W); cbn; auto; [|rewrite drop_fresh; auto]. intros m i H. now apply drop_some in H.
    + apply (writers_same p st _ _ W); cbn; auto. discriminate.
  - eapply M; [exact Hh|exact C|reflexivity].
  - exact (K (EHeadAsked b' u' r) s' i _ C (fun _ => I) (fun _ => eq_refl) []).
  - exact (K (EDirListed u' l) s' i _ C (fun _ => I) (fun _ => eq_refl) _).
  - apply (writers_same p st _ _ W); cbn; auto. intros h i off ws H. destruct (gone h); [discriminate|auto].
Qed.

(** ** What is in the file *)
Variable c : bytes.
Definition arch : bytes := archive [c].
Lemma arch_of ws : concat ws = c -> arch = pieces ws ++ enc_finish ws.
Proof. intros E. unfold arch. apply (same_archive [c] ws). cbn. now rewrite app_nil_r. Qed.
Lemma arch_read ws w rest : concat (ws ++ [w]) ++ rest = c -> exists y, arch = pieces ws ++ enc_write ws w ++ y.
Proof.
  intros E. rewrite (arch_of ((ws ++ [w]) ++ [rest])) by (rewrite concat_app; cbn; now rewrite app_nil_r). rewrite !pieces_snoc, <- !app_assoc. eauto.
Qed.
Lemma part_of x piece y k : arch = x ++ piece ++ y -> arch = x ++ firstn k piece ++ (skipn k piece ++ y).
Proof. intros ->. now rewrite (app_assoc (firstn k piece)), firstn_skipn. Qed.
(** A step, when it is not a new download of the url *)
Lemma shared_filled p st a st' i m : writers p st -> shared st a st' -> dir (files st) n = Some i -> filled arch m (inode (files st) i) ->
  serves digest b u c (p ++ [a]) -> read_to_end digest b u c (p ++ [a]) -> not_removed digest b u a -> (forall h, ~ asks a h) ->
  dir (files st') n = Some i /\ filled arch m (inode (files st') i) /\
  forall h ws, readers st h = Some (Cached i m ws) -> stays h a -> all_saved h a -> exists m' ws', readers st' h = Some (Cached i m' ws') /\ filled arch m' (inode (files st') i).
Proof.
  intros W S D F Sv Re U Na. pose proof W as (W1 & W2 & W3 & W4).
  (* what is not about the file *)
  assert (Same : forall s r, dir s n = Some i -> inode s i = inode (files st) i -> (forall h ws, readers st h = Some (Cached i m ws) -> stays h a -> all_saved h a -> r h = Some (Cached i m ws)) ->
    dir s n = Some i /\ filled arch m (inode s i) /\ forall h ws, readers st h = Some (Cached i m ws) -> stays h a -> all_saved h a -> exists m' ws', r h = Some (Cached i m' ws') /\ filled arch m' (inode s i)).
  { intros s r X1 X2 X3. rewrite X2. csplit; auto. intros h ws R St Sa. exists m, ws. auto. }
  assert (Made : forall k s' j, k <> n -> file_create (files st) k = (s', j) -> forall x r, (forall h ws, readers st h = Some (Cached i m ws) -> r h = Some (Cached i m ws)) ->
    let s := set_inode s' j x in dir s n = Some i /\ filled arch m (inode s i) /\ forall h ws, readers st h = Some (Cached i m ws) -> stays h a -> all_saved h a -> exists m' ws', r h = Some (Cached i m' ws') /\ filled arch m' (inode s i)).
  { intros k s' j Hk C x r Hr. apply file_create_cases in C as [(Dk & ->)|(Dk & -> & D1 & D2 & Ef & I1 & I2)]; apply Same; auto.
    - assert (i <> j) by (intros ->; apply Hk; eapply W2; eauto). now rewrite !set_inode_other.
    - change (dir s' n = Some i). rewrite D2; [exact D|now apply not_eq_sym].
    - apply W1 in D. rewrite set_inode_other by lia. apply I2. lia. }
  assert (Asks : forall b' u' h, a = One (EMiss b' u' h) -> http_name digest b' u' <> n).
  { intros b' u' h E X. apply (Na h). exists b', u'. split; [exact E|]. apply http_name_inj in X; [exact X|exact sized]. }
  destruct S as [st e st' S|st b' u' h s' j Hh C|st b' u' r s' j C|st u' l s' j C|st gone].
  - destruct S as [st b' u' h j Hh Dj|st b' u' h s' j Hh Ex C|st b' u' Ex|st h j off ws remote w R E|st h j off ws remote R E|st h j off ws w k R L|st h j off ws R|st h j off ws k R L|st h x R X|st b' u'|st b' u' r E|st b' u' r s' E C|st b' u' E|st u' r E|st u' l s' j E C|st u' E|st u' l s' j k E C L|st u'|st]; cbn [files readers].
    + apply Same; auto. intros k ws H _ _. rewrite set_reader_other; [exact H|congruence].
    + apply create_made in C. apply file_create_cases in C as [(Dk & ->)|(Dk & -> & D1 & D2 & Ef & I1 & I2)].
      * unfold exists_ in Ex. rewrite Dk in Ex. discriminate.
      * apply Same; [rewrite D2; [exact D|intros X; exact (Asks _ _ _ eq_refl (eq_sym X))]|apply I2; apply W1 in D; lia|]. intros k ws H _ _. rewrite set_reader_other; [exact H|congruence].
    + apply Same; auto.
    + destruct remote as [v|e|]; try discriminate. cbn in E. injection E as ->. destruct (Nat.eq_dec j i) as [->|Hj].
      * destruct (W4 _ _ _ _ D R) as (-> & q & Q & Es). destruct (Sv (p ++ [One (ERead h (Val w) (fst (cached_read (Val w) true)))]) [] h (q ++ [One (ERead h (Val w) (fst (cached_read (Val w) true)))])) as (rest & Er); [now rewrite app_nil_r|now apply downloading_more|].
        rewrite sent_snoc, Es in Er. cbn in Er. rewrite Nat.eqb_refl in Er. destruct (arch_read ws w rest Er) as (y & Ey). destruct (filled_write arch _ _ _ m _ Ey F) as (F1 & F2).
        rewrite set_inode_same. csplit; [exact D|exact F1|]. intros k ws' H _ _. destruct (Nat.eq_dec k h) as [->|Hk].
        -- rewrite set_reader_same. rewrite R in H. injection H as <- <-. do 2 eexists. split; [reflexivity|]. now apply F2.
        -- rewrite set_reader_other by exact Hk. eauto.
      * apply Same; [exact D|apply set_inode_other; congruence|]. intros k ws' H _ _. rewrite set_reader_other; [exact H|congruence].
    + apply Same; auto.
    + destruct (Nat.eq_dec j i) as [->|Hj].
      * destruct (W4 _ _ _ _ D R) as (-> & q & Q & Es). destruct (Sv (p ++ [One (ERead h (Val w) (fst (cached_read (Val w) false)))]) [] h (q ++ [One (ERead h (Val w) (fst (cached_read (Val w) false)))])) as (rest & Er); [now rewrite app_nil_r|now apply downloading_more|].
        rewrite sent_snoc, Es in Er. cbn in Er. rewrite Nat.eqb_refl in Er. destruct (arch_read ws w rest Er) as (y & Ey). destruct (filled_write arch _ _ _ m _ (part_of _ _ _ k Ey) F) as (F1 & _).
        rewrite set_inode_same. csplit; [exact D|exact F1|]. intros z ws' H _ Sa. destruct (Nat.eq_dec z h) as [->|Hk]; [exfalso; cbn in Sa; now discriminate Sa|].
        rewrite set_reader_other by exact Hk. eauto.
      * apply Same; [exact D|apply set_inode_other; congruence|]. intros z ws' H _ _. rewrite set_reader_other; [exact H|congruence].
    + destruct (Nat.eq_dec j i) as [->|Hj].
      * destruct (W4 _ _ _ _ D R) as (-> & q & Q & Es). pose proof (Re p [] h q (EClose h) eq_refl Q (or_introl eq_refl)) as Er. rewrite Es in Er. assert (Ey : arch = pieces ws ++ enc_finish ws ++ []) by (rewrite app_nil_r; now apply arch_of). destruct (filled_write arch _ _ _ m _ Ey F) as (F1 & _).
        rewrite set_inode_same. csplit; [exact D|exact F1|]. intros z ws' H St _. cbn in St. rewrite set_reader_other by congruence. eauto.
      * apply Same; [exact D|apply set_inode_other; congruence|]. intros z ws' H St _. cbn in St. rewrite set_reader_other by congruence. exact H.
    + destruct (Nat.eq_dec j i) as [->|Hj].
      * destruct (W4 _ _ _ _ D R) as (-> & q & Q & Es). pose proof (Re p [] h q (ELost h) eq_refl Q (or_intror eq_refl)) as Er. rewrite Es in Er. assert (Ey : arch = pieces ws ++ enc_finish ws ++ []) by (rewrite app_nil_r; now apply arch_of). destruct (filled_write arch _ _ _ m _ (part_of _ _ _ k Ey) F) as (F1 & _).
        rewrite set_inode_same. csplit; [exact D|exact F1|]. intros z ws' H St _. cbn in St. rewrite set_reader_other by congruence. eauto.
      * apply Same; [exact D|apply set_inode_other; congruence|]. intros z ws' H St _. cbn in St. rewrite set_reader_other by congruence. exact H.
    + apply Same; auto. intros z ws' H St _. cbn in St. rewrite set_reader_other by congruence. exact H.
    + apply Same; auto; [|now rewrite drop_inode]. rewrite drop_other; [exact D|]. intros X. apply http_name_inj in X; [|exact sized]. cbn in U. destruct X, U; congruence.
    + apply Same; auto.
    + unfold head_set in C. destruct (create _ _) as [[s'' j]|] eqn:C'; [|discriminate]. injection C as <-. apply create_made in C'. pose proof C' as C2. apply file_create_cases in C' as [(Dk & ->)|(Dk & -> & D1 & D2 & Ef & I1 & I2)].
      * apply Same; auto. apply set_inode_other. intros ->. assert (X : n = if r then success_name digest b' u' else failure_name digest b' u') by (eapply W2; eauto). destruct r; [now apply http_success in X|now apply http_failure in X].
      * apply Same; auto; [rewrite D2; [exact D|]|apply I2; apply W1 in D; lia]. intros X. destruct r; [now apply http_success in X|now apply http_failure in X].
    + apply Same; auto.
    + apply Same; auto.
    + apply create_made in C. eapply Made; [|exact C|auto]. intros X. symmetry in X. now apply http_httpdir in X.
    + apply Same; auto.
    + apply create_made in C. eapply Made; [|exact C|auto]. intros X. symmetry in X. now apply http_httpdir in X.
    + apply Same; auto; [|now rewrite drop_inode]. rewrite drop_other; [exact D|]. intros X. now apply http_httpdir in X.
    + apply Same; auto. intros h ws _ [].
  - cbn [files readers]. pose proof (Asks _ _ _ eq_refl) as X. apply file_create_cases in C as [(Dk & ->)|(Dk & -> & D1 & D2 & Ef & I1 & I2)]; apply Same; auto.
    + apply set_inode_other. intros ->. apply X. eapply W2; eauto.
    + intros k ws H _ _. rewrite set_reader_other; [exact H|congruence].
    + now rewrite D2 by congruence.
    + apply I2. apply W1 in D. lia.
    + intros k ws H _ _. rewrite set_reader_other; [exact H|congruence].
  - cbn [files readers]. assert (X : n <> if r then success_name digest b' u' else failure_name digest b' u') by (destruct r; [now apply http_success|now apply http_failure]).
    apply file_create_cases in C as [(Dk & ->)|(Dk & -> & D1 & D2 & Ef & I1 & I2)]; apply Same; auto.
    + apply set_inode_other. intros ->. apply X. eapply W2; eauto.
    + now rewrite D2 by exact X.
    + apply I2. apply W1 in D. lia.
  - cbn [files readers]. eapply Made; [|exact C|auto]. intros X. symmetry in X. now apply http_httpdir in X.
  - cbn [files readers]. apply Same; auto. intros h ws H St _. cbn in St. now rewrite St.
Qed.

Lemma serves_before p r : serves digest b u c (p ++ r) -> serves digest b u c p.
Proof. intros H x y h q -> Q. apply (H x (y ++ r) h q); [now rewrite app_assoc|exact Q]. Qed.
Lemma read_before p r : read_to_end digest b u c (p ++ r) -> read_to_end digest b u c p.
Proof. intros H x y h q e -> Q E. apply (H x (y ++ r) h q e); [now rewrite <- app_assoc|exact Q|exact E]. Qed.
Lemma exec_writers tr : forall p st st', writers p st -> shared_exec st tr st' -> writers (p ++ tr) st'.
Proof.
  induction tr as [|a tr IH]; intros p st st' W E; inversion E as [|? ? s1 ? ? S E']; subst; [now rewrite app_nil_r|]. replace (p ++ a :: tr) with ((p ++ [a]) ++ tr) by (now rewrite <- app_assoc). eapply IH; [|exact E']. eapply shared_writers; eauto.
Qed.
Lemma exec_filled tr : forall p st st' i m, writers p st -> shared_exec st tr st' -> dir (files st) n = Some i -> filled arch m (inode (files st) i) ->
  serves digest b u c (p ++ tr) -> read_to_end digest b u c (p ++ tr) -> Forall (not_removed digest b u) tr -> (forall a h, In a tr -> ~ asks a h) ->
  dir (files st') n = Some i /\ filled arch m (inode (files st') i) /\
  forall h ws, readers st h = Some (Cached i m ws) -> Forall (stays h) tr -> Forall (all_saved h) tr -> exists m' ws', readers st' h = Some (Cached i m' ws') /\ filled arch m' (inode (files st') i).
Proof.
  induction tr as [|a tr IH]; intros p st st' i m W E D F Sv Re U Na; inversion E as [|? ? s1 ? ? S E']; subst; [csplit; eauto|].
  replace (p ++ a :: tr) with ((p ++ [a]) ++ tr) in Sv, Re by (now rewrite <- app_assoc). inversion U as [|? ? U1 U2]; subst.
  destruct (shared_filled p st a s1 i m W S D F (serves_before _ _ Sv) (read_before _ _ Re) U1) as (D1 & F1 & R1); [intros h; apply Na; now left|].
  pose proof (shared_writers _ _ _ _ W S) as W1. assert (Na' : forall a h, In a tr -> ~ asks a h) by (intros; apply Na; now right).
  destruct (IH _ _ _ _ _ W1 E' D1 F1 Sv Re U2 Na') as (D2 & F2 & _). csplit; [exact D2|exact F2|]. intros h ws R St Sa. inversion St; inversion Sa; subst.
  destruct (R1 h ws R) as (m1 & ws1 & R2 & F3); auto. destruct (IH _ _ _ _ _ W1 E' D1 F3 Sv Re U2 Na') as (_ & _ & X). eauto.
Qed.
Lemma asks_step st a st' h : shared st a st' -> asks a h -> exists i, dir (files st') n = Some i /\ inode (files st') i = [] /\ readers st' h = Some (Cached i 0 []).
Proof.
  intros S (b' & u' & -> & E1 & E2). assert (N : http_name digest b' u' = n) by (apply http_name_inj; auto).
  assert (X : exists s' i, file_create (files st) n = (s', i) /\ st' = {| files := s'; readers := set_reader (readers st) h (Some (Cached i 0 [])) |}).
  { inversion S as [? ? ? S'|? ? ? ? s' i Hh C| | |]; subst.
    - inversion S'; subst. match goal with H : create _ _ = Some _ |- _ => apply create_made in H; rewrite N in H end. eauto.
    - rewrite N in C. eauto. }
  destruct X as (s' & i & C & ->). exists i. cbn [files readers]. rewrite set_reader_same. apply file_create_cases in C as [(D & ->)|(D & -> & D1 & _ & _ & I1 & _)]; csplit; auto. now rewrite set_inode_same.
Qed.

(** The entry of the url gives the content to whoever asks now. *)
Definition cached_whole (st : state) : Prop :=
  (forall k, readers st k = None -> exists st', step st (EHit b u k) st') /\
  (forall k st', step st (EHit b u k) st' -> delivers st' k = Some (c, true)) /\
  forall k st', ~ step st (EMiss b u k) st'.

(** ** C100 *)
(** Processes download the url at the same time, in whatever order and sizes their reads happen, some
    may end or fail to write.  If the last one that created the entry reads to the end and drops its
    reader, the entry is whole from then on, although others still write to it. *)
Theorem C100_last : forall tr1 a h tr2 tr3 st, let tr := tr1 ++ a :: tr2 ++ One (EClose h) :: tr3 in
  shared_exec init tr st -> serves digest b u c tr -> read_to_end digest b u c tr -> Forall (not_removed digest b u) tr ->
  asks a h -> Forall (stays h) tr2 -> Forall (all_saved h) tr2 -> (forall a' k, In a' (tr2 ++ tr3) -> ~ asks a' k) ->
  cached_whole st.
Proof.
  intros tr1 a h tr2 tr3 st tr E Sv Re U A St Sa Na. unfold tr in *. clear tr. destruct codec as (Rt & _ & _).
  apply shared_exec_split in E as (s1 & E1 & E). inversion E as [|? ? s2 ? ? S2 E2]; subst. apply shared_exec_split in E2 as (s3 & E3 & E4). inversion E4 as [|? ? s4 ? ? S4 E5]; subst.
  assert (W1 : writers tr1 s1) by (apply (exec_writers _ [] _ _ writers_init E1)). pose proof (shared_writers _ _ _ _ W1 S2) as W2. pose proof (exec_writers _ _ _ _ W2 E3) as W3. pose proof (shared_writers _ _ _ _ W3 S4) as W4.
  destruct (asks_step _ _ _ _ S2 A) as (i & D & I0 & R).
  apply Forall_app in U as (_ & U). inversion U as [|? ? _ U2]; subst. apply Forall_app in U2 as (U2 & U3). inversion U3 as [|? ? _ U4]; subst.
  assert (Eq : tr1 ++ a :: tr2 ++ One (EClose h) :: tr3 = ((((tr1 ++ [a]) ++ tr2) ++ [One (EClose h)]) ++ tr3)) by (now rewrite <- !app_assoc).
  rewrite Eq in Sv, Re. clear Eq.
  assert (F0 : filled arch 0 (inode (files s2) i)) by (rewrite I0; unfold filled; cbn; csplit; [lia|lia|intros; lia]).
  destruct (exec_filled tr2 _ _ _ i 0 W2 E3 D F0 (serves_before _ _ (serves_before _ _ Sv)) (read_before _ _ (read_before _ _ Re)) U2) as (D3 & _ & X); [intros; apply Na, in_or_app; auto|].
  destruct (X h [] R St Sa) as (m & ws & R3 & F3). destruct W3 as (W31 & W32 & W33 & W34). destruct (W34 _ _ _ _ D3 R3) as (Em & q & Q & Es).
  pose proof (read_before _ _ Re _ [] h q _ eq_refl Q (or_introl eq_refl)) as Ec. rewrite Es in Ec. clear Q Es q. subst m.
  assert (Ey : arch = pieces ws ++ enc_finish ws ++ []) by (rewrite app_nil_r; now apply arch_of).
  assert (Z : dir (files s4) n = Some i /\ filled arch (length arch) (inode (files s4) i)).
  { inversion S4 as [? ? ? S'| | | |]; subst. inversion S' as [| | | | | |? ? j off ws' R'| |? ? x R' X'| | | | | | | | | |]; subst.
    - rewrite R3 in R'. injection R' as <- <- <-. cbn [files]. rewrite set_inode_same. split; [exact D3|]. replace (length arch) with (length (pieces ws) + length (enc_finish ws)) by (rewrite Ey, app_nil_r, app_length; reflexivity).
      now apply (filled_write arch _ _ _ _ _ Ey F3).
    - rewrite R3 in R'. injection R' as <-. now exfalso; eapply X'. }
  destruct Z as (D4 & F4). destruct (exec_filled tr3 _ _ _ i _ W4 E5 D4 F4 Sv Re U4) as (D5 & F5 & _); [intros; apply Na, in_or_app; auto|]. apply filled_all in F5. unfold cached_whole. csplit.
  - intros k Hk. eexists. eapply SHit; eauto.
  - intros k st' S. rewrite (P_Cache.hit_delivers _ _ _ _ _ _ _ _ _ _ _ S D5), F5. unfold arch. rewrite Rt. cbn. now rewrite app_nil_r.
  - intros k st' S. exact (proj1 (P_Cache.no_miss _ _ _ _ _ _ _ _ D5) k st' S).
Qed.
Lemma asks_dec a : (exists h, asks a h) \/ forall h, ~ asks a h.
Proof.
  destruct a as [[]|gone]; try (right; intros x (b' & u' & E & _); discriminate).
  destruct (eqb_list (digest b0) (digest b)) eqn:E1; [apply eqb_text in E1|right; intros x (b' & u' & [= -> -> _] & E & _); rewrite E, eqb_list_refl in E1; discriminate].
  destruct (eqb_list (digest u0) (digest u)) eqn:E2; [apply eqb_text in E2|right; intros x (b' & u' & [= -> -> _] & _ & E); rewrite E, eqb_list_refl in E2; discriminate].
  left. exists h, b0, u0. auto.
Qed.
Lemma last_asks tr : (forall a h, In a tr -> ~ asks a h) \/ exists p a h q, tr = p ++ a :: q /\ asks a h /\ forall a' k, In a' q -> ~ asks a' k.
Proof.
  induction tr as [|a tr [IH|(p & x & h & q & -> & A & N)]]; [left; intros ? ? []| |right; exists (a :: p), x, h, q; auto].
  destruct (asks_dec a) as [[h A]|N]; [right; exists [], a, h, tr; auto|left; intros x h [<-|I]; auto].
Qed.
(** If the url was asked for, and each reader that asked for it reads to the end and is dropped, the
    entry is whole. *)
Theorem C100_all : forall tr st, shared_exec init tr st -> serves digest b u c tr -> read_to_end digest b u c tr -> Forall (not_removed digest b u) tr ->
  (exists a h, In a tr /\ asks a h) ->
  (forall p a h q, tr = p ++ a :: q -> asks a h -> exists q1 q2, q = q1 ++ One (EClose h) :: q2 /\ Forall (stays h) q1 /\ Forall (all_saved h) q1) ->
  cached_whole st.
Proof.
  intros tr st E Sv Re U (a & h & I & A) Fin. destruct (last_asks tr) as [N|(p & x & k & q & Et & Ax & N)]; [now apply N in A|].
  destruct (Fin p x k q Et Ax) as (q1 & q2 & -> & St & Sa). subst tr. eapply C100_last; eauto. intros a' k' I'. apply N. apply in_app_or in I' as [I'|I']; apply in_or_app; [now left|right; now right].
Qed.
End Shared.

(** ** Cases that meet the hypotheses *)
Example toy_steady : steady P_Cache.toy_write P_Cache.toy_finish.
Proof. intros ws ws' E. unfold archive, pieces. now rewrite !P_Cache.toy_pieces, E. Qed.
Definition a_base : text := lit "http://localhost/".
Definition a_url : text := lit "http://localhost/job-output.txt".
Notation toy_exec := (shared_exec P_Cache.toy_digest Some P_Cache.toy_write P_Cache.toy_finish).
(** The second process looked for the file before the first one created it, and creates it again
    after the first one has written to it; they read with different sizes. *)
Definition two_downloads : list action :=
  [One (EMiss a_base a_url 0); One (ERead 0 (Val [7%N]) (Val [7%N])); One (EMiss a_base a_url 1); One (ERead 1 (Val [7%N; 8%N]) (Val [7%N; 8%N])); One (ERead 0 (Val [8%N]) (Val [8%N]));
   One (EClose 1); One (EClose 0)].
(** The second process stops reading early. *)
Definition early_end : list action :=
  [One (EMiss a_base a_url 0); One (ERead 0 (Val [7%N; 8%N]) (Val [7%N; 8%N])); One (EMiss a_base a_url 1); One (ERead 1 (Val [7%N]) (Val [7%N])); One (EClose 1); One (EClose 0)].
Ltac does := first
  [apply SharedDoes; eapply SMiss; [reflexivity|vm_compute; reflexivity|reflexivity]
  |eapply SharedMisses; [reflexivity|reflexivity]
  |apply SharedDoes; eapply (SRead _ _ _ _ _ _ _ _ _ (Val _)); [reflexivity|reflexivity]
  |apply SharedDoes; eapply SClose; reflexivity].
Lemma two_run : exists st, toy_exec init two_downloads st.
Proof. eexists. unfold two_downloads. repeat (eapply SharedThen; [does|]). apply SharedNow. Qed.
Lemma early_run : exists st st', toy_exec init early_end st /\ step P_Cache.toy_digest Some P_Cache.toy_write P_Cache.toy_finish st (EHit a_base a_url 0) st' /\ delivers P_Cache.toy_gunzip st' 0 = Some ([7%N], true).
Proof.
  do 2 eexists. split; [unfold early_end; repeat (eapply SharedThen; [does|]); apply SharedNow|]. split; [eapply SHit; [reflexivity|vm_compute; reflexivity]|]. vm_compute. reflexivity.
Qed.

Ltac which E x := repeat (destruct x as [|? x]; cbn [app] in E; [|injection E as _ E]); try (destruct x; discriminate E); try discriminate E; injection E as <- <- <- E.
Ltac prefixes E q := repeat (let y := fresh "y" in destruct q as [|y q]; cbn [app] in E; [|first [injection E as <- E|discriminate E]]).
Ltac gone F := exfalso; repeat (apply Forall_cons_iff in F as [? F]); cbn in *; congruence.
Example C100_example : exists st, toy_exec init two_downloads st /\
  serves P_Cache.toy_digest a_base a_url [7%N; 8%N] two_downloads /\ read_to_end P_Cache.toy_digest a_base a_url [7%N; 8%N] two_downloads /\ Forall (not_removed P_Cache.toy_digest a_base a_url) two_downloads /\
  (exists a h, In a two_downloads /\ asks P_Cache.toy_digest a_base a_url a h) /\
  (forall p a h q, two_downloads = p ++ a :: q -> asks P_Cache.toy_digest a_base a_url a h -> exists q1 q2, q = q1 ++ One (EClose h) :: q2 /\ Forall (stays h) q1 /\ Forall (all_saved h) q1) /\
  cached_whole P_Cache.toy_digest Some P_Cache.toy_write P_Cache.toy_finish P_Cache.toy_gunzip a_base a_url [7%N; 8%N] st.
Proof.
  destruct two_run as (st & R). exists st.
  assert (Sv : serves P_Cache.toy_digest a_base a_url [7%N; 8%N] two_downloads).
  { intros p r h q E (x & a & -> & (b' & u' & -> & _) & F). rewrite <- app_assoc in E. cbn [app] in E. unfold two_downloads in E. which E x; prefixes E q; try (eexists; reflexivity); gone F. }
  assert (Re : read_to_end P_Cache.toy_digest a_base a_url [7%N; 8%N] two_downloads).
  { intros p r h q e E (x & a & -> & (b' & u' & -> & _) & F) He. rewrite <- app_assoc in E. cbn [app] in E. unfold two_downloads in E.
    assert (X : exists r', One e :: r = r') by eauto. destruct X as (r' & Er). rewrite Er in E. which E x; prefixes E q; subst r'; try discriminate; injection Er as -> _; destruct He as [He|He]; try discriminate He; try reflexivity; injection He; intros; try discriminate; gone F. }
  assert (U : Forall (not_removed P_Cache.toy_digest a_base a_url) two_downloads) by (repeat constructor).
  assert (A : exists a h, In a two_downloads /\ asks P_Cache.toy_digest a_base a_url a h) by (exists (One (EMiss a_base a_url 0)), 0; split; [now left|exists a_base, a_url; auto]).
  assert (D : forall p a h q, two_downloads = p ++ a :: q -> asks P_Cache.toy_digest a_base a_url a h -> exists q1 q2, q = q1 ++ One (EClose h) :: q2 /\ Forall (stays h) q1 /\ Forall (all_saved h) q1).
  { intros p a h q E (b' & u' & -> & _). unfold two_downloads in E. which E p; subst q.
    - exists [One (ERead 0 (Val [7%N]) (Val [7%N])); One (EMiss a_base a_url 1); One (ERead 1 (Val [7%N; 8%N]) (Val [7%N; 8%N])); One (ERead 0 (Val [8%N]) (Val [8%N])); One (EClose 1)], []. csplit; [reflexivity|repeat constructor; cbn; congruence..].
    - exists [One (ERead 1 (Val [7%N; 8%N]) (Val [7%N; 8%N])); One (ERead 0 (Val [8%N]) (Val [8%N]))], [One (EClose 0)]. csplit; [reflexivity|repeat constructor; cbn; congruence..]. }
  csplit; auto. eapply C100_all; eauto using P_Cache.toy_sized, P_Cache.toy_codec, toy_steady.
Qed.
(** A process that stops reading early spoils the entry of one that read to the end: then a part of
    the content is taken for all of it. *)
Theorem C100_early_refuted : exists digest enc_write enc_finish gunzip, fixed_size digest /\ gzip_codec enc_write enc_finish gunzip /\ steady enc_write enc_finish /\
  exists b u c tr st st' x, shared_exec digest Some enc_write enc_finish init tr st /\ serves digest b u c tr /\ Forall (not_removed digest b u) tr /\
  (exists tr1 a h tr2, tr = tr1 ++ a :: tr2 ++ [One (EClose h)] /\ asks digest b u a h /\ Forall (stays h) tr2 /\ Forall (all_saved h) tr2 /\ concat (sent h tr2) = c) /\
  step digest Some enc_write enc_finish st (EHit b u 0) st' /\ delivers gunzip st' 0 = Some (x, true) /\ x <> c.
Proof.
  destruct early_run as (st & st' & R & S & D). exists P_Cache.toy_digest, P_Cache.toy_write, P_Cache.toy_finish, P_Cache.toy_gunzip. csplit; [exact P_Cache.toy_sized|exact P_Cache.toy_codec|exact toy_steady|].
  exists a_base, a_url, [7%N; 8%N], early_end, st, st', [7%N]. csplit; [exact R| |repeat constructor| |exact S|exact D|discriminate].
  - intros p r h q E (x & a & -> & (b' & u' & -> & _) & F). rewrite <- app_assoc in E. cbn [app] in E. unfold early_end in E. which E x; prefixes E q; try (eexists; reflexivity); gone F.
  - exists [], (One (EMiss a_base a_url 0)), 0, [One (ERead 0 (Val [7%N; 8%N]) (Val [7%N; 8%N])); One (EMiss a_base a_url 1); One (ERead 1 (Val [7%N]) (Val [7%N])); One (EClose 1)].
    csplit; [reflexivity|exists a_base, a_url; auto|repeat constructor; cbn; congruence..|reflexivity].
Qed.

Print Assumptions C100_last.
Print Assumptions C100_all.
Print Assumptions C100_early_refuted.
