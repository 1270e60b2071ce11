(** C46: opening a flushed archive gives back what was flushed, and the stored
    checksum is right.  C60: whatever has been added is in the archive after any
    number of flushes and openings. *)
From Coq Require Import List ZArith Bool Lia Permutation Strings.Byte.
From Coq Require Import ZifyBool ZifyNat.
From Verif Require Import Base BaseProofs Utf8 Utf8Proofs Infobyte Header HeaderSpec HeaderProofs MimeTypeList MimeTypeListSpec Entry EntrySpec Reader ReaderSpec Decompressors DecompressorsProofs Blob BlobProofs
  PointerList PointerListProofs SpaceAllocator Cluster ClusterSpec ClusterProofs ClusterWrapper ClusterWrapperSpec ClusterWrapperProofs Archive ArchiveSpec ArchiveProofs ArchiveFacts ArchiveObserve
  ArchiveCluster ArchiveClusterSpec ArchiveClusterProofs CompressionStrategy CompressionStrategySpec CompressionStrategyProofs OperationBuffer Flush FlushSpec FlushProofs FlushTailProofs FlushOpenProofs
  FlushHistorySpec FlushHistoryProofs FlushCreateProofs PropsArchiveCluster PropsCompressionStrategy.
Import ListNotations.
Open Scope Z_scope.


Definition highest (ops : list zop) : Z :=
  fold_right (fun o m => match o with ZReopen sc sp => Z.max m (Z.max (limit_of sc) (limit_of sp)) | _ => m end) 0 ops.
Lemma limited_more : forall mx mx' ops, mx <= mx' -> Forall (limited mx) ops -> Forall (limited mx') ops.
Proof. intros mx mx' ops LE F. eapply Forall_impl; [|exact F]. intros [it d u| |sc sp]; cbn [limited]; intuition lia. Qed.
Lemma highest_limits : forall ops, Forall (limited (highest ops)) ops.
Proof.
  induction ops as [|o ops IH]; [constructor|]. constructor; [unfold highest; destruct o; cbn [limited fold_right]; try exact I; lia|]. eapply limited_more; [|exact IH]. unfold highest. destruct o; cbn [fold_right]; lia.
Qed.

Section Flush.
Variable fuel : nat.
Context {D : Type}.
Variable dc : decomp D.
Variable new_decomp : ctype -> res D.
Context {K : Type}.
Variable new_comp : ctype -> res K.
Variable comp : K -> bytes -> res (bytes * K).
Variable flush : K -> res bytes.
Variable depth : nat.
Variable kd : ckind.
Variable Stream : ctype -> bytes -> bytes -> Prop.
Variable reserve : option Z.
Context {H : Type}.
Variable md5 : H.
Variable feed : H -> bytes -> H.
Variable digest : H -> bytes.
Variable truncate : bool.
Variable process_blob : entry -> M zim unit.
Variable rounds : nat.
Hypothesis CD : codec_ok dc new_decomp new_comp comp flush Stream.
Hypothesis HO : hash_ok feed digest.
Notation laid := (laid_out Stream reserve).
Notation runs := (zruns fuel dc new_decomp new_comp comp flush depth kd Stream md5 feed digest reserve truncate process_blob rounds).
Notation opens := (open_zim fuel dc new_decomp new_comp comp flush depth kd).
Notation readable := (readable fuel dc new_decomp kd).
Notation reads := (read_blob_of fuel dc new_decomp kd).

(** What the archive [B], opened after the history, shows of the archive [A]
    from before it: each item that was added can be found and read; the entries
    are those from before and one for each item; the old entries, and the
    content they refer to, are as before (the title lists, which the archive
    keeps in entries of its own, are new); so are the articles. *)
Definition holds_all (A : farchive) (items : list (item * bytes)) (B : farchive) : Prop :=
  (forall it d, In (it, d) items -> readable (fa_sarch B) it d) /\
  (exists before after, iter_entries (fa_zim A) None None = Ok before /\ iter_entries (fa_zim B) None None = Ok after /\
     Permutation (map full_url after) (urls_of items ++ map full_url before)) /\
  (forall u e, get_entry_by_full_url (fa_zim A) u = Ok e ->
     exists e', get_entry_by_full_url (fa_zim B) u = Ok e' /\ same_entry e e' /\ target_url (fa_zim B) e' = target_url (fa_zim A) e) /\
  (forall c b d, 0 <= c -> 0 <= b -> ~ listing_blob (fa_zim A) c b -> reads (fa_arch A) c b = Ok d -> reads (fa_arch B) c b = Ok d) /\
  (forall us, article_urls (fa_zim A) = Some us -> exists us', article_urls (fa_zim B) = Some us' /\ Permutation us' (articles_of items ++ us)) /\
  h_uuid (fa_hdr B) = h_uuid (fa_hdr A) /\ (exists more, ml_types (fa_mimes B) = ml_types (fa_mimes A) ++ more).

Lemma blobs_number : forall (L : list (option (Z * ccell))) c bl, znth (blobs_of L) c = Some (Some bl) -> exists x, at_number L c x /\ cc_blobs (snd x) = bl.
Proof.
  intros L c bl E. unfold blobs_of, at_number, znth in *. destruct (c <? 0); [discriminate E|]. rewrite nth_error_map in E. destruct (nth_error L (Z.to_nat c)) as [[[o cc]|]|]; try discriminate E.
  injection E as <-. exists (o, cc). split; reflexivity.
Qed.

Lemma shown_history : forall r0 mx A cells L A' items cells1 L1 P B, laid_out Stream r0 A cells L -> ample fuel (fa_arch A) (blobs_of L) ->
  hcore fuel Stream reserve mx A cells L A' items cells1 L1 P [] [] -> ample fuel (fa_arch A') (blobs_of L1) -> same_archive A' B -> holds_all A items B.
Proof.
  intros r0 mx A cells L A' items cells1 L1 P B LO AM0 HV AM [S1 S2 S3 S4 S5 S6 S7 S8]. destruct HV as [V1 V2 V3 V4 V5 V6 V7 V8 V9 V10 V11 V12 V13 V14 V15 V16]. rewrite !app_nil_r in V4, V5.
  pose proof (lo_arch _ _ _ _ _ V1) as AO1. pose proof (lo_arch _ _ _ _ _ LO) as AO0.
  assert (PU : Permutation (map p_url P) (urls_of items)) by (rewrite <- urls_pairs; unfold urls_of; apply Permutation_map; exact V4).
  assert (RE : forall c b, reads (fa_arch B) c b = reads (fa_arch A') c b). { intros c b. apply read_ext; [exact S1|exact S5]. }
  split; [|split; [|split; [|split; [|split; [|split]]]]].
  - intros it d Hi. apply (Permutation_in _ (Permutation_sym V4)) in Hi. apply in_map_iff in Hi as (p & E & Hp). unfold pair_of in E. injection E as <- <-.
    rewrite Forall_forall in V5, V6. destruct (V6 p Hp) as (n & k & bl & H1 & H2 & H3 & H4 & _).
    assert (HI : holds_item 0 (fa_zim A') (blobs_of L1) p).
    { exists n, k, bl. split; [exact H1|]. split; [exact H2|]. split; [exact H3|]. split; [exact H4|]. pose proof (znth_some _ _ _ H2). lia. }
    destruct (holds_readable fuel dc new_decomp new_comp comp flush kd Stream CD (fa_arch A') cells1 L1 (fa_mimes A') P p 0 AO1 HI (V5 p Hp) Hp AM) as (e & c & b & m & R1 & R2 & R3 & R4 & R5 & R6 & R7 & R8).
    cbn [sa_arch sa_mimes] in *. exists e, c, b, m. change (ca_zim (sa_arch (fa_sarch B))) with (fa_zim B). change (sa_mimes (fa_sarch B)) with (fa_mimes B). change (sa_arch (fa_sarch B)) with (fa_arch B).
    rewrite S3, RE, (lookup_ext (fa_zim A') (fa_zim B) _ S1 S4). auto 10.
  - exists (map snd cells), (map snd cells1). split; [apply entries_ok; exact (ao_entries _ _ _ _ AO0)|]. split.
    + rewrite (entries_ext (fa_zim A') (fa_zim B) S1 S4). apply entries_ok. exact (ao_entries _ _ _ _ AO1).
    + rewrite V8. apply Permutation_app_tail. exact PU.
  - intros u e E. destruct (V9 u e E) as (e' & E1 & E2 & E3). exists e'. rewrite (lookup_ext (fa_zim A') (fa_zim B) _ S1 S4), (target_ext (fa_zim A') (fa_zim B) e' S1 S4). auto.
  - intros c b d Hc Hb NL E. rewrite RE.
    assert (X : exists bl, znth (blobs_of L) c = Some (Some bl)).
    { destruct (znth (blobs_of L) c) as [[bl|]|] eqn:EX; [eauto| |].
      - exfalso. apply (lo_present _ _ _ _ _ LO). unfold blobs_of, znth in EX. destruct (c <? 0); [discriminate EX|]. rewrite nth_error_map in EX.
        destruct (nth_error L (Z.to_nat c)) as [[[o cc]|]|] eqn:EN; try discriminate EX. eapply nth_error_In. exact EN.
      - exfalso. assert (ZL : zlen L <= c). { assert (Q : zlen (blobs_of L) = zlen L) by (unfold blobs_of, zlen; rewrite map_length; reflexivity). apply PointerListProofs.znth_none in EX; lia. }
        pose proof (present_count Stream md5 feed digest (fa_arch A) cells L AO0 (lo_present _ _ _ _ _ LO)) as PC. unfold read_blob_of, get_cluster_by_index in E. destruct (c <? 0); [discriminate E|].
        unfold get_by_index in E. destruct (py_index (zlen (pl_ptrs (ca_ptrs (fa_arch A)))) c) as [j|] eqn:EJ; [|discriminate E]. unfold py_index in EJ. revert EJ. rewrite PC.
        repeat match goal with |- context [if ?x then _ else _] => destruct x eqn:? end; intro EJ; try discriminate EJ; lia. }
    destruct X as (bl & EX). destruct (V11 c b bl EX NL) as (bl' & E1 & E2).
    destruct (shown_all fuel dc new_decomp new_comp comp flush kd Stream CD (fa_arch A) cells L c bl AO0 AM0 EX) as (_ & R0).
    destruct (shown_all fuel dc new_decomp new_comp comp flush kd Stream CD (fa_arch A') cells1 L1 c bl' AO1 AM E1) as (_ & R1).
    rewrite (R0 b Hb) in E. rewrite (R1 b Hb), E2. exact E.
  - intros us Hus. destruct (V13 us Hus) as (us' & U1 & U2). exists us'. split; [rewrite (articles_ext (fa_zim A') (fa_zim B) S1 S4 S6); exact U1|]. rewrite U2. apply Permutation_app_tail.
    unfold p_articles, articles_of, urls_of. rewrite <- (Permutation_map _ (perm_filter _ (fun x => it_article (fst x)) _ _ V4)). clear.
    induction P as [|p P IH]; cbn [map filter]; [apply Permutation_refl|]. change (it_article (fst (pair_of p))) with (it_article (p_item p)).
    destruct (it_article (p_item p)); cbn [map]; [apply perm_skip; exact IH|exact IH].
  - rewrite S2. pose proof (V14 FUuid ltac:(cbn; auto)) as Q. cbn [hget] in Q. injection Q as Q. exact Q.
  - rewrite S3. destruct V15 as (t & E). eauto.
Qed.

Lemma absent_urls : forall A cells L us, laid A cells L -> (forall u, In u us -> get_entry_by_full_url (fa_zim A) u = Err EntryNotFound) ->
  forall u, In u us -> absent (map snd cells) u.
Proof.
  intros A cells L us LO AB u Hu. pose proof (ao_entries _ _ _ _ (lo_arch _ _ _ _ _ LO)) as CS.
  assert (EU : exists b, utf8_encode u = Some b).
  { destruct (utf8_encode u) as [b|] eqn:E; [eauto|]. specialize (AB u Hu). rewrite lookup_unencodable in AB by exact E. discriminate AB. }
  destruct EU as (b & EU). apply (missing_iff _ _ u b CS EU). apply AB. exact Hu.
Qed.
Lemma runs_start : forall A ops A', runs A ops A' -> suffices fuel Stream reserve A.
Proof. intros A ops A' R. inversion R as [? W|? ? ? ? ? W]; subst; exact (proj1 W). Qed.
Lemma runs_end : forall A ops A', runs A ops A' -> suffices fuel Stream reserve A'.
Proof. induction 1 as [? W|]; [exact (proj1 W)|assumption]. Qed.
Lemma same_checksum : forall A B, same_archive A B -> checksum_right md5 feed digest A -> checksum_right md5 feed digest B.
Proof.
  intros A B [S1 S2 _ _ _ _ _ _] C. unfold checksum_right, get_checksum in *. rewrite S1, S2. exact C.
Qed.

(** After a history that ends with a flush, or with closing and opening again. *)
Lemma after_history : forall mx A cells L ops o A' w sc sp, laid A cells L -> pendany fuel mx (zs_comp (fa_state A)) [] -> pendany fuel mx (zs_plain (fa_state A)) [] ->
  fa_redirects A = [] -> fa_main A = None -> (is_dirty A = false -> saved md5 feed digest A) ->
  runs A (ops ++ [o]) A' -> zadded [o] = [] -> Forall (zop_ok fuel) (ops ++ [o]) -> Forall (limited mx) (ops ++ [o]) -> NoDup (urls_of (zadded ops)) ->
  (forall u, In u (urls_of (zadded ops)) -> get_entry_by_full_url (fa_zim A) u = Err EntryNotFound) ->
  zlen cells + zlen (zadded ops) < 2 ^ 32 -> zlen L + zlen (zadded ops) < 2 ^ 32 ->
  checksum_right md5 feed digest A' /\ exists B, opens (fa_file A') w sc sp = Ok B /\ same_archive A' B /\ checksum_right md5 feed digest B /\ holds_all A (zadded ops) B.
Proof.
  intros mx A cells L ops o A' w sc sp LO P1 P2 B1 B2 SV R EO OK LM ND AB Z1 Z2.
  assert (RO : room 0 cells L (zadded ops)).
  { split; [exact ND|]. split; [exact (absent_urls A cells L _ LO AB)|]. pose proof (zlen_nonneg L). auto. }
  destruct (history fuel dc new_decomp new_comp comp flush depth kd Stream reserve md5 feed digest truncate process_blob rounds CD HO mx A cells L ops o A' LO P1 P2 B1 B2 SV R EO RO OK LM) as (cells1 & L1 & P & HV & SA).
  pose proof (hv_laid _ _ _ _ _ _ _ _ _ _ _ _ _ _ HV) as LO1. destruct (runs_end _ _ _ R) as (F0 & FA & _). destruct (runs_start _ _ _ R) as (_ & FA0 & _). pose proof SA as (_ & _ & _ & CR). split; [exact CR|].
  destruct (open_ok fuel dc new_decomp new_comp comp flush depth kd Stream reserve md5 feed digest CD w sc sp A' cells1 L1 LO1 SA (FA _ _ LO1) F0) as (B & E & S & _).
  exists B. split; [exact E|]. split; [exact S|]. split; [exact (same_checksum _ _ S CR)|].
  exact (shown_history reserve mx A cells L A' (zadded ops) cells1 L1 P B LO (FA0 _ _ LO) HV (FA _ _ LO1) S).
Qed.

(** *** C46, C60: any archive that is in order, and whatever is added to it.
    C46 is partial: the archive is changed by adding items only; see
    [C46_refuted] about other changes. *)
Theorem C46_flush_then_open_partial : forall A cells L ops A' w sc sp, laid A cells L -> fresh_strategy (zs_comp (fa_state A)) -> fresh_strategy (zs_plain (fa_state A)) ->
  fa_redirects A = [] -> fa_main A = None -> (is_dirty A = false -> saved md5 feed digest A) ->
  runs A (ops ++ [ZFlush]) A' -> Forall (zop_ok fuel) ops -> NoDup (urls_of (zadded ops)) ->
  (forall u, In u (urls_of (zadded ops)) -> get_entry_by_full_url (fa_zim A) u = Err EntryNotFound) ->
  zlen cells + zlen (zadded ops) < 2 ^ 32 -> zlen L + zlen (zadded ops) < 2 ^ 32 ->
  checksum_right md5 feed digest A' /\ exists B, opens (fa_file A') w sc sp = Ok B /\ same_archive A' B /\ checksum_right md5 feed digest B.
Proof.
  intros A cells L ops A' w sc sp LO F1 F2 B1 B2 SV R OK ND AB Z1 Z2. set (mx := Z.max (Z.max (limit_of (zs_comp (fa_state A))) (limit_of (zs_plain (fa_state A)))) (highest (ops ++ [ZFlush]))).
  destruct (after_history mx A cells L ops ZFlush A' w sc sp) as (C & B & E & S & CB & _); try assumption; try reflexivity.
  - apply fresh_pendany; [exact F1|lia].
  - apply fresh_pendany; [exact F2|lia].
  - apply Forall_app. split; [exact OK|]. constructor; [exact I|constructor].
  - eapply limited_more; [|apply highest_limits]. lia.
  - split; [exact C|]. exists B. auto.
Qed.
Theorem C60_items_survive : forall A cells L ops A' w sc sp, laid A cells L -> fresh_strategy (zs_comp (fa_state A)) -> fresh_strategy (zs_plain (fa_state A)) ->
  fa_redirects A = [] -> fa_main A = None -> (is_dirty A = false -> saved md5 feed digest A) ->
  runs A (ops ++ [ZFlush]) A' -> Forall (zop_ok fuel) ops -> NoDup (urls_of (zadded ops)) ->
  (forall u, In u (urls_of (zadded ops)) -> get_entry_by_full_url (fa_zim A) u = Err EntryNotFound) ->
  zlen cells + zlen (zadded ops) < 2 ^ 32 -> zlen L + zlen (zadded ops) < 2 ^ 32 ->
  exists B, opens (fa_file A') w sc sp = Ok B /\ holds_all A (zadded ops) B.
Proof.
  intros A cells L ops A' w sc sp LO F1 F2 B1 B2 SV R OK ND AB Z1 Z2. set (mx := Z.max (Z.max (limit_of (zs_comp (fa_state A))) (limit_of (zs_plain (fa_state A)))) (highest (ops ++ [ZFlush]))).
  destruct (after_history mx A cells L ops ZFlush A' w sc sp) as (_ & B & E & _ & _ & HA); try assumption; try reflexivity.
  - apply fresh_pendany; [exact F1|lia].
  - apply fresh_pendany; [exact F2|lia].
  - apply Forall_app. split; [exact OK|]. constructor; [exact I|constructor].
  - eapply limited_more; [|apply highest_limits]. lia.
  - exists B. auto.
Qed.
End Flush.

(** ** New archives *)
Section New.
Variable fuel : nat.
Context {D : Type}.
Variable dc : decomp D.
Variable new_decomp : ctype -> res D.
Context {K : Type}.
Variable new_comp : ctype -> res K.
Variable comp : K -> bytes -> res (bytes * K).
Variable flush : K -> res bytes.
Variable depth : nat.
Variable kd : ckind.
Variable Stream : ctype -> bytes -> bytes -> Prop.
Variable r : Z.
Context {H : Type}.
Variable md5 : H.
Variable feed : H -> bytes -> H.
Variable digest : H -> bytes.
Variable truncate : bool.
Variable process_blob : entry -> M zim unit.
Variable rounds : nat.
Hypothesis CD : codec_ok dc new_decomp new_comp comp flush Stream.
Hypothesis HO : hash_ok feed digest.
Hypothesis Hr : 0 <= r.
Notation runs := (zruns fuel dc new_decomp new_comp comp flush depth kd Stream md5 feed digest (Some r) truncate process_blob rounds).
Notation opens := (open_zim fuel dc new_decomp new_comp comp flush depth kd).
Notation readable := (readable fuel dc new_decomp kd).

(** Everything that was ever put into an archive, from its creation on, through
    any number of flushes and openings, is in the archive that is opened last,
    and nothing else, apart from the entry for the article title list. *)
Lemma new_history : forall u sc0 sp0 A ops A' w sc sp, zlen u = 16 -> fresh_strategy sc0 -> fresh_strategy sp0 ->
  init_new fuel new_comp comp flush depth (Some r) u sc0 sp0 = Ok A -> runs A (ops ++ [ZFlush]) A' -> Forall (zop_ok fuel) ops ->
  let items := zadded ops in
  NoDup (URL_ARTICLE_TITLE_INDEX :: urls_of items) -> zlen items < 2 ^ 32 - 1 ->
  checksum_right md5 feed digest A' /\ exists B, opens (fa_file A') w sc sp = Ok B /\ same_archive A' B /\ checksum_right md5 feed digest B /\
    h_uuid (fa_hdr B) = u /\ (forall it d, In (it, d) items -> readable (fa_sarch B) it d) /\
    (exists es, iter_entries (fa_zim B) None None = Ok es /\ Permutation (map full_url es) (URL_ARTICLE_TITLE_INDEX :: urls_of items)) /\
    (exists us, article_urls (fa_zim B) = Some us /\ Permutation us (articles_of items)).
Proof.
  intros u sc0 sp0 A ops A' w sc sp HU F1 F2 IN R OK items ND ZI. set (mx := Z.max (Z.max (limit_of sc0) (limit_of sp0)) (highest (ops ++ [ZFlush]))).
  pose proof (runs_start fuel dc new_decomp new_comp comp flush depth kd Stream (Some r) md5 feed digest truncate process_blob rounds _ _ _ R) as (HF & _).
  destruct (created fuel dc new_decomp new_comp comp flush depth Stream CD mx r Hr HF u sc0 sp0 A HU F1 F2) as (cells & L & LO & P1 & P2 & B1 & B2 & DI & EU & EA & ZL & UU); [lia|lia|exact IN|].
  pose proof (ao_entries _ _ _ _ (lo_arch _ _ _ _ _ LO)) as CS.
  assert (AB : forall x, In x (urls_of items) -> get_entry_by_full_url (fa_zim A) x = Err EntryNotFound).
  { intros x Hx. unfold urls_of in Hx. apply in_map_iff in Hx as ((it & d) & <- & Hi). cbn [fst].
    assert (IO : item_ok fuel it d).
    { clear - OK Hi. subst items. induction ops as [|o ops IH]; [destruct Hi|]. inversion OK as [|? ? O1 O2]; subst. rewrite zadded_cons in Hi. apply in_app_or in Hi as [Hi|Hi]; [|auto].
      destruct o; cbn in Hi; [|destruct Hi..]. destruct Hi as [Q|[]]. injection Q as -> ->. exact O1. }
    assert (EB : exists b, utf8_encode (item_url it) = Some b).
    { destruct (item_storable _ _ _ IO) as ((y & Y) & ((b & Eb) & _) & _). exists ([y] ++ b). unfold item_url. apply Utf8Proofs.utf8_encode_app; assumption. }
    destruct EB as (b & Eb). eapply missing_iff; [exact CS|exact Eb|]. intros e He Q. apply (in_map full_url) in He. rewrite EU in He. destruct He as [He|[]].
    inversion ND as [|? ? N1 _]; subst. apply N1. rewrite He, Q. unfold urls_of. apply (in_map (fun x => item_url (fst x)) _ (it, d)). exact Hi. }
  assert (ZC : zlen cells = 1). { apply (f_equal (@length _)) in EU. rewrite !map_length in EU. unfold zlen. rewrite EU. reflexivity. }
  inversion ND as [|? ? N1 N2]; subst.
  destruct (after_history fuel dc new_decomp new_comp comp flush depth kd Stream (Some r) md5 feed digest truncate process_blob rounds CD HO mx A cells L ops ZFlush A' w sc sp) as (C & B & E & S & CB & HA1 & HA2 & _ & _ & HA5 & HA6 & _); try assumption; try reflexivity.
  - intro Q. congruence.
  - apply Forall_app. split; [exact OK|]. constructor; [exact I|constructor].
  - eapply limited_more; [|apply highest_limits]. lia.
  - fold items. lia.
  - fold items. lia.
  - split; [exact C|]. exists B. split; [exact E|]. split; [exact S|]. split; [exact CB|]. split; [exact HA6|]. split; [exact HA1|]. split.
    + destruct HA2 as (bf & af & E1 & E2 & E3). exists af. split; [exact E2|]. pose proof (eq_trans (eq_sym E1) (entries_ok _ _ CS)) as Q. injection Q as ->. rewrite EU in E3. rewrite E3. apply Permutation_sym, Permutation_cons_append.
    + destruct (HA5 [] EA) as (us & E1 & E2). exists us. rewrite app_nil_r in E2. auto.
Qed.
Theorem C46_new_archive_partial : forall u sc0 sp0 A ops A' w sc sp, zlen u = 16 -> fresh_strategy sc0 -> fresh_strategy sp0 ->
  init_new fuel new_comp comp flush depth (Some r) u sc0 sp0 = Ok A -> runs A (ops ++ [ZFlush]) A' -> Forall (zop_ok fuel) ops ->
  NoDup (URL_ARTICLE_TITLE_INDEX :: urls_of (zadded ops)) -> zlen (zadded ops) < 2 ^ 32 - 1 ->
  checksum_right md5 feed digest A' /\ exists B, opens (fa_file A') w sc sp = Ok B /\ same_archive A' B /\ checksum_right md5 feed digest B.
Proof.
  intros u sc0 sp0 A ops A' w sc sp HU F1 F2 IN R OK ND ZI. destruct (new_history u sc0 sp0 A ops A' w sc sp HU F1 F2 IN R OK ND ZI) as (C & B & E & S & CB & _). split; [exact C|]. exists B. auto.
Qed.
Theorem C60_new_archive : forall u sc0 sp0 A ops A' w sc sp, zlen u = 16 -> fresh_strategy sc0 -> fresh_strategy sp0 ->
  init_new fuel new_comp comp flush depth (Some r) u sc0 sp0 = Ok A -> runs A (ops ++ [ZFlush]) A' -> Forall (zop_ok fuel) ops ->
  let items := zadded ops in
  NoDup (URL_ARTICLE_TITLE_INDEX :: urls_of items) -> zlen items < 2 ^ 32 - 1 ->
  exists B, opens (fa_file A') w sc sp = Ok B /\ h_uuid (fa_hdr B) = u /\ (forall it d, In (it, d) items -> readable (fa_sarch B) it d) /\
    (exists es, iter_entries (fa_zim B) None None = Ok es /\ Permutation (map full_url es) (URL_ARTICLE_TITLE_INDEX :: urls_of items)) /\
    (exists us, article_urls (fa_zim B) = Some us /\ Permutation us (articles_of items)).
Proof.
  intros u sc0 sp0 A ops A' w sc sp HU F1 F2 IN R OK items ND ZI. destruct (new_history u sc0 sp0 A ops A' w sc sp HU F1 F2 IN R OK ND ZI) as (_ & B & E & _ & _ & HB). exists B. split; [exact E|exact HB].
Qed.
End New.

(** ** A concrete history: an archive without compression is created, an item is
    added, the archive is flushed; another one is added, the archive is closed
    and opened; a third one is added. *)
Definition sample_feed (h : Z) (b : bytes) : Z := fold_left (fun a x => (a * 31 + Z.of_N (Byte.to_N x)) mod 65521) b h.
Definition sample_digest (h : Z) : bytes := le_bytes 16 h.
Lemma sample_hash : hash_ok sample_feed sample_digest.
Proof.
  constructor.
  - reflexivity.
  - intros h a b. unfold sample_feed. rewrite fold_left_app. reflexivity.
  - intro h. unfold sample_digest. rewrite zlen_le_bytes. reflexivity.
Qed.
Definition sample_fuel : nat := 2000.
Definition sample_uuid : bytes := repeat x07 16.
Definition sample_simple : anystrat := Simple (strat_new NONE 10).
Definition sample_mime : anystrat := ByMimetype (mkMstrat NONE 10 []).
Notation sample_suffices := (suffices sample_fuel plain_stream (Some 50)).
Notation sample_flush := (flushes sample_fuel passthrough plain_new plain_new_comp plain_comp plain_flush 6 KRemembering 0 sample_feed sample_digest (Some 50) true (fun _ => ret tt) 3).
Notation sample_content := (let* _ := sync_main in flush_content sample_fuel plain_new_comp plain_comp plain_flush 6 (fun _ => ret tt) 3).
Notation sample_articles := (let* _ := sync_main in flush_articles sample_fuel passthrough plain_new plain_new_comp plain_comp plain_flush KRemembering).
Notation sample_step := (perform_zop sample_fuel passthrough plain_new plain_new_comp plain_comp plain_flush 6 KRemembering 0 sample_feed sample_digest (Some 50) true (fun _ => ret tt) 3).
Notation sample_runs := (zruns sample_fuel passthrough plain_new plain_new_comp plain_comp plain_flush 6 KRemembering plain_stream 0 sample_feed sample_digest (Some 50) true (fun _ => ret tt) 3).
Notation sample_open := (open_zim sample_fuel passthrough plain_new plain_new_comp plain_comp plain_flush 6 KRemembering).

Notation sample_titles := (flush_titles sample_fuel passthrough plain_new plain_new_comp plain_comp plain_flush 6 KRemembering).
Definition small (A : farchive) : bool :=
  (3 * zlen (fa_file A) + 2 <=? Z.of_nat sample_fuel) && (4 * zlen (pl_ptrs (z_atpl (fa_zim A))) <? Z.of_nat sample_fuel) &&
  match z_etpl (fa_zim A) with None => true | Some t => 4 * zlen (pl_ptrs t) <? Z.of_nat sample_fuel end.
Lemma small_enough : forall reserve A, small A = true -> suffices sample_fuel plain_stream reserve A.
Proof.
  intros reserve A S. unfold small in S. apply andb_true_iff in S as (S & S3). apply andb_true_iff in S as (S1 & S2). split; [unfold sample_fuel; lia|]. split; [|split; [lia|intros t E; rewrite E in S3; lia]].
  intros cells L LO b Hb. apply Z.leb_le in S1. unfold blobs_of in Hb. apply in_map_iff in Hb as (o & E & Ho). destruct o as [[off c]|]; [|discriminate E]. injection E as <-. cbn [snd].
  apply In_nth_error in Ho as (i & EI). assert (AT : at_number L (Z.of_nat i) (off, c)).
  { unfold at_number, znth. destruct (Z.ltb_spec (Z.of_nat i) 0); [lia|]. rewrite Nat2Z.id. exact EI. }
  pose proof (ao_stored _ _ _ _ (lo_arch _ _ _ _ _ LO) _ _ AT) as CA. cbn [fst snd] in CA. destruct CA as (P0 & _ & x & C & EL & ER & _ & (_ & ->)). fold (fa_file A) in ER.
  change (ca_file (fa_arch A)) with (fa_file A).
  assert (LE : 1 + zlen (cluster_data (cc_ext c) (cc_blobs c)) <= zlen (fa_file A)).
  { apply (f_equal zlen) in ER. rewrite zlen_cons in ER. unfold fread, zsub in ER. pose proof (zlen_nonneg (cluster_data (cc_ext c) (cc_blobs c))). rewrite ztake_len, zskip_len in ER by lia.
    change (ca_file (fa_arch A)) with (fa_file A) in ER. lia. }
  rewrite !cluster_data_len in *. pose proof (zlen_nonneg (concat (cc_blobs c))). pose proof (zlen_nonneg (cc_blobs c)). unfold pointers_size, pointer_bytes in *. destruct (cc_ext c); lia.
Qed.
Lemma small_suffices : forall A, small A = true -> sample_suffices A.
Proof. exact (small_enough (Some 50)). Qed.
Definition flush_small (A : farchive) : bool :=
  match sample_content A with
  | (Ok _, A1) => small A1 && match sample_articles A1 with (Ok _, A2) => small A2 && match sample_titles A2 with (Ok _, A3) => small A3 | _ => true end | _ => true end
  | _ => true
  end && match sample_flush A with (Ok _, A') => small A' | _ => true end.
Lemma flush_small_suffices : forall A, flush_small A = true ->
  flush_suffices sample_fuel passthrough plain_new plain_new_comp plain_comp plain_flush 6 KRemembering plain_stream 0 sample_feed sample_digest (Some 50) true (fun _ => ret tt) 3 A.
Proof.
  intros A S. unfold flush_small in S. apply andb_true_iff in S as (S1 & S2). split.
  - intros A1 E. rewrite E in S1. apply andb_true_iff in S1 as (S1 & S3). split; [apply small_suffices; exact S1|]. intros A2 E2. rewrite E2 in S3. apply andb_true_iff in S3 as (S3 & S4). split; [apply small_suffices; exact S3|]. intros A3 E3. rewrite E3 in S4. apply small_suffices. exact S4.
  - intros A' E. rewrite E in S2. apply small_suffices. exact S2.
Qed.
Definition few (A : farchive) : bool := small A && (zlen (ml_types (fa_mimes A)) <=? 65535).
Fixpoint sample_run (A : farchive) (ops : list zop) : option farchive :=
  if few A then
    match ops with
    | [] => Some A
    | o :: r => if flush_small A then match sample_step A o with (Ok _, A1) => sample_run A1 r | (Err _, _) => None end else None
    end
  else None.
Lemma few_ok : forall A, few A = true -> within_limits sample_fuel plain_stream (Some 50) A.
Proof. intros A F. unfold few in F. apply andb_true_iff in F as (F1 & F2). split; [apply small_suffices; exact F1|lia]. Qed.
Lemma sample_run_ok : forall ops A A', sample_run A ops = Some A' -> sample_runs A ops A'.
Proof.
  induction ops as [|o ops IH]; intros A A' E; cbn [sample_run] in E; (destruct (few A) eqn:F; [|discriminate E]).
  - injection E as <-. constructor. apply few_ok. exact F.
  - destruct (flush_small A) eqn:FS; [|discriminate E]. destruct (sample_step A o) as [[[]|e] A1] eqn:ES; [|discriminate E].
    econstructor; [apply few_ok; exact F|apply flush_small_suffices; exact FS|exact ES|]. apply IH. exact E.
Qed.

Definition sample_created : res farchive := init_new sample_fuel plain_new_comp plain_comp plain_flush 6 (Some 50) sample_uuid sample_simple sample_mime.
Definition sample_zops : list zop := [ZAdd item_b [x42] false; ZFlush; ZAdd item_c [x43] true; ZReopen sample_mime sample_simple; ZAdd item_a [x41] false].
Definition end_of (r : res farchive) : res farchive := do A <- r ;; match sample_run A (sample_zops ++ [ZFlush]) with Some A' => Ok A' | None => Err Diverge end.
Lemma end_of_ok : forall r, match end_of r with Ok _ => true | Err _ => false end = true -> exists A A', r = Ok A /\ end_of r = Ok A' /\ sample_runs A (sample_zops ++ [ZFlush]) A'.
Proof.
  intros [A|e] E; cbn [end_of bind] in *; [|discriminate E]. destruct (sample_run A (sample_zops ++ [ZFlush])) as [A'|] eqn:ER; [|discriminate E].
  exists A, A'. split; [reflexivity|]. split; [reflexivity|]. apply sample_run_ok. exact ER.
Qed.
Definition sample_end : res farchive := end_of sample_created.
Lemma sample_end_works : match end_of sample_created with Ok _ => true | Err _ => false end = true.
Proof. vm_compute. reflexivity. Qed.
Lemma sample_end_ok : exists A A', sample_created = Ok A /\ sample_end = Ok A' /\ sample_runs A (sample_zops ++ [ZFlush]) A'.
Proof. exact (end_of_ok sample_created sample_end_works). Qed.
Lemma entry_count_of : forall r A n, r = Ok A -> match r with Ok A => h_entry_count (fa_hdr A) =? n | Err _ => false end = true -> h_entry_count (fa_hdr A) = n.
Proof. intros r A n -> Q. lia. Qed.
Lemma sample_end_count : match sample_end with Ok A => h_entry_count (fa_hdr A) =? 4 | Err _ => false end = true.
Proof. vm_compute. reflexivity. Qed.
Lemma larger_ok : forall fuel fuel' it d, item_ok fuel it d -> (fuel <= fuel')%nat -> item_ok fuel' it d.
Proof. intros fuel fuel' it d (H1 & H2 & H3) LE. split; [exact H1|]. split; [|exact H3]. unfold delivers in *. intuition lia. Qed.
Lemma sample_zops_ok : Forall (zop_ok sample_fuel) sample_zops /\ NoDup (URL_ARTICLE_TITLE_INDEX :: urls_of (zadded sample_zops)) /\ zlen (zadded sample_zops) < 2 ^ 32 - 1 /\
  fresh_strategy sample_simple /\ fresh_strategy sample_mime.
Proof.
  assert (FS : fresh_strategy sample_simple) by (exists NONE, 10; left; reflexivity). assert (FM : fresh_strategy sample_mime) by (exists NONE, 10; right; reflexivity).
  split; [|split; [|split; [reflexivity|auto]]].
  - assert (LE : (200 <= sample_fuel)%nat) by (unfold sample_fuel; lia). repeat (constructor; [cbn [zop_ok]; first [exact I|split; assumption|
      eapply larger_ok; [first [exact item_a_ok|exact item_b_ok|exact item_c_ok]|exact LE]]|]). constructor.
  - vm_compute. repeat constructor; cbn; intuition discriminate.
Qed.
(** The theorems apply to it. *)
Example C46_example : exists A', sample_end = Ok A' /\ checksum_right 0 sample_feed sample_digest A' /\
  exists B, sample_open (fa_file A') false sample_simple sample_simple = Ok B /\ same_archive A' B /\ checksum_right 0 sample_feed sample_digest B /\ h_uuid (fa_hdr B) = sample_uuid /\
    readable sample_fuel passthrough plain_new KRemembering (fa_sarch B) item_a [x41] /\ readable sample_fuel passthrough plain_new KRemembering (fa_sarch B) item_b [x42] /\
    readable sample_fuel passthrough plain_new KRemembering (fa_sarch B) item_c [x43] /\ h_entry_count (fa_hdr B) = 4.
Proof.
  destruct sample_end_ok as (A & A' & E1 & E2 & R). destruct sample_zops_ok as (O1 & O2 & O3 & FS & FM). exists A'. split; [exact E2|].
  destruct (new_history sample_fuel passthrough plain_new plain_new_comp plain_comp plain_flush 6 KRemembering plain_stream 50 0 sample_feed sample_digest true (fun _ => ret tt) 3 plain_codec sample_hash ltac:(lia)
    sample_uuid sample_simple sample_mime A sample_zops A' false sample_simple sample_simple eq_refl FS FM E1 R O1 O2 O3) as (C & B & H1 & H2 & H3 & H4 & H5 & _).
  split; [exact C|]. exists B. split; [exact H1|]. split; [exact H2|]. split; [exact H3|]. split; [exact H4|].
  split; [apply H5; cbn; auto|]. split; [apply H5; cbn; auto|]. split; [apply H5; cbn; auto|]. rewrite (sm_header _ _ H2). exact (entry_count_of _ _ 4 E2 sample_end_count).
Qed.

Lemma sample_end_laid : forall A', sample_end = Ok A' -> exists cells L, laid_out plain_stream (Some 50) A' cells L /\ saved 0 sample_feed sample_digest A' /\ idle A' /\ sample_suffices A'.
Proof.
  intros A' E. destruct sample_end_ok as (A & A1 & E1 & E2 & R). rewrite E in E2. injection E2 as <-. destruct sample_zops_ok as (O1 & O2 & O3 & FS & FM). inversion O2 as [|? ? N1 N2]; subst.
  destruct (created sample_fuel passthrough plain_new plain_new_comp plain_comp plain_flush 6 plain_stream plain_codec 10 50 ltac:(lia) ltac:(unfold sample_fuel; lia) sample_uuid sample_simple sample_mime A eq_refl FS FM)
    as (cells & L & LO & P1 & P2 & B1 & B2 & DI & EU & EA & ZL & UU); [cbn; lia|cbn; lia|exact E1|].
  pose proof (runs_end sample_fuel passthrough plain_new plain_new_comp plain_comp plain_flush 6 KRemembering plain_stream (Some 50) 0 sample_feed sample_digest true (fun _ => ret tt) 3 _ _ _ R) as SU.
  destruct (history sample_fuel passthrough plain_new plain_new_comp plain_comp plain_flush 6 KRemembering plain_stream (Some 50) 0 sample_feed sample_digest true (fun _ => ret tt) 3 plain_codec sample_hash 10 A cells L
    sample_zops ZFlush A' LO P1 P2 B1 B2) as (cells1 & L1 & P & HV & SA); try assumption; try reflexivity.
  - intro Q. congruence.
  - split; [exact N2|]. split; [|].
    + intros u Hu e He Q. apply (in_map full_url) in He. rewrite EU in He. destruct He as [He|[]]. apply N1. rewrite He, Q. exact Hu.
    + assert (ZC : zlen cells = 1). { apply (f_equal (@length _)) in EU. rewrite !map_length in EU. unfold zlen. rewrite EU. reflexivity. }
      change (zlen (zadded sample_zops)) with 3. pose proof (zlen_nonneg L). lia.
  - apply Forall_app. split; [exact O1|]. constructor; [exact I|constructor].
  - repeat (constructor; [cbn; try exact I; lia|]). constructor.
  - exists cells1, L1. split; [exact (hv_laid _ _ _ _ _ _ _ _ _ _ _ _ _ _ HV)|]. split; [exact SA|]. split; [|exact SU].
    split; [eapply pending_idle; exact (hv_comp _ _ _ _ _ _ _ _ _ _ _ _ _ _ HV)|]. split; [eapply pending_idle; exact (hv_plain _ _ _ _ _ _ _ _ _ _ _ _ _ _ HV)|]. destruct (hv_buffer _ _ _ _ _ _ _ _ _ _ _ _ _ _ HV). split; congruence.
Qed.
(** The archive that is opened from this file meets the hypotheses of the
    theorems about archives that are in order. *)
Example C46_example_in_order : exists A B cells L, sample_end = Ok A /\ sample_open (fa_file A) true sample_simple sample_mime = Ok B /\ laid_out plain_stream (Some 50) B cells L /\
  fresh_strategy (zs_comp (fa_state B)) /\ fresh_strategy (zs_plain (fa_state B)) /\ fa_redirects B = [] /\ fa_main B = None /\ saved 0 sample_feed sample_digest B.
Proof.
  destruct sample_end_ok as (_ & A & _ & EA & _). destruct (sample_end_laid A EA) as (cells & L & LO & SA & _ & (F0 & FA & _)). destruct sample_zops_ok as (_ & _ & _ & FS & FM).
  destruct (open_ok sample_fuel passthrough plain_new plain_new_comp plain_comp plain_flush 6 KRemembering plain_stream (Some 50) 0 sample_feed sample_digest plain_codec true sample_simple sample_mime A cells L LO SA (FA _ _ LO) F0)
    as (B & E & _ & E1 & E2 & E3 & E4 & _ & W). destruct (W eq_refl) as (LB & SB). exists A, B, cells, L. rewrite E1, E2. auto 10.
Qed.

(** ** Not every change is noticed: an entry that is written again in its place,
    with another title of the same length, marks nothing as modified; the flush
    that follows does nothing and the stored checksum is wrong. *)
Definition C46_full_statement : Prop :=
  forall fuel D (dc : decomp D) new_decomp K new_comp comp flush depth kd Stream reserve H (md5 : H) feed digest truncate process_blob rounds,
  codec_ok (K:=K) dc new_decomp new_comp comp flush Stream -> hash_ok feed digest ->
  forall A cells L w z A', laid_out Stream reserve A cells L -> saved md5 feed digest A -> idle A -> suffices fuel Stream reserve A ->
  write_entry (S (S depth)) w (fa_zim A) = (Ok tt, z) ->
  flushes fuel dc new_decomp new_comp comp flush depth kd md5 feed digest reserve truncate process_blob rounds (fa_set_zim z A) = (Ok tt, A') ->
  checksum_right md5 feed digest A'.
Definition retitled (s : zim) : res went :=
  do e <- get_entry_by_full_url s (item_url item_b) ;;
  Ok (mkWent (mkEntry (e_mimetype e) (e_ns e) (e_url e) (Some [66]) (e_kind e)) (full_url e) None).
Definition stale_of (r : res farchive) : bool :=
  match r with
  | Ok A => match retitled (fa_zim A) with
            | Ok w => match write_entry 8 w (fa_zim A) with
                      | (Ok _, z) => match sample_flush (fa_set_zim z A) with
                                     | (Ok _, A') => negb (beqb (get_checksum A') (hash 0 sample_feed sample_digest (ztake (h_checksum_pos (fa_hdr A')) (fa_file A'))))
                                     | _ => false
                                     end
                      | _ => false
                      end
            | _ => false
            end
  | _ => false
  end.
Lemma stale_parts : forall r, stale_of r = true -> exists A w z A', r = Ok A /\ write_entry 8 w (fa_zim A) = (Ok tt, z) /\ sample_flush (fa_set_zim z A) = (Ok tt, A') /\
  get_checksum A' <> hash 0 sample_feed sample_digest (ztake (h_checksum_pos (fa_hdr A')) (fa_file A')).
Proof.
  intros [A|e] V; cbn [stale_of] in V; [|discriminate V]. destruct (retitled (fa_zim A)) as [w|e]; [|discriminate V]. destruct (write_entry 8 w (fa_zim A)) as [[[]|e] z] eqn:EW; [|discriminate V].
  destruct (sample_flush (fa_set_zim z A)) as [[[]|e] A'] eqn:EF; [|discriminate V]. exists A, w, z, A'. split; [reflexivity|]. split; [exact EW|]. split; [exact EF|].
  intro Q. rewrite Q, beqb_refl in V. discriminate V.
Qed.
Lemma sample_stale : stale_of sample_end = true.
Proof. vm_compute. reflexivity. Qed.
Theorem C46_refuted : ~ C46_full_statement.
Proof.
  intro F. destruct (stale_parts sample_end sample_stale) as (A & w & z & A' & EA & EW & EF & NE). destruct (sample_end_laid A EA) as (cells & L & LO & SA & ID & SU).
  destruct (F sample_fuel _ _ _ _ _ _ _ 6%nat KRemembering plain_stream (Some 50) _ 0 sample_feed sample_digest true (fun _ => ret tt) 3%nat plain_codec sample_hash A cells L w z A' LO SA ID SU EW EF) as (_ & Q).
  exact (NE Q).
Qed.

Print Assumptions C46_flush_then_open_partial.
Print Assumptions C46_new_archive_partial.
Print Assumptions C46_refuted.
Print Assumptions C60_items_survive.
Print Assumptions C60_new_archive.
