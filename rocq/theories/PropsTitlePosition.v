(** C75: the title position in the header leads to the entry title list. *)
From Coq Require Import List ZArith Bool Lia Permutation Sorted Strings.Byte.
From Coq Require Import ZifyBool ZifyNat.
From Verif Require Import Base BaseProofs Utf8 Utf8Proofs Infobyte Header HeaderSpec HeaderProofs MimeTypeList MimeTypeListSpec Entry EntrySpec Reader ReaderSpec Decompressors DecompressorsProofs Blob BlobProofs
  PointerList PointerListProofs SpaceAllocator Cluster ClusterSpec ClusterProofs ClusterWrapper ClusterWrapperSpec ClusterWrapperProofs Archive ArchiveSpec ArchiveProofs ArchiveFacts ArchiveObserve
  ArchiveCluster ArchiveClusterSpec ArchiveClusterProofs ArchiveFrame CompressionStrategy CompressionStrategySpec CompressionStrategyProofs OperationBuffer OperationBufferSpec Flush FlushSpec FlushProofs FlushTailProofs FlushOpenProofs
  FlushHistorySpec FlushHistoryProofs FlushCreateProofs PropsArchiveCluster PropsCompressionStrategy PropsFlush.
Import ListNotations.
Open Scope Z_scope.

(** ** A blob in the data of its cluster *)
Lemma blob_in_data : forall ext bl b d, znth bl b = Some d -> exists p, znth (positions ext bl) b = Some p /\ 0 <= p /\ p + zlen d <= zlen (cluster_data ext bl) /\ zsub p (zlen d) (cluster_data ext bl) = d.
Proof.
  intros ext bl b d E. pose proof (znth_some _ _ _ E) as RG. unfold znth in *. replace (b <? 0) with false in * by lia. unfold positions.
  assert (LE : (Z.to_nat b < length bl)%nat) by (apply nth_error_Some; congruence).
  exists (pointers_size ext bl + zlen (concat (firstn (Z.to_nat b) bl))). split; [apply positions_nth; lia|].
  pose proof (zlen_nonneg (concat (firstn (Z.to_nat b) bl))) as Z1. pose proof (zlen_nonneg bl) as Z2.
  assert (Z3 : 0 <= pointers_size ext bl) by (unfold pointers_size, pointer_bytes; destruct ext; lia). split; [lia|].
  pose proof (zlen_nonneg d) as Z4. pose proof (zlen_nonneg (concat (skipn (S (Z.to_nat b)) bl))) as Z5.
  assert (ZP : zlen (concat (map (le_bytes (pointer_bytes ext)) (positions ext bl))) = pointers_size ext bl).
  { pose proof (cluster_data_len ext bl) as Q. unfold cluster_data in Q. rewrite zlen_app in Q. lia. }
  split; [rewrite cluster_data_len, (concat_nth _ _ _ E), !zlen_app; lia|].
  unfold cluster_data. rewrite (concat_nth _ _ _ E). rewrite app_assoc. unfold zsub. rewrite zskip_app_exact by (rewrite zlen_app; lia). apply ztake_app_exact. reflexivity.
Qed.
Lemma fread_inside : forall f off n x (C : bytes) p k, 0 <= off -> n = 1 + zlen C -> fread f off n = x :: C -> 0 <= p -> 0 <= k -> p + k <= zlen C -> fread f (off + 1 + p) k = zsub p k C.
Proof.
  intros f off n x C p k H0 -> E Hp Hk HC. unfold fread, zsub in *. replace (off + 1 + p) with ((p + 1) + off) by lia. rewrite <- zskip_zskip by lia.
  rewrite <- (ztake_zskip (1 + zlen C) (zskip off f)), E. rewrite zskip_app_l by (rewrite zlen_cons; lia). rewrite <- (zskip_zskip p 1) by lia.
  rewrite ztake_app_l by (rewrite zskip_len by (rewrite ?zlen_cons; lia); change (zskip 1 (x :: C)) with C; lia). f_equal.
Qed.

Section TitlePosition.
Variable fuel : nat.
Context {D : Type}.
Variable dc : decomp D.
Variable new_decomp : ctype -> res D.
Context {K : Type}.
Variable new_comp : ctype -> res K.
Variable comp : K -> bytes -> res (bytes * K).
Variable flush : K -> res bytes.
Variable depth : nat.
Variable kd : ckind.
Variable Stream : ctype -> bytes -> bytes -> Prop.
Variable reserve : option Z.
Context {H : Type}.
Variable md5 : H.
Variable feed : H -> bytes -> H.
Variable digest : H -> bytes.
Variable truncate : bool.
Variable process_blob : entry -> M zim unit.
Variable rounds : nat.
Hypothesis CD : codec_ok dc new_decomp new_comp comp flush Stream.
Hypothesis HO : hash_ok feed digest.
Notation laid := (laid_out Stream reserve).
Notation runs := (zruns fuel dc new_decomp new_comp comp flush depth kd Stream md5 feed digest reserve truncate process_blob rounds).
Notation opens := (open_zim fuel dc new_decomp new_comp comp flush depth kd).

Lemma titled_found : forall A cells L, laid A cells L -> titled A L -> is_dirty A = false -> title_list_found A.
Proof.
  intros A cells L LO T DI t Ht. assert (DT : pl_dirty t = false).
  { unfold is_dirty in DI. rewrite Ht in DI. repeat (apply orb_false_iff in DI; destruct DI as (DI & ?)). assumption. }
  destruct (lo_listings _ _ _ _ _ LO) as (c0 & b0 & _ & KE). destruct (KE t Ht) as (c & b & (e & bl & GE & EK & EX & EB & CL) & _). destruct (CL DT) as (d & E1 & E2). exists d. split; [exact E1|].
  destruct (T t e c b Ht GE EK) as (off & cell & AT & CT & PO). destruct (PO DT) as (_ & p & P1 & P2).
  assert (EC : cc_blobs cell = bl). { unfold blobs_of in EX. rewrite znth_map in EX. unfold at_number in AT. rewrite AT in EX. cbn in EX. congruence. }
  destruct (blob_in_data (cc_ext cell) bl b d E2) as (p' & P3 & P4 & P5 & P6). rewrite EC, P3 in P1. injection P1 as ->.
  destruct (ao_stored _ _ _ _ (lo_arch _ _ _ _ _ LO) _ _ AT) as (O1 & _ & x & C & F1 & F2 & _ & F3). cbn [fst snd] in *. rewrite CT in F3. pose proof (cd_plain _ _ _ _ _ _ CD _ _ F3) as ->. rewrite EC in *.
  rewrite P2. split; [lia|]. change (fa_file A) with (ca_file (fa_arch A)). rewrite (fread_inside _ off (cc_len cell) x (cluster_data (cc_ext cell) bl) p (zlen d) O1 F1 F2 P4 (zlen_nonneg d) P5). exact P6.
Qed.
Lemma found_again : forall A B, same_archive A B -> title_list_found A -> title_list_found B.
Proof.
  intros A B [] F t Ht. unfold same_lists in sm_titles. rewrite Ht in sm_titles. destruct (z_etpl (fa_zim A)) as [t0|] eqn:ET; [|discriminate sm_titles]. cbn in sm_titles. injection sm_titles as ->.
  rewrite sm_file, sm_header. exact (F t0 ET).
Qed.

(** *** C75: partial, the archive is changed by adding items only; see
    [C75_refuted] about new content for other entries. *)
Theorem C75_title_position_partial : forall A cells L ops A' w sc sp, laid A cells L -> titled A L -> fresh_strategy (zs_comp (fa_state A)) -> fresh_strategy (zs_plain (fa_state A)) ->
  fa_redirects A = [] -> fa_main A = None -> (is_dirty A = false -> saved md5 feed digest A) ->
  runs A (ops ++ [ZFlush]) A' -> Forall (zop_ok fuel) ops -> NoDup (urls_of (zadded ops)) ->
  (forall u, In u (urls_of (zadded ops)) -> get_entry_by_full_url (fa_zim A) u = Err EntryNotFound) ->
  zlen cells + zlen (zadded ops) < 2 ^ 32 -> zlen L + zlen (zadded ops) < 2 ^ 32 ->
  title_list_found A' /\ exists B, opens (fa_file A') w sc sp = Ok B /\ same_archive A' B /\ title_list_found B.
Proof.
  intros A cells L ops A' w sc sp LO TI F1 F2 B1 B2 SV R OK ND AB Z1 Z2. set (mx := Z.max (Z.max (limit_of (zs_comp (fa_state A))) (limit_of (zs_plain (fa_state A)))) (highest (ops ++ [ZFlush]))).
  assert (RO : room 0 cells L (zadded ops)).
  { split; [exact ND|]. split; [exact (absent_urls Stream reserve A cells L _ LO AB)|]. pose proof (zlen_nonneg L). auto. }
  destruct (history fuel dc new_decomp new_comp comp flush depth kd Stream reserve md5 feed digest truncate process_blob rounds CD HO mx A cells L ops ZFlush A') as (cells1 & L1 & P & HV & SA); try assumption; try reflexivity.
  - apply fresh_pendany; [exact F1|lia].
  - apply fresh_pendany; [exact F2|lia].
  - apply Forall_app. split; [exact OK|]. constructor; [exact I|constructor].
  - eapply limited_more; [|apply highest_limits]. lia.
  - pose proof (hv_laid _ _ _ _ _ _ _ _ _ _ _ _ _ _ HV) as LO1. destruct (runs_end fuel dc new_decomp new_comp comp flush depth kd Stream reserve md5 feed digest truncate process_blob rounds _ _ _ R) as (F0 & FA & _).
    pose proof (titled_found A' cells1 L1 LO1 (hv_titled _ _ _ _ _ _ _ _ _ _ _ _ _ _ HV TI) (proj1 SA)) as TF. split; [exact TF|].
    destruct (open_ok fuel dc new_decomp new_comp comp flush depth kd Stream reserve md5 feed digest CD w sc sp A' cells1 L1 LO1 SA (FA _ _ LO1) F0) as (B & E & S & _).
    exists B. split; [exact E|]. split; [exact S|]. exact (found_again _ _ S TF).
Qed.
End TitlePosition.

(** ** A concrete archive of version 6.2 *)

(** What another program has written: an archive of version 6.2, its entry title
    list lists [t]. *)
Definition old_version (t : list Z) (A : farchive) : farchive :=
  let h := fa_hdr A in
  let h := mkHeader (h_magic h) (h_major h) 2 (h_uuid h) (h_entry_count h) (h_cluster_count h) (h_url_pos h) (h_title_pos h) (h_cluster_pos h) (h_mime_pos h) (h_main_page h) (h_layout_page h) (h_checksum_pos h) in
  fa_set_header (mkHobj h true true (ho_old_size (fa_header A))) (fa_set_zim (set_etpl (Some (mkPlist t true true 0)) (fa_zim A)) A).
Lemma old_laid : forall Stream reserve A cells L t e c b bl, laid_out Stream reserve A cells L -> h_major (fa_hdr A) = 6 -> lists nstitle_le (map snd cells) t -> (forall i, 0 <= i < zlen (map snd cells) -> In i t) ->
  get_entry_by_full_url (fa_zim A) URL_ENTRY_TITLE_INDEX = Ok e -> e_kind e = Content c b -> znth (blobs_of L) c = Some (Some bl) -> 0 <= b < zlen bl ->
  (forall e0, get_entry_by_full_url (fa_zim A) URL_ARTICLE_TITLE_INDEX = Ok e0 -> e_kind e0 <> Content c b) ->
  laid_out Stream reserve (old_version t A) cells L /\ (forall u, get_entry_by_full_url (fa_zim (old_version t A)) u = get_entry_by_full_url (fa_zim A) u).
Proof.
  intros Stream reserve A cells L t e c b bl LO MJ LT CT GE EK EX EB NE. pose proof LO as [].
  assert (CO : forall s cells, core s cells -> lists nstitle_le (map snd cells) t -> core (set_etpl (Some (mkPlist t true true 0)) s) cells).
  { intros s cl [] LT0. constructor; cbn [set_etpl z_file z_upl z_atpl z_etpl z_alloc]; try assumption; intros x Hx; injection Hx as <-; [exact LT0|reflexivity]. }
  assert (CS : forall s E, consistent s E -> lists nstitle_le E t -> (forall i, 0 <= i < zlen E -> In i t) -> consistent (set_etpl (Some (mkPlist t true true 0)) s) E).
  { intros s E [(cl & <- & C) ? ? ? ?] LT0 CT0. constructor; try assumption; [exists cl; split; [reflexivity|apply CO; assumption]|]. intros x Hx. injection Hx as <-. exact CT0. }
  assert (AO : archive_ok Stream (fa_arch (old_version t A)) cells L).
  { pose proof lo_arch as []. constructor; try assumption; [apply CO; assumption|apply CS; assumption]. }
  assert (LK : forall u, get_entry_by_full_url (fa_zim (old_version t A)) u = get_entry_by_full_url (fa_zim A) u) by (intro u; eapply arch_lookup; [exact lo_arch|exact AO]).
  split; [|exact LK]. constructor; try assumption.
  - reflexivity.
  - intro Q. discriminate Q.
  - split; [intro Q; discriminate Q|]. unfold without_titles, old_version. cbn. rewrite MJ. intro Q. discriminate Q.
  - destruct lo_listings as (c0 & b0 & K0 & _). exists c0, b0. split; [exact (kept_lookup _ _ _ _ _ _ _ LK K0)|]. intros x Hx. injection Hx as <-. exists c, b. split.
    + exists e, bl. rewrite LK. do 4 (split; [assumption|]). intro Q. discriminate Q.
    + intro Q. injection Q as -> ->. destruct K0 as (e0 & bl0 & G0 & EK0 & _). exact (NE e0 G0 EK0).
Qed.

Definition tp_strategy : anystrat := Simple (strat_new NONE 100).
Definition item_titles : item := mkItem [88] (tl URL_ENTRY_TITLE_INDEX) [110] (mem_source [x00]) None false.
Definition tp_first : list zop := [ZAdd item_a [x41] false; ZAdd item_titles [x00] false].
Definition tp_created : res farchive := init_new sample_fuel plain_new_comp plain_comp plain_flush 6 (Some 50) sample_uuid tp_strategy tp_strategy.
Definition tp_written (r : res farchive) : res farchive := do A <- r ;; match sample_run A (tp_first ++ [ZFlush]) with Some A' => Ok A' | None => Err Diverge end.
Definition tp_old (r : res farchive) : res farchive := do A <- r ;; match sample_run (old_version [0; 1; 2] A) [ZReopen tp_strategy tp_strategy] with Some B => Ok B | None => Err Diverge end.
Definition tp_more (r : res farchive) : res farchive := do A <- r ;; match sample_run A [ZAdd item_b [x42] false; ZFlush] with Some B => Ok B | None => Err Diverge end.

(** ** New content for entries does not keep it: the entry title list is moved
    with its cluster, the position in the header stays; the space is used again. *)
Section Contents.
Variable fuel : nat.
Context {D : Type}.
Variable dc : decomp D.
Variable new_decomp : ctype -> res D.
Context {K : Type}.
Variable new_comp : ctype -> res K.
Variable comp : K -> bytes -> res (bytes * K).
Variable flush : K -> res bytes.
Variable kd : ckind.
(** [zim.get_entry_by_full_url(u).set_content(d).flush()] for all [(u, d)]. *)
Fixpoint set_contents (l : list (ustr * bytes)) : M farchive unit :=
  match l with [] => ret tt | (u, d) :: l => let* _ := set_listing fuel dc new_decomp new_comp comp flush kd u d in set_contents l end.
End Contents.
Definition C75_full_statement : Prop :=
  forall fuel D (dc : decomp D) new_decomp K new_comp comp flush depth kd Stream reserve H (md5 : H) feed digest truncate process_blob rounds,
  codec_ok (K:=K) dc new_decomp new_comp comp flush Stream -> hash_ok feed digest ->
  forall A cells L l A1 A', laid_out Stream reserve A cells L -> titled A L -> saved md5 feed digest A -> idle A -> suffices fuel Stream reserve A ->
  set_contents fuel dc new_decomp new_comp comp flush kd l A = (Ok tt, A1) ->
  flushes fuel dc new_decomp new_comp comp flush depth kd md5 feed digest reserve truncate process_blob rounds A1 = (Ok tt, A') ->
  title_list_found A'.
Definition tp_contents : list (ustr * bytes) := [(item_url item_a, []); (item_url item_a, [])].
Notation sample_contents := (set_contents sample_fuel passthrough plain_new plain_new_comp plain_comp plain_flush KRemembering).
Definition tp_missed (A : farchive) : bool :=
  match z_etpl (fa_zim A) with
  | Some t => match ptrs_to_bytes 4 (pl_ptrs t) with Ok d => negb (beqb (fread (fa_file A) (h_title_pos (fa_hdr A)) (zlen d)) d) | Err _ => false end
  | None => false
  end.
Lemma tp_missed_ok : forall A, tp_missed A = true -> ~ title_list_found A.
Proof.
  intros A Q F. unfold tp_missed in Q. destruct (z_etpl (fa_zim A)) as [t|] eqn:E; [|discriminate Q]. destruct (F t E) as (d & E1 & _ & E2). rewrite E1, E2, beqb_refl in Q. discriminate Q.
Qed.
Definition tp_stale (r : res farchive) : bool :=
  match r with
  | Ok B => match sample_contents tp_contents B with (Ok _, B1) => match sample_flush B1 with (Ok _, A') => tp_missed A' | _ => false end | _ => false end
  | Err _ => false
  end.
Definition tp_shows (r : res farchive) : option (Z * Z * list Z) := match r with Ok B => match z_etpl (fa_zim B) with Some t => Some (h_minor (fa_hdr B), h_title_pos (fa_hdr B), pl_ptrs t) | None => None end | Err _ => None end.

Lemma tp_titles_ok : item_ok 200 item_titles [x00].
Proof. split; [reflexivity|]. split; [apply mem_delivers; reflexivity|intro Q; discriminate Q]. Qed.
Lemma tp_first_ok : Forall (zop_ok sample_fuel) tp_first /\ NoDup (URL_ARTICLE_TITLE_INDEX :: urls_of (zadded tp_first)) /\ fresh_strategy tp_strategy.
Proof.
  assert (LE : (200 <= sample_fuel)%nat) by (unfold sample_fuel; lia). split; [|split; [|exists NONE, 100; left; reflexivity]].
  - repeat (constructor; [eapply larger_ok; [first [exact item_a_ok|exact tp_titles_ok]|exact LE]|]). constructor.
  - vm_compute. repeat constructor; cbn; intuition discriminate.
Qed.
(** The entries of the first archive. *)
Definition tp_entries : list entry :=
  [mkEntry 1 [67] [97] (Some [97]) (Content 1 0); mkEntry 2 [88] (tl URL_ENTRY_TITLE_INDEX) (Some (tl URL_ENTRY_TITLE_INDEX)) (Content 1 1);
   mkEntry 0 [88] (tl URL_ARTICLE_TITLE_INDEX) (Some (tl URL_ARTICLE_TITLE_INDEX)) (Content 0 0)].
Lemma tp_lists : lists nstitle_le tp_entries [0; 1; 2].
Proof.
  split; [repeat constructor; cbn; lia|]. exists tp_entries. split; [repeat constructor|]. repeat constructor.
Qed.
Lemma tp_created_laid : forall A A1, tp_created = Ok A -> sample_runs A (tp_first ++ [ZFlush]) A1 ->
  exists cells L Pd, laid_out plain_stream (Some 50) A1 cells L /\ pendany sample_fuel 100 (zs_comp (fa_state A1)) [] /\ pendany sample_fuel 100 (zs_plain (fa_state A1)) [] /\ fa_redirects A1 = [] /\ fa_main A1 = None /\
    Forall (shelved (fa_zim A1) (blobs_of L)) Pd /\ Permutation (map pair_of Pd) (zadded tp_first) /\ zlen L <= 3.
Proof.
  intros A A1 E1 R. destruct tp_first_ok as (O1 & O2 & FS). inversion O2 as [|? ? N1 N2]; subst.
  destruct (created sample_fuel passthrough plain_new plain_new_comp plain_comp plain_flush 6 plain_stream plain_codec 100 50 ltac:(lia) ltac:(unfold sample_fuel; lia) sample_uuid tp_strategy tp_strategy A eq_refl FS FS)
    as (cells & L & LO & P1 & P2 & B1 & B2 & DI & EU & EA & ZL & UU); [cbn; lia|cbn; lia|exact E1|].
  destruct (history sample_fuel passthrough plain_new plain_new_comp plain_comp plain_flush 6 KRemembering plain_stream (Some 50) 0 sample_feed sample_digest true (fun _ => ret tt) 3 plain_codec sample_hash 100 A cells L
    tp_first ZFlush A1 LO P1 P2 B1 B2) as (cells1 & L1 & P & HV & SA); try assumption; try reflexivity.
  - intro Q. congruence.
  - split; [exact N2|]. split; [|].
    + intros u Hu e He Q. apply (in_map full_url) in He. rewrite EU in He. destruct He as [He|[]]. apply N1. rewrite He, Q. exact Hu.
    + assert (ZC : zlen cells = 1). { apply (f_equal (@length _)) in EU. rewrite !map_length in EU. unfold zlen. rewrite EU. reflexivity. }
      change (zlen (zadded tp_first)) with 2. pose proof (zlen_nonneg L). lia.
  - apply Forall_app. split; [exact O1|]. constructor; [exact I|constructor].
  - repeat (constructor; [cbn; try exact I; lia|]). constructor.
  - exists cells1, L1, P. pose proof HV as []. rewrite !app_nil_r in hv_all. destruct hv_buffer as (Q1 & Q2). split; [exact hv_laid|]. split; [exact hv_comp|]. split; [exact hv_plain|]. split; [congruence|]. split; [congruence|].
    split; [exact hv_shelved|]. split; [exact hv_all|]. apply Permutation_length in hv_all. rewrite map_length in hv_all. unfold zlen in *. cbn in hv_all. lia.
Qed.
Lemma tp_old_laid : forall A1 B cells L Pd, laid_out plain_stream (Some 50) A1 cells L -> pendany sample_fuel 100 (zs_comp (fa_state A1)) [] -> pendany sample_fuel 100 (zs_plain (fa_state A1)) [] ->
  fa_redirects A1 = [] -> fa_main A1 = None -> Forall (shelved (fa_zim A1) (blobs_of L)) Pd -> Permutation (map pair_of Pd) (zadded tp_first) -> zlen L <= 3 ->
  h_major (fa_hdr A1) = 6 -> iter_entries (fa_zim A1) None None = Ok tp_entries -> sample_runs (old_version [0; 1; 2] A1) [ZReopen tp_strategy tp_strategy] B ->
  exists cells L, laid_out plain_stream (Some 50) B cells L /\ titled B L /\ zlen cells = 3 /\ zlen L <= 3 /\ saved 0 sample_feed sample_digest B /\ idle B /\ sample_suffices B.
Proof.
  intros A1 B cells L Pd LO P1 P2 B1 B2 SH PM ZL MJ IT R. pose proof (ao_entries _ _ _ _ (lo_arch _ _ _ _ _ LO)) as CS. change (ca_zim (fa_arch A1)) with (fa_zim A1) in CS.
  pose proof (entries_ok _ _ CS) as EI. rewrite IT in EI. injection EI as EI.
  assert (LK : forall e, In e tp_entries -> get_entry_by_full_url (fa_zim A1) (full_url e) = Ok e).
  { intros e He. apply (lookup_iff _ _ _ _ CS). rewrite <- EI. auto. }
  pose proof (LK (mkEntry 2 [88] (tl URL_ENTRY_TITLE_INDEX) (Some (tl URL_ENTRY_TITLE_INDEX)) (Content 1 1)) ltac:(cbn; tauto)) as G1. change (full_url _) with URL_ENTRY_TITLE_INDEX in G1.
  pose proof (LK (mkEntry 0 [88] (tl URL_ARTICLE_TITLE_INDEX) (Some (tl URL_ARTICLE_TITLE_INDEX)) (Content 0 0)) ltac:(cbn; tauto)) as G2. change (full_url _) with URL_ARTICLE_TITLE_INDEX in G2.
  assert (PL : exists bl, znth (blobs_of L) 1 = Some (Some bl) /\ 0 <= 1 < zlen bl).
  { assert (I1 : In (item_titles, [x00]) (map pair_of Pd)) by (eapply Permutation_in; [apply Permutation_sym; exact PM|cbn; tauto]).
    apply in_map_iff in I1 as (q & EQ & HQ). rewrite Forall_forall in SH. destruct (SH q HQ) as (n & k & bl & H1 & H2 & H3 & _).
    assert (EU : p_url q = URL_ENTRY_TITLE_INDEX). { pose proof (f_equal (fun x => item_url (fst x)) EQ) as Q. exact Q. }
    rewrite EU, G1 in H1. injection H1 as _ _ _ _ -> ->. exists bl. split; [exact H2|]. apply znth_some in H3. exact H3. }
  destruct PL as (bl & EX & EB).
  destruct (old_laid plain_stream (Some 50) A1 cells L [0; 1; 2] (mkEntry 2 [88] (tl URL_ENTRY_TITLE_INDEX) (Some (tl URL_ENTRY_TITLE_INDEX)) (Content 1 1)) 1 1 bl LO MJ) as (LO1 & LK1); [rewrite <- EI; exact tp_lists| |exact G1|reflexivity|exact EX|exact EB| |].
  { rewrite <- EI. change (zlen tp_entries) with 3. intros i Hi. cbn. lia. }
  { intros e0 G0. rewrite G2 in G0. injection G0 as <-. discriminate. }
  assert (TI : titled (old_version [0; 1; 2] A1) L).
  { intros t e c b Ht He Hk. rewrite LK1, G1 in He. injection He as <-. injection Hk as <- <-. unfold blobs_of in EX. rewrite znth_map in EX. destruct (znth L 1) as [[[off cell]|]|] eqn:EL; try discriminate EX.
    exists off, cell. split; [exact EL|]. destruct (ao_stored _ _ _ _ (lo_arch _ _ _ _ _ LO) _ _ EL) as (_ & _ & x & C & _ & _ & _ & (CT & _)). split; [exact CT|]. injection Ht as <-. intro Q. discriminate Q. }
  destruct (history sample_fuel passthrough plain_new plain_new_comp plain_comp plain_flush 6 KRemembering plain_stream (Some 50) 0 sample_feed sample_digest true (fun _ => ret tt) 3 plain_codec sample_hash 100
    (old_version [0; 1; 2] A1) cells L [] (ZReopen tp_strategy tp_strategy) B LO1 P1 P2 B1 B2) as (cells1 & L1 & P & HV & SA).
  - intro Q. exfalso. unfold is_dirty in Q. change (ho_dirty (fa_header (old_version [0; 1; 2] A1))) with true in Q. rewrite !orb_true_r in Q. discriminate Q.
  - exact R.
  - reflexivity.
  - split; [constructor|]. split; [intros u []|]. change (zlen (zadded [])) with 0. assert (ZC : zlen cells = 3) by (rewrite <- (zlen_map snd cells), <- EI; reflexivity). pose proof (zlen_nonneg L). lia.
  - constructor; [|constructor]. cbn [zop_ok]. destruct tp_first_ok as (_ & _ & F). auto.
  - constructor; [|constructor]. cbn. lia.
  - pose proof (runs_end sample_fuel passthrough plain_new plain_new_comp plain_comp plain_flush 6 KRemembering plain_stream (Some 50) 0 sample_feed sample_digest true (fun _ => ret tt) 3 _ _ _ R) as SU.
    pose proof HV as []. rewrite !app_nil_r in hv_all. apply Permutation_sym, Permutation_nil in hv_all. destruct P; [|discriminate hv_all]. exists cells1, L1.
    split; [exact hv_laid|]. split; [exact (hv_titled TI)|]. split.
    { apply Permutation_length in hv_urls. cbn in hv_urls. rewrite !map_length in hv_urls. unfold zlen. rewrite hv_urls, <- (map_length snd cells), <- EI. reflexivity. }
    split; [change (zlen (@nil pitem)) with 0 in hv_count; lia|]. split; [exact SA|]. split; [|exact SU].
    split; [eapply pending_idle; exact hv_comp|]. split; [eapply pending_idle; exact hv_plain|]. destruct hv_buffer as (-> & ->). auto.
Qed.
(** All of it in one piece. *)
Definition tp_probe (r : res farchive) : option (Z * res (list entry)) := match r with Ok A => Some (h_major (fa_hdr A), iter_entries (fa_zim A) None None) | Err _ => None end.
Definition tp_fresh (r : res farchive) : option (anystrat * anystrat * Z * res (list ustr)) := match r with Ok A => Some (zs_comp (fa_state A), zs_plain (fa_state A), h_minor (fa_hdr A), do l <- iter_entries (fa_zim A) None None ;; Ok (map full_url l)) | Err _ => None end.
Lemma tp_probed : tp_probe (tp_written tp_created) = Some (6, Ok tp_entries).
Proof. vm_compute. reflexivity. Qed.
Lemma tp_old_fresh : tp_fresh (tp_old (tp_written tp_created)) = Some (tp_strategy, tp_strategy, 2, Ok (map full_url tp_entries)).
Proof. vm_compute. reflexivity. Qed.
Definition tp_four (x : option (Z * Z * list Z)) : bool := match x with Some (m, p, l) => (m =? 2) && (zlen l =? 4) | None => false end.
Lemma tp_more_shows : tp_four (tp_shows (tp_more (tp_old (tp_written tp_created)))) = true.
Proof. vm_compute. reflexivity. Qed.
Lemma tp_old_stale : tp_stale (tp_old (tp_written tp_created)) = true.
Proof. vm_compute. reflexivity. Qed.
Lemma written_parts : forall r x, tp_probe (tp_written r) = Some x -> exists A A1, r = Ok A /\ tp_written r = Ok A1 /\ sample_runs A (tp_first ++ [ZFlush]) A1 /\ h_major (fa_hdr A1) = fst x /\ iter_entries (fa_zim A1) None None = snd x.
Proof.
  intros [A|e] x E; cbn [tp_written bind] in *; [|discriminate E]. destruct (sample_run A (tp_first ++ [ZFlush])) as [A1|] eqn:ER; [|discriminate E]. cbn in E. injection E as <-.
  exists A, A1. do 2 (split; [reflexivity|]). split; [apply sample_run_ok; exact ER|auto].
Qed.
Lemma old_parts : forall r x, tp_fresh (tp_old r) = Some x -> exists A1 B, r = Ok A1 /\ tp_old r = Ok B /\ sample_runs (old_version [0; 1; 2] A1) [ZReopen tp_strategy tp_strategy] B /\
  x = (zs_comp (fa_state B), zs_plain (fa_state B), h_minor (fa_hdr B), do l <- iter_entries (fa_zim B) None None ;; Ok (map full_url l)).
Proof.
  intros [A1|e] x E; cbn [tp_old bind] in *; [|discriminate E]. destruct (sample_run (old_version [0; 1; 2] A1) [ZReopen tp_strategy tp_strategy]) as [B|] eqn:ER; [|discriminate E]. injection E as <-.
  exists A1, B. do 2 (split; [reflexivity|]). split; [apply sample_run_ok; exact ER|reflexivity].
Qed.
Lemma more_parts : forall r, tp_four (tp_shows (tp_more r)) = true ->
  exists B A', r = Ok B /\ sample_runs B ([ZAdd item_b [x42] false] ++ [ZFlush]) A' /\ exists t, z_etpl (fa_zim A') = Some t /\ zlen (pl_ptrs t) = 4.
Proof.
  intros [B|e] E; cbn [tp_more bind] in *; [|discriminate E]. destruct (sample_run B [ZAdd item_b [x42] false; ZFlush]) as [A'|] eqn:ER; [|discriminate E].
  exists B, A'. split; [reflexivity|]. split; [apply sample_run_ok; exact ER|]. cbn [tp_shows] in E. unfold tp_four in E. destruct (z_etpl (fa_zim A')) as [t|]; [|discriminate E]. exists t. split; [reflexivity|]. lia.
Qed.
Lemma tp_in_order : exists B cells L, tp_old (tp_written tp_created) = Ok B /\ laid_out plain_stream (Some 50) B cells L /\ titled B L /\ zlen cells = 3 /\ zlen L <= 3 /\ saved 0 sample_feed sample_digest B /\ idle B /\ sample_suffices B /\
  zs_comp (fa_state B) = tp_strategy /\ zs_plain (fa_state B) = tp_strategy /\ h_minor (fa_hdr B) = 2 /\ (do l <- iter_entries (fa_zim B) None None ;; Ok (map full_url l)) = Ok (map full_url tp_entries).
Proof.
  destruct (written_parts tp_created _ tp_probed) as (A & A1 & E1 & E2 & R1 & MJ & IT). destruct (old_parts (tp_written tp_created) _ tp_old_fresh) as (A1' & B & E3 & E4 & R2 & EF). rewrite E2 in E3. injection E3 as <-.
  destruct (tp_created_laid A A1 E1 R1) as (cells & L & Pd & LO & P1 & P2 & B1 & B2 & SH & PM & ZL).
  destruct (tp_old_laid A1 B cells L Pd LO P1 P2 B1 B2 SH PM ZL MJ IT R2) as (cells1 & L1 & H1 & H2 & H3 & H4 & H5 & H6 & H7). pose proof (f_equal (fun x => fst (fst (fst x))) EF) as Q1. pose proof (f_equal (fun x => snd (fst (fst x))) EF) as Q2. pose proof (f_equal (fun x => snd (fst x)) EF) as Q3. pose proof (f_equal snd EF) as Q4. cbn [fst snd] in Q1, Q2, Q3, Q4.
  exists B, cells1, L1. split; [exact E4|]. repeat (split; [assumption|]). split; [symmetry; exact Q1|]. split; [symmetry; exact Q2|]. split; [symmetry; exact Q3|]. symmetry. exact Q4.
Qed.
(** The theorem applies to it: one more item is added, the entry title list is
    rewritten, its position in the header is the new one. *)
Example C75_example : exists B A' t, tp_old (tp_written tp_created) = Ok B /\ h_minor (fa_hdr B) = 2 /\ sample_runs B ([ZAdd item_b [x42] false] ++ [ZFlush]) A' /\ title_list_found A' /\
  z_etpl (fa_zim A') = Some t /\ zlen (pl_ptrs t) = 4.
Proof.
  destruct tp_in_order as (B & cells & L & EB & LO & TI & ZC & ZL & SA & (_ & _ & B1 & B2) & SU & S1 & S2 & MI & IT). destruct (more_parts (tp_old (tp_written tp_created)) tp_more_shows) as (B' & A' & EB' & R & t & ET & ZT). rewrite EB in EB'. injection EB' as <-.
  exists B, A', t. split; [exact EB|]. split; [exact MI|]. split; [exact R|]. split; [|auto].
  assert (FS : fresh_strategy tp_strategy) by exact (proj2 (proj2 tp_first_ok)).
  apply (C75_title_position_partial sample_fuel passthrough plain_new plain_new_comp plain_comp plain_flush 6 KRemembering plain_stream (Some 50) 0 sample_feed sample_digest true (fun _ => ret tt) 3 plain_codec sample_hash
    B cells L [ZAdd item_b [x42] false] A' false tp_strategy tp_strategy LO TI); try assumption.
  - rewrite S1. exact FS.
  - rewrite S2. exact FS.
  - auto.
  - constructor; [|constructor]. eapply larger_ok; [exact item_b_ok|unfold sample_fuel; lia].
  - repeat constructor. intros [].
  - intros u Hu. pose proof (ao_entries _ _ _ _ (lo_arch _ _ _ _ _ LO)) as CS. change (ca_zim (fa_arch B)) with (fa_zim B) in CS. destruct Hu as [<-|[]]. apply (missing_iff _ _ _ [x43; x62] CS); [vm_compute; reflexivity|]. intros e He Q.
    rewrite (entries_ok _ _ CS) in IT. cbn [bind] in IT. injection IT as IT. apply (in_map full_url) in He. rewrite IT in He. rewrite Q in He. vm_compute in He. intuition discriminate.
  - change (zlen (zadded _)) with 1. lia.
  - change (zlen (zadded _)) with 1. lia.
Qed.
Lemma stale_parts : forall r, tp_stale r = true -> exists B B1 A', r = Ok B /\ sample_contents tp_contents B = (Ok tt, B1) /\ sample_flush B1 = (Ok tt, A') /\ tp_missed A' = true.
Proof.
  intros [B|e] E; cbn [tp_stale] in E; [|discriminate E]. destruct (sample_contents tp_contents B) as [[[]|e] B1] eqn:E1; [|discriminate E]. destruct (sample_flush B1) as [[[]|e] A'] eqn:E2; [|discriminate E]. exists B, B1, A'. auto.
Qed.
Theorem C75_refuted : ~ C75_full_statement.
Proof.
  intro F. destruct tp_in_order as (B & cells & L & EB & LO & TI & _ & _ & SA & ID & SU & _). destruct (stale_parts (tp_old (tp_written tp_created)) tp_old_stale) as (B' & B1 & A' & EB' & E1 & E2 & E3). rewrite EB in EB'. injection EB' as <-.
  apply (tp_missed_ok A' E3). eapply (F sample_fuel _ passthrough plain_new _ plain_new_comp plain_comp plain_flush 6%nat KRemembering plain_stream (Some 50) _ 0 sample_feed sample_digest true (fun _ => ret tt) 3%nat plain_codec sample_hash);
    [exact LO|exact TI|exact SA|exact ID|exact SU|exact E1|exact E2].
Qed.

Print Assumptions C75_title_position_partial.
Print Assumptions C75_refuted.
