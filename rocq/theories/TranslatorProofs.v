(** Proofs about the translator. *)
From Coq Require Import List ZArith Bool Lia Permutation Strings.Byte.
From Coq Require Import ZifyBool ZifyNat.
From Verif Require Import Base BaseProofs Utf8 Utf8Proofs Dict Infobyte Header HeaderSpec HeaderProofs MimeTypeList MimeTypeListSpec MimeTypeListProofs PointerList PointerListProofs
  SpaceAllocator SpaceAllocatorSpec SpaceAllocatorProofs Entry EntrySpec EntryProofs Reader ReaderSpec Blob BlobProofs Cluster ClusterSpec ClusterProofs ClusterWrapper ClusterWrapperSpec ClusterWrapperProofs
  Archive ArchiveSpec ArchiveProofs ArchiveWriteProofs ArchiveMoveProofs ArchiveRemoveProofs ArchiveObserve ArchiveFacts ArchiveLaws ArchiveCluster ArchiveClusterSpec ArchiveClusterProofs ArchiveFrame ArchiveEntryCluster
  CompressionStrategy CompressionStrategySpec CompressionStrategyProofs OperationBuffer OperationBufferSpec OperationBufferProofs
  IterByCluster Flush FlushSpec FlushProofs FlushTailProofs FlushOpenProofs FlushHistorySpec FlushHistoryProofs FlushCreateProofs ViewSpec ViewProofs ViewEditProofs ViewStepProofs Translator TranslatorSpec.
Import ListNotations.
Open Scope Z_scope.

(** ** The content of an entry is delivered in non-empty parts *)
Lemma mem_chunks_full : forall n bs cur stop data l, 1 <= bs -> 0 <= cur -> stop <= zlen data -> mem_chunks n bs cur stop data = Ok l -> Forall (fun x => x <> []) l.
Proof.
  induction n as [|n IH]; intros bs cur stop data l Hb Hc Hs E; cbn [mem_chunks] in E; [discriminate E|].
  destruct (Z.ltb_spec cur stop); [|injection E as <-; constructor].
  destruct (mem_chunks n bs (Z.min (cur + bs) stop) stop data) as [xs|] eqn:EX; cbn [bind] in E; [|discriminate E]. injection E as <-.
  constructor; [|eapply IH; [| | |exact EX]; lia]. intro Q. apply (f_equal zlen) in Q. change (zlen (@nil byte)) with 0 in Q. rewrite py_slice_pos in Q by lia.
  unfold zsub in Q. rewrite ztake_len, zskip_len in Q by lia. lia.
Qed.
Section Parts.
Context {D : Type}.
Variable dc : decomp D.
Lemma loop_full : forall f fuel n bs k r l r', iter_read_loop dc f fuel n bs k r = (Ok l, r') -> Forall (fun x => x <> []) l.
Proof.
  intros f fuel n bs. induction fuel as [|fuel IH]; intros k r l r' E; cbn [iter_read_loop] in E; [discriminate E|].
  destruct (_ && _); [injection E as <- _; constructor|]. destruct (read _ _ _ _ r) as [[[|b x]|e] r1]; [injection E as <- _; constructor| |discriminate E].
  destruct (iter_read_loop dc f fuel n bs _ r1) as [[xs|e] r2] eqn:EL; [|discriminate E]. injection E as <- _. constructor; [discriminate|]. eapply IH. exact EL.
Qed.
End Parts.
Section Stored.
Context {D : Type}.
Variable dc : decomp D.
Variable new_decomp : ctype -> res D.
Variable Rep : D -> bytes -> bytes -> bytes -> Prop.
Variable f : bytes.
Variable fuel : nat.
Variables (off : Z) (ct : ctype) (ext : bool) (blobs : list bytes) (C J tail : bytes).
Hypothesis ST : ClusterSpec.stored dc new_decomp Rep f off ct ext blobs C J tail.
Hypothesis FU : zlen (cluster_data ext blobs ++ tail) + 2 <= Z.of_nat fuel.
Variable kd : ckind.

Lemma reader_full : forall q n bs c l c', with_reader dc new_decomp f q (iter_read dc f fuel n bs) c = (Ok l, c') -> Forall (fun x => x <> []) l.
Proof.
  intros q n bs c l c' E.
  assert (GO : forall r c1, match skip_to dc f q r with
                 | (Err e, r) => (Err e, set_reader (Some r) c1)
                 | (Ok _, r) => let '(x, r) := iter_read dc f fuel n bs r in (x, set_reader (Some r) c1)
                 end = (Ok l, c') -> Forall (fun x => x <> []) l).
  { intros r c1 Q. destruct (skip_to _ _ _ r) as [[]]; [|discriminate Q]. unfold iter_read in Q. destruct (0 <? bs); [|discriminate Q].
    destruct (iter_read_loop dc f fuel n bs 0 _) as [[x|e] r1] eqn:EL; [|discriminate Q]. injection Q as <- _. eapply loop_full. exact EL. }
  unfold with_reader in E. destruct (q <? 0); [discriminate E|]. destruct (info f c) as [[[c0 ?]|] c1]; [|discriminate E]. cbv zeta in E.
  assert (FR : match new_decomp c0 with
          | Err e => (Err e, c1)
          | Ok d => match skip_to dc f q (reader_new d (cl_offset c1 + 1)) with
                 | (Err e, r) => (Err e, set_reader (Some r) c1)
                 | (Ok _, r) => let '(x, r) := iter_read dc f fuel n bs r in (x, set_reader (Some r) c1)
                 end
          end = (Ok l, c') -> Forall (fun x => x <> []) l).
  { intro Q. destruct (new_decomp c0); [|discriminate Q]. eapply GO. exact Q. }
  destruct (cl_reader c1) as [r|]; [|exact (FR E)]. destruct (_ <=? q); [eapply GO; exact E|exact (FR E)].
Qed.
Lemma iter_full : forall i n c l c', cinv Rep off ct ext blobs C J tail kd true c -> 0 <= i -> iter_read_blob dc new_decomp f fuel i n None None c = (Ok l, c') -> 1 <= n -> znth blobs i <> None -> Forall (fun x => x <> []) l.
Proof.
  intros i n c l c' CI Hi E Hn HB. assert (EN : false = true -> stored_ends dc Rep J tail) by discriminate. unfold iter_read_blob in E.
  assert (PL : plain_iter_read_blob dc new_decomp f fuel i n None None c = (Ok l, c') -> Forall (fun x => x <> []) l).
  { intro Q. unfold plain_iter_read_blob in Q. destruct ((n <=? 0) || _ || _); [discriminate Q|]. unfold mbind in Q. destruct (blob_offsets _ _ _ _ _ c) as [[[|a [|b [|? ?]]]|] c1]; try discriminate Q.
    cbn [nothing_to_read abs_range] in Q. eapply reader_full. exact Q. }
  destruct (cl_kind c) eqn:EK; [exact (PL E)|exact (PL E)|]. assert (K : kd = KInMemory) by (rewrite <- EK; symmetry; apply CI). clear PL.
  unfold mem_iter_read_blob in E. replace ((i <? 0) || (n <=? 0)) with false in E by lia. unfold mbind in E.
  destruct (mem_data_ok dc new_decomp Rep f fuel off ct ext blobs C J tail false ST EN FU kd true c CI K) as (c0 & E0 & CI0). rewrite E0 in E.
  destruct (blob_offsets_ok dc new_decomp Rep f fuel off ct ext blobs C J tail false ST EN FU kd true (Some [i; i + 1]) c0 CI0 ltac:(intros _; right; exists i; split; [left; reflexivity|lia])) as (c1 & E1 & CI1 & IN1). rewrite E1, (two_offsets dc Rep fuel ext blobs J tail false EN i Hi) in E.
  destruct (znth blobs i) as [b|] eqn:HB1; [|congruence]. cbn [nothing_to_read abs_range] in E.
  destruct (total_offset_size_ok dc new_decomp Rep f fuel off ct ext blobs C J tail false ST EN FU kd true c1 CI1) as (c2 & E2 & CI2 & IN2). rewrite E2 in E. injection E as E _.
  eapply mem_chunks_full; [exact Hn| | |exact E].
  - pose proof (blob_at_ge dc Rep fuel ext blobs J tail false EN i). lia.
  - destruct (blob_inside dc new_decomp Rep f fuel off ct ext blobs C J tail false ST EN FU i b HB1) as (_ & _ & B). rewrite data_len in B. lia.
Qed.
End Stored.

Lemma part_concat : forall (bl : list bytes) b d, znth bl b = Some d -> zlen d <= zlen (concat bl).
Proof.
  intros bl b d H. apply PointerListProofs.znth_in in H. apply in_split in H as (x & y & ->). rewrite concat_app. cbn [concat]. rewrite !zlen_app. pose proof (zlen_nonneg (concat x)). pose proof (zlen_nonneg (concat y)). lia.
Qed.
Section Entries.
Variable fuel : nat.
Context {D : Type}.
Variable dc : decomp D.
Variable new_decomp : ctype -> res D.
Context {K : Type}.
Variable new_comp : ctype -> res K.
Variable comp : K -> bytes -> res (bytes * K).
Variable flush : K -> res bytes.
Variable kd : ckind.
Variable Stream : ctype -> bytes -> bytes -> Prop.
Hypothesis CD : codec_ok dc new_decomp new_comp comp flush Stream.

Lemma entry_delivers : forall a cells L c b bl d src, archive_ok Stream a cells L -> ample fuel a (blobs_of L) -> znth (blobs_of L) c = Some (Some bl) -> znth bl b = Some d ->
  entry_source fuel dc new_decomp kd a c b = Ok src -> delivers fuel src d.
Proof.
  intros a cells L c b bl d src AO AM EX EB E.
  assert (exists off cc, at_number L c (off, cc) /\ cc_blobs cc = bl /\ enough fuel (ca_file a) cc) as (off & cc & EI & <- & EN).
  { destruct (blobs_numbered _ _ _ EX) as (off & cc & HN & Q). exists off, cc. split; [exact HN|]. split; [exact Q|]. eapply ample_enough; [exact AM|reflexivity|exact HN]. }
  pose proof (ao_stored _ _ _ _ AO c _ EI) as CA. cbn [fst snd] in CA.
  destruct (cluster_stored fuel dc new_decomp new_comp comp flush Stream CD _ _ _ CA EN) as (Rep & C & J & tail & ST & FU & (ends & E1 & E2) & LEN).
  set (Inv := cinv Rep off (cc_ct cc) (cc_ext cc) (cc_blobs cc) C J tail kd true).
  pose proof (holds_cluster D dc new_decomp Rep (ca_file a) fuel off (cc_ct cc) (cc_ext cc) (cc_blobs cc) C J tail kd true ST FU) as HO. fold Inv in HO.
  assert (I0 : Inv (reset (cluster_new kd off))) by (apply reset_inv, new_cinv).
  destruct (total_compressed_ok dc new_decomp Rep (ca_file a) fuel off _ _ _ C J tail ends ST E1 FU kd true _ I0 E2) as (c1 & ET & I1 & _).
  pose proof (znth_some _ _ _ EB) as Hb. pose proof (znth_some _ _ _ EI) as Hc.
  unfold entry_source, entry_size, entry_chunks in E.
  assert (GC : exists o, get_cluster_by_index fuel dc new_decomp kd a c = Ok o /\ w_in (co_wrap o) = c1 /\ w_blobs (co_wrap o) = [] /\ w_removed (co_wrap o) = []).
  { unfold get_cluster_by_index. replace (c <? 0) with false by lia. rewrite get_by_index_znth by lia. rewrite (ao_ptrs _ _ _ _ AO _ _ EI). cbn [bind fst]. unfold get_cluster_at. eexists.
    change (w_in (wrap (inner_cluster dc new_decomp (ca_file a) fuel) (cluster_new kd off))) with (@reset D (cluster_new kd off)). cbv zeta. rewrite ET. repeat split. }
  destruct GC as (o & G & W1 & W2 & W3). rewrite G in E. cbn [bind] in E. unfold wblob_size, witer_read_blob in E. rewrite W2, W3 in E. cbn [dget] in E.
  unfold ClusterWrapper.lift in E. rewrite W1 in E. cbn [in_size in_iter inner_cluster] in E.
  destruct (ho_size _ _ _ _ _ HO c1 b I1 ltac:(lia)) as (c2 & ES & _). rewrite EB in ES. cbn [in_size inner_cluster] in ES. 
  destruct (ho_iter _ _ _ _ _ HO c1 b 4096 None None I1 ltac:(lia) ltac:(lia)) as (x & c3 & EC & _ & _ & HX); [repeat split|unfold starts_inside; destruct (znth _ b); exact Logic.I|]. rewrite EB in HX. destruct HX as (l & -> & CC & _).
  cbn [in_iter inner_cluster] in EC. unfold adjust in E. cbn in E. rewrite ES, EC in E. cbn [fst bind] in E. injection E as <-.
  pose proof (iter_full dc new_decomp Rep (ca_file a) fuel off (cc_ct cc) (cc_ext cc) (cc_blobs cc) C J tail ST FU kd b 4096 c1 l c3 I1 ltac:(lia) EC ltac:(lia) ltac:(congruence)) as NE.
  assert (CP : part None None d = d). { unfold part. rewrite Z.sub_0_r. unfold zsub. rewrite zskip_0. apply ztake_all. lia. }
  rewrite CP in CC. unfold delivers. cbn [s_size s_blob blob_entry blob_size Blob.blob_size blob_ok remaining]. split; [reflexivity|]. split; [reflexivity|]. split; [exact NE|]. split; [exact CC|].
  pose proof (zlen_nonneg (ca_file a)). unfold enough in EN. rewrite data_len in EN.
  pose proof (part_concat _ _ _ EB). assert (0 < ptr_size (cc_ext cc)) by (destruct (cc_ext cc); reflexivity). pose proof (zlen_nonneg (cc_blobs cc)). nia.
Qed.
End Entries.

(** ** What is read from the input depends on its file and pointer lists *)
Lemma is_article_ext : forall s s' u, z_file s' = z_file s -> pl_ptrs (z_upl s') = pl_ptrs (z_upl s) -> pl_ptrs (z_atpl s') = pl_ptrs (z_atpl s) ->
  entry_at_url_is_article s' u = entry_at_url_is_article s u.
Proof. intros s s' u E1 E2 E3. unfold entry_at_url_is_article, url_index. rewrite (key_ext s s' E1), E2, E3. reflexivity. Qed.
Lemma follow_ext : forall s s' e, z_file s' = z_file s -> pl_ptrs (z_upl s') = pl_ptrs (z_upl s) -> follow s' e = follow s e.
Proof. intros s s' e E1 E2. unfold follow, get_entry_by_url_index, get_entry_at. rewrite E1, E2. reflexivity. Qed.
Lemma groups_ext : forall s s', z_file s' = z_file s -> pl_ptrs (z_upl s') = pl_ptrs (z_upl s) -> iter_by_cluster s' = iter_by_cluster s.
Proof. intros s s' E1 E2. unfold iter_by_cluster. rewrite (entries_ext s s' E1 E2). reflexivity. Qed.

Section Input.
Variable fuel : nat.
Context {D : Type}.
Variable dc : decomp D.
Variable new_decomp : ctype -> res D.
Context {K : Type}.
Variable new_comp : ctype -> res K.
Variable comp : K -> bytes -> res (bytes * K).
Variable flush : K -> res bytes.
Variable kd : ckind.
Variable Stream : ctype -> bytes -> bytes -> Prop.
Hypothesis CD : codec_ok dc new_decomp new_comp comp flush Stream.

Lemma source_ext : forall a a' c b, ca_file a' = ca_file a -> pl_ptrs (ca_ptrs a') = pl_ptrs (ca_ptrs a) -> entry_source fuel dc new_decomp kd a' c b = entry_source fuel dc new_decomp kd a c b.
Proof. intros a a' c b E1 E2. unfold entry_source, entry_size, entry_chunks, get_cluster_by_index, get_cluster_at. rewrite E1, E2. reflexivity. Qed.
Lemma item_ext : forall X A e, same_archive X A -> item_from_entry fuel dc new_decomp kd A e = item_from_entry fuel dc new_decomp kd X e.
Proof.
  intros X A e []. unfold item_from_entry, entry_mimetype, entry_article. destruct (e_kind e) as [c b|]; [|reflexivity]. rewrite sm_mimes.
  rewrite (source_ext (fa_arch X) (fa_arch A) c b sm_file sm_clusters), (is_article_ext (fa_zim X) (fa_zim A) _ sm_file sm_urls sm_articles). reflexivity.
Qed.

Variables (rin : option Z) (X : farchive) (cells : list (Z * entry)) (L : list (option (Z * ccell))) (V : view).
Hypothesis LO : laid_out Stream rin X cells L.
Hypothesis AM : ample fuel (fa_arch X) (blobs_of L).
Hypothesis SH : shows fuel dc new_decomp kd X V.

Lemma from_entry_fields : forall e c b it, item_from_entry fuel dc new_decomp kd X e = Ok it -> e_kind e = Content c b -> exists m src a,
  it = mkItem (e_ns e) (e_url e) m src (match title e with [] => None | t => Some t end) a /\ entry_mimetype (fa_mimes X) e = Ok m /\ entry_source fuel dc new_decomp kd (fa_arch X) c b = Ok src /\
  entry_article (fa_zim X) e = Ok a /\ item_new (e_ns e) (e_url e) m src (match title e with [] => None | t => Some t end) a = Ok it.
Proof.
  intros e c b it E EK. unfold item_from_entry in E. rewrite EK in E.
  destruct (entry_mimetype _ e) as [m|] eqn:E1; cbn [bind] in E; [|discriminate E]. destruct (entry_source _ _ _ _ _ c b) as [src|] eqn:E2; cbn [bind] in E; [|discriminate E].
  destruct (entry_article _ e) as [a|] eqn:E3; cbn [bind] in E; [|discriminate E]. exists m, src, a. split; [|auto].
  unfold item_new in E. destruct (check_namespace _); [|discriminate E]. destruct (check_text (e_url e)); [|discriminate E]. destruct (check_text m); [|discriminate E]. destruct (check_title _); [|discriminate E].
  injection E as <-. reflexivity.
Qed.
Lemma copied_item : forall u e c b m d p it, get_entry_by_full_url (fa_zim X) u = Ok e -> e_kind e = Content c b -> ~ listing (fa_zim X) u -> V u = Some p -> pg_body p = Data m d ->
  item_from_entry fuel dc new_decomp kd X e = Ok it -> item_ok fuel it d /\ item_url it = u /\ page_of it d = mkPage (shown_as u p) (pg_article p) (Data m d).
Proof.
  intros u e c b m d p it G EK NL Vu Bu E. pose proof (laid_consistent _ _ _ _ _ LO) as C. pose proof (lo_arch _ _ _ _ _ LO) as AO. assert (CO : core (fa_zim X) cells) by exact (ao_core _ _ _ _ AO).
  pose proof (shows_table fuel dc new_decomp new_comp comp flush kd Stream rin tt (fun u _ => u) (fun _ => []) (fun _ => ret tt) CD X cells L V LO AM SH) as T.
  destruct (tb_page _ _ _ _ _ _ _ T u p Vu NL) as [(e' & G' & TI & AR & B)|[[]|[]]]. rewrite G in G'. injection G' as <-. rewrite Bu in B. destruct B as (c' & b' & bl & EK' & MT & Z1 & Z2 & _).
  rewrite EK in EK'. injection EK' as <- <-. destruct (from_entry_fields e c b it E EK) as (mu & src & a & -> & E1 & E2 & E3 & E4).
  pose proof (proj1 (lookup_iff _ _ _ _ C) G) as (HI & FU).
  assert (ES : entry_storable e). { apply in_map_iff in HI as (c0 & <- & Hc). pose proof (co_stored _ _ CO) as F. rewrite Forall_forall in F. apply (F c0 Hc). }
  destruct (article_urls_ok _ _ C) as (us & U & _). specialize (AR us U).
  assert (AA : a = pg_article p /\ (a = true -> e_ns e = NS_C)).
  { unfold entry_article in E3. destruct (ueqb (e_ns e) NS_C) eqn:NS.
    - apply ueqb_eq in NS. split; [|auto]. destruct (in_znth _ _ HI) as (i & Hi). rewrite znth_map in Hi. destruct (znth cells i) as [c0|] eqn:Hc; [|discriminate Hi]. injection Hi as <-.
      destruct (entry_at_url_article _ _ _ _ CO Hc NS) as (a' & E5 & A5). rewrite E5 in E3. injection E3 as <-. apply eq_true_iff_eq. rewrite A5, <- AR, (article_urls_in _ _ _ C U). split.
      + intro Q. exists i, (snd c0). split; [exact Q|]. split; [rewrite znth_map, Hc; reflexivity|exact FU].
      + intros (j & e2 & J1 & J2 & J3). destruct (Z.eq_dec j i) as [->|NE]; [exact J1|]. exfalso. apply NE. eapply url_unique; [eapply consistent_sorted; exact C|exact J2|rewrite znth_map, Hc; reflexivity|congruence].
    - injection E3 as <-. split; [|discriminate]. destruct (pg_article p) eqn:PA; [|reflexivity]. exfalso. pose proof (proj2 AR eq_refl) as Q. apply (article_urls_in _ _ _ C U) in Q as (i & e2 & I1 & I2 & I3).
      pose proof (co_articles _ _ CO i e2 I1 I2) as NS2. assert (e2 = e). { pose proof (proj2 (lookup_iff _ _ u e2 C) (conj (PointerListProofs.znth_in _ _ _ I2) I3)). congruence. } subst e2. rewrite NS2 in NS. discriminate NS. }
  destruct AA as (-> & AN). split; [|split].
  - split; [exact E4|]. split; [eapply entry_delivers; eassumption|exact AN].
  - exact FU.
  - assert (TT : shown_as u p = title e).
    { unfold shown_as, title. rewrite TI. destruct (pg_title p); [|reflexivity]. subst u. destruct ES as (_ & (x & N) & _). unfold full_url. destruct (e_ns e) as [|n ns]; [discriminate N|]. destruct ns as [|n2 ns]; [reflexivity|].
      exfalso. cbn [utf8_encode] in N. destruct (enc1 n) as [b1|] eqn:Q1; [|discriminate N]. destruct (enc1 n2) as [b2|] eqn:Q2; [|discriminate N]. destruct (utf8_encode ns); [|discriminate N]. injection N as N.
      pose proof (enc1_nonempty _ _ Q1). pose proof (enc1_nonempty _ _ Q2). destruct b1 as [|? b1]; [congruence|]. destruct b2; [congruence|]. destruct b1; discriminate N. }
    unfold page_of. cbn [it_title it_url it_article it_mime]. unfold entry_mimetype in E1. rewrite MT in E1. cbn [bind] in E1. unfold decode in E1. destruct (utf8_decode m) as [mu'|] eqn:DE; [|discriminate E1]. injection E1 as ->.
    unfold encoded. rewrite (encode_decode_len _ _ _ (le_n _) DE). rewrite TT. f_equal. unfold title. destruct (e_title e) as [[|? ?]|]; try reflexivity; destruct (e_url e); reflexivity.
Qed.
End Input.

(** ** Which items are left out *)
Lemma one_char : forall ns x, utf8_encode ns = Some [x] -> exists n, ns = [n].
Proof.
  intros ns x N. destruct ns as [|n ns]; [discriminate N|]. exists n. destruct ns as [|n2 ns]; [reflexivity|].
  exfalso. cbn [utf8_encode] in N. destruct (enc1 n) as [b1|] eqn:Q1; [|discriminate N]. destruct (enc1 n2) as [b2|] eqn:Q2; [|discriminate N]. destruct (utf8_encode ns); [|discriminate N]. injection N as N.
  pose proof (enc1_nonempty _ _ Q1). pose proof (enc1_nonempty _ _ Q2). destruct b1 as [|? b1]; [congruence|]. destruct b2; [congruence|]. destruct b1; discriminate N.
Qed.
Lemma left_out_dec : forall u, left_out u \/ ~ left_out u.
Proof.
  intro u. unfold left_out. destruct (list_eq_dec Z.eq_dec u (titleOrdered ++ [48])); [auto|]. destruct (list_eq_dec Z.eq_dec u (titleOrdered ++ [49])); [auto|].
  destruct (list_eq_dec Z.eq_dec u [77; 67; 111; 117; 110; 116; 101; 114]); [auto|]. right. tauto.
Qed.
Lemma listing_left_out : forall s u, listing s u -> left_out u.
Proof. intros s u [->|(-> & _)]; [right; left; reflexivity|left; reflexivity]. Qed.
Lemma handled : forall it n, it_ns it = [n] -> match handle_item it with None => left_out (item_url it) | Some it' => it' = it /\ ~ left_out (item_url it) end.
Proof.
  intros it n N. unfold handle_item, item_url. rewrite N. cbn [app].
  destruct (ueqb [n] [88]) eqn:EX.
  - apply ueqb_eq in EX. injection EX as ->. destruct (existsb (ueqb (it_url it)) SKIPPED_X) eqn:ES.
    + apply existsb_exists in ES as (v & [<-|[<-|[]]] & Q); apply ueqb_eq in Q; rewrite Q; [left|right; left]; reflexivity.
    + split; [reflexivity|]. intros [Q|[Q|Q]]; [| |discriminate Q]; injection Q as Q; assert (S : existsb (ueqb (it_url it)) SKIPPED_X = true) by (apply existsb_exists; exists (it_url it); split; [rewrite Q; cbn; auto|apply ueqb_eq; reflexivity]); congruence.
  - destruct (ueqb [n] NS_M) eqn:EM.
    + apply ueqb_eq in EM. injection EM as ->. destruct (existsb (ueqb (it_url it)) SKIPPED_M) eqn:ES.
      * apply existsb_exists in ES as (v & [<-|[]] & Q); apply ueqb_eq in Q; rewrite Q; right; right; reflexivity.
      * split; [reflexivity|]. intros [Q|[Q|Q]]; [discriminate Q|discriminate Q|]. injection Q as Q. assert (S : existsb (ueqb (it_url it)) SKIPPED_M = true) by (apply existsb_exists; exists (it_url it); split; [rewrite Q; cbn; auto|apply ueqb_eq; reflexivity]); congruence.
    + split; [reflexivity|]. intros [Q|[Q|Q]]; injection Q as Q1 Q2; subst n; discriminate.
Qed.

Definition copied (V : view) (u : ustr) : option page := match V u with Some p => Some (mkPage (shown_as u p) (pg_article p) (pg_body p)) | None => None end.

Section Output.
Variable fuel : nat.
Context {D : Type}.
Variable dc : decomp D.
Variable new_decomp : ctype -> res D.
Context {K : Type}.
Variable new_comp : ctype -> res K.
Variable comp : K -> bytes -> res (bytes * K).
Variable flush : K -> res bytes.
Variable depth : nat.
Variable kd : ckind.
Variable Stream : ctype -> bytes -> bytes -> Prop.
Context {H : Type}.
Variable md5 : H.
Variable feed : H -> bytes -> H.
Variable digest : H -> bytes.
Variable reserve : option Z.
Variable truncate : bool.
Variable process_blob : entry -> M zim unit.
Variable rounds : nat.
Hypothesis CD : codec_ok dc new_decomp new_comp comp flush Stream.
Hypothesis HO : hash_ok feed digest.
Variable mx : Z.

Variables (rin : option Z) (X : farchive) (cells : list (Z * entry)) (L : list (option (Z * ccell))) (V : view) (Ain : farchive).
Hypothesis LO : laid_out Stream rin X cells L.
Hypothesis AM : ample fuel (fa_arch X) (blobs_of L).
Hypothesis SH : shows fuel dc new_decomp kd X V.
Hypothesis SA : same_archive X Ain.
Hypothesis CV : copyable V.
Notation copyu := (copy_url fuel dc new_decomp new_comp comp flush depth kd Ain).
Notation copyl := (copy_urls fuel dc new_decomp new_comp comp flush depth kd Ain).

Definition partly (done : list ustr) (W : view) : Prop :=
  forall u, (In u done -> left_out u -> W u = None) /\ (In u done -> ~ left_out u -> W u = copied V u) /\ (~ In u done -> W u = None).
Definition reached (A : farchive) (done : list ustr) : Prop := exists cells' L' Pc Pp W, vcore fuel Stream reserve mx A cells' L' Pc Pp W /\ vclean A Pc Pp /\ fa_main A = None /\ ho_dirty (fa_header A) = true /\
  zlen (Pc ++ Pp) + zlen (fa_redirects A) <= zlen done /\ partly done W.

Lemma partly_put : forall done W u p, partly done W -> ~ left_out u -> copied V u = Some p -> ~ In u done -> partly (done ++ [u]) (vput u (Some p) W).
Proof.
  intros done W u p HP NL EC NI x. destruct (HP x) as (P1 & P2 & P3). destruct (list_eq_dec Z.eq_dec x u) as [->|N].
  - rewrite vput_same. split; [contradiction|]. split; [congruence|]. intro Q. elim Q. apply in_or_app. right. left. reflexivity.
  - rewrite vput_other by exact N. assert (IFF : In x (done ++ [u]) <-> In x done) by (rewrite in_app_iff; cbn; intuition congruence). rewrite !IFF. auto.
Qed.
Lemma partly_skip : forall done W u, partly done W -> left_out u -> ~ In u done -> partly (done ++ [u]) W.
Proof.
  intros done W u HP LU NI x. destruct (HP x) as (P1 & P2 & P3). destruct (list_eq_dec Z.eq_dec x u) as [->|N].
  - split; [intros _ _; apply P3; exact NI|]. split; [contradiction|]. intro Q. apply P3. exact NI.
  - assert (IFF : In x (done ++ [u]) <-> In x done) by (rewrite in_app_iff; cbn; intuition congruence). rewrite !IFF. auto.
Qed.

Lemma shown_of : forall u e, get_entry_by_full_url (fa_zim X) u = Ok e -> listing (fa_zim X) u \/ ~ listing (fa_zim X) u /\ exists p, V u = Some p /\ shows_page fuel dc new_decomp kd X u p.
Proof.
  intros u e G. destruct (listing_dec (fa_zim X) u) as [Q|Q]; [auto|]. right. split; [exact Q|]. specialize (SH u Q). destruct (V u) as [p|]; [eauto|]. elim (SH e G).
Qed.
Lemma listing_content : forall u e, listing (fa_zim X) u -> get_entry_by_full_url (fa_zim X) u = Ok e -> exists c b, e_kind e = Content c b.
Proof.
  intros u e LI G. destruct (lo_listings _ _ _ _ _ LO) as (c & b & (e1 & bl & G1 & K1 & _) & HT). destruct LI as [->|(-> & N)].
  - rewrite G in G1. injection G1 as <-. eauto.
  - destruct (z_etpl (fa_zim X)) as [t|]; [|congruence]. destruct (HT t eq_refl) as (c' & b' & (e2 & bl2 & G2 & K2 & _) & _). rewrite G in G2. injection G2 as <-. eauto.
Qed.

Lemma copy_step : forall A done n u A', reached A done -> counts n A -> zlen done + 1 <= n -> within_limits fuel Stream reserve A' -> ~ In u done -> copyu u A = (Ok tt, A') -> reached A' (done ++ [u]).
Proof.
  intros A done n u A' (cells' & L' & Pc & Pp & W & VC & CL & MA & DI & ZD & PW) CT ZN WL NI E. pose proof (laid_consistent _ _ _ _ _ LO) as C.
  assert (CO : core (fa_zim X) cells) by exact (ao_core _ _ _ _ (lo_arch _ _ _ _ _ LO)). pose proof (sm_file _ _ SA) as SF. pose proof (sm_urls _ _ SA) as SU.
  unfold copy_url in E. rewrite (lookup_ext (fa_zim X) (fa_zim Ain) u SF SU) in E. destruct (get_entry_by_full_url (fa_zim X) u) as [e|] eqn:G; [|discriminate E].
  pose proof (proj1 (lookup_iff _ _ _ _ C) G) as (HI & FU). pose proof (found_consistent _ _ _ _ CO C G) as KC.
  assert (ES : entry_storable e). { apply in_map_iff in HI as (c0 & <- & Hc). pose proof (co_stored _ _ CO) as F. rewrite Forall_forall in F. apply (F c0 Hc). }
  pose proof ES as (_ & (xb & NSX) & ST1 & (tt0 & TI & ST2) & _). destruct (one_char _ _ NSX) as (nc & NSC).
  assert (ZD' : zlen (done ++ [u]) = zlen done + 1) by (rewrite zlen_app; reflexivity).
  unfold kind_consistent in KC. destruct (e_kind e) as [c b|i] eqn:EK.
  - assert (IR : is_redirect e = false) by (unfold is_redirect, MIMETYPE_ID_REDIRECT; lia). rewrite IR in E. rewrite (item_ext fuel dc new_decomp kd X Ain e SA) in E.
    destruct (item_from_entry fuel dc new_decomp kd X e) as [it|] eqn:EI; [|discriminate E].
    destruct (from_entry_fields fuel dc new_decomp kd X e c b it EI EK) as (m & src & a & EIT & _). assert (IU : item_url it = u) by (subst it; exact FU). assert (IN : it_ns it = [nc]) by (subst it; exact NSC).
    pose proof (handled it nc IN) as HH. rewrite IU in HH. destruct (handle_item it) as [it'|].
    2:{ injection E as <-. exists cells', L', Pc, Pp, W. rewrite ZD'. repeat (split; [first [assumption|lia]|]). apply partly_skip; assumption. }
    destruct HH as (-> & NLO). destruct (shown_of u e G) as [LI|(NL & p & Vu & SP)]; [elim NLO; eapply listing_left_out; exact LI|].
    destruct (pg_body p) as [mm d|v] eqn:Bu.
    2:{ destruct SP as (e' & us & G' & _ & _ & _ & B). rewrite Bu in B. rewrite G in G'. injection G' as <-. unfold target_url in B. rewrite EK in B. discriminate B. }
    destruct (copied_item fuel dc new_decomp new_comp comp flush kd Stream CD rin X cells L V LO AM SH u e c b mm d p it G EK NL Vu Bu EI) as (OK & _ & PG).
    assert (EC : copied V u = Some (page_of it d)) by (unfold copied; rewrite Vu, PG, Bu; reflexivity).
    destruct (vadd_step fuel dc new_decomp new_comp comp flush depth kd Stream reserve md5 feed digest truncate process_blob rounds CD mx A cells' L' Pc Pp W n it d false A' VC CT ltac:(lia) OK) as (cells2 & L2 & Pc2 & Pp2 & VC2 & CL2 & R2 & Z2).
    { rewrite IU. apply (PW u). exact NI. } { rewrite IU. intro Q. apply NLO. eapply listing_left_out. exact Q. } { exact (proj2 WL). } { exact E. }
    exists cells2, L2, Pc2, Pp2, (vput (item_url it) (Some (page_of it d)) W). split; [exact VC2|]. split; [exact CL2|]. unfold fa_add_item in E. destruct (zim_add_item _ _ _ _ _ _ _ _) as [[[]|] z1]; [|discriminate E]. injection E as <-.
    split; [exact MA|]. split; [exact DI|]. rewrite ZD'. rewrite R2. split; [lia|]. rewrite IU. apply partly_put; assumption.
  - assert (IR : is_redirect e = true) by (unfold is_redirect, MIMETYPE_ID_REDIRECT; lia). rewrite IR in E. unfold handle_redirect in E. rewrite (follow_ext (fa_zim X) (fa_zim Ain) e SF SU) in E.
    destruct (shown_of u e G) as [LI|(NL & p & Vu & SP)]; [destruct (listing_content u e LI G) as (? & ? & ?); congruence|].
    destruct SP as (e' & us & G' & TI' & _ & _ & B). rewrite G in G'. injection G' as <-. destruct (pg_body p) as [mm d|v] eqn:Bu; [destruct B as (? & ? & ? & _); congruence|].
    destruct (CV u p v Vu Bu) as (NT & PA & ND & NLU & NLV). unfold follow in E. unfold target_url in B. rewrite EK in E, B. destruct (get_entry_by_url_index (fa_zim X) i) as [t|] eqn:GT; [|discriminate B]. injection B as B.
    assert (TT : shown_as u p = title e). { unfold shown_as, title. rewrite TI'. destruct (pg_title p); [|reflexivity]. rewrite <- FU. unfold full_url. rewrite NSC. reflexivity. }
    assert (TU : tl u = e_url e) by (rewrite <- FU; unfold full_url; rewrite NSC; reflexivity).
    destruct (ueqb (title e) (e_url e)) eqn:UE; [apply ueqb_eq in UE; congruence|]. rewrite FU, B in E.
    set (r := (u, v, Some (title e))) in *.
    assert (SO : sound r).
    { constructor; cbn [r OperationBufferSpec.source OperationBufferSpec.target wanted_title fst snd].
      - exists nc, (e_url e), xb. split; [rewrite <- FU; unfold full_url; rewrite NSC; reflexivity|]. split; [rewrite <- NSC; exact NSX|exact ST1].
      - destruct (cs_targets _ _ C e i HI EK) as (T1 & T2). destruct (znth (map snd cells) i) as [t'|] eqn:ZT; [|apply PointerListProofs.znth_none in ZT; lia].
        assert (t' = t). { rewrite znth_map in ZT. destruct (znth cells i) as [c0|] eqn:Zc; [|discriminate ZT]. injection ZT as <-. rewrite (entry_by_index _ _ _ _ CO Zc) in GT. injection GT as <-. reflexivity. } subst t'.
        assert (EST : entry_storable t). { apply PointerListProofs.znth_in in ZT. apply in_map_iff in ZT as (c0 & <- & Hc). pose proof (co_stored _ _ CO) as F. rewrite Forall_forall in F. apply (F c0 Hc). }
        destruct EST as (_ & (xt & NT1) & ((bt & NT2) & _) & _). rewrite <- B. unfold full_url. split; [destruct (e_ns t); [discriminate NT1|discriminate]|]. exists ([xt] ++ bt). apply utf8_encode_app; assumption.
      - intro Q. apply ND. symmetry. exact Q.
      - intros x Q. injection Q as <-. unfold title. rewrite TI. destruct tt0; [exact ST1|exact ST2]. }
    change (on_buffered (add_redirect (S (S depth)) r) A = (Ok tt, A')) in E.
    destruct (vlink_step fuel depth Stream reserve md5 feed digest process_blob mx A cells' L' Pc Pp W n r A' VC CL CT) as (cells2 & VC2 & CL2 & Z2).
    { apply (PW u). exact NI. } { intro Q. apply NLU. eapply listing_left_out. exact Q. } { right. discriminate. } { intro Q. apply NLV. eapply listing_left_out. exact Q. } { exact SO. } { left. exact MA. } { pose proof (zlen_nonneg done). lia. } { exact E. }
    exists cells2, L', Pc, Pp. eexists. split; [exact VC2|]. split; [exact CL2|]. unfold on_buffered in E. rewrite add_redirect_eq in E.
    assert (MD : fa_main A' = fa_main A /\ fa_header A' = fa_header A). { destruct (add_full_url_redirect _ _ _ _ _) as [[[|]|] s']; [| |discriminate E]; injection E as <-; split; reflexivity. }
    destruct MD as (-> & ->). split; [exact MA|]. split; [exact DI|]. rewrite ZD'. split; [lia|].
    change (rsource r) with u. change (rtarget r) with v. change (wanted_title r) with (Some (title e)). apply partly_put; [exact PW|exact NLU| |exact NI]. unfold copied, link_page. rewrite Vu, TT, PA, Bu. reflexivity.
Qed.

(** [us] is copied after [done]. *)
Lemma copies : forall us n A done A', reached A done -> NoDup (done ++ us) -> zlen (done ++ us) <= n ->
  (forall us1 us2 B, us = us1 ++ us2 -> copyl us1 A = (Ok tt, B) -> within_limits fuel Stream reserve B /\ counts n B) ->
  copyl us A = (Ok tt, A') -> reached A' (done ++ us).
Proof.
  induction us as [|u us IH]; intros n A done A' RE ND ZN LIM E; cbn [copy_urls] in E.
  - injection E as <-. rewrite app_nil_r. exact RE.
  - unfold mbind in E. destruct (copyu u A) as [[[]|] B] eqn:E1; [|discriminate E]. replace (done ++ u :: us) with ((done ++ [u]) ++ us) in * by (rewrite <- app_assoc; reflexivity).
    assert (L1 : copyl [u] A = (Ok tt, B)) by (cbn [copy_urls]; unfold mbind; rewrite E1; reflexivity).
    eapply (IH n B (done ++ [u]) A').
    + eapply copy_step; [exact RE|apply (LIM [] (u :: us) A eq_refl eq_refl)| |apply (LIM [u] us B eq_refl L1)| |exact E1].
      * rewrite !zlen_app in ZN. change (zlen [u]) with 1 in ZN. pose proof (zlen_nonneg us). lia.
      * rewrite <- app_assoc in ND. cbn [app] in ND. apply NoDup_remove in ND. intro Q. apply (proj2 ND). apply in_or_app. left. exact Q.
    + exact ND.
    + exact ZN.
    + intros us1 us2 B2 EQ EB. apply (LIM (u :: us1) us2 B2); [rewrite EQ; reflexivity|]. cbn [copy_urls]. unfold mbind. rewrite E1. exact EB.
    + exact E.
Qed.
End Output.
