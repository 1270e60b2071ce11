(** C91: the search index is opened where its content lies in the file. *)
From Coq Require Import List ZArith Bool Lia Strings.Byte.
From Coq Require Import ZifyBool ZifyNat.
From Verif Require Import Base BaseProofs Utf8 Infobyte Header MimeTypeList PointerList PointerListProofs SpaceAllocator Entry EntrySpec Reader ReaderSpec Decompressors DecompressorsProofs
  Cluster ClusterSpec ClusterProofs ClusterWrapper ClusterWrapperSpec ClusterWrapperProofs
  Archive ArchiveSpec ArchiveProofs ArchiveFacts ArchiveCluster ArchiveClusterSpec ArchiveClusterProofs CompressionStrategy CompressionStrategySpec OperationBuffer EntryObject Flush FlushSpec FlushTailProofs FlushOpenProofs FlushCreateProofs
  FlushHistorySpec FlushHistoryProofs ViewSpec ViewProofs ViewStepProofs ViewHistoryProofs Search SearchIndex PropsArchiveCluster PropsCompressionStrategy PropsFlush PropsView.
Import ListNotations.
Open Scope Z_scope.

(** ** Full statement, for one cluster: the position lies at the content of the blob,
    however the cluster is compressed. *)
Definition C91_full_statement : Prop :=
  forall D (dc : decomp D) new_decomp Rep f fuel off ct ext blobs C J tail kd b d,
    ClusterSpec.stored dc new_decomp Rep f off ct ext blobs C J tail -> zlen (cluster_data ext blobs ++ tail) + 2 <= Z.of_nat fuel ->
    znth blobs b = Some d -> exists pos, blob_position fuel dc new_decomp kd f off b = Ok pos /\ fread f pos (zlen d) = d.

(** False: with a compression that turns each byte over, other bytes lie there. *)
Definition flip (b : byte) : byte := bZ (255 - Zb b).
Definition flipped : decomp bytes := mkDecomp (fun _ => false) (fun b => zlen b =? 0) (fun d x m => pt_dec d (map flip x) m) (fun _ => []).
Definition flip_rep (d c o u : bytes) : Prop := pt_rep d (map flip c) o u.
Lemma zskip_map : forall A B (f : A -> B) n l, zskip n (map f l) = map f (zskip n l).
Proof. intros A B f n l. unfold zskip. apply skipn_map. Qed.
Lemma flip_contract : contract flipped [] flip_rep.
Proof.
  destruct passthrough_contract as [H1 H2 H3]. constructor; unfold flip_rep; cbn [d_eof d_needs d_dec flipped].
  - auto.
  - intros d c o u R NE N. specialize (H2 d _ o u R NE N). intros ->. apply H2. reflexivity.
  - intros d c o u x m R _ Hm HN (r & E). destruct (H3 d (map flip c) o u (map flip x) m R eq_refl Hm) as (y & o' & d' & E1 & E2 & E3 & E4).
    + cbn [d_needs passthrough]. rewrite HN. split; intros Q W; apply Q; [|subst x; reflexivity]. destruct x; [reflexivity|discriminate W].
    + exists (map flip r). rewrite <- map_app, E. rewrite map_app. f_equal. rewrite <- zskip_map. reflexivity.
    + exists y, o', d'. split; [exact E1|]. split; [exact E2|]. split; [|exact E4].
      assert (ZM : forall l, zlen (map flip l) = zlen l) by (intro l; unfold zlen; rewrite map_length; reflexivity).
      rewrite !ZM, zskip_map, zskip_map in E3. destruct E3 as (E3 & E5). split; [exact E3|]. rewrite zskip_all; [destruct u; [reflexivity|discriminate E5]|]. destruct R as (_ & ->). rewrite zskip_all in E by (rewrite zlen_nil; lia).
      rewrite app_nil_r in E. rewrite <- E, zlen_app. pose proof (zlen_nonneg r). lia.
Qed.
Definition flip_new (c : ctype) : res bytes := Ok [].
(** The blob "b" in a cluster that is said to be compressed. *)
Definition sample_flipped : bytes := x05 :: map flip (cluster_data false [[x61]; [x62]]).
Lemma sample_flipped_stored : ClusterSpec.stored flipped flip_new flip_rep sample_flipped 0 ZSTD false [[x61]; [x62]] (map flip (cluster_data false [[x61]; [x62]])) [] [].
Proof.
  constructor.
  - lia.
  - exists x05. split; reflexivity.
  - reflexivity.
  - exists []. split; [reflexivity|]. vm_compute. split; reflexivity.
  - exact flip_contract.
  - reflexivity.
Qed.
Theorem C91_refuted : ~ C91_full_statement.
Proof.
  intro H. destruct (H _ _ _ _ _ 100%nat _ _ _ _ _ _ _ KRemembering 1 [x62] sample_flipped_stored ltac:(vm_compute; discriminate) eq_refl) as (pos & E & F).
  vm_compute in E. injection E as <-. vm_compute in F. discriminate F.
Qed.
Print Assumptions C91_refuted.

(** ** What holds: the cluster is not compressed *)
Section Uncompressed.
Variable fuel : nat.
Context {D : Type}.
Variable dc : decomp D.
Variable new_decomp : ctype -> res D.
Context {K : Type}.
Variable new_comp : ctype -> res K.
Variable comp : K -> bytes -> res (bytes * K).
Variable flush : K -> res bytes.
Variable depth : nat.
Variable kd : ckind.
Variable Stream : ctype -> bytes -> bytes -> Prop.
Context {H : Type}.
Variable md5 : H.
Variable feed : H -> bytes -> H.
Variable digest : H -> bytes.
Variable truncate : bool.
Variable process_blob : entry -> M zim unit.
Variable rounds : nat.
Hypothesis CD : codec_ok dc new_decomp new_comp comp flush Stream.
Hypothesis HO : hash_ok feed digest.
Notation vruns reserve := (vruns fuel dc new_decomp new_comp comp flush depth kd Stream md5 feed digest reserve truncate process_blob rounds).
Notation opens := (open_zim fuel dc new_decomp new_comp comp flush depth kd).
Notation shows := (ViewSpec.shows fuel dc new_decomp kd).
Notation index_at := (index_position fuel dc new_decomp kd).

(** What a user is told by [zim.get_cluster_by_index(c).compression]. *)
Definition compression_of (a : carchive) (c : Z) : res ctype :=
  do off <- get_by_index (pl_ptrs (ca_ptrs a)) c ;;
  do i <- fst (info (ca_file a) (@cluster_new D kd off)) ;; Ok (fst i).

Lemma plain_on_disk : forall f off c b d o, cluster_at Stream f off c -> cc_ct c = NONE -> znth (cc_blobs c) b = Some d ->
  znth (positions (cc_ext c) (cc_blobs c)) b = Some o -> fread f (off + 1 + o) (zlen d) = d.
Proof.
  intros f off c b d o CA CT NB NO. pose proof (PointerListProofs.znth_some _ _ _ NB) as Hb. destruct (cluster_split _ _ _ _ CA) as (ib & C & post & EF & EO & EL & PI & ST & LP).
  rewrite CT in ST. apply (cd_plain _ _ _ _ _ _ CD) in ST. subst C.
  assert (NE : false = true -> stored_ends passthrough pt_rep [] post) by discriminate. rewrite (znth_ps passthrough pt_rep fuel (cc_ext c) (cc_blobs c) [] post false NE b) in NO by lia. injection NO as <-.
  set (data := cluster_data (cc_ext c) (cc_blobs c)) in *. unfold fread. rewrite EF. unfold zsub.
  replace (off + 1 + _) with ((ptr_size (cc_ext c) * (zlen (cc_blobs c) + 1) + zlen (concat (firstn (Z.to_nat b) (cc_blobs c)))) + (1 + off)) by lia.
  set (o := ptr_size (cc_ext c) * (zlen (cc_blobs c) + 1) + zlen (concat (firstn (Z.to_nat b) (cc_blobs c)))).
  assert (Ho : 0 <= o) by (unfold o; pose proof (zlen_nonneg (concat (firstn (Z.to_nat b) (cc_blobs c)))); destruct (cc_ext c); cbn [ptr_size]; lia).
  pose proof CA as (Hoff & _).
  rewrite <- zskip_zskip by lia. rewrite <- (zskip_zskip 1 off) by lia. rewrite zskip_app_exact by (exact EO). cbn [app]. change (zskip 1 (ib :: data ++ post)) with (data ++ post).
  pose proof (blob_bytes passthrough pt_rep fuel (cc_ext c) (cc_blobs c) [] post false NE b d 0 (zlen d) NB) as BB. unfold blob_at, zsub in BB. fold data in BB. rewrite Z.add_0_r in BB. fold o in BB. rewrite BB by lia.
  rewrite zskip_0. apply ztake_all. lia.
Qed.

Lemma position_ok : forall f off c b, cluster_at Stream f off c -> enough fuel f c -> 0 <= b ->
  blob_position fuel dc new_decomp kd f off b = match znth (positions (cc_ext c) (cc_blobs c)) b with Some o => Ok (off + 1 + o) | None => Err IndexError end.
Proof.
  intros f off c b CA EN Hb. destruct (cluster_stored fuel dc new_decomp new_comp comp flush Stream CD _ _ _ CA EN) as (Rep & C & J & tail & ST & FU & _).
  destruct (get_offset_ok dc new_decomp Rep f fuel off _ _ _ C J tail false ST ltac:(discriminate) FU kd true b (cluster_new kd off) (new_cinv _ _ _ _ _ _ _ _ _ _) Hb) as (c' & E & _).
  unfold blob_position. rewrite E. cbn [fst]. destruct (znth _ b); reflexivity.
Qed.

Lemma wposition_ok : forall a cells L c off cell b, archive_ok Stream a cells L -> at_number L c (off, cell) -> enough fuel (ca_file a) cell -> 0 <= b ->
  (do w <- get_cluster_by_index fuel dc new_decomp kd a c ;; wblob_position fuel dc new_decomp (ca_file a) w b)
  = match znth (positions (cc_ext cell) (cc_blobs cell)) b with Some o => Ok (off + 1 + o) | None => Err IndexError end.
Proof.
  intros a cells L c off cell b AO EI EN Hb. pose proof (ao_stored _ _ _ _ AO c (off, cell) EI) as CA. cbn [fst snd] in CA. unfold get_cluster_by_index. pose proof (PointerListProofs.znth_some _ _ _ EI) as Hi. replace (c <? 0) with false by lia.
  assert (G : get_by_index (pl_ptrs (ca_ptrs a)) c = Ok off). { rewrite get_by_index_znth by lia. rewrite (ao_ptrs _ _ _ _ AO _ _ EI). reflexivity. }
  rewrite G. cbn [bind]. destruct (cluster_stored fuel dc new_decomp new_comp comp flush Stream CD _ _ _ CA EN) as (Rep & C & J & tail & ST & FU & (ends & E1 & E2) & LEN).
  set (Inv := cinv Rep off (cc_ct cell) (cc_ext cell) (cc_blobs cell) C J tail kd true).
  pose proof (holds_cluster D dc new_decomp Rep (ca_file a) fuel off (cc_ct cell) (cc_ext cell) (cc_blobs cell) C J tail kd true ST FU) as HC. fold Inv in HC.
  assert (I0 : Inv (reset (cluster_new kd off))) by (apply reset_inv, new_cinv).
  destruct (total_compressed_ok dc new_decomp Rep (ca_file a) fuel off _ _ _ C J tail ends ST E1 FU kd true _ I0 E2) as (c1 & ET & I1 & N1).
  unfold get_cluster_at. change (w_in _) with (@reset D (cluster_new kd off)). rewrite ET. cbn [bind]. unfold wblob_position. cbn [co_wrap w_in].
  set (w := mkWrapper c1 None None [] [] []).
  assert (R : rep fuel Inv (cc_blobs cell) w (cc_blobs cell)).
  { pose proof (wrap_rep (inner_cluster dc new_decomp (ca_file a) fuel) fuel Inv _ _ _ HC _ I0) as R. eapply rep_same; [exact R|exact I1|reflexivity..]. }
  destruct (get_offset_wok _ fuel Inv _ _ _ HC w (cc_blobs cell) b R ltac:(right; right; exact N1) Hb) as (w3 & E3 & _). rewrite E3. cbn [fst].
  change (wwide (cc_ext cell) w (cc_blobs cell)) with (cc_ext cell).
  destruct I1 as (_ & EO & _). rewrite EO. destruct (znth _ b); reflexivity.
Qed.

(** *** Where the index of an archive is looked for. *)
Lemma index_ok : forall writable a cells L url e c b off cell d, archive_ok Stream a cells L -> get_entry_by_full_url (ca_zim a) url = Ok e -> e_kind e = Content c b ->
  at_number L c (off, cell) -> enough fuel (ca_file a) cell -> znth (cc_blobs cell) b = Some d ->
  exists pos, index_at writable a url = Ok pos /\ (compression_of a c = Ok NONE -> fread (ca_file a) pos (zlen d) = d).
Proof.
  intros writable a cells L url e c b off cell d AO G KE EI EN NB. pose proof (PointerListProofs.znth_some _ _ _ NB) as Hb. pose proof (ao_stored _ _ _ _ AO c (off, cell) EI) as CA. cbn [fst snd] in CA.
  pose proof (PointerListProofs.znth_some _ _ _ EI) as Hi.
  assert (GI : get_by_index (pl_ptrs (ca_ptrs a)) c = Ok off). { rewrite get_by_index_znth by lia. rewrite (ao_ptrs _ _ _ _ AO _ _ EI). reflexivity. }
  assert (PO : exists o, znth (positions (cc_ext cell) (cc_blobs cell)) b = Some o).
  { assert (NE : false = true -> stored_ends passthrough pt_rep [] []) by discriminate. rewrite (znth_ps passthrough pt_rep fuel (cc_ext cell) (cc_blobs cell) [] [] false NE b) by lia. eauto. }
  destruct PO as (o & PO). exists (off + 1 + o). split.
  - unfold index_position. rewrite G, KE. destruct writable.
    + rewrite (wposition_ok a cells L c off cell b AO EI EN ltac:(lia)), PO. reflexivity.
    + replace (c <? 0) with false by lia. rewrite GI. cbn [bind]. rewrite (position_ok _ _ cell b CA EN ltac:(lia)), PO. reflexivity.
  - intro CO. apply (plain_on_disk _ _ cell b d o CA); [|exact NB|exact PO].
    unfold compression_of in CO. rewrite GI in CO. cbn [bind] in CO. destruct (cluster_split _ _ _ _ CA) as (ib & C & post & EF & EO & EL & PI & _).
    unfold info in CO. cbn [cl_info cl_offset cluster_new] in CO. rewrite EF in CO. unfold zsub in CO. rewrite zskip_app_exact in CO by (exact EO). change (ztake 1 ((ib :: C) ++ post)) with [ib] in CO. cbv iota in CO. rewrite PI in CO. cbn [fst bind] in CO. congruence.
Qed.

(** *** Every file that pyzim has written, opened again. *)
Lemma written_archive : forall r u sc0 sp0 n A ops A' w sc sp, 0 <= r -> zlen u = 16 -> fresh_strategy sc0 -> fresh_strategy sp0 ->
  init_new fuel new_comp comp flush depth (Some r) u sc0 sp0 = Ok A -> vruns (Some r) n A empty_view (ops ++ [VFlush]) A' -> vadds ops <= n ->
  exists B cells L, opens (fa_file A') w sc sp = Ok B /\ shows B (vsteps empty_view ops) /\ same_archive A' B /\
    laid_out Stream (Some r) A' cells L /\ ample fuel (fa_arch A') (blobs_of L).
Proof.
  intros r u sc0 sp0 n A ops A' w sc sp Hr HU F1 F2 IN R Z. set (mx := Z.max (Z.max (limit_of sc0) (limit_of sp0)) (vhighest (ops ++ [VFlush]))).
  destruct (vruns_ends _ _ _ _ _ _ _ _ _ _ _ _ _ _ _ _ _ _ _ _ _ R) as (((F0 & FA & _) & _) & ((G1 & FA1 & _) & _)).
  destruct (created fuel dc new_decomp new_comp comp flush depth Stream CD mx r Hr F0 u sc0 sp0 A HU F1 F2) as (cells & L & LO & P1 & P2 & B1 & B2 & DI & EU & EA & ZL & UU); [lia|lia|exact IN|].
  destruct (C65_new_archive fuel dc new_decomp new_comp comp flush depth kd Stream md5 feed digest truncate process_blob rounds CD HO r u sc0 sp0 n A ops A' w sc sp Hr HU F1 F2 IN R Z) as (SH & SH1 & B & E & SA & SB).
  assert (T : table (fa_zim A) (map snd cells) (blobs_of L) (ml_types (fa_mimes A)) [] (fa_redirects A) empty_view).
  { rewrite B1. exact (shows_table fuel dc new_decomp new_comp comp flush kd Stream (Some r) md5 feed digest process_blob CD A cells L _ LO (FA _ _ LO) SH). }
  assert (LM : Forall (vlimited mx) (ops ++ [VFlush])) by (eapply vlimited_more; [|apply vhighest_limits]; lia).
  destruct (view_history fuel dc new_decomp new_comp comp flush depth kd Stream (Some r) md5 feed digest truncate process_blob rounds CD HO mx n A _ ops VFlush A' cells L R I LO P1 P2 (conj B1 B2) ltac:(intro Q; congruence) T Z LM) as (cells1 & L1 & VC & S1 & R1).
  pose proof (vc_laid _ _ _ _ _ _ _ _ _ _ VC) as LO1. exists B, cells1, L1. split; [exact E|]. split; [exact SB|]. split; [exact SA|]. split; [exact LO1|exact (FA1 _ _ LO1)].
Qed.
Lemma index_ext : forall A B writable url, same_archive A B -> index_at writable (fa_arch B) url = index_at writable (fa_arch A) url.
Proof.
  intros A B writable url [S1 S2 S3 S4 S5 S6 S7 S8]. unfold index_position, get_cluster_by_index, get_cluster_at.
  change (ca_zim (fa_arch B)) with (fa_zim B). change (ca_zim (fa_arch A)) with (fa_zim A). change (ca_file (fa_arch B)) with (fa_file B). change (ca_file (fa_arch A)) with (fa_file A). rewrite S1, S5, (lookup_ext _ _ url S1 S4). reflexivity.
Qed.
Lemma index_shown : forall r A cells L B V writable url, laid_out Stream r A cells L -> ample fuel (fa_arch A) (blobs_of L) -> same_archive A B -> shows B V -> ~ listing (fa_zim B) url ->
  match V url with
  | Some p => match pg_body p with
              | Data _ d => exists pos, index_at writable (fa_arch B) url = Ok pos /\
                  forall e c b, get_entry_by_full_url (fa_zim B) url = Ok e -> e_kind e = Content c b -> compression_of (fa_arch B) c = Ok NONE -> fread (fa_file B) pos (zlen d) = d
              | Link _ => index_at writable (fa_arch B) url = Err AttributeError
              end
  | None => utf8_encode url <> None -> index_at writable (fa_arch B) url = Err ZimFeatureMissing
  end.
Proof.
  intros r A cells L B V writable url LO AM SA SB NL. specialize (SB url NL). pose proof SA as [S1 S2 S3 S4 S5 S6 S7 S8]. pose proof (lo_arch _ _ _ _ _ LO) as AO. destruct (V url) as [p|].
  - destruct SB as (e & us & G & _ & _ & _ & BD). destruct (pg_body p) as [m d|v].
    + destruct BD as (c & b & KE & _ & RB & _). pose proof G as G'. rewrite (lookup_ext _ _ url S1 S4) in G'.
      assert (RB' : read_blob_of fuel dc new_decomp kd (fa_arch A) c b = Ok d).
      { rewrite <- RB. unfold read_blob_of, get_cluster_by_index, get_cluster_at. change (ca_file (fa_arch B)) with (fa_file B). change (ca_file (fa_arch A)) with (fa_file A). rewrite S1, S5. reflexivity. }
      assert (Hc : 0 <= c < zlen (pl_ptrs (ca_ptrs (fa_arch A)))).
      { unfold read_blob_of, get_cluster_by_index in RB'. destruct (Z.ltb_spec c 0); [discriminate RB'|]. rewrite get_by_index_znth in RB' by lia. destruct (znth (pl_ptrs (ca_ptrs (fa_arch A))) c) eqn:Q; [|discriminate RB']. apply PointerListProofs.znth_some in Q. exact Q. }
      assert (EX : exists off cell, at_number L c (off, cell)).
      { pose proof (ao_count _ _ _ _ AO). destruct (znth L c) as [[(off, cell)|]|] eqn:Q.
        - exists off, cell. exact Q.
        - exfalso. apply (lo_present _ _ _ _ _ LO). eapply znth_In. exact Q.
        - exfalso. unfold znth in Q. destruct (Z.ltb_spec c 0); [lia|]. apply nth_error_None in Q. unfold zlen in *. lia. }
      destruct EX as (off & cell & EI). pose proof (ample_enough fuel (fa_arch A) _ c off cell L AM eq_refl EI) as EN.
      destruct (ArchiveClusterProofs.shown fuel dc new_decomp new_comp comp flush kd Stream CD _ cells L c off cell AO EI EN) as (_ & SH).
      assert (Hb : 0 <= b).
      { destruct (Z.lt_ge_cases b 0) as [Q|]; [|assumption]. exfalso. unfold read_blob_of, get_cluster_by_index in RB'. replace (c <? 0) with false in RB' by lia.
        destruct (get_by_index (pl_ptrs (ca_ptrs (fa_arch A))) c) as [p0|]; [|discriminate RB']. cbn [bind] in RB'. unfold get_cluster_at in RB'. destruct (total_compressed dc new_decomp (ca_file (fa_arch A)) fuel _) as [[n0|] c0]; [|discriminate RB'].
        cbn [bind co_wrap] in RB'. unfold wread_blob in RB'. cbn [w_blobs w_removed Dict.dget adjust fold_left in_read inner_cluster] in RB'. unfold ClusterWrapper.lift, Cluster.read_blob, mem_read_blob, plain_read_blob in RB'. cbn [w_in] in RB'.
        replace (b <? 0) with true in RB' by lia. destruct (cl_kind c0); cbn in RB'; discriminate RB'. }
      specialize (SH b Hb). rewrite RB' in SH. destruct (znth (cc_blobs cell) b) as [d'|] eqn:NB; [|discriminate SH]. injection SH as <-.
      destruct (index_ok writable (fa_arch A) cells L url e c b off cell d AO G' KE EI EN NB) as (pos & EP & FR). exists pos. rewrite (index_ext A B writable url SA). split; [exact EP|].
      intros e1 c1 b1 G1 K1 CO. rewrite G in G1. injection G1 as <-. rewrite KE in K1. injection K1 as <- <-. rewrite S1. apply FR. rewrite <- CO. unfold compression_of. change (ca_file (fa_arch B)) with (fa_file B). change (ca_file (fa_arch A)) with (fa_file A). rewrite S1, S5. reflexivity.
    + unfold target_url in BD. unfold index_position. change (ca_zim (fa_arch B)) with (fa_zim B). rewrite G. destruct (e_kind e); [discriminate BD|reflexivity].
  - intro NE. destruct (utf8_encode url) as [x|] eqn:EE; [|contradiction]. unfold index_position. change (ca_zim (fa_arch B)) with (fa_zim B). rewrite (lookup_ext _ _ url S1 S4) in SB |- *.
    pose proof (ao_entries _ _ _ _ AO) as CS. change (ca_zim (fa_arch A)) with (fa_zim A) in CS.
    rewrite (proj2 (missing_iff _ _ url x CS EE)); [reflexivity|]. intros e I Q. apply (SB e). apply (lookup_iff _ _ _ _ CS). auto.
Qed.

(** *** C91.  Every file that pyzim has written, opened again in any mode: for a page with
    content that lies in a cluster without compression, the position that is
    computed for a search index there is where the content is in the file; for a
    missing page ZimFeatureMissing is raised.  (For a redirect AttributeError is
    raised.) *)
Theorem C91_uncompressed_partial : forall r u sc0 sp0 n A ops A' w sc sp, 0 <= r -> zlen u = 16 -> fresh_strategy sc0 -> fresh_strategy sp0 ->
  init_new fuel new_comp comp flush depth (Some r) u sc0 sp0 = Ok A -> vruns (Some r) n A empty_view (ops ++ [VFlush]) A' -> vadds ops <= n ->
  exists B, opens (fa_file A') w sc sp = Ok B /\ shows B (vsteps empty_view ops) /\
    forall writable url, ~ listing (fa_zim B) url ->
    match vsteps empty_view ops url with
    | Some p => match pg_body p with
                | Data _ d => exists pos, index_at writable (fa_arch B) url = Ok pos /\
                    forall e c b, get_entry_by_full_url (fa_zim B) url = Ok e -> e_kind e = Content c b -> compression_of (fa_arch B) c = Ok NONE -> fread (fa_file B) pos (zlen d) = d
                | Link _ => index_at writable (fa_arch B) url = Err AttributeError
                end
    | None => utf8_encode url <> None -> index_at writable (fa_arch B) url = Err ZimFeatureMissing
    end.
Proof.
  intros r u sc0 sp0 n A ops A' w sc sp Hr HU F1 F2 IN R Z. destruct (written_archive r u sc0 sp0 n A ops A' w sc sp Hr HU F1 F2 IN R Z) as (B & cells & L & E & SB & SA & LO & AM).
  exists B. split; [exact E|]. split; [exact SB|]. intros writable url NL. exact (index_shown _ A' cells L B _ writable url LO AM SA SB NL).
Qed.

(** *** C91, [get_search]: the full text index is used if there is one, else the title
    index, else the search for the start of titles; likewise without the libraries.
    [d] is the content of the index in a cluster without compression, and the library makes [db] of it whatever follows. *)
Definition holds_index {DB} (database : bytes -> res DB) (B : farchive) (V : view) (url : ustr) (db : DB) : Prop :=
  exists p m d, V url = Some p /\ pg_body p = Data m d /\ (forall rest, database (d ++ rest) = Ok db) /\
  forall e c b, get_entry_by_full_url (fa_zim B) url = Ok e -> e_kind e = Content c b -> compression_of (fa_arch B) c = Ok NONE.
Theorem C91_get_search_partial : forall DB (database : bytes -> res DB) r u sc0 sp0 n A ops A' w sc sp, 0 <= r -> zlen u = 16 -> fresh_strategy sc0 -> fresh_strategy sp0 ->
  init_new fuel new_comp comp flush depth (Some r) u sc0 sp0 = Ok A -> vruns (Some r) n A empty_view (ops ++ [VFlush]) A' -> vadds ops <= n ->
  exists B, opens (fa_file A') w sc sp = Ok B /\ let V := vsteps empty_view ops in shows B V /\
    forall writable, let search xapian := get_search fuel dc new_decomp kd database xapian writable (fa_arch B) in
    (forall db, holds_index database B V URL_XAPIAN_FULLTEXT_INDEX db -> search true = Ok (Fulltext db)) /\
    (forall db, V URL_XAPIAN_FULLTEXT_INDEX = None -> holds_index database B V URL_XAPIAN_TITLE_INDEX db -> search true = Ok (Titles db)) /\
    exists s, new_search (fa_zim B) false = Ok s /\
      (V URL_XAPIAN_FULLTEXT_INDEX = None -> V URL_XAPIAN_TITLE_INDEX = None -> search true = Ok (TitleStart s)) /\ search false = Ok (TitleStart s).
Proof.
  intros DB database r u sc0 sp0 n A ops A' w sc sp Hr HU F1 F2 IN R Z. destruct (C91_uncompressed_partial r u sc0 sp0 n A ops A' w sc sp Hr HU F1 F2 IN R Z) as (B & E & SB & IX).
  exists B. split; [exact E|]. intro V. fold V in SB, IX. split; [exact SB|]. intro writable. intro search.
  assert (NF : forall url, url = URL_XAPIAN_FULLTEXT_INDEX \/ url = URL_XAPIAN_TITLE_INDEX -> ~ listing (fa_zim B) url /\ utf8_encode url <> None).
  { intros url [-> | ->]; (split; [intros [Q|(Q & _)]; discriminate Q|vm_compute; discriminate]). }
  assert (GOOD : forall url db, url = URL_XAPIAN_FULLTEXT_INDEX \/ url = URL_XAPIAN_TITLE_INDEX -> holds_index database B V url db -> open_index fuel dc new_decomp kd database writable (fa_arch B) url = Ok db).
  { intros url db EU (p & m & d & EV & EB & DBO & CO). destruct (NF url EU) as (NL & _). pose proof (IX writable url NL) as Q. rewrite EV, EB in Q. destruct Q as (pos & EP & FR).
    pose proof (SB url NL) as SP. rewrite EV in SP. destruct SP as (e & us & G & _ & _ & _ & BD). rewrite EB in BD. destruct BD as (c & b & KE & _).
    specialize (FR e c b G KE (CO e c b G KE)). unfold open_index. rewrite EP. cbn [bind]. rewrite <- (DBO (zskip (zlen d) (zskip pos (fa_file B)))). f_equal.
    unfold fread, zsub in FR. change (ca_file (fa_arch B)) with (fa_file B). rewrite <- (ztake_zskip (zlen d) (zskip pos (fa_file B))) at 1. rewrite FR. reflexivity. }
  assert (MISS : forall url, url = URL_XAPIAN_FULLTEXT_INDEX \/ url = URL_XAPIAN_TITLE_INDEX -> V url = None -> open_index fuel dc new_decomp kd database writable (fa_arch B) url = Err ZimFeatureMissing).
  { intros url EU EV. destruct (NF url EU) as (NL & NE). pose proof (IX writable url NL) as Q. rewrite EV in Q. unfold open_index. rewrite (Q NE). reflexivity. }
  split; [|split].
  - intros db HI. unfold search, get_search. rewrite (GOOD _ db (or_introl eq_refl) HI). reflexivity.
  - intros db NV HI. unfold search, get_search. rewrite (MISS _ (or_introl eq_refl) NV), (GOOD _ db (or_intror eq_refl) HI). reflexivity.
  - exists (mkSearcher (fa_zim B) (title_key (fa_zim B)) (pl_ptrs (z_atpl (fa_zim B)))). split; [reflexivity|]. split; [|reflexivity].
    intros N1 N2. unfold search, get_search. rewrite (MISS _ (or_introl eq_refl) N1), (MISS _ (or_intror eq_refl) N2). reflexivity.
Qed.
End Uncompressed.
Print Assumptions C91_uncompressed_partial.
Print Assumptions C91_get_search_partial.

(** ** A concrete archive with a full text index *)
Definition index_data : bytes := [x49; x4e; x44].
Definition item_x : item := mkItem [88] (tl URL_XAPIAN_FULLTEXT_INDEX) [110] (mem_source index_data) (Some [88]) false.
Lemma item_x_ok : item_ok 200 item_x index_data.
Proof. split; [reflexivity|]. split; [apply mem_delivers; reflexivity|intro Q; discriminate Q]. Qed.
Definition index_ops : list vop := [VAdd item_b [x42] false; VAdd item_x index_data true; VLink [67; 122] (item_url item_b) None].
Definition index_dom : list ustr := [item_url item_b; item_url item_x; [67; 122]].
Definition index_run (r : res farchive) : option (farchive * farchive) :=
  match r with
  | Ok A => match sample_vrun 100 index_dom A empty_view (index_ops ++ [VFlush]) with Some A' => Some (A, A') | None => None end
  | Err _ => None
  end.
Definition plain_there (B : farchive) : bool :=
  match get_entry_by_full_url (fa_zim B) URL_XAPIAN_FULLTEXT_INDEX with
  | Ok e => match e_kind e with Content c b => match @compression_of bytes KRemembering (fa_arch B) c with Ok NONE => true | _ => false end | _ => true end
  | Err _ => false
  end.
Lemma index_works : match index_run sample_created with
  | Some (A, A') => match sample_open (fa_file A') false sample_simple sample_simple with Ok B => plain_there B | Err _ => false end
  | None => false end = true.
Proof. vm_compute. reflexivity. Qed.
(** A library that knows its index by its first bytes. *)
Definition toy_database (d : bytes) : res Z := match d with x49 :: x4e :: x44 :: _ => Ok 7 | _ => Err ValueError end.
Example C91_example : exists A A' B, index_run sample_created = Some (A, A') /\ sample_open (fa_file A') false sample_simple sample_simple = Ok B /\
  (exists pos, index_position sample_fuel passthrough plain_new KRemembering false (fa_arch B) URL_XAPIAN_FULLTEXT_INDEX = Ok pos /\ fread (fa_file B) pos 3 = index_data) /\
  index_position sample_fuel passthrough plain_new KRemembering true (fa_arch B) [67; 122] = Err AttributeError /\
  get_search sample_fuel passthrough plain_new KRemembering toy_database true true (fa_arch B) = Ok (Fulltext 7).
Proof.
  pose proof index_works as IW. destruct (index_run sample_created) as [[A A']|] eqn:ER; [|discriminate IW]. destruct sample_created as [A0|] eqn:EC; [|discriminate ER]. unfold index_run in ER.
  destruct (sample_vrun 100 index_dom A0 empty_view (index_ops ++ [VFlush])) as [A1|] eqn:EV; [|discriminate ER]. injection ER as -> ->.
  assert (R : sample_vruns 100 A empty_view (index_ops ++ [VFlush]) A').
  { eapply (sample_vrun_ok 100 index_dom); [| | |exact EV].
    - intros x Q. elim Q. reflexivity.
    - intros x Q. vm_compute in Q. vm_compute. tauto.
    - assert (LE : (200 <= sample_fuel)%nat) by (unfold sample_fuel; lia). repeat (constructor; [cbn [side_ok]; first [exact I|eapply larger_ok; [first [exact item_b_ok|exact item_x_ok]|exact LE]]|]). constructor. }
  destruct sample_zops_ok as (_ & _ & _ & FS & FM).
  destruct (C91_uncompressed_partial sample_fuel passthrough plain_new plain_new_comp plain_comp plain_flush 6 KRemembering plain_stream 0 sample_feed sample_digest true (fun _ => ret tt) 3 plain_codec sample_hash
    50 sample_uuid sample_simple sample_mime 100 A index_ops A' false sample_simple sample_simple ltac:(lia) eq_refl FS FM EC R ltac:(vm_compute; discriminate)) as (B & EB & SB & IX).
  destruct (C91_get_search_partial sample_fuel passthrough plain_new plain_new_comp plain_comp plain_flush 6 KRemembering plain_stream 0 sample_feed sample_digest true (fun _ => ret tt) 3 plain_codec sample_hash Z toy_database
    50 sample_uuid sample_simple sample_mime 100 A index_ops A' false sample_simple sample_simple ltac:(lia) eq_refl FS FM EC R ltac:(vm_compute; discriminate)) as (B' & EB' & _ & GS).
  rewrite EB in EB'. injection EB' as <-. rewrite EB in IW. exists A, A', B. split; [reflexivity|]. split; [exact EB|].
  assert (PL : forall e c b, get_entry_by_full_url (fa_zim B) URL_XAPIAN_FULLTEXT_INDEX = Ok e -> e_kind e = Content c b -> @compression_of bytes KRemembering (fa_arch B) c = Ok NONE).
  { intros e c b G KE. unfold plain_there in IW. rewrite G, KE in IW. destruct (compression_of KRemembering (fa_arch B) c) as [[]|]; try discriminate IW. reflexivity. }
  assert (SF : exists e c b, get_entry_by_full_url (fa_zim B) URL_XAPIAN_FULLTEXT_INDEX = Ok e /\ e_kind e = Content c b).
  { pose proof (SB URL_XAPIAN_FULLTEXT_INDEX (free_ok (fa_zim B) URL_XAPIAN_FULLTEXT_INDEX eq_refl)) as Q. change (vsteps empty_view index_ops URL_XAPIAN_FULLTEXT_INDEX) with (Some (page_of item_x index_data)) in Q.
    destruct Q as (e & us & G & _ & _ & _ & c & b & KE & _). exists e, c, b. auto. }
  split; [|split].
  - pose proof (IX false URL_XAPIAN_FULLTEXT_INDEX (free_ok (fa_zim B) URL_XAPIAN_FULLTEXT_INDEX eq_refl)) as Q. change (vsteps empty_view index_ops URL_XAPIAN_FULLTEXT_INDEX) with (Some (page_of item_x index_data)) in Q. cbn [page_of pg_body] in Q.
    destruct Q as (pos & EP & FR). exists pos. split; [exact EP|]. destruct SF as (e & c & b & G & KE). exact (FR e c b G KE (PL e c b G KE)).
  - pose proof (IX true [67; 122] (free_ok (fa_zim B) [67; 122] eq_refl)) as Q. assert (EL : exists p, vsteps empty_view index_ops [67; 122] = Some p /\ pg_body p = Link (item_url item_b)) by (eexists; split; vm_compute; reflexivity).
    destruct EL as (p & EP & EQ). rewrite EP, EQ in Q. exact Q.
  - apply (proj1 (GS true)). exists (page_of item_x index_data), (encoded [110]), index_data. split; [reflexivity|]. split; [reflexivity|]. split; [reflexivity|exact PL].
Qed.
Print Assumptions C91_example.
