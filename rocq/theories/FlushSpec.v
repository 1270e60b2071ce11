(** What C46 says: where the parts of an archive are in its file, what it means
    that they are saved, and what a user sees of an archive. *)
From Coq Require Import List ZArith Bool.
From Verif Require Import Base Utf8 Infobyte Header HeaderSpec MimeTypeList MimeTypeListSpec PointerList SpaceAllocator Entry EntrySpec Reader Cluster ClusterSpec
  ClusterWrapper ClusterWrapperSpec Archive ArchiveSpec ArchiveCluster ArchiveClusterSpec CompressionStrategy CompressionStrategySpec OperationBuffer Flush.
Import ListNotations.
Open Scope Z_scope.

(** A part of the file: position and length. *)
Definition within (r : Z * Z) (x : Z) : Prop := fst r <= x < fst r + snd r.
(** These bytes are in the file at [pos]. *)
Definition on_disk (f : bytes) (pos : Z) (data : bytes) : Prop := 0 <= pos /\ fread f pos (zlen data) = data.

(** ** The space of the header, the mimetype list and the two pointer lists *)
Definition header_part : Z * Z := (0, 80).
Definition mime_part (reserve : option Z) (A : farchive) : Z * Z :=
  match reserve with Some r => (80, r) | None => (h_mime_pos (fa_hdr A), ml_old_size (fa_mimes A)) end.
Definition cluster_part (A : farchive) : Z * Z := (h_cluster_pos (fa_hdr A), pl_old_size (ca_ptrs (fa_arch A))).
Definition url_part (A : farchive) : Z * Z := (h_url_pos (fa_hdr A), pl_old_size (z_upl (fa_zim A))).
Definition parts (reserve : option Z) (A : farchive) : list (Z * Z) := [header_part; mime_part reserve A; cluster_part A; url_part A].

(** ** What is on disk if it is not marked as modified *)
Definition header_saved (A : farchive) : Prop := exists d, header_to_bytes (fa_hdr A) = Ok d /\ on_disk (fa_file A) 0 d.
Definition mimes_saved (reserve : option Z) (A : farchive) : Prop :=
  on_disk (fa_file A) (h_mime_pos (fa_hdr A)) (mt_to_bytes (ml_types (fa_mimes A))) /\ ml_old_size (fa_mimes A) = mt_disk_size (ml_types (fa_mimes A)) /\
  match reserve with Some r => h_mime_pos (fa_hdr A) = 80 /\ mt_disk_size (ml_types (fa_mimes A)) <= r | None => True end.
Definition list_saved (f : bytes) (pos count : Z) (l : plist) : Prop :=
  count = zlen (pl_ptrs l) /\ pl_old_size l = 8 * zlen (pl_ptrs l) /\ exists d, ptrs_to_bytes 8 (pl_ptrs l) = Ok d /\ on_disk f pos d.
(** The list is kept in the content of the entry at [url]: blob [b] of cluster
    [c]. *)
Definition kept_at (s : zim) (X : list (option (list bytes))) (url : ustr) (l : plist) (c b : Z) : Prop :=
  exists e bl, get_entry_by_full_url s url = Ok e /\ e_kind e = Content c b /\ znth X c = Some (Some bl) /\ 0 <= b < zlen bl /\
    (pl_dirty l = false -> exists d, ptrs_to_bytes 4 (pl_ptrs l) = Ok d /\ znth bl b = Some d).

(** Format version 6.3 and later: no entry title list. *)
Definition without_titles (h : header) : bool := (6 <? h_major h) || ((h_major h =? 6) && (3 <=? h_minor h)).

Section Spec.
Variable Stream : ctype -> bytes -> bytes -> Prop.
Context {H : Type}.
Variable md5 : H.
Variable feed : H -> bytes -> H.
Variable digest : H -> bytes.
Variable reserve : option Z.

(** What is assumed of [hashlib.md5]: data can be fed piecewise; the digest has
    16 bytes. *)
Record hash_ok : Prop := {
  hash_nil : forall h, feed h [] = h;
  hash_app : forall h a b, feed (feed h a) b = feed h (a ++ b);
  hash_len : forall h, zlen (digest h) = 16 }.
(** The checksum of a string of bytes. *)
Definition hash (b : bytes) : bytes := digest (feed md5 b).
(** The stored checksum is that of the data before it. *)
Definition checksum_right (A : farchive) : Prop :=
  0 <= h_checksum_pos (fa_hdr A) <= zlen (fa_file A) /\ get_checksum A = hash (ztake (h_checksum_pos (fa_hdr A)) (fa_file A)).

(** An archive with the entries [cells] and the clusters [L] whose parts are in
    disjoint space; what is not marked as modified is on disk. *)
Record laid_out (A : farchive) (cells : list (Z * entry)) (L : list (option (Z * ccell))) : Prop := mkLaidOut {
  lo_arch : archive_ok Stream (fa_arch A) cells L;
  lo_present : ~ In None L;
  lo_parts : forall r x, In r (parts reserve A) -> within r x ->
    in_use (fa_alloc A) x /\ (forall c, In c cells -> ~ occupies c x) /\ (forall i d, at_number L i d -> ~ covers d x);
  lo_disjoint : ForallOrdPairs (fun r r' => forall x, ~ (within r x /\ within r' x)) (parts reserve A);
  lo_sizes : Forall (fun r => 0 <= fst r /\ 0 <= snd r) (parts reserve A);
  lo_hmutable : ho_mutable (fa_header A) = true;
  lo_mmutable : ml_mutable (fa_mimes A) = true;
  lo_uuid : zlen (h_uuid (fa_hdr A)) = 16;
  lo_types : ml_types (fa_mimes A) <> [] /\ Forall mt_storable (ml_types (fa_mimes A));
  lo_header : ho_dirty (fa_header A) = false -> header_saved A;
  lo_mimes : ml_dirty (fa_mimes A) = false -> mimes_saved reserve A;
  lo_clusters : pl_dirty (ca_ptrs (fa_arch A)) = false -> list_saved (fa_file A) (h_cluster_pos (fa_hdr A)) (h_cluster_count (fa_hdr A)) (ca_ptrs (fa_arch A));
  lo_urls : pl_dirty (z_upl (fa_zim A)) = false -> list_saved (fa_file A) (h_url_pos (fa_hdr A)) (h_entry_count (fa_hdr A)) (z_upl (fa_zim A));
  lo_titles : z_etpl (fa_zim A) = None <-> without_titles (fa_hdr A) = true;
  lo_listings : exists c b, kept_at (fa_zim A) (blobs_of L) URL_ARTICLE_TITLE_INDEX (z_atpl (fa_zim A)) c b /\
    forall t, z_etpl (fa_zim A) = Some t -> exists c' b', kept_at (fa_zim A) (blobs_of L) URL_ENTRY_TITLE_INDEX t c' b' /\ (c', b') <> (c, b) }.

(** Nothing is left to be saved; [settled] leaves out that the checksum is right. *)
Definition settled (A : farchive) : Prop :=
  is_dirty A = false /\ h_checksum_pos (fa_hdr A) = file_end (fa_alloc A) /\ main_page (fa_hdr A) = z_main (fa_zim A).
Definition saved (A : farchive) : Prop :=
  is_dirty A = false /\ h_checksum_pos (fa_hdr A) = file_end (fa_alloc A) /\ main_page (fa_hdr A) = z_main (fa_zim A) /\ checksum_right A.

(** No items wait in the strategies, nothing in the operation buffer. *)
Definition idle_strategy (x : anystrat) : Prop :=
  match x with Simple st => st_entries st = [] | ByMimetype ms => Forall (fun kv => st_entries (snd kv) = []) (ms_map ms) end.
Definition idle (A : farchive) : Prop :=
  idle_strategy (zs_comp (fa_state A)) /\ idle_strategy (zs_plain (fa_state A)) /\ fa_redirects A = [] /\ fa_main A = None.

(** The same archive, for all that can be read: the same file, header,
    mimetypes, pointer lists and main page. *)
Definition same_lists (p q : option plist) : Prop := option_map pl_ptrs p = option_map pl_ptrs q.
Record same_archive (A B : farchive) : Prop := mkSameArchive {
  sm_file : fa_file B = fa_file A;
  sm_header : fa_hdr B = fa_hdr A;
  sm_mimes : ml_types (fa_mimes B) = ml_types (fa_mimes A);
  sm_urls : pl_ptrs (z_upl (fa_zim B)) = pl_ptrs (z_upl (fa_zim A));
  sm_clusters : pl_ptrs (ca_ptrs (fa_arch B)) = pl_ptrs (ca_ptrs (fa_arch A));
  sm_articles : pl_ptrs (z_atpl (fa_zim B)) = pl_ptrs (z_atpl (fa_zim A));
  sm_titles : same_lists (z_etpl (fa_zim B)) (z_etpl (fa_zim A));
  sm_main : z_main (fa_zim B) = z_main (fa_zim A) }.
End Spec.

(** The blob that holds the entry title list is in an uncompressed cluster; if the
    list is saved, so is that of articles, and the title position in the header
    is where the blob is in the file: the cluster starts at [off] with its
    information byte, the blob starts [p] bytes further on. *)
Definition titled (A : farchive) (L : list (option (Z * ccell))) : Prop :=
  forall t e c b, z_etpl (fa_zim A) = Some t -> get_entry_by_full_url (fa_zim A) URL_ENTRY_TITLE_INDEX = Ok e -> e_kind e = Content c b ->
  exists off cell, at_number L c (off, cell) /\ cc_ct cell = NONE /\
    (pl_dirty t = false -> pl_dirty (z_atpl (fa_zim A)) = false /\
       exists p, znth (positions (cc_ext cell) (cc_blobs cell)) b = Some p /\ h_title_pos (fa_hdr A) = off + 1 + p).
(** The title position leads to the entry title list: 4 bytes for each entry. *)
Definition title_list_found (A : farchive) : Prop :=
  forall t, z_etpl (fa_zim A) = Some t -> exists d, ptrs_to_bytes 4 (pl_ptrs t) = Ok d /\ on_disk (fa_file A) (h_title_pos (fa_hdr A)) d.

(** The blobs that hold title lists. *)
Definition listing_blob (s : zim) (c b : Z) : Prop :=
  exists url e, (url = URL_ARTICLE_TITLE_INDEX \/ url = URL_ENTRY_TITLE_INDEX /\ z_etpl s <> None) /\ get_entry_by_full_url s url = Ok e /\ e_kind e = Content c b.
(** All clusters have the same blobs, except those that hold title lists. *)
Definition same_content_of (s : zim) (X X' : list (option (list bytes))) : Prop :=
  zlen X' = zlen X /\ forall c b bl, znth X c = Some (Some bl) -> ~ listing_blob s c b -> exists bl', znth X' c = Some (Some bl') /\ zlen bl' = zlen bl /\ znth bl' b = znth bl b.
