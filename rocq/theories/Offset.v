(** An archive that starts at some offset of its file: pyzim/archive.py,
    [Zim(f, offset=base)], [_base_offset].  The definitions are those of Archive.v,
    ArchiveCluster.v, ArchiveClusterSpec.v and Flush.v with the offset that the
    code adds, or does not add.  [z_file] is the whole file.

    Simplifications: those of these files, without the one on the offset.  Of
    updating, only what [flush] does when nothing but the header was changed. *)
From Coq Require Import List ZArith Bool.
From Verif Require Import Base Utf8 Infobyte Header MimeTypeList PointerList SpaceAllocator Entry Reader Cluster ClusterWrapper
  Archive ArchiveCluster ArchiveClusterSpec CompressionStrategy Flush.
Import ListNotations.
Open Scope Z_scope.

Section Offset.
Variable base : Z.   (* [_base_offset], 121 *)

(** ** Entries *)

(** [get_entry_at], 797-837: 817. *)
Definition oget_entry_at (s : zim) (location : Z) : res entry :=
  if location <? 0 then Err AssertionError else entry_at (z_file s) (base + location).
(** [get_entry_by_url_index], 890-912. *)
Definition oget_entry_by_url_index (s : zim) (i : Z) : res entry :=
  if i <? 0 then Err EntryNotFound
  else match get_by_index (pl_ptrs (z_upl s)) i with
       | Ok location => oget_entry_at s location
       | Err IndexError => Err EntryNotFound
       | Err e => Err e
       end.
(** 425-437. *)
Definition ourl_key (s : zim) (location : Z) : res bytes :=
  do e <- oget_entry_at s location ;; encode (full_url e).
(** [get_entry_by_full_url], 873-888. *)
Definition oget_entry_by_full_url (s : zim) (url : ustr) : res entry :=
  match (do k <- encode url ;; get (ourl_key s) (pl_ptrs (z_upl s)) k) with
  | Ok location => oget_entry_at s location
  | Err KeyError => Err EntryNotFound
  | Err e => Err e
  end.
(** [has_entry_for_full_url], 914-924. *)
Definition ohas_entry_for_full_url (s : zim) (url : ustr) : res bool :=
  do k <- encode url ;; has (ourl_key s) (pl_ptrs (z_upl s)) k.
(** [get_mainpage_entry], 926-939. *)
Definition oget_mainpage_entry (s : zim) : res entry :=
  match z_main s with
  | None => Err EntryNotFound
  | Some i => do location <- get_by_index (pl_ptrs (z_upl s)) i ;; oget_entry_at s location
  end.
(** [iter_entries], 1192-1213, and [iter_articles], 1233-1254. *)
Definition oiter_entries (s : zim) (start end_ : option Z) : res (list entry) :=
  iter_bounds (zlen (pl_ptrs (z_upl s))) (zlen (pl_ptrs (z_upl s)))
    (fun i => do p <- get_by_index (pl_ptrs (z_upl s)) i ;; oget_entry_at s p) start end_.
Definition oiter_articles (s : zim) (start end_ : option Z) : res (list entry) :=
  iter_bounds (zlen (pl_ptrs (z_atpl s))) (zlen (pl_ptrs (z_atpl s)))
    (fun i => do p <- get_by_index (pl_ptrs (z_atpl s)) i ;; oget_entry_by_url_index s p) start end_.
(** [RedirectEntry.follow], [resolve], entry.py 1007-1035. *)
Definition ofollow (s : zim) (e : entry) : res entry :=
  match e_kind e with
  | Redirect i => oget_entry_by_url_index s i
  | Content _ _ => Err AttributeError
  end.
Fixpoint oresolve (fuel : nat) (s : zim) (e : entry) : res entry :=
  match fuel with
  | O => Err Diverge
  | S fuel' => if is_redirect e then do e' <- ofollow s e ;; oresolve fuel' s e' else Ok e
  end.

Section Clusters.
Variable fuel : nat.
Context {D : Type}.
Variable dc : decomp D.
Variable new_decomp : ctype -> res D.
Variable kd : ckind.

(** ** Clusters *)

(** [get_cluster_at], 1590-1624: 1608. *)
Definition oget_cluster_at (a : carchive) (location : Z) : res (cobj (cluster D)) :=
  let c := w_in (wrap (inner_cluster dc new_decomp (ca_file a) fuel) (cluster_new kd (base + location))) in
  match total_compressed dc new_decomp (ca_file a) fuel c with
  | (Ok n, c) => Ok (mkCobj (mkWrapper c None None [] [] []) n)
  | (Err e, _) => Err e
  end.
(** [get_cluster_by_index], 1626-1635, and [read_blob] of the cluster. *)
Definition oget_cluster_by_index (a : carchive) (i : Z) : res (cobj (cluster D)) :=
  if i <? 0 then Err AssertionError
  else do pos <- get_by_index (pl_ptrs (ca_ptrs a)) i ;; oget_cluster_at a pos.
Definition oread_blob_of (a : carchive) (i j : Z) : res bytes :=
  do c <- oget_cluster_by_index a i ;;
  fst (wread_blob (inner_cluster dc new_decomp (ca_file a) fuel) fuel j None None (co_wrap c)).

(** ** Opening *)

(** [TitlePointerList.from_zim_entry], pointerlist.py 503-519. *)
Definition oload_listing (a : carchive) (url : ustr) : res (list Z) :=
  do e <- oget_entry_by_full_url (ca_zim a) url ;;
  do e <- oresolve fuel (ca_zim a) e ;;
  match e_kind e with
  | Content c b => do data <- oread_blob_of a c b ;; ptrs_from_bytes 4 data
  | Redirect _ => Err AttributeError
  end.
(** 254-345: [_load_header] (261), [_load_mimetypelist] (277), [_load_pointerlists]
    (290-291; 332-338 reads the titles where the header says, without the offset).
    The result is the archive, and whether it has the list of the titles of its
    articles; a writable archive without it then gets one (346-359), which is not
    modelled here. *)
Definition oload (f : bytes) (writable : bool) (sc sp : anystrat) : res (farchive * bool) :=
  do h <- header_from_file f base ;;
  do m <- mt_from_file (zskip (base + h_mime_pos h) f) ;;
  let ml := mkMlist (fst m) false writable (mt_disk_size (fst m)) in
  do ul <- ptrs_from_file 8 f (h_entry_count h) (base + h_url_pos h) ;;
  do cl <- ptrs_from_file 8 f (h_cluster_count h) (base + h_cluster_pos h) ;;
  let list w l := set_mutable writable (plist_new w l) in
  let make et at_ := mkCa (mkZim f (list 8%nat ul) et at_ (main_page h) (new_allocator (h_checksum_pos h))) (list 8%nat cl) (zlen cl) in
  let a0 := make None (list 4%nat []) in
  do et <- (if (6 <? h_major h) || ((h_major h =? 6) && (3 <=? h_minor h)) then Ok None
            else do there <- ohas_entry_for_full_url (ca_zim a0) URL_ENTRY_TITLE_INDEX ;;
                 do l <- (if (there : bool) then oload_listing a0 URL_ENTRY_TITLE_INDEX
                          else ptrs_from_file 4 f (h_entry_count h) (h_title_pos h)) ;;
                 Ok (Some (list 4%nat l))) ;;
  do there <- ohas_entry_for_full_url (ca_zim a0) URL_ARTICLE_TITLE_INDEX ;;
  do al <- (if (there : bool) then oload_listing a0 URL_ARTICLE_TITLE_INDEX else Ok []) ;;
  Ok (mkFa (mkZs (mkSa (make et (list 4%nat al)) ml) sc sp) (mkHobj h false writable HEADER_LENGTH) false [] None, there).
(** [Zim(f, offset=base, mode="r")], 91-182. *)
Definition oopen (f : bytes) (sc sp : anystrat) : res farchive :=
  do A <- oload f false sc sp ;; Ok (fst A).
End Clusters.

(** ** [flush], when nothing but the header was changed *)

(** 664-675: 673. *)
Definition oflush_header : M farchive unit :=
  let* _ := (fun A => fa_assign FChecksumPos (PInt (file_end (fa_alloc A))) A) in
  fun A =>
    if negb (ho_dirty (fa_header A)) then (Ok tt, A)
    else match hflush (fa_header A) with
         | Ok (data, h) => (Ok tt, fa_set_header h (fa_set_file (fwrite (fa_file A) base data) A))
         | Err e => (Err e, A)
         end.
(** 664-687; [update_checksum] (2017-2030) and the truncation (679-684) do not add
    the offset. *)
Definition oflush_end {H} (md5 : H) feed digest (truncate : bool) : M farchive unit :=
  let* _ := oflush_header in
  let* _ := update_checksum md5 feed digest in
  let* _ := flush_truncate truncate in
  fun A => (Ok tt, fa_set_dirty false A).
End Offset.

(** [Zim.open(path, offset=offset, mode="r")], 184-225: 225 does not pass the
    offset on. *)
Definition open_at {D} fuel (dc : decomp D) new_decomp kd (offset : Z) (f : bytes) (sc sp : anystrat) : res farchive :=
  oopen 0 fuel dc new_decomp kd f sc sp.
