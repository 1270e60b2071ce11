(** Model of opening, creating and flushing an archive: pyzim/archive.py
    [_load_header], [_load_mimetypelist], [_load_pointerlists] 254-367,
    [_init_new] 369-423, [flush] 517-689 and the checksum 1977-2030.

    Simplifications, besides those of Archive.v, ArchiveCluster.v and
    CompressionStrategy.v:
    - no processors are installed (counter policy "ignore"), and the caches that
      [flush] clears are empty;
    - the archive is open ([_check_closed]);
    - [hashlib.md5] is a hash function that can be fed piecewise. *)
From Coq Require Import List ZArith Bool.
From Verif Require Import Base Utf8 Infobyte Header MimeTypeList PointerList SpaceAllocator Entry Reader Blob Cluster ClusterWrapper
  ClusterWrapperSpec Archive ArchiveCluster ArchiveClusterSpec CompressionStrategy OperationBuffer.
Import ListNotations.
Open Scope Z_scope.

(** constants.py 55, 56, 63: "Xlisting/titleOrdered/v0", "Xlisting/titleOrdered/v1",
    "application/octet-stream+zimlisting" (as code points); 68. *)
Definition LISTING : ustr := [88;108;105;115;116;105;110;103;47;116;105;116;108;101;79;114;100;101;114;101;100;47;118].
Definition URL_ENTRY_TITLE_INDEX : ustr := LISTING ++ [48].
Definition URL_ARTICLE_TITLE_INDEX : ustr := LISTING ++ [49].
Definition MIMETYPE_ZIMLISTING : ustr :=
  [97;112;112;108;105;99;97;116;105;111;110;47;111;99;116;101;116;45;115;116;114;101;97;109;43;122;105;109;108;105;115;116;105;110;103].
Definition CHECKSUM_LENGTH : Z := 16.

(** The attributes of [Zim]: [fa_state] has the file, the pointer lists, the
    space allocator, the main page, the mimetypes and the strategies;
    [fa_header] is [header] (its main page field is assigned from [fa_state]
    when the header is used: [sync_main]); [fa_dirty] is [_dirty]; the last two
    are the operation buffer. *)
Record farchive := mkFa {
  fa_state : zstate; fa_header : hobj; fa_dirty : bool; fa_redirects : list rop; fa_main : option (option ustr) }.
Definition fa_sarch (A : farchive) : sarchive := zs_arch (fa_state A).
Definition fa_arch (A : farchive) : carchive := sa_arch (fa_sarch A).
Definition fa_zim (A : farchive) : zim := ca_zim (fa_arch A).
Definition fa_file (A : farchive) : bytes := z_file (fa_zim A).
Definition fa_alloc (A : farchive) : allocator := z_alloc (fa_zim A).
Definition fa_mimes (A : farchive) : mlist := sa_mimes (fa_sarch A).
Definition fa_hdr (A : farchive) : header := ho_hdr (fa_header A).
Definition fa_set_state z (A : farchive) := mkFa z (fa_header A) (fa_dirty A) (fa_redirects A) (fa_main A).
Definition fa_set_header h (A : farchive) := mkFa (fa_state A) h (fa_dirty A) (fa_redirects A) (fa_main A).
Definition fa_set_dirty b (A : farchive) := mkFa (fa_state A) (fa_header A) b (fa_redirects A) (fa_main A).
Definition fa_set_arch a (A : farchive) :=
  fa_set_state (mkZs (mkSa a (fa_mimes A)) (zs_comp (fa_state A)) (zs_plain (fa_state A))) A.
Definition fa_set_zim z (A : farchive) := fa_set_arch (mkCa z (ca_ptrs (fa_arch A)) (ca_next (fa_arch A))) A.
Definition fa_set_file f (A : farchive) := fa_set_zim (set_file f (fa_zim A)) A.
Definition fa_set_alloc s (A : farchive) := fa_set_zim (set_alloc s (fa_zim A)) A.
Definition fa_set_mimes m (A : farchive) :=
  fa_set_state (mkZs (mkSa (fa_arch A) m) (zs_comp (fa_state A)) (zs_plain (fa_state A))) A.

(** [self.header.x = v]. *)
Definition fa_assign (f : hfield) (v : pyval) : M farchive unit := fun A =>
  match hassign f v (fa_header A) with
  | Ok h => (Ok tt, fa_set_header h A)
  | Err e => (Err e, A)
  end.
(** [header.main_page = ...], which the entry layer did (archive.py 1009-1032 and
    others) on the field [z_main]. *)
Definition sync_main : M farchive unit := fun A =>
  fa_assign FMainPage (match z_main (fa_zim A) with Some m => PInt m | None => PNone end) A.

Section Flush.
Variable fuel : nat.
Context {D : Type}.
Variable dc : decomp D.
Variable new_decomp : ctype -> res D.
Context {K : Type}.
Variable new_comp : ctype -> res K.
Variable comp : K -> bytes -> res (bytes * K).
Variable flush : K -> res bytes.
Variable depth : nat.   (* of the recursion of [write_entry], see Archive.v *)
Variable kd : ckind.    (* [policy.cluster_class] *)
(** [hashlib.md5()], [update], [digest]. *)
Context {H : Type}.
Variable md5 : H.
Variable feed : H -> bytes -> H.
Variable digest : H -> bytes.
(** [policy.reserve_mimetype_space], [policy.truncate], policy.py 28-87. *)
Variable reserve : option Z.
Variable truncate : bool.
(** [remove_entry]'s work on the blob, see Archive.v; rounds of the operation
    buffer's loop. *)
Variable process_blob : entry -> M zim unit.
Variable rounds : nat.

(** ** Checksum *)

(** The loop of [calculate_checksum], 2005-2015: [f.read] returns less than
    asked for at the end of the file, and nothing behind it. *)
Fixpoint checksum_loop (todo : nat) (f : bytes) (pos end_ : Z) (h : H) : res H :=
  if pos <? end_ then
    match todo with
    | O => Err Diverge
    | S todo => let data := fread f pos (Z.min 8192 (end_ - pos)) in checksum_loop todo f (pos + zlen data) end_ (feed h data)
    end
  else Ok h.
(** Every round but those behind the end of the file reads at least a byte. *)
Definition calculate_checksum (A : farchive) : res bytes :=
  do h <- checksum_loop (S (length (fa_file A))) (fa_file A) 0 (h_checksum_pos (fa_hdr A)) md5 ;; Ok (digest h).
(** [get_checksum], 1979-1993. *)
Definition get_checksum (A : farchive) : bytes := fread (fa_file A) (h_checksum_pos (fa_hdr A)) CHECKSUM_LENGTH.
(** [update_checksum], 2017-2030. *)
Definition update_checksum : M farchive unit := fun A =>
  match calculate_checksum A with
  | Ok c => (Ok tt, fa_set_file (fwrite (fa_file A) (h_checksum_pos (fa_hdr A)) c) A)
  | Err e => (Err e, A)
  end.

(** ** Flushing the parts *)

(** [mark_free(old_position, old_size)], then [allocate(new_size)]. *)
Definition relocate (old_pos old_size new_size : Z) (A : farchive) : res (Z * allocator) :=
  do s <- mark_free (fa_alloc A) old_pos old_size ;; allocate s new_size.

(** 608-634: the mimetype list.  (If the allocation failed, the old space would
    remain marked as free; it does not fail.) *)
Definition flush_mimes : M farchive unit := fun A =>
  let ml := fa_mimes A in
  if negb (ml_dirty ml) then (Ok tt, A)
  else
    let size := mt_disk_size (ml_types ml) in
    match (match reserve with
           | None => relocate (h_mime_pos (fa_hdr A)) (ml_old_size ml) size A
           | Some r => if r <? size then Err ZimWriteExc else Ok (80, fa_alloc A)
           end) with
    | Err e => (Err e, A)
    | Ok (pos, s) =>
        let A := fa_set_file (fwrite (fa_file A) pos (mt_to_bytes (ml_types ml))) (fa_set_alloc s A) in
        (let* _ := fa_assign FMimePos (PInt pos) in
         fun A => (Ok tt, fa_set_mimes (mkMlist (ml_types ml) false (ml_mutable ml) size) A)) A
    end.

(** 636-648, 650-662: the cluster pointer list and the url pointer list. *)
Definition flush_ptrs (get : farchive -> plist) (set : plist -> farchive -> farchive) (old_pos : header -> Z) (position count : hfield) : M farchive unit := fun A =>
  let l := get A in
  if negb (pl_dirty l) then (Ok tt, A)
  else
    match relocate (old_pos (fa_hdr A)) (pl_old_size l) (ptrs_disk_size 8 (pl_ptrs l)) A with
    | Err e => (Err e, A)
    | Ok (pos, s) =>
        let A := fa_set_alloc s A in
        match pl_flush 8 l with
        | Err e => (Err e, A)
        | Ok (data, l') =>
            (let* _ := fa_assign position (PInt pos) in
             let* _ := fa_assign count (PInt (zlen (pl_ptrs l))) in
             fun A => (Ok tt, set l' A)) (fa_set_file (fwrite (fa_file A) pos data) A)
        end
    end.
Definition flush_clusters : M farchive unit :=
  flush_ptrs (fun A => ca_ptrs (fa_arch A)) (fun l A => fa_set_arch (ca_set_ptrs l (fa_arch A)) A) h_cluster_pos FClusterPos FClusterCount.
Definition flush_urls : M farchive unit :=
  flush_ptrs (fun A => z_upl (fa_zim A)) (fun l A => fa_set_zim (set_upl l (fa_zim A)) A) h_url_pos FUrlPos FEntryCount.

(** 664-665, then 667-675: the header. *)
Definition flush_header : M farchive unit :=
  let* _ := (fun A => fa_assign FChecksumPos (PInt (file_end (fa_alloc A))) A) in
  fun A =>
    if negb (ho_dirty (fa_header A)) then (Ok tt, A)
    else match hflush (fa_header A) with
         | Ok (data, h) => (Ok tt, fa_set_header h (fa_set_file (fwrite (fa_file A) 0 data) A))
         | Err e => (Err e, A)
         end.

(** 679-684. *)
Definition flush_truncate : M farchive unit := fun A =>
  (Ok tt, if truncate then fa_set_file (ztake (h_checksum_pos (fa_hdr A) + 16) (fa_file A)) A else A).

(** ** Title pointer lists *)

(** [entry.set_content(InMemoryBlobSource(data)).flush()] for the entry with
    that url: entry.py 830-855, cluster.py 1037-1050.  The result is the entry's
    position and the cluster object. *)
Definition set_listing (url : ustr) (data : bytes) : M farchive (Z * Z * cobj (cluster D)) := fun A =>
  match get_entry_by_full_url (fa_zim A) url with
  | Err e => (Err e, A)
  | Ok e =>
      match e_kind e with
      | Redirect _ => (Err AttributeError, A)
      | Content c b =>
          match edited fuel dc new_decomp kd (fa_arch A) c [ESet b (mem_source data) data] with
          | Err e => (Err e, A)
          | Ok o =>
              let '(r, (a, o)) := write_cluster fuel new_comp comp flush (stored_ops dc new_decomp fuel) None (fa_arch A) o in
              (do _ <- r ;; Ok (c, b, o), fa_set_arch a A)
          end
      end
  end.

(** 580-585: the article title pointer list. *)
Definition flush_articles : M farchive unit := fun A =>
  let l := z_atpl (fa_zim A) in
  if negb (pl_dirty l) then (Ok tt, A)
  else match pl_flush 4 l with
       | Err e => (Err e, A)
       | Ok (data, l') =>
           (let* _ := set_listing URL_ARTICLE_TITLE_INDEX data in
            fun A => (Ok tt, fa_set_zim (set_atpl l' (fa_zim A)) A)) A
       end.

(** [compression_strategy.flush()], [uncompressed_compression_strategy.flush()]. *)
Definition flush_strategies : M farchive unit := fun A =>
  let '(r, z) := zim_flush_items fuel new_comp comp flush depth (fa_state A) in (r, fa_set_state z A).

(** 587-606: the entry title pointer list. *)
Definition flush_titles : M farchive unit := fun A =>
  match z_etpl (fa_zim A) with
  | None => (Ok tt, A)
  | Some l =>
      if negb (pl_dirty l) then (Ok tt, A)
      else
        (let* _ := flush_strategies in
         fun A =>
           match z_etpl (fa_zim A) with
           | None => (Ok tt, A)   (* not reached *)
           | Some l =>
               match pl_flush 4 l with
               | Err e => (Err e, A)
               | Ok (data, l') =>
                   (let* x := set_listing URL_ENTRY_TITLE_INDEX data in
                    let '(c, b, o) := (x : Z * Z * cobj (cluster D)) in
                    fun A =>
                      match (do p <- get_by_index (pl_ptrs (ca_ptrs (fa_arch A))) c ;;
                             do d <- fst (wget_offset (inner_cluster dc new_decomp (fa_file A) fuel) b (co_wrap o)) ;;
                             Ok (p + 1 + d)) with
                      | Err e => (Err e, A)
                      | Ok p =>
                          (let* _ := fa_assign FTitlePos (PInt p) in
                           fun A => (Ok tt, fa_set_zim (set_etpl (Some l') (fa_zim A)) A)) A
                      end) A
               end
           end) A
  end.

(** ** [flush] *)

(** 560: the operation buffer. *)
Definition flush_buffer : M farchive unit := fun A =>
  let '(r, o) := OperationBuffer.finalize process_blob rounds (S (S depth)) (mkBuffered (fa_zim A) (fa_redirects A) (fa_main A)) in
  let A := fa_set_zim (b_zim o) A in
  (r, mkFa (fa_state A) (fa_header A) (fa_dirty A) (b_redirects o) (b_main o)).

(** modifiable.py 45-52: [self.dirty]. *)
Definition is_dirty (A : farchive) : bool :=
  fa_dirty A || ho_dirty (fa_header A) || ml_dirty (fa_mimes A) || pl_dirty (z_upl (fa_zim A)) || pl_dirty (ca_ptrs (fa_arch A)) ||
  match z_etpl (fa_zim A) with Some l => pl_dirty l | None => false end || pl_dirty (z_atpl (fa_zim A)).

(** 551-560: the entries and clusters. *)
Definition flush_content : M farchive unit :=
  let* _ := flush_strategies in flush_buffer.
(** 580-685: everything that describes them. *)
Definition flush_tail : M farchive unit :=
  let* _ := sync_main in
  let* _ := flush_articles in
  let* _ := flush_titles in
  let* _ := flush_mimes in
  let* _ := flush_clusters in
  let* _ := flush_urls in
  let* _ := flush_header in
  let* _ := update_checksum in
  let* _ := flush_truncate in
  fun A => (Ok tt, fa_set_dirty false A).
(** [flush], 517-689; [ensure_mutable] is [writable], see [open_zim]. *)
Definition zim_flush : M farchive unit :=
  let* _ := sync_main in
  fun A => if negb (is_dirty A) then (Ok tt, A) else (let* _ := flush_content in flush_tail) A.

(** [Zim.add_item], 1950-1973: [mark_dirty] at the end. *)
Definition fa_add_item (it : item) (force_uncompressed : bool) : M farchive unit := fun A =>
  match zim_add_item fuel new_comp comp flush depth it force_uncompressed (fa_state A) with
  | (Ok _, z) => (Ok tt, fa_set_dirty true (fa_set_state z A))
  | (Err e, z) => (Err e, fa_set_state z A)
  end.

(** The item that keeps a place for the article title list, 402-410 and 348-357;
    [EmptyBlobSource], blob.py 223-239, has no data. *)
Definition placeholder_item : item :=
  mkItem [88] (skipn 1 URL_ARTICLE_TITLE_INDEX) MIMETYPE_ZIMLISTING (mem_source []) None false.
Definition add_placeholder : M farchive unit :=
  let* _ := fa_add_item placeholder_item true in
  fun A => let '(r, (s, y)) := any_flush fuel new_comp comp flush depth (fa_sarch A, zs_plain (fa_state A)) in
           (r, fa_set_state (mkZs s (zs_comp (fa_state A)) y) A).

(** ** Creating: [_init_new], 369-423.  [u] is the random uuid; [sc], [sp] are
    the strategies of the policy.  182: [after_flush_or_read]. *)
Definition init_space : Z := HEADER_LENGTH + match reserve with Some r => r | None => 0 end.
Definition empty_list : plist := mkPlist [] true true 0.
Definition init_state (u : bytes) (sc sp : anystrat) : res farchive :=
  let h := header_placeholder u in
  do data <- header_to_bytes (ho_hdr h) ;;
  Ok (mkFa (mkZs (mkSa (mkCa (mkZim (fwrite [] 0 data) empty_list None empty_list None (new_allocator init_space)) empty_list 0)
                       (mkMlist [] true true (mt_disk_size [])))
                 sc sp) h false [] None).
Definition init_new (u : bytes) (sc sp : anystrat) : res farchive :=
  do A <- init_state u sc sp ;;
  let '(r, A) := add_placeholder A in do _ <- r ;; Ok (fa_set_dirty false A).

(** ** Opening: 254-367; [TitlePointerList.from_zim_entry], pointerlist.py
    503-519, reads the content of the entry.  182: [after_flush_or_read] of the
    archive itself. *)
Definition set_mutable (b : bool) (l : plist) : plist := mkPlist (pl_ptrs l) (pl_dirty l) b (pl_old_size l).
Definition load_listing (a : carchive) (url : ustr) : res (list Z) :=
  do e <- get_entry_by_full_url (ca_zim a) url ;;
  do e <- resolve fuel (ca_zim a) e ;;
  match e_kind e with
  | Content c b => do data <- read_blob_of fuel dc new_decomp kd a c b ;; ptrs_from_bytes 4 data
  | Redirect _ => Err AttributeError
  end.
Definition open_zim (f : bytes) (writable : bool) (sc sp : anystrat) : res farchive :=
  do h <- header_from_file f 0 ;;
  do m <- mt_from_file (zskip (h_mime_pos h) f) ;;
  let ml := mkMlist (fst m) false writable (mt_disk_size (fst m)) in
  do ul <- ptrs_from_file 8 f (h_entry_count h) (h_url_pos h) ;;
  do cl <- ptrs_from_file 8 f (h_cluster_count h) (h_cluster_pos h) ;;
  let list w l := set_mutable writable (plist_new w l) in
  (* the archive without its title lists, which are read through it *)
  let make et at_ := mkCa (mkZim f (list 8%nat ul) et at_ (main_page h) (new_allocator (h_checksum_pos h))) (list 8%nat cl) (zlen cl) in
  let a0 := make None (list 4%nat []) in
  do et <- (if (6 <? h_major h) || ((h_major h =? 6) && (3 <=? h_minor h)) then Ok None
            else do there <- has_entry_for_full_url (ca_zim a0) URL_ENTRY_TITLE_INDEX ;;
                 do l <- (if (there : bool) then load_listing a0 URL_ENTRY_TITLE_INDEX
                          else ptrs_from_file 4 f (h_entry_count h) (h_title_pos h)) ;;
                 Ok (Some (list 4%nat l))) ;;
  do there <- has_entry_for_full_url (ca_zim a0) URL_ARTICLE_TITLE_INDEX ;;
  do al <- (if (there : bool) then load_listing a0 URL_ARTICLE_TITLE_INDEX else Ok []) ;;
  let A := mkFa (mkZs (mkSa (make et (list 4%nat al)) ml) sc sp) (mkHobj h false writable HEADER_LENGTH) false [] None in
  if there || negb writable then Ok A
  else let '(r, A) := add_placeholder A in do _ <- r ;; Ok (fa_set_dirty false A).
End Flush.
