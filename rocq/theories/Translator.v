(** Model of [Item.from_entry] (item.py 263-284), [EntryBlobSource] (blob.py
    262-285) and of [ZimTranslator] with its default handlers
    (util/translator.py 20-224).

    The output archive is the state, [zim_in] does not change (its caches are
    not represented, see Cache.v).  What is read from [zim_in] for an item is
    read here when the item is made, and in the code when the output archive
    writes it; the input is the same at both times. *)
From Coq Require Import List ZArith Bool.
From Verif Require Import Base Utf8 Infobyte Entry MimeTypeList Reader Blob Cluster ClusterWrapper PointerList Archive ArchiveCluster CompressionStrategy OperationBuffer IterByCluster Flush.
Import ListNotations.
Open Scope Z_scope.

(** 187-190 and 208-210. *)
Definition SKIPPED_X : list ustr := [tl URL_ENTRY_TITLE_INDEX; tl URL_ARTICLE_TITLE_INDEX].
Definition SKIPPED_M : list ustr := [[67; 111; 117; 110; 116; 101; 114]].
(** [handle_item], 132-153: [handle_X] (170-194), [handle_M] (196-214) or
    [handle_default] (155-168).  A namespace is one character, so that no other
    method is found by its name. *)
Definition handle_item (it : item) : option item :=
  if ueqb (it_ns it) [88] then (if existsb (ueqb (it_url it)) SKIPPED_X then None else Some it)
  else if ueqb (it_ns it) NS_M then (if existsb (ueqb (it_url it)) SKIPPED_M then None else Some it)
  else Some it.

Section Translator.
Variable fuel : nat.
Context {D : Type}.
Variable dc : decomp D.
Variable new_decomp : ctype -> res D.
Context {K : Type}.
Variable new_comp : ctype -> res K.
Variable comp : K -> bytes -> res (bytes * K).
Variable flush : K -> res bytes.
Variable depth : nat.
Variable kd : ckind.
Context {H : Type}.
Variable md5 : H.
Variable feed : H -> bytes -> H.
Variable digest : H -> bytes.
Variable reserve : option Z.
Variable truncate : bool.
Variable process_blob : entry -> M zim unit.
Variable rounds : nat.

(** [ContentEntry.get_size], entry.py 749-760. *)
Definition entry_size (a : carchive) (c b : Z) : res Z :=
  do o <- get_cluster_by_index fuel dc new_decomp kd a c ;;
  fst (wblob_size (inner_cluster dc new_decomp (ca_file a) fuel) b (co_wrap o)).
(** [ContentEntry.iter_read()], entry.py 797-832, run to its end. *)
Definition entry_chunks (a : carchive) (c b : Z) : res (list bytes) :=
  do o <- get_cluster_by_index fuel dc new_decomp kd a c ;;
  fst (witer_read_blob (inner_cluster dc new_decomp (ca_file a) fuel) fuel b 4096 None None (co_wrap o)).
(** [EntryBlobSource], blob.py 271-285. *)
Definition entry_source (a : carchive) (c b : Z) : res source :=
  do n <- entry_size a c b ;;
  do l <- entry_chunks a c b ;;
  Ok (mkSource n (blob_entry n l)).
(** [entry.mimetype] of a content entry: entry.py 357-367, archive.py 1561-1575
    and 1548-1559, mimetypelist.py 92-114. *)
Definition entry_mimetype (ml : mlist) (e : entry) : res ustr := do m <- mt_get (e_mimetype e) (ml_types ml) ;; decode m.
(** [entry.is_article] of an entry that was read: entry.py 399-415. *)
Definition entry_article (s : zim) (e : entry) : res bool :=
  if ueqb (e_ns e) NS_C then entry_at_url_is_article s (full_url e) else Ok false.
(** [Item.from_entry], item.py 263-284; [entry.title] is empty only if the url is. *)
Definition item_from_entry (Ain : farchive) (e : entry) : res item :=
  match e_kind e with
  | Redirect _ => Err TypeError
  | Content c b =>
      do m <- entry_mimetype (fa_mimes Ain) e ;;
      do src <- entry_source (fa_arch Ain) c b ;;
      do article <- entry_article (fa_zim Ain) e ;;
      item_new (e_ns e) (e_url e) m src (match title e with [] => None | t => Some t end) article
  end.

Variable Ain : farchive.

(** [handle_redirect], 116-130. *)
Definition handle_redirect (e : entry) : M farchive unit := fun A =>
  match follow (fa_zim Ain) e with
  | Err x => (Err x, A)
  | Ok t =>
      let '(r, o) := add_redirect (S (S depth)) (full_url e, full_url t, if ueqb (title e) (e_url e) then None else Some (title e))
                       (mkBuffered (fa_zim A) (fa_redirects A) (fa_main A)) in
      let A := fa_set_zim (b_zim o) A in
      (r, mkFa (fa_state A) (fa_header A) (fa_dirty A) (b_redirects o) (b_main o))
  end.
(** The body of the inner loop, 81-94. *)
Definition copy_url (u : ustr) : M farchive unit := fun A =>
  match get_entry_by_full_url (fa_zim Ain) u with
  | Err x => (Err x, A)
  | Ok e =>
      if is_redirect e then handle_redirect e A
      else match item_from_entry Ain e with
           | Err x => (Err x, A)
           | Ok it => match handle_item it with
                      | None => (Ok tt, A)
                      | Some it => fa_add_item fuel new_comp comp flush depth it false A
                      end
           end
  end.
(** The loops 78-95. *)
Fixpoint copy_urls (us : list ustr) : M farchive unit :=
  match us with
  | [] => ret tt
  | u :: us' => let* _ := copy_url u in copy_urls us'
  end.
Fixpoint copy_groups (gs : list (list ustr)) : M farchive unit :=
  match gs with
  | [] => ret tt
  | g :: gs' => let* _ := copy_urls g in copy_groups gs'
  end.
(** [finalize], 216-224; [zim_in] is not dirty; [close] is archive.py 490-506. *)
Definition finalize_out : M farchive unit :=
  let* _ := zim_flush fuel dc new_decomp new_comp comp flush depth kd md5 feed digest reserve truncate process_blob rounds in
  fun A => if is_dirty A then zim_flush fuel dc new_decomp new_comp comp flush depth kd md5 feed digest reserve truncate process_blob rounds A else (Ok tt, A).
(** [handle_header], 99-114. *)
Definition handle_header : M farchive unit := fun A =>
  match (do e <- get_mainpage_entry (fa_zim Ain) ;; do e <- resolve fuel (fa_zim Ain) e ;; Ok (e_url e)) with
  | Err x => (Err x, A)
  | Ok u =>
      let '(r, o) := set_mainpage process_blob (S (S depth)) (Some u) (mkBuffered (fa_zim A) (fa_redirects A) (fa_main A)) in
      let A := fa_set_zim (b_zim o) A in
      (r, mkFa (fa_state A) (fa_header A) (fa_dirty A) (b_redirects o) (b_main o))
  end.
(** [translate], 70-97, with a given [handle_header].  What [iter_by_cluster]
    yields before it raises is handled first. *)
Definition translate (header : M farchive unit) : M farchive unit :=
  let* _ := header in
  let '(gs, how) := iter_by_cluster (fa_zim Ain) in
  let* _ := copy_groups gs in
  match how with
  | Err x => raise x
  | Ok _ => finalize_out
  end.
End Translator.
