(** Model of how pyzim finds a Xapian search index in an archive: the parts of
    [XapianSearch] (pyzim/search.py 279-376) that do not belong to the library
    Xapian, and [get_search] (pyzim/archive.py 2034-2063). *)
From Coq Require Import List ZArith Bool.
From Verif Require Import Base Utf8 Infobyte Reader Entry PointerList Archive Cluster ClusterWrapper ArchiveCluster Search.
Import ListNotations.
Open Scope Z_scope.

(** constants.py 57-58: "Xtitle/xapian" and "Xfulltext/xapian". *)
Definition URL_XAPIAN_TITLE_INDEX : ustr := [88; 116; 105; 116; 108; 101; 47; 120; 97; 112; 105; 97; 110].
Definition URL_XAPIAN_FULLTEXT_INDEX : ustr := [88; 102; 117; 108; 108; 116; 101; 120; 116; 47; 120; 97; 112; 105; 97; 110].

Section SearchIndex.
Variable fuel : nat.
Context {D : Type}.
Variable dc : decomp D.
Variable new_decomp : ctype -> res D.
Variable kd : ckind.

(** search.py 372-375 for a cluster of an archive that is opened for reading:
    [cluster.offset + 1 + cluster.get_offset(blob_index)]. *)
Definition blob_position (f : bytes) (off b : Z) : res Z :=
  do o <- fst (get_offset dc new_decomp f fuel b (cluster_new kd off)) ;;
  Ok (cl_offset (@cluster_new D kd off) + 1 + o).
(** ... and for the wrapper that a writable archive puts around it
    (cluster.py 1100-1108 and 1208-1216). *)
Definition wblob_position (f : bytes) (c : cobj (cluster D)) (b : Z) : res Z :=
  do o <- fst (wget_offset (inner_cluster dc new_decomp f fuel) b (co_wrap c)) ;;
  Ok (cl_offset (w_in (co_wrap c)) + 1 + o).

(** [XapianSearch._offset], search.py 359-376.  An entry that is a redirect has no
    [cluster_number]. *)
Definition index_position (writable : bool) (a : carchive) (url : ustr) : res Z :=
  match get_entry_by_full_url (ca_zim a) url with
  | Err EntryNotFound => Err ZimFeatureMissing
  | Err x => Err x
  | Ok e =>
      match e_kind e with
      | Content c b =>
          if writable
          then do w <- get_cluster_by_index fuel dc new_decomp kd a c ;; wblob_position (ca_file a) w b
          else if c <? 0 then Err AssertionError
          else do off <- get_by_index (pl_ptrs (ca_ptrs a)) c ;; blob_position (ca_file a) off b
      | Redirect _ => Err AttributeError
      end
  end.

(** [XapianSearch.__init__], search.py 295-303.  [database]: what
    [xapian.Database(fd)] makes of the bytes from the position of the file on.
    Simplification: the language and the stemmer (304-321) are left out. *)
Context {DB : Type}.
Variable database : bytes -> res DB.
Definition open_index (writable : bool) (a : carchive) (url : ustr) : res DB :=
  do pos <- index_position writable a url ;; database (zskip pos (ca_file a)).

Inductive found_search := Fulltext (db : DB) | Titles (db : DB) | TitleStart (s : searcher).
(** [Zim.get_search], archive.py 2034-2063.  [xapian]: the libraries that
    [XapianSearch.__init__] needs are installed; otherwise it raises
    MissingDependency. *)
Definition get_search (xapian writable : bool) (a : carchive) : res found_search :=
  let titlestart := do s <- new_search (ca_zim a) false ;; Ok (TitleStart s) in
  if xapian then
    match open_index writable a URL_XAPIAN_FULLTEXT_INDEX with
    | Ok db => Ok (Fulltext db)
    | Err ZimFeatureMissing =>
        match open_index writable a URL_XAPIAN_TITLE_INDEX with
        | Ok db => Ok (Titles db)
        | Err ZimFeatureMissing => titlestart
        | Err x => Err x
        end
    | Err x => Err x
    end
  else titlestart.
End SearchIndex.
