(** Model of the metadata interface of pyzim/archive.py, 1827-1944. *)
From Coq Require Import List ZArith Bool Strings.Byte.
From Verif Require Import Base Utf8 Infobyte Entry Reader Cluster ClusterWrapper Archive ArchiveCluster ArchiveClusterSpec CompressionStrategy Flush.
Import ListNotations.
Open Scope Z_scope.

(** A [str] or a [bytes] object. *)
Inductive mvalue := MText (s : ustr) | MBytes (b : bytes).

(** [unicode_key.startswith("Illustration_")], 1908. *)
Definition ILLUSTRATION : ustr := [73; 108; 108; 117; 115; 116; 114; 97; 116; 105; 111; 110; 95].
Definition is_illustration (key : ustr) : bool := ueqb (firstn 13 key) ILLUSTRATION.

(** [InMemoryBlobSource(value)], blob.py 101-132: text is encoded. *)
Definition value_bytes (v : mvalue) : res bytes := match v with MText s => encode s | MBytes b => Ok b end.

Section Metadata.
Variable fuel : nat.
Context {D : Type}.
Variable dc : decomp D.
Variable new_decomp : ctype -> res D.
Context {K : Type}.
Variable new_comp : ctype -> res K.
Variable comp : K -> bytes -> res (bytes * K).
Variable flush : K -> res bytes.
Variable depth : nat.
Variable kd : ckind.
Context {H : Type}.
Variable md5 : H.
Variable feed : H -> bytes -> H.
Variable digest : H -> bytes.
Variable reserve : option Z.
Variable truncate : bool.
Variable process_blob : entry -> M zim unit.
Variable rounds : nat.

(** [set_metadata], 1912-1944, for a key, a value and a mimetype of the right
    types and an archive that is open and writable. *)
Definition set_metadata (key : ustr) (value : mvalue) (mimetype : ustr) : M farchive unit :=
  match key with
  | [] => raise ValueError
  | _ => match value_bytes value with
         | Err e => raise e
         | Ok d =>
             match item_new NS_M key mimetype (mem_source d) None false with
             | Err e => raise e
             | Ok it => fa_add_item fuel new_comp comp flush depth it false
             end
         end
  end.

(** The part of [get_metadata] after the flush, 1852-1860.  [resolve] and
    [EntryNotFound] are in the same [try]; [entry.read()] (entry.py 762-799)
    reads the whole blob. *)
Definition read_metadata (key : ustr) (as_unicode : bool) (A : farchive) : res (option mvalue) :=
  match (do e <- get_entry_by_full_url (fa_zim A) (NS_M ++ key) ;; resolve fuel (fa_zim A) e) with
  | Err EntryNotFound => Ok None
  | Err e => Err e
  | Ok e =>
      match e_kind e with
      | Redirect _ => Err AttributeError
      | Content c b =>
          do data <- read_blob_of fuel dc new_decomp kd (fa_arch A) c b ;;
          if as_unicode then do s <- decode data ;; Ok (Some (MText s)) else Ok (Some (MBytes data))
      end
  end.
(** [get_metadata], 1827-1860; [writable] is [self._writable]. *)
Definition get_metadata (writable : bool) (key : ustr) (as_unicode : bool) : M farchive (option mvalue) :=
  let* _ := (if writable then zim_flush fuel dc new_decomp new_comp comp flush depth kd md5 feed digest reserve truncate process_blob rounds else ret tt) in
  fun A => (read_metadata key as_unicode A, A).

(** [get_metadata_dict], 1891-1910: the loop over the keys.  The dict is the list
    of its items; the keys stay unicode strings (with [as_unicode=False] they
    are encoded, 1883-1887, and decoded again, 1907, which changes nothing). *)
Fixpoint dict_loop (writable as_unicode : bool) (keys : list ustr) : M farchive (list (ustr * option mvalue)) :=
  match keys with
  | [] => ret []
  | k :: r =>
      let* v := get_metadata writable k (as_unicode && negb (is_illustration k)) in
      let* l := dict_loop writable as_unicode r in
      ret ((k, v) :: l)
  end.
Definition get_metadata_dict (writable as_unicode : bool) : M farchive (list (ustr * option mvalue)) := fun A =>
  match get_metadata_keys (fa_zim A) with
  | Err e => (Err e, A)
  | Ok keys => dict_loop writable as_unicode keys A
  end.
End Metadata.
