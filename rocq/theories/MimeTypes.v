(** The mimetypes of an archive (C103): archive.py 1548-1585 and the methods of
    [MimeTypeList] they use, mimetypelist.py 92-114 and 180-192. *)
From Coq Require Import List ZArith Bool.
From Verif Require Import Base Utf8 MimeTypeList Entry PointerList Cluster Archive ArchiveCluster CompressionStrategy OperationBuffer Flush.
Import ListNotations.
Open Scope Z_scope.

(** constants.py 65: "<redirect>" *)
Definition REDIRECT_TYPE : ustr := [60; 114; 101; 100; 105; 114; 101; 99; 116; 62].

(** [MimeTypeList.get] with [as_unicode], 92-114, and [get_mimetype_by_index],
    archive.py 1548-1559. *)
Definition get_mimetype_by_index (A : farchive) (i : Z) : res ustr := do b <- mt_get i (ml_types (fa_mimes A)) ;; decode b.
(** [get_mimetype_of_entry], 1561-1575. *)
Definition get_mimetype_of_entry (A : farchive) (e : entry) : res ustr :=
  if is_redirect e then Ok REDIRECT_TYPE else get_mimetype_by_index A (e_mimetype e).
(** [iter_mimetypes], 1577-1585: what is yielded. *)
Definition iter_mimetypes (A : farchive) : list bytes := ml_types (fa_mimes A).
(** The same with [as_unicode], mimetypelist.py 180-192: what is yielded, and the
    exception that ends the iteration, if there is one. *)
Fixpoint decode_each (l : list bytes) : list ustr * option exn :=
  match l with
  | [] => ([], None)
  | b :: r => match decode b with Ok s => let (t, x) := decode_each r in (s :: t, x) | Err x => ([], Some x) end
  end.
Definition iter_mimetypes_unicode (A : farchive) : list ustr * option exn := decode_each (ml_types (fa_mimes A)).
