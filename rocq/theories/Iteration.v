(** The ways to walk through an archive (pyzim/archive.py). *)
From Coq Require Import List ZArith Bool.
From Verif Require Import Base Utf8 Infobyte Header MimeTypeList Entry Reader PointerList Decompressors Cluster ClusterWrapper Archive ArchiveCluster CompressionStrategy Flush.
Import ListNotations.
Open Scope Z_scope.

(** [get_entry_by_url], 839-854 (the namespace is one character), and
    [get_content_entry_by_url], 856-871. *)
Definition get_entry_by_url (s : zim) (namespace url : ustr) : res entry :=
  if zlen namespace =? 1 then get_entry_by_full_url s (namespace ++ url) else Err AssertionError.
Definition get_content_entry_by_url (s : zim) (url : ustr) : res entry := get_entry_by_url s NS_C url.

Section Clusters.
Variable fuel : nat.
Context {D : Type}.
Variable dc : decomp D.
Variable new_decomp : ctype -> res D.
Variable kd : ckind.
(** [iter_clusters], 1668-1696, run to its end. *)
Definition iter_clusters (A : farchive) (start end_ : option Z) : res (list (cobj (cluster D))) :=
  let s := match start with None => 0 | Some s => s end in
  let e := match end_ with None => h_cluster_count (fa_hdr A) | Some e => e end in
  if (s <? 0) || (h_cluster_count (fa_hdr A) <? e) then Err IndexError
  else if e <? s then Err IndexError
  else iter_range (get_cluster_by_index fuel dc new_decomp kd (fa_arch A)) s (Z.to_nat (e - s)).
End Clusters.
