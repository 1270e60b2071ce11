(** What C94 says: the program ends while an archive is being flushed. *)
From Coq Require Import List ZArith Bool.
From Verif Require Import Base Infobyte Entry Cluster Decompressors Reader Blob ClusterWrapper Archive ArchiveCluster CompressionStrategy OperationBuffer Flush.
Import ListNotations.
Open Scope Z_scope.

Section Spec.
Variable fuel : nat.
Context {D : Type}.
Variable dc : decomp D.
Variable new_decomp : ctype -> res D.
Context {K : Type}.
Variable new_comp : ctype -> res K.
Variable comp : K -> bytes -> res (bytes * K).
Variable flush : K -> res bytes.
Variable depth : nat.
Variable kd : ckind.
Context {H : Type}.
Variable md5 : H.
Variable feed : H -> bytes -> H.
Variable digest : H -> bytes.
Variable reserve : option Z.
Variable truncate : bool.
Variable process_blob : entry -> M zim unit.
Variable rounds : nat.

(** The steps of [flush] (archive.py 517-689) for an archive that is marked as
    modified: the main page, waiting items, the operation buffer (551-560), the
    title lists (580-606), mimetypes (608-634), cluster pointers (636-648), url
    pointers (650-662) and the header (664-675) ... *)
Definition to_header : list (M farchive unit) :=
  [sync_main; flush_strategies fuel new_comp comp flush depth; flush_buffer depth process_blob rounds; sync_main;
   flush_articles fuel dc new_decomp new_comp comp flush kd; flush_titles fuel dc new_decomp new_comp comp flush depth kd;
   flush_mimes reserve; flush_clusters; flush_urls; flush_header].
(** ... and then the checksum (677) and the end of the file (679-684). *)
Definition from_header : list (M farchive unit) := [update_checksum md5 feed digest; flush_truncate truncate].

(** The steps are taken one after the other; the files that there are in
    between, the first and the last one included. *)
Inductive proceeds : list (M farchive unit) -> farchive -> farchive -> list bytes -> Prop :=
| proceeds_nil A : proceeds [] A A [fa_file A]
| proceeds_cons m r A A1 A' fs : m A = (Ok tt, A1) -> proceeds r A1 A' fs -> proceeds (m :: r) A A' (fa_file A :: fs).
End Spec.

(** What may be found on the disk after a crash: each byte of the file [f] is as
    in one of the files [fs] (if that has become shorter, it may be missing);
    behind [f] there may be anything. *)
Definition mixed (f : bytes) (fs : list bytes) (g : bytes) : Prop :=
  forall x, (x < length f)%nat -> exists f', In f' fs /\ nth_error g x = nth_error f' x.
