(** What C46 and C60 say about histories: items are added, the archive is
    flushed, closed and opened again, in any order and any number of times. *)
From Coq Require Import List ZArith Bool.
From Verif Require Import Base Utf8 Infobyte Header MimeTypeList PointerList SpaceAllocator Entry Reader Cluster ClusterWrapper ClusterWrapperSpec
  Archive ArchiveSpec ArchiveCluster ArchiveClusterSpec CompressionStrategy CompressionStrategySpec Flush FlushSpec.
Import ListNotations.
Open Scope Z_scope.

(** What a user does: add an item (with its data), flush, or close the archive
    (archive.py 492-506) and open it again, for writing, with other strategies. *)
Inductive zop := ZAdd (it : item) (d : bytes) (uncompressed : bool) | ZFlush | ZReopen (sc sp : anystrat).
Definition zadded (ops : list zop) : list (item * bytes) :=
  concat (map (fun o => match o with ZAdd it d _ => [(it, d)] | _ => [] end) ops).
Definition zop_ok (fuel : nat) (o : zop) : Prop :=
  match o with ZAdd it d _ => item_ok fuel it d | ZFlush => True | ZReopen sc sp => fresh_strategy sc /\ fresh_strategy sp end.

Section Spec.
Variable fuel : nat.
Context {D : Type}.
Variable dc : decomp D.
Variable new_decomp : ctype -> res D.
Context {K : Type}.
Variable new_comp : ctype -> res K.
Variable comp : K -> bytes -> res (bytes * K).
Variable flush : K -> res bytes.
Variable depth : nat.
Variable kd : ckind.
Variable Stream : ctype -> bytes -> bytes -> Prop.
Context {H : Type}.
Variable md5 : H.
Variable feed : H -> bytes -> H.
Variable digest : H -> bytes.
Variable reserve : option Z.
Variable truncate : bool.
Variable process_blob : entry -> M zim unit.
Variable rounds : nat.

Definition flushes : M farchive unit :=
  zim_flush fuel dc new_decomp new_comp comp flush depth kd md5 feed digest reserve truncate process_blob rounds.
Definition perform_zop (A : farchive) (o : zop) : res unit * farchive :=
  match o with
  | ZAdd it _ u => fa_add_item fuel new_comp comp flush depth it u A
  | ZFlush => flushes A
  | ZReopen sc sp =>
      match flushes A with
      | (Ok _, A1) => match open_zim fuel dc new_decomp new_comp comp flush depth kd (fa_file A1) true sc sp with Ok B => (Ok tt, B) | Err e => (Err e, A1) end
      | (Err e, A1) => (Err e, A1)
      end
  end.

(** The loops of the model are long enough for all clusters and title lists. *)
Definition suffices (A : farchive) : Prop :=
  (0 < fuel)%nat /\ (forall cells L, laid_out Stream reserve A cells L -> ample fuel (fa_arch A) (blobs_of L)) /\
  4 * zlen (pl_ptrs (z_atpl (fa_zim A))) < Z.of_nat fuel /\ forall t, z_etpl (fa_zim A) = Some t -> 4 * zlen (pl_ptrs t) < Z.of_nat fuel.
(** Also in the states that a flush passes through. *)
Definition flush_suffices (A : farchive) : Prop :=
  (forall A1, (let* _ := sync_main in flush_content fuel new_comp comp flush depth process_blob rounds) A = (Ok tt, A1) ->
     suffices A1 /\ forall A2, (let* _ := sync_main in flush_articles fuel dc new_decomp new_comp comp flush kd) A1 = (Ok tt, A2) -> suffices A2 /\
       forall A3, flush_titles fuel dc new_decomp new_comp comp flush depth kd A2 = (Ok tt, A3) -> suffices A3) /\
  forall A', flushes A = (Ok tt, A') -> suffices A'.

(** [ops] are performed one after the other, all of them return; there are
    never more than 65535 mimetypes (entries have 16 bits for them, and the
    number 65535 means a redirect). *)
Definition within_limits (A : farchive) : Prop := suffices A /\ zlen (ml_types (fa_mimes A)) <= 65535.
Inductive zruns : farchive -> list zop -> farchive -> Prop :=
| zruns_nil A : within_limits A -> zruns A [] A
| zruns_cons A o A1 ops A' : within_limits A -> flush_suffices A -> perform_zop A o = (Ok tt, A1) -> zruns A1 ops A' -> zruns A (o :: ops) A'.
End Spec.
