(** Model of the cluster layer of pyzim/archive.py: reading, writing and
    removing clusters, 1590-1823.

    Simplifications, besides those of Archive.v:
    - the cluster cache never holds a cluster (NoOpCache, cache.py 99-137, one
      of the policies): every call of [get_cluster_by_index] makes a new object,
      and nothing is written behind the caller's back;
    - [iter_write] is run to its end before its chunks are written, against the
      file as it was when the write began.  The code writes every chunk as it is
      produced, but only into space that was not in use, where no cluster reads
      (C44 is about exactly this). *)
From Coq Require Import List ZArith Bool.
From Verif Require Import Base Infobyte Reader Blob Cluster ClusterWrapper PointerList SpaceAllocator Archive.
Import ListNotations.
Open Scope Z_scope.

(** The archive: what the entry layer knows, [_cluster_pointer_list] and
    [_cluster_num] (130, 408, 360). *)
Record carchive := mkCa { ca_zim : zim; ca_ptrs : plist; ca_next : Z }.
Definition ca_file (a : carchive) : bytes := z_file (ca_zim a).
Definition ca_alloc (a : carchive) : allocator := z_alloc (ca_zim a).
Definition ca_set_file f (a : carchive) := mkCa (set_file f (ca_zim a)) (ca_ptrs a) (ca_next a).
Definition ca_set_alloc s (a : carchive) := mkCa (set_alloc s (ca_zim a)) (ca_ptrs a) (ca_next a).
Definition ca_set_ptrs p (a : carchive) := mkCa (ca_zim a) p (ca_next a).
Definition ca_set_next n (a : carchive) := mkCa (ca_zim a) (ca_ptrs a) n.

(** A cluster object as handed to the user: a [ModifiableClusterWrapper] and
    its [_old_disk_size] (modifiable.py 36-60, what [get_unmodified_disk_size]
    returns). *)
Record cobj (I : Type) := mkCobj { co_wrap : wrapper I; co_old : Z }.
Arguments mkCobj {I}. Arguments co_wrap {I}. Arguments co_old {I}.

(** The kind of cluster that is wrapped: its calls, given the contents of the
    file, its [offset] and how it is assigned ([cluster.py] 1100-1119). *)
Record cops (I : Type) := mkCops { op_inner : bytes -> inner I; op_offset : I -> option Z; op_move : Z -> I -> I }.
Arguments mkCops {I}. Arguments op_inner {I}. Arguments op_offset {I}. Arguments op_move {I}.

(** A cluster read from the file. *)
Definition move_cluster {D} (p : Z) (c : cluster D) : cluster D :=
  mkCluster (cl_kind c) p (cl_info c) (cl_reader c) (cl_offsets c) (cl_data c).
Definition stored_ops {D} (dc : decomp D) new_decomp fuel : cops (cluster D) :=
  mkCops (fun f => inner_cluster dc new_decomp f fuel) (fun c => Some (cl_offset c)) move_cluster.
(** A new cluster ([EmptyCluster]); its state is its offset. *)
Definition new_ops : cops (option Z) := mkCops (fun _ => inner_empty) (fun o => o) (fun p _ => Some p).

(** [_new_cluster_num], 758-770. *)
Definition new_cluster_num (a : carchive) : Z * carchive := (ca_next a, ca_set_next (ca_next a + 1) a).

(** [get_cluster_index_by_offset], 1698-1715. *)
Fixpoint index_of (i : Z) (l : list Z) (offset : Z) : res Z :=
  match l with
  | [] => Err KeyError
  | p :: r => if p =? offset then Ok i else index_of (i + 1) r offset
  end.
Definition get_cluster_index_by_offset (a : carchive) (offset : Z) : res Z := index_of 0 (pl_ptrs (ca_ptrs a)) offset.

Section Codec.
Variable fuel : nat.
Context {D : Type}.
Variable dc : decomp D.
Variable new_decomp : ctype -> res D.
Context {K : Type}.
Variable new_comp : ctype -> res K.
Variable comp : K -> bytes -> res (bytes * K).
Variable flush : K -> res bytes.
Variable kd : ckind.   (* [policy.cluster_class] *)

(** [get_cluster_at], 1590-1624: the wrapper's [after_flush_or_read]
    (modifiable.py 98-117) asks for [get_initial_disk_size] (cluster.py 1315-1322),
    which is [get_total_compressed_size] of the wrapped cluster. *)
Definition get_cluster_at (a : carchive) (location : Z) : res (cobj (cluster D)) :=
  let c := w_in (wrap (inner_cluster dc new_decomp (ca_file a) fuel) (cluster_new kd location)) in
  match total_compressed dc new_decomp (ca_file a) fuel c with
  | (Ok n, c) => Ok (mkCobj (mkWrapper c None None [] [] []) n)
  | (Err e, _) => Err e
  end.
(** [get_cluster_by_index], 1626-1635. *)
Definition get_cluster_by_index (a : carchive) (i : Z) : res (cobj (cluster D)) :=
  if i <? 0 then Err AssertionError
  else do pos <- get_by_index (pl_ptrs (ca_ptrs a)) i ;; get_cluster_at a pos.

(** [remove_cluster_by_index], 1637-1666. *)
Definition remove_cluster_by_index (a : carchive) (i : Z) : res unit * carchive :=
  if i <? 0 then (Err AssertionError, a)
  else
    match (do pos <- get_by_index (pl_ptrs (ca_ptrs a)) i ;;
           do c <- get_cluster_by_index a i ;;
           do s <- mark_free (ca_alloc a) pos (co_old c) ;;
           Ok s) with
    | Err e => (Err e, a)
    | Ok s =>
        let a := ca_set_alloc s a in
        let n := zlen (pl_ptrs (ca_ptrs a)) in
        match
          (if i =? n - 1 then pl_remove_by_index i (ca_ptrs a)
           else do placeholder <- get_by_index (pl_ptrs (ca_ptrs a)) (n - 1) ;;
                pl_set i placeholder false (ca_ptrs a)) with
        | Ok p => (Ok tt, ca_set_ptrs p a)
        | Err e => (Err e, a)
        end
    end.

(** [new_cluster], 1804-1823; [EmptyCluster.get_total_compressed_size] is 5 (706). *)
Definition new_cluster : cobj (option Z) := mkCobj (wrap inner_empty None) 5.

(** ** Writing a cluster *)

(** The file after writing the chunks one after the other from [pos] on
    (the loop 1767-1773) and all its states in between. *)
Fixpoint write_chunks (f : bytes) (pos : Z) (chunks : list bytes) : bytes :=
  match chunks with
  | [] => f
  | c :: r => write_chunks (fwrite f pos c) (pos + zlen c) r
  end.
Fixpoint write_states (f : bytes) (pos : Z) (chunks : list bytes) : list bytes :=
  f :: match chunks with
       | [] => []
       | c :: r => write_states (fwrite f pos c) (pos + zlen c) r
       end.

Section Write.
Context {I : Type}.
Variable ops : cops I.

Definition wdisk (f : bytes) : M (wrapper I) Z := wdisk_size (op_inner ops f) fuel K new_comp comp flush.
Definition wwrite (f : bytes) : M (wrapper I) (list bytes) := iter_write (op_inner ops f) fuel K new_comp comp flush.
Definition co_offset (c : cobj I) : option Z := op_offset ops (w_in (co_wrap c)).
Definition co_set (w : wrapper I) (c : cobj I) : cobj I := mkCobj w (co_old c).
Definition co_move (p : Z) (c : cobj I) : cobj I :=
  let w := co_wrap c in
  mkCobj (mkWrapper (op_move ops p (w_in w)) (w_ext w) (w_comp w) (w_blobs w) (w_added w) (w_removed w)) (co_old c).

(** The first half of [write_cluster], 1738-1765: everything before the first
    chunk is written.  Result: cluster number, new offset, chunks. *)
Definition write_begin (num : option Z) (a : carchive) (c : cobj I) : res (Z * Z * list bytes) * (carchive * cobj I) :=
  if match num with Some n => n <? 0 | None => false end then (Err ValueError, (a, c))
  else
    match wdisk (ca_file a) (co_wrap c) with
    | (Err e, w) => (Err e, (a, co_set w c))
    | (Ok new_size, w) =>
        let c := co_set w c in
        match
          (match co_offset c, num with
           | None, _ => Ok (new_cluster_num a)
           | Some off, None => do n <- get_cluster_index_by_offset a off ;; Ok (n, a)
           | Some _, Some n => Ok (n, a)
           end) with
        | Err e => (Err e, (a, c))
        | Ok (n, a) =>
            match allocate (ca_alloc a) new_size with
            | Err e => (Err e, (a, c))
            | Ok (new_offset, s) =>
                let a := ca_set_alloc s a in
                match wwrite (ca_file a) (co_wrap c) with
                | (Err e, w) => (Err e, (a, co_set w c))
                | (Ok chunks, w) => (Ok (n, new_offset, chunks), (a, co_set w c))
                end
            end
        end
    end.

(** The second half, 1774-1792: the data has been written. *)
Definition write_end (n new_offset : Z) (chunks : list bytes) (a : carchive) (c : cobj I) : res Z * (carchive * cobj I) :=
  let old_offset := co_offset c in
  let old_size := co_old c in
  let a := ca_set_file (write_chunks (ca_file a) new_offset chunks) a in
  let c := co_move new_offset c in
  match pl_set n new_offset true (ca_ptrs a) with
  | Err e => (Err e, (a, c))
  | Ok p =>
      let a := ca_set_ptrs p a in
      (* [after_flush_or_read]: reset, then [get_disk_size] *)
      let c := co_set (wreset (op_inner ops (ca_file a)) (co_wrap c)) c in
      match wdisk (ca_file a) (co_wrap c) with
      | (Err e, w) => (Err e, (a, co_set w c))
      | (Ok size, w) =>
          let c := mkCobj w size in
          match old_offset with
          | None => (Ok n, (a, c))
          | Some off => match mark_free (ca_alloc a) off old_size with
                        | Ok s => (Ok n, (ca_set_alloc s a, c))
                        | Err e => (Err e, (a, c))
                        end
          end
      end
  end.

(** [write_cluster], 1717-1802. *)
Definition write_cluster (num : option Z) (a : carchive) (c : cobj I) : res Z * (carchive * cobj I) :=
  match write_begin num a c with
  | (Ok (n, new_offset, chunks), (a, c)) => write_end n new_offset chunks a c
  | (Err e, st) => (Err e, st)
  end.
End Write.
End Codec.
