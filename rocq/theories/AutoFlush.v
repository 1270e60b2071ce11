(** Model of the cluster cache of a writable archive and of the automatic
    flush: archive.py 492-545 ([close], [flush]), 718-739
    ([_on_cluster_cache_leave]), 1590-1635 (getting clusters), 1717-1823
    (writing and new clusters), with [policy.autoflush] and a
    [LastAccessCache] of clusters as [policy.py] has them by default (86, 150-153).

    Simplifications:
    - what a cluster is on disk is its list of blobs; the bytes, the compression
      and the disjointness of the space are the subject of ArchiveCluster.v
      (C43-C45).  The file maps the offset of each stored cluster to its blobs;
    - [spaceallocator.allocate] is a parameter [place] that chooses an offset
      that is not in use (C37); freed offsets may be chosen again;
    - the cache is the list of C31, which [LastAccessCache] refines: keys are
      offsets, values are cluster objects;
    - the archive starts at offset 0 of the file and has no processors;
    - what [flush] does after clearing the cluster cache (Flush.v) is reduced to
      writing the cluster pointer list. *)
From Coq Require Import List ZArith Bool.
From Verif Require Import Base Dict Cache CacheSpec Cluster ClusterWrapperSpec PointerList SpaceAllocator ArchiveCluster.
Import ListNotations.
Open Scope Z_scope.

(** A [ModifiableClusterWrapper], cluster.py 712-761: whether it wraps an
    [EmptyCluster], [offset], the blobs that were set since the last
    [after_flush_or_read] (the latest last) and [dirty].  Blobs that were not set
    are read from the file when they are needed. *)
Record object := mkObject { o_new : bool; o_offset : option Z; o_mods : list (Z * bytes); o_dirty : bool }.

(** The archive: stored clusters, [_cluster_pointer_list] in memory and as
    last written to the file, [_cluster_num], all cluster objects ever made (by
    identity) and [cluster_cache]. *)
Record state := mkState {
  s_disk : list (Z * list bytes);
  s_ptrs : plist;
  s_saved : list Z;
  s_next : Z;
  s_heap : list object;
  s_cache : list (Z * nat) }.
Definition set_disk x s := mkState x (s_ptrs s) (s_saved s) (s_next s) (s_heap s) (s_cache s).
Definition set_ptrs x s := mkState (s_disk s) x (s_saved s) (s_next s) (s_heap s) (s_cache s).
Definition set_saved x s := mkState (s_disk s) (s_ptrs s) x (s_next s) (s_heap s) (s_cache s).
Definition set_next x s := mkState (s_disk s) (s_ptrs s) (s_saved s) x (s_heap s) (s_cache s).
Definition set_heap x s := mkState (s_disk s) (s_ptrs s) (s_saved s) (s_next s) x (s_cache s).
Definition set_cache x s := mkState (s_disk s) (s_ptrs s) (s_saved s) (s_next s) (s_heap s) x.

(** [dict]-like access to the file. *)
Definition stored_at (d : list (Z * list bytes)) (p : Z) : option (list bytes) := dget Z.eqb p d.

(** The blobs an object delivers, cluster.py 1196-1312: those that were set, the
    others from where the cluster is stored. *)
Definition apply_mods (base : list bytes) (mods : list (Z * bytes)) : list bytes :=
  fold_left (fun b m => replace_at (fst m) (snd m) b) mods base.
Definition contents (d : list (Z * list bytes)) (o : object) : res (list bytes) :=
  if o_new o then Ok (apply_mods [] (o_mods o))
  else match o_offset o with
       | Some p => match stored_at d p with Some b => Ok (apply_mods b (o_mods o)) | None => Err IOErr end
       | None => Err RuntimeErr
       end.

(** Access to the object with this identity. *)
Definition deref (id : nat) : M state object := fun s =>
  match nth_error (s_heap s) id with Some o => (Ok o, s) | None => (Err RuntimeErr, s) end.
Definition assign (id : nat) (o : object) : M state unit := fun s => (Ok tt, set_heap (list_set (s_heap s) id o) s).
Definition alloc_object (o : object) : M state nat := fun s => (Ok (length (s_heap s)), set_heap (s_heap s ++ [o]) s).
Definition read_object (o : object) : M state (list bytes) := fun s => (contents (s_disk s) o, s).

Section Policy.
Variable size : Z.                              (* [max_size] of the cache *)
Variable place : list Z -> list bytes -> Z.     (* where to put a cluster: the offsets in use, the cluster *)

(** One call of the cache; the element that has to be passed to [on_leave]. *)
Definition cache_call (op : cop Z nat) : M state (option (Z * nat)) := fun s =>
  match lru_spec Z.eqb true size (s_cache s) op with
  | (r, evs, Ok _) => (Ok match evs with e :: _ => Some (lv_key e, lv_val e) | [] => None end, set_cache r s)
  | (r, _, Err e) => (Err e, set_cache r s)
  end.

(** [get_cluster_index_by_offset], 1698-1715. *)
Definition index_by_offset (p : Z) : M state Z := fun s => (index_of 0 (pl_ptrs (s_ptrs s)) p, s).

(** [_on_cluster_cache_leave], 718-739, around [write_cluster]. *)
Definition on_leave (write : option Z -> nat -> M state Z) (gone : option (Z * nat)) : M state unit :=
  match gone with
  | None => ret tt
  | Some (offset, id) =>
      let* o := deref id in
      if o_dirty o then
        let* n := index_by_offset offset in
        let* _ := write (Some n) id in ret tt
      else ret tt
  end.

(** The number of the cluster, 1754-1760. *)
Definition number_of (num : option Z) (o : object) : M state Z :=
  match o_offset o, num with
  | None, _ => fun s => (Ok (s_next s), set_next (s_next s + 1) s)
  | Some p, None => index_by_offset p
  | Some _, Some n => ret n
  end.
(** Allocation and the data, 1767-1780. *)
Definition store (b : list bytes) : M state Z := fun s =>
  let q := place (map fst (s_disk s)) b in (Ok q, set_disk ((q, b) :: s_disk s) s).
(** The cache forgets the old place, 1782-1783. *)
Definition forget (old : option Z) (q : Z) : M state unit :=
  match old with
  | Some p => if q =? p then ret tt else let* _ := cache_call (CRemove p false) in ret tt
  | None => ret tt    (* no element has the key None *)
  end.
(** 1786-1789; [reset] does nothing if an [EmptyCluster] is wrapped (cluster.py
    763-778). *)
Definition settle (id : nat) (n q : Z) : M state unit :=
  let* o := deref id in
  let* _ := assign id (mkObject (o_new o) (Some q) (o_mods o) (o_dirty o)) in
  let* _ := (fun s => match pl_set n q true (s_ptrs s) with Ok p => (Ok tt, set_ptrs p s) | Err e => (Err e, s) end) in
  assign id (mkObject (o_new o) (Some q) (if o_new o then o_mods o else []) false).
(** 1791-1792 *)
Definition release (old : option Z) : M state unit := fun s =>
  match old with Some p => (Ok tt, set_disk (del Z.eqb p (s_disk s)) s) | None => (Ok tt, s) end.

(** [write_cluster], 1717-1802; [depth] bounds how deep the calls nest. *)
Fixpoint write_cluster (depth : nat) (num : option Z) (id : nat) {struct depth} : M state Z :=
  match depth with
  | O => raise Diverge
  | S depth =>
      let* o := deref id in
      let* b := read_object o in
      let* n := number_of num o in
      let* q := store b in
      let* _ := forget (o_offset o) q in
      let* gone := cache_call (CPush q id true) in
      let* _ := on_leave (write_cluster depth) gone in
      let* _ := settle id n q in
      let* _ := release (o_offset o) in
      ret n
  end.

Variable depth : nat.

(** [get_cluster_by_index] and [get_cluster_at], 1590-1635.  The new object reads
    its size from the file when it is made (cluster.py 759-761). *)
Definition get_cluster_by_index (i : Z) : M state nat :=
  if i <? 0 then raise AssertionError
  else
    let* pos := (fun s => (get_by_index (pl_ptrs (s_ptrs s)) i, s)) in
    let* cached := (fun s => (Ok (dget Z.eqb pos (s_cache s)), s)) in
    match cached with
    | Some id => let* _ := cache_call (CGet pos) in ret id
    | None =>
        let o := mkObject false (Some pos) [] false in
        let* _ := read_object o in
        let* id := alloc_object o in
        let* gone := cache_call (CPush pos id true) in
        let* _ := on_leave (write_cluster depth) gone in
        ret id
    end.

(** [set_blob], cluster.py 934-956. *)
Definition set_blob (id : nat) (j : Z) (d : bytes) : M state unit :=
  let* o := deref id in
  let* b := read_object o in
  if zlen b <? j then raise AssertionError
  else assign id (mkObject (o_new o) (o_offset o) (o_mods o ++ [(j, d)]) true).
(** [append_blob], cluster.py 958-972. *)
Definition append_blob (id : nat) (d : bytes) : M state unit :=
  let* o := deref id in
  let* b := read_object o in
  set_blob id (zlen b) d.
(** [read_blob], cluster.py 1266-1284. *)
Definition read_blob (id : nat) (j : Z) : M state bytes :=
  let* o := deref id in
  let* b := read_object o in
  match znth b j with Some d => ret d | None => raise BlobNotFound end.
(** [flush] of a cluster, cluster.py 1037-1046. *)
Definition flush_cluster (id : nat) : M state unit :=
  let* o := deref id in
  if o_dirty o then let* _ := write_cluster depth None id in ret tt else ret tt.

(** [new_cluster], 1804-1823. *)
Definition new_cluster : M state nat := alloc_object (mkObject true None [] false).

(** The calls of [on_leave] by [clear], cache.py 479-490. *)
Fixpoint leave_all (l : list (Z * nat)) : M state unit :=
  match l with
  | [] => ret tt
  | e :: r => let* _ := on_leave (write_cluster depth) (Some e) in leave_all r
  end.
(** [flush], 517-545 and 569-689. *)
Definition flush_archive : M state unit :=
  let* l := (fun s => (Ok (s_cache s), set_cache [] s)) in
  let* _ := leave_all l in
  fun s =>
    if pl_dirty (s_ptrs s) then
      let p := s_ptrs s in
      (Ok tt, set_saved (pl_ptrs p) (set_ptrs (mkPlist (pl_ptrs p) false (pl_mutable p) (pl_old_size p)) s))
    else (Ok tt, s).
(** [close], 490-506. *)
Definition close_archive : M state unit := fun s =>
  if pl_dirty (s_ptrs s) then flush_archive s else (Ok tt, s).

(** ** What a user does *)
(** [entry.set_content(d)] for an entry with cluster [i] and blob [j]
    (entry.py 830-855), the same followed by [.flush()], [entry.read()], and
    [add_item]'s new cluster with these blobs (compressionstrategy.py 117-134). *)
Definition set_content (i j : Z) (d : bytes) : M state unit :=
  let* id := get_cluster_by_index i in set_blob id j d.
Definition set_content_flush (i j : Z) (d : bytes) : M state unit :=
  let* id := get_cluster_by_index i in
  let* _ := set_blob id j d in
  flush_cluster id.
Definition read_content (i j : Z) : M state bytes :=
  let* id := get_cluster_by_index i in read_blob id j.
Fixpoint append_all (id : nat) (l : list bytes) : M state unit :=
  match l with
  | [] => ret tt
  | d :: r => let* _ := append_blob id d in append_all id r
  end.
Definition add_cluster (l : list bytes) : M state Z :=
  let* id := new_cluster in
  let* _ := append_all id l in
  write_cluster depth None id.
End Policy.

(** Opening the file: nothing is cached. *)
Definition opened (s : state) : state :=
  mkState (s_disk s) (mkPlist (s_saved s) false true (8 * zlen (s_saved s))) (s_saved s) (zlen (s_saved s)) [] [].
