(** Model of the clusters that are read from a file: [Cluster],
    [OffsetRememberingCluster] and [InMemoryCluster], cluster.py 15-639.

    Simplifications: the cluster is bound to an archive and knows its offset
    (unbound clusters raise BindRequired everywhere); generators are run to
    their end; the archive's file lock is held by the running call, so the file
    position is only touched by it (between calls others may move it). *)
From Coq Require Import List ZArith Bool.
From Verif Require Import Base Infobyte Reader.
Import ListNotations.
Open Scope Z_scope.

(** State passing with exceptions: the state survives an exception. *)
Definition M (St A : Type) := St -> res A * St.
Definition ret {St A} (a : A) : M St A := fun s => (Ok a, s).
Definition raise {St A} (e : exn) : M St A := fun s => (Err e, s).
Definition mbind {St A B} (m : M St A) (k : A -> M St B) : M St B :=
  fun s => match m s with (Ok a, s) => k a s | (Err e, s) => (Err e, s) end.
Notation "'let*' x := m 'in' k" := (mbind m (fun x => k))
  (at level 200, x pattern, m at level 100, k at level 200, right associativity).

(** Python's [l[a:b]]. *)
Definition py_slice {A} (a b : Z) (l : list A) : list A :=
  let fix_ i := if i <? 0 then Z.max 0 (i + zlen l) else i in
  zsub (fix_ a) (fix_ b - fix_ a) l.

(** [x in numbers] *)
Definition zmem (x : Z) (l : list Z) : bool := existsb (Z.eqb x) l.
(** [max(numbers)] of a non-empty tuple *)
Definition zmax_list (l : list Z) : Z := fold_right Z.max (hd 0 l) l.

(** Which class: 15, 521 or 556. *)
Inductive ckind := KPlain | KRemembering | KInMemory.

(** The attributes: 47-52, 531, 563.  [cl_info] holds [compression] and
    [is_extended], which are set together. *)
Record cluster (D : Type) := mkCluster {
  cl_kind : ckind;
  cl_offset : Z;
  cl_info : option (ctype * bool);
  cl_reader : option (reader D);
  cl_offsets : option (list Z);
  cl_data : option bytes;
}.
Arguments mkCluster {D}. Arguments cl_kind {D}. Arguments cl_offset {D}. Arguments cl_info {D}.
Arguments cl_reader {D}. Arguments cl_offsets {D}. Arguments cl_data {D}.

(** [struct.calcsize(self._pointer_format)], 81-96. *)
Definition ptr_size (ext : bool) : Z := if ext then 8 else 4.

Section Cluster.
Context {D : Type}.
Variable dc : decomp D.
(** [CompressionRegistry.get(c).get_decompressor(...)], 177-188. *)
Variable new_decomp : ctype -> res D.
Variable f : bytes.      (* contents of the file *)
Variable fuel : nat.     (* bound for the loops over offsets and chunks *)

Definition cluster_new (k : ckind) (offset : Z) : cluster D := mkCluster k offset None None None None.
Definition set_info i (c : cluster D) : cluster D := mkCluster (cl_kind c) (cl_offset c) i (cl_reader c) (cl_offsets c) (cl_data c).
Definition set_reader r (c : cluster D) : cluster D := mkCluster (cl_kind c) (cl_offset c) (cl_info c) r (cl_offsets c) (cl_data c).
Definition set_offsets o (c : cluster D) : cluster D := mkCluster (cl_kind c) (cl_offset c) (cl_info c) (cl_reader c) o (cl_data c).
Definition set_data d (c : cluster D) : cluster D := mkCluster (cl_kind c) (cl_offset c) (cl_info c) (cl_reader c) (cl_offsets c) d.

(** [reset], 54-60, 533-535, 565-567.  The reader is kept. *)
Definition reset (c : cluster D) : cluster D :=
  match cl_kind c with
  | KPlain => set_info None c
  | KRemembering => set_info None (set_offsets None c)
  | KInMemory => set_info None (set_offsets None (set_data None c))
  end.

(** [read_infobyte], 98-113, and [read_infobyte_if_needed], 144-150; returns the attributes. *)
Definition info : M (cluster D) (ctype * bool) := fun c =>
  match cl_info c with
  | Some i => (Ok i, c)
  | None =>
      match zsub (cl_offset c) 1 f with
      | b :: _ => match parse_infobyte b with
                  | Ok i => (Ok i, set_info (Some i) c)
                  | Err e => (Err e, c)
                  end
      | [] => (Err IOErr, c)
      end
  end.

(** [_get_decompressing_reader], 190-226, around the body [k]. *)
Definition with_reader {A} (offset : Z) (k : reader D -> res A * reader D) : M (cluster D) A := fun c =>
  if offset <? 0 then (Err AssertionError, c)
  else
    match info c with
    | (Err e, c) => (Err e, c)
    | (Ok (ct, _), c) =>
        let go r :=
          match skip_to dc f offset r with
          | (Err e, r) => (Err e, set_reader (Some r) c)
          | (Ok _, r) => let '(x, r) := k r in (x, set_reader (Some r) c)
          end in
        let fresh :=
          match new_decomp ct with
          | Err e => (Err e, c)
          | Ok d => go (reader_new d (cl_offset c + 1))
          end in
        match cl_reader c with
        | Some r => if r_out r <=? offset then go (reseek (cl_offset c + 1) r) else fresh
        | None => fresh
        end
    end.

(** The loop of [iter_blob_offsets], 262-279. *)
Fixpoint offsets_loop (n : nat) (psize : Z) (numbers : option (list Z)) (last : option Z)
    (first : option Z) (n_read i : Z) (r : reader D) : res (list Z) * reader D :=
  match n with
  | O => (Err Diverge, r)
  | S n =>
      if (match first with None => true | Some v => n_read + 1 <=? v end)
         && (match last with None => true | Some v => i <=? v end) then
        match read_n dc f psize r with
        | (Err e, r) => (Err e, r)
        | (Ok raw, r) =>
            if zlen raw =? psize then
              let off := le_val raw in
              match offsets_loop n psize numbers last (Some (match first with None => off | Some v => v end))
                      (n_read + zlen raw) (i + 1) r with
              | (Err e, r) => (Err e, r)
              | (Ok l, r) =>
                  (Ok (if match numbers with None => true | Some ns => zmem i ns end then off :: l else l), r)
              end
            else (Err StructError, r)
        end
      else (Ok [], r)
  end.

(** [Cluster.iter_blob_offsets], 228-279. *)
Definition plain_offsets (numbers : option (list Z)) : M (cluster D) (list Z) :=
  let* i := info in
  let psize := ptr_size (snd i) in
  match numbers with
  | Some [] => ret []
  | _ =>
      let last := match numbers with Some ns => Some (zmax_list ns) | None => None end in
      with_reader 0 (fun r => offsets_loop fuel psize numbers last None 0 0 r)
  end.

(** [enumerate(offsets)] filtered by number, 549-553. *)
Fixpoint select_offsets (i : Z) (numbers : option (list Z)) (l : list Z) : list Z :=
  match l with
  | [] => []
  | o :: r =>
      if match numbers with None => true | Some ns => zmem i ns end
      then o :: select_offsets (i + 1) numbers r else select_offsets (i + 1) numbers r
  end.

(** [_read_offsets_if_needed], 537-544. *)
Definition remembered : M (cluster D) (list Z) := fun c =>
  match cl_offsets c with
  | Some l => (Ok l, c)
  | None =>
      match plain_offsets None c with
      | (Ok l, c) => (Ok l, set_offsets (Some l) c)
      | (Err e, c) => (Err e, c)
      end
  end.

(** [iter_blob_offsets] of the three classes, 228-279 and 546-553. *)
Definition blob_offsets (numbers : option (list Z)) : M (cluster D) (list Z) := fun c =>
  match cl_kind c with
  | KPlain => plain_offsets numbers c
  | _ => (let* l := remembered in ret (select_offsets 0 numbers l)) c
  end.

(** [get_offset], 281-300. *)
Definition get_offset (i : Z) : M (cluster D) Z :=
  if i <? 0 then raise IndexError
  else
    let* l := blob_offsets (Some [i]) in
    match l with o :: _ => ret o | [] => raise IndexError end.

(** The extension attribute as [_pointer_format] sees it, 81-96. *)
Definition pointer_size : M (cluster D) Z := fun c =>
  match cl_info c with Some (_, ext) => (Ok (ptr_size ext), c) | None => (Err RuntimeErr, c) end.

(** [get_number_of_offsets], 302-317, and [get_number_of_blobs], 319-329. *)
Definition number_of_offsets : M (cluster D) Z :=
  let* o := get_offset 0 in
  let* p := pointer_size in
  ret (o / p).
Definition number_of_blobs : M (cluster D) Z :=
  let* n := number_of_offsets in ret (n - 1).

(** [get_content_size], 331-348. *)
Definition content_size : M (cluster D) Z :=
  let* a := get_offset 0 in
  let* n := number_of_offsets in
  let* l := get_offset (n - 1) in
  ret (l - a).
(** [get_total_decompressed_size], 350-366. *)
Definition total_decompressed_size : M (cluster D) Z :=
  let* n := number_of_offsets in get_offset (n - 1).
(** [get_total_offset_size], 368-375. *)
Definition total_offset_size : M (cluster D) Z :=
  let* n := number_of_offsets in
  let* p := pointer_size in
  ret (n * p).
(** [get_total_compressed_size], 377-406; [iter_read()] reads with a buffer of
    4096 bytes. *)
Definition total_compressed : M (cluster D) Z :=
  let* i := info in
  if ctype_eqb (fst i) NONE then let* n := total_decompressed_size in ret (n + 1)
  else
    with_reader 0 (fun r =>
      match iter_read dc f fuel (-1) 4096 r with
      | (Err e, r) => (Err e, r)
      | (Ok _, r) => match total_compressed_size dc r with
                     | Ok n => (Ok (n + 1), r)
                     | Err e => (Err e, r)
                     end
      end).

(** [get_blob_size], 408-426. *)
Definition blob_size (i : Z) : M (cluster D) Z :=
  if i <? 0 then raise AssertionError
  else
    let* l := blob_offsets (Some [i; i + 1]) in
    match l with a :: b :: _ => ret (b - a) | _ => raise BlobNotFound end.

(** The checks of the arguments, 450-453. *)
Definition range_ok (start stop : option Z) : bool :=
  match start with Some a => 0 <=? a | None => true end
  && match stop with Some b => 0 <=? b | None => true end
  && match start, stop with Some a, Some b => a <=? b | _, _ => true end.
(** The early exit, 462: [start] is compared with the absolute end. *)
Definition nothing_to_read (start stop : option Z) (range_end : Z) : bool :=
  match start, stop with Some a, Some b => (range_end <=? a) || (a =? b) | _, _ => false end.
(** 464-467: the absolute range. *)
Definition abs_range (start stop : option Z) (a b : Z) : Z * Z :=
  (match start with Some s => a + s | None => a end,
   match stop with Some e => Z.min (a + e) b | None => b end).

(** [Cluster.read_blob], 428-470. *)
Definition plain_read_blob (i : Z) (start stop : option Z) : M (cluster D) bytes :=
  if (i <? 0) || negb (range_ok start stop) then raise AssertionError
  else
    let* l := blob_offsets (Some [i; i + 1]) in
    match l with
    | [a; b] =>
        if nothing_to_read start stop b then ret []
        else
          let '(s, e) := abs_range start stop a b in
          with_reader s (read_n dc f (e - s))
    | _ => raise BlobNotFound
    end.

(** [Cluster.iter_read_blob], 472-518. *)
Definition plain_iter_read_blob (i buffersize : Z) (start stop : option Z) : M (cluster D) (list bytes) :=
  if (buffersize <=? 0) || (i <? 0) || negb (range_ok start stop) then raise AssertionError
  else
    let* l := blob_offsets (Some [i; i + 1]) in
    match l with
    | [a; b] =>
        if nothing_to_read start stop b then ret [[]]
        else
          let '(s, e) := abs_range start stop a b in
          with_reader s (iter_read dc f fuel (e - s) buffersize)
    | _ => raise BlobNotFound
    end.

(** [InMemoryCluster._read_if_needed], 569-591. *)
Definition mem_data : M (cluster D) bytes := fun c =>
  match cl_data c with
  | Some d => (Ok d, c)
  | None =>
      match (let* _ := info in
             let* _ := remembered in
             let* n := content_size in
             let* o := get_offset 0 in
             with_reader o (read_n dc f n)) c with
      | (Ok d, c) => (Ok d, set_data (Some d) c)
      | (Err e, c) => (Err e, c)
      end
  end.

(** [InMemoryCluster.read_blob], 593-611. *)
Definition mem_read_blob (i : Z) (start stop : option Z) : M (cluster D) bytes :=
  if i <? 0 then raise AssertionError
  else
    let* data := mem_data in
    let* l := blob_offsets (Some [i; i + 1]) in
    match l with
    | [a; b] =>
        if nothing_to_read start stop b then ret []
        else
          let '(s, e) := abs_range start stop a b in
          let* corr := total_offset_size in
          ret (py_slice (s - corr) (e - corr) data)
    | _ => raise BlobNotFound
    end.

(** The loop of [InMemoryCluster.iter_read_blob], 635-639. *)
Fixpoint mem_chunks (n : nat) (buffersize cur stop : Z) (data : bytes) : res (list bytes) :=
  match n with
  | O => Err Diverge
  | S n =>
      if cur <? stop then
        let cur_end := Z.min (cur + buffersize) stop in
        do xs <- mem_chunks n buffersize cur_end stop data ;; Ok (py_slice cur cur_end data :: xs)
      else Ok []
  end.
(** [InMemoryCluster.iter_read_blob], 613-639. *)
Definition mem_iter_read_blob (i buffersize : Z) (start stop : option Z) : M (cluster D) (list bytes) :=
  if (i <? 0) || (buffersize <=? 0) then raise AssertionError
  else
    let* data := mem_data in
    let* l := blob_offsets (Some [i; i + 1]) in
    match l with
    | [a; b] =>
        if nothing_to_read start stop b then ret []
        else
          let '(s, e) := abs_range start stop a b in
          let* corr := total_offset_size in
          fun c => (mem_chunks fuel buffersize (s - corr) (e - corr) data, c)
    | _ => raise BlobNotFound
    end.

Definition read_blob (i : Z) (start stop : option Z) : M (cluster D) bytes := fun c =>
  match cl_kind c with KInMemory => mem_read_blob i start stop c | _ => plain_read_blob i start stop c end.
Definition iter_read_blob (i buffersize : Z) (start stop : option Z) : M (cluster D) (list bytes) := fun c =>
  match cl_kind c with
  | KInMemory => mem_iter_read_blob i buffersize start stop c
  | _ => plain_iter_read_blob i buffersize start stop c
  end.
End Cluster.
