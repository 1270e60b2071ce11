(** Model of [EmptyCluster] and [ModifiableClusterWrapper], cluster.py 642-1354.

    Simplifications: the wrapper is bound and mutable (dirty flags are
    modelled in Modifiable.v); generators are run to their end. *)
From Coq Require Import List ZArith Bool.
From Verif Require Import Base Dict Infobyte Blob Cluster.
Import ListNotations.
Open Scope Z_scope.

(** What the wrapper uses of the cluster it wraps. *)
Record inner (I : Type) := mkInner {
  in_empty : bool;                                   (* isinstance(_, EmptyCluster) *)
  in_attr : I -> option (ctype * bool);              (* .compression and .is_extended *)
  in_info : M I (ctype * bool);                      (* .read_infobyte_if_needed() *)
  in_reset : I -> I;
  in_blobs : M I Z;                                  (* .get_number_of_blobs() *)
  in_size : Z -> M I Z;                              (* .get_blob_size(i) *)
  in_read : Z -> option Z -> option Z -> M I bytes;  (* .read_blob(i, start, end) *)
  in_iter : Z -> Z -> option Z -> option Z -> M I (list bytes);
}.
Arguments mkInner {I}. Arguments in_empty {I}. Arguments in_attr {I}. Arguments in_info {I}. Arguments in_reset {I}.
Arguments in_blobs {I}. Arguments in_size {I}. Arguments in_read {I}. Arguments in_iter {I}.

(** A cluster read from a file as wrapped cluster. *)
Definition inner_cluster {D} (dc : Reader.decomp D) new_decomp f fuel : inner (cluster D) :=
  mkInner false cl_info (info f) reset (number_of_blobs dc new_decomp f fuel) (Cluster.blob_size dc new_decomp f fuel)
    (read_blob dc new_decomp f fuel) (iter_read_blob dc new_decomp f fuel).

(** [EmptyCluster], 642-710: no state but, once it has been written, its offset. *)
Definition inner_empty {A} : inner A :=
  mkInner true (fun _ => Some (NONE, false)) (ret (NONE, false)) (fun c => c) (ret 0)
    (fun i => if i <? 0 then raise AssertionError else raise BlobNotFound)
    (fun i _ _ => if i <? 0 then raise AssertionError else raise BlobNotFound)
    (fun i n _ _ => if (i <? 0) || (n <? 0) then raise AssertionError else raise BlobNotFound).

(** A blob source: [get_size()] and the blob [get_blob()] returns. *)
Record source := mkSource { s_size : Z; s_blob : blob }.
(** [InMemoryBlobSource] and [EmptyBlobSource], blob.py 101-132 and 222-239. *)
Definition mem_source (d : bytes) : source := mkSource (zlen d) (blob_mem d).
Definition empty_source : source := mkSource 0 BEmpty.

(** The attributes, 749-758. *)
Record wrapper (I : Type) := mkWrapper {
  w_in : I;
  w_ext : option bool;       (* _force_extension *)
  w_comp : option ctype;     (* _force_compression *)
  w_blobs : list (Z * source);
  w_added : list Z;
  w_removed : list Z;
}.
Arguments mkWrapper {I}. Arguments w_in {I}. Arguments w_ext {I}. Arguments w_comp {I}. Arguments w_blobs {I}.
Arguments w_added {I}. Arguments w_removed {I}.

(** [list.sort] *)
Fixpoint zinsert (x : Z) (l : list Z) : list Z :=
  match l with [] => [x] | y :: r => if x <=? y then x :: l else y :: zinsert x r end.
Definition zsort (l : list Z) : list Z := fold_right zinsert [] l.
(** [list.remove]: the first occurrence. *)
Fixpoint zremove (x : Z) (l : list Z) : list Z :=
  match l with [] => [] | y :: r => if y =? x then r else y :: zremove x r end.

(** [_adjust_index], 794-819. *)
Definition adjust (removed : list Z) (i : Z) : Z :=
  fold_left (fun i r => if r <=? i then i + 1 else i) removed i.

(** [range(n)] *)
Definition zrange (n : Z) : list Z := map Z.of_nat (seq 0 (Z.to_nat n)).

(** [for x in l: yield f(x)] *)
Fixpoint mmap {St A B} (g : A -> M St B) (l : list A) : M St (list B) :=
  match l with
  | [] => ret []
  | x :: r => let* y := g x in let* ys := mmap g r in ret (y :: ys)
  end.

Section Wrapper.
Context {I : Type}.
Variable ic : inner I.
Variable fuel : nat.   (* bound for the reads of one blob *)

Definition lift {A} (m : M I A) : M (wrapper I) A := fun w =>
  let '(x, c) := m (w_in w) in (x, mkWrapper c (w_ext w) (w_comp w) (w_blobs w) (w_added w) (w_removed w)).

(** [__init__], 739-761: [after_flush_or_read] resets the wrapped cluster. *)
Definition wrap (c : I) : wrapper I :=
  mkWrapper (if in_empty ic then c else in_reset ic c) None None [] [] [].

(** [reset], 763-778. *)
Definition wreset (w : wrapper I) : wrapper I :=
  if in_empty ic then w else mkWrapper (in_reset ic (w_in w)) None None [] [] [].

(** [_has_modifications], 784-792. *)
Definition has_modifications (w : wrapper I) : bool :=
  match w_blobs w, w_added w, w_removed w with [], [], [] => false | _, _, _ => true end.

(** [remove_blob], 881-914.  In the new [_blobs] no two keys coincide, as [i]
    is not one of them. *)
Definition remove_blob (i : Z) : M (wrapper I) unit := fun w =>
  if i <? 0 then (Err AssertionError, w)
  else
    let i := adjust (w_removed w) i in
    let removed := if zmem i (w_added w) then w_removed w else zsort (w_removed w ++ [i]) in
    let blobs := ddel Z.eqb i (w_blobs w) in
    let added := zremove i (w_added w) in
    let blobs := map (fun p => (if i <? fst p then fst p - 1 else fst p, snd p)) blobs in
    (Ok tt, mkWrapper (w_in w) (w_ext w) (w_comp w) blobs added removed).

(** [get_number_of_offsets], 1196-1206, and [get_number_of_blobs], 319-329. *)
Definition wnumber_of_offsets : M (wrapper I) Z :=
  let* n := lift (in_blobs ic) in
  fun w => (Ok (n - zlen (w_removed w) + zlen (w_added w) + 1), w).
Definition wnumber_of_blobs : M (wrapper I) Z :=
  let* n := wnumber_of_offsets in ret (n - 1).

(** [set_blob], 934-956. *)
Definition set_blob (i : Z) (s : source) : M (wrapper I) unit :=
  let* num := wnumber_of_blobs in
  if num <? i then raise AssertionError
  else fun w =>
    let removed := zremove i (w_removed w) in
    let added := if i =? num then w_added w ++ [i] else w_added w in
    (Ok tt, mkWrapper (w_in w) (w_ext w) (w_comp w) (dset Z.eqb i s (w_blobs w)) added removed).
(** [empty_blob], 916-932. *)
Definition empty_blob (i : Z) : M (wrapper I) unit :=
  if i <? 0 then raise AssertionError else set_blob i empty_source.
(** [append_blob], 958-972. *)
Definition append_blob (s : source) : M (wrapper I) Z :=
  let* num := wnumber_of_blobs in
  let* _ := set_blob num s in
  ret num.

(** [get_blob_size], 1168-1176. *)
Definition wblob_size (i : Z) : M (wrapper I) Z := fun w =>
  match dget Z.eqb i (w_blobs w) with
  | Some s => (Ok (s_size s), w)
  | None => lift (in_size ic (adjust (w_removed w) i)) w
  end.
(** [_iter_blob_sizes], 1021-1035. *)
Definition wsizes : M (wrapper I) (list Z) :=
  let* n := wnumber_of_blobs in mmap wblob_size (zrange n).
(** [get_content_size], 1178-1191. *)
Definition wcontent_size : M (wrapper I) Z :=
  let* l := wsizes in ret (fold_left Z.add l 0).

(** [is_extended], 1050-1085. *)
Definition wis_extended : M (wrapper I) (option bool) := fun w =>
  match w_ext w with
  | Some b => (Ok (Some b), w)
  | None =>
      if negb (has_modifications w) then (Ok (option_map snd (in_attr ic (w_in w))), w)
      else
        (let* _ := lift (in_info ic) in
         let* num_offsets := wnumber_of_offsets in
         let* sizes := wsizes in
         ret (Some (2 ^ 32 <=? fold_left Z.add sizes (4 * num_offsets)))) w
  end.
(** [struct.calcsize(self._pointer_format)], 81-96. *)
Definition wpointer_size : M (wrapper I) Z :=
  let* e := wis_extended in
  match e with Some b => ret (ptr_size b) | None => raise RuntimeErr end.
(** [is_extended = ...], 1087-1098, and [compression], 1121-1152. *)
Definition force_extension (e : option bool) (w : wrapper I) : wrapper I :=
  mkWrapper (w_in w) e (w_comp w) (w_blobs w) (w_added w) (w_removed w).
Definition force_compression (c : option ctype) (w : wrapper I) : wrapper I :=
  mkWrapper (w_in w) (w_ext w) c (w_blobs w) (w_added w) (w_removed w).
Definition wcompression (w : wrapper I) : option ctype :=
  match w_comp w with Some c => Some c | None => option_map fst (in_attr ic (w_in w)) end.

(** [get_total_offset_size], 1218-1222. *)
Definition wtotal_offset_size : M (wrapper I) Z :=
  let* p := wpointer_size in
  let* n := wnumber_of_offsets in
  ret (p * n).
(** [get_total_decompressed_size], 1193-1194. *)
Definition wtotal_decompressed_size : M (wrapper I) Z :=
  let* a := wtotal_offset_size in
  let* b := wcontent_size in
  ret (a + b).

(** The loop of [iter_blob_offsets], 1249-1264, over [l = range(...)]. *)
Fixpoint woffsets_loop (l : list Z) (numbers : option (list Z)) (num_offsets cur : Z) : M (wrapper I) (list Z) :=
  match l with
  | [] => ret []
  | i :: r =>
      let out xs := if match numbers with None => true | Some ns => zmem i ns end then cur :: xs else xs in
      if i =? num_offsets - 1 then ret (out [])
      else
        let* size := wblob_size i in
        let* xs := woffsets_loop r numbers num_offsets (cur + size) in
        ret (out xs)
  end.
(** [iter_blob_offsets], 1224-1264. *)
Definition woffsets (numbers : option (list Z)) : M (wrapper I) (list Z) :=
  let* start := wtotal_offset_size in
  let* n := wnumber_of_offsets in
  let last := match numbers with None => n | Some [] => -1 | Some ns => zmax_list ns end in
  woffsets_loop (zrange (last + 1)) numbers n start.
(** [get_offset], 1208-1216. *)
Definition wget_offset (i : Z) : M (wrapper I) Z :=
  if i <? 0 then raise IndexError
  else
    let* l := woffsets (Some [i]) in
    match l with o :: _ => ret o | [] => raise IndexError end.

Definition pure {A} (r : res A) : M (wrapper I) A := fun w => (r, w).

(** [read_blob], 1266-1284; DEFAULT_BLOB_READ = 8192. *)
Definition wread_blob (i : Z) (start stop : option Z) : M (wrapper I) bytes := fun w =>
  match dget Z.eqb i (w_blobs w) with
  | Some s =>
      (let* chunks := pure (read_all fuel 8192 (s_blob s)) in
       let data := concat chunks in
       let a := match start with Some a => a | None => 0 end in
       let b := match stop with Some b => b | None => zlen data end in
       ret (py_slice a b data)) w
  | None => lift (in_read ic (adjust (w_removed w) i) start stop) w
  end.

(** The loop of [iter_read_blob], 1295-1310, over what was read. *)
Fixpoint witer_chunks (start stop cur : Z) (l : list bytes) : list bytes :=
  match l with
  | [] => []
  | x :: r =>
      let n := zlen x in
      let rest := witer_chunks start stop (cur + n) r in
      if cur + n <? start then rest
      else if stop <=? cur then rest
      else py_slice (Z.max 0 (start - cur)) (Z.min n (stop - cur)) x :: rest
  end.
(** [iter_read_blob], 1286-1313. *)
Definition witer_read_blob (i buffersize : Z) (start stop : option Z) : M (wrapper I) (list bytes) := fun w =>
  match dget Z.eqb i (w_blobs w) with
  | Some s =>
      (let* chunks := pure (read_all fuel buffersize (s_blob s)) in
       let a := match start with Some a => a | None => 0 end in
       let b := match stop with Some b => b | None => Blob.blob_size (s_blob s) end in
       ret (witer_chunks a b 0 chunks)) w
  | None => lift (in_iter ic (adjust (w_removed w) i) buffersize start stop) w
  end.

(** The offsets written by [_iter_write_raw], 996-1004. *)
Fixpoint pack_offsets (psize : nat) (cur : Z) (sizes : list Z) : res bytes :=
  match sizes with
  | [] => pack_le psize cur
  | n :: r =>
      do a <- pack_le psize cur ;;
      do b <- pack_offsets psize (cur + n) r ;;
      Ok (a ++ b)
  end.
(** One blob, 1006-1019: the chunks yielded for it. *)
Definition raw_blob (i : Z) : M (wrapper I) (list bytes) := fun w =>
  match dget Z.eqb i (w_blobs w) with
  | Some s => (read_all fuel 8192 (s_blob s), w)
  | None => (let* b := lift (in_read ic (adjust (w_removed w) i) None None) in ret [b]) w
  end.
(** [_iter_write_raw], 989-1019.  Simplification: the pointer format is
    determined once; the code determines it again for every pointer. *)
Definition iter_write_raw : M (wrapper I) (list bytes) :=
  let* start := wtotal_offset_size in
  let* sizes := wsizes in
  let* psize := wpointer_size in
  let* offsets := pure (pack_offsets (Z.to_nat psize) start sizes) in
  let* n := wnumber_of_blobs in
  let* blobs := mmap raw_blob (zrange n) in
  ret (offsets :: concat blobs).

(** Compressors: [compress(chunk)] and [flush()]. *)
Variable K : Type.
Variable new_comp : ctype -> res K.
Variable comp : K -> bytes -> res (bytes * K).
Variable flush : K -> res bytes.

Fixpoint compress_all (k : K) (chunks : list bytes) : res (list bytes) :=
  match chunks with
  | [] => do x <- flush k ;; Ok [x]
  | c :: r => do xk <- comp k c ;; do xs <- compress_all (snd xk) r ;; Ok (fst xk :: xs)
  end.

(** [generate_infobyte], 152-162. *)
Definition winfobyte : M (wrapper I) byte :=
  let* e := wis_extended in
  fun w =>
    match e, wcompression w with
    | Some e, Some c => (generate_infobyte c e, w)
    | _, _ => (Err AttributeError, w)
    end.

(** [iter_write], 974-987. *)
Definition iter_write : M (wrapper I) (list bytes) :=
  let* _ := lift (in_info ic) in
  let* b := winfobyte in
  let* k := fun w => (match wcompression w with Some c => new_comp c | None => Err CompressionErr end, w) in
  let* chunks := iter_write_raw in
  let* out := pure (compress_all k chunks) in
  ret ([b] :: out).
(** [get_disk_size], 1324-1329. *)
Definition wdisk_size : M (wrapper I) Z :=
  let* l := iter_write in ret (zlen (concat l)).
End Wrapper.
