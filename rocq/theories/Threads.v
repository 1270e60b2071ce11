(** Several threads reading from one archive: the file lock
    [Zim.filelock] (archive.py 125, a [threading.Lock], which a thread cannot
    take twice), [Zim.acquire_file] (708-716) and the clusters of cluster.py as
    programs whose single steps may be interleaved.

    A step is one access to something the threads share: an attribute of a
    cluster object is read or written, the file is moved or read, a method of
    the decompressing reader is called, the lock is taken or released.
    Simplifications: the file does not change and is not closed; the clusters are bound and know
    their offset; a method of the reader is one step (it is called with the lock
    held); the local variable [reader] of 204-226 is the attribute
    [_decompressing_reader], which is only changed with the lock held; offsets
    are read by one step, i.e. [iter_blob_offsets] is run to its end or dropped
    at once (as its callers 281-300, 419, 455, 500 do; a dropped generator is closed at
    once by the reference counting of CPython); a generator is used by one thread. *)
From Coq Require Import List ZArith Bool.
From Verif Require Import Base Infobyte Reader Cluster ClusterSpec.
Import ListNotations.
Open Scope Z_scope.

(** The attributes of a cluster object: 47-52, 531, 563.  [compression] and
    [is_extended] are set one after the other.  The position of the file kept
    in the reader's record is not used here. *)
Record cell (D : Type) := mkCell {
  ce_comp : option ctype;
  ce_ext : option bool;
  ce_reader : option (reader D);
  ce_offsets : option (list Z);
  ce_data : option bytes;
}.
Arguments mkCell {D}. Arguments ce_comp {D}. Arguments ce_ext {D}. Arguments ce_reader {D}.
Arguments ce_offsets {D}. Arguments ce_data {D}.
(** What the threads share: the position of the file and the cluster objects. *)
Record shared (D : Type) := mkShared { sh_pos : Z; sh_cell : nat -> cell D }.
Arguments mkShared {D}. Arguments sh_pos {D}. Arguments sh_cell {D}.

(** ** Programs *)
(** [Act k g]: one step; the new state [g s] and the rest [k s] depend on the
    state [s] found.  [Yield x held p]: a generator hands out [x] and waits;
    [held] says whether closing it there releases the lock. *)
Inductive prog (St A : Type) : Type :=
| Ret (r : res A)
| Act (k : St -> prog St A) (g : St -> St)
| Acquire (p : prog St A)
| Release (p : prog St A)
| Yield (x : bytes) (held : bool) (p : prog St A).
Arguments Ret {St A}. Arguments Act {St A}. Arguments Acquire {St A}. Arguments Release {St A}. Arguments Yield {St A}.

(** Continue with the result or the exception of [p]. *)
Fixpoint pthen {St A B} (p : prog St A) (k : res A -> prog St B) : prog St B :=
  match p with
  | Ret r => k r
  | Act c g => Act (fun s => pthen (c s) k) g
  | Acquire p => Acquire (pthen p k)
  | Release p => Release (pthen p k)
  | Yield x h p => Yield x h (pthen p k)
  end.
(** Exceptions go through. *)
Definition pbind {St A B} (p : prog St A) (k : A -> prog St B) : prog St B :=
  pthen p (fun r => match r with Ok a => k a | Err e => Ret (Err e) end).
Definition pret {St A} (a : A) : prog St A := Ret (Ok a).
Definition praise {St A} (e : exn) : prog St A := Ret (Err e).
Definition get {St A} (g : St -> A) : prog St A := Act (fun s => Ret (Ok (g s))) (fun s => s).
Definition put {St} (g : St -> St) : prog St unit := Act (fun _ => Ret (Ok tt)) g.
Notation "'let!' x := m 'in' k" := (pbind m (fun x => k))
  (at level 200, x pattern, m at level 100, k at level 200, right associativity).

(** The end of a [with] block on the lock: it is released after a result, an
    exception, and when a generator suspended in the block is closed. *)
Fixpoint finally {St A} (p : prog St A) : prog St A :=
  match p with
  | Ret r => Release (Ret r)
  | Act c g => Act (fun s => finally (c s)) g
  | Acquire p => Acquire (finally p)
  | Release p => Release (finally p)
  | Yield x _ p => Yield x true (finally p)
  end.
(** [with self.zim.acquire_file() as fin:], archive.py 708-716. *)
Definition locked {St A} (p : prog St A) : prog St A := Acquire (finally p).

(** A generator run to its end by its caller, e.g. [list(generator)]. *)
Fixpoint drain {St} (p : prog St unit) : prog St (list bytes) :=
  match p with
  | Ret (Ok _) => Ret (Ok [])
  | Ret (Err e) => Ret (Err e)
  | Act c g => Act (fun s => drain (c s)) g
  | Acquire p => Acquire (drain p)
  | Release p => Release (drain p)
  | Yield x _ p => let! l := drain p in pret (x :: l)
  end.

(** What a thread gets: the answer to a call, a chunk, StopIteration, an
    exception of a generator, nothing. *)
Inductive got := GAns (a : cans) | GChunk (x : bytes) | GStop | GRaise (e : exn) | GNothing.

(** [next]: run up to the next chunk or the end; a generator that has ended
    raises StopIteration from then on. *)
Fixpoint resume {St A} (p : prog St unit) (k : got -> bool * prog St unit -> prog St A) : prog St A :=
  match p with
  | Ret (Ok _) => k GStop (false, Ret (Ok tt))
  | Ret (Err e) => k (GRaise e) (false, Ret (Ok tt))
  | Act c g => Act (fun s => resume (c s) k) g
  | Acquire p => Acquire (resume p k)
  | Release p => Release (resume p k)
  | Yield x h p => k (GChunk x) (h, p)
  end.

(** ** Clusters as programs *)
Section ClusterPrograms.
Context {D : Type}.
Variable dc : decomp D.
Variable new_decomp : ctype -> res D.
Variable f : bytes.
Variable fuel : nat.
Variable kind : nat -> ckind.     (* the class of each cluster object *)
Variable offset : nat -> Z.       (* its attribute [offset] *)
Notation P := (prog (shared D)).

Definition upd_cell (k : nat) (g : cell D -> cell D) (s : shared D) : shared D :=
  mkShared (sh_pos s) (fun j => if Nat.eqb j k then g (sh_cell s k) else sh_cell s j).
Definition with_comp v (c : cell D) : cell D := mkCell v (ce_ext c) (ce_reader c) (ce_offsets c) (ce_data c).
Definition with_ext v (c : cell D) : cell D := mkCell (ce_comp c) v (ce_reader c) (ce_offsets c) (ce_data c).
Definition with_rdr v (c : cell D) : cell D := mkCell (ce_comp c) (ce_ext c) v (ce_offsets c) (ce_data c).
Definition with_offs v (c : cell D) : cell D := mkCell (ce_comp c) (ce_ext c) (ce_reader c) v (ce_data c).
Definition with_data v (c : cell D) : cell D := mkCell (ce_comp c) (ce_ext c) (ce_reader c) (ce_offsets c) v.
(** [f.seek(p)] *)
Definition seek (p : Z) (s : shared D) : shared D := mkShared p (sh_cell s).

(** [did_read_infobyte], 134-142: the second attribute is only looked at if the
    first is set. *)
Definition p_known (k : nat) : P bool :=
  let! c := get (fun s => ce_comp (sh_cell s k)) in
  match c with
  | None => pret false
  | Some _ =>
      let! e := get (fun s => ce_ext (sh_cell s k)) in
      pret (match e with None => false | Some _ => true end)
  end.
(** [read_infobyte], 98-113 (with [_seek_if_needed], 62-79). *)
Definition p_infobyte (k : nat) : P byte :=
  locked (
    let! _ := put (seek (offset k)) in
    let! x := Act (fun s => pret (zsub (sh_pos s) 1 f)) (fun s => seek (sh_pos s + zlen (zsub (sh_pos s) 1 f)) s) in
    match x with [] => praise IOErr | b :: _ => pret b end).
(** [read_infobyte_if_needed], 144-150, and [parse_infobyte], 115-132. *)
Definition p_info (k : nat) : P unit :=
  let! known := p_known k in
  if known then pret tt
  else
    let! b := p_infobyte k in
    match parse_infobyte b with
    | Err e => praise e
    | Ok (ct, ext) =>
        let! _ := put (upd_cell k (with_comp (Some ct))) in
        put (upd_cell k (with_ext (Some ext)))
    end.

(** [struct.calcsize(self._pointer_format)], 81-96. *)
Definition p_psize (k : nat) : P Z :=
  let! e := get (fun s => ce_ext (sh_cell s k)) in
  match e with Some ext => pret (ptr_size ext) | None => praise RuntimeErr end.

(** [_get_decompressor], 177-188. *)
Definition p_decompressor (k : nat) : P D :=
  let! _ := p_info k in
  let! c := get (fun s => ce_comp (sh_cell s k)) in
  match c with Some ct => Ret (new_decomp ct) | None => praise KeyError end.

(** A method of [_decompressing_reader]; it reads from where the file is. *)
Definition reader_op {A} (k : nat) (m : reader D -> res A * reader D) (s : shared D) : res A * shared D :=
  match ce_reader (sh_cell s k) with
  | None => (Err AttributeError, s)
  | Some r =>
      let '(x, r) := m (moved_to (sh_pos s) r) in
      (x, seek (r_pos r) (upd_cell k (with_rdr (Some r)) s))
  end.
Definition on_reader {A} (k : nat) (m : reader D -> res A * reader D) : P A :=
  Act (fun s => Ret (fst (reader_op k m s))) (fun s => snd (reader_op k m s)).

(** [_get_decompressing_reader], 190-226, around [body]. *)
Definition p_reader {A} (k : nat) (at_ : Z) (body : P A) : P A :=
  if at_ <? 0 then praise AssertionError
  else
    let! _ := p_info k in
    locked (
      let! r := get (fun s => ce_reader (sh_cell s k)) in
      let fresh :=
        let! _ := put (seek (offset k + 1)) in
        let! d := p_decompressor k in
        put (upd_cell k (with_rdr (Some (reader_new d (offset k + 1))))) in
      let! _ := match r with
                | Some r => if r_out r <=? at_ then put (seek (offset k + 1 + r_in r)) else fresh
                | None => fresh
                end in
      let! _ := on_reader k (skip_to dc f at_) in
      body).

(** [Cluster.iter_blob_offsets], 228-279. *)
Definition p_plain_offsets (k : nat) (numbers : option (list Z)) : P (list Z) :=
  let! _ := p_info k in
  let! psize := p_psize k in
  match numbers with
  | Some [] => pret []
  | _ =>
      let last := match numbers with Some ns => Some (zmax_list ns) | None => None end in
      p_reader k 0 (on_reader k (fun r => offsets_loop dc f fuel psize numbers last None 0 0 r))
  end.
(** [_read_offsets_if_needed], 537-544. *)
Definition p_remember (k : nat) : P unit :=
  let! o := get (fun s => ce_offsets (sh_cell s k)) in
  match o with
  | Some _ => pret tt
  | None => let! l := p_plain_offsets k None in put (upd_cell k (with_offs (Some l)))
  end.
(** [iter_blob_offsets] of the three classes, 228-279 and 546-553. *)
Definition p_offsets (k : nat) (numbers : option (list Z)) : P (list Z) :=
  match kind k with
  | KPlain => p_plain_offsets k numbers
  | _ =>
      let! _ := p_remember k in
      let! o := get (fun s => ce_offsets (sh_cell s k)) in
      match o with Some l => pret (select_offsets 0 numbers l) | None => praise TypeError end
  end.

(** 281-375 and 408-426, as in Cluster.v. *)
Definition p_offset (k : nat) (i : Z) : P Z :=
  if i <? 0 then praise IndexError
  else let! l := p_offsets k (Some [i]) in match l with o :: _ => pret o | [] => praise IndexError end.
Definition p_offset_count (k : nat) : P Z :=
  let! o := p_offset k 0 in let! p := p_psize k in pret (o / p).
Definition p_blob_count (k : nat) : P Z := let! n := p_offset_count k in pret (n - 1).
Definition p_content_size (k : nat) : P Z :=
  let! a := p_offset k 0 in
  let! n := p_offset_count k in
  let! l := p_offset k (n - 1) in
  pret (l - a).
Definition p_decompressed_size (k : nat) : P Z := let! n := p_offset_count k in p_offset k (n - 1).
Definition p_offsets_size (k : nat) : P Z :=
  let! n := p_offset_count k in let! p := p_psize k in pret (n * p).
Definition p_blob_size (k : nat) (i : Z) : P Z :=
  if i <? 0 then praise AssertionError
  else
    let! l := p_offsets k (Some [i; i + 1]) in
    match l with a :: b :: _ => pret (b - a) | _ => praise BlobNotFound end.
(** [get_total_compressed_size], 377-406. *)
Definition p_compressed_size (k : nat) : P Z :=
  let! _ := p_info k in
  let! c := get (fun s => ce_comp (sh_cell s k)) in
  if match c with Some ct => ctype_eqb ct NONE | None => false end
  then let! n := p_decompressed_size k in pret (n + 1)
  else
    p_reader k 0 (on_reader k (fun r =>
      match iter_read dc f fuel (-1) 4096 r with
      | (Err e, r) => (Err e, r)
      | (Ok _, r) => match total_compressed_size dc r with
                     | Ok n => (Ok (n + 1), r)
                     | Err e => (Err e, r)
                     end
      end)).

(** [Cluster.read_blob], 428-470. *)
Definition p_plain_read (k : nat) (i : Z) (start stop : option Z) : P bytes :=
  if (i <? 0) || negb (range_ok start stop) then praise AssertionError
  else
    let! l := p_offsets k (Some [i; i + 1]) in
    match l with
    | [a; b] =>
        if nothing_to_read start stop b then pret []
        else let '(s, e) := abs_range start stop a b in p_reader k s (on_reader k (read_n dc f (e - s)))
    | _ => praise BlobNotFound
    end.
(** [InMemoryCluster._read_if_needed], 569-591. *)
Definition p_load (k : nat) : P unit :=
  let! d := get (fun s => ce_data (sh_cell s k)) in
  match d with
  | Some _ => pret tt
  | None =>
      let! _ := p_info k in
      let! _ := p_remember k in
      let! n := p_content_size k in
      let! o := p_offset k 0 in
      p_reader k o (let! d := on_reader k (read_n dc f n) in put (upd_cell k (with_data (Some d))))
  end.
(** [self._data[a:b]] *)
Definition p_slice (k : nat) (a b : Z) : P bytes :=
  let! d := get (fun s => ce_data (sh_cell s k)) in
  match d with Some d => pret (py_slice a b d) | None => praise TypeError end.
(** [InMemoryCluster.read_blob], 593-611. *)
Definition p_mem_read (k : nat) (i : Z) (start stop : option Z) : P bytes :=
  if i <? 0 then praise AssertionError
  else
    let! _ := p_load k in
    let! l := p_offsets k (Some [i; i + 1]) in
    match l with
    | [a; b] =>
        if nothing_to_read start stop b then pret []
        else
          let '(s, e) := abs_range start stop a b in
          let! corr := p_offsets_size k in
          p_slice k (s - corr) (e - corr)
    | _ => praise BlobNotFound
    end.
Definition p_read (k : nat) (i : Z) (start stop : option Z) : P bytes :=
  match kind k with KInMemory => p_mem_read k i start stop | _ => p_plain_read k i start stop end.

(** [DecompressingReader.iter_read], compression.py 357-384. *)
Fixpoint p_iter_loop (n : nat) (k : nat) (size buffersize n_read : Z) : P unit :=
  match n with
  | O => praise Diverge
  | S n =>
      if (0 <=? size) && (size <=? n_read) then pret tt
      else
        let to_read := if 0 <=? size then Z.min buffersize (size - n_read) else buffersize in
        let! x := on_reader k (read dc f to_read 0) in
        match x with
        | [] => pret tt
        | _ => Yield x false (p_iter_loop n k size buffersize (n_read + zlen x))
        end
  end.
(** [Cluster.iter_read_blob], 472-518: the chunks are handed out inside the
    [with] block of line 517. *)
Definition p_plain_iter (k : nat) (i buffersize : Z) (start stop : option Z) : P unit :=
  if (buffersize <=? 0) || (i <? 0) || negb (range_ok start stop) then praise AssertionError
  else
    let! l := p_offsets k (Some [i; i + 1]) in
    match l with
    | [a; b] =>
        if nothing_to_read start stop b then Yield [] false (pret tt)
        else let '(s, e) := abs_range start stop a b in p_reader k s (p_iter_loop fuel k (e - s) buffersize 0)
    | _ => praise BlobNotFound
    end.
(** The loop of [InMemoryCluster.iter_read_blob], 635-639. *)
Fixpoint p_mem_loop (n : nat) (k : nat) (buffersize cur stop : Z) : P unit :=
  match n with
  | O => praise Diverge
  | S n =>
      if cur <? stop then
        let cur_end := Z.min (cur + buffersize) stop in
        let! x := p_slice k cur cur_end in
        Yield x false (p_mem_loop n k buffersize cur_end stop)
      else pret tt
  end.
(** [InMemoryCluster.iter_read_blob], 613-639. *)
Definition p_mem_iter (k : nat) (i buffersize : Z) (start stop : option Z) : P unit :=
  if (i <? 0) || (buffersize <=? 0) then praise AssertionError
  else
    let! _ := p_load k in
    let! l := p_offsets k (Some [i; i + 1]) in
    match l with
    | [a; b] =>
        if nothing_to_read start stop b then pret tt
        else
          let '(s, e) := abs_range start stop a b in
          let! corr := p_offsets_size k in
          p_mem_loop fuel k buffersize (s - corr) (e - corr)
    | _ => praise BlobNotFound
    end.
Definition p_iter (k : nat) (i buffersize : Z) (start stop : option Z) : P unit :=
  match kind k with KInMemory => p_mem_iter k i buffersize start stop | _ => p_plain_iter k i buffersize start stop end.

(** [reset], 54-60, 533-535, 565-567. *)
Definition p_reset (k : nat) : P unit :=
  let! _ := match kind k with KInMemory => put (upd_cell k (with_data None)) | _ => pret tt end in
  let! _ := match kind k with KPlain => pret tt | _ => put (upd_cell k (with_offs None)) end in
  let! _ := put (upd_cell k (with_comp None)) in
  put (upd_cell k (with_ext None)).

(** A call and its answer, as [ask] of ClusterSpec.v. *)
Definition answered {A} (mk : A -> cans) (p : P A) : P cans :=
  pthen p (fun r => pret (match r with Ok a => mk a | Err e => CFail e end)).
Definition p_ask (k : nat) (q : ccall) : P cans :=
  match q with
  | QReset => answered (fun _ => CDone) (p_reset k)
  | QOffsets ns => answered CNums (p_offsets k ns)
  | QOffset i => answered CNum (p_offset k i)
  | QOffsetCount => answered CNum (p_offset_count k)
  | QBlobCount => answered CNum (p_blob_count k)
  | QContentSize => answered CNum (p_content_size k)
  | QDecompressedSize => answered CNum (p_decompressed_size k)
  | QOffsetsSize => answered CNum (p_offsets_size k)
  | QCompressedSize => answered CNum (p_compressed_size k)
  | QBlobSize i => answered CNum (p_blob_size k i)
  | QRead i s e => answered CData (p_read k i s e)
  | QIter i n s e => answered CParts (drain (p_iter k i n s e))
  end.

(** ** What a thread does *)
(** [Call]: a call on cluster object [k].  [Open]: [g = cluster.iter_read_blob(...)],
    which runs nothing yet.  [Next]: [next(g)].  [Close]: [g.close()], or the
    last reference to [g] goes away.  [Elsewhere]: something else is read from
    the file with the lock held ([get_entry_at], 825, another cluster...); the
    file is then at [p]. *)
Inductive cmd :=
| Call (k : nat) (q : ccall)
| Open (g k : nat) (i buffersize : Z) (start stop : option Z)
| Next (g : nat)
| Close (g : nat)
| Elsewhere (p : Z).
(** The generators of a thread: whether it holds the lock, and what is left of it. *)
Definition gens := nat -> bool * P unit.
Definition set_gen (g : nat) (v : bool * P unit) (m : gens) : gens := fun j => if Nat.eqb j g then v else m j.

Fixpoint script (cs : list cmd) (m : gens) : P (list got) :=
  match cs with
  | [] => pret []
  | Call k q :: cs =>
      let! a := p_ask k q in let! r := script cs m in pret (GAns a :: r)
  | Open g k i n s e :: cs =>
      let! r := script cs (set_gen g (false, p_iter k i n s e) m) in pret (GNothing :: r)
  | Next g :: cs =>
      resume (snd (m g)) (fun a v => let! r := script cs (set_gen g v m) in pret (a :: r))
  | Close g :: cs =>
      let rest := let! r := script cs (set_gen g (false, Ret (Ok tt)) m) in pret (GNothing :: r) in
      if fst (m g) then Release rest else rest
  | Elsewhere p :: cs =>
      let! _ := locked (put (seek p)) in let! r := script cs m in pret (GNothing :: r)
  end.
Definition no_gens : gens := fun _ => (false, Ret (Ok tt)).
End ClusterPrograms.

(** ** Threads *)
(** The threads, who holds the lock, and what is shared. *)
Record config (St A : Type) := mkConfig { cf_threads : list (prog St A); cf_lock : option nat; cf_shared : St }.
Arguments mkConfig {St A}. Arguments cf_threads {St A}. Arguments cf_lock {St A}. Arguments cf_shared {St A}.

Fixpoint set_nth {A} (i : nat) (a : A) (l : list A) : list A :=
  match l, i with
  | [], _ => []
  | _ :: r, O => a :: r
  | x :: r, S i => x :: set_nth i a r
  end.
(** One step of thread [i]; [None] if it cannot move: it has ended or waits for
    the lock (also if it holds the lock itself, [threading.Lock]). *)
Definition tstep {St A} (i : nat) (c : config St A) : option (config St A) :=
  match nth_error (cf_threads c) i with
  | Some (Act k g) => Some (mkConfig (set_nth i (k (cf_shared c)) (cf_threads c)) (cf_lock c) (g (cf_shared c)))
  | Some (Acquire p) =>
      match cf_lock c with
      | None => Some (mkConfig (set_nth i p (cf_threads c)) (Some i) (cf_shared c))
      | Some _ => None
      end
  | Some (Release p) =>
      match cf_lock c with
      | Some j => if Nat.eqb i j then Some (mkConfig (set_nth i p (cf_threads c)) None (cf_shared c)) else None
      | None => None
      end
  | _ => None
  end.
(** A schedule: whose turn it is; a thread that cannot move is passed over. *)
Definition tsched {St A} (sched : list nat) (c : config St A) : config St A :=
  fold_left (fun c i => match tstep i c with Some c' => c' | None => c end) sched c.

(** New cluster objects, [__init__] 32-52, and threads that run the scripts. *)
Definition new_cell {D} : cell D := mkCell None None None None None.
Definition tstart {D} (dc : decomp D) new_decomp f fuel kind offset (pos : Z) (scripts : list (list cmd)) : config (shared D) (list got) :=
  mkConfig (map (fun cs => script dc new_decomp f fuel kind offset cs no_gens) scripts) None
    (mkShared pos (fun _ => new_cell)).
