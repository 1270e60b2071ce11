(** Model of the blobs in blob.py 101-328. *)
From Coq Require Import List ZArith Bool.
From Verif Require Import Base Utf8.
Import ListNotations.
Open Scope Z_scope.

(** [io.BytesIO] (and a regular file opened for reading): content and position. *)
Record memfile := mkMem { mf_data : bytes; mf_pos : Z }.
(** [read(n)]: negative [n] reads the rest. *)
Definition mem_read (n : Z) (f : memfile) : bytes * memfile :=
  let rest := zskip (mf_pos f) (mf_data f) in
  let r := if n <? 0 then rest else ztake n rest in
  (r, mkMem (mf_data f) (mf_pos f + zlen r)).

(** [InMemoryBlobSource.__init__], 108-124: strings are encoded. *)
Definition source_bytes (s : ustr + bytes) : res bytes :=
  match s with inl u => encode u | inr b => Ok b end.

(** A blob being read.  [BMem]: InMemoryBlob (135-162) and FileBlob (190-220);
    the size is taken when the blob is made.  [BEmpty]: EmptyBlob (242-259).
    [BEntry]: EntryBlob (288-328), [chunks] being what [entry.iter_read()]
    yields from here on.  Simplification: a file is not changed by others
    while it is read; [BytesIO] is closed only when reading is over. *)
Inductive blob :=
| BMem (size : Z) (f : memfile)
| BEmpty
| BEntry (size : Z) (chunks : list bytes) (closed : bool).

Definition blob_mem (s : bytes) : blob := BMem (zlen s) (mkMem s 0).
(** [EntryBlobSource], 262-285: the size is [entry.get_size()]. *)
Definition blob_entry (entry_size : Z) (entry_chunks : list bytes) : blob := BEntry entry_size entry_chunks false.

(** [get_size]: 155, 213, 252, 308. *)
Definition blob_size (b : blob) : Z :=
  match b with BMem n _ => n | BEmpty => 0 | BEntry n _ _ => n end.
(** [read]: 158, 216, 255, 311-321. *)
Definition blob_read (n : Z) (b : blob) : bytes * blob :=
  match b with
  | BMem s f => let '(r, f') := mem_read n f in (r, BMem s f')
  | BEmpty => ([], BEmpty)
  | BEntry s ch closed =>
      if closed then ([], b)
      else match ch with
           | [] => ([], BEntry s [] true)
           | c :: r => (c, BEntry s r false)
           end
  end.
(** [close]: 323-328 runs the iterator to its end. *)
Definition blob_close (b : blob) : blob :=
  match b with BEntry s _ _ => BEntry s [] true | _ => b end.

(** Successive reads. *)
Fixpoint blob_reads (ns : list Z) (b : blob) : list bytes * blob :=
  match ns with
  | [] => ([], b)
  | n :: r => let '(x, b') := blob_read n b in
              let '(xs, b'') := blob_reads r b' in (x :: xs, b'')
  end.

(** The loop with which the writers consume a blob, as in cluster.py
    [iter_write]: read [n] bytes until an empty read. *)
Fixpoint read_all (fuel : nat) (n : Z) (b : blob) : res (list bytes) :=
  match fuel with
  | O => Err Diverge
  | S fuel =>
      let '(x, b') := blob_read n b in
      match x with
      | [] => Ok []
      | _ => do xs <- read_all fuel n b' ;; Ok (x :: xs)
      end
  end.
