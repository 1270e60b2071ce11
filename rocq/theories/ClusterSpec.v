(** What C25 and C26 say about clusters: which bytes hold a list of blobs, and
    the answers expected of a cluster that holds them. *)
From Coq Require Import List ZArith Bool.
From Verif Require Import Base Infobyte Reader ReaderSpec Cluster.
Import ListNotations.
Open Scope Z_scope.

(** Where the blobs begin, and where the last one ends, if the first begins at
    [start]. *)
Fixpoint positions_from (start : Z) (blobs : list bytes) : list Z :=
  match blobs with [] => [start] | b :: r => start :: positions_from (start + zlen b) r end.

(** An extended cluster has pointers of 8 bytes, others of 4 bytes. *)
Definition pointer_bytes (extended : bool) : nat := if extended then 8%nat else 4%nat.
(** One pointer per blob and one for the end. *)
Definition pointers_size (extended : bool) (blobs : list bytes) : Z :=
  Z.of_nat (pointer_bytes extended) * (zlen blobs + 1).
Definition positions (extended : bool) (blobs : list bytes) : list Z :=
  positions_from (pointers_size extended blobs) blobs.

(** The uncompressed data of a cluster: pointers, then blobs. *)
Definition cluster_data (extended : bool) (blobs : list bytes) : bytes :=
  concat (map (le_bytes (pointer_bytes extended)) (positions extended blobs)) ++ concat blobs.
(** All pointers can be represented. *)
Definition fits (extended : bool) (blobs : list bytes) : Prop :=
  pointers_size extended blobs + zlen (concat blobs) < 256 ^ Z.of_nat (pointer_bytes extended).

(** The file [f] holds at [off] a cluster with these blobs: an information
    byte and a compressed stream [C] from which [cluster_data] is decompressed.
    [J] follows in the file; uncompressed "streams" have no end, there [tail] is
    what follows. *)
Record stored {D} (dc : decomp D) (new_decomp : ctype -> res D) (Rep : D -> bytes -> bytes -> bytes -> Prop)
    (f : bytes) (off : Z) (ct : ctype) (ext : bool) (blobs : list bytes) (C J tail : bytes) : Prop := {
  st_off : 0 <= off;
  st_info : exists b, zsub off 1 f = [b] /\ parse_infobyte b = Ok (ct, ext);
  st_stream : zskip (off + 1) f = C ++ J;
  st_decomp : exists d0, new_decomp ct = Ok d0 /\ Rep d0 C (cluster_data ext blobs ++ tail) [];
  st_contract : contract dc J Rep;
  st_fits : fits ext blobs;
}.
(** Its compression is one that knows its end. *)
Definition stored_ends {D} (dc : decomp D) (Rep : D -> bytes -> bytes -> bytes -> Prop) (J tail : bytes) : Prop :=
  contract_end dc J Rep /\ tail = [].

(** The part of a blob that is asked for: [blob[start:stop]]. *)
Definition part (start stop : option Z) (b : bytes) : bytes :=
  let s := match start with Some s => s | None => 0 end in
  let e := match stop with Some e => e | None => zlen b end in
  zsub s (e - s) b.

(** Calls on a cluster. *)
Inductive ccall :=
| QReset
| QOffsets (numbers : option (list Z))
| QOffset (i : Z)
| QOffsetCount
| QBlobCount
| QContentSize
| QDecompressedSize
| QOffsetsSize
| QCompressedSize
| QBlobSize (i : Z)
| QRead (i : Z) (start stop : option Z)
| QIter (i buffersize : Z) (start stop : option Z).

Inductive cans := CNum (n : Z) | CNums (l : list Z) | CData (b : bytes) | CParts (l : list bytes) | CDone | CFail (e : exn).

Definition num (r : res Z) : cans := match r with Ok n => CNum n | Err e => CFail e end.
Definition ask {D} (dc : decomp D) new_decomp f fuel (q : ccall) (c : cluster D) : cans * cluster D :=
  match q with
  | QReset => (CDone, reset c)
  | QOffsets ns => let '(r, c) := blob_offsets dc new_decomp f fuel ns c in (match r with Ok l => CNums l | Err e => CFail e end, c)
  | QOffset i => let '(r, c) := get_offset dc new_decomp f fuel i c in (num r, c)
  | QOffsetCount => let '(r, c) := number_of_offsets dc new_decomp f fuel c in (num r, c)
  | QBlobCount => let '(r, c) := number_of_blobs dc new_decomp f fuel c in (num r, c)
  | QContentSize => let '(r, c) := content_size dc new_decomp f fuel c in (num r, c)
  | QDecompressedSize => let '(r, c) := total_decompressed_size dc new_decomp f fuel c in (num r, c)
  | QOffsetsSize => let '(r, c) := total_offset_size dc new_decomp f fuel c in (num r, c)
  | QCompressedSize => let '(r, c) := total_compressed dc new_decomp f fuel c in (num r, c)
  | QBlobSize i => let '(r, c) := blob_size dc new_decomp f fuel i c in (num r, c)
  | QRead i s e => let '(r, c) := read_blob dc new_decomp f fuel i s e c in (match r with Ok b => CData b | Err e => CFail e end, c)
  | QIter i n s e => let '(r, c) := iter_read_blob dc new_decomp f fuel i n s e c in (match r with Ok l => CParts l | Err e => CFail e end, c)
  end.
Fixpoint asks {D} (dc : decomp D) new_decomp f fuel (qs : list ccall) (c : cluster D) : list cans :=
  match qs with
  | [] => []
  | q :: r => let '(a, c) := ask dc new_decomp f fuel q c in a :: asks dc new_decomp f fuel r c
  end.

(** [l[i]] for each [i] in [numbers] (in increasing order); all if there is no
    such restriction. *)
Definition numbered (l : list Z) : list (Z * Z) := combine (map Z.of_nat (seq 0 (length l))) l.
Definition picked (numbers : option (list Z)) (l : list Z) : list Z :=
  match numbers with
  | None => l
  | Some ns => map snd (filter (fun p => existsb (Z.eqb (fst p)) ns) (numbered l))
  end.

(** The expected answers. *)
Definition answer (ct : ctype) (ext : bool) (blobs : list bytes) (C : bytes) (q : ccall) (a : cans) : Prop :=
  let total := zlen (cluster_data ext blobs) in
  match q with
  | QReset => a = CDone
  | QOffsets ns => a = CNums (picked ns (positions ext blobs))
  | QOffset i => a = match znth (positions ext blobs) i with Some o => CNum o | None => CFail IndexError end
  | QOffsetCount => a = CNum (zlen blobs + 1)
  | QBlobCount => a = CNum (zlen blobs)
  | QContentSize => a = CNum (zlen (concat blobs))
  | QDecompressedSize => a = CNum total
  | QOffsetsSize => a = CNum (total - zlen (concat blobs))
  | QCompressedSize => a = CNum (1 + if ctype_eqb ct NONE then total else zlen C)
  | QBlobSize i => a = match znth blobs i with Some b => CNum (zlen b) | None => CFail BlobNotFound end
  | QRead i s e => a = match znth blobs i with Some b => CData (part s e b) | None => CFail BlobNotFound end
  | QIter i n s e =>
      match znth blobs i with
      | Some b => exists l, a = CParts l /\ concat l = part s e b /\ Forall (fun x => zlen x <= n) l
      | None => a = CFail BlobNotFound
      end
  end.

(** Calls with sensible arguments: indices and ranges are not negative, the end
    of a range is not before its start. *)
Definition sensible_range (start stop : option Z) : Prop :=
  match start with Some s => 0 <= s | None => True end /\
  match stop with Some e => 0 <= e | None => True end /\
  match start, stop with Some s, Some e => s <= e | _, _ => True end.
Definition sensible (q : ccall) : Prop :=
  match q with
  | QOffsets _ | QOffset _ => True
  | QBlobSize i => 0 <= i
  | QRead i s e => 0 <= i /\ sensible_range s e
  | QIter i n s e => 0 <= i /\ 1 <= n /\ sensible_range s e
  | _ => True
  end.
(** The range asked for does not start beyond the end of the blob. *)
Definition starts_inside (blobs : list bytes) (i : Z) (start : option Z) : Prop :=
  match start, znth blobs i with Some s, Some b => s <= zlen b | _, _ => True end.
Definition inside (blobs : list bytes) (q : ccall) : Prop :=
  match q with
  | QRead i s _ | QIter i _ s _ => starts_inside blobs i s
  | _ => True
  end.
(** Calls that do not need the end of the compressed data to be recognised. *)
Definition no_end_needed (ct : ctype) (q : ccall) : Prop :=
  match q with QCompressedSize => ct = NONE | _ => True end.
(** Calls that a cluster of kind [kd] has to answer; [ends]: its compression
    knows its end. *)
Definition allowed_call (ct : ctype) (blobs : list bytes) (kd : ckind) (ends : bool) (q : ccall) : Prop :=
  sensible q /\ (no_end_needed ct q \/ ends = true) /\
  (inside blobs q \/ kd = KInMemory \/ (ends = true /\ forall i n s e, q <> QIter i n s e)).
