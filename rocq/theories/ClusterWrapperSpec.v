(** What C25-C29 say about modified clusters. *)
From Coq Require Import List ZArith Bool.
From Verif Require Import Base Reader ReaderSpec Infobyte Blob BlobProofs Cluster ClusterSpec ClusterWrapper.
Import ListNotations.
Open Scope Z_scope.

(** A blob source that reports the size of its data and delivers it ([fuel]
    bounds the number of reads). *)
Definition delivers (fuel : nat) (s : source) (d : bytes) : Prop :=
  s_size s = zlen d /\ Blob.blob_size (s_blob s) = zlen d /\
  blob_ok (s_blob s) /\ remaining (s_blob s) = d /\ zlen d < Z.of_nat fuel.

(** Edits of a cluster; [d] is the data that the source [s] delivers.
    [EAsk q]: some query in between. *)
Inductive edit :=
| EAppend (s : source) (d : bytes)
| ESet (i : Z) (s : source) (d : bytes)
| EEmpty (i : Z)
| ERemove (i : Z)
| EReset
| EForceExtension (e : option bool)
| EForceCompression (c : option ctype)
| EAsk (q : ccall).

(** The same edits on a list of blobs. *)
Definition replace_at {A} (i : Z) (x : A) (l : list A) : list A := ztake i l ++ x :: zskip (i + 1) l.
Definition remove_at {A} (i : Z) (l : list A) : list A := ztake i l ++ zskip (i + 1) l.
Definition edit_list (keeps : bool) (orig cur : list bytes) (e : edit) : list bytes :=
  match e with
  | EAppend _ d => cur ++ [d]
  | ESet i _ d => replace_at i d cur
  | EEmpty i => replace_at i [] cur
  | ERemove i => remove_at i cur
  | EReset => if keeps then cur else orig   (* new clusters are not reset *)
  | _ => cur
  end.
Definition edit_lists keeps orig h cur : list bytes := fold_left (edit_list keeps orig) h cur.

(** Performing edits and queries. *)
Definition wask {I} (ic : inner I) fuel (q : ccall) (w : wrapper I) : cans * wrapper I :=
  match q with
  | QOffsets ns => let '(r, w) := woffsets ic ns w in (match r with Ok l => CNums l | Err e => CFail e end, w)
  | QOffset i => let '(r, w) := wget_offset ic i w in (num r, w)
  | QOffsetCount => let '(r, w) := wnumber_of_offsets ic w in (num r, w)
  | QBlobCount => let '(r, w) := wnumber_of_blobs ic w in (num r, w)
  | QContentSize => let '(r, w) := wcontent_size ic w in (num r, w)
  | QDecompressedSize => let '(r, w) := wtotal_decompressed_size ic w in (num r, w)
  | QOffsetsSize => let '(r, w) := wtotal_offset_size ic w in (num r, w)
  | QBlobSize i => let '(r, w) := wblob_size ic i w in (num r, w)
  | QRead i s e => let '(r, w) := wread_blob ic fuel i s e w in (match r with Ok b => CData b | Err e => CFail e end, w)
  | QIter i n s e => let '(r, w) := witer_read_blob ic fuel i n s e w in (match r with Ok l => CParts l | Err e => CFail e end, w)
  | QReset | QCompressedSize => (CDone, w)   (* not queries of the wrapper *)
  end.
Definition perform_edit {I} (ic : inner I) fuel (e : edit) (w : wrapper I) : res unit * wrapper I :=
  match e with
  | EAppend s _ => let '(r, w) := append_blob ic s w in (match r with Ok _ => Ok tt | Err e => Err e end, w)
  | ESet i s _ => set_blob ic i s w
  | EEmpty i => empty_blob ic i w
  | ERemove i => remove_blob i w
  | EReset => (Ok tt, wreset ic w)
  | EForceExtension e => (Ok tt, force_extension e w)
  | EForceCompression c => (Ok tt, force_compression c w)
  | EAsk q => (Ok tt, snd (wask ic fuel q w))
  end.
(** All edits succeed, and the wrapper afterwards. *)
Fixpoint perform_edits {I} (ic : inner I) fuel (h : list edit) (w : wrapper I) : res unit * wrapper I :=
  match h with
  | [] => (Ok tt, w)
  | e :: r => match perform_edit ic fuel e w with
              | (Ok _, w) => perform_edits ic fuel r w
              | (Err x, w) => (Err x, w)
              end
  end.

(** The wrapper after the edits, whether or not some of them raised. *)
Definition run_edits {I} (ic : inner I) fuel (h : list edit) (w : wrapper I) : wrapper I :=
  fold_left (fun w e => snd (perform_edit ic fuel e w)) h w.
(** Any edits at all, with any indices, as long as the given blobs are proper;
    in between blobs are only read from their start. *)
Definition any_edit (fuel : nat) (e : edit) : Prop :=
  match e with
  | EAppend s d | ESet _ s d => delivers fuel s d
  | EAsk q => sensible q /\ match q with QRead _ s _ | QIter _ _ s _ => s = None | _ => True end
  | _ => True
  end.

(** Queries that do not need to know the width of the pointers. *)
Definition width_free (q : ccall) : bool :=
  match q with
  | QOffsetCount | QBlobCount | QContentSize | QBlobSize _ | QRead _ _ _ | QIter _ _ _ _ => true
  | _ => false
  end.
(** The answers expected of a wrapper, as in ClusterSpec.v (the sizes of the
    chunks of a replaced blob are up to its source). *)
Definition wanswer (ext : bool) (blobs : list bytes) (q : ccall) (a : cans) : Prop :=
  match q with
  | QIter i n s e =>
      match znth blobs i with
      | Some b => exists l, a = CParts l /\ concat l = part s e b
      | None => a = CFail BlobNotFound
      end
  | _ => answer NONE ext blobs [] q a
  end.
Definition wrapper_query (q : ccall) : Prop := match q with QReset | QCompressedSize => False | _ => True end.

(** Queries for numbers, sizes and offsets of the whole cluster. *)
Definition measure (q : ccall) : Prop :=
  match q with
  | QOffsets _ | QOffset _ | QOffsetCount | QBlobCount | QContentSize | QDecompressedSize | QOffsetsSize => True
  | _ => False
  end.

(** Sensible edits of the list [cur], with indices in range. *)
Definition edit_ok (fuel : nat) (cur : list bytes) (e : edit) : Prop :=
  match e with
  | EAppend s d => delivers fuel s d
  | ESet i s d => delivers fuel s d /\ 0 <= i <= zlen cur
  | EEmpty i => 0 <= i <= zlen cur
  | ERemove i => 0 <= i < zlen cur
  | EAsk q => wrapper_query q /\ sensible q /\ inside cur q
  | _ => True
  end.

(** The full claim ranges over all sensible histories. *)
Fixpoint history_ok (fuel : nat) (keeps : bool) (orig cur : list bytes) (h : list edit) : Prop :=
  match h with
  | [] => True
  | e :: r => edit_ok fuel cur e /\ history_ok fuel keeps orig (edit_list keeps orig cur e) r
  end.

(** A restricted class.  [marks] are the indices that were removed before:
    after a removal, no blob is set, emptied or appended at a removed index,
    and further removals are below all of them. *)
Definition edit_safe (cur : list bytes) (marks : list Z) (e : edit) : Prop :=
  match e with
  | EAppend _ _ => ~ In (zlen cur) marks
  | ESet i _ _ | EEmpty i => ~ In i marks
  | ERemove i => Forall (fun m => i < m) marks
  | _ => True
  end.
Definition mark (keeps : bool) (marks : list Z) (e : edit) : list Z :=
  match e with
  | ERemove i => i :: marks
  | EReset => if keeps then marks else []
  | _ => marks
  end.
Fixpoint history_safe (keeps : bool) (orig cur : list bytes) (marks : list Z) (h : list edit) : Prop :=
  match h with
  | [] => True
  | e :: r => edit_safe cur marks e /\ history_safe keeps orig (edit_list keeps orig cur e) (mark keeps marks e) r
  end.
(** The indices [rs], removed one after the other, are in range. *)
Fixpoint in_range {A} (l : list A) (rs : list Z) : Prop :=
  match rs with [] => True | i :: rs => 0 <= i < zlen l /\ in_range (remove_at i l) rs end.
(** The original indices that are gone after removing the blobs [rs] one after
    the other. *)
Definition gone (n : Z) (rs : list Z) : list Z :=
  let left := fold_left (fun l i => remove_at i l) rs (zrange n) in
  filter (fun i => negb (zmem i left)) (zrange n).

(** What is assumed of the wrapped cluster: it holds the blobs [orig]; the
    properties of stored clusters (C25, C26) and of new clusters provide it. *)
Record holds {I} (ic : inner I) (Inv : I -> Prop) (ct : ctype) (ext : bool) (orig : list bytes) : Prop := {
  ho_attr : forall c, Inv c -> in_attr ic c = None \/ in_attr ic c = Some (ct, ext);
  ho_info : forall c, Inv c -> exists c', in_info ic c = (Ok (ct, ext), c') /\ Inv c' /\ in_attr ic c' = Some (ct, ext);
  ho_reset : forall c, Inv c -> Inv (in_reset ic c);
  ho_blobs : forall c, Inv c -> exists c', in_blobs ic c = (Ok (zlen orig), c') /\ Inv c' /\ in_attr ic c' = Some (ct, ext);
  ho_size : forall c i, Inv c -> 0 <= i -> exists c',
    in_size ic i c = (match znth orig i with Some b => Ok (zlen b) | None => Err BlobNotFound end, c') /\ Inv c' /\ in_attr ic c' = Some (ct, ext);
  ho_read : forall c i s e, Inv c -> 0 <= i -> sensible_range s e -> starts_inside orig i s -> exists c',
    in_read ic i s e c = (match znth orig i with Some b => Ok (part s e b) | None => Err BlobNotFound end, c') /\ Inv c' /\ in_attr ic c' = Some (ct, ext);
  ho_iter : forall c i n s e, Inv c -> 0 <= i -> 1 <= n -> sensible_range s e -> starts_inside orig i s -> exists x c',
    in_iter ic i n s e c = (x, c') /\ Inv c' /\ in_attr ic c' = Some (ct, ext) /\
    match znth orig i with
    | Some b => exists l, x = Ok l /\ concat l = part s e b /\ Forall (fun y => zlen y <= n) l
    | None => x = Err BlobNotFound
    end;
}.

(** What is forced after a history of edits. *)
Definition forced_extension (keeps : bool) (h : list edit) : option bool :=
  fold_left (fun f e => match e with EForceExtension x => x | EReset => if keeps then f else None | _ => f end) h None.
Definition forced_compression (keeps : bool) (h : list edit) : option ctype :=
  fold_left (fun f e => match e with EForceCompression x => x | EReset => if keeps then f else None | _ => f end) h None.
(** Which width of pointers is right for [blobs]: the forced one; otherwise wide
    pointers exactly if the data with narrow pointers would reach 2^32 bytes,
    except that a cluster that still holds its original blobs may keep its
    width. *)
Definition width_ok (forced : option bool) (before : bool) (orig blobs : list bytes) (e : bool) : Prop :=
  match forced with
  | Some b => e = b
  | None => (e = true <-> 2 ^ 32 <= zlen (cluster_data false blobs)) \/ (blobs = orig /\ e = before)
  end.

(** A compressor is given [chunks] one after the other and is then asked for the
    rest; [out] is what it returns. *)
Inductive compresses {K} (comp : K -> bytes -> res (bytes * K)) (flush : K -> res bytes) : K -> list bytes -> list bytes -> Prop :=
| cp_rest k x : flush k = Ok x -> compresses comp flush k [] [x]
| cp_chunk k c x k' chunks out : comp k c = Ok (x, k') -> compresses comp flush k' chunks out -> compresses comp flush k (c :: chunks) (x :: out).
(** The chunks of a compressor put together make a stream ([Stream c C o]:
    [C] is a stream of compression [c] that decompresses to [o]). *)
Definition compressor_ok {K} (new_comp : ctype -> res K) comp flush (Stream : ctype -> bytes -> bytes -> Prop) : Prop :=
  forall c k chunks, new_comp c = Ok k -> exists out, compresses comp flush k chunks out /\ Stream c (concat out) (concat chunks).

(** What is compressed can be decompressed, also with [post] behind it: either
    the decompressor finds the end of the stream, or ([tail]) it goes on with
    what follows, as the "decompressor" of uncompressed clusters does. *)
Definition reads_back {D} (dc : decomp D) (new_decomp : ctype -> res D) Rep (Stream : ctype -> bytes -> bytes -> Prop) (post : bytes) : Prop :=
  forall c C o, Stream c C o -> exists d0 C' J tail, new_decomp c = Ok d0 /\ C' ++ J = C ++ post /\ Rep d0 C' (o ++ tail) [] /\
    contract dc J Rep /\ (tail = [] \/ tail = post).
