(** What C43-C45 say about the clusters of an archive: which clusters a file
    holds, which bytes they occupy and what a user reads from them. *)
From Coq Require Import List ZArith Bool.
From Verif Require Import Base Infobyte Reader ReaderSpec Entry EntrySpec PointerList SpaceAllocator SpaceAllocatorSpec
  Cluster ClusterSpec ClusterWrapper ClusterWrapperSpec Archive ArchiveSpec ArchiveCluster.
Import ListNotations.
Open Scope Z_scope.

(** A cluster as it is stored: compression, width of its pointers, blobs, and
    the number of bytes it occupies. *)
Record ccell := mkCcell { cc_ct : ctype; cc_ext : bool; cc_blobs : list bytes; cc_len : Z }.

(** [Stream c C o]: [C] is a stream of compression [c] that decompresses to [o]. *)
Definition cluster_at (Stream : ctype -> bytes -> bytes -> Prop) (f : bytes) (off : Z) (c : ccell) : Prop :=
  0 <= off /\ fits (cc_ext c) (cc_blobs c) /\
  exists b C, cc_len c = 1 + zlen C /\ fread f off (cc_len c) = b :: C /\ parse_infobyte b = Ok (cc_ct c, cc_ext c) /\
    Stream (cc_ct c) C (cluster_data (cc_ext c) (cc_blobs c)).
(** The bytes a cluster occupies. *)
Definition covers (c : Z * ccell) (x : Z) : Prop := fst c <= x < fst c + cc_len (snd c).
Definition separate (c d : Z * ccell) : Prop := forall x, ~ (covers c x /\ covers d x).

(** The clusters of an archive by number; [None]: the number is not in use any
    more. *)
Definition at_number (L : list (option (Z * ccell))) (i : Z) (c : Z * ccell) : Prop := znth L i = Some (Some c).

(** The archive holds the entries [cells] (by location) and the clusters [L] (by
    number) in disjoint space that the allocator considers in use. *)
Record archive_ok Stream (a : carchive) (cells : list (Z * entry)) (L : list (option (Z * ccell))) : Prop := mkArchiveOk {
  ao_core : core (ca_zim a) cells;
  ao_entries : consistent (ca_zim a) (map snd cells);
  ao_ptrs : forall i c, at_number L i c -> znth (pl_ptrs (ca_ptrs a)) i = Some (fst c);
  ao_positive : Forall (fun p => 0 <= p) (pl_ptrs (ca_ptrs a));
  ao_count : zlen (pl_ptrs (ca_ptrs a)) <= zlen L;
  ao_next : ca_next a = zlen L;
  ao_mutable : pl_mutable (ca_ptrs a) = true;
  ao_stored : forall i c, at_number L i c -> cluster_at Stream (ca_file a) (fst c) (snd c);
  ao_used : forall i c x, at_number L i c -> covers c x -> in_use (ca_alloc a) x;
  ao_separate : forall i j c d, at_number L i c -> at_number L j d -> i <> j -> separate c d;
  ao_apart : forall c i d x, In c cells -> at_number L i d -> ~ (occupies c x /\ covers d x) }.

(** What is assumed of the compression libraries: what is compressed can be
    decompressed, also with other data behind it.  Compressed streams end
    themselves; the "streams" of uncompressed clusters do not. *)
Record codec_ok {D K} (dc : decomp D) (new_decomp : ctype -> res D) (new_comp : ctype -> res K) comp flush Stream : Prop := {
  cd_comp : compressor_ok new_comp comp flush Stream;
  cd_unknown : forall k, new_comp UNKNOWN <> Ok k;
  cd_plain : forall C o, Stream NONE C o -> C = o;
  cd_read : forall c C o post, Stream c C o -> exists Rep d0 C' J tail,
    new_decomp c = Ok d0 /\ C' ++ J = C ++ post /\ Rep d0 C' (o ++ tail) [] /\ contract dc J Rep /\
    ((c = NONE /\ tail = post) \/ (c <> NONE /\ C' = C /\ tail = [] /\ contract_end dc J Rep)) }.

(** The loops of the model are long enough for this cluster. *)
Definition enough (fuel : nat) (f : bytes) (c : ccell) : Prop :=
  zlen (cluster_data (cc_ext c) (cc_blobs c)) + zlen f + 2 <= Z.of_nat fuel.

(** What a user reads: [zim.get_cluster_by_index(i).read_blob(j)] and
    [...get_number_of_blobs()]. *)
Section Observe.
Variable fuel : nat.
Context {D : Type}.
Variable dc : decomp D.
Variable new_decomp : ctype -> res D.
Variable kd : ckind.
Definition read_blob_of (a : carchive) (i j : Z) : res bytes :=
  do c <- get_cluster_by_index fuel dc new_decomp kd a i ;;
  fst (wread_blob (inner_cluster dc new_decomp (ca_file a) fuel) fuel j None None (co_wrap c)).
Definition blobs_in (a : carchive) (i : Z) : res Z :=
  do c <- get_cluster_by_index fuel dc new_decomp kd a i ;;
  fst (wnumber_of_blobs (inner_cluster dc new_decomp (ca_file a) fuel) (co_wrap c)).
(** Cluster [i] of the archive has exactly these blobs. *)
Definition shows (a : carchive) (i : Z) (blobs : list bytes) : Prop :=
  blobs_in a i = Ok (zlen blobs) /\
  forall j, 0 <= j -> read_blob_of a i j = match znth blobs j with Some b => Ok b | None => Err BlobNotFound end.
End Observe.

(** The files a crash during the write of [data] from [off] on can leave behind:
    any part of the data, in the order of writing, has arrived. *)
Definition torn (f : bytes) (off : Z) (data : bytes) (f' : bytes) : Prop :=
  f' = f \/ exists k, f' = fwrite f off (firstn k data).

(** Byte [x] of the file is the same in both. *)
Definition same_byte (f f' : bytes) (x : Z) : Prop := nth_error f' (Z.to_nat x) = nth_error f (Z.to_nat x).

(** ** Histories *)
(** What a user does with clusters: write a new one after some edits, edit the
    cluster with number [i] and write it (with or without telling its number
    again), remove the cluster with number [i]. *)
Inductive cop :=
| CNew (h : list edit)
| CEdit (i : Z) (h : list edit) (told : bool)
| CRemove (i : Z).

Section Histories.
Variable fuel : nat.
Context {D : Type}.
Variable dc : decomp D.
Variable new_decomp : ctype -> res D.
Context {K : Type}.
Variable new_comp : ctype -> res K.
Variable comp : K -> bytes -> res (bytes * K).
Variable flush : K -> res bytes.
Variable kd : ckind.

(** What is written, with which number: the object after the edits. *)
Definition edited_new (h : list edit) : res unit * cobj (option Z) :=
  let '(r, w) := perform_edits inner_empty fuel h (co_wrap new_cluster) in (r, co_set w new_cluster).
Definition edited (a : carchive) (i : Z) (h : list edit) : res (cobj (cluster D)) :=
  do c <- get_cluster_by_index fuel dc new_decomp kd a i ;;
  match perform_edits (inner_cluster dc new_decomp (ca_file a) fuel) fuel h (co_wrap c) with
  | (Ok _, w) => Ok (co_set w c)
  | (Err e, _) => Err e
  end.
Definition told_number (i : Z) (told : bool) : option Z := if told then Some i else None.

(** The number of the cluster, and the archive afterwards. *)
Definition perform_cop (a : carchive) (o : cop) : res Z * carchive :=
  match o with
  | CNew h =>
      match edited_new h with
      | (Ok _, c) => let '(r, (a, _)) := write_cluster fuel new_comp comp flush new_ops None a c in (r, a)
      | (Err e, _) => (Err e, a)
      end
  | CEdit i h told =>
      match edited a i h with
      | Ok c => let '(r, (a, _)) := write_cluster fuel new_comp comp flush (stored_ops dc new_decomp fuel) (told_number i told) a c in (r, a)
      | Err e => (Err e, a)
      end
  | CRemove i => let '(r, a) := remove_cluster_by_index fuel dc new_decomp kd a i in (do _ <- r ;; Ok i, a)
  end.

(** The same on a list of clusters; [None]: the number is not in use. *)
Definition blobs_at (X : list (option (list bytes))) (i : Z) : list bytes := match znth X i with Some (Some b) => b | _ => [] end.
Definition cop_list (X : list (option (list bytes))) (o : cop) : list (option (list bytes)) :=
  match o with
  | CNew h => X ++ [Some (edit_lists true [] h [])]
  | CEdit i h _ => replace_at i (Some (edit_lists false (blobs_at X i) h (blobs_at X i))) X
  | CRemove i => replace_at i None X
  end.
Definition cop_number (X : list (option (list bytes))) (o : cop) : Z := match o with CNew _ => zlen X | CEdit i _ _ | CRemove i => i end.

(** Operations on clusters that exist, with edits for which C29 holds. *)
Definition cop_ok (X : list (option (list bytes))) (o : cop) : Prop :=
  match o with
  | CNew h => history_ok fuel true [] [] h /\ history_safe true [] [] [] h
  | CEdit i h _ => exists b, znth X i = Some (Some b) /\ history_ok fuel false b b h /\ history_safe false b b [] h
  | CRemove i => exists b, znth X i = Some (Some b)
  end.
(** The number is told, or no number went out of use. *)
Definition unambiguous (X : list (option (list bytes))) (o : cop) : Prop :=
  match o with CEdit _ _ false => ~ In None X | _ => True end.
(** The loops of the model are long enough for all clusters. *)
Definition ample (a : carchive) (X : list (option (list bytes))) : Prop :=
  forall b, In (Some b) X -> zlen (cluster_data true b) + zlen (ca_file a) + 2 <= Z.of_nat fuel.

(** [ops] are performed one after the other, all of them return. *)
Inductive happens (ok : list (option (list bytes)) -> cop -> Prop) : carchive -> list (option (list bytes)) -> list cop -> carchive -> list (option (list bytes)) -> Prop :=
| happens_nil a X : happens ok a X [] a X
| happens_cons a X o n a1 ops a' X' : ample a X -> cop_ok X o -> ok X o -> perform_cop a o = (Ok n, a1) ->
    happens ok a1 (cop_list X o) ops a' X' -> happens ok a X (o :: ops) a' X'.

(** The files that a crash during an operation can leave behind. *)
Definition crash (a : carchive) (o : cop) (f : bytes) : Prop :=
  match o with
  | CNew h => exists c n off chunks a1 c1, edited_new h = (Ok tt, c) /\
      write_begin fuel new_comp comp flush new_ops None a c = (Ok (n, off, chunks), (a1, c1)) /\ torn (ca_file a) off (concat chunks) f
  | CEdit i h told => exists c n off chunks a1 c1, edited a i h = Ok c /\
      write_begin fuel new_comp comp flush (stored_ops dc new_decomp fuel) (told_number i told) a c = (Ok (n, off, chunks), (a1, c1)) /\
      torn (ca_file a) off (concat chunks) f
  | CRemove _ => f = ca_file a   (* nothing is written *)
  end.
End Histories.

(** The blobs of the clusters. *)
Definition blobs_of (L : list (option (Z * ccell))) : list (option (list bytes)) := map (option_map (fun c => cc_blobs (snd c))) L.
