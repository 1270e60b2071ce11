(** What C74 says: a cluster object that is kept by the user, edited and written
    again and again ([cluster = zim.get_cluster_by_index(n)] or
    [zim.new_cluster()], then any of its methods and [cluster.flush()] in any
    order). *)
From Coq Require Import List ZArith Bool.
From Verif Require Import Base Infobyte Reader ReaderSpec Cluster ClusterSpec ClusterWrapper ClusterWrapperSpec Archive ArchiveCluster ArchiveClusterSpec.
Import ListNotations.
Open Scope Z_scope.

(** An edit of the object (or a query), or writing it, with or without telling
    [write_cluster] its number. *)
Inductive ostep :=
| OEdit (e : edit)
| OFlush (told : bool).

(** The same on lists of blobs: what was written last ([None]: nothing yet), what
    the object shows, and the removed indices that C29 speaks of. *)
Record olist := mkOlist { ol_written : option (list bytes); ol_shown : list bytes; ol_marks : list Z }.
Definition written_blobs (s : olist) : list bytes := match ol_written s with Some b => b | None => [] end.
(** [fresh]: the object was made by [new_cluster]; it is never reset. *)
Definition ostep_list (fresh : bool) (s : olist) (o : ostep) : olist :=
  match o with
  | OEdit e => mkOlist (ol_written s) (edit_list fresh (written_blobs s) (ol_shown s) e) (mark fresh (ol_marks s) e)
  | OFlush _ => mkOlist (Some (ol_shown s)) (ol_shown s) (if fresh then ol_marks s else [])
  end.
Definition osteps_list (fresh : bool) (s : olist) (h : list ostep) : olist := fold_left (ostep_list fresh) h s.

(** Edits with sensible arguments; with [safe], those for which C29 holds.  With
    [gaps], the number is told. *)
Definition ostep_ok (fuel : nat) (safe gaps : bool) (s : olist) (o : ostep) : Prop :=
  match o with
  | OEdit e => edit_ok fuel (ol_shown s) e /\ (safe = true -> edit_safe (ol_shown s) (ol_marks s) e)
  | OFlush told => told = true \/ gaps = false
  end.

(** How much a compressor returns depends on the data only, not on how the data
    was cut into pieces. *)
Definition steady {K} (new_comp : ctype -> res K) comp flush : Prop :=
  forall c k xs ys a b, new_comp c = Ok k -> concat xs = concat ys ->
    compresses comp flush k xs a -> compresses comp flush k ys b -> zlen (concat a) = zlen (concat b).

Section Object.
Variable fuel : nat.
Context {K : Type}.
Variable new_comp : ctype -> res K.
Variable comp : K -> bytes -> res (bytes * K).
Variable flush : K -> res bytes.
Context {I : Type}.
Variable ops : cops I.
Variable n : Z.   (* its number *)

(** One step; a flush returns the number. *)
Definition perform_ostep (o : ostep) (a : carchive) (c : cobj I) : res Z * (carchive * cobj I) :=
  match o with
  | OEdit e =>
      let '(r, w) := perform_edit (op_inner ops (ca_file a)) fuel e (co_wrap c) in
      (do _ <- r ;; Ok n, (a, co_set w c))
  | OFlush told => write_cluster fuel new_comp comp flush ops (told_number n told) a c
  end.

(** The steps are performed one after the other, all of them return.  [big]: the
    loops of the model are long enough. *)
Inductive object_runs (fresh safe gaps : bool) (big : carchive -> olist -> Prop) : carchive -> cobj I -> olist -> list ostep -> carchive -> cobj I -> Prop :=
| object_nil a c s : big a s -> object_runs fresh safe gaps big a c s [] a c
| object_cons a c s o m a1 c1 h a' c' : big a s -> ostep_ok fuel safe gaps s o -> perform_ostep o a c = (Ok m, (a1, c1)) ->
    object_runs fresh safe gaps big a1 c1 (ostep_list fresh s o) h a' c' -> object_runs fresh safe gaps big a c s (o :: h) a' c'.
Definition roomy (a : carchive) (s : olist) : Prop := zlen (cluster_data true (written_blobs s)) + zlen (ca_file a) + 2 <= Z.of_nat fuel.

(** What the object answers. *)
Definition object_shows (a : carchive) (c : cobj I) (blobs : list bytes) : Prop :=
  forall q e, wrapper_query q -> width_free q = true -> sensible q -> inside blobs q ->
    wanswer e blobs q (fst (wask (op_inner ops (ca_file a)) fuel q (co_wrap c))).
End Object.
