(** What C66 and C67 say about changes to clusters that the archive writes by
    itself: archives as tables of clusters, histories, and which histories leave
    room in the cache. *)
From Coq Require Import List ZArith Bool.
From Verif Require Import Base Dict Cache CacheSpec Cluster ClusterWrapperSpec PointerList AutoFlush.
Import ListNotations.
Open Scope Z_scope.

(** What a user does: set the content of blob [j] of cluster [i] ([entry.set_content]);
    the same and flush the cluster that [set_content] returns; read a blob; add a
    cluster with these blobs; flush the archive. *)
Inductive uop :=
| UContent (i j : Z) (d : bytes)
| UContentFlush (i j : Z) (d : bytes)
| URead (i j : Z)
| UAdd (blobs : list bytes)
| UFlush.

Definition perform_uop (size : Z) place depth (o : uop) : M state (option bytes) :=
  match o with
  | UContent i j d => let* _ := set_content size place depth i j d in ret None
  | UContentFlush i j d => let* _ := set_content_flush size place depth i j d in ret None
  | URead i j => let* d := read_content size place depth i j in ret (Some d)
  | UAdd l => let* _ := add_cluster size place depth l in ret None
  | UFlush => let* _ := flush_archive size place depth in ret None
  end.
(** All of them, one after the other; exceptions are caught. *)
Fixpoint perform_all (size : Z) place depth (ops : list uop) (s : state) : list (res (option bytes)) * state :=
  match ops with
  | [] => ([], s)
  | o :: r => let '(x, s) := perform_uop size place depth o s in let '(xs, s) := perform_all size place depth r s in (x :: xs, s)
  end.

(** The same on a table: the blobs of each cluster, by number. *)
Definition blobs_of (X : list (list bytes)) (i : Z) : list bytes := match znth X i with Some b => b | None => [] end.
Definition ustep (X : list (list bytes)) (o : uop) : list (list bytes) :=
  match o with
  | UContent i j d | UContentFlush i j d => replace_at i (replace_at j d (blobs_of X i)) X
  | UAdd l => X ++ [l]
  | URead _ _ | UFlush => X
  end.
Definition uanswer (X : list (list bytes)) (o : uop) : option bytes :=
  match o with URead i j => znth (blobs_of X i) j | _ => None end.
Definition uvalid (X : list (list bytes)) (o : uop) : Prop :=
  match o with
  | UContent i j _ | UContentFlush i j _ => 0 <= i < zlen X /\ 0 <= j <= zlen (blobs_of X i)
  | URead i j => 0 <= i < zlen X /\ 0 <= j < zlen (blobs_of X i)
  | UAdd _ | UFlush => True
  end.
Definition usteps (X : list (list bytes)) (ops : list uop) : list (list bytes) := fold_left ustep ops X.
Fixpoint uanswers (X : list (list bytes)) (ops : list uop) : list (option bytes) :=
  match ops with [] => [] | o :: r => uanswer X o :: uanswers (ustep X o) r end.
Fixpoint all_valid (X : list (list bytes)) (ops : list uop) : Prop :=
  match ops with [] => True | o :: r => uvalid X o /\ all_valid (ustep X o) r end.

(** The archive, opened afresh, shows exactly these clusters. *)
Definition shows (size : Z) place depth (s : state) (X : list (list bytes)) : Prop :=
  zlen (pl_ptrs (s_ptrs (opened s))) = zlen X /\
  forall i j, 0 <= i < zlen X -> 0 <= j ->
    fst (read_content size place depth i j (opened s)) = match znth (blobs_of X i) j with Some d => Ok d | None => Err BlobNotFound end.

(** An archive as it is when it has been opened: every cluster is stored
    somewhere, and no two at the same place. *)
Record just_opened (s : state) (X : list (list bytes)) : Prop := mkJustOpened {
  jo_same : opened s = s;
  jo_count : zlen (s_saved s) = zlen X;
  jo_apart : NoDup (s_saved s);
  jo_positive : Forall (fun p => 0 <= p) (s_saved s);
  jo_stored : forall i p, znth (s_saved s) i = Some p -> stored_at (s_disk s) p = znth X i }.

(** New clusters are put where nothing is (C37). *)
Definition place_ok (place : list Z -> list bytes -> Z) : Prop := forall used b, 0 <= place used b /\ ~ In (place used b) used.

(** Clusters that were changed and not flushed by hand since the last flush of
    the archive. *)
Definition pending_after (P : list Z) (o : uop) : list Z :=
  match o with
  | UContent i _ _ => if existsb (Z.eqb i) P then P else i :: P
  | UContentFlush i _ _ => filter (fun k => negb (Z.eqb i k)) P
  | UFlush => []
  | URead _ _ | UAdd _ => P
  end.
(** There is room in the cache: the changed cluster is one of those, or there are
    fewer of them than the cache holds. *)
Definition leaves_room (size : Z) (P : list Z) (o : uop) : Prop :=
  match o with
  | UContent i _ _ | UContentFlush i _ _ => In i P \/ zlen P < size
  | UAdd _ => zlen P < size
  | URead _ _ | UFlush => True
  end.
Fixpoint all_roomy (size : Z) (P : list Z) (ops : list uop) : Prop :=
  match ops with [] => True | o :: r => leaves_room size P o /\ all_roomy size (pending_after P o) r end.

(** Whether the archive knows at the end that there is something to write: since
    the last flush a cluster was written by hand or added. *)
Definition noticed_after (b : bool) (o : uop) : bool :=
  match o with UContentFlush _ _ _ | UAdd _ => true | UFlush => false | _ => b end.
Definition noticed (ops : list uop) : bool := fold_left noticed_after ops false.
Definition left_pending (ops : list uop) : list Z := fold_left pending_after ops [].
