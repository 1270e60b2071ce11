(** What C97 says: a table of the places of clusters that is kept up to date from
    what processors are told. *)
From Coq Require Import List ZArith Bool.
From Verif Require Import Base Infobyte Reader Cluster ClusterWrapper PointerList Archive ArchiveCluster ArchiveClusterSpec ClusterWatch.
Import ListNotations.
Open Scope Z_scope.

(** Where the observer believes each cluster is. *)
Definition table := Z -> option Z.
Definition note (T : table) (e : cevent) : table :=
  match e with
  | BeforeWrite => T
  | AfterWrite _ new n => fun i => if i =? n then Some new else T i
  end.
Definition follow (T : table) (l : list cevent) : table := fold_left note l T.
(** Every notice tells where the table had the cluster before ([None]: it is new). *)
Fixpoint linked (T : table) (l : list cevent) : Prop :=
  match l with
  | [] => True
  | e :: r => match e with BeforeWrite => True | AfterWrite old _ n => old = T n end /\ linked (note T e) r
  end.

(** The pointer list of the archive has cluster [i] at [p]. *)
Definition located (a : carchive) (i p : Z) : Prop := get_by_index (pl_ptrs (ca_ptrs a)) i = Ok p.
(** The table is right about the clusters [X] of the archive and knows no others
    from the next number on. *)
Definition right_table (T : table) (a : carchive) (X : list (option (list bytes))) : Prop :=
  (forall i b, znth X i = Some (Some b) -> exists p, T i = Some p /\ located a i p) /\
  (forall i, zlen X <= i -> T i = None).

Section Watch.
Variable fuel : nat.
Context {D : Type}.
Variable dc : decomp D.
Variable new_decomp : ctype -> res D.
Context {K : Type}.
Variable new_comp : ctype -> res K.
Variable comp : K -> bytes -> res (bytes * K).
Variable flush : K -> res bytes.
Variable kd : ckind.

(** What a user reads at a location: [zim.get_cluster_at(p)] has exactly these
    blobs. *)
Definition shows_at (a : carchive) (p : Z) (blobs : list bytes) : Prop :=
  (do c <- get_cluster_at fuel dc new_decomp kd a p ;;
   fst (wnumber_of_blobs (inner_cluster dc new_decomp (ca_file a) fuel) (co_wrap c))) = Ok (zlen blobs) /\
  forall j, 0 <= j ->
  (do c <- get_cluster_at fuel dc new_decomp kd a p ;;
   fst (wread_blob (inner_cluster dc new_decomp (ca_file a) fuel) fuel j None None (co_wrap c))) =
  match znth blobs j with Some b => Ok b | None => Err BlobNotFound end.

(** [happens] (ArchiveClusterSpec.v), with everything the processors are told. *)
Inductive heard (ok : list (option (list bytes)) -> cop -> Prop) :
  carchive -> list (option (list bytes)) -> list cop -> carchive -> list (option (list bytes)) -> list cevent -> Prop :=
| heard_nil a X : heard ok a X [] a X []
| heard_cons a X o n a1 e ops a' X' l : ample fuel a X -> cop_ok fuel X o -> ok X o ->
    perform_cop_t fuel dc new_decomp new_comp comp flush kd a o = (Ok n, a1, e) ->
    heard ok a1 (cop_list X o) ops a' X' l -> heard ok a X (o :: ops) a' X' (e ++ l).
End Watch.
