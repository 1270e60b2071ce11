(** What processors are told when clusters are written (C97): the hooks of
    [write_cluster], archive.py 1747-1802; processor.py 105-134.

    Simplifications: those of ArchiveCluster.v.  The processors are observers:
    they return the cluster that [before_cluster_write] got, as the default does
    (processor.py 105-117), and nothing that they do fails.  Only the arguments
    that name places are kept: the cluster itself is not. *)
From Coq Require Import List ZArith Bool.
From Verif Require Import Base Infobyte Reader Cluster ClusterWrapper ClusterWrapperSpec PointerList SpaceAllocator Archive ArchiveCluster ArchiveClusterSpec.
Import ListNotations.
Open Scope Z_scope.

(** [before_cluster_write], processor.py 105-117; [after_cluster_write], 119-134. *)
Inductive cevent :=
| BeforeWrite
| AfterWrite (old_offset : option Z) (new_offset cluster_number : Z).

Section Watch.
Variable fuel : nat.
Context {D : Type}.
Variable dc : decomp D.
Variable new_decomp : ctype -> res D.
Context {K : Type}.
Variable new_comp : ctype -> res K.
Variable comp : K -> bytes -> res (bytes * K).
Variable flush : K -> res bytes.
Variable kd : ckind.

(** [write_cluster], archive.py 1726-1804, with the hooks (1747-1748 and
    1795-1802).  A negative number is refused before any hook is called
    (1739-1740).  [old_offset] is the offset of the cluster object after its size
    was computed and before it is moved (1766). *)
Definition write_cluster_t {I} (ops : cops I) (num : option Z) (a : carchive) (c : cobj I) : res Z * (carchive * cobj I) * list cevent :=
  if match num with Some n => n <? 0 | None => false end then (Err ValueError, (a, c), [])
  else
    match write_begin fuel new_comp comp flush ops num a c with
    | (Err e, st) => (Err e, st, [BeforeWrite])
    | (Ok (n, new_offset, chunks), (a, c)) =>
        match write_end fuel new_comp comp flush ops n new_offset chunks a c with
        | (Err e, st) => (Err e, st, [BeforeWrite])
        | (Ok m, st) => (Ok m, st, [BeforeWrite; AfterWrite (co_offset ops c) new_offset n])
        end
    end.

(** The operations of ArchiveClusterSpec.v, with what the processors are told;
    [remove_cluster_by_index] (archive.py 1637-1666) calls no hook. *)
Definition perform_cop_t (a : carchive) (o : cop) : res Z * carchive * list cevent :=
  match o with
  | CNew h =>
      match edited_new fuel h with
      | (Ok _, c) => let '(r, (a, _), l) := write_cluster_t new_ops None a c in (r, a, l)
      | (Err e, _) => (Err e, a, [])
      end
  | CEdit i h told =>
      match edited fuel dc new_decomp kd a i h with
      | Ok c => let '(r, (a, _), l) := write_cluster_t (stored_ops dc new_decomp fuel) (told_number i told) a c in (r, a, l)
      | Err e => (Err e, a, [])
      end
  | CRemove i => let '(r, a) := remove_cluster_by_index fuel dc new_decomp kd a i in (do _ <- r ;; Ok i, a, [])
  end.
End Watch.
