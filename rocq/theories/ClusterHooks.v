(** Processors that look at, or replace, the clusters that are read (C101): the
    hooks [before_cluster_get] and [after_cluster_get] of [get_cluster_at],
    archive.py 1590-1624, with any cluster cache; processor.py 72-103.

    Simplifications: the archive is open for reading, so that clusters are not
    wrapped (1616-1619) and cannot be changed.  A cluster object is the offset that
    it reads from (cluster.py 32-52: nothing is read when it is made), or something
    a processor made.  The hooks do not fail, and do not use the archive. *)
From Coq Require Import List ZArith Bool.
From Verif Require Import Base PointerList Cluster Cache EntryCache.
Import ListNotations.
Open Scope Z_scope.

Section Hooks.
Context {P X : Type}.

(** A cluster: one of the archive, which reads from this offset of the file, or one
    that a processor made. *)
Inductive clu := FromFile (full_location : Z) | Other (x : X).
(** [before_cluster_get(location)], processor.py 72-85, and
    [after_cluster_get(cluster)], 87-103, which returns the cluster to use. *)
Record cproc := mkCproc { before_cget : Z -> P -> P; after_cget : clu -> P -> clu * P }.

(** The cluster cache, the objects that were made, and what the processors remember. *)
Record cstate := mkCs { cs_cache : ecache; cs_objs : list clu; cs_mem : P }.
Definition with_cs_cache (w : cstate) (c : ecache) : cstate := mkCs c (cs_objs w) (cs_mem w).

(** [Zim._processors] (2069-2081), [Zim._base_offset] and the cluster pointer list. *)
Variable procs : list cproc.
Variable base : Z.
Variable ptrs : list Z.

(** 1605-1606 *)
Fixpoint cask_before (l : list cproc) (location : Z) (p : P) : P :=
  match l with [] => p | x :: r => cask_before r location (before_cget x location p) end.
(** 1622-1624 *)
Fixpoint cpass_on (l : list cproc) (c : clu) (p : P) : clu * P :=
  match l with
  | [] => (c, p)
  | x :: r => let '(c, p) := after_cget x c p in cpass_on r c p
  end.
(** [_on_cluster_cache_leave], 718-739, for every cluster that leaves: only the
    assertion is left of it. *)
Definition on_cluster_leave (evs : list (leave Z nat)) : res unit :=
  if existsb (fun e => lv_key e <? 0) evs then Err AssertionError else Ok tt.

(** [get_cluster_at], 1590-1624. *)
Definition hget_cluster_at (location : Z) : M cstate clu := fun w =>
  let p := cask_before procs location (cs_mem w) in
  let full_location := base + location in
  let finish (c : ecache) (objs : list clu) (evs : list (leave Z nat)) (r : res nat) :=
    match on_cluster_leave evs, r with
    | Err x, _ => (Err x, mkCs c objs p)
    | _, Err x => (Err x, mkCs c objs p)
    | Ok _, Ok i =>
        match nth_error objs i with
        | None => (Err IndexError, mkCs c objs p)
        | Some o => let '(o, p) := cpass_on procs o p in (Ok o, mkCs c objs p)
        end
    end in
  match estep (cs_cache w) (CHas full_location) with
  | (_, _, Ok (RBool true)) =>
      let '(c, evs, r) := estep (cs_cache w) (CGet full_location) in
      finish c (cs_objs w) evs (match r with Ok (RVal i) => Ok i | Ok _ => Err TypeError | Err x => Err x end)
  | _ =>
      (* the assertion of [Cluster.__init__], cluster.py 44 *)
      if full_location <? 0 then (Err AssertionError, mkCs (cs_cache w) (cs_objs w) p)
      else
      let i := length (cs_objs w) in
      let '(c, evs, r) := estep (cs_cache w) (CPush full_location i true) in
      finish c (cs_objs w ++ [FromFile full_location]) evs (match r with Ok _ => Ok i | Err x => Err x end)
  end.
(** [get_cluster_by_index], 1626-1635. *)
Definition hget_cluster_by_index (i : Z) : M cstate clu :=
  if i <? 0 then raise AssertionError
  else match get_by_index ptrs i with
       | Err x => raise x
       | Ok pos => hget_cluster_at pos
       end.

(** An archive that was just opened ([_init_caches], 227-252). *)
Definition cs_new (cl : cache_class) (p : P) : cstate := mkCs (ecache_new cl) [] p.
End Hooks.
Arguments clu : clear implicits.
Arguments cproc : clear implicits.
Arguments cstate : clear implicits.
