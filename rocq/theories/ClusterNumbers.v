(** Concurrent calls of [Zim._new_cluster_num], archive.py 758-770 (called by
    [write_cluster] for a new cluster, 1756, outside of any lock). *)
From Coq Require Import List ZArith Bool.
Import ListNotations.
Open Scope Z_scope.

(** Where a thread is: between calls; after 768 [cluster_num = self._cluster_num];
    in the middle of 769 [self._cluster_num += 1], the attribute having been read. *)
Inductive cpc :=
| CIdle
| CRead (cluster_num : Z)
| CAdd (cluster_num old : Z).

Record cthread := mkCthread { ct_todo : nat; ct_pc : cpc }.

(** The attribute [_cluster_num], the threads, and the numbers returned so far
    with the thread that got them, in the order of the returns. *)
Record cconc := mkCconc { cc_num : Z; cc_threads : nat -> cthread; cc_log : list (nat * Z) }.

Definition set_cthread (t : nat) (th : cthread) (f : nat -> cthread) : nat -> cthread :=
  fun u => if Nat.eqb u t then th else f u.

(** One step of thread [t]: a read or a write of the attribute; [None] if the
    thread has no more calls to make. *)
Definition cstep (t : nat) (s : cconc) : option cconc :=
  let th := cc_threads s t in
  match ct_pc th with
  | CIdle =>
      match ct_todo th with
      | O => None
      | S n => Some (mkCconc (cc_num s) (set_cthread t (mkCthread n (CRead (cc_num s))) (cc_threads s)) (cc_log s))
      end
  | CRead a => Some (mkCconc (cc_num s) (set_cthread t (mkCthread (ct_todo th) (CAdd a (cc_num s))) (cc_threads s)) (cc_log s))
  | CAdd a b => Some (mkCconc (b + 1) (set_cthread t (mkCthread (ct_todo th) CIdle) (cc_threads s)) (cc_log s ++ [(t, a)]))
  end.

(** A schedule is any sequence of thread numbers; a thread that cannot move is skipped. *)
Definition csched (sched : list nat) (s : cconc) : cconc :=
  fold_left (fun s t => match cstep t s with Some s' => s' | None => s end) sched s.
(** [calls t]: how many numbers thread [t] asks for. *)
Definition cstart (num : Z) (calls : nat -> nat) : cconc := mkCconc num (fun t => mkCthread (calls t) CIdle) [].
