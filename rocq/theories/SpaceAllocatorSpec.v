(** Independent specification of a space allocator: which bytes of the file are
    in use, as a set, and histories of calls. *)
From Coq Require Import List ZArith Bool Sorted.
From Verif Require Import Base SpaceAllocator.
Import ListNotations.
Open Scope Z_scope.

(** A history of API calls, with the position returned by each allocation. *)
Inductive alloc_event :=
| EAlloc (p n : Z)      (* allocate(n) returned p *)
| EFree (start len : Z). (* mark_free(start, len) *)

(** The bytes in use after a history: initially the bytes [0, e0) that were
    already in the file. *)
Definition live_step (live : Z -> Prop) (ev : alloc_event) : Z -> Prop :=
  match ev with
  | EAlloc p n => fun x => live x \/ p <= x < p + n
  | EFree start len => fun x => live x /\ ~ (start <= x < start + len)
  end.

Definition live_after (e0 : Z) (h : list alloc_event) : Z -> Prop :=
  fold_left live_step h (fun x => 0 <= x < e0).

(** [executes s h s']: performing the calls of [h] on [s] leads to [s'], each
    allocation returns the recorded position, and the caller only frees parts
    of the file (but possibly the same bytes twice, or parts of regions). *)
Inductive executes : allocator -> list alloc_event -> allocator -> Prop :=
| ex_nil : forall s, executes s [] s
| ex_alloc : forall s n p s1 h s2,
    allocate s n = Ok (p, s1) -> executes s1 h s2 -> executes s (EAlloc p n :: h) s2
| ex_free : forall s start len s1 h s2,
    start + len <= file_end s ->
    mark_free s start len = Ok s1 -> executes s1 h s2 -> executes s (EFree start len :: h) s2.

(** The bytes the allocator lists as free. *)
Definition listed_free (s : allocator) (x : Z) : Prop :=
  exists b, In b (free_blocks s) /\ fst b <= x < fst b + snd b.

(** Sorted, positive lengths, gaps between any two blocks, inside the file. *)
Definition canonical (s : allocator) : Prop :=
  Forall (fun b => 0 <= fst b /\ 0 < snd b /\ fst b + snd b <= file_end s) (free_blocks s) /\
  StronglySorted (fun a b => fst a + snd a < fst b) (free_blocks s).
