(** Properties C01-C04: the space allocator. *)
From Coq Require Import List ZArith Bool Lia.
From Verif Require Import Base SpaceAllocator SpaceAllocatorSpec SpaceAllocatorProofs.
Import ListNotations.
Open Scope Z_scope.

(** C01: an allocated region never intersects data in use. *)
Theorem C01_alloc_never_overlaps_live : forall e0 h s n p s', 0 <= e0 ->
  executes (new_allocator e0) h s -> allocate s n = Ok (p, s') ->
  forall x, p <= x < p + n -> ~ live_after e0 h x.
Proof. exact no_overlap_lemma. Qed.
Print Assumptions C01_alloc_never_overlaps_live.

(** Allocation never fails for a non-negative size. *)
Theorem C01_alloc_total : forall e0 h s n, 0 <= e0 -> 0 <= n -> executes (new_allocator e0) h s ->
  exists p s', allocate s n = Ok (p, s').
Proof. exact allocate_total_lemma. Qed.
Print Assumptions C01_alloc_total.

(** C02: the free list describes exactly the bytes of the file not in use. *)
Theorem C02_free_space_conserved : forall e0 h s, 0 <= e0 -> executes (new_allocator e0) h s ->
  forall x, listed_free s x <-> 0 <= x < file_end s /\ ~ live_after e0 h x.
Proof. exact conserved_lemma. Qed.
Print Assumptions C02_free_space_conserved.

(** C03: the free list is always sorted and fully merged. *)
Theorem C03_free_list_canonical : forall e0 h s, 0 <= e0 -> executes (new_allocator e0) h s -> canonical s.
Proof. exact canonical_lemma. Qed.
Print Assumptions C03_free_list_canonical.

(** C04: best fit; the file grows only if no block suffices, and then a
    trailing free block is used up first. *)
Theorem C04_best_fit : forall s n p s', canonical s -> 0 < n -> allocate s n = Ok (p, s') ->
  ((exists len, In (p, len) (free_blocks s) /\ n <= len /\ file_end s' = file_end s /\
      forall b, In b (free_blocks s) -> n <= snd b -> len <= snd b) \/
   ((forall b, In b (free_blocks s) -> snd b < n) /\ file_end s' = p + n /\
      ((p = file_end s /\ ~ listed_free s (file_end s - 1)) \/
       (exists len, In (p, len) (free_blocks s) /\ p + len = file_end s)))).
Proof. exact best_fit_lemma. Qed.
Print Assumptions C04_best_fit.

Theorem C04_file_never_shrinks : forall s h s', canonical s -> executes s h s' -> file_end s <= file_end s'.
Proof. exact monotone_lemma. Qed.
Print Assumptions C04_file_never_shrinks.

(** Non-vacuity: a history with two frees that merge, an overlapping free, a
    best-fit allocation and one that extends the file. *)
Example alloc_history : exists s,
  executes (new_allocator 100)
    [EFree 10 10; EFree 40 30; EFree 20 5; EFree 60 20; EAlloc 10 12; EAlloc 100 50; EFree 90 60; EAlloc 90 100] s /\
  free_blocks s = [(22, 3); (40, 40)] /\ file_end s = 190.
Proof.
  eexists. split.
  - repeat match goal with
    | |- executes _ (EFree _ _ :: _) _ => eapply ex_free; [vm_compute; discriminate|vm_compute; reflexivity|]
    | |- executes _ (EAlloc _ _ :: _) _ => eapply ex_alloc; [vm_compute; reflexivity|]
    end. apply ex_nil.
  - split; reflexivity.
Qed.

(** The side condition on frees is needed: freeing beyond the end of file
    makes the allocator hand out the same byte twice. *)
Example free_beyond_end_double_alloc : exists s1 s2 s3,
  mark_free (new_allocator 50) 60 10 = Ok s1 /\
  allocate s1 5 = Ok (60, s2) /\ allocate s2 20 = Ok (50, s3).
Proof. do 3 eexists. repeat split; vm_compute; reflexivity. Qed.
