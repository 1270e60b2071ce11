(** Model of pyzim/spaceallocator.py. *)
From Coq Require Import List ZArith Bool.
From Verif Require Import Base.
Import ListNotations.
Open Scope Z_scope.

(** spaceallocator.py 48-64: the attributes [free_blocks] (list of
    (start, length) tuples) and [file_end].  The lock is not represented: each
    operation runs entirely under it, so operations are atomic. *)
Record allocator := mkAlloc { free_blocks : list (Z * Z); file_end : Z }.

(** [SpaceAllocator(file_end=e)], lines 48-64. *)
Definition new_allocator (e : Z) : allocator := mkAlloc [] e.

(** lines 91-96: scan for the smallest sufficient block; [best] is the pair
    (best_index, min_size), [None] while both are [None]. *)
Fixpoint find_best (blocks : list (Z * Z)) (index : nat) (size : Z)
    (best : option (nat * Z)) : option (nat * Z) :=
  match blocks with
  | [] => best
  | (_, len) :: r =>
      let better := match best with None => true | Some (_, m) => len <? m end in
      let best' := if (size <=? len) && better then Some (index, len) else best in
      find_best r (S index) size best'
  end.

(** Python [l[i] = x] for a valid index. *)
Fixpoint list_set {A} (l : list A) (i : nat) (x : A) : list A :=
  match l, i with
  | [], _ => []
  | _ :: r, O => x :: r
  | y :: r, S i' => y :: list_set r i' x
  end.

(** Python [l.pop(i)] / [del l[i]] for a valid index. *)
Fixpoint list_pop {A} (l : list A) (i : nat) : list A :=
  match l, i with
  | [], _ => []
  | _ :: r, O => r
  | y :: r, S i' => y :: list_pop r i'
  end.

(** Python [l.insert(i, x)] for [0 <= i <= len(l)]. *)
Fixpoint list_insert {A} (l : list A) (i : nat) (x : A) : list A :=
  match i, l with
  | O, _ => x :: l
  | S i', y :: r => y :: list_insert r i' x
  | S _, [] => [x]
  end.

(** [SpaceAllocator.allocate], lines 66-130 (logging omitted). *)
Definition allocate (s : allocator) (block_size : Z) : res (Z * allocator) :=
  if block_size <? 0 then Err AssertionError
  else if block_size =? 0 then Ok (file_end s, s)
  else
    match find_best (free_blocks s) 0 block_size None with
    | Some (best_index, _) =>
        (* lines 98-109 *)
        match nth_error (free_blocks s) best_index with
        | None => Err IndexError
        | Some (start, length) =>
            if block_size <? length then
              Ok (start, mkAlloc (list_set (free_blocks s) best_index
                                    (start + block_size, length - block_size))
                                 (file_end s))
            else
              Ok (start, mkAlloc (list_pop (free_blocks s) best_index) (file_end s))
        end
    | None =>
        (* lines 111-124: trailing free block *)
        match rev (free_blocks s) with
        | (start, length) :: _ =>
            if start + length =? file_end s then
              Ok (start, mkAlloc (list_pop (free_blocks s) (Datatypes.length (free_blocks s) - 1))
                                 (file_end s + Z.max (block_size - length) 0))
            else
              Ok (file_end s, mkAlloc (free_blocks s) (file_end s + block_size))
        | [] =>
            (* lines 126-130 *)
            Ok (file_end s, mkAlloc (free_blocks s) (file_end s + block_size))
        end
    end.

(** lines 155-160: index after the last block whose start is [<= start]. *)
Fixpoint find_insert (blocks : list (Z * Z)) (i : nat) (start : Z) (insert_index : nat) : nat :=
  match blocks with
  | [] => insert_index
  | (bs, _) :: r => find_insert r (S i) start (if bs <=? start then S i else insert_index)
  end.

(** lines 166-190: the merge loop; [prev] is [prev_block] = [new_blocks[i-1]],
    [rest] is [new_blocks[i:]].  The in-place edits of [new_blocks] are
    expressed by rebuilding the list. *)
Fixpoint merge_blocks (prev : Z * Z) (rest : list (Z * Z)) : list (Z * Z) :=
  match rest with
  | [] => [prev]
  | (block_start, block_length) :: r =>
      let prev_end := fst prev + snd prev in
      if block_start <=? prev_end then
        merge_blocks (fst prev, Z.max prev_end (block_start + block_length) - fst prev) r
      else prev :: merge_blocks (block_start, block_length) r
  end.

Definition merge_all (blocks : list (Z * Z)) : list (Z * Z) :=
  match blocks with [] => [] | b :: r => merge_blocks b r end.

(** [SpaceAllocator.mark_free], lines 132-192. *)
Definition mark_free (s : allocator) (start length : Z) : res allocator :=
  if (start <? 0) || (length <? 0) then Err AssertionError
  else if length =? 0 then Ok s
  else
    let insert_index := find_insert (free_blocks s) 0 start 0 in
    let new_blocks := list_insert (free_blocks s) insert_index (start, length) in
    Ok (mkAlloc (merge_all new_blocks) (file_end s)).
