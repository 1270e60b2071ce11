(** What the history alone says about an object, newest event first. *)
From Coq Require Import List ZArith Bool Arith.
From Verif Require Import Base Modifiable.
Import ListNotations.
Open Scope Z_scope.

(** Was the object itself modified after its last flush? *)
Fixpoint modified (o : nat) (newest_first : list mop) : bool :=
  match newest_first with
  | [] => false
  | MModify p :: r => if Nat.eq_dec p o then true else modified o r
  | MResize p _ :: r => if Nat.eq_dec p o then true else modified o r
  | MFlush p :: r => if Nat.eq_dec p o then false else modified o r
  | _ :: r => modified o r
  end.
(** Is [c] currently attached to [o]? *)
Fixpoint attached (o c : nat) (newest_first : list mop) : bool :=
  match newest_first with
  | [] => false
  | MAdd p d :: r => if Nat.eq_dec p o then if Nat.eq_dec d c then true else attached o c r else attached o c r
  | MRemove p d :: r => if Nat.eq_dec p o then if Nat.eq_dec d c then false else attached o c r else attached o c r
  | _ :: r => attached o c r
  end.
(** Transitive sub-objects, the object included. *)
Inductive part_of (h : list mop) : nat -> nat -> Prop :=
| part_self : forall o, part_of h o o
| part_sub : forall o c x, attached o c h = true -> part_of h c x -> part_of h o x.
(** The structure is a tree (or at least has no cycle): parts have smaller height. *)
Definition acyclic (height : nat -> nat) (h : list mop) : Prop :=
  forall o c, attached o c h = true -> (height c < height o)%nat.
(** Size of the object now. *)
Fixpoint size_now (sizes : nat -> Z) (o : nat) (newest_first : list mop) : Z :=
  match newest_first with
  | [] => sizes o
  | MResize p n :: r => if Nat.eq_dec p o then n else size_now sizes o r
  | _ :: r => size_now sizes o r
  end.
Definition flushed (o : nat) (h : list mop) : bool :=
  existsb (fun x => match x with MFlush p => Nat.eqb p o | _ => false end) h.
(** Size at the last flush; at the very first one the size it had on disk. *)
Fixpoint size_at_flush (sizes : nat -> Z) (inits : nat -> option Z) (o : nat) (newest_first : list mop) : option Z :=
  match newest_first with
  | [] => None
  | MFlush p :: r =>
      if Nat.eq_dec p o
      then Some (match flushed o r, inits o with false, Some n => n | _, _ => size_now sizes o r end)
      else size_at_flush sizes inits o r
  | _ :: r => size_at_flush sizes inits o r
  end.
