(** Model of [ModifiableMixIn], modifiable.py 9-177.  Objects are numbered; the
    disk size a subclass computes is kept beside the object. *)
From Coq Require Import List ZArith Bool Arith.
From Verif Require Import Base.
Import ListNotations.
Open Scope Z_scope.

(** The attributes, modifiable.py 33-42; [m_size] is what [get_disk_size]
    returns, [m_init] what [get_initial_disk_size] returns (None: the default
    of 168, [get_disk_size]). *)
Record mobj := mkM { m_dirty : bool; m_subs : list nat; m_old : option Z; m_size : Z; m_init : option Z }.
Definition mheap := nat -> mobj.
Definition hset (h : mheap) (o : nat) (x : mobj) : mheap := fun p => if Nat.eqb p o then x else h p.

(** [dirty], 44-52: every child's property is evaluated when the own flag is
    off ([any] over a list); a cyclic structure exhausts the stack. *)
Fixpoint is_dirty (fuel : nat) (h : mheap) (o : nat) : res bool :=
  match fuel with
  | O => Err RecursionErr
  | S fuel =>
      if m_dirty (h o) then Ok true
      else
        (fix any (l : list nat) : res bool :=
           match l with
           | [] => Ok false
           | c :: r => do b <- is_dirty fuel h c ;; do b' <- any r ;; Ok (b || b')
           end) (m_subs (h o))
  end.

(** [mark_dirty], 64-70, as every modification of an object does it. *)
Definition mark_dirty (h : mheap) (o : nat) : mheap :=
  hset h o (mkM true (m_subs (h o)) (m_old (h o)) (m_size (h o)) (m_init (h o))).
(** A modification that changes the disk size (subclasses). *)
Definition resize (h : mheap) (o : nat) (n : Z) : mheap :=
  hset h o (mkM true (m_subs (h o)) (m_old (h o)) n (m_init (h o))).
(** [add_submodifiable], 72-83. *)
Definition add_sub (h : mheap) (o c : nat) : mheap :=
  if existsb (Nat.eqb c) (m_subs (h o)) then h
  else hset h o (mkM (m_dirty (h o)) (m_subs (h o) ++ [c]) (m_old (h o)) (m_size (h o)) (m_init (h o))).
(** [list.remove]: the first occurrence. *)
Fixpoint remove_nat (c : nat) (l : list nat) : list nat :=
  match l with [] => [] | x :: r => if Nat.eqb x c then r else x :: remove_nat c r end.
(** [remove_submodifiable], 85-98. *)
Definition remove_sub (h : mheap) (o c : nat) : res mheap :=
  if existsb (Nat.eqb c) (m_subs (h o)) then
    Ok (hset h o (mkM (m_dirty (h o)) (remove_nat c (m_subs (h o))) (m_old (h o)) (m_size (h o)) (m_init (h o))))
  else Err ValueError.
(** [after_flush_or_read], 100-118. *)
Definition after_flush (h : mheap) (o : nat) : mheap :=
  let x := h o in
  let size := match m_old x with
              | None => match m_init x with Some n => n | None => m_size x end
              | Some _ => m_size x
              end in
  hset h o (mkM false (m_subs x) (Some size) (m_size x) (m_init x)).

Inductive mop := MModify (o : nat) | MResize (o : nat) (n : Z) | MAdd (o c : nat) | MRemove (o c : nat) | MFlush (o : nat).
Definition mstep (h : mheap) (x : mop) : mheap :=
  match x with
  | MModify o => mark_dirty h o
  | MResize o n => resize h o n
  | MAdd o c => add_sub h o c
  | MRemove o c => match remove_sub h o c with Ok h' => h' | Err _ => h end
  | MFlush o => after_flush h o
  end.
(** Fresh objects (33-42) with given sizes. *)
Definition mfresh (sizes : nat -> Z) (inits : nat -> option Z) : mheap :=
  fun o => mkM false [] None (sizes o) (inits o).
Definition mrun (sizes : nat -> Z) (inits : nat -> option Z) (h : list mop) : mheap :=
  fold_left mstep h (mfresh sizes inits).
