(** Specification of the linked list: histories of operations on a plain list
    of (element identity, value) pairs. *)
From Coq Require Import List ZArith Bool.
From Verif Require Import Base LinkedList.
Import ListNotations.
Open Scope Z_scope.

Section Spec.
Context {V : Type}.

(** Operations a holder of the list and of its element objects can perform. *)
Inductive dop :=
| DAppend (v : V) | DPrepend (v : V)
| DMoveFront (i : nat)   (* remove_element(e); prepend(e) *)
| DMoveBack (i : nat)    (* remove_element(e); append(e) *)
| DRemove (i : nat) | DRemoveLast | DRemoveFirst | DSwap (i : nat)
| DSetValue (i : nat) (v : V) | DClear.

(** The code's operation; [i] is the identity of an element object. *)
Definition dstep (d : dll V) (op : dop) : res (dll V) :=
  match op with
  | DAppend v => Ok (snd (dll_append d v))
  | DPrepend v => Ok (snd (dll_prepend d v))
  | DMoveFront i => do d1 <- dll_remove_element d i ;; Ok (dll_prepend_elem d1 i)
  | DMoveBack i => do d1 <- dll_remove_element d i ;; Ok (dll_append_elem d1 i)
  | DRemove i => dll_remove_element d i
  | DRemoveLast => dll_remove_last d
  | DRemoveFirst => dll_remove_first d
  | DSwap i => Ok (dll_swap_forward d i)
  | DSetValue i v => Ok (dll_set_value d i v)
  | DClear => Ok (dll_clear d)
  end.

(** The same operation on a plain list; elements carry their identity. *)
Definition drop_id (i : nat) (l : list (nat * V)) : list (nat * V) :=
  filter (fun x => negb (Nat.eqb (fst x) i)) l.
Definition pick_id (i : nat) (l : list (nat * V)) : list (nat * V) :=
  filter (fun x => Nat.eqb (fst x) i) l.
Fixpoint swap_id (i : nat) (l : list (nat * V)) : list (nat * V) :=
  match l with
  | a :: ((b :: r) as t) => if Nat.eqb (fst b) i then b :: a :: r else a :: swap_id i t
  | _ => l
  end.
Definition lstep (fresh : nat) (l : list (nat * V)) (op : dop) : list (nat * V) :=
  match op with
  | DAppend v => l ++ [(fresh, v)]
  | DPrepend v => (fresh, v) :: l
  | DMoveFront i => pick_id i l ++ drop_id i l
  | DMoveBack i => drop_id i l ++ pick_id i l
  | DRemove i => drop_id i l
  | DRemoveLast => removelast l
  | DRemoveFirst => tl l
  | DSwap i => swap_id i l
  | DSetValue i v => map (fun x => if Nat.eqb (fst x) i then (i, v) else x) l
  | DClear => []
  end.

(** An operation is applicable when the element it names is in the list, and
    the list is not empty for the pops. *)
Definition applicable (l : list (nat * V)) (op : dop) : Prop :=
  match op with
  | DMoveFront i | DMoveBack i | DRemove i | DSwap i | DSetValue i _ => In i (map fst l)
  | DRemoveLast | DRemoveFirst => l <> []
  | _ => True
  end.
(** Whole histories: run both sides, requiring every operation to be applicable. *)
Fixpoint drun (d : dll V) (ops : list dop) : res (dll V) :=
  match ops with
  | [] => Ok d
  | op :: r => do d' <- dstep d op ;; drun d' r
  end.
Fixpoint lrun (fresh : nat) (l : list (nat * V)) (ops : list dop) : list (nat * V) :=
  match ops with
  | [] => l
  | op :: r => lrun (match op with DAppend _ | DPrepend _ => S fresh | _ => fresh end) (lstep fresh l op) r
  end.
Fixpoint all_applicable (fresh : nat) (l : list (nat * V)) (ops : list dop) : Prop :=
  match ops with
  | [] => True
  | op :: r => applicable l op /\
      all_applicable (match op with DAppend _ | DPrepend _ => S fresh | _ => fresh end) (lstep fresh l op) r
  end.

End Spec.
Arguments dop V : clear implicits.
