(** Specification vocabulary for pointer lists. *)
From Coq Require Import List ZArith Bool Sorting.Sorted Sorting.Permutation.
From Verif Require Import Base PointerList.
Import ListNotations.
Open Scope Z_scope.

(** [a <= b] in Python's order on bytes. *)
Definition ble (a b : bytes) : Prop := bltb b a = false.

(** [ks] are the keys of the pointers of [l] (no key computation fails). *)
Definition keys_are (keyf : Z -> res bytes) (l : list Z) (ks : list bytes) : Prop :=
  Forall2 (fun p k => keyf p = Ok k) l ks.

(** The list is sorted by key. *)
Definition sorted_by (keyf : Z -> res bytes) (l : list Z) : Prop :=
  exists ks, keys_are keyf l ks /\ StronglySorted ble ks.

(** [i] is the position of the first pointer with the given key. *)
Definition first_with_key (keyf : Z -> res bytes) (l : list Z) (key : bytes) (i : Z) : Prop :=
  (exists p, znth l i = Some p /\ keyf p = Ok key) /\
  forall j q, 0 <= j < i -> znth l j = Some q -> keyf q <> Ok key.

(** Histories of an ordered list. *)
Inductive pop :=
| PAdd (pointer : Z)          (* add(key_func(pointer), pointer) *)
| PRemove (key : bytes).

Definition pop_step (keyf : Z -> res bytes) (o : plist) (op : pop) : plist :=
  match op with
  | PAdd p => match keyf p with
              | Ok k => match pl_add keyf k p o with Ok (_, o') => o' | Err _ => o end
              | Err _ => o
              end
  | PRemove k => match pl_remove keyf k o with Ok o' => o' | Err _ => o end
  end.

(** The specification of the same history on a multiset (list up to
    permutation): an addition adds the pointer, a removal takes out one pointer
    with that key if there is one. *)
Inductive pop_spec (keyf : Z -> res bytes) : list pop -> list Z -> list Z -> Prop :=
| PS_nil : forall l l', Permutation l l' -> pop_spec keyf [] l l'
| PS_add : forall ops p l l', pop_spec keyf ops (p :: l) l' -> pop_spec keyf (PAdd p :: ops) l l'
| PS_remove : forall ops k p l l1 l', keyf p = Ok k -> Permutation l (p :: l1) ->
    pop_spec keyf ops l1 l' -> pop_spec keyf (PRemove k :: ops) l l'
| PS_absent : forall ops k l l', (forall p, In p l -> keyf p <> Ok k) ->
    pop_spec keyf ops l l' -> pop_spec keyf (PRemove k :: ops) l l'.

(** The on-disk object is backed by the bytes of the list. *)
Definition backed_by (w : nat) (o : odlist) (l : list Z) : Prop :=
  od_w o = w /\ od_n o = zlen l /\ 0 <= od_offset o /\
  exists b, ptrs_to_bytes w l = Ok b /\ fread (od_file o) (od_offset o) (zlen b) = b.

(** ** Plain lists, for C76 *)

(** What a user does with a plain pointer list: [l.append(p)],
    [l.set(i, p, add_placeholders)] and [l.remove_by_index(i)]. *)
Inductive lop := LAppend (p : Z) | LSet (i p : Z) (add_placeholders : bool) | LRemove (i : Z).
Definition perform_lop (o : plist) (op : lop) : res plist :=
  match op with
  | LAppend p => pl_append p o
  | LSet i p ap => pl_set i p ap o
  | LRemove i => pl_remove_by_index i o
  end.
(** All results of a history (a failed call leaves the object as it was), and
    the object in the end. *)
Fixpoint lrun (o : plist) (ops : list lop) : list (res unit) * plist :=
  match ops with
  | [] => ([], o)
  | op :: ops => match perform_lop o op with
                 | Ok o' => let (rs, o2) := lrun o' ops in (Ok tt :: rs, o2)
                 | Err e => let (rs, o2) := lrun o ops in (Err e :: rs, o2)
                 end
  end.
(** The same on a list of pointers: the part in front of a position, what comes
    there, the part behind.  Negative positions count from the end. *)
Definition position (l : list Z) (i : Z) : Z := if i <? 0 then zlen l + i else i.
Definition lop_spec (l : list Z) (op : lop) : res (list Z) :=
  match op with
  | LAppend p => if p <? 0 then Err AssertionError else Ok (l ++ [p])
  | LSet i p ap =>
      let k := position l i in
      if p <? 0 then Err AssertionError
      else if k <? 0 then Err IndexError
      else if k <? zlen l then Ok (firstn (Z.to_nat k) l ++ [p] ++ skipn (Z.to_nat (k + 1)) l)
      else if (k =? zlen l) || ap then Ok (l ++ repeat p (Z.to_nat (k - zlen l + 1)))
      else Err IndexError
  | LRemove i =>
      if i <? 0 then Err AssertionError
      else if i <? zlen l then Ok (firstn (Z.to_nat i) l ++ skipn (Z.to_nat (i + 1)) l)
      else Err IndexError
  end.
Fixpoint lspec (l : list Z) (ops : list lop) : list (res unit) * list Z :=
  match ops with
  | [] => ([], l)
  | op :: ops => match lop_spec l op with
                 | Ok l' => let (rs, l2) := lspec l' ops in (Ok tt :: rs, l2)
                 | Err e => let (rs, l2) := lspec l ops in (Err e :: rs, l2)
                 end
  end.
