(** Model of [_DoubleLinkedListElement] and [_DoubleLinkedList], cache.py
    127-388, as a heap of cells with [prev]/[next] references. *)
From Coq Require Import List ZArith Bool.
From Verif Require Import Base.
Import ListNotations.
Open Scope Z_scope.

Section DLL.
Context {V : Type}.

(** An element object, cache.py 140-153; [c_parent] says whether [parent] is
    the list that is modelled. *)
Record cell := mkCell { c_val : V; c_prev : option nat; c_next : option nat; c_parent : bool }.
Definition heap := nat -> option cell.

(** The list object, 200-212, with the heap its elements live in;
    [d_fresh] is the next unused object identity. *)
Record dll := mkDll { d_heap : heap; d_fresh : nat; d_head : option nat; d_tail : option nat; d_len : Z }.

Definition dll_new : dll := mkDll (fun _ => None) 0 None None 0.

Definition hupd (h : heap) (i : nat) (f : cell -> cell) : heap :=
  fun j => if Nat.eqb j i then option_map f (h j) else h j.

(** Attribute assignments [x.next = y] etc. *)
Definition with_next (n : option nat) (c : cell) : cell := mkCell (c_val c) (c_prev c) n (c_parent c).
Definition with_prev (p : option nat) (c : cell) : cell := mkCell (c_val c) p (c_next c) (c_parent c).
Definition with_parent (b : bool) (c : cell) : cell := mkCell (c_val c) (c_prev c) (c_next c) b.
Definition with_val (v : V) (c : cell) : cell := mkCell v (c_prev c) (c_next c) (c_parent c).

(** The common part of [append], 263-271, for an element already prepared. *)
Definition link_last (d : dll) (i : nat) : dll :=
  match d_tail d with
  | Some t =>
      mkDll (hupd (hupd (d_heap d) t (with_next (Some i))) i (with_prev (Some t)))
            (d_fresh d) (d_head d) (Some i) (d_len d + 1)
  | None => mkDll (d_heap d) (d_fresh d) (Some i) (Some i) 1
  end.
(** The common part of [prepend], 293-301. *)
Definition link_first (d : dll) (i : nat) : dll :=
  match d_head d with
  | Some h =>
      mkDll (hupd (hupd (d_heap d) h (with_prev (Some i))) i (with_next (Some h)))
            (d_fresh d) (Some i) (d_tail d) (d_len d + 1)
  | None => mkDll (d_heap d) (d_fresh d) (Some i) (Some i) 1
  end.

(** lines 257-260 / 287-290: re-using an element object *)
Definition reset_elem (d : dll) (i : nat) : dll :=
  mkDll (hupd (d_heap d) i (fun c => mkCell (c_val c) None None true)) (d_fresh d) (d_head d) (d_tail d) (d_len d).
(** lines 262 / 292: a new element object *)
Definition new_elem (d : dll) (v : V) : nat * dll :=
  (d_fresh d, mkDll (fun j => if Nat.eqb j (d_fresh d) then Some (mkCell v None None true) else d_heap d j)
                    (S (d_fresh d)) (d_head d) (d_tail d) (d_len d)).

(** [append(value)], [prepend(value)], 243-271 and 273-301; both return the element. *)
Definition dll_append (d : dll) (v : V) : nat * dll :=
  let (i, d) := new_elem d v in (i, link_last d i).
Definition dll_prepend (d : dll) (v : V) : nat * dll :=
  let (i, d) := new_elem d v in (i, link_first d i).
(** [append(element)], [prepend(element)] *)
Definition dll_append_elem (d : dll) (i : nat) : dll := link_last (reset_elem d i) i.
Definition dll_prepend_elem (d : dll) (i : nat) : dll := link_first (reset_elem d i) i.

(** [clear], 303-310. *)
Definition dll_clear (d : dll) : dll := mkDll (d_heap d) (d_fresh d) None None 0.

(** [remove_last], 312-329. *)
Definition dll_remove_last (d : dll) : res dll :=
  match d_tail d with
  | None => Err IndexError
  | Some t =>
      match d_heap d t with
      | None => Err AttributeError
      | Some c =>
          match c_prev c with
          | Some p => Ok (mkDll (hupd (d_heap d) p (with_next None)) (d_fresh d) (d_head d) (Some p) (d_len d - 1))
          | None => Ok (mkDll (d_heap d) (d_fresh d) None None (d_len d - 1))
          end
      end
  end.

(** [remove_first], 331-348. *)
Definition dll_remove_first (d : dll) : res dll :=
  match d_head d with
  | None => Err IndexError
  | Some h =>
      match d_heap d h with
      | None => Err AttributeError
      | Some c =>
          match c_next c with
          | Some n => Ok (mkDll (hupd (d_heap d) n (with_prev None)) (d_fresh d) (Some n) (d_tail d) (d_len d - 1))
          | None => Ok (mkDll (d_heap d) (d_fresh d) None None (d_len d - 1))
          end
      end
  end.

(** [remove_element], 350-376. *)
Definition dll_remove_element (d : dll) (i : nat) : res dll :=
  match d_heap d i with
  | None => Err AttributeError
  | Some c =>
      if negb (c_parent c) then Err ValueError
      else
        let '(h, head) :=
          match c_prev c with
          | Some p => (hupd (d_heap d) p (with_next (c_next c)), d_head d)
          | None => (d_heap d, c_next c)
          end in
        (* 369: element.next and element.prev are unchanged by the first part *)
        let '(h, tail) :=
          match c_next c with
          | Some n => (hupd h n (with_prev (c_prev c)), d_tail d)
          | None => (h, c_prev c)
          end in
        Ok (mkDll (hupd h i (with_parent false)) (d_fresh d) head tail (d_len d - 1))
  end.

(** [swap_forward], 164-186, of element [i] of this list. *)
Definition dll_swap_forward (d : dll) (i : nat) : dll :=
  match d_heap d i with
  | None => d
  | Some c =>
      match c_prev c with
      | None => d
      | Some q =>
          match d_heap d q with
          | None => d
          | Some cq =>
              let self_next := c_next c in
              let new_prev := c_prev cq in
              let h := hupd (d_heap d) i (with_prev new_prev) in              (* 172 *)
              let h := hupd h q (with_next self_next) in                       (* 173 *)
              let h := match self_next with Some n => hupd h n (with_prev (Some q)) | None => h end in   (* 174-175 *)
              let h := hupd h i (with_next (Some q)) in                        (* 176 *)
              let h := match new_prev with Some p => hupd h p (with_next (Some i)) | None => h end in    (* 177-178 *)
              let h := hupd h q (with_prev (Some i)) in                        (* 179 *)
              mkDll h (d_fresh d)
                    (match new_prev with None => Some i | Some _ => d_head d end)        (* 181-183 *)
                    (match self_next with None => Some q | Some _ => d_tail d end)       (* 184-186 *)
                    (d_len d)
          end
      end
  end.

(** [element.value = v] *)
Definition dll_set_value (d : dll) (i : nat) (v : V) : dll :=
  mkDll (hupd (d_heap d) i (with_val v)) (d_fresh d) (d_head d) (d_tail d) (d_len d).

(** [iter_values] / [to_list], 232-241 and 378-388; fuel bounds the while loop. *)
Fixpoint iter_from (fuel : nat) (h : heap) (cur : option nat) : res (list V) :=
  match cur with
  | None => Ok []
  | Some i =>
      match fuel with
      | O => Err Diverge
      | S fuel' =>
          match h i with
          | None => Err AttributeError
          | Some c => do r <- iter_from fuel' h (c_next c) ;; Ok (c_val c :: r)
          end
      end
  end.
Definition dll_to_list (d : dll) : res (list V) := iter_from (d_fresh d) (d_heap d) (d_head d).

(** Backward traversal along [prev] (not in the code; used to state that both
    directions agree). *)
Fixpoint iter_back (fuel : nat) (h : heap) (cur : option nat) : res (list V) :=
  match cur with
  | None => Ok []
  | Some i =>
      match fuel with
      | O => Err Diverge
      | S fuel' =>
          match h i with
          | None => Err AttributeError
          | Some c => do r <- iter_back fuel' h (c_prev c) ;; Ok (c_val c :: r)
          end
      end
  end.
Definition dll_to_list_back (d : dll) : res (list V) := iter_back (d_fresh d) (d_heap d) (d_tail d).
End DLL.
Arguments cell V : clear implicits.
Arguments dll V : clear implicits.
Arguments heap V : clear implicits.
