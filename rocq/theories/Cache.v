(** Model of the caches, cache.py 107-124 and 391-728, on top of the
    heap-level linked list and of dictionaries.

    Every operation returns the new state, the calls made to [on_leave] in
    order, and what the caller sees (a value or an exception): Python keeps
    the mutations made before an exception.  Each [on_leave] call records
    whether the cache's own lock was held when it was made. *)
From Coq Require Import List ZArith Bool.
From Verif Require Import Base Dict LinkedList.
Import ListNotations.
Open Scope Z_scope.

Section Cache.
Context {K V : Type}.
Variable keqb : K -> K -> bool.

(** [on_leave(key, value)], and whether [self.lock] is held by the caller. *)
Record leave := mkLeave { lv_key : K; lv_val : V; lv_locked : bool }.

(** What a call returns. *)
Inductive cret := RBool (b : bool) | RVal (v : V) | RNone.

(** The methods of [BaseCache], 42-104. *)
Inductive cop :=
| CHas (k : K) | CGet (k : K) | CPush (k : K) (v : V) (allow : bool)
| CRemove (k : K) (call : bool) | CClear (call : bool).

Definition outcome (S : Type) := (S * list leave * res cret)%type.

(** [NoOpCache], 107-124. *)
Definition noop_step (op : cop) : outcome unit :=
  match op with
  | CHas _ => (tt, [], Ok (RBool false))
  | CGet _ => (tt, [], Err KeyError)
  | CPush _ _ _ => (tt, [], Ok (RBool false))
  | CRemove _ _ => (tt, [], Ok RNone)
  | CClear _ => (tt, [], Ok RNone)
  end.

(** [LastAccessCache], attributes of 413-418; [l_cb] says whether [on_leave]
    is not None. *)
Record lru := mkLru { l_cb : bool; l_max : Z; l_list : dll (K * V); l_map : list (K * nat) }.

(** 406-418 *)
Definition lru_new (cb : bool) (max : Z) : lru := mkLru cb max dll_new [].

(** 420-421 *)
Definition lru_has (c : lru) (k : K) : bool := dmem keqb k (l_map c).

(** [element.value] *)
Definition elem_value (d : dll (K * V)) (i : nat) : res (K * V) :=
  match d_heap d i with Some c => Ok (c_val c) | None => Err AttributeError end.

(** 423-433 *)
Definition lru_get (c : lru) (k : K) : outcome lru :=
  match dget keqb k (l_map c) with
  | None => (c, [], Err KeyError)
  | Some i =>
      match dll_remove_element (l_list c) i with
      | Err e => (c, [], Err e)
      | Ok d =>
          let d := dll_prepend_elem d i in
          let c := mkLru (l_cb c) (l_max c) d (l_map c) in
          match elem_value d i with
          | Ok (_, v) => (c, [], Ok (RVal v))
          | Err e => (c, [], Err e)
          end
      end
  end.

(** 435-446; calling [on_leave] when it is None raises a TypeError. *)
Definition lru_remove (c : lru) (k : K) (call : bool) : outcome lru :=
  match dget keqb k (l_map c) with
  | None => (c, [], Ok RNone)
  | Some i =>
      match dll_remove_element (l_list c) i with
      | Err e => (mkLru (l_cb c) (l_max c) (l_list c) (ddel keqb k (l_map c)), [], Err e)
      | Ok d =>
          let c := mkLru (l_cb c) (l_max c) d (ddel keqb k (l_map c)) in
          if call then
            match elem_value d i with
            | Err e => (c, [], Err e)
            | Ok (k', v') => if l_cb c then (c, [mkLeave k' v' false], Ok RNone) else (c, [], Err TypeError)
            end
          else (c, [], Ok RNone)
      end
  end.

(** 469-472: the common end of [push] inside the lock. *)
Definition lru_add (c : lru) (k : K) (v : V) : lru :=
  let (i, d) := dll_prepend (l_list c) (k, v) in
  mkLru (l_cb c) (l_max c) d (dset keqb k i (l_map c)).

(** 448-477 *)
Definition lru_push (c : lru) (k : K) (v : V) (allow : bool) : outcome lru :=
  match dget keqb k (l_map c) with
  | Some i =>                                                          (* 452-457 *)
      match dll_remove_element (l_list c) i with
      | Err e => (c, [], Err e)
      | Ok d => (lru_add (mkLru (l_cb c) (l_max c) d (ddel keqb k (l_map c))) k v, [], Ok (RBool true))
      end
  | None =>
      if (l_max c <=? d_len (l_list c)) && allow then                  (* 458-464 *)
        match d_tail (l_list c) with
        | None => (c, [], Err AttributeError)                          (* None.value *)
        | Some t =>
            match elem_value (l_list c) t with
            | Err e => (c, [], Err e)
            | Ok (ok, ov) =>
                match dll_remove_last (l_list c) with
                | Err e => (mkLru (l_cb c) (l_max c) (l_list c) (ddel keqb ok (l_map c)), [], Err e)
                | Ok d =>
                    let c := lru_add (mkLru (l_cb c) (l_max c) d (ddel keqb ok (l_map c))) k v in
                    (c, if l_cb c then [mkLeave ok ov false] else [], Ok (RBool true))
                end
            end
        end
      else if negb allow then (c, [], Ok (RBool false))                (* 465-468 *)
      else (lru_add c k v, [], Ok (RBool true))
  end.

(** 479-490 *)
Definition lru_clear (c : lru) (call : bool) : outcome lru :=
  let c' := mkLru (l_cb c) (l_max c) (dll_clear (l_list c)) [] in
  if call && l_cb c then
    match dll_to_list (l_list c) with
    | Err e => (c, [], Err e)
    | Ok kvs => (c', map (fun kv => mkLeave (fst kv) (snd kv) false) kvs, Ok RNone)
    end
  else (c', [], Ok RNone).

Definition lru_step (c : lru) (op : cop) : outcome lru :=
  match op with
  | CHas k => (c, [], Ok (RBool (lru_has c k)))
  | CGet k => lru_get c k
  | CPush k v allow => lru_push c k v allow
  | CRemove k call => lru_remove c k call
  | CClear call => lru_clear c call
  end.

(** [TopAccessCache], attributes of 521-527. *)
Record top := mkTop { t_cb : bool; t_max : Z; t_list : dll (K * V); t_map : list (K * nat); t_acc : list (K * Z) }.

(** 512-527 *)
Definition top_new (cb : bool) (max : Z) : top := mkTop cb max dll_new [] [].

(** 592-595 *)
Definition top_has (c : top) (k : K) : bool := dmem keqb k (t_map c).

(** 529-552 *)
Definition top_increment (c : top) (k : K) : res top :=
  let n := match dget keqb k (t_acc c) with Some n => n + 1 | None => 1 end in
  let c := mkTop (t_cb c) (t_max c) (t_list c) (t_map c) (dset keqb k n (t_acc c)) in
  match dget keqb k (t_map c) with
  | None => Ok c
  | Some i =>
      match d_heap (t_list c) i with
      | None => Err AttributeError
      | Some cell =>
          match c_prev cell with
          | None => Ok c
          | Some q =>
              do kv <- elem_value (t_list c) q ;;
              match dget keqb (fst kv) (t_acc c) with
              | None => Err KeyError
              | Some pn =>
                  if pn <? n
                  then Ok (mkTop (t_cb c) (t_max c) (dll_swap_forward (t_list c) i) (t_map c) (t_acc c))
                  else Ok c
              end
          end
      end
  end.

(** 574-576 and 584-585 *)
Definition top_append (c : top) (k : K) (v : V) : top :=
  let (i, d) := dll_append (t_list c) (k, v) in
  mkTop (t_cb c) (t_max c) d (dset keqb k i (t_map c)) (t_acc c).

(** 554-590; [on_leave] is called from inside [push], which holds the lock. *)
Definition top_replace_tail (c : top) (k : K) (v : V) (allow : bool) : res (top * list leave * bool) :=
  match dget keqb k (t_acc c) with
  | None => Err KeyError
  | Some n =>
      if dmem keqb k (t_map c) then Ok (c, [], true)
      else if d_len (t_list c) <? t_max c then Ok (top_append c k v, [], true)
      else
        match d_tail (t_list c) with
        | None => Err AttributeError
        | Some t =>
            do kv <- elem_value (t_list c) t ;;
            match dget keqb (fst kv) (t_acc c) with
            | None => Err KeyError
            | Some tn =>
                if (tn <? n) && allow then
                  do d <- dll_remove_last (t_list c) ;;
                  let c := top_append (mkTop (t_cb c) (t_max c) d (ddel keqb (fst kv) (t_map c)) (t_acc c)) k v in
                  Ok (c, if t_cb c then [mkLeave (fst kv) (snd kv) true] else [], true)
                else Ok (c, [], false)
            end
        end
  end.

(** 597-600: the counter of a key that is not cached is still increased. *)
Definition top_get (c : top) (k : K) : outcome top :=
  match top_increment c k with
  | Err e => (c, [], Err e)
  | Ok c =>
      match dget keqb k (t_map c) with
      | None => (c, [], Err KeyError)
      | Some i =>
          match elem_value (t_list c) i with
          | Err e => (c, [], Err e)
          | Ok kv => (c, [], Ok (RVal (snd kv)))
          end
      end
  end.

(** 602-612 *)
Definition top_push (c : top) (k : K) (v : V) (allow : bool) : outcome top :=
  match top_increment c k with
  | Err e => (c, [], Err e)
  | Ok c =>
      match top_replace_tail c k v allow with
      | Err e => (c, [], Err e)
      | Ok (c, evs, false) => (c, evs, Ok (RBool false))
      | Ok (c, evs, true) =>
          match dget keqb k (t_map c) with
          | None => (c, evs, Err KeyError)
          | Some i =>
              (mkTop (t_cb c) (t_max c) (dll_set_value (t_list c) i (k, v)) (t_map c) (t_acc c), evs, Ok (RBool true))
          end
      end
  end.

(** 614-625 *)
Definition top_remove (c : top) (k : K) (call : bool) : outcome top :=
  match dget keqb k (t_map c) with
  | None => (c, [], Ok RNone)
  | Some i =>
      match dll_remove_element (t_list c) i with
      | Err e => (mkTop (t_cb c) (t_max c) (t_list c) (ddel keqb k (t_map c)) (t_acc c), [], Err e)
      | Ok d =>
          let c := mkTop (t_cb c) (t_max c) d (ddel keqb k (t_map c)) (t_acc c) in
          if call then
            match elem_value d i with
            | Err e => (c, [], Err e)
            | Ok (k', v') => if t_cb c then (c, [mkLeave k' v' false], Ok RNone) else (c, [], Err TypeError)
            end
          else (c, [], Ok RNone)
      end
  end.

(** 627-639 *)
Definition top_clear (c : top) (call : bool) : outcome top :=
  let c' := mkTop (t_cb c) (t_max c) (dll_clear (t_list c)) [] [] in
  if call && t_cb c then
    match dll_to_list (t_list c) with
    | Err e => (c, [], Err e)
    | Ok kvs => (c', map (fun kv => mkLeave (fst kv) (snd kv) false) kvs, Ok RNone)
    end
  else (c', [], Ok RNone).

Definition top_step (c : top) (op : cop) : outcome top :=
  match op with
  | CHas k => (c, [], Ok (RBool (top_has c k)))
  | CGet k => top_get c k
  | CPush k v allow => top_push c k v allow
  | CRemove k call => top_remove c k call
  | CClear call => top_clear c call
  end.

(** [HybridCache], 652-682: both inner caches call [self._on_leave], which
    forwards to [on_leave] unless that is None.  Both get [last_cache_size]
    (665), so [top_cache_size] is not used. *)
Record hybrid := mkHybrid { h_cb : bool; h_last : lru; h_top : top }.
Definition hybrid_new (cb : bool) (last_size top_size : Z) : hybrid :=
  mkHybrid cb (lru_new true last_size) (top_new true last_size).
(** 667-682 *)
Definition forward (cb : bool) (evs : list leave) : list leave := if cb then evs else [].

(** 684-691 *)
Definition hybrid_has (c : hybrid) (k : K) : bool := top_has (h_top c) k || lru_has (h_last c) k.

(** 693-706 *)
Definition hybrid_get (c : hybrid) (k : K) : outcome hybrid :=
  if top_has (h_top c) k then
    let '(t, evs, r) := top_get (h_top c) k in
    (mkHybrid (h_cb c) (h_last c) t, forward (h_cb c) evs, r)
  else if lru_has (h_last c) k then
    let '(l, evs1, r) := lru_get (h_last c) k in
    match r with
    | Ok (RVal v) =>
        let '(t, evs2, r2) := top_push (h_top c) k v true in
        match r2 with
        | Ok (RBool true) =>
            let '(l, evs3, r3) := lru_remove l k true in
            (mkHybrid (h_cb c) l t, forward (h_cb c) (evs1 ++ evs2 ++ evs3),
             match r3 with Ok _ => Ok (RVal v) | Err e => Err e end)
        | Ok _ => (mkHybrid (h_cb c) l t, forward (h_cb c) (evs1 ++ evs2), Ok (RVal v))
        | Err e => (mkHybrid (h_cb c) l t, forward (h_cb c) (evs1 ++ evs2), Err e)
        end
    | Ok _ => (mkHybrid (h_cb c) l (h_top c), forward (h_cb c) evs1, Err TypeError)   (* cannot happen *)
    | Err e => (mkHybrid (h_cb c) l (h_top c), forward (h_cb c) evs1, Err e)
    end
  else (c, [], Err KeyError).

(** 708-720 *)
Definition hybrid_push (c : hybrid) (k : K) (v : V) (allow : bool) : outcome hybrid :=
  let '(t, evs1, r) := top_push (h_top c) k v allow in
  match r with
  | Ok (RBool true) => (mkHybrid (h_cb c) (h_last c) t, forward (h_cb c) evs1, Ok (RBool true))
  | Ok _ =>
      let '(l, evs2, r2) := lru_push (h_last c) k v allow in
      (mkHybrid (h_cb c) l t, forward (h_cb c) (evs1 ++ evs2), r2)
  | Err e => (mkHybrid (h_cb c) (h_last c) t, forward (h_cb c) evs1, Err e)
  end.

(** 722-724 *)
Definition hybrid_remove (c : hybrid) (k : K) (call : bool) : outcome hybrid :=
  let '(t, evs1, r) := top_remove (h_top c) k call in
  match r with
  | Err e => (mkHybrid (h_cb c) (h_last c) t, forward (h_cb c) evs1, Err e)
  | Ok _ =>
      let '(l, evs2, r2) := lru_remove (h_last c) k call in
      (mkHybrid (h_cb c) l t, forward (h_cb c) (evs1 ++ evs2), r2)
  end.

(** 726-728 *)
Definition hybrid_clear (c : hybrid) (call : bool) : outcome hybrid :=
  let '(t, evs1, r) := top_clear (h_top c) call in
  match r with
  | Err e => (mkHybrid (h_cb c) (h_last c) t, forward (h_cb c) evs1, Err e)
  | Ok _ =>
      let '(l, evs2, r2) := lru_clear (h_last c) call in
      (mkHybrid (h_cb c) l t, forward (h_cb c) (evs1 ++ evs2), r2)
  end.

Definition hybrid_step (c : hybrid) (op : cop) : outcome hybrid :=
  match op with
  | CHas k => (c, [], Ok (RBool (hybrid_has c k)))
  | CGet k => hybrid_get c k
  | CPush k v allow => hybrid_push c k v allow
  | CRemove k call => hybrid_remove c k call
  | CClear call => hybrid_clear c call
  end.
End Cache.
Arguments leave K V : clear implicits.
Arguments cret V : clear implicits.
Arguments cop K V : clear implicits.
Arguments lru K V : clear implicits.
Arguments top K V : clear implicits.
Arguments hybrid K V : clear implicits.
Arguments outcome K V S : clear implicits.
