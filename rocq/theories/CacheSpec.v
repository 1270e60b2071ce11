(** Specification vocabulary for the caches: plain lists of (key, value),
    histories, and what can be said about a history without knowing how a
    cache is implemented. *)
From Coq Require Import List ZArith Bool.
From Verif Require Import Base Dict LinkedList Cache.
Import ListNotations.
Open Scope Z_scope.

Section Spec.
Context {K V : Type}.
Variable keqb : K -> K -> bool.

(** Running a history: final state, all [on_leave] calls, all results. *)
Fixpoint crun {S} (step : S -> cop K V -> outcome K V S) (c : S) (ops : list (cop K V)) :
  S * list (leave K V) * list (res (cret V)) :=
  match ops with
  | [] => (c, [], [])
  | op :: ops =>
      let '(c1, e1, r1) := step c op in
      let '(c2, e2, r2) := crun step c1 ops in (c2, e1 ++ e2, r1 :: r2)
  end.
Definition final {S} (x : S * list (leave K V) * list (res (cret V))) : S := fst (fst x).
Definition o_state {S} (x : outcome K V S) : S := fst (fst x).
Definition o_leaves {S} (x : outcome K V S) : list (leave K V) := snd (fst x).
Definition o_ret {S} (x : outcome K V S) : res (cret V) := snd x.

(** The value pushed last under [k], whatever the push returned. *)
Definition pushed_step (k : K) (acc : option V) (op : cop K V) : option V :=
  match op with CPush k' v _ => if keqb k k' then Some v else acc | _ => acc end.
Definition last_pushed (k : K) (ops : list (cop K V)) : option V := fold_left (pushed_step k) ops None.
(** Some push stored [v] under [k]. *)
Definition ever_pushed (k : K) (v : V) (ops : list (cop K V)) : Prop := exists allow, In (CPush k v allow) ops.

(** How often [k] was asked for or pushed since the last [clear]. *)
Definition access_step (k : K) (n : Z) (op : cop K V) : Z :=
  match op with
  | CGet k' => if keqb k k' then n + 1 else n
  | CPush k' _ _ => if keqb k k' then n + 1 else n
  | CClear _ => 0
  | _ => n
  end.
Definition accesses (k : K) (ops : list (cop K V)) : Z := fold_left (access_step k) ops 0.

(** Contents before an operation that are no longer cached after it. *)
Definition dropped (before after : list (K * V)) : list (K * V) :=
  filter (fun kv => negb (dmem keqb (fst kv) after)) before.

(** Whether an operation asks for [on_leave] to be called on what it drops. *)
Definition wants_leave (op : cop K V) : bool :=
  match op with CRemove _ call => call | CClear call => call | _ => true end.

Definition leaves (evs : list (leave K V)) : list (K * V) := map (fun e => (lv_key e, lv_val e)) evs.

(** An LRU cache of at most [n] elements as a list, most recently used first. *)
Definition del (k : K) (r : list (K * V)) : list (K * V) := filter (fun kv => negb (keqb k (fst kv))) r.
Definition unlocked (kv : K * V) : leave K V := mkLeave (fst kv) (snd kv) false.
Definition lru_spec (cb : bool) (n : Z) (r : list (K * V)) (op : cop K V) : outcome K V (list (K * V)) :=
  match op with
  | CHas k => (r, [], Ok (RBool (dmem keqb k r)))
  | CGet k => match dget keqb k r with
              | Some v => ((k, v) :: del k r, [], Ok (RVal v))
              | None => (r, [], Err KeyError)
              end
  | CPush k v allow =>
      if dmem keqb k r then ((k, v) :: del k r, [], Ok (RBool true))
      else if negb allow then (r, [], Ok (RBool false))
      else if zlen r <? n then ((k, v) :: r, [], Ok (RBool true))
      else match rev r with
           | [] => (r, [], Err AttributeError)
           | oldest :: _ => ((k, v) :: removelast r, if cb then [unlocked oldest] else [], Ok (RBool true))
           end
  | CRemove k call =>
      match dget keqb k r with
      | None => (r, [], Ok RNone)
      | Some v => (del k r, if call && cb then [unlocked (k, v)] else [], if call && negb cb then Err TypeError else Ok RNone)
      end
  | CClear call => ([], if call && cb then map unlocked r else [], Ok RNone)
  end.

(** The keys used by a history on a cache whose contents are [r]: each key
    pushed, and each key successfully read. *)
Fixpoint uses (ops : list (cop K V)) (rs : list (res (cret V))) : list K :=
  match ops, rs with
  | CPush k _ _ :: ops, _ :: rs => k :: uses ops rs
  | CGet k :: ops, Ok _ :: rs => k :: uses ops rs
  | _ :: ops, _ :: rs => uses ops rs
  | _, _ => []
  end.
(** Distinct keys, the most recently used first. *)
Definition touch (r : list K) (k : K) : list K := k :: filter (fun k' => negb (keqb k k')) r.
Definition recency (us : list K) : list K := fold_left touch us [].
Definition plain (op : cop K V) : bool :=
  match op with CHas _ => true | CGet _ => true | CPush _ _ allow => allow | _ => false end.

(** A frequency cache as a list, most important first, with access counts. *)
Fixpoint promote (acc : K -> Z) (k : K) (r : list (K * V)) : list (K * V) :=
  match r with
  | x :: ((y :: r') as t) =>
      if keqb k (fst y) then (if acc (fst x) <? acc k then y :: x :: r' else r)
      else x :: promote acc k t
  | _ => r
  end.
Definition bump (acc : K -> Z) (k : K) : K -> Z := fun k' => if keqb k k' then acc k' + 1 else acc k'.
Definition update (k : K) (v : V) (r : list (K * V)) : list (K * V) :=
  map (fun kv => if keqb k (fst kv) then (k, v) else kv) r.

Definition top_spec (cb : bool) (n : Z) (s : list (K * V) * (K -> Z)) (op : cop K V) :
  outcome K V (list (K * V) * (K -> Z)) :=
  let (r, acc) := s in
  match op with
  | CHas k => (s, [], Ok (RBool (dmem keqb k r)))
  | CGet k =>
      let acc := bump acc k in
      let r := promote acc k r in
      ((r, acc), [], match dget keqb k r with Some v => Ok (RVal v) | None => Err KeyError end)
  | CPush k v allow =>
      let acc := bump acc k in
      let r := promote acc k r in
      if dmem keqb k r then ((update k v r, acc), [], Ok (RBool true))
      else if zlen r <? n then ((r ++ [(k, v)], acc), [], Ok (RBool true))
      else match rev r with
           | [] => ((r, acc), [], Err AttributeError)
           | tail :: _ =>
               if (acc (fst tail) <? acc k) && allow
               then ((removelast r ++ [(k, v)], acc),
                     if cb then [mkLeave (fst tail) (snd tail) true] else [], Ok (RBool true))
               else ((r, acc), [], Ok (RBool false))
           end
  | CRemove k call =>
      match dget keqb k r with
      | None => (s, [], Ok RNone)
      | Some v => ((del k r, acc), if call && cb then [unlocked (k, v)] else [],
                   if call && negb cb then Err TypeError else Ok RNone)
      end
  | CClear call => (([], fun _ => 0), if call && cb then map unlocked r else [], Ok RNone)
  end.
(** ** Claims in terms of the cache's methods only *)

(** What [get(k)] would return. *)
Definition value_of {S} (step : S -> cop K V -> outcome K V S) (c : S) (k : K) : option V :=
  match o_ret (step c (CGet k)) with Ok (RVal v) => Some v | _ => None end.

Section Claims.
Context {S : Type}.
Variable step : S -> cop K V -> outcome K V S.
Variable has : S -> K -> bool.

Definition get_correct (ops : list (cop K V)) (c : S) : Prop := forall k,
  match o_ret (step c (CGet k)) with
  | Ok (RVal v) => has c k = true /\ last_pushed k ops = Some v
  | Err e => has c k = false /\ e = KeyError
  | _ => False
  end.
Definition bounded (n : Z) (c : S) : Prop :=
  forall ks, NoDup ks -> (forall k, In k ks -> has c k = true) -> zlen ks <= n.
(** The [on_leave] calls of operation [op] made in state [c] are, each once,
    exactly the elements that were cached before and are not afterwards. *)
Definition leave_exact (cb : bool) (c : S) (op : cop K V) : Prop :=
  let evs := o_leaves (step c op) in
  let c' := o_state (step c op) in
  NoDup (map fst (leaves evs)) /\
  (if cb && wants_leave op
   then forall k v, In (k, v) (leaves evs) <-> value_of step c k = Some v /\ has c' k = false
   else evs = []).
End Claims.

End Spec.
