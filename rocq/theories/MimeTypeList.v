(** Model of pyzim/mimetypelist.py. *)
From Coq Require Import List ZArith Bool.
From Verif Require Import Base Utf8 Entry.
Import ListNotations.
Open Scope Z_scope.

(** A [MimeTypeList] object: its mimetypes plus the [ModifiableMixIn] state
    (modifiable.py 33-42: [_dirty], [mutable], [_old_disk_size]). *)
Record mlist := mkMlist {
  ml_types : list bytes; ml_dirty : bool; ml_mutable : bool; ml_old_size : Z }.

(** [b"\x00".join(l)] *)
Fixpoint join_zero (l : list bytes) : bytes :=
  match l with
  | [] => []
  | [m] => m
  | m :: r => m ++ x00 :: join_zero r
  end.

(** [to_bytes], 83-90. *)
Definition mt_to_bytes (l : list bytes) : bytes := join_zero l ++ [x00; x00].

(** The [while True] loop of [from_file], 74-80, on the rest of the file. *)
Fixpoint mt_loop (fuel : nat) (f : bytes) (acc : list bytes) : res (list bytes * bytes) :=
  match fuel with
  | O => Err Diverge
  | S fuel' =>
      do mf <- read_until_zero f ;; let (m, f) := mf in
      match m with
      | [] => Ok (acc, f)
      | _ => mt_loop fuel' f (acc ++ [m])
      end
  end.

(** [from_file], 60-81.  Every iteration but the last consumes at least two
    bytes, so the length of the file is enough fuel. *)
Definition mt_from_file (f : bytes) : res (list bytes * bytes) := mt_loop (S (length f)) f [].

(** [get_disk_size], 194-198. *)
Definition mt_disk_size (l : list bytes) : Z := fold_left (fun s m => s + (zlen m + 1)) l 1.

(** [__init__], 25-38. *)
Definition mlist_new (l : list bytes) : mlist := mkMlist l false true (mt_disk_size l).

(** The [str] or [bytes] argument and its conversion (126-127, 142-143, 167-168). *)
Inductive pystr := PyStr (u : ustr) | PyBytes (b : bytes).
Definition as_bytes (s : pystr) : res bytes :=
  match s with PyStr u => encode u | PyBytes b => Ok b end.

(** [get(i)], 92-114 (as bytes). *)
Definition mt_get (i : Z) (l : list bytes) : res bytes :=
  if (zlen l <=? i) || (i <? 0) then Err IndexError
  else match nth_error l (Z.to_nat i) with Some m => Ok m | None => Err IndexError end.

(** [has], 116-128. *)
Definition mt_has (m : bytes) (l : list bytes) : bool := existsb (beqb m) l.

(** the scan of [get_index], 144-146 *)
Fixpoint mt_scan (m : bytes) (l : list bytes) (i : Z) : option Z :=
  match l with
  | [] => None
  | x :: r => if beqb x m then Some i else mt_scan m r (i + 1)
  end.

(** [register], 154-178. *)
Definition mt_register (s : pystr) (o : mlist) : res mlist :=
  if negb (ml_mutable o) then Err NonMutable
  else do m <- as_bytes s ;;
       if mt_has m (ml_types o) then Ok o
       else Ok (mkMlist (ml_types o ++ [m]) true (ml_mutable o) (ml_old_size o)).

(** [get_index], 130-152; the recursive call is not registering. *)
Definition mt_get_index (s : pystr) (reg : bool) (o : mlist) : res (option Z * mlist) :=
  do m <- as_bytes s ;;
  match mt_scan m (ml_types o) 0 with
  | Some i => Ok (Some i, o)
  | None =>
      if reg then
        do o' <- mt_register (PyBytes m) o ;;
        Ok (mt_scan m (ml_types o') 0, o')
      else Ok (None, o)
  end.

(** [after_flush_or_read], modifiable.py 100-118, once the bytes are written. *)
Definition mt_flush (o : mlist) : bytes * mlist :=
  (mt_to_bytes (ml_types o), mkMlist (ml_types o) false (ml_mutable o) (mt_disk_size (ml_types o))).

(** ** Concurrent use (C55): threads interleave at the granularity of one
    element comparison, lock operation or list append. *)

(** Program counter of a thread executing [get_index(m, register=True)]. *)
Inductive mpc :=
| MIdle                           (* between calls *)
| MScan1 (m : bytes) (i : nat)    (* 144-146, at element i *)
| MWant (m : bytes)               (* 169: waiting for the lock *)
| MCheck (m : bytes) (j : nat)    (* 174: [has], at element j, lock held *)
| MApp (m : bytes)                (* 177-178, lock held *)
| MRel (m : bytes)                (* leaving the with block, lock held *)
| MScan2 (m : bytes) (i : nat).   (* 150 -> 144-146, register=False *)

Record mthread := mkMthread {
  th_todo : list bytes; th_pc : mpc; th_done : list (bytes * option nat) }.

(** Shared state: the list, the lock ([Some t] = held by thread [t]) and all threads. *)
Record mconc := mkMconc {
  mc_types : list bytes; mc_lock : option nat; mc_threads : nat -> mthread }.

Definition set_thread (t : nat) (th : mthread) (f : nat -> mthread) : nat -> mthread :=
  fun u => if Nat.eqb u t then th else f u.

(** One step of thread [t]; [None] when it cannot move (finished, or blocked on the lock). *)
Definition mstep (t : nat) (s : mconc) : option mconc :=
  let th := mc_threads s t in
  let goto pc := mkMthread (th_todo th) pc (th_done th) in
  let ret m r := mkMthread (th_todo th) MIdle (th_done th ++ [(m, r)]) in
  let upd th' := Some (mkMconc (mc_types s) (mc_lock s) (set_thread t th' (mc_threads s))) in
  match th_pc th with
  | MIdle =>
      match th_todo th with
      | [] => None
      | m :: r => upd (mkMthread r (MScan1 m 0) (th_done th))
      end
  | MScan1 m i =>
      match nth_error (mc_types s) i with
      | Some x => if beqb x m then upd (ret m (Some i)) else upd (goto (MScan1 m (S i)))
      | None => upd (goto (MWant m))
      end
  | MWant m =>
      match mc_lock s with
      | None => Some (mkMconc (mc_types s) (Some t) (set_thread t (goto (MCheck m 0)) (mc_threads s)))
      | Some _ => None
      end
  | MCheck m j =>
      match nth_error (mc_types s) j with
      | Some x => if beqb x m then upd (goto (MRel m)) else upd (goto (MCheck m (S j)))
      | None => upd (goto (MApp m))
      end
  | MApp m => Some (mkMconc (mc_types s ++ [m]) (mc_lock s) (set_thread t (goto (MRel m)) (mc_threads s)))
  | MRel m => Some (mkMconc (mc_types s) None (set_thread t (goto (MScan2 m 0)) (mc_threads s)))
  | MScan2 m i =>
      match nth_error (mc_types s) i with
      | Some x => if beqb x m then upd (ret m (Some i)) else upd (goto (MScan2 m (S i)))
      | None => upd (ret m None)
      end
  end.

(** A schedule is any sequence of thread numbers; a thread that cannot move is skipped. *)
Definition msched (sched : list nat) (s : mconc) : mconc :=
  fold_left (fun s t => match mstep t s with Some s' => s' | None => s end) sched s.

Definition mstart (types : list bytes) (progs : nat -> list bytes) : mconc :=
  mkMconc types None (fun t => mkMthread (progs t) MIdle []).
