(** Model of pyzim/pointerlist.py. *)
From Coq Require Import List ZArith Bool.
From Verif Require Import Base Utf8 SpaceAllocator.
Import ListNotations.
Open Scope Z_scope.

(** ** binarysearch, 13-47.
    [n] is [len(to_search)], [keyat i] is [key(to_search[i])].  The code is
    only ever called with the default [start]/[end]; the loop 41-47 is given
    fuel ([bsearch_total] in PointerListProofs shows it never runs out). *)
Fixpoint bsearch_loop (fuel : nat) (keyat : Z -> res bytes) (element : bytes) (start end_ : Z) : res Z :=
  if start <? end_ then
    match fuel with
    | O => Err Diverge
    | S fuel' =>
        let mid := (start + end_) / 2 in
        do k <- keyat mid ;;
        if bltb k element then bsearch_loop fuel' keyat element (mid + 1) end_
        else bsearch_loop fuel' keyat element start mid
    end
  else Ok start.

Definition binarysearch (n : Z) (keyat : Z -> res bytes) (element : bytes) : res Z :=
  if n =? 0 then Ok 0 else bsearch_loop (Z.to_nat n) keyat element 0 n.

(** ** SimplePointerList *)

(** Attributes [_pointers] and the ModifiableMixIn state ([_dirty], [mutable],
    [_old_disk_size]); the lock is not represented (operations are atomic). *)
Record plist := mkPlist { pl_ptrs : list Z; pl_dirty : bool; pl_mutable : bool; pl_old_size : Z }.

(** [struct.unpack("<" + F * n, s)] for a format character of [w] bytes;
    struct.error unless [len(s) == n * w]. *)
Fixpoint unpack_n (w : nat) (n : nat) (s : bytes) : list Z :=
  match n with
  | O => []
  | S n' => le_val (firstn w s) :: unpack_n w n' (skipn w s)
  end.

(** [from_bytes], 96-119 and 426-451 ([w] is the pointer size, 8 for "Q", 4 for "I"). *)
Definition ptrs_from_bytes (w : nat) (s : bytes) : res (list Z) :=
  if negb (zlen s mod Z.of_nat w =? 0) then Err ValueError
  else Ok (unpack_n w (Z.to_nat (zlen s / Z.of_nat w)) s).

(** [from_file], 122-142 and 454-476, on a whole file. *)
Definition ptrs_from_file (w : nat) (f : bytes) (n seek : Z) : res (list Z) :=
  if n <? 0 then Err AssertionError
  else let data := fread f seek (Z.of_nat w * n) in
       if zlen data =? Z.of_nat w * n then Ok (unpack_n w (Z.to_nat n) data) else Err StructError.

(** [to_bytes], 183-191. *)
Fixpoint ptrs_to_bytes (w : nat) (l : list Z) : res bytes :=
  match l with
  | [] => Ok []
  | p :: r => do b <- pack_le w p ;; do rb <- ptrs_to_bytes w r ;; Ok (b ++ rb)
  end.

(** [get_disk_size], 381-382. *)
Definition ptrs_disk_size (w : nat) (l : list Z) : Z := Z.of_nat w * zlen l.

(** constructor, 70-83 *)
Definition plist_new (w : nat) (l : list Z) : plist := mkPlist l false true (ptrs_disk_size w l).

(** Python [l[i]], negative indices included. *)
Definition py_index (len i : Z) : option nat :=
  if (0 <=? i) && (i <? len) then Some (Z.to_nat i)
  else if (i <? 0) && (0 <=? len + i) then Some (Z.to_nat (len + i))
  else None.

(** [get_by_index], 216-227. *)
Definition get_by_index (l : list Z) (i : Z) : res Z :=
  match py_index (zlen l) i with
  | Some k => match nth_error l k with Some p => Ok p | None => Err IndexError end
  | None => Err IndexError
  end.

(** [get_by_pointer], 229-244, for [len(self) = n] and list [l]; the loop
    reads [self._pointers[i]] for [i] in [range(len(self))]. *)
Fixpoint gbp_loop (l : list Z) (todo : nat) (i : Z) (pointer : Z) : res Z :=
  match todo with
  | O => Err KeyError
  | S todo' =>
      do p <- get_by_index l i ;;
      if p =? pointer then Ok i else gbp_loop l todo' (i + 1) pointer
  end.
Definition get_by_pointer (l : list Z) (pointer : Z) : res Z := gbp_loop l (length l) 0 pointer.

(** The common pattern "ensure_mutable, change, mark_dirty". *)
Definition pl_change (o : plist) (l : list Z) : plist := mkPlist l true (pl_mutable o) (pl_old_size o).

(** [append], 246-261. *)
Definition pl_append (p : Z) (o : plist) : res plist :=
  if p <? 0 then Err AssertionError
  else if negb (pl_mutable o) then Err NonMutable
  else Ok (pl_change o (pl_ptrs o ++ [p])).

(** [set], 263-301. *)
Definition pl_set (i p : Z) (add_placeholders : bool) (o : plist) : res plist :=
  if p <? 0 then Err AssertionError
  else if (zlen (pl_ptrs o) <? i) && negb add_placeholders then Err IndexError
  else if negb (pl_mutable o) then Err NonMutable
  else
    let length := zlen (pl_ptrs o) in
    if i <? length then
      match py_index length i with
      | Some k => Ok (pl_change o (list_set (pl_ptrs o) k p))
      | None => Err IndexError
      end
    else if i =? length then Ok (pl_change o (pl_ptrs o ++ [p]))
    else Ok (pl_change o (pl_ptrs o ++ repeat p (Z.to_nat (i - length + 1)))).

(** [remove_by_index], 303-314. *)
Definition pl_remove_by_index (i : Z) (o : plist) : res plist :=
  if i <? 0 then Err AssertionError
  else if negb (pl_mutable o) then Err NonMutable
  else match py_index (zlen (pl_ptrs o)) i with
       | Some k => Ok (pl_change o (list_pop (pl_ptrs o) k))
       | None => Err IndexError
       end.

(** [for i in range(start, start+count): yield g(i)] as a list of results. *)
Fixpoint iter_range {A} (g : Z -> res A) (start : Z) (count : nat) : res (list A) :=
  match count with
  | O => Ok []
  | S c => do x <- g start ;; do r <- iter_range g (start + 1) c ;; Ok (x :: r)
  end.

(** [iter_pointers], 316-340, for a list of length [n] with accessor [g]
    (the generator consumed to its end). *)
Definition iter_bounds {A} (n : Z) (lim : Z) (g : Z -> res A) (start end_ : option Z) : res (list A) :=
  let s := match start with None => 0 | Some s => s end in
  let e := match end_ with None => lim | Some e => e end in
  if s <? 0 then Err AssertionError
  else if n <? e then Err AssertionError
  else if e <? s then Err AssertionError
  else iter_range g s (Z.to_nat (e - s)).
Definition iter_pointers (l : list Z) (start end_ : option Z) : res (list Z) :=
  iter_bounds (zlen l) (zlen l) (get_by_index l) start end_.

(** [mass_update], 342-379: the body for one pointer ... *)
Definition in_range (start end_ : option Z) (p : Z) : bool :=
  negb (match start with Some s => p <? s | None => false end) &&
  negb (match end_ with Some e => e <=? p | None => false end).
(** ... and the loop, which also accumulates [did_modify]. *)
Fixpoint mass_loop (diff : Z) (start end_ : option Z) (l : list Z) : list Z * bool :=
  match l with
  | [] => ([], false)
  | p :: r =>
      let (r', m) := mass_loop diff start end_ r in
      if in_range start end_ p then (p + diff :: r', true) else (p :: r', m)
  end.
Definition pl_mass_update (diff : Z) (start end_ : option Z) (o : plist) : res plist :=
  if match start, end_ with Some s, Some e => e <? s | _, _ => false end then Err AssertionError
  else let (l, m) := mass_loop diff start end_ (pl_ptrs o) in
       Ok (mkPlist l (if m then true else pl_dirty o) (pl_mutable o) (pl_old_size o)).

(** after_flush_or_read *)
Definition pl_flush (w : nat) (o : plist) : res (bytes * plist) :=
  do b <- ptrs_to_bytes w (pl_ptrs o) ;;
  Ok (b, mkPlist (pl_ptrs o) false (pl_mutable o) (ptrs_disk_size w (pl_ptrs o))).

(** ** OrderedPointerList.  [keyf] is the key function; keys are bytes (a
    [str] argument is encoded first, 549-550 etc.). *)
Section Ordered.
Variable keyf : Z -> res bytes.

(** [key(to_search[i])] for the in-memory list *)
Definition keyat (l : list Z) (i : Z) : res bytes := do p <- get_by_index l i ;; keyf p.

(** [get_index], 536-554, for a list of length [n] with accessor [g]. *)
Definition get_index_gen (n : Z) (g : Z -> res Z) (key : bytes) : res Z :=
  do i <- binarysearch n (fun i => do p <- g i ;; keyf p) key ;;
  if i =? n then Err KeyError
  else do p <- g i ;;
       do k <- keyf p ;;
       if beqb k key then Ok i else Err KeyError.
Definition get_index (l : list Z) (key : bytes) : res Z := get_index_gen (zlen l) (get_by_index l) key.

(** [get], 521-534. *)
Definition get_gen (n : Z) (g : Z -> res Z) (key : bytes) : res Z :=
  do i <- get_index_gen n g key ;; g i.
Definition get (l : list Z) (key : bytes) : res Z := get_gen (zlen l) (get_by_index l) key.

(** [has], 556-573: only KeyError is caught. *)
Definition has_gen (n : Z) (g : Z -> res Z) (key : bytes) : res bool :=
  match get_gen n g key with
  | Ok _ => Ok true
  | Err KeyError => Ok false
  | Err e => Err e
  end.
Definition has (l : list Z) (key : bytes) : res bool := has_gen (zlen l) (get_by_index l) key.

(** [find_first_greater_equals], 619-636. *)
Definition find_first_ge (l : list Z) (key : bytes) : res Z :=
  binarysearch (zlen l) (keyat l) key.

(** [add], 575-596; returns the insertion position. *)
Definition pl_add (key : bytes) (pointer : Z) (o : plist) : res (Z * plist) :=
  if pointer <? 0 then Err AssertionError
  else if negb (pl_mutable o) then Err NonMutable
  else do i <- binarysearch (zlen (pl_ptrs o)) (keyat (pl_ptrs o)) key ;;
       Ok (i, pl_change o (list_insert (pl_ptrs o) (Z.to_nat i) pointer)).

(** [remove], 598-617. *)
Definition pl_remove (key : bytes) (o : plist) : res plist :=
  if negb (pl_mutable o) then Err NonMutable
  else do i <- binarysearch (zlen (pl_ptrs o)) (keyat (pl_ptrs o)) key ;;
       if i =? zlen (pl_ptrs o) then Err KeyError
       else do k <- keyat (pl_ptrs o) i ;;
            if beqb k key then Ok (pl_change o (list_pop (pl_ptrs o) (Z.to_nat i))) else Err KeyError.

(** [iter_values], 638-663. *)
Definition iter_values (l : list Z) (start end_ : option Z) : res (list bytes) :=
  iter_bounds (zlen l) (zlen l) (keyat l) start end_.

(** [check_sorted], 665-683. *)
Fixpoint check_sorted_loop (last : option bytes) (l : list Z) : res unit :=
  match l with
  | [] => Ok tt
  | p :: r =>
      do k <- keyf p ;;
      if match last with Some lk => bltb k lk | None => false end then Err UnsortedList
      else check_sorted_loop (Some k) r
  end.
Definition check_sorted (l : list Z) : res unit := check_sorted_loop None l.

End Ordered.

(** ** On-disk variants, 707-840.  The object keeps the file, the offset and
    the number of pointers; its inherited [_pointers] attribute is [[]]. *)
Record odlist := mkOd { od_file : bytes; od_offset : Z; od_n : Z; od_w : nat }.

(** [get_by_index], 773-782. *)
Definition od_get (o : odlist) (i : Z) : res Z :=
  if (od_n o <=? i) || (i <? 0) then Err IndexError
  else let data := fread (od_file o) (od_offset o + i * Z.of_nat (od_w o)) (Z.of_nat (od_w o)) in
       if zlen data =? Z.of_nat (od_w o) then Ok (le_val data) else Err StructError.

(** [__len__], 770-771; [iter_pointers] inherited (316-340). *)
Definition od_iter_pointers (o : odlist) (start end_ : option Z) : res (list Z) :=
  iter_bounds (od_n o) (od_n o) (od_get o) start end_.

(** [get_by_pointer] inherited (229-244): loops over [range(len(self))] but
    reads the inherited, empty [_pointers]. *)
Definition od_get_by_pointer (o : odlist) (pointer : Z) : res Z :=
  gbp_loop [] (Z.to_nat (od_n o)) 0 pointer.

(** Ordered lookups inherited (521-573, 619-636); they use [len(self)] and
    [self[i]], which are overridden. *)
Definition od_get_index (keyf : Z -> res bytes) (o : odlist) (key : bytes) : res Z :=
  get_index_gen keyf (od_n o) (od_get o) key.
Definition od_get_key (keyf : Z -> res bytes) (o : odlist) (key : bytes) : res Z :=
  get_gen keyf (od_n o) (od_get o) key.
Definition od_has (keyf : Z -> res bytes) (o : odlist) (key : bytes) : res bool :=
  has_gen keyf (od_n o) (od_get o) key.
Definition od_find_first_ge (keyf : Z -> res bytes) (o : odlist) (key : bytes) : res Z :=
  binarysearch (od_n o) (fun i => do p <- od_get o i ;; keyf p) key.

(** [iter_values] inherited (638-663): its default and upper bound are
    [len(self._pointers)], which is 0. *)
Definition od_iter_values (keyf : Z -> res bytes) (o : odlist) (start end_ : option Z) : res (list bytes) :=
  iter_bounds 0 0 (fun i => do p <- od_get o i ;; keyf p) start end_.

(** [check_sorted] inherited: iterates [iter_pointers()] (overridden accessors). *)
Definition od_check_sorted (keyf : Z -> res bytes) (o : odlist) : res unit :=
  do l <- od_iter_pointers o None None ;; check_sorted_loop keyf None l.
