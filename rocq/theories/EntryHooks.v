(** Processors that look at, or replace, the entries that are read (C98): the
    hooks [before_entry_get] and [after_entry_get] of [get_entry_at], archive.py
    815-837; processor.py 136-167.  Every way to read an entry ends in
    [get_entry_at], also the key function of the list of urls (425-437), so that
    the hooks are called, and what they return is compared, during a search.

    The functions are those of Archive.v with these hooks.  [P] is everything the
    processors remember.  Simplifications: those of Archive.v; in particular the
    entry cache is a NoOpCache, so that a replaced entry is not kept.  The hooks do
    not fail, and do not use the archive themselves. *)
From Coq Require Import List ZArith Bool.
From Verif Require Import Base Utf8 Entry PointerList Cluster Archive.
Import ListNotations.
Open Scope Z_scope.

Section Hooks.
Context {P : Type}.

(** [before_entry_get(location)], processor.py 136-150, and
    [after_entry_get(location, entry)], 152-167, which returns the entry to use. *)
Record proc := mkProc { before_get : Z -> P -> P; after_get : Z -> entry -> P -> entry * P }.
(** [Zim._processors], in the order of installation (archive.py 2069-2081). *)
Variable procs : list proc.

(** 816-817 *)
Fixpoint ask_before (l : list proc) (location : Z) (p : P) : P :=
  match l with [] => p | x :: r => ask_before r location (before_get x location p) end.
(** 831-836 *)
Fixpoint pass_on (l : list proc) (location : Z) (e : entry) (p : P) : entry * P :=
  match l with
  | [] => (e, p)
  | x :: r => let '(e, p) := after_get x location e p in pass_on r location e p
  end.

(** [get_entry_at], 797-837. *)
Definition hget_entry_at (s : zim) (location : Z) : M P entry := fun p =>
  if location <? 0 then (Err AssertionError, p)
  else
    let p := ask_before procs location p in
    match entry_at (z_file s) location with
    | Err x => (Err x, p)
    | Ok e => let '(e, p) := pass_on procs location e p in (Ok e, p)
    end.
(** Something that calls no hook. *)
Definition plain {A} (r : res A) : M P A := fun p => (r, p).

(** [get_entry_by_url_index], 890-912. *)
Definition hget_entry_by_url_index (s : zim) (i : Z) : M P entry :=
  if i <? 0 then raise EntryNotFound
  else match get_by_index (pl_ptrs (z_upl s)) i with
       | Ok location => hget_entry_at s location
       | Err IndexError => raise EntryNotFound
       | Err e => raise e
       end.
(** [_get_full_url_for_entry_at], 425-437. *)
Definition hurl_key (s : zim) (location : Z) : M P bytes :=
  let* e := hget_entry_at s location in plain (encode (full_url e)).

(** The binary search of pointerlist.py (PointerList.v) with this key function:
    [binarysearch], [get_index] (536-554), [get] (521-534), [has] (556-573). *)
Fixpoint hbsearch_loop (fuel : nat) (keyat : Z -> M P bytes) (element : bytes) (start end_ : Z) : M P Z :=
  if start <? end_ then
    match fuel with
    | O => raise Diverge
    | S fuel' =>
        let mid := (start + end_) / 2 in
        let* k := keyat mid in
        if bltb k element then hbsearch_loop fuel' keyat element (mid + 1) end_
        else hbsearch_loop fuel' keyat element start mid
    end
  else ret start.
Definition hkeyat (keyf : Z -> M P bytes) (l : list Z) (i : Z) : M P bytes :=
  let* q := plain (get_by_index l i) in keyf q.
Definition hget_index (keyf : Z -> M P bytes) (l : list Z) (key : bytes) : M P Z :=
  let* i := (if zlen l =? 0 then ret 0 else hbsearch_loop (Z.to_nat (zlen l)) (hkeyat keyf l) key 0 (zlen l)) in
  if i =? zlen l then raise KeyError
  else let* k := hkeyat keyf l i in
       if beqb k key then ret i else raise KeyError.
Definition hget (keyf : Z -> M P bytes) (l : list Z) (key : bytes) : M P Z :=
  let* i := hget_index keyf l key in plain (get_by_index l i).

(** [get_entry_by_full_url], 873-888. *)
Definition hget_entry_by_full_url (s : zim) (url : ustr) : M P entry := fun p =>
  match (let* k := plain (encode url) in hget (hurl_key s) (pl_ptrs (z_upl s)) k) p with
  | (Ok location, p) => hget_entry_at s location p
  | (Err KeyError, p) => (Err EntryNotFound, p)
  | (Err e, p) => (Err e, p)
  end.
(** [has_entry_for_full_url], 914-924. *)
Definition hhas_entry_for_full_url (s : zim) (url : ustr) : M P bool := fun p =>
  match (let* k := plain (encode url) in hget (hurl_key s) (pl_ptrs (z_upl s)) k) p with
  | (Ok _, p) => (Ok true, p)
  | (Err KeyError, p) => (Ok false, p)
  | (Err e, p) => (Err e, p)
  end.
(** [get_mainpage_entry], 926-939. *)
Definition hget_mainpage_entry (s : zim) : M P entry :=
  match z_main s with
  | None => raise EntryNotFound
  | Some i => let* location := plain (get_by_index (pl_ptrs (z_upl s)) i) in hget_entry_at s location
  end.

(** [iter_entries], 1192-1231, and [iter_articles], 1233-1254, run to their end. *)
Fixpoint hiter_range (g : Z -> M P entry) (start : Z) (count : nat) : M P (list entry) :=
  match count with
  | O => ret []
  | S c => let* x := g start in let* r := hiter_range g (start + 1) c in ret (x :: r)
  end.
Definition hiter_bounds (n : Z) (g : Z -> M P entry) (start end_ : option Z) : M P (list entry) :=
  let s := match start with None => 0 | Some s => s end in
  let e := match end_ with None => n | Some e => e end in
  if s <? 0 then raise AssertionError
  else if n <? e then raise AssertionError
  else if e <? s then raise AssertionError
  else hiter_range g s (Z.to_nat (e - s)).
Definition hiter_entries (s : zim) (start end_ : option Z) : M P (list entry) :=
  hiter_bounds (zlen (pl_ptrs (z_upl s)))
    (fun i => let* q := plain (get_by_index (pl_ptrs (z_upl s)) i) in hget_entry_at s q) start end_.
Definition hiter_articles (s : zim) (start end_ : option Z) : M P (list entry) :=
  hiter_bounds (zlen (pl_ptrs (z_atpl s)))
    (fun i => let* q := plain (get_by_index (pl_ptrs (z_atpl s)) i) in hget_entry_by_url_index s q) start end_.

(** [RedirectEntry.follow], [resolve], entry.py 1007-1035. *)
Definition hfollow (s : zim) (e : entry) : M P entry :=
  match e_kind e with
  | Redirect i => hget_entry_by_url_index s i
  | Content _ _ => raise AttributeError
  end.
Fixpoint hresolve (fuel : nat) (s : zim) (e : entry) : M P entry :=
  match fuel with
  | O => raise Diverge
  | S fuel' => if is_redirect e then let* e' := hfollow s e in hresolve fuel' s e' else ret e
  end.
End Hooks.
Arguments proc : clear implicits.
