(** Several threads that look up entries and clusters of one archive that is
    open for reading: [get_entry_at] (archive.py 797-836), [get_cluster_at]
    (1590-1624) and what is built on them, with the caches of cache.py, as
    programs whose single steps may be interleaved (see Threads.v).

    A step is one call of a method of a cache, a search in a dictionary without
    a lock, or one use of the file.
    Simplifications: [get], [push] and [remove] of LastAccessCache and
    TopAccessCache are one step each, because they hold the lock of the cache
    from their beginning to their end (cache.py 424, 437, 450, 598, 603, 615);
    [on_leave] does nothing, as the archive is not writable (archive.py 730, 753);
    the reads of [BaseEntry.from_file] behind the [seek] are one step (the lock of the file
    is held); the file does not change; no processors; nobody clears the caches,
    changes an entry, or binds it elsewhere ([bind] is then without effect). *)
From Coq Require Import List ZArith Bool.
From Verif Require Import Base Utf8 Entry PointerList Dict LinkedList Cache EntryCache Threads.
Import ListNotations.
Open Scope Z_scope.

(** ** The caches *)
(** An object of one of the classes of cache.py 107, 391, 493, 642. *)
Inductive tcache (V : Type) :=
| TNone | TLast (l : lru Z V) | TTop (t : top Z V) | THybrid (l : lru Z V) (t : top Z V).
Arguments TNone {V}. Arguments TLast {V}. Arguments TTop {V}. Arguments THybrid {V}.
(** [policy.entry_cache_class(on_leave=..., **kwargs)], archive.py 236-250. *)
Definition tcache_new {V} (cl : cache_class) : tcache V :=
  match cl with
  | NoOpCache => TNone
  | LastAccessCache n => TLast (lru_new true n)
  | TopAccessCache n => TTop (top_new true n)
  | HybridCache n m => let h := hybrid_new true n m in THybrid (h_last h) (h_top h)
  end.
(** A method of the LastAccessCache, or of the one inside of a HybridCache. *)
Definition on_last {V} (op : cop Z V) (c : tcache V) : tcache V * res (cret V) :=
  match c with
  | TLast l => let '(l, _, r) := lru_step Z.eqb l op in (TLast l, r)
  | THybrid l t => let '(l, _, r) := lru_step Z.eqb l op in (THybrid l t, r)
  | _ => (c, Err AttributeError)
  end.
(** The same of the TopAccessCache. *)
Definition on_top {V} (op : cop Z V) (c : tcache V) : tcache V * res (cret V) :=
  match c with
  | TTop t => let '(t, _, r) := top_step Z.eqb t op in (TTop t, r)
  | THybrid l t => let '(t, _, r) := top_step Z.eqb t op in (THybrid l t, r)
  | _ => (c, Err AttributeError)
  end.

(** What the threads share: the position of the file and the two caches.  A
    cluster object is its offset.  [lk_blink]: [LastAccessCache.push] takes a key
    that is there out of the dictionary and puts it back (cache.py 451-455,
    468-470), and [has] looks into the dictionary without the lock (420-421), so it
    may miss the key; the stream says when that happens. *)
Record looks := mkLooks { lk_pos : Z; lk_blink : nat -> bool; lk_entries : tcache entry; lk_clusters : tcache Z }.
Notation P := (prog looks).
Definition lk_seek (p : Z) (s : looks) : looks := mkLooks p (lk_blink s) (lk_entries s) (lk_clusters s).

Section OneCache.
Context {V : Type}.
Variable sel : looks -> tcache V.                (* [self.entry_cache] or [self.cluster_cache] *)
Variable upd : tcache V -> looks -> looks.
Variable cl : cache_class.

Definition step_of (on : tcache V -> tcache V * res (cret V)) : P (cret V) :=
  Act (fun s => Ret (snd (on (sel s)))) (fun s => upd (fst (on (sel s))) s).
Definition as_bool (r : cret V) : P bool := match r with RBool b => pret b | _ => praise TypeError end.
Definition as_val (r : cret V) : P V := match r with RVal v => pret v | _ => praise TypeError end.

(** [LastAccessCache.has], 420-421, and [TopAccessCache.has], 592-595. *)
Definition p_last_has (k : Z) : P bool :=
  Act (fun s => match snd (on_last (CHas k) (sel s)) with
                | Ok (RBool b) => pret (b && negb (lk_blink s 0%nat))
                | Ok _ => praise TypeError
                | Err e => praise e
                end)
      (fun s => mkLooks (lk_pos s) (fun n => lk_blink s (S n)) (lk_entries s) (lk_clusters s)).
Definition p_top_has (k : Z) : P bool := let! r := step_of (on_top (CHas k)) in as_bool r.

(** [has] of the cache: 111-112, 420, 592, 684-691. *)
Definition p_has (k : Z) : P bool :=
  match cl with
  | NoOpCache => pret false
  | LastAccessCache _ => p_last_has k
  | TopAccessCache _ => p_top_has k
  | HybridCache _ _ => let! a := p_top_has k in if a then pret true else p_last_has k
  end.
(** [get]: 114-115, 423-434, 597-600, 693-706. *)
Definition p_get (k : Z) : P V :=
  match cl with
  | NoOpCache => praise KeyError
  | LastAccessCache _ => let! r := step_of (on_last (CGet k)) in as_val r
  | TopAccessCache _ => let! r := step_of (on_top (CGet k)) in as_val r
  | HybridCache _ _ =>
      let! a := p_top_has k in
      if a then let! r := step_of (on_top (CGet k)) in as_val r
      else
        let! b := p_last_has k in
        if b then
          let! r := step_of (on_last (CGet k)) in
          let! v := as_val r in
          let! r := step_of (on_top (CPush k v true)) in
          let! added := as_bool r in
          if added then let! _ := step_of (on_last (CRemove k true)) in pret v
          else pret v
        else praise KeyError
  end.
(** [push]: 117-118, 447-476, 602-612, 708-720. *)
Definition p_push (k : Z) (v : V) (allow : bool) : P bool :=
  match cl with
  | NoOpCache => pret false
  | LastAccessCache _ => let! r := step_of (on_last (CPush k v allow)) in as_bool r
  | TopAccessCache _ => let! r := step_of (on_top (CPush k v allow)) in as_bool r
  | HybridCache _ _ =>
      let! r := step_of (on_top (CPush k v allow)) in
      let! a := as_bool r in
      if a then pret true
      else let! r := step_of (on_last (CPush k v allow)) in as_bool r
  end.

(** The common part of archive.py 818-826 and 1608-1620. *)
Definition p_cached (k : Z) (load : P V) (allow : bool) : P V :=
  let! h := p_has k in
  if h then p_get k
  else let! v := load in
       let! _ := p_push k v allow in
       pret v.
End OneCache.

(** ** Look-ups *)
(** A pointer list in memory, or on disk ([OnDiskSimplePointerList]). *)
Inductive ptrlist := InMemory (l : list Z) | OnDisk (o : odlist).
Definition ptr_len (p : ptrlist) : Z := match p with InMemory l => zlen l | OnDisk o => od_n o end.

Section Lookups.
Variable f : bytes.                 (* the file *)
Variable base : Z.                  (* [_base_offset], archive.py 121 *)
Variable urls : ptrlist.            (* [_url_pointer_list] *)
Variable clusters : ptrlist.        (* [_cluster_pointer_list] *)
Variables ecl ccl : cache_class.    (* the policy, policy.py 141-154 *)

Definition set_entries c (s : looks) := mkLooks (lk_pos s) (lk_blink s) c (lk_clusters s).
Definition set_clusters c (s : looks) := mkLooks (lk_pos s) (lk_blink s) (lk_entries s) c.

(** [BaseEntry.from_file(f, seek=loc)], entry.py 439-459, in [with self.filelock]. *)
Definition p_from_file (loc : Z) : P entry :=
  locked (let! _ := put (lk_seek loc) in
          Act (fun s => Ret (do ef <- entry_from_file (zskip (lk_pos s) f) ;; Ok (fst ef)))
              (fun s => match entry_from_file (zskip (lk_pos s) f) with
                        | Ok (_, rest) => lk_seek (zlen f - zlen rest) s
                        | Err _ => s
                        end)).
(** [get_entry_at], archive.py 797-836. *)
Definition p_entry_at (loc : Z) (allow : bool) : P entry :=
  if loc <? 0 then praise AssertionError
  else p_cached lk_entries set_entries ecl (base + loc) (p_from_file (base + loc)) allow.
(** [get_cluster_at], 1590-1624; [cluster_class(zim=self, offset=...)], cluster.py
    32-52. *)
Definition p_cluster_at (loc : Z) : P Z :=
  p_cached lk_clusters set_clusters ccl (base + loc)
    (if base + loc <? 0 then praise AssertionError else pret (base + loc)) true.

(** [get_by_index], pointerlist.py 216-227, 773-782. *)
Definition p_ptr (p : ptrlist) (i : Z) : P Z :=
  match p with
  | InMemory l => Ret (get_by_index l i)
  | OnDisk o =>
      if (od_n o <=? i) || (i <? 0) then praise IndexError
      else
        let w := Z.of_nat (od_w o) in
        let! data := locked (let! _ := put (lk_seek (od_offset o + i * w)) in
                             Act (fun s => pret (fread f (lk_pos s) w))
                                 (fun s => lk_seek (lk_pos s + zlen (fread f (lk_pos s) w)) s)) in
        if zlen data =? w then pret (le_val data) else praise StructError
  end.
(** [_get_full_url_for_entry_at], archive.py 425-437; not writable. *)
Definition p_url_key (loc : Z) : P bytes :=
  let! e := p_entry_at loc true in Ret (encode (full_url e)).

(** [binarysearch], pointerlist.py 13-47. *)
Fixpoint p_bsearch_loop (fuel : nat) (keyat : Z -> P bytes) (element : bytes) (start end_ : Z) : P Z :=
  if start <? end_ then
    match fuel with
    | O => praise Diverge
    | S fuel' =>
        let mid := (start + end_) / 2 in
        let! k := keyat mid in
        if bltb k element then p_bsearch_loop fuel' keyat element (mid + 1) end_
        else p_bsearch_loop fuel' keyat element start mid
    end
  else pret start.
Definition p_binarysearch (n : Z) (keyat : Z -> P bytes) (element : bytes) : P Z :=
  if n =? 0 then pret 0 else p_bsearch_loop (Z.to_nat n) keyat element 0 n.
Definition p_keyat (p : ptrlist) (i : Z) : P bytes := let! l := p_ptr p i in p_url_key l.
(** [get_index], 536-554; [get], 521-534. *)
Definition p_index (p : ptrlist) (key : bytes) : P Z :=
  let! i := p_binarysearch (ptr_len p) (p_keyat p) key in
  if i =? ptr_len p then praise KeyError
  else let! k := p_keyat p i in
       if beqb k key then pret i else praise KeyError.
Definition p_find (p : ptrlist) (url : ustr) : P Z :=
  let! key := Ret (encode url) in let! i := p_index p key in p_ptr p i.

(** [get_entry_by_full_url], archive.py 873-888. *)
Definition p_entry_by_url (url : ustr) : P entry :=
  let! loc := pthen (p_find urls url) (fun r => Ret (match r with Err KeyError => Err EntryNotFound | _ => r end)) in
  p_entry_at loc true.
(** [has_entry_for_full_url], 914-924; [has], pointerlist.py 556-573. *)
Definition p_has_url (url : ustr) : P bool :=
  pthen (p_find urls url)
    (fun r => Ret (match r with Ok _ => Ok true | Err KeyError => Ok false | Err e => Err e end)).
(** [get_entry_by_url_index], 890-912. *)
Definition p_entry_by_index (i : Z) : P entry :=
  if i <? 0 then praise EntryNotFound
  else let! loc := pthen (p_ptr urls i) (fun r => Ret (match r with Err IndexError => Err EntryNotFound | _ => r end)) in
       p_entry_at loc true.
(** [get_cluster_by_index], 1626-1635. *)
Definition p_cluster_by_index (i : Z) : P Z :=
  if i <? 0 then praise AssertionError
  else let! loc := p_ptr clusters i in p_cluster_at loc.

(** ** Threads *)
Inductive look :=
| EntryAt (loc : Z) | EntryByIndex (i : Z) | EntryByUrl (full_url : ustr) | HasUrl (full_url : ustr)
| ClusterAt (loc : Z) | ClusterByIndex (i : Z).
Inductive seen := SEntry (e : entry) | SCluster (offset : Z) | SBool (b : bool) | SRaise (e : exn).
Definition p_look (q : look) : P seen :=
  let an {A} (c : A -> seen) (p : P A) := pthen p (fun r => pret (match r with Ok a => c a | Err e => SRaise e end)) in
  match q with
  | EntryAt l => an SEntry (p_entry_at l true)
  | EntryByIndex i => an SEntry (p_entry_by_index i)
  | EntryByUrl u => an SEntry (p_entry_by_url u)
  | HasUrl u => an SBool (p_has_url u)
  | ClusterAt l => an SCluster (p_cluster_at l)
  | ClusterByIndex i => an SCluster (p_cluster_by_index i)
  end.
(** One look-up after the other. *)
Fixpoint p_looks (qs : list look) : P (list seen) :=
  match qs with
  | [] => pret []
  | q :: qs => let! a := p_look q in let! r := p_looks qs in pret (a :: r)
  end.
(** An archive that was just opened. *)
Definition lstart (pos : Z) (blink : nat -> bool) (scripts : list (list look)) : config looks (list seen) :=
  mkConfig (map p_looks scripts) None (mkLooks pos blink (tcache_new ecl) (tcache_new ccl)).
End Lookups.
