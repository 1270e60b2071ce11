(** Model of the entry layer of pyzim/archive.py with an entry cache chosen by
    the policy (archive.py 227-252, 741-757, 797-837; policy.py 141-150).

    Archive.v describes the same functions under the default policy, whose
    cache keeps nothing; this file repeats them with the cache, because every
    read goes through it and may change it.  Entries are objects here: a cache
    holds references, and the reference that a look-up returns may be one that
    the caller has changed already.

    Simplifications: as in Archive.v, except for the policy.  The calls of
    [on_leave] that one cache operation makes are executed when the operation
    is over (cache.py 474-476; TopAccessCache makes them a few lines earlier,
    588).  Blobs of removed entries are kept ([blob="keep"]). *)
From Coq Require Import List ZArith Bool.
From Verif Require Import Base Utf8 Entry PointerList SpaceAllocator Cluster Archive Cache.
Import ListNotations.
Open Scope Z_scope.

(** ** The classes an archive can use (cache.py 107, 391, 493, 642), with
    [on_leave] set (archive.py 247-250). *)
Inductive cache_class :=
| NoOpCache | LastAccessCache (max_size : Z) | TopAccessCache (max_size : Z)
| HybridCache (last_cache_size top_cache_size : Z).
Inductive ecache :=
| ENone | ELast (c : lru Z nat) | ETop (c : top Z nat) | EHybrid (c : hybrid Z nat).
(** [policy.entry_cache_class(on_leave=..., **policy.entry_cache_kwargs)] *)
Definition ecache_new (cl : cache_class) : ecache :=
  match cl with
  | NoOpCache => ENone
  | LastAccessCache n => ELast (lru_new true n)
  | TopAccessCache n => ETop (top_new true n)
  | HybridCache n m => EHybrid (hybrid_new true n m)
  end.
Definition estep (c : ecache) (op : cop Z nat) : outcome Z nat ecache :=
  match c with
  | ENone => let '(_, evs, r) := noop_step op in (ENone, evs, r)
  | ELast c => let '(c, evs, r) := lru_step Z.eqb c op in (ELast c, evs, r)
  | ETop c => let '(c, evs, r) := top_step Z.eqb c op in (ETop c, evs, r)
  | EHybrid c => let '(c, evs, r) := hybrid_step Z.eqb c op in (EHybrid c, evs, r)
  end.

(** ** Searching with a key function that changes the state
    (pointerlist.py 13-47, 521-596; compare PointerList.v). *)
Section Search.
Context {St : Type}.

(** [iter_range] with an accessor that changes the state. *)
Fixpoint miter_range {A} (g : Z -> M St A) (start : Z) (count : nat) : M St (list A) :=
  match count with
  | O => ret []
  | S c => let* x := g start in let* r := miter_range g (start + 1) c in ret (x :: r)
  end.

(** pointerlist.py 13-47 *)
Fixpoint mbsearch_loop (fuel : nat) (keyat : Z -> M St bytes) (element : bytes) (start end_ : Z) : M St Z :=
  if start <? end_ then
    match fuel with
    | O => raise Diverge
    | S fuel' =>
        let mid := (start + end_) / 2 in
        let* k := keyat mid in
        if bltb k element then mbsearch_loop fuel' keyat element (mid + 1) end_
        else mbsearch_loop fuel' keyat element start mid
    end
  else ret start.
Definition mbinarysearch (n : Z) (keyat : Z -> M St bytes) (element : bytes) : M St Z :=
  if n =? 0 then ret 0 else mbsearch_loop (Z.to_nat n) keyat element 0 n.

(** A value that does not depend on the state. *)
Definition pure {A} (r : res A) : M St A := fun s => (r, s).

Variable keyf : Z -> M St bytes.
Definition mkeyat (l : list Z) (i : Z) : M St bytes := let* p := pure (get_by_index l i) in keyf p.

(** [get_index], 536-554. *)
Definition mget_index (l : list Z) (key : bytes) : M St Z :=
  let* i := mbinarysearch (zlen l) (mkeyat l) key in
  if i =? zlen l then raise KeyError
  else let* k := mkeyat l i in
       if beqb k key then ret i else raise KeyError.
(** [get], 521-534. *)
Definition mget (l : list Z) (key : bytes) : M St Z :=
  let* i := mget_index l key in pure (get_by_index l i).
(** [has], 556-573. *)
Definition mhas (l : list Z) (key : bytes) : M St bool := fun s =>
  match mget l key s with
  | (Ok _, s') => (Ok true, s')
  | (Err KeyError, s') => (Ok false, s')
  | (Err e, s') => (Err e, s')
  end.
(** [find_first_greater_equals], 619-636. *)
Definition mfind_first_ge (l : list Z) (key : bytes) : M St Z := mbinarysearch (zlen l) (mkeyat l) key.
(** [add], 575-596. *)
Definition mpl_add (key : bytes) (pointer : Z) (o : plist) : M St (Z * plist) :=
  if pointer <? 0 then raise AssertionError
  else if negb (pl_mutable o) then raise NonMutable
  else let* i := mbinarysearch (zlen (pl_ptrs o)) (mkeyat (pl_ptrs o)) key in
       ret (i, pl_change o (list_insert (pl_ptrs o) (Z.to_nat i) pointer)).
End Search.

(** ** Entry objects *)

(** An entry object (entry.py 84-93, modifiable.py 33-42): its attributes;
    its attributes when it was last read or written, which [_old_full_url] and
    [_old_disk_size] are computed from (entry.py 498-504, modifiable.py
    100-117); [_force_is_article] and [_dirty]. *)
Record cobj := mkObj { co_now : entry; co_disk : entry; co_force : option bool; co_dirty : bool }.
(** A constructed or parsed entry (entry.py 602, 902). *)
Definition obj_new (e : entry) : cobj := mkObj e e None false.
(** [after_flush_or_read], entry.py 498-504. *)
Definition obj_flushed (o : cobj) : cobj := mkObj (co_now o) (co_now o) (co_force o) false.
(** The object as Archive.v sees it. *)
Definition obj_went (o : cobj) : went := mkWent (co_now o) (full_url (co_disk o)) (co_force o).
(** [entry.redirect_index = value], entry.py 916-934. *)
Definition obj_redirect (v : Z) (o : cobj) : res cobj :=
  match e_kind (co_now o) with
  | Content _ _ => Err AttributeError
  | Redirect r =>
      if v <? 0 then Err ValueError
      else if v =? r then Ok o
      else Ok (mkObj (with_redirect_index (co_now o) v) (co_disk o) (co_force o) true)
  end.

Section EntryCache.
(** The cache: a class of cache.py, its keys are offsets and its values are
    entry objects. *)
Variable C : Type.
Variable step : C -> cop Z nat -> outcome Z nat C.
(** [self._writable] (archive.py 130) and [policy.autoflush]. *)
Variable writable : bool.
Variable autoflush : bool.

(** The archive, [self.entry_cache], and the entry objects that exist. *)
Record cstate := mkC { cs_zim : zim; cs_cache : C; cs_objs : list cobj }.
Definition with_zim s (w : cstate) := mkC s (cs_cache w) (cs_objs w).
Definition with_cache c (w : cstate) := mkC (cs_zim w) c (cs_objs w).
Definition with_objs l (w : cstate) := mkC (cs_zim w) (cs_cache w) l.

(** A part that neither reads entries nor changes objects. *)
Definition on_archive {A} (m : M zim A) : M cstate A :=
  fun w => let (r, s) := m (cs_zim w) in (r, with_zim s w).

(** Using, changing and creating objects. *)
Definition obj (r : nat) : M cstate cobj := fun w =>
  match nth_error (cs_objs w) r with Some o => (Ok o, w) | None => (Err AttributeError, w) end.
Definition set_obj (r : nat) (o : cobj) : M cstate unit := fun w =>
  (Ok tt, with_objs (list_set (cs_objs w) r o) w).
Definition new_obj (o : cobj) : M cstate nat := fun w =>
  (Ok (length (cs_objs w)), with_objs (cs_objs w ++ [o]) w).
Definition entry_of (r : nat) : M cstate entry := let* o := obj r in ret (co_now o).

Section Calls.
(** [self.write_entry(entry, update_redirects=u)] *)
Variable write : nat -> bool -> M cstate unit.

(** [_on_entry_cache_leave], 741-757. *)
Definition on_leave (r : nat) : M cstate unit :=
  if writable && autoflush then
    let* o := obj r in
    if co_dirty o then write r true else ret tt
  else ret tt.

Fixpoint leave_all (l : list (leave Z nat)) : M cstate unit :=
  match l with
  | [] => ret tt
  | v :: l => let* _ := on_leave (lv_val v) in leave_all l
  end.

(** A call of a method of the cache. *)
Definition cache_call (op : cop Z nat) : M cstate (cret nat) := fun w =>
  let '(c, evs, r) := step (cs_cache w) op in
  (let* _ := leave_all evs in pure r) (with_cache c w).

(** [get_entry_at], 797-837. *)
Definition cget_entry_at (location : Z) (allow : bool) : M cstate nat :=
  if location <? 0 then raise AssertionError
  else
    let* h := cache_call (CHas location) in
    match h with
    | RBool true =>
        let* v := cache_call (CGet location) in
        match v with RVal r => ret r | _ => raise TypeError end
    | _ =>
        let* e := on_archive (query (fun s => entry_at (z_file s) location)) in
        let* r := new_obj (obj_new e) in
        let* _ := cache_call (CPush location r allow) in
        ret r
    end.

(** The url pointer list, read at the moment of the call. *)
Definition urls : M cstate (list Z) := on_archive (query (fun s => Ok (pl_ptrs (z_upl s)))).

(** [get_entry_by_url_index], 890-912. *)
Definition cget_entry_by_url_index (i : Z) (allow : bool) : M cstate nat :=
  if i <? 0 then raise EntryNotFound
  else let* l := urls in
       match get_by_index l i with
       | Ok location => cget_entry_at location allow
       | Err IndexError => raise EntryNotFound
       | Err e => raise e
       end.

(** The key functions, 425-437, 439-465, 467-480. *)
Definition curl_key (location : Z) : M cstate bytes :=
  let* r := cget_entry_at location (negb writable) in
  let* e := entry_of r in pure (encode (full_url e)).
Definition cnstitle_key (i : Z) : M cstate bytes :=
  let* r := cget_entry_by_url_index i (negb writable) in
  let* e := entry_of r in pure (encode (e_ns e ++ title e)).
Definition ctitle_key (i : Z) : M cstate bytes :=
  let* r := cget_entry_by_url_index i (negb writable) in
  let* e := entry_of r in pure (encode (title e)).

(** [self._url_pointer_list.get_index(url)], [.get(url)]. *)
Definition curl_index (url : ustr) : M cstate Z :=
  let* k := pure (encode url) in let* l := urls in mget_index curl_key l k.
Definition curl_pointer (url : ustr) : M cstate Z :=
  let* k := pure (encode url) in let* l := urls in mget curl_key l k.

(** [get_entry_by_full_url], 873-888. *)
Definition cget_entry_by_full_url (url : ustr) : M cstate nat := fun w =>
  match curl_pointer url w with
  | (Ok location, w') => cget_entry_at location true w'
  | (Err KeyError, w') => (Err EntryNotFound, w')
  | (Err e, w') => (Err e, w')
  end.

(** [has_entry_for_full_url], 914-924. *)
Definition chas_entry_for_full_url (url : ustr) : M cstate bool :=
  let* k := pure (encode url) in let* l := urls in mhas curl_key l k.

(** [get_mainpage_entry], 926-939. *)
Definition cget_mainpage_entry : M cstate nat :=
  let* m := on_archive (query (fun s => Ok (z_main s))) in
  match m with
  | None => raise EntryNotFound
  | Some i => let* l := urls in let* location := pure (get_by_index l i) in cget_entry_at location true
  end.

(** [entry_at_url_is_article], 1156-1190. *)
Definition centry_at_url_is_article (url : ustr) : M cstate bool :=
  if negb (in_C url) then raise ValueError
  else fun w => match curl_index url w with
                | (Err KeyError, w') => (Ok false, w')
                | (Err e, w') => (Err e, w')
                | (Ok i, w') => match get_by_pointer (pl_ptrs (z_atpl (cs_zim w'))) i with
                                | Ok _ => (Ok true, w')
                                | Err KeyError => (Ok false, w')
                                | Err e => (Err e, w')
                                end
                end.

(** [iter_bounds] (pointerlist.py 316-340) with reads that change the state. *)
Definition miter_bounds {A} (n : Z) (g : Z -> M cstate A) (start end_ : option Z) : M cstate (list A) :=
  let s := match start with None => 0 | Some s => s end in
  let e := match end_ with None => n | Some e => e end in
  if s <? 0 then raise AssertionError
  else if n <? e then raise AssertionError
  else if e <? s then raise AssertionError
  else miter_range g s (Z.to_nat (e - s)).

(** [iter_entries_by_url], 1215-1231, and [iter_articles], 1233-1254. *)
Definition citer_entries (start end_ : option Z) : M cstate (list nat) :=
  let* l := urls in
  miter_bounds (zlen l) (fun i => let* l := urls in let* p := pure (get_by_index l i) in cget_entry_at p true) start end_.
Definition citer_articles (start end_ : option Z) : M cstate (list nat) :=
  let* l := on_archive (query (fun s => Ok (pl_ptrs (z_atpl s)))) in
  miter_bounds (zlen l)
    (fun i => let* l := on_archive (query (fun s => Ok (pl_ptrs (z_atpl s)))) in
              let* p := pure (get_by_index l i) in cget_entry_by_url_index p true) start end_.

(** [RedirectEntry.follow] and [resolve], entry.py 1007-1035. *)
Definition cfollow (r : nat) : M cstate nat :=
  let* e := entry_of r in
  match e_kind e with
  | Redirect i => cget_entry_by_url_index i true
  | Content _ _ => raise AttributeError
  end.
Fixpoint cresolve (fuel : nat) (r : nat) : M cstate nat :=
  match fuel with
  | O => raise Diverge
  | S fuel' =>
      let* e := entry_of r in
      if is_redirect e then let* r' := cfollow r in cresolve fuel' r' else ret r
  end.

(** [get_metadata_keys], 1862-1889. *)
Fixpoint cmetadata_loop (todo : nat) (i : Z) : M cstate (list ustr) :=
  match todo with
  | O => ret []
  | S todo' =>
      let* l := urls in
      let* p := pure (get_by_index l i) in
      let* r := cget_entry_at p true in
      let* e := entry_of r in
      if ueqb (e_ns e) NS_M then let* rest := cmetadata_loop todo' (i + 1) in ret (e_url e :: rest)
      else ret []
  end.
Definition cget_metadata_keys : M cstate (list ustr) :=
  let* k := pure (encode NS_M) in
  let* l := urls in
  let* start := mfind_first_ge curl_key l k in
  cmetadata_loop (Z.to_nat (zlen l - start)) start.

(** ** Writing *)

(** [entry.is_article], entry.py 398-414. *)
Definition cis_article (r : nat) : M cstate bool :=
  let* o := obj r in
  match co_force o with
  | Some b => ret b
  | None => if negb (ueqb (e_ns (co_now o)) NS_C) then ret false
            else centry_at_url_is_article (full_url (co_disk o))
  end.

(** 1369-1377 and 1405-1410: the object is written, is clean and is pushed
    into the cache. *)
Definition cwrite_at (offset : Z) (r : nat) : M cstate unit :=
  let* o := obj r in
  let* _ := on_archive (write_at offset (co_now o)) in
  let* _ := set_obj r (obj_flushed o) in
  let* _ := cache_call (CPush offset r true) in
  ret tt.

(** [for entry in self.iter_entries_by_url(): body(entry)] *)
Fixpoint cfor_entries (todo : nat) (i : Z) (body : nat -> M cstate unit) : M cstate unit :=
  match todo with
  | O => ret tt
  | S todo' =>
      let* l := urls in
      let* p := pure (get_by_index l i) in
      let* r := cget_entry_at p true in
      let* _ := body r in
      cfor_entries todo' (i + 1) body
  end.

(** 976-982 *)
Definition cupdate_redirect (start diff : Z) (skip : list ustr) (r : nat) : M cstate unit :=
  let* o := obj r in
  let e := co_now o in
  if is_redirect e && negb (umem (full_url e) skip) then
    match e_kind e with
    | Content _ _ => raise AttributeError
    | Redirect i =>
        if start <=? i then
          let* o' := pure (obj_redirect (i + diff) o) in
          let* _ := set_obj r o' in
          let* p := curl_pointer (full_url (co_now o')) in
          if i + diff =? p then raise AssertionError else write r true
        else ret tt
    end
  else ret tt.

(** [_update_url_pointers], 941-986. *)
Definition cupdate_url_pointers (start diff : Z) (edit_atpl : bool) (skip : list ustr) : M cstate unit :=
  let* _ := on_archive (shift_etpl diff start) in
  let* _ := (if edit_atpl then on_archive (shift_atpl diff start) else ret tt) in
  let* l := urls in
  let* _ := cfor_entries (Z.to_nat (zlen l)) 0 (cupdate_redirect start diff skip) in
  on_archive (update (fun s => match z_main s with
                   | Some m => Ok (if start <? m then set_main (Some (m + diff)) s else s)
                   | None => Ok s
                   end)).

(** Stage 1, 1307-1357. *)
Definition cfind_old (r : nat) : M cstate (option old_info) :=
  let* o := obj r in
  fun w =>
  match curl_index (full_url (co_disk o)) w with
  | (Err KeyError, w') => (Ok None, w')
  | (Err e, w') => (Err e, w')
  | (Ok i, w') =>
      (let* l := urls in
       let* off := pure (get_by_index l i) in
       let* old := cget_entry_at off false in
       let* oo := obj old in
       let* size := pure (entry_disk_size (co_disk oo)) in
       let* et := on_archive (query (fun s =>
               match z_etpl s with
               | None => Ok None
               | Some t => match get_by_pointer (pl_ptrs t) i with
                           | Ok k => Ok (Some k)
                           | Err KeyError => if is_redirect (co_now o) then Ok None else Err KeyError
                           | Err e => Err e
                           end
               end)) in
       let* at_ := on_archive (query (fun s =>
                match get_by_pointer (pl_ptrs (z_atpl s)) i with
                | Ok k => Ok (Some k)
                | Err KeyError => Ok None
                | Err e => Err e
                end)) in
       ret (Some (mkOld i off size et at_))) w'
  end.

(** 1359-1364: the urls of the redirects to the old index. *)
Fixpoint credirects_to (i : Z) (todo : nat) (k : Z) : M cstate (list ustr) :=
  match todo with
  | O => ret []
  | S todo' =>
      let* l := urls in
      let* p := pure (get_by_index l k) in
      let* r := cget_entry_at p true in
      let* e := entry_of r in
      let* rest := credirects_to i todo' (k + 1) in
      ret (if is_redirect e && match e_kind e with Redirect j => j =? i | Content _ _ => false end
           then full_url e :: rest else rest)
  end.

(** 1416-1421; the key functions read entries. *)
Definition cadd_titles (r : nat) (article : bool) (i : Z) : M cstate unit :=
  let* e := entry_of r in
  let* t := on_archive (query (fun s => Ok (z_etpl s))) in
  let* _ := match t with
            | None => ret tt
            | Some t => let* k := pure (encode (e_ns e ++ title e)) in
                        let* it := mpl_add cnstitle_key k i t in
                        on_archive (update (fun s => Ok (set_etpl (Some (snd it)) s)))
            end in
  if article then
    let* k := pure (encode (title e)) in
    let* t := on_archive (query (fun s => Ok (z_atpl s))) in
    let* it := mpl_add ctitle_key k i t in
    on_archive (update (fun s => Ok (set_atpl (snd it) s)))
  else ret tt.

(** 1424-1429 *)
Fixpoint cretarget (us : list ustr) (i : Z) : M cstate unit :=
  match us with
  | [] => ret tt
  | u :: us =>
      let* r := cget_entry_by_full_url u in
      let* o := obj r in
      let* o' := pure (obj_redirect i o) in
      let* _ := set_obj r o' in
      let* _ := write r false in
      cretarget us i
  end.

(** [write_entry], 1256-1448, for the object [r]. *)
Definition cwrite_body (r : nat) (update_redirects add_to_titles : bool) : M cstate unit :=
  (* stage 1 *)
  let* o := obj r in
  let* article := cis_article r in
  let* new_size := pure (entry_disk_size (co_now o)) in
  let* old := cfind_old r in
  let size_changed := match old with None => true | Some x => negb (o_size x =? new_size) end in
  let url_changed := match old with None => true | Some _ => negb (ueqb (full_url (co_disk o)) (full_url (co_now o))) end in
  let* to_update :=
    match old with
    | Some x => if update_redirects && url_changed
                then let* l := urls in credirects_to (o_index x) (Z.to_nat (zlen l)) 0
                else ret []
    | None => ret []
    end in
  (* stage 2 *)
  let* _ := match old with
            | Some x => if size_changed
                        then on_archive (update (fun s => do a <- mark_free (z_alloc s) (o_offset x) (o_size x) ;; Ok (set_alloc a s)))
                        else ret tt
            | None => ret tt
            end in
  let* offset := match old, size_changed with
                 | Some x, false => ret (o_offset x)
                 | _, _ => on_archive (fun s => match allocate (z_alloc s) new_size with
                                                | Ok (p, a) => (Ok p, set_alloc a s)
                                                | Err x => (Err x, s)
                                                end)
                 end in
  let* _ := cwrite_at offset r in
  (* stage 3 *)
  let* _ := on_archive (drop_etitle (match old with Some x => o_etitle x | None => None end)) in
  let* _ := on_archive (drop_atitle (match old with Some x => o_atitle x | None => None end)) in
  let* _ := match old with
            | Some x =>
                if url_changed || size_changed then
                  let* _ := on_archive (update (fun s => do u <- pl_remove_by_index (o_index x) (z_upl s) ;; Ok (set_upl u s))) in
                  cupdate_url_pointers (o_index x) (-1) true []
                else ret tt
            | None => ret tt
            end in
  let* new_index :=
             (if url_changed || size_changed then
                let* o := obj r in
                let* k := pure (encode (full_url (co_now o))) in
                let* u := on_archive (query (fun s => Ok (z_upl s))) in
                let* iu := mpl_add curl_key k offset u in
                let i := fst iu in
                let* _ := on_archive (update (fun s => Ok (set_upl (snd iu) s))) in
                let* _ := cupdate_url_pointers i 1 true [full_url (co_now o)] in
                let* o := obj r in
                let* _ := (if is_redirect (co_now o) then
                             match e_kind (co_now o) with
                             | Content _ _ => raise AttributeError
                             | Redirect t =>
                                 if i <=? t then
                                   let* o' := pure (obj_redirect (t + 1) o) in
                                   let* _ := set_obj r o' in
                                   cwrite_at offset r
                                 else ret tt
                             end
                           else ret tt) in
                let* e := entry_of r in
                match e_kind e with
                | Redirect t => if is_redirect e && (t =? i) then raise AssertionError else ret i
                | Content _ _ => ret i
                end
              else ret (match old with Some x => o_index x | None => 0 end)) in
  let* _ := (if add_to_titles then cadd_titles r article new_index else ret tt) in
  let* _ := (if opt_eqb (option_map o_index old) (Some new_index) then ret tt
             else cretarget to_update new_index) in
  let* e := entry_of r in
  if is_redirect e then let* t := cfollow r in let* _ := entry_of t in ret tt else ret tt.

(** ** Removing *)

(** 1101-1112 *)
Fixpoint cremovable_redirects (i : Z) (todo : nat) (k : Z) : M cstate (list ustr) :=
  match todo with
  | O => ret []
  | S todo' =>
      let* l := urls in
      let* p := pure (get_by_index l k) in
      let* r := cget_entry_at p true in
      let* e := entry_of r in
      let* keep := (if is_redirect e && match e_kind e with Redirect j => j =? i | Content _ _ => false end
                    then let* t := cget_entry_by_url_index i true in
                         let* te := entry_of t in
                         ret (negb (ueqb (full_url te) (full_url e)))
                    else ret false) in
      let* rest := cremovable_redirects i todo' (k + 1) in
      ret (if keep then full_url e :: rest else rest)
  end.

(** [remove_entry_by_full_url], 1035-1154, with [blob="keep"]; [rec] removes
    the redirects. *)
Definition cremove_body (rec : ustr -> M cstate unit) (url : ustr) : M cstate unit :=
  let* i := (fun w => match curl_index url w with (Err KeyError, w') => (Err EntryNotFound, w') | x => x end) in
  let* l := urls in
  let* offset := pure (get_by_index l i) in
  let* r := cget_entry_at offset true in
  let* o := obj r in
  let* size := pure (entry_disk_size (co_disk o)) in
  let* l := urls in
  let* to_remove := cremovable_redirects i (Z.to_nat (zlen l)) 0 in
  let* o := obj r in
  let* article := (if ueqb (e_ns (co_now o)) NS_C then centry_at_url_is_article url else ret false) in
  let* _ := (if article then
               on_archive (let* k := query (fun s => get_by_pointer (pl_ptrs (z_atpl s)) i) in drop_atitle (Some k))
             else ret tt) in
  let* _ := on_archive (fun s => match z_etpl s with
                      | None => (Ok tt, s)
                      | Some t => (let* k := query (fun _ => get_by_pointer (pl_ptrs t) i) in drop_etitle (Some k)) s
                      end) in
  let* _ := on_archive (update (fun s => do u <- pl_remove_by_index i (z_upl s) ;; Ok (set_upl u s))) in
  let* _ := cache_call (CRemove offset true) in
  let* _ := on_archive (update (fun s => Ok (if opt_eqb (z_main s) (Some i) then set_main None s else s))) in
  let* _ := cupdate_url_pointers i (-1) article [] in
  let* _ := on_archive (update (fun s => do a <- mark_free (z_alloc s) offset size ;; Ok (set_alloc a s))) in
  fold_left (fun m u => let* _ := m in rec u) to_remove (ret tt).
End Calls.

(** [write_entry]; [fuel] bounds the depth of the recursion, which includes
    the writes caused by evictions. *)
Fixpoint cwrite_rec (fuel : nat) (r : nat) (update_redirects add_to_titles : bool) : M cstate unit :=
  match fuel with
  | O => raise Diverge
  | S fuel' => cwrite_body (fun r u => cwrite_rec fuel' r u true) r update_redirects add_to_titles
  end.
Definition cwrite_entry (fuel : nat) (r : nat) : M cstate unit := cwrite_rec fuel r true true.
(** [entry.flush()], entry.py 484-496. *)
Definition cflush_entry (fuel : nat) (r : nat) : M cstate unit :=
  let* o := obj r in if co_dirty o then cwrite_entry fuel r else ret tt.

Fixpoint cremove_entry (fuel : nat) (url : ustr) : M cstate unit :=
  match fuel with
  | O => raise Diverge
  | S fuel' => cremove_body (fun r u => cwrite_rec fuel' r u true) (cremove_entry fuel') url
  end.

(** [entry.attribute = value] for the attributes of the object (the setters
    are modelled in EntryObject.v). *)
Definition cedit (f : entry -> entry) (r : nat) : M cstate unit :=
  let* o := obj r in set_obj r (mkObj (f (co_now o)) (co_disk o) (co_force o) true).
End EntryCache.
