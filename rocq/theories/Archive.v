(** Model of the entry layer of pyzim/archive.py: lookup, writing, renaming and
    removing entries, and the pointer lists that refer to them.

    Simplifications, for the whole file:
    - the archive is open, writable and starts at offset 0 of its file
      ([_base_offset = 0], the only value [Zim.open] ever uses, 219-230);
      entries are bound to it;
    - the policy is the default one, whose entry cache is a NoOpCache
      (policy.py 141, cache.py 99-137), so [get_entry_at] always parses the file
      and an entry object passed to [write_entry] is a value;
    - processors are not called (the counter, the only one, is modelled in
      Counter.v) and log messages are not represented, except where computing a
      message can raise;
    - the locks are not represented: one thread. *)
From Coq Require Import List ZArith Bool.
From Verif Require Import Base Utf8 Entry PointerList SpaceAllocator Cluster.
Import ListNotations.
Open Scope Z_scope.

(** The attributes of [Zim] used by the entry layer (archive.py 95-200):
    [_f], [_url_pointer_list], [_entry_title_pointer_list],
    [_article_title_pointer_list], [header.main_page], [spaceallocator]. *)
Record zim := mkZim {
  z_file : bytes;
  z_upl : plist;
  z_etpl : option plist;
  z_atpl : plist;
  z_main : option Z;
  z_alloc : allocator }.

Definition set_file f (s : zim) := mkZim f (z_upl s) (z_etpl s) (z_atpl s) (z_main s) (z_alloc s).
Definition set_upl u (s : zim) := mkZim (z_file s) u (z_etpl s) (z_atpl s) (z_main s) (z_alloc s).
Definition set_etpl t (s : zim) := mkZim (z_file s) (z_upl s) t (z_atpl s) (z_main s) (z_alloc s).
Definition set_atpl t (s : zim) := mkZim (z_file s) (z_upl s) (z_etpl s) t (z_main s) (z_alloc s).
Definition set_main m (s : zim) := mkZim (z_file s) (z_upl s) (z_etpl s) (z_atpl s) m (z_alloc s).
Definition set_alloc a (s : zim) := mkZim (z_file s) (z_upl s) (z_etpl s) (z_atpl s) (z_main s) a.

(** Reading the state, and replacing one component by the result of a call. *)
Definition query {A} (q : zim -> res A) : M zim A := fun s => (q s, s).
Definition update (u : zim -> res zim) : M zim unit :=
  fun s => match u s with Ok s' => (Ok tt, s') | Err e => (Err e, s) end.

(** ** Lookup *)

(** [get_entry_at], 797-837. *)
Definition get_entry_at (s : zim) (location : Z) : res entry :=
  if location <? 0 then Err AssertionError else entry_at (z_file s) location.

(** [get_entry_by_url_index], 890-912. *)
Definition get_entry_by_url_index (s : zim) (i : Z) : res entry :=
  if i <? 0 then Err EntryNotFound
  else match get_by_index (pl_ptrs (z_upl s)) i with
       | Ok location => get_entry_at s location
       | Err IndexError => Err EntryNotFound
       | Err e => Err e
       end.

(** The key functions of the three lists: 425-437, 439-465, 467-480. *)
Definition url_key (s : zim) (location : Z) : res bytes :=
  do e <- get_entry_at s location ;; encode (full_url e).
Definition nstitle_key (s : zim) (i : Z) : res bytes :=
  do e <- get_entry_by_url_index s i ;; encode (e_ns e ++ title e).
Definition title_key (s : zim) (i : Z) : res bytes :=
  do e <- get_entry_by_url_index s i ;; encode (title e).

(** [self._url_pointer_list.get_index(url)] and [.get(url)]; the key is
    encoded first (pointerlist.py 536-554, 521-534). *)
Definition url_index (s : zim) (url : ustr) : res Z :=
  do k <- encode url ;; get_index (url_key s) (pl_ptrs (z_upl s)) k.
Definition url_pointer (s : zim) (url : ustr) : res Z :=
  do k <- encode url ;; get (url_key s) (pl_ptrs (z_upl s)) k.

(** [get_entry_by_full_url], 873-888. *)
Definition get_entry_by_full_url (s : zim) (url : ustr) : res entry :=
  match url_pointer s url with
  | Ok location => get_entry_at s location
  | Err KeyError => Err EntryNotFound
  | Err e => Err e
  end.

(** [has_entry_for_full_url], 914-924. *)
Definition has_entry_for_full_url (s : zim) (url : ustr) : res bool :=
  do k <- encode url ;; has (url_key s) (pl_ptrs (z_upl s)) k.

(** [get_mainpage_entry], 926-939. *)
Definition get_mainpage_entry (s : zim) : res entry :=
  match z_main s with
  | None => Err EntryNotFound
  | Some i => do location <- get_by_index (pl_ptrs (z_upl s)) i ;; get_entry_at s location
  end.

(** [x.startswith("C")] / [namespace == "C"]. *)
Definition NS_C : ustr := [67].
Definition in_C (s : ustr) : bool := match s with c :: _ => c =? 67 | [] => false end.

(** [entry_at_url_is_article], 1156-1190. *)
Definition entry_at_url_is_article (s : zim) (url : ustr) : res bool :=
  if negb (in_C url) then Err ValueError
  else match url_index s url with
       | Err KeyError => Ok false
       | Err e => Err e
       | Ok i => match get_by_pointer (pl_ptrs (z_atpl s)) i with
                 | Ok _ => Ok true
                 | Err KeyError => Ok false
                 | Err e => Err e
                 end
       end.

(** [iter_entries_by_url], 1215-1231, run to its end; [iter_entries] (1192-1213)
    is the same. *)
Definition iter_entries (s : zim) (start end_ : option Z) : res (list entry) :=
  iter_bounds (zlen (pl_ptrs (z_upl s))) (zlen (pl_ptrs (z_upl s)))
    (fun i => do p <- get_by_index (pl_ptrs (z_upl s)) i ;; get_entry_at s p) start end_.

(** [iter_articles], 1233-1254, run to its end. *)
Definition iter_articles (s : zim) (start end_ : option Z) : res (list entry) :=
  iter_bounds (zlen (pl_ptrs (z_atpl s))) (zlen (pl_ptrs (z_atpl s)))
    (fun i => do p <- get_by_index (pl_ptrs (z_atpl s)) i ;; get_entry_by_url_index s p) start end_.

(** [RedirectEntry.follow] (entry.py 1007-1020) and [resolve] (1022-1035). *)
Definition follow (s : zim) (e : entry) : res entry :=
  match e_kind e with
  | Redirect i => get_entry_by_url_index s i
  | Content _ _ => Err AttributeError
  end.
Fixpoint resolve (fuel : nat) (s : zim) (e : entry) : res entry :=
  match fuel with
  | O => Err Diverge
  | S fuel' => if is_redirect e then do e' <- follow s e ;; resolve fuel' s e' else Ok e
  end.

(** [get_metadata_keys], 1862-1889: the loop over [iter_entries(start=start_i)]
    with its [break] (the generator is then not advanced any further). *)
Definition NS_M : ustr := [77].
Fixpoint metadata_loop (s : zim) (todo : nat) (i : Z) : res (list ustr) :=
  match todo with
  | O => Ok []
  | S todo' =>
      do p <- get_by_index (pl_ptrs (z_upl s)) i ;;
      do e <- get_entry_at s p ;;
      if ueqb (e_ns e) NS_M then do r <- metadata_loop s todo' (i + 1) ;; Ok (e_url e :: r)
      else Ok []
  end.
Definition get_metadata_keys (s : zim) : res (list ustr) :=
  do k <- encode NS_M ;;
  do start <- find_first_ge (url_key s) (pl_ptrs (z_upl s)) k ;;
  metadata_loop s (Z.to_nat (zlen (pl_ptrs (z_upl s)) - start)) start.

(** ** Writing *)

(** An entry object: its attributes, [_old_full_url] and [_force_is_article]
    (entry.py 92-93). *)
Record went := mkWent { w_entry : entry; w_old_url : ustr; w_force : option bool }.

(** A constructed or parsed entry: both constructors call
    [after_flush_or_read] (602, 902), which sets [_old_full_url] (498-504). *)
Definition fresh (e : entry) : went := mkWent e (full_url e) None.

(** [entry.redirect_index = value], 916-934. *)
Definition with_redirect_index (e : entry) (v : Z) : entry :=
  mkEntry (e_mimetype e) (e_ns e) (e_url e) (e_title e) (Redirect v).
Definition set_redirect_index (e : entry) (v : Z) : res entry :=
  if v <? 0 then Err ValueError else Ok (with_redirect_index e v).

(** [entry.is_article], 398-414. *)
Definition is_article (s : zim) (w : went) : res bool :=
  match w_force w with
  | Some b => Ok b
  | None => if negb (ueqb (e_ns (w_entry w)) NS_C) then Ok false
            else entry_at_url_is_article s (w_old_url w)
  end.

(** [f.seek(offset); f.write(entry.to_bytes())], 1369-1371 and 1405-1407. *)
Definition write_at (offset : Z) (e : entry) : M zim unit :=
  update (fun s => do b <- entry_to_bytes e ;; Ok (set_file (fwrite (z_file s) offset b) s)).

(** [mass_update] of one title list. *)
Definition shift_etpl (diff start : Z) : M zim unit :=
  update (fun s => match z_etpl s with
                   | None => Ok s
                   | Some t => do t' <- pl_mass_update diff (Some start) None t ;; Ok (set_etpl (Some t') s)
                   end).
Definition shift_atpl (diff start : Z) : M zim unit :=
  update (fun s => do t <- pl_mass_update diff (Some start) None (z_atpl s) ;; Ok (set_atpl t s)).

(** [for entry in self.iter_entries_by_url(): body(entry)]: the number of
    entries is fixed when the loop starts, each pointer is read when its turn
    comes (pointerlist.py 316-340). *)
Fixpoint for_entries (todo : nat) (i : Z) (body : entry -> M zim unit) : M zim unit :=
  match todo with
  | O => ret tt
  | S todo' =>
      let* e := query (fun s => do p <- get_by_index (pl_ptrs (z_upl s)) i ;; get_entry_at s p) in
      let* _ := body e in
      for_entries todo' (i + 1) body
  end.

(** [entry.full_url not in skip] *)
Definition umem (u : ustr) (l : list ustr) : bool := existsb (ueqb u) l.

(** Loop body 976-982: the new index is compared with a location, not with an
    index (981). *)
Definition update_redirect (wr : went -> M zim unit) (start diff : Z) (skip : list ustr) (e : entry) : M zim unit :=
  if is_redirect e && negb (umem (full_url e) skip) then
    match e_kind e with
    | Content _ _ => raise AttributeError
    | Redirect r =>
        if start <=? r then
          let* e' := query (fun _ => set_redirect_index e (r + diff)) in
          let* p := query (fun s => url_pointer s (full_url e')) in
          if r + diff =? p then raise AssertionError
          else wr (fresh e')
        else ret tt
    end
  else ret tt.

(** [_update_url_pointers], 941-986; [wr] is [self.write_entry] with default
    arguments. *)
Definition update_url_pointers (wr : went -> M zim unit) (start diff : Z) (edit_atpl : bool) (skip : list ustr) : M zim unit :=
  let* _ := shift_etpl diff start in
  let* _ := (if edit_atpl then shift_atpl diff start else ret tt) in
  let* n := query (fun s => Ok (zlen (pl_ptrs (z_upl s)))) in
  let* _ := for_entries (Z.to_nat n) 0 (update_redirect wr start diff skip) in
  update (fun s => match z_main s with
                   | Some m => Ok (if start <? m then set_main (Some (m + diff)) s else s)
                   | None => Ok s
                   end).

(** What stage 1 of [write_entry] knows about a previous version. *)
Record old_info := mkOld {
  o_index : Z; o_offset : Z; o_size : Z;
  o_etitle : option Z;   (* old_entry_title_index *)
  o_atitle : option Z }. (* old_article_title_index *)

(** Stage 1, 1307-1357; [None] for a new entry. *)
Definition find_old (s : zim) (w : went) : res (option old_info) :=
  match url_index s (w_old_url w) with
  | Err KeyError => Ok None
  | Err e => Err e
  | Ok i =>
      do off <- get_by_index (pl_ptrs (z_upl s)) i ;;
      do old <- get_entry_at s off ;;
      do size <- entry_disk_size old ;;
      do et <- match z_etpl s with
               | None => Ok None
               | Some t => match get_by_pointer (pl_ptrs t) i with
                           | Ok k => Ok (Some k)
                           | Err KeyError => if is_redirect (w_entry w) then Ok None else Err KeyError
                           | Err e => Err e
                           end
               end ;;
      do at_ <- match get_by_pointer (pl_ptrs (z_atpl s)) i with
                | Ok k => Ok (Some k)
                | Err KeyError => Ok None
                | Err e => Err e
                end ;;
      Ok (Some (mkOld i off size et at_))
  end.

(** 1359-1364: the urls of the redirects to the old index. *)
Definition redirects_to (i : Z) (l : list entry) : list ustr :=
  map full_url (filter (fun e => is_redirect e &&
    match e_kind e with Redirect r => r =? i | Content _ _ => false end) l).

(** [remove_by_index] of an optional index of a title list, 1380-1386. *)
Definition drop_etitle (k : option Z) : M zim unit :=
  update (fun s => match k, z_etpl s with
                   | Some k, Some t => do t' <- pl_remove_by_index k t ;; Ok (set_etpl (Some t') s)
                   | _, _ => Ok s
                   end).
Definition drop_atitle (k : option Z) : M zim unit :=
  update (fun s => match k with
                   | Some k => do t <- pl_remove_by_index k (z_atpl s) ;; Ok (set_atpl t s)
                   | None => Ok s
                   end).

(** 1416-1421: insert the titles. *)
Definition add_titles (e : entry) (article : bool) (i : Z) : M zim unit :=
  let* _ := update (fun s => match z_etpl s with
                   | None => Ok s
                   | Some t => do k <- encode (e_ns e ++ title e) ;;
                               do it <- pl_add (nstitle_key s) k i t ;; Ok (set_etpl (Some (snd it)) s)
                   end) in
  update (fun s => if article then
                     do k <- encode (title e) ;;
                     do it <- pl_add (title_key s) k i (z_atpl s) ;; Ok (set_atpl (snd it) s)
                   else Ok s).

(** 1424-1429: point the redirects to the new index. *)
Fixpoint retarget (wr : went -> M zim unit) (urls : list ustr) (i : Z) : M zim unit :=
  match urls with
  | [] => ret tt
  | u :: r =>
      let* e := query (fun s => get_entry_by_full_url s u) in
      let* e' := query (fun _ => match e_kind e with
                                 | Redirect _ => set_redirect_index e i
                                 | Content _ _ => Err AttributeError
                                 end) in
      let* _ := wr (fresh e') in
      retarget wr r i
  end.

Definition opt_eqb (a b : option Z) : bool :=
  match a, b with Some x, Some y => x =? y | None, None => true | _, _ => false end.

(** The result of [index + diff] when the rewritten entry is itself a redirect
    to an index from the insertion position on, 1400-1411. *)
Definition bump_own (new_index : Z) (e : entry) : res entry :=
  match e_kind e with
  | Redirect r => if is_redirect e && (new_index <=? r) then set_redirect_index e (r + 1) else Ok e
  | Content _ _ => if is_redirect e then Err AttributeError else Ok e
  end.

(** [write_entry], 1256-1448, with [rec] for the recursive calls ([rec w u] is
    [self.write_entry(w, update_redirects=u)]). *)
Definition write_body (rec : went -> bool -> M zim unit) (w : went) (update_redirects add_to_titles : bool) : M zim unit :=
  (* stage 1 *)
  let e := w_entry w in
  let* article := query (fun s => is_article s w) in
  let* new_size := query (fun _ => entry_disk_size e) in
  let* old := query (fun s => find_old s w) in
  let size_changed := match old with None => true | Some o => negb (o_size o =? new_size) end in
  let url_changed := match old with None => true | Some _ => negb (ueqb (w_old_url w) (full_url e)) end in
  let* to_update := query (fun s =>
    match old with
    | Some o => if update_redirects && url_changed
                then do l <- iter_entries s None None ;; Ok (redirects_to (o_index o) l)
                else Ok []
    | None => Ok []
    end) in
  (* stage 2 *)
  let* _ := update (fun s => match old with
                             | Some o => if size_changed then do a <- mark_free (z_alloc s) (o_offset o) (o_size o) ;; Ok (set_alloc a s)
                                         else Ok s
                             | None => Ok s
                             end) in
  let* offset := (fun s => match old, size_changed with
                           | Some o, false => (Ok (o_offset o), s)
                           | _, _ => match allocate (z_alloc s) new_size with
                                     | Ok (p, a) => (Ok p, set_alloc a s)
                                     | Err x => (Err x, s)
                                     end
                           end) in
  let* _ := write_at offset e in
  (* stage 3 *)
  let* _ := drop_etitle (match old with Some o => o_etitle o | None => None end) in
  let* _ := drop_atitle (match old with Some o => o_atitle o | None => None end) in
  let* _ := match old with
            | Some o =>
                if url_changed || size_changed then
                  let* _ := update (fun s => do u <- pl_remove_by_index (o_index o) (z_upl s) ;; Ok (set_upl u s)) in
                  update_url_pointers (fun w => rec w true) (o_index o) (-1) true []
                else ret tt
            | None => ret tt
            end in
  let* ie := (if url_changed || size_changed then
                let* i := (fun s => match encode (full_url e) with
                                    | Err x => (Err x, s)
                                    | Ok k => match pl_add (url_key s) k offset (z_upl s) with
                                              | Ok (i, u) => (Ok i, set_upl u s)
                                              | Err x => (Err x, s)
                                              end
                                    end) in
                let* _ := update_url_pointers (fun w => rec w true) i 1 true [full_url e] in
                let* e' := query (fun _ => bump_own i e) in
                let* _ := match e_kind e with
                          | Redirect r => if is_redirect e && (i <=? r) then write_at offset e' else ret tt
                          | Content _ _ => ret tt
                          end in
                match e_kind e' with
                | Redirect r => if is_redirect e' && (r =? i) then raise AssertionError else ret (i, e')
                | Content _ _ => ret (i, e')
                end
              else ret (match old with Some o => o_index o | None => 0 end, e)) in
  let (new_index, e') := (ie : Z * entry) in
  let* _ := (if add_to_titles then add_titles e' article new_index else ret tt) in
  let* _ := (if opt_eqb (option_map o_index old) (Some new_index) then ret tt
             else retarget (fun w => rec w false) to_update new_index) in
  (* 1446-1447: the arguments of the log message are computed *)
  if is_redirect e' then let* _ := query (fun s => follow s e') in ret tt else ret tt.

(** [write_entry]; [fuel] bounds the recursion depth. *)
Fixpoint write_entry_rec (fuel : nat) (w : went) (update_redirects add_to_titles : bool) : M zim unit :=
  match fuel with
  | O => raise Diverge
  | S fuel' => write_body (fun w u => write_entry_rec fuel' w u true) w update_redirects add_to_titles
  end.
(** With default arguments.  Depth 2 is enough: the inner calls rewrite a
    redirect in place (theorem [write_entry_depth] in ArchiveObserve). *)
Definition write_entry (fuel : nat) (w : went) : M zim unit := write_entry_rec fuel w true true.

(** [add_full_url_redirect], 1484-1544, when the target exists; [None] is
    returned when the operation is buffered instead (OperationBuffer.v). *)
Definition make_redirect (s : zim) (source target : ustr) (ttl : option ustr) : res (option entry) :=
  if ueqb source target then Err ValueError
  else match source, target with
       | [], _ | _, [] => Err ValueError
       | ns :: url, _ =>
           match url_index s target with
           | Err KeyError => Ok None
           | Err x => Err x
           | Ok i =>
               do t <- match ttl with
                       | Some t => Ok t
                       | None => do e <- get_entry_by_full_url s target ;; Ok (title e)
                       end ;;
               Ok (Some (mkEntry MIMETYPE_ID_REDIRECT [ns] url (Some t) (Redirect i)))
           end
       end.
Definition add_full_url_redirect (fuel : nat) (source target : ustr) (ttl : option ustr) : M zim bool :=
  let* r := query (fun s => make_redirect s source target ttl) in
  match r with
  | None => ret false
  | Some e => let* _ := write_entry fuel (fresh e) in ret true
  end.

(** ** Removing *)

(** 1101-1112: the redirects to the entry, except a redirect that (after
    pointer updates) points to itself. *)
Fixpoint removable_redirects (s : zim) (i : Z) (l : list entry) : res (list ustr) :=
  match l with
  | [] => Ok []
  | e :: r =>
      do keep <- (if is_redirect e && match e_kind e with Redirect j => j =? i | Content _ _ => false end
                  then do t <- get_entry_by_url_index s i ;; Ok (negb (ueqb (full_url t) (full_url e)))
                  else Ok false) ;;
      do rest <- removable_redirects s i r ;;
      Ok (if keep then full_url e :: rest else rest)
  end.

Section Remove.
(** 1088-1099, what happens to the blob of a removed content entry. *)
Variable process_blob : entry -> M zim unit.

(** [remove_entry_by_full_url], 1035-1154; the recursive calls remove
    redirects. *)
Definition remove_body (wr : went -> M zim unit) (rec : ustr -> M zim unit) (url : ustr) : M zim unit :=
  let* i := query (fun s => match url_index s url with Err KeyError => Err EntryNotFound | r => r end) in
  let* offset := query (fun s => get_by_index (pl_ptrs (z_upl s)) i) in
  let* e := query (fun s => get_entry_at s offset) in
  let* size := query (fun _ => entry_disk_size e) in
  let* _ := (if is_redirect e then ret tt else process_blob e) in
  let* to_remove := query (fun s => do l <- iter_entries s None None ;; removable_redirects s i l) in
  let* article := query (fun s => if ueqb (e_ns e) NS_C then entry_at_url_is_article s url else Ok false) in
  let* _ := (if article then
               let* k := query (fun s => get_by_pointer (pl_ptrs (z_atpl s)) i) in drop_atitle (Some k)
             else ret tt) in
  let* _ := (fun s => match z_etpl s with
                      | None => (Ok tt, s)
                      | Some t => (let* k := query (fun _ => get_by_pointer (pl_ptrs t) i) in drop_etitle (Some k)) s
                      end) in
  let* _ := update (fun s => do u <- pl_remove_by_index i (z_upl s) ;; Ok (set_upl u s)) in
  let* _ := update (fun s => Ok (if opt_eqb (z_main s) (Some i) then set_main None s else s)) in
  let* _ := update_url_pointers wr i (-1) article [] in
  let* _ := update (fun s => do a <- mark_free (z_alloc s) offset size ;; Ok (set_alloc a s)) in
  fold_left (fun m u => let* _ := m in rec u) to_remove (ret tt).

Fixpoint remove_entry (fuel : nat) (url : ustr) : M zim unit :=
  match fuel with
  | O => raise Diverge
  | S fuel' => remove_body (write_entry fuel') (remove_entry fuel') url
  end.

(** [set_mainpage_url], 988-1033; constants.py 59.  [false] is returned where
    the operation is buffered (1029-1033), for [None] as well as for a missing target. *)
Definition URL_MAINPAGE_REDIRECT : ustr := [87; 109; 97; 105; 110; 80; 97; 103; 101].
Definition set_mainpage_url (fuel : nat) (url : option ustr) : M zim bool :=
  let* _ := (fun s => match remove_entry fuel URL_MAINPAGE_REDIRECT s with
                      | (Err EntryNotFound, s') => (Ok tt, s')
                      | r => r
                      end) in
  match url with
  | None => let* _ := update (fun s => Ok (set_main None s)) in ret false
  | Some u =>
      let* _ := add_full_url_redirect fuel URL_MAINPAGE_REDIRECT (NS_C ++ u) None in
      fun s => match url_index s URL_MAINPAGE_REDIRECT with
               | Ok i => (Ok true, set_main (Some i) s)
               | Err KeyError => (Ok false, s)
               | Err x => (Err x, s)
               end
  end.
End Remove.

(** [blob="keep"]. *)
Definition keep_blob (e : entry) : M zim unit := ret tt.
