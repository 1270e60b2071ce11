(** Processors (processor.py) and the calls the archive makes to them when
    entries are written and removed.  [Zim._processors] holds one processor that
    writes down what it is told ([after_entry_write], [after_entry_remove]); its
    other methods are those of [BaseProcessor], which do nothing, and
    [before_entry_write] returns the entry it gets (processor.py 169-184).

    The operations are those of Archive.v, on an archive together with the notes
    of the processor.  ProcessorsProofs.v proves that they do to the archive what
    those of Archive.v do. *)
From Coq Require Import List ZArith Bool.
From Verif Require Import Base Utf8 Entry PointerList SpaceAllocator Reader Cluster Archive.
Import ListNotations.
Open Scope Z_scope.

(** What the processor is told: [after_entry_write(entry, old_entry, is_new_entry)]
    (processor.py 186-203, archive.py 1433-1444; the offsets and flags are left
    out) and [after_entry_remove(full_url, entry, is_article)] (219-233, archive.py
    1146-1153). *)
Inductive notice :=
  | Wrote (e : entry) (old : option entry) (is_new : bool)
  | Removed (url : ustr) (e : entry) (article : bool).

Definition watched : Type := zim * list notice.

(** A step that tells the processor nothing. *)
Definition quiet {A} (m : M zim A) : M watched A := fun '(s, l) => let '(r, s') := m s in (r, (s', l)).
(** [for processor in self._processors: processor.after_...(...)] *)
Definition tell (n : notice) : M watched unit := fun '(s, l) => (Ok tt, (s, l ++ [n])).

(** [update_redirect], [for_entries], [update_url_pointers] and [retarget] of
    Archive.v (archive.py 941-986, 1424-1429), with a [write_entry] that tells. *)
Definition update_redirect_t (wr : went -> M watched unit) (start diff : Z) (skip : list ustr) (e : entry) : M watched unit :=
  if is_redirect e && negb (umem (full_url e) skip) then
    match e_kind e with
    | Content _ _ => raise AttributeError
    | Redirect r =>
        if start <=? r then
          let* e' := quiet (query (fun _ => set_redirect_index e (r + diff))) in
          let* p := quiet (query (fun s => url_pointer s (full_url e'))) in
          if r + diff =? p then raise AssertionError
          else wr (fresh e')
        else ret tt
    end
  else ret tt.
Fixpoint for_entries_t (todo : nat) (i : Z) (body : entry -> M watched unit) : M watched unit :=
  match todo with
  | O => ret tt
  | S todo' =>
      let* e := quiet (query (fun s => do p <- get_by_index (pl_ptrs (z_upl s)) i ;; get_entry_at s p)) in
      let* _ := body e in
      for_entries_t todo' (i + 1) body
  end.
Definition update_url_pointers_t (wr : went -> M watched unit) (start diff : Z) (edit_atpl : bool) (skip : list ustr) : M watched unit :=
  let* _ := quiet (shift_etpl diff start) in
  let* _ := quiet (if edit_atpl then shift_atpl diff start else ret tt) in
  let* n := quiet (query (fun s => Ok (zlen (pl_ptrs (z_upl s))))) in
  let* _ := for_entries_t (Z.to_nat n) 0 (update_redirect_t wr start diff skip) in
  quiet (update (fun s => match z_main s with
                   | Some m => Ok (if start <? m then set_main (Some (m + diff)) s else s)
                   | None => Ok s
                   end)).
Fixpoint retarget_t (wr : went -> M watched unit) (urls : list ustr) (i : Z) : M watched unit :=
  match urls with
  | [] => ret tt
  | u :: r =>
      let* e := quiet (query (fun s => get_entry_by_full_url s u)) in
      let* e' := quiet (query (fun _ => match e_kind e with
                                 | Redirect _ => set_redirect_index e i
                                 | Content _ _ => Err AttributeError
                                 end)) in
      let* _ := wr (fresh e') in
      retarget_t wr r i
  end.

(** Stages 1 and 2 of [write_entry] and the beginning of stage 3 (1294-1386), as
    in Archive.v: nothing is told to the processor.  The results are what the rest
    needs: is it an article, what is known of the old version, [old_entry]
    (1310-1335), the redirects to be changed, where the entry lies now, and
    whether the url list has to change. *)
Definition write_begin (w : went) (update_redirects : bool) : M zim (bool * option old_info * option entry * list ustr * Z * bool) :=
  let e := w_entry w in
  let* article := query (fun s => is_article s w) in
  let* new_size := query (fun _ => entry_disk_size e) in
  let* old := query (fun s => find_old s w) in
  let* old_entry := query (fun s => match old with Some o => do e0 <- get_entry_at s (o_offset o) ;; Ok (Some e0) | None => Ok None end) in
  let size_changed := match old with None => true | Some o => negb (o_size o =? new_size) end in
  let url_changed := match old with None => true | Some _ => negb (ueqb (w_old_url w) (full_url e)) end in
  let* to_update := query (fun s =>
    match old with
    | Some o => if update_redirects && url_changed
                then do l <- iter_entries s None None ;; Ok (redirects_to (o_index o) l)
                else Ok []
    | None => Ok []
    end) in
  let* _ := update (fun s => match old with
                             | Some o => if size_changed then do a <- mark_free (z_alloc s) (o_offset o) (o_size o) ;; Ok (set_alloc a s)
                                         else Ok s
                             | None => Ok s
                             end) in
  let* offset := (fun s => match old, size_changed with
                           | Some o, false => (Ok (o_offset o), s)
                           | _, _ => match allocate (z_alloc s) new_size with
                                     | Ok (p, a) => (Ok p, set_alloc a s)
                                     | Err x => (Err x, s)
                                     end
                           end) in
  let* _ := write_at offset e in
  let* _ := drop_etitle (match old with Some o => o_etitle o | None => None end) in
  let* _ := drop_atitle (match old with Some o => o_atitle o | None => None end) in
  ret (article, old, old_entry, to_update, offset, url_changed || size_changed).

(** Adding the pointer, 1394-1395. *)
Definition add_pointer (offset : Z) (e : entry) : M zim Z := fun s =>
  match encode (full_url e) with
  | Err x => (Err x, s)
  | Ok k => match pl_add (url_key s) k offset (z_upl s) with
            | Ok (i, u) => (Ok i, set_upl u s)
            | Err x => (Err x, s)
            end
  end.
(** The entry itself, if it is a redirect to an index behind the new pointer, 1400-1414. *)
Definition own_index (offset : Z) (e : entry) (i : Z) : M zim (Z * entry) :=
  let* e' := query (fun _ => bump_own i e) in
  let* _ := match e_kind e with
            | Redirect r => if is_redirect e && (i <=? r) then write_at offset e' else ret tt
            | Content _ _ => ret tt
            end in
  match e_kind e' with
  | Redirect r => if is_redirect e' && (r =? i) then raise AssertionError else ret (i, e')
  | Content _ _ => ret (i, e')
  end.
Definition drop_pointer (i : Z) : M zim unit :=
  update (fun s => do u <- pl_remove_by_index i (z_upl s) ;; Ok (set_upl u s)).

(** [write_entry], 1256-1448.  The processor is told at its end, after the
    redirects have been written again (which it is told, too); the object [entry]
    has the index set in [own_index]. *)
Definition write_body_t (rec : went -> bool -> M watched unit) (w : went) (update_redirects add_to_titles : bool) : M watched unit :=
  let e := w_entry w in
  let* x := quiet (write_begin w update_redirects) in
  let '(article, old, old_entry, to_update, offset, changed) := x in
  let* _ := match old with
            | Some o => if changed
                        then let* _ := quiet (drop_pointer (o_index o)) in
                             update_url_pointers_t (fun w => rec w true) (o_index o) (-1) true []
                        else ret tt
            | None => ret tt
            end in
  let* ie := (if changed
              then let* i := quiet (add_pointer offset e) in
                   let* _ := update_url_pointers_t (fun w => rec w true) i 1 true [full_url e] in
                   quiet (own_index offset e i)
              else ret (match old with Some o => o_index o | None => 0 end, e)) in
  let (new_index, e') := (ie : Z * entry) in
  let* _ := quiet (if add_to_titles then add_titles e' article new_index else ret tt) in
  let* _ := (if opt_eqb (option_map o_index old) (Some new_index) then ret tt
             else retarget_t (fun w => rec w false) to_update new_index) in
  let* _ := tell (Wrote e' old_entry (match old with None => true | Some _ => false end)) in
  quiet (if is_redirect e' then let* _ := query (fun s => follow s e') in ret tt else ret tt).
Fixpoint write_entry_rec_t (fuel : nat) (w : went) (update_redirects add_to_titles : bool) : M watched unit :=
  match fuel with
  | O => raise Diverge
  | S fuel' => write_body_t (fun w u => write_entry_rec_t fuel' w u true) w update_redirects add_to_titles
  end.
Definition write_entry_t (fuel : nat) (w : went) : M watched unit := write_entry_rec_t fuel w true true.

Section Remove.
Variable process_blob : entry -> M zim unit.

(** [remove_entry_by_full_url], 1035-1154, up to [_update_url_pointers]. *)
Definition remove_begin (url : ustr) : M zim (Z * Z * entry * Z * list ustr * bool) :=
  let* i := query (fun s => match url_index s url with Err KeyError => Err EntryNotFound | r => r end) in
  let* offset := query (fun s => get_by_index (pl_ptrs (z_upl s)) i) in
  let* e := query (fun s => get_entry_at s offset) in
  let* size := query (fun _ => entry_disk_size e) in
  let* _ := (if is_redirect e then ret tt else process_blob e) in
  let* to_remove := query (fun s => do l <- iter_entries s None None ;; removable_redirects s i l) in
  let* article := query (fun s => if ueqb (e_ns e) NS_C then entry_at_url_is_article s url else Ok false) in
  let* _ := (if article then
               let* k := query (fun s => get_by_pointer (pl_ptrs (z_atpl s)) i) in drop_atitle (Some k)
             else ret tt) in
  let* _ := (fun s => match z_etpl s with
                      | None => (Ok tt, s)
                      | Some t => (let* k := query (fun _ => get_by_pointer (pl_ptrs t) i) in drop_etitle (Some k)) s
                      end) in
  let* _ := drop_pointer i in
  let* _ := update (fun s => Ok (if opt_eqb (z_main s) (Some i) then set_main None s else s)) in
  ret (i, offset, e, size, to_remove, article).

(** The processor is told at the end, after the redirects to the entry have been
    removed. *)
Definition remove_body_t (wr : went -> M watched unit) (rec : ustr -> M watched unit) (url : ustr) : M watched unit :=
  let* x := quiet (remove_begin url) in
  let '(i, offset, e, size, to_remove, article) := x in
  let* _ := update_url_pointers_t wr i (-1) article [] in
  let* _ := quiet (update (fun s => do a <- mark_free (z_alloc s) offset size ;; Ok (set_alloc a s))) in
  let* _ := fold_left (fun m u => let* _ := m in rec u) to_remove (ret tt) in
  tell (Removed url e article).
Fixpoint remove_entry_t (fuel : nat) (url : ustr) : M watched unit :=
  match fuel with
  | O => raise Diverge
  | S fuel' => remove_body_t (write_entry_t fuel') (remove_entry_t fuel') url
  end.
End Remove.
