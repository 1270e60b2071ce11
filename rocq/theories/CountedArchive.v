(** The archive with its counter (policy [counter="load_or_reinit"], the
    default): what counter.py does while entries are written and removed, when
    the archive is flushed, created and opened.  The archive is that of Flush.v
    and ViewSpec.v; the processors of [Zim] are the counter alone. *)
From Coq Require Import List ZArith Bool.
From Verif Require Import Base Utf8 Dict Infobyte Header MimeTypeList PointerList SpaceAllocator Entry Reader Cluster ClusterWrapper Counter
  Archive ArchiveCluster ArchiveClusterSpec CompressionStrategy OperationBuffer EntryObject Flush FlushSpec FlushHistorySpec ViewSpec.
Import ListNotations.
Open Scope Z_scope.

(** constants.py 60, 65; counter.py 205-207. *)
Definition URL_COUNTER : ustr := [77; 67; 111; 117; 110; 116; 101; 114].
Definition MIMETYPE_REDIRECT : ustr := [60; 114; 101; 100; 105; 114; 101; 99; 116; 62].
Definition TEXT_PLAIN : ustr := [116; 101; 120; 116; 47; 112; 108; 97; 105; 110].

(** ** The callbacks *)

(** [Counter], counter.py 15-35: the dict and the dirty flag of ModifiableMixIn. *)
Record counter := mkCounter { ct_counts : Counter.counts; ct_dirty : bool }.
(** [get_mimetype_of_entry], archive.py 1561-1575, through [get_mimetype_by_index]
    with [as_unicode]. *)
Definition mime_of (ml : mlist) (e : entry) : res ustr :=
  if is_redirect e then Ok MIMETYPE_REDIRECT else do b <- mt_get (e_mimetype e) (ml_types ml) ;; decode b.
(** [_should_count_entry], counter.py 187-196. *)
Definition counts_entry (e : entry) : bool := negb (is_redirect e) && ueqb (e_ns e) NS_C.
(** [after_entry_write], 213-226, see [after_write].  Simplified: if the old
    mimetype cannot be decoded, nothing has been counted. *)
Definition note_write (ml : mlist) (old : option entry) (e : entry) (c : counter) : res unit * counter :=
  if negb (counts_entry e) then (Ok tt, c)
  else match (do m <- mime_of ml e ;;
              match old with
              | None => Ok (m, None)
              | Some o => do m0 <- mime_of ml o ;; Ok (m, Some (mkCentry (is_redirect o) 67 m0))
              end) with
       | Err x => (Err x, c)
       | Ok (m, o) => let '(n, r) := after_write o (mkCentry false 67 m) (ct_counts c) in (r, mkCounter n true)
       end.
(** [after_entry_remove], 228-234. *)
Definition note_remove (ml : mlist) (e : entry) (c : counter) : res unit * counter :=
  if negb (counts_entry e) then (Ok tt, c)
  else match mime_of ml e with
       | Err x => (Err x, c)
       | Ok m => let '(n, r) := after_remove (mkCentry false 67 m) (ct_counts c) in
                 (r, match r with Ok _ => mkCounter n true | Err _ => c end)
       end.
(** [old_entry], archive.py 1310-1335: the entry at the url the written one was
    read from.  Without an entry cache it is read from the file. *)
Definition old_of (s : zim) (u : ustr) : res (option entry) :=
  match get_entry_by_full_url s u with Ok e => Ok (Some e) | Err EntryNotFound => Ok None | Err x => Err x end.

Section Counted.
Variable fuel : nat.
Context {D : Type}.
Variable dc : decomp D.
Variable new_decomp : ctype -> res D.
Context {K : Type}.
Variable new_comp : ctype -> res K.
Variable comp : K -> bytes -> res (bytes * K).
Variable flush : K -> res bytes.
Variable depth : nat.
Variable kd : ckind.
Context {H : Type}.
Variable md5 : H.
Variable feed : H -> bytes -> H.
Variable digest : H -> bytes.
Variable reserve : option Z.
Variable truncate : bool.
Variable process_blob : entry -> M zim unit.
Variable rounds : nat.

(** [write_entry] with the callback, archive.py 1256-1448.  The redirects it
    rewrites are not counted. *)
Definition count_write (ml : mlist) (w : went) : M (zim * counter) unit := fun '(s, c) =>
  match old_of s (w_old_url w) with
  | Err x => (Err x, (s, c))
  | Ok old =>
      match write_entry (S (S depth)) w s with
      | (Err x, s) => (Err x, (s, c))
      | (Ok _, s) => let '(r, c) := note_write ml old (w_entry w) c in (r, (s, c))
      end
  end.

(** ** The strategies: CompressionStrategy.v with [count_write] for [write_entry] *)

(** The loop of [_finalize_current_cluster], compressionstrategy.py 135-137. *)
Fixpoint count_entries (ml : mlist) (n : Z) (l : list went) (s : zim * counter) : res unit * (list went * (zim * counter)) :=
  match l with
  | [] => (Ok tt, ([], s))
  | w :: r =>
      match set_cluster_number n w with
      | Err e => (Err e, (w :: r, s))
      | Ok w =>
          match count_write ml w s with
          | (Err e, s) => (Err e, (w :: r, s))
          | (Ok _, s) => let '(x, (r, s)) := count_entries ml n r s in (x, (w :: r, s))
          end
      end
  end.
(** [_finalize_current_cluster], 128-138. *)
Definition count_finalize : M ((sarchive * counter) * strategy) unit := fun '((s, c), st) =>
  match write_cluster fuel new_comp comp flush new_ops None (sa_arch s) (st_cluster st) with
  | (Err e, (a, co)) => (Err e, ((mkSa a (sa_mimes s), c), mkStrat (st_comp st) (st_max st) (st_entries st) co))
  | (Ok n, (a, _)) =>
      let '(x, (l, (z, c))) := count_entries (sa_mimes s) n (st_entries st) (ca_zim a, c) in
      let s := mkSa (mkCa z (ca_ptrs a) (ca_next a)) (sa_mimes s) in
      match x with
      | Err e => (Err e, ((s, c), mkStrat (st_comp st) (st_max st) l (strat_cluster (st_comp st))))
      | Ok _ => (Ok tt, ((s, c), mkStrat (st_comp st) (st_max st) [] (strat_cluster (st_comp st))))
      end
  end.
(** [add_item], 163-173. *)
Definition count_add_item (it : item) : M ((sarchive * counter) * strategy) unit := fun '((s, c), st) =>
  match new_cluster_needed it st with
  | (Err e, st) => (Err e, ((s, c), st))
  | (Ok needed, st) =>
      match (if needed then count_finalize ((s, c), st) else (Ok tt, ((s, c), st))) with
      | (Err e, x) => (Err e, x)
      | (Ok _, ((s, c), st)) =>
          match CompressionStrategy.to_entry it s with
          | (Err e, s) => (Err e, ((s, c), st))
          | (Ok entry, s) =>
              match append_blob inner_empty (it_source it) (co_wrap (st_cluster st)) with
              | (Err e, w) => (Err e, ((s, c), mkStrat (st_comp st) (st_max st) (st_entries st) (co_set w (st_cluster st))))
              | (Ok num, w) =>
                  let cl := co_set w (st_cluster st) in
                  match set_blob_number num entry with
                  | Err e => (Err e, ((s, c), mkStrat (st_comp st) (st_max st) (st_entries st) cl))
                  | Ok entry => (Ok tt, ((s, c), mkStrat (st_comp st) (st_max st) (st_entries st ++ [entry]) cl))
                  end
              end
          end
      end
  end.
(** [flush], 175-179. *)
Definition count_flush_items : M ((sarchive * counter) * strategy) unit := fun '(s, st) =>
  if has_items st then count_finalize (s, st) else (Ok tt, (s, st)).
(** [MimetypeBasedCompressionStrategy], 241-253. *)
Definition count_add_item_m (it : item) : M ((sarchive * counter) * mstrategy) unit := fun '(s, ms) =>
  let '(x, (s, st)) := count_add_item it (s, get_cs (it_mime it) ms) in
  (x, (s, mkMstrat (ms_comp ms) (ms_max ms) (dset ueqb (it_mime it) st (ms_map ms)))).
Fixpoint count_flush_all (l : list (ustr * strategy)) (s : sarchive * counter) : res unit * ((sarchive * counter) * list (ustr * strategy)) :=
  match l with
  | [] => (Ok tt, (s, []))
  | (m, st) :: r =>
      match count_flush_items (s, st) with
      | (Err e, (s, st)) => (Err e, (s, (m, st) :: r))
      | (Ok _, (s, st)) => let '(x, (s, r)) := count_flush_all r s in (x, (s, (m, st) :: r))
      end
  end.
Definition count_flush_items_m : M ((sarchive * counter) * mstrategy) unit := fun '(s, ms) =>
  let '(x, (s, l)) := count_flush_all (ms_map ms) s in (x, (s, mkMstrat (ms_comp ms) (ms_max ms) l)).
Definition count_any_add (it : item) : M ((sarchive * counter) * anystrat) unit := fun '(s, x) =>
  match x with
  | Simple st => let '(r, (s, st)) := count_add_item it (s, st) in (r, (s, Simple st))
  | ByMimetype ms => let '(r, (s, ms)) := count_add_item_m it (s, ms) in (r, (s, ByMimetype ms))
  end.
Definition count_any_flush : M ((sarchive * counter) * anystrat) unit := fun '(s, x) =>
  match x with
  | Simple st => let '(r, (s, st)) := count_flush_items (s, st) in (r, (s, Simple st))
  | ByMimetype ms => let '(r, (s, ms)) := count_flush_items_m (s, ms) in (r, (s, ByMimetype ms))
  end.

(** ** The archive *)

(** [Zim.add_item], archive.py 1950-1973. *)
Definition count_zim_add (it : item) (force_uncompressed : bool) : M (farchive * counter) unit := fun '(A, c) =>
  let z := fa_state A in
  let '(r, (z, c)) :=
    if negb force_uncompressed
    then let '(r, ((s, c), x)) := count_any_add it ((zs_arch z, c), zs_comp z) in (r, (mkZs s x (zs_plain z), c))
    else let '(r, ((s, c), x)) := count_any_add it ((zs_arch z, c), zs_plain z) in (r, (mkZs s (zs_comp z) x, c)) in
  match r with
  | Ok _ => (Ok tt, (fa_set_dirty true (fa_set_state z A), c))
  | Err e => (Err e, (fa_set_state z A, c))
  end.
(** The part of [Zim.flush] that writes the items, 555-556. *)
Definition count_flush_strategies : M (farchive * counter) unit := fun '(A, c) =>
  let z := fa_state A in
  match count_any_flush ((zs_arch z, c), zs_comp z) with
  | (Err e, ((s, c), x)) => (Err e, (fa_set_state (mkZs s x (zs_plain z)) A, c))
  | (Ok _, ((s, c), x)) => let '(r, ((s, c), y)) := count_any_flush ((s, c), zs_plain z) in (r, (fa_set_state (mkZs s x y) A, c))
  end.
(** Operations that count nothing. *)
Definition uncounted (m : M farchive unit) : M (farchive * counter) unit := fun '(A, c) => let (r, A) := m A in (r, (A, c)).

(** [after_content_flush], counter.py 236-243: [zim.get_entry_by_full_url(URL_COUNTER).set_content(...).flush()],
    see [content_of]. *)
Definition store_counter : M (farchive * counter) unit := fun '(A, c) =>
  if ct_dirty c then
    match encode (to_string (ct_counts c)) with
    | Err e => (Err e, (A, c))
    | Ok d =>
        match content_of fuel dc new_decomp new_comp comp flush kd URL_COUNTER d A with
        | (Err e, A) => (Err e, (A, c))
        | (Ok _, A) => (Ok tt, (A, mkCounter (ct_counts c) false))
        end
    end
  else (Ok tt, (A, c)).
(** [Zim.flush], archive.py 517-689; the processors are called in 562-564.
    [flush_titles] flushes the strategies once more (589-590): nothing waits
    there any more, so nothing is counted. *)
Definition count_content : M (farchive * counter) unit :=
  let* _ := count_flush_strategies in uncounted (flush_buffer depth process_blob rounds).
Definition count_flush : M (farchive * counter) unit :=
  let* _ := uncounted sync_main in
  fun '(A, c) =>
    if negb (is_dirty A) then (Ok tt, (A, c))
    else (let* _ := count_content in let* _ := store_counter in
          uncounted (flush_tail fuel dc new_decomp new_comp comp flush depth kd md5 feed digest reserve truncate)) (A, c).

(** [entry = zim.get_entry_by_full_url(u)], assignments, [entry.flush()]: an
    entry that is not dirty is not written (entry.py 498-523). *)
Definition count_edit (u : ustr) (l : list field) : M (farchive * counter) unit := fun '(A, c) =>
  match get_entry_by_full_url (fa_zim A) u with
  | Err x => (Err x, (A, c))
  | Ok e =>
      let '(r, (o, ml)) := assign_all l (eobj_read e, fa_mimes A) in
      let A := fa_set_mimes ml A in
      match r with
      | Err x => (Err x, (A, c))
      | Ok _ =>
          if eo_dirty o
          then let '(r, (s, c)) := count_write ml (eo_went o) (fa_zim A, c) in (r, (fa_set_zim s A, c))
          else (Ok tt, (A, c))
      end
  end.
(** [zim.get_entry_by_full_url(u).remove(blob="keep")], archive.py 1035-1154. *)
Definition count_remove (u : ustr) : M (farchive * counter) unit := fun '(A, c) =>
  match get_entry_by_full_url (fa_zim A) u with
  | Err x => (Err x, (A, c))
  | Ok e =>
      match remove_entry_at depth u A with
      | (Err x, A) => (Err x, (A, c))
      | (Ok _, A) => let '(r, c) := note_remove (fa_mimes A) e c in (r, (A, c))
      end
  end.

(** ** Creating and opening *)

(** The placeholder of [on_install], counter.py 200-211. *)
Definition counter_item : item := mkItem NS_M (skipn 1 URL_COUNTER) TEXT_PLAIN (mem_source []) None false.
Definition install (A : farchive) : res farchive :=
  do there <- has_entry_for_full_url (fa_zim A) URL_COUNTER ;;
  if (there : bool) then Ok A
  else let '(r, A) := fa_add_item fuel new_comp comp flush depth counter_item false A in do _ <- r ;; Ok A.
(** [load_from_archive], 67-124, for [how="load_or_reinit"]. *)
Definition load_counts (A : farchive) : res Counter.counts :=
  do e <- get_entry_by_full_url (fa_zim A) URL_COUNTER ;;
  match e_kind e with
  | Content c b => do d <- read_blob_of fuel dc new_decomp kd (fa_arch A) c b ;; from_bytes d
  | Redirect _ => Err AttributeError
  end.
Fixpoint count_all (ml : mlist) (l : list entry) (c : Counter.counts) : res Counter.counts :=
  match l with
  | [] => Ok c
  | e :: r => if counts_entry e then do m <- mime_of ml e ;; count_all ml r (increment m c) else count_all ml r c
  end.
Definition load_counter (A : farchive) : res counter :=
  match load_counts A with
  | Ok n => Ok (mkCounter n false)
  | Err EntryNotFound | Err BlobNotFound | Err ValueError | Err UnicodeErr =>
      do l <- iter_entries (fa_zim A) None None ;;
      do n <- count_all (fa_mimes A) l [] ;;
      Ok (mkCounter n true)
  | Err x => Err x
  end.
(** [Zim.__init__], archive.py 176-182: [after_flush_or_read] comes last. *)
Definition with_counter (A : farchive) (c : counter) : res (farchive * counter) :=
  do A <- install A ;; Ok (fa_set_dirty false A, c).
(** For a new archive [load_from_archive] finds no entry, 113-116. *)
Definition count_new (u : bytes) (sc sp : anystrat) : res (farchive * counter) :=
  do A <- init_new fuel new_comp comp flush depth reserve u sc sp ;; with_counter A (mkCounter [] true).
Definition count_open (f : bytes) (sc sp : anystrat) : res (farchive * counter) :=
  do A <- open_zim fuel dc new_decomp new_comp comp flush depth kd f true sc sp ;;
  do c <- load_counter A ;; with_counter A c.

(** The operations of C65 on an archive with its counter. *)
Definition count_op (X : farchive * counter) (o : vop) : res unit * (farchive * counter) :=
  match o with
  | VAdd it _ u => count_zim_add it u X
  | VEdit u l => count_edit u l X
  | VRemove u => count_remove u X
  | VFlush => count_flush X
  | VReopen sc sp =>
      match count_flush X with
      | (Ok _, (A, c)) => match count_open (fa_file A) sc sp with Ok Y => (Ok tt, Y) | Err e => (Err e, (A, c)) end
      | (Err e, Y) => (Err e, Y)
      end
  | VLink _ _ _ | VContent _ _ | VMain _ =>
      uncounted (fun A => perform_vop fuel dc new_decomp new_comp comp flush depth kd md5 feed digest reserve truncate process_blob rounds A o) X
  end.
End Counted.
