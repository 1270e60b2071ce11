(** Sessions that look entries up, with and without an entry cache. *)
From Coq Require Import List ZArith Bool.
From Coq Require Import Strings.Byte.
From Verif Require Import Base Utf8 Entry PointerList SpaceAllocator Cluster Archive Cache EntryCache.
Import ListNotations.
Open Scope Z_scope.

(** The sizes a policy gives; of a [HybridCache], only the size of the part that keeps what was accessed last matters. *)
Definition sizes_positive (cl : cache_class) : Prop :=
  match cl with NoOpCache => True | LastAccessCache n => 1 <= n | TopAccessCache n => 1 <= n | HybridCache n _ => 1 <= n end.

(** A call that looks something up. *)
Inductive lookup :=
| ByFullUrl (url : ustr) | ByIndex (i : Z) | At (location : Z) | MainPage
| HasUrl (url : ustr) | IsArticle (url : ustr)
| Entries (start end_ : option Z) | Articles (start end_ : option Z)
| Resolved (fuel : nat) (url : ustr)   (* get_entry_by_full_url(url).resolve() *)
| MetadataKeys.

(** What the caller learns. *)
Inductive seen := SEntry (e : entry) | SBool (b : bool) | SEntries (l : list entry) | SUrls (l : list ustr).

Definition ok_map {A B} (f : A -> B) (r : res A) : res B := match r with Ok a => Ok (f a) | Err x => Err x end.

(** Without a cache (Archive.v): every call reads the file. *)
Definition look (s : zim) (l : lookup) : res seen :=
  match l with
  | ByFullUrl u => ok_map SEntry (get_entry_by_full_url s u)
  | ByIndex i => ok_map SEntry (get_entry_by_url_index s i)
  | At p => ok_map SEntry (get_entry_at s p)
  | MainPage => ok_map SEntry (get_mainpage_entry s)
  | HasUrl u => ok_map SBool (has_entry_for_full_url s u)
  | IsArticle u => ok_map SBool (entry_at_url_is_article s u)
  | Entries a b => ok_map SEntries (iter_entries s a b)
  | Articles a b => ok_map SEntries (iter_articles s a b)
  | Resolved fuel u => ok_map SEntry (do e <- get_entry_by_full_url s u ;; resolve fuel s e)
  | MetadataKeys => ok_map SUrls (get_metadata_keys s)
  end.

Section Session.
Variables writable autoflush : bool.
(** How deep writes caused by evictions may nest. *)
Variable depth : nat.
Definition cw := cstate ecache.
Definition rewrite (r : nat) (u : bool) : M cw unit := cwrite_rec ecache estep writable autoflush depth r u true.

(** The caller reads the attributes of the object that was returned. *)
Definition see (m : M cw nat) : M cw seen := let* r := m in let* e := entry_of ecache r in ret (SEntry e).
Fixpoint see_all (l : list nat) : M cw (list entry) :=
  match l with
  | [] => ret []
  | r :: l => let* e := entry_of ecache r in let* es := see_all l in ret (e :: es)
  end.

(** With a cache. *)
Definition clook (l : lookup) : M cw seen :=
  match l with
  | ByFullUrl u => see (cget_entry_by_full_url ecache estep writable autoflush rewrite u)
  | ByIndex i => see (cget_entry_by_url_index ecache estep writable autoflush rewrite i true)
  | At p => see (cget_entry_at ecache estep writable autoflush rewrite p true)
  | MainPage => see (cget_mainpage_entry ecache estep writable autoflush rewrite)
  | HasUrl u => let* b := chas_entry_for_full_url ecache estep writable autoflush rewrite u in ret (SBool b)
  | IsArticle u => let* b := centry_at_url_is_article ecache estep writable autoflush rewrite u in ret (SBool b)
  | Entries a b => let* rs := citer_entries ecache estep writable autoflush rewrite a b in let* es := see_all rs in ret (SEntries es)
  | Articles a b => let* rs := citer_articles ecache estep writable autoflush rewrite a b in let* es := see_all rs in ret (SEntries es)
  | Resolved fuel u => see (let* r := cget_entry_by_full_url ecache estep writable autoflush rewrite u in
                            cresolve ecache estep writable autoflush rewrite fuel r)
  | MetadataKeys => let* k := cget_metadata_keys ecache estep writable autoflush rewrite in ret (SUrls k)
  end.

(** Several calls; the caller handles every exception. *)
Fixpoint session (ls : list lookup) (w : cw) : list (res seen) :=
  match ls with
  | [] => []
  | l :: ls => let (r, w') := clook l w in r :: session ls w'
  end.
(** A session on an archive that was just opened with a policy. *)
Definition opened (cl : cache_class) (s : zim) : cw := mkC ecache s (ecache_new cl) [].
End Session.

(** ** Changing entries through objects *)

(** What a caller can do with entries: take an object, change it, save it, and
    remove an entry.  [k] counts the objects that were taken. *)
Inductive change := Take (url : ustr) | Rename (k : nat) (url : ustr) | Retitle (k : nat) (t : ustr) | Save (k : nat) | Delete (url : ustr).

Section Changes.
Variable autoflush : bool.
Variable depth : nat.
Definition on_object (k : nat) (held : list nat) (f : nat -> M cw unit) : M cw (list nat) :=
  match nth_error held k with Some r => let* _ := f r in ret held | None => raise IndexError end.
Definition change_one (c : change) (held : list nat) : M cw (list nat) :=
  match c with
  | Take u => let* r := cget_entry_by_full_url ecache estep true autoflush (rewrite true autoflush depth) u in ret (held ++ [r])
  | Rename k u => on_object k held (cedit ecache (fun e => mkEntry (e_mimetype e) (e_ns e) u (e_title e) (e_kind e)))
  | Retitle k t => on_object k held (cedit ecache (fun e => mkEntry (e_mimetype e) (e_ns e) (e_url e) (Some t) (e_kind e)))
  | Save k => on_object k held (cflush_entry ecache estep true autoflush depth)
  | Delete u => let* _ := cremove_entry ecache estep true autoflush depth u in ret held
  end.
Fixpoint changes (cs : list change) (held : list nat) : M cw (list nat) :=
  match cs with [] => ret held | c :: cs => let* held := change_one c held in changes cs held end.

(** How it ends, and the entries of the archive afterwards. *)
Definition outcome_of (cl : cache_class) (s : zim) (cs : list change) : res unit * res seen :=
  let (r, w) := changes cs [] (opened cl s) in (ok_map (fun _ => tt) r, look (cs_zim _ w) (Entries None None)).
End Changes.

(** An archive that entries were added to: a new, empty archive whose first
    [start] bytes are in use, then [write_entry] for each entry. *)
Definition empty_archive (start : nat) : zim :=
  mkZim (repeat Byte.x00 start) (mkPlist [] true true 0) (Some (mkPlist [] true true 0)) (mkPlist [] true true 0) None (new_allocator (Z.of_nat start)).
Fixpoint add_all (depth : nat) (es : list entry) : M zim unit :=
  match es with [] => ret tt | e :: es => let* _ := write_entry depth (mkWent e (full_url e) (Some true)) in add_all depth es end.
