(** Model of the attributes of entry objects (pyzim/entry.py 96-440, 566-666,
    904-934), of [BaseEntry.flush] and [BaseEntry.remove] (485-546) and of the
    argument checks of [ContentEntry.read] and [iter_read] (762-828).
    Values of a wrong type ([TypeError]) are not represented; every object is
    bound to an archive ([BindRequired] does not occur). *)
From Coq Require Import List ZArith Bool.
From Verif Require Import Base Utf8 Entry MimeTypeList Cluster CompressionStrategy Archive.
Import ListNotations.
Open Scope Z_scope.

(** An entry object: attributes, [_old_full_url] and [_force_is_article]
    (entry.py 84-93), [_dirty] and [mutable] (modifiable.py 33-42). *)
Record eobj := mkEobj { eo_went : went; eo_dirty : bool; eo_mutable : bool }.

(** What [get_entry_at] returns when it reads an entry (archive.py 819-822):
    the constructors end with [after_flush_or_read] (602, 902). *)
Definition eobj_read (e : entry) : eobj := mkEobj (fresh e) false true.

(** [isinstance(value, str)]: encoded and decoded forms of the argument
    (148-153, 224-229, 265-270, 389-394). *)
Definition both (v : pystr) : res (ustr * bytes) :=
  match v with
  | PyStr u => do b <- encode u ;; Ok (u, b)
  | PyBytes b => do u <- decode b ;; Ok (u, b)
  end.

Definition change {St} (f : St -> res St) : M St unit :=
  fun s => match f s with Ok s' => (Ok tt, s') | Err x => (Err x, s) end.

(** [ensure_mutable], modifiable.py 170-177. *)
Definition ensure_mutable (o : eobj) : res unit := if eo_mutable o then Ok tt else Err NonMutable.

(** An attribute gets a new value and [mark_dirty] is called. *)
Definition modified (w : went) (o : eobj) : eobj := mkEobj w true (eo_mutable o).
Definition with_ns (u : ustr) (e : entry) : entry := mkEntry (e_mimetype e) u (e_url e) (e_title e) (e_kind e).
Definition with_url (u : ustr) (e : entry) : entry := mkEntry (e_mimetype e) (e_ns e) u (e_title e) (e_kind e).
Definition with_title (u : ustr) (e : entry) : entry := mkEntry (e_mimetype e) (e_ns e) (e_url e) (Some u) (e_kind e).
Definition with_mimetype (m : Z) (e : entry) : entry := mkEntry m (e_ns e) (e_url e) (e_title e) (e_kind e).
Definition with_kind (k : ekind) (e : entry) : entry := mkEntry (e_mimetype e) (e_ns e) (e_url e) (e_title e) k.
Definition in_went (f : entry -> entry) (w : went) : went := mkWent (f (w_entry w)) (w_old_url w) (w_force w).
Definition attrs (o : eobj) : entry := w_entry (eo_went o).

(** [namespace = value], 141-164. *)
Definition put_namespace (v : pystr) : M eobj unit := change (fun o =>
  do ub <- both v ;; let (u, b) := ub in
  if negb (zlen b =? 1) then Err ValueError
  else do _ <- ensure_mutable o ;;
       if ueqb u (e_ns (attrs o)) then Ok o
       else let w := in_went (with_ns u) (eo_went o) in
            Ok (modified (if ueqb u NS_C then w else mkWent (w_entry w) (w_old_url w) (Some false)) o)).

(** [url = value], 212-235. *)
Definition put_url (v : pystr) : M eobj unit := change (fun o =>
  do ub <- both v ;; let (u, b) := ub in
  if has_nul b then Err ValueError
  else do _ <- ensure_mutable o ;;
       if ueqb u (e_url (attrs o)) then Ok o else Ok (modified (in_went (with_url u) (eo_went o)) o)).

(** [title = value], 251-280. *)
Definition put_title (v : option pystr) : M eobj unit := change (fun o =>
  do ub <- match v with None => Ok ([], []) | Some v => both v end ;; let (u, b) := (ub : ustr * bytes) in
  if has_nul b then Err ValueError
  else do _ <- ensure_mutable o ;;
       if match e_title (attrs o) with Some t => ueqb u t | None => false end then Ok o
       else Ok (modified (in_went (with_title u) (eo_went o)) o)).

(** [full_url = value], 332-355: the namespace is assigned before the url. *)
Definition put_full_url (v : pystr) : M eobj unit :=
  let* u := (fun o => (match v with PyStr u => Ok u | PyBytes b => decode b end, o)) in
  match u with
  | [] => raise ValueError
  | c :: r => let* _ := put_namespace (PyStr [c]) in put_url (PyStr r)
  end.

(** [mimetype_id = value], 110-127. *)
Definition put_mimetype_id (m : Z) : M eobj unit := change (fun o =>
  if m <? 0 then Err ValueError
  else do _ <- ensure_mutable o ;;
       if m =? e_mimetype (attrs o) then Ok o else Ok (modified (in_went (with_mimetype m) (eo_went o)) o)).

(** [is_article = value], 420-436. *)
Definition put_is_article (v : bool) : M eobj unit := change (fun o =>
  do _ <- ensure_mutable o ;;
  if v && negb (ueqb (e_ns (attrs o)) NS_C) then Err ValueError
  else if match w_force (eo_went o) with Some f => Bool.eqb v f | None => false end then Ok o
       else Ok (modified (mkWent (w_entry (eo_went o)) (w_old_url (eo_went o)) (Some v)) o)).

(** [cluster_number = value] and [blob_number = value], 616-665; on a redirect
    these create an unrelated attribute of the object. *)
Definition put_cluster_number (v : Z) : M eobj unit := change (fun o =>
  match e_kind (attrs o) with
  | Redirect _ => Ok o
  | Content c b =>
      if v <? 0 then Err ValueError
      else do _ <- ensure_mutable o ;;
           if v =? c then Ok o else Ok (modified (in_went (with_kind (Content v b)) (eo_went o)) o)
  end).
Definition put_blob_number (v : Z) : M eobj unit := change (fun o =>
  match e_kind (attrs o) with
  | Redirect _ => Ok o
  | Content c b =>
      if v <? 0 then Err ValueError
      else do _ <- ensure_mutable o ;;
           if v =? b then Ok o else Ok (modified (in_went (with_kind (Content c v)) (eo_went o)) o)
  end).
(** [redirect_index = value], 916-934; likewise on a content entry. *)
Definition put_redirect_index (v : Z) : M eobj unit := change (fun o =>
  match e_kind (attrs o) with
  | Content _ _ => Ok o
  | Redirect r =>
      if v <? 0 then Err ValueError
      else do _ <- ensure_mutable o ;;
           if v =? r then Ok o else Ok (modified (in_went (with_kind (Redirect v)) (eo_went o)) o)
  end).

(** The object together with the mimetype list of its archive. *)
Definition on_entry {A} (m : M eobj A) : M (eobj * mlist) A :=
  fun s => let (r, o) := m (fst s) in (r, (o, snd s)).

(** [mimetype = value], 371-402: the mimetype is registered before the entry
    is checked to be mutable. *)
Definition put_mimetype (v : pystr) : M (eobj * mlist) unit :=
  let* ub := (fun s => (both v, s)) in
  let (u, b) := (ub : ustr * bytes) in
  if zlen b =? 0 then raise ValueError
  else if has_nul b then raise ValueError
  else let* i := (fun s : eobj * mlist => match mt_get_index (PyStr u) true (snd s) with
                           | Ok (i, l) => (Ok i, (fst s, l))
                           | Err x => (Err x, s)
                           end) in
       match i with
       | Some i => on_entry (put_mimetype_id i)
       | None => raise TypeError
       end.

(** One assignment [entry.attribute = value]. *)
Inductive assignment :=
| ANamespace (v : pystr) | AUrl (v : pystr) | ATitle (v : option pystr) | AFullUrl (v : pystr)
| AMimetypeId (v : Z) | AMimetype (v : pystr) | AIsArticle (v : bool)
| AClusterNumber (v : Z) | ABlobNumber (v : Z) | ARedirectIndex (v : Z).
Definition assign (a : assignment) : M (eobj * mlist) unit :=
  match a with
  | ANamespace v => on_entry (put_namespace v)
  | AUrl v => on_entry (put_url v)
  | ATitle v => on_entry (put_title v)
  | AFullUrl v => on_entry (put_full_url v)
  | AMimetypeId v => on_entry (put_mimetype_id v)
  | AMimetype v => put_mimetype v
  | AIsArticle v => on_entry (put_is_article v)
  | AClusterNumber v => on_entry (put_cluster_number v)
  | ABlobNumber v => on_entry (put_blob_number v)
  | ARedirectIndex v => on_entry (put_redirect_index v)
  end.
(** Assignments one after the other; the caller handles every exception. *)
Fixpoint assigns (l : list assignment) (s : eobj * mlist) : eobj * mlist :=
  match l with
  | [] => s
  | a :: r => assigns r (snd (assign a s))
  end.

(** [BaseEntry.flush], 484-496, and [after_flush_or_read], 498-504, which
    [write_entry] calls (archive.py 1375, 1409).  Not represented: that
    [write_entry] may also renumber the [redirect_index] of the object. *)
Definition eobj_flush (fuel : nat) (o : eobj) : M zim eobj :=
  if negb (eo_mutable o) then raise NonMutable
  else if eo_dirty o then
         let* _ := write_entry fuel (eo_went o) in
         ret (mkEobj (mkWent (attrs o) (full_url (attrs o)) (w_force (eo_went o))) false (eo_mutable o))
       else ret o.

(** [BaseEntry.remove], 531-546. *)
Definition eobj_remove (process_blob : entry -> M zim unit) (fuel : nat) (o : eobj) : M zim unit :=
  if negb (eo_mutable o) then raise NonMutable
  else remove_entry process_blob fuel (full_url (attrs o)).

(** The argument checks of [read] (786-795) and [iter_read] (816-825).
    [end < start] compares [None] with an integer when only [start] is given. *)
Definition check_range (start stop : option Z) : res unit :=
  if match start with Some a => a <? 0 | None => false end then Err ValueError
  else if match stop with Some b => b <? 0 | None => false end then Err ValueError
  else match start, stop with
       | Some a, Some b => if b <? a then Err ValueError else Ok tt
       | Some a, None => Err TypeError
       | None, _ => Ok tt
       end.
(** [read], 763-797: afterwards the blob is read from the cluster. *)
Definition entry_read {St} (read_blob : Z -> option Z -> option Z -> M St bytes) (e : entry) (start stop : option Z) : M St bytes :=
  match e_kind e with
  | Redirect _ => raise AttributeError
  | Content _ b => fun s => match check_range start stop with
                            | Err x => (Err x, s)
                            | Ok _ => read_blob b start stop s
                            end
  end.
