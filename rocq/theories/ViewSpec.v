(** What C65 says: an archive behaves like a table from urls to pages.  Items and
    redirects are added, entries are edited and removed, the archive is flushed,
    closed and opened again, in any order and any number of times. *)
From Coq Require Import List ZArith Bool.
From Verif Require Import Base Utf8 Infobyte Header MimeTypeList PointerList SpaceAllocator Entry EntrySpec Reader Cluster ClusterWrapper ClusterWrapperSpec
  Archive ArchiveSpec ArchiveCluster ArchiveClusterSpec CompressionStrategy CompressionStrategySpec OperationBuffer EntryObject Flush FlushSpec FlushHistorySpec.
Import ListNotations.
Open Scope Z_scope.

(** ** The table *)

(** A page: data with its mimetype, or a link to another url. *)
Inductive body := Data (mime data : bytes) | Link (target : ustr).
(** An empty title stands for the url. *)
Record page := mkPage { pg_title : ustr; pg_article : bool; pg_body : body }.
Definition view := ustr -> option page.
Definition empty_view : view := fun _ => None.
Definition vput (u : ustr) (p : option page) (V : view) : view := fun x => if ueqb x u then p else V x.
(** The title that is shown for the page at [u] (whose first character is its namespace). *)
Definition shown_as (u : ustr) (p : page) : ustr := match pg_title p with [] => tl u | t => t end.

Definition encoded (m : ustr) : bytes := match utf8_encode m with Some b => b | None => [] end.
(** The page of an item, and of a redirect: without a title it gets that of its target. *)
Definition page_of (it : item) (d : bytes) : page :=
  mkPage (match it_title it with Some t => t | None => it_url it end) (it_article it) (Data (encoded (it_mime it)) d).
Definition link_page (V : view) (target : ustr) (ttl : option ustr) : page :=
  mkPage (match ttl with Some t => t | None => match V target with Some p => shown_as target p | None => [] end end) false (Link target).

(** Assignments to the attributes of an entry. *)
Inductive field := SetTitle (t : ustr) | SetUrl (full_url : ustr) | SetMimetype (m : ustr) | SetArticle (b : bool).
(** Their effect on a page and its url; only pages in namespace C are articles. *)
Definition set_field (x : ustr * page) (f : field) : ustr * page :=
  let (u, p) := x in
  match f with
  | SetTitle t => (u, mkPage t (pg_article p) (pg_body p))
  | SetUrl v => (v, mkPage (pg_title p) (pg_article p && in_C v) (pg_body p))
  | SetMimetype m => (u, mkPage (pg_title p) (pg_article p) (match pg_body p with Data _ d => Data (encoded m) d | Link t => Link t end))
  | SetArticle b => (u, mkPage (pg_title p) b (pg_body p))
  end.
Definition set_fields (l : list field) (u : ustr) (p : page) : ustr * page := fold_left set_field l (u, p).

(** What a user does: add an item (with its data), add a redirect, load the
    entry at a url, assign to its attributes and flush it, load an entry, set its
    content and flush the cluster, load an entry and remove it, choose the
    main page (by its url in namespace C), flush the archive, or close it and
    open it again. *)
Inductive vop :=
| VAdd (it : item) (d : bytes) (uncompressed : bool)
| VLink (source target : ustr) (ttl : option ustr)
| VEdit (u : ustr) (l : list field)
| VContent (u : ustr) (d : bytes)
| VRemove (u : ustr)
| VMain (u : ustr)
| VFlush
| VReopen (sc sp : anystrat).

Definition vstep (V : view) (o : vop) : view :=
  match o with
  | VAdd it d _ => vput (item_url it) (Some (page_of it d)) V
  | VLink source target ttl => vput source (Some (link_page V target ttl)) V
  | VEdit u l => match V u with
                 | Some p => let (v, q) := set_fields l u p in vput v (Some q) (vput u None V)
                 | None => V
                 end
  | VContent u d => match V u with
                    | Some p => vput u (Some (mkPage (pg_title p) (pg_article p) (match pg_body p with Data m _ => Data m d | Link t => Link t end))) V
                    | None => V
                    end
  | VRemove u => vput u None V
  | VMain u => vput URL_MAINPAGE_REDIRECT (Some (link_page V (NS_C ++ u) None)) V
  | VFlush | VReopen _ _ => V
  end.
Definition vsteps (V : view) (ops : list vop) : view := fold_left vstep ops V.
(** Number of items and redirects that are added; the main page is chosen by a redirect. *)
Definition vadds (ops : list vop) : Z := zlen (filter (fun o => match o with VAdd _ _ _ | VLink _ _ _ | VMain _ => true | _ => false end) ops).

(** ** The archive *)

(** The urls under which the archive keeps its title lists. *)
Definition listing (s : zim) (u : ustr) : Prop := u = URL_ARTICLE_TITLE_INDEX \/ u = URL_ENTRY_TITLE_INDEX /\ z_etpl s <> None.

Section Spec.
Variable fuel : nat.
Context {D : Type}.
Variable dc : decomp D.
Variable new_decomp : ctype -> res D.
Context {K : Type}.
Variable new_comp : ctype -> res K.
Variable comp : K -> bytes -> res (bytes * K).
Variable flush : K -> res bytes.
Variable depth : nat.
Variable kd : ckind.
Variable Stream : ctype -> bytes -> bytes -> Prop.
Context {H : Type}.
Variable md5 : H.
Variable feed : H -> bytes -> H.
Variable digest : H -> bytes.
Variable reserve : option Z.
Variable truncate : bool.
Variable process_blob : entry -> M zim unit.
Variable rounds : nat.

(** The archive shows page [p] at url [u]: the entry that is found there has
    its title, is listed as an article or not, and is a redirect to its target,
    or its mimetype and content (which is not that of a title list) are those of the page. *)
Definition shows_page (A : farchive) (u : ustr) (p : page) : Prop :=
  exists e us, get_entry_by_full_url (fa_zim A) u = Ok e /\ e_title e = Some (pg_title p) /\ article_urls (fa_zim A) = Some us /\ (In u us <-> pg_article p = true) /\
    match pg_body p with
    | Data m d => exists c b, e_kind e = Content c b /\ mt_get (e_mimetype e) (ml_types (fa_mimes A)) = Ok m /\
        read_blob_of fuel dc new_decomp kd (fa_arch A) c b = Ok d /\ ~ listing_blob (fa_zim A) c b
    | Link v => target_url (fa_zim A) e = Some v
    end.
(** The archive shows the table [V], apart from its title lists. *)
Definition shows (A : farchive) (V : view) : Prop :=
  forall u, ~ listing (fa_zim A) u ->
    match V u with
    | Some p => shows_page A u p
    | None => forall e, get_entry_by_full_url (fa_zim A) u <> Ok e
    end.

(** ** Performing the operations *)

Definition assign_of (f : field) : assignment :=
  match f with
  | SetTitle t => ATitle (Some (PyStr t))
  | SetUrl v => AFullUrl (PyStr v)
  | SetMimetype m => AMimetype (PyStr m)
  | SetArticle b => AIsArticle b
  end.
Fixpoint assign_all (l : list field) : M (eobj * mlist) unit :=
  match l with
  | [] => ret tt
  | f :: r => let* _ := assign (assign_of f) in assign_all r
  end.

Definition on_zim (m : M zim unit) : M farchive unit := fun A => let (r, s) := m (fa_zim A) in (r, fa_set_zim s A).
Definition on_buffered (m : M buffered unit) : M farchive unit := fun A =>
  let '(r, o) := m (mkBuffered (fa_zim A) (fa_redirects A) (fa_main A)) in
  let A := fa_set_zim (b_zim o) A in
  (r, mkFa (fa_state A) (fa_header A) (fa_dirty A) (b_redirects o) (b_main o)).
(** [entry = zim.get_entry_by_full_url(u)], assignments, [entry.flush()]. *)
Definition edit_entry (u : ustr) (l : list field) : M farchive unit := fun A =>
  match get_entry_by_full_url (fa_zim A) u with
  | Err x => (Err x, A)
  | Ok e =>
      let '(r, (o, ml)) := assign_all l (eobj_read e, fa_mimes A) in
      let A := fa_set_mimes ml A in
      match r with
      | Err x => (Err x, A)
      | Ok _ => on_zim (let* _ := eobj_flush (S (S depth)) o in ret tt) A
      end
  end.
(** [zim.get_entry_by_full_url(u).set_content(d).flush()], see [set_listing]. *)
Definition content_of (u : ustr) (d : bytes) : M farchive unit :=
  let* _ := set_listing fuel dc new_decomp new_comp comp flush kd u d in ret tt.
(** [zim.get_entry_by_full_url(u).remove(blob="keep")]. *)
Definition remove_entry_at (u : ustr) : M farchive unit := fun A =>
  match get_entry_by_full_url (fa_zim A) u with
  | Err x => (Err x, A)
  | Ok e => on_zim (eobj_remove keep_blob (S (S depth)) (eobj_read e)) A
  end.

Notation performz := (perform_zop fuel dc new_decomp new_comp comp flush depth kd md5 feed digest reserve truncate process_blob rounds).
Definition perform_vop (A : farchive) (o : vop) : res unit * farchive :=
  match o with
  | VAdd it d u => performz A (ZAdd it d u)
  | VLink source target ttl => on_buffered (add_redirect (S (S depth)) (source, target, ttl)) A
  | VEdit u l => edit_entry u l A
  | VContent u d => content_of u d A
  | VRemove u => remove_entry_at u A
  | VMain u => on_buffered (set_mainpage process_blob (S (S depth)) (Some u)) A
  | VFlush => performz A ZFlush
  | VReopen sc sp => performz A (ZReopen sc sp)
  end.

(** ** Which operations are covered *)

(** The items that wait in a strategy, and those of the archive. *)
Definition queued (x : anystrat) : list went :=
  match x with Simple st => st_entries st | ByMimetype ms => concat (map (fun kv => st_entries (snd kv)) (ms_map ms)) end.
Definition queue (A : farchive) : list went := queued (zs_comp (fa_state A)) ++ queued (zs_plain (fa_state A)).
(** None of them will replace an entry that is there now. *)
Definition no_replacement (A : farchive) : Prop :=
  forall w e, In w (queue A) -> get_entry_by_full_url (fa_zim A) (full_url (w_entry w)) <> Ok e.

(** New urls are not those of the title lists.  The url of a new item is free,
    or it is that of content that is replaced: no redirect leads there, and no
    other item waits for it.  The url of a new redirect is free.  The target of a redirect
    may be missing if the redirect has a title.  An entry that is edited
    is content, no redirect leads to it and it is not the main page if its url
    changes; if it is moved into namespace C, its article status is assigned.
    The content of an entry is set only if no other entry has the same blob.
    An entry that is removed has no redirects, and it is an article or no
    article follows it (see C42).  The page that becomes the main page exists
    or waits; the redirect for an earlier main page is not waiting, and no
    redirect leads to it.  The archive that is flushed or closed is dirty
    or already has all pages (see C69).  While an item waits that replaces
    content, only items are added before the next flush. *)
Definition allowed (A : farchive) (V : view) (o : vop) : Prop :=
  match o with
  | VAdd it d _ =>
      let u := item_url it in
      item_ok fuel it d /\ ~ listing (fa_zim A) u /\
      (V u = None \/
       (exists p m d0, V u = Some p /\ pg_body p = Data m d0) /\ (forall x q, V x = Some q -> pg_body q <> Link u) /\ (forall w, In w (queue A) -> full_url (w_entry w) <> u))
  | VLink source target ttl =>
      V source = None /\ ~ listing (fa_zim A) source /\ (V target <> None \/ ttl <> None) /\ ~ listing (fa_zim A) target /\
      source <> target /\ target <> [] /\ (exists b, utf8_encode target = Some b) /\
      (exists c r, source = c :: r /\ (exists x, utf8_encode [c] = Some [x]) /\ storable r) /\ (forall t, ttl = Some t -> storable t) /\
      (fa_main A = None \/ target <> URL_MAINPAGE_REDIRECT)
  | VEdit u l =>
      exists p m d, V u = Some p /\ pg_body p = Data m d /\ ~ listing (fa_zim A) u /\ (forall x q, V x = Some q -> pg_body q <> Link u) /\
        let v := fst (set_fields l u p) in
        (v = u \/ V v = None /\ ~ listing (fa_zim A) v /\ main_url (fa_zim A) <> Some u) /\
        (in_C v = true -> in_C u = true \/ exists b, In (SetArticle b) l) /\
        zlen (ml_types (fa_mimes A)) + zlen l <= 65535
  | VContent u d =>
      exists p m d0, V u = Some p /\ pg_body p = Data m d0 /\ ~ listing (fa_zim A) u /\ zlen d < Z.of_nat fuel /\
        (forall x e e', V x <> None -> get_entry_by_full_url (fa_zim A) u = Ok e -> get_entry_by_full_url (fa_zim A) x = Ok e' -> e_kind e' = e_kind e -> x = u)
  | VRemove u =>
      exists p, V u = Some p /\ ~ listing (fa_zim A) u /\ (forall x q, V x = Some q -> pg_body q = Link u -> x = u) /\
        (pg_article p = true \/ forall x q, V x = Some q -> pg_article q = true -> ultb x u = true)
  | VMain u =>
      fa_main A = None /\ V (NS_C ++ u) <> None /\ (forall x q, V x = Some q -> pg_body q <> Link URL_MAINPAGE_REDIRECT) /\
        (V URL_MAINPAGE_REDIRECT = None \/ (exists e, get_entry_by_full_url (fa_zim A) URL_MAINPAGE_REDIRECT = Ok e) /\ exists p v, V URL_MAINPAGE_REDIRECT = Some p /\ pg_body p = Link v)
  | VFlush => is_dirty A = true \/ (forall u, V u <> None -> ~ listing (fa_zim A) u -> exists e, get_entry_by_full_url (fa_zim A) u = Ok e)
  | VReopen sc sp => (is_dirty A = true \/ (forall u, V u <> None -> ~ listing (fa_zim A) u -> exists e, get_entry_by_full_url (fa_zim A) u = Ok e)) /\
      fresh_strategy sc /\ fresh_strategy sp
  end.
Definition vok (A : farchive) (V : view) (o : vop) : Prop :=
  allowed A V o /\ match o with VAdd _ _ _ | VFlush | VReopen _ _ => True | _ => no_replacement A end.

(** [ops] are performed one after the other, all of them return.  [n] bounds the
    number of items and redirects that are added. *)
Definition counts (n : Z) (A : farchive) : Prop :=
  zlen (pl_ptrs (z_upl (fa_zim A))) + n + 1 < 2 ^ 32 /\ zlen (pl_ptrs (ca_ptrs (fa_arch A))) + n < 2 ^ 32.
Inductive vruns (n : Z) : farchive -> view -> list vop -> farchive -> Prop :=
| vruns_nil A V : within_limits fuel Stream reserve A -> counts n A -> vruns n A V [] A
| vruns_cons A V o A1 ops A' : within_limits fuel Stream reserve A -> counts n A ->
    flush_suffices fuel dc new_decomp new_comp comp flush depth kd Stream md5 feed digest reserve truncate process_blob rounds A ->
    vok A V o -> perform_vop A o = (Ok tt, A1) -> vruns n A1 (vstep V o) ops A' -> vruns n A V (o :: ops) A'.
End Spec.
