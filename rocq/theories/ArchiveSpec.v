(** Specification vocabulary for the entry layer of an archive: what a
    consistent archive is, what its redirects, main page and title lists denote,
    and which bytes of the file are in use. *)
From Coq Require Import List ZArith Bool Sorting.Sorted Sorting.Permutation.
From Verif Require Import Base Utf8 Entry EntrySpec PointerList SpaceAllocator SpaceAllocatorSpec Archive.
Import ListNotations.
Open Scope Z_scope.

(** The file contains entry [e] at [loc]. *)
Definition stored (f : bytes) (loc : Z) (e : entry) : Prop :=
  0 <= loc /\ entry_storable e /\ kind_consistent e /\
  exists b, entry_to_bytes e = Ok b /\ fread f loc (zlen b) = b.

(** Number of bytes of an entry, and the bytes it occupies. *)
Definition span (e : entry) : Z := match entry_to_bytes e with Ok b => zlen b | Err _ => 0 end.
Definition occupies (c : Z * entry) (x : Z) : Prop := fst c <= x < fst c + span (snd c).
Definition apart (c d : Z * entry) : Prop := forall x, ~ (occupies c x /\ occupies d x).

(** The allocator considers byte [x] of the file to be in use. *)
Definition in_use (a : allocator) (x : Z) : Prop := 0 <= x < file_end a /\ ~ listed_free a x.

(** Order by url, by title and by namespace and title. *)
Definition url_lt (a b : entry) : Prop := ultb (full_url a) (full_url b) = true.
Definition title_le (a b : entry) : Prop := ultb (title b) (title a) = false.
Definition nstitle_le (a b : entry) : Prop := ultb (e_ns b ++ title b) (e_ns a ++ title a) = false.

(** [t] lists entries of [L] by index, without repetition, in the order [le]. *)
Definition lists (le : entry -> entry -> Prop) (L : list entry) (t : list Z) : Prop :=
  NoDup t /\ exists es, Forall2 (fun i e => znth L i = Some e) t es /\ StronglySorted le es.

(** The archive holds exactly the entries [cells] (with their locations),
    ordered by url, in disjoint used space; the title lists refer to them. *)
Record core (s : zim) (cells : list (Z * entry)) : Prop := mkCore {
  co_locs : pl_ptrs (z_upl s) = map fst cells;
  co_stored : Forall (fun c => stored (z_file s) (fst c) (snd c)) cells;
  co_used : Forall (fun c => forall x, occupies c x -> in_use (z_alloc s) x) cells;
  co_apart : StronglySorted apart cells;
  co_canonical : canonical (z_alloc s);
  co_end : 0 <= file_end (z_alloc s);
  co_sorted : StronglySorted url_lt (map snd cells);
  co_atpl : lists title_le (map snd cells) (pl_ptrs (z_atpl s));
  co_articles : forall i e, In i (pl_ptrs (z_atpl s)) -> znth (map snd cells) i = Some e -> e_ns e = NS_C;
  co_etpl : forall t, z_etpl s = Some t -> lists nstitle_le (map snd cells) (pl_ptrs t);
  co_mut_u : pl_mutable (z_upl s) = true;
  co_mut_a : pl_mutable (z_atpl s) = true;
  co_mut_e : forall t, z_etpl s = Some t -> pl_mutable t = true }.

(** A consistent archive with entries [L] (in url order): moreover the entry
    title list is complete, every redirect has a target, and so has the main page. *)
Definition targets_exist (L : list entry) : Prop :=
  forall e r, In e L -> e_kind e = Redirect r -> 0 <= r < zlen L.

Definition etitles_complete (s : zim) (n : Z) : Prop :=
  forall t, z_etpl s = Some t -> forall i, 0 <= i < n -> In i (pl_ptrs t).

Record consistent (s : zim) (L : list entry) : Prop := mkConsistent {
  cs_core : exists cells, map snd cells = L /\ core s cells;
  cs_complete : etitles_complete s (zlen L);
  cs_targets : targets_exist L;
  cs_main : forall m, z_main s = Some m -> 0 <= m < zlen L;
  cs_count : zlen L < 2 ^ 32 }.

(** ** What a user observes *)

(** The url of the target of redirect [e]. *)
Definition target_url (s : zim) (e : entry) : option ustr :=
  match e_kind e with
  | Redirect i => match get_entry_by_url_index s i with Ok t => Some (full_url t) | Err _ => None end
  | Content _ _ => None
  end.

(** The same entry, up to the numbering of redirect targets. *)
Definition same_entry (a b : entry) : Prop :=
  e_mimetype a = e_mimetype b /\ e_ns a = e_ns b /\ e_url a = e_url b /\ e_title a = e_title b /\
  match e_kind a, e_kind b with
  | Content c n, Content c' n' => c = c' /\ n = n'
  | Redirect _, Redirect _ => True
  | _, _ => False
  end.

(** Url of the main page. *)
Definition main_url (s : zim) : option ustr :=
  match get_mainpage_entry s with Ok e => Some (full_url e) | Err _ => None end.

(** The urls listed by the article list, in its order, and by the entry title list. *)
Definition article_urls (s : zim) : option (list ustr) :=
  match iter_articles s None None with Ok l => Some (map full_url l) | Err _ => None end.
Definition titled_urls (s : zim) (t : list Z) (us : list ustr) : Prop :=
  Forall2 (fun i u => exists e, get_entry_by_url_index s i = Ok e /\ full_url e = u) t us.

(** The redirect at url [u] leads to url [v]. *)
Definition points (s : zim) (u v : ustr) : Prop :=
  exists e, get_entry_by_full_url s u = Ok e /\ target_url s e = Some v.

(** The entry title list of [s], if it has one, names the entries [es] in its order. *)
Definition entry_titles (s : zim) (es : list entry) : Prop :=
  exists t, z_etpl s = Some t /\ Forall2 (fun i e => get_entry_by_url_index s i = Ok e) (pl_ptrs t) es.

(** Entry objects that can be added to an archive with entries [L]: they are
    representable, their url (now, and when the object was made) is not taken,
    a redirect leads to an existing entry, and only content of namespace C can
    be an article. *)
Definition absent (L : list entry) (u : ustr) : Prop := forall e, In e L -> full_url e <> u.
Record addable (L : list entry) (w : went) : Prop := mkAddable {
  ad_storable : entry_storable (w_entry w);
  ad_kind : kind_consistent (w_entry w);
  ad_url : absent L (full_url (w_entry w));
  ad_old : absent L (w_old_url w);
  ad_enc : exists b, utf8_encode (w_old_url w) = Some b;
  ad_target : forall r, e_kind (w_entry w) = Redirect r -> 0 <= r < zlen L;
  ad_article : w_force w = Some true -> e_ns (w_entry w) = NS_C;
  ad_ns : w_force w = None -> e_ns (w_entry w) = NS_C -> in_C (w_old_url w) = true;
  ad_count : zlen L + 1 < 2 ^ 32 }.

(** The entries lie behind the first [zlen L + 1] bytes of the file: true of every
    archive whose entries are fewer than the bytes of its header and mimetype list. *)
Definition roomy (s : zim) (L : list entry) : Prop := forall p, In p (pl_ptrs (z_upl s)) -> zlen L < p.

(** Bytes of the file holding neither the entry at url [u] nor any redirect. *)
Definition outside (s : zim) (u : ustr) (x : Z) : Prop :=
  forall p e, In p (pl_ptrs (z_upl s)) -> get_entry_at s p = Ok e ->
    full_url e = u \/ is_redirect e = true -> ~ occupies (p, e) x.

(** [e] sorts strictly between urls [u] and [v]. *)
Definition between (u v : ustr) (e : entry) : Prop :=
  (ultb u (full_url e) = true /\ ultb (full_url e) v = true) \/ (ultb v (full_url e) = true /\ ultb (full_url e) u = true).

(** Entry objects that can replace the entry [e0] number [i] of an archive with
    entries [L]. *)
Record rewritable (s : zim) (L : list entry) (i : Z) (e0 : entry) (w : went) : Prop := mkRewritable {
  rw_at : znth L i = Some e0;
  rw_old : w_old_url w = full_url e0;
  rw_storable : entry_storable (w_entry w);
  rw_kind : kind_consistent (w_entry w);
  rw_url : full_url (w_entry w) = full_url e0 \/ absent L (full_url (w_entry w));
  rw_target : forall r, e_kind (w_entry w) = Redirect r -> 0 <= r < zlen L;
  rw_article : exists a, is_article s w = Ok a /\ (a = true -> e_ns (w_entry w) = NS_C) }.

(** Same url and same number of bytes: the entry is rewritten in place. *)
Definition stays (e0 e : entry) : Prop := full_url e = full_url e0 /\ span e = span e0.

(** The cases of an edit that relocates the entry in which redirects survive:
    the entry does not redirect to itself nor to a later entry, and if there are
    redirects to it, it is not the first entry and its new url is on the other
    side of some other entry.  If it is the main page, its url does not change. *)
Record movable (s : zim) (L : list entry) (i : Z) (e0 e : entry) : Prop := mkMovable {
  mv_self : e_kind e0 <> Redirect i;
  mv_own : forall r, e_kind e = Redirect r -> r < i;
  mv_in : forall d, In d L -> d <> e0 -> e_kind d = Redirect i -> 0 < i /\ exists x, In x L /\ between (full_url e0) (full_url e) x;
  mv_main : z_main s = Some i -> full_url e = full_url e0 }.

(** Entries that can be removed without redirects, and without confusing the
    article list: nothing redirects to the entry, and the entry is an article
    or no article follows it. *)
Record removable (s : zim) (L : list entry) (i : Z) (e0 : entry) : Prop := mkRemovable {
  rm_at : znth L i = Some e0;
  rm_in : forall d, In d L -> d <> e0 -> e_kind d <> Redirect i;
  rm_article : In i (pl_ptrs (z_atpl s)) \/ forall j, In j (pl_ptrs (z_atpl s)) -> j < i }.

(** Urls after a rename. *)
Definition renamed (old new u : ustr) : ustr := if ueqb u old then new else u.

(** Following redirects from url [x] one arrives at [u]. *)
Inductive leads (s : zim) (u : ustr) : ustr -> Prop :=
  | leads_one : forall x, points s x u -> leads s u x
  | leads_more : forall x y, points s x y -> leads s u y -> leads s u x.

(** Removing the entry at [u] shall remove [u] and what leads there. *)
Definition doomed (s : zim) (u x : ustr) : Prop := x = u \/ leads s u x.

(** Entries whose removal takes the redirects to them along: no redirect leads
    to one of these redirects; the entry is not the first one if there are any;
    none of them is directly in front of the entry, unless it is the only one;
    each of these entries is an article or no article follows it. *)
Record severable (s : zim) (u : ustr) : Prop := mkSeverable {
  sv_found : exists e, get_entry_by_full_url s u = Ok e;
  sv_direct : forall x y, points s y u -> y <> u -> x <> y -> ~ points s x y;
  sv_first : forall y, points s y u -> y <> u -> exists v e, get_entry_by_full_url s v = Ok e /\ ultb v u = true;
  sv_alone : forall y, points s y u -> y <> u -> ultb u y = true \/
    (exists v e, get_entry_by_full_url s v = Ok e /\ ultb y v = true /\ ultb v u = true) \/ (forall z, points s z u -> z = u \/ z = y);
  sv_articles : forall us x, article_urls s = Some us -> doomed s u x -> In x us \/ forall y, In y us -> ultb y x = true }.
