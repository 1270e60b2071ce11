(** Model of pyzim/item.py, pyzim/compressionstrategy.py and [Zim.add_item]
    (archive.py 1950-1973).

    Simplifications: the locks (compressionstrategy.py 111, 165, 178, 214, 232,
    251) are not represented, calls do not overlap; type checks are not
    represented; the archive is open and mutable (archive.py 1966-1967). *)
From Coq Require Import List ZArith Bool.
From Verif Require Import Base Utf8 Dict Infobyte Entry MimeTypeList Reader Blob Cluster ClusterWrapper PointerList SpaceAllocator Archive ArchiveCluster.
Import ListNotations.
Open Scope Z_scope.

(** ** Items *)

(** The attributes of an [Item], item.py 26-38. *)
Record item := mkItem { it_ns : ustr; it_url : ustr; it_mime : ustr; it_source : source; it_title : option ustr; it_article : bool }.

(** [b"\x00" in encoded], 101, 130, 185. *)
Definition has_nul (b : bytes) : bool := existsb (fun x => beqb [x] [x00]) b.
(** [namespace = ...], 144-158. *)
Definition check_namespace (v : ustr) : res unit :=
  do b <- encode v ;; if negb (zlen b =? 1) then Err ValueError else Ok tt.
(** [url = ...], 115-132, and [mimetype = ...], 170-187. *)
Definition check_text (v : ustr) : res unit :=
  match v with
  | [] => Err ValueError
  | _ => do b <- encode v ;; if has_nul b then Err ValueError else Ok tt
  end.
(** [title = ...], 87-103. *)
Definition check_title (v : option ustr) : res unit :=
  match v with
  | None => Ok tt
  | Some t => do b <- encode t ;; if has_nul b then Err ValueError else Ok tt
  end.
(** [Item.__init__], 39-72. *)
Definition item_new (ns url mime : ustr) (src : source) (t : option ustr) (article : bool) : res item :=
  do _ <- check_namespace ns ;;
  do _ <- check_text url ;;
  do _ <- check_text mime ;;
  do _ <- check_title t ;;
  Ok (mkItem ns url mime src t article).
(** [title], 74-85. *)
Definition item_title (it : item) : ustr := match it_title it with Some t => t | None => it_url it end.

(** What [zim] is here: the archive and [zim.mimetypelist]. *)
Record sarchive := mkSa { sa_arch : carchive; sa_mimes : mlist }.

(** [to_entry], 235-260; [entry.is_article = ...] is entry.py 416-434.  The
    constructor of the entry sets [_old_full_url] (entry.py 602, 498-504).
    [get_index(..., register=True)] never returns [None] (C18). *)
Definition to_entry (it : item) : M sarchive went := fun s =>
  match mt_get_index (PyStr (it_mime it)) true (sa_mimes s) with
  | Err e => (Err e, s)
  | Ok (None, ml) => (Err AssertionError, mkSa (sa_arch s) ml)   (* entry.py 75 *)
  | Ok (Some i, ml) =>
      let s := mkSa (sa_arch s) ml in
      if it_article it && negb (ueqb (it_ns it) NS_C) then (Err ValueError, s)
      else (Ok (mkWent (mkEntry i (it_ns it) (it_url it) (Some (item_title it)) (Content 0 0)) (it_ns it ++ it_url it) (Some (it_article it))), s)
  end.

(** [entry.cluster_number = n], entry.py 617-634, and [entry.blob_number = n],
    647-664. *)
Definition set_kind (k : ekind) (w : went) : went :=
  let e := w_entry w in mkWent (mkEntry (e_mimetype e) (e_ns e) (e_url e) (e_title e) k) (w_old_url w) (w_force w).
Definition set_cluster_number (n : Z) (w : went) : res went :=
  if n <? 0 then Err ValueError
  else Ok (match e_kind (w_entry w) with Content _ b => set_kind (Content n b) w | Redirect _ => w end).
Definition set_blob_number (n : Z) (w : went) : res went :=
  if n <? 0 then Err ValueError
  else Ok (match e_kind (w_entry w) with Content c _ => set_kind (Content c n) w | Redirect _ => w end).

Section Strategies.
Variable fuel : nat.
Context {K : Type}.
Variable new_comp : ctype -> res K.
Variable comp : K -> bytes -> res (bytes * K).
Variable flush : K -> res bytes.
Variable depth : nat.   (* of the recursion of [write_entry], see Archive.v *)

(** ** [SimpleCompressionStrategy], compressionstrategy.py 75-179 *)
Record strategy := mkStrat { st_comp : ctype; st_max : Z; st_entries : list went; st_cluster : cobj (option Z) }.

(** [_new_cluster], 117-126. *)
Definition strat_cluster (c : ctype) : cobj (option Z) := co_set (force_compression (Some c) (co_wrap new_cluster)) new_cluster.
(** [__init__], 94-112. *)
Definition strat_new (c : ctype) (max : Z) : strategy := mkStrat c max [] (strat_cluster c).
(** [has_items], 114-115. *)
Definition has_items (st : strategy) : bool := match st_entries st with [] => false | _ => true end.

(** The loop of [_finalize_current_cluster], 135-137.  The entry objects are
    those of the list: what is assigned to them stays, also when it fails. *)
Fixpoint write_entries (n : Z) (l : list went) (s : zim) : res unit * (list went * zim) :=
  match l with
  | [] => (Ok tt, ([], s))
  | w :: r =>
      match set_cluster_number n w with
      | Err e => (Err e, (w :: r, s))
      | Ok w =>
          match write_entry (S (S depth)) w s with
          | (Err e, s) => (Err e, (w :: r, s))
          | (Ok _, s) => let '(x, (r, s)) := write_entries n r s in (x, (w :: r, s))
          end
      end
  end.

(** [_finalize_current_cluster], 128-138. *)
Definition finalize : M (sarchive * strategy) unit := fun '(s, st) =>
  match write_cluster fuel new_comp comp flush new_ops None (sa_arch s) (st_cluster st) with
  | (Err e, (a, c)) => (Err e, (mkSa a (sa_mimes s), mkStrat (st_comp st) (st_max st) (st_entries st) c))
  | (Ok n, (a, _)) =>
      let '(x, (l, z)) := write_entries n (st_entries st) (ca_zim a) in
      let s := mkSa (mkCa z (ca_ptrs a) (ca_next a)) (sa_mimes s) in
      match x with
      | Err e => (Err e, (s, mkStrat (st_comp st) (st_max st) l (strat_cluster (st_comp st))))
      | Ok _ => (Ok tt, (s, mkStrat (st_comp st) (st_max st) [] (strat_cluster (st_comp st))))
      end
  end.

(** [_new_cluster_needed], 140-161. *)
Definition new_cluster_needed (it : item) (st : strategy) : res bool * strategy :=
  match st_entries st with
  | [] => (Ok false, st)
  | _ =>
      let '(x, w) := wtotal_decompressed_size inner_empty (co_wrap (st_cluster st)) in
      (do current <- x ;; Ok (st_max st <? current + s_size (it_source it)),
       mkStrat (st_comp st) (st_max st) (st_entries st) (co_set w (st_cluster st)))
  end.

(** [add_item], 163-173. *)
Definition add_item (it : item) : M (sarchive * strategy) unit := fun '(s, st) =>
  match new_cluster_needed it st with
  | (Err e, st) => (Err e, (s, st))
  | (Ok needed, st) =>
      match (if needed then finalize (s, st) else (Ok tt, (s, st))) with
      | (Err e, x) => (Err e, x)
      | (Ok _, (s, st)) =>
          match to_entry it s with
          | (Err e, s) => (Err e, (s, st))
          | (Ok entry, s) =>
              match append_blob inner_empty (it_source it) (co_wrap (st_cluster st)) with
              | (Err e, w) => (Err e, (s, mkStrat (st_comp st) (st_max st) (st_entries st) (co_set w (st_cluster st))))
              | (Ok num, w) =>
                  let c := co_set w (st_cluster st) in
                  match set_blob_number num entry with
                  | Err e => (Err e, (s, mkStrat (st_comp st) (st_max st) (st_entries st) c))
                  | Ok entry => (Ok tt, (s, mkStrat (st_comp st) (st_max st) (st_entries st ++ [entry]) c))
                  end
              end
          end
      end
  end.

(** [flush], 175-179. *)
Definition flush_items : M (sarchive * strategy) unit := fun '(s, st) =>
  if has_items st then finalize (s, st) else (Ok tt, (s, st)).

(** ** [MimetypeBasedCompressionStrategy], 182-253, over simple strategies with
    fixed arguments ([cs_kwargs]) *)
Record mstrategy := mkMstrat { ms_comp : ctype; ms_max : Z; ms_map : list (ustr * strategy) }.
(** [_get_cs], 222-239, and [add_item], 241-247: the strategies of the dict
    with that for [it]. *)
Definition get_cs (m : ustr) (ms : mstrategy) : strategy :=
  match dget ueqb m (ms_map ms) with Some st => st | None => strat_new (ms_comp ms) (ms_max ms) end.
Definition add_item_m (it : item) : M (sarchive * mstrategy) unit := fun '(s, ms) =>
  let '(x, (s, st)) := add_item it (s, get_cs (it_mime it) ms) in
  (x, (s, mkMstrat (ms_comp ms) (ms_max ms) (dset ueqb (it_mime it) st (ms_map ms)))).
(** [flush], 249-253: the loop over [self.mimetype2cs.values()]. *)
Fixpoint flush_all (l : list (ustr * strategy)) (s : sarchive) : res unit * (sarchive * list (ustr * strategy)) :=
  match l with
  | [] => (Ok tt, (s, []))
  | (m, st) :: r =>
      match flush_items (s, st) with
      | (Err e, (s, st)) => (Err e, (s, (m, st) :: r))
      | (Ok _, (s, st)) => let '(x, (s, r)) := flush_all r s in (x, (s, (m, st) :: r))
      end
  end.
Definition flush_items_m : M (sarchive * mstrategy) unit := fun '(s, ms) =>
  let '(x, (s, l)) := flush_all (ms_map ms) s in (x, (s, mkMstrat (ms_comp ms) (ms_max ms) l)).

(** ** The archive: [compression_strategy] and [uncompressed_compression_strategy]
    (archive.py 136-143), each of any of the two classes *)
Inductive anystrat := Simple (st : strategy) | ByMimetype (ms : mstrategy).
Definition any_add (it : item) : M (sarchive * anystrat) unit := fun '(s, x) =>
  match x with
  | Simple st => let '(r, (s, st)) := add_item it (s, st) in (r, (s, Simple st))
  | ByMimetype ms => let '(r, (s, ms)) := add_item_m it (s, ms) in (r, (s, ByMimetype ms))
  end.
Definition any_flush : M (sarchive * anystrat) unit := fun '(s, x) =>
  match x with
  | Simple st => let '(r, (s, st)) := flush_items (s, st) in (r, (s, Simple st))
  | ByMimetype ms => let '(r, (s, ms)) := flush_items_m (s, ms) in (r, (s, ByMimetype ms))
  end.
Record zstate := mkZs { zs_arch : sarchive; zs_comp : anystrat; zs_plain : anystrat }.
(** [Zim.add_item], archive.py 1950-1973. *)
Definition zim_add_item (it : item) (force_uncompressed : bool) (z : zstate) : res unit * zstate :=
  if negb force_uncompressed
  then let '(r, (s, x)) := any_add it (zs_arch z, zs_comp z) in (r, mkZs s x (zs_plain z))
  else let '(r, (s, x)) := any_add it (zs_arch z, zs_plain z) in (r, mkZs s (zs_comp z) x).
(** The part of [Zim.flush] that writes the items, archive.py 555-556. *)
Definition zim_flush_items (z : zstate) : res unit * zstate :=
  match any_flush (zs_arch z, zs_comp z) with
  | (Err e, (s, x)) => (Err e, mkZs s x (zs_plain z))
  | (Ok _, (s, x)) => let '(r, (s', y)) := any_flush (s, zs_plain z) in (r, mkZs s' x y)
  end.
End Strategies.
