(** What C48 says about items that are added through compression strategies. *)
From Coq Require Import List ZArith Bool.
From Verif Require Import Base Utf8 Infobyte Entry MimeTypeList Reader Blob Cluster ClusterSpec ClusterWrapper ClusterWrapperSpec PointerList Archive ArchiveSpec
  ArchiveCluster ArchiveClusterSpec CompressionStrategy.
Import ListNotations.
Open Scope Z_scope.

(** Items that [Item(...)] constructs, with the data that their blob source
    delivers; articles are in namespace C. *)
Definition item_ok (fuel : nat) (it : item) (d : bytes) : Prop :=
  item_new (it_ns it) (it_url it) (it_mime it) (it_source it) (it_title it) (it_article it) = Ok it /\
  delivers fuel (it_source it) d /\ (it_article it = true -> it_ns it = NS_C).
Definition item_url (it : item) : ustr := it_ns it ++ it_url it.
(** The title under which the item is shown: its url if it has no title. *)
Definition shown_title (it : item) : ustr := match it_title it with Some (c :: t) => c :: t | _ => it_url it end.

(** What a user does: add an item (with its data), flush the strategies. *)
Inductive sop := AddItem (it : item) (d : bytes) (uncompressed : bool) | FlushItems.
Definition added_by (ops : list sop) : list (item * bytes) :=
  concat (map (fun o => match o with AddItem it d _ => [(it, d)] | FlushItems => [] end) ops).
Definition urls_of (l : list (item * bytes)) : list ustr := map (fun x => item_url (fst x)) l.
Definition articles_of (l : list (item * bytes)) : list ustr := urls_of (filter (fun x => it_article (fst x)) l).

(** The strategies of an archive that has just been opened. *)
Definition fresh_strategy (x : anystrat) : Prop :=
  exists c max, x = Simple (strat_new c max) \/ x = ByMimetype (mkMstrat c max []).
Definition limit_of (x : anystrat) : Z := match x with Simple st => st_max st | ByMimetype ms => ms_max ms end.

Section Spec.
Variable fuel : nat.
Context {D : Type}.
Variable dc : decomp D.
Variable new_decomp : ctype -> res D.
Context {K : Type}.
Variable new_comp : ctype -> res K.
Variable comp : K -> bytes -> res (bytes * K).
Variable flush : K -> res bytes.
Variable depth : nat.
Variable kd : ckind.

Definition perform_sop (z : zstate) (o : sop) : res unit * zstate :=
  match o with
  | AddItem it _ u => zim_add_item fuel new_comp comp flush depth it u z
  | FlushItems => zim_flush_items fuel new_comp comp flush depth z
  end.
(** [ops] are performed one after the other, all of them return. *)
Inductive sruns : zstate -> list sop -> zstate -> Prop :=
| sruns_nil z : sruns z [] z
| sruns_cons z o z1 ops z' : perform_sop z o = (Ok tt, z1) -> sruns z1 ops z' -> sruns z (o :: ops) z'.

(** The item can be found and read: its entry, found by its url, has its url,
    title and mimetype, and its cluster and blob number denote its data. *)
Definition readable (s : sarchive) (it : item) (d : bytes) : Prop :=
  exists e c b m, get_entry_by_full_url (ca_zim (sa_arch s)) (item_url it) = Ok e /\
    e_ns e = it_ns it /\ e_url e = it_url it /\ title e = shown_title it /\
    mt_get (e_mimetype e) (ml_types (sa_mimes s)) = Ok m /\ encode (it_mime it) = Ok m /\
    e_kind e = Content c b /\ read_blob_of fuel dc new_decomp kd (sa_arch s) c b = Ok d.

(** [get_cluster_by_index(i).get_total_decompressed_size()], after some blob of
    the cluster has been counted (see C29 about the call on a new object). *)
Definition size_of (a : carchive) (i : Z) : res Z :=
  do c <- get_cluster_by_index fuel dc new_decomp kd a i ;;
  fst ((let* _ := wnumber_of_blobs (inner_cluster dc new_decomp (ca_file a) fuel) in
        wtotal_decompressed_size (inner_cluster dc new_decomp (ca_file a) fuel)) (co_wrap c)).
End Spec.
