(** Specification vocabulary for what a write or a removal may touch, whatever
    it returns or raises. *)
From Coq Require Import List ZArith Bool Sorting.Sorted.
From Verif Require Import Base Utf8 Entry EntrySpec PointerList SpaceAllocator SpaceAllocatorSpec Cluster Archive ArchiveSpec.
Import ListNotations.
Open Scope Z_scope.

(** The layout of the entries is sound: every pointer of the url list leads to
    an entry that is stored whole, in space the allocator considers in use; no
    two entries share a byte; the urls are strictly increasing.  Nothing is said
    about titles, redirect targets or the main page. *)
Definition sound (s : zim) : Prop := exists cells : list (Z * entry),
  pl_ptrs (z_upl s) = map fst cells /\
  Forall (fun c => stored (z_file s) (fst c) (snd c)) cells /\
  Forall (fun c => forall x, occupies c x -> in_use (z_alloc s) x) cells /\
  StronglySorted apart cells /\ StronglySorted url_lt (map snd cells) /\
  canonical (z_alloc s) /\ 0 <= file_end (z_alloc s) /\
  pl_mutable (z_upl s) = true /\ pl_mutable (z_atpl s) = true /\ (forall t, z_etpl s = Some t -> pl_mutable t = true).

(** The url of entry object [w] is not that of another entry. *)
Definition url_free (s : zim) (w : went) : Prop := forall p e, In p (pl_ptrs (z_upl s)) -> get_entry_at s p = Ok e ->
  full_url e = full_url (w_entry w) -> full_url e = w_old_url w.

(** An entry object that can be saved: it can be represented in the file, and its url is not taken. *)
Record savable (s : zim) (w : went) : Prop := mkSavable {
  sv_storable : entry_storable (w_entry w);
  sv_kind : kind_consistent (w_entry w);
  sv_url : url_free s w }.

(** The bytes of the set [P] stay in use and keep their values. *)
Definition preserves (P : Z -> Prop) (s s' : zim) : Prop := forall x, P x -> in_use (z_alloc s) x ->
  in_use (z_alloc s') x /\ forall b, nth_error (z_file s) (Z.to_nat x) = Some b -> nth_error (z_file s') (Z.to_nat x) = Some b.

(** Bytes that belong to no entry. *)
Definition no_entry (s : zim) (x : Z) : Prop :=
  forall p e, In p (pl_ptrs (z_upl s)) -> get_entry_at s p = Ok e -> ~ occupies (p, e) x.

(** Entry [e] is listed, at location [p]; it is still there up to the numbering of
    redirect targets. *)
Definition at_place (s : zim) (p : Z) (e : entry) : Prop := In p (pl_ptrs (z_upl s)) /\ get_entry_at s p = Ok e.
Definition survives (s : zim) (p : Z) (e : entry) : Prop := exists e', at_place s p e' /\ same_entry e e'.

(** Calls, with whatever outcome: [calls s s'] if a sequence of writes of savable
    entries and of removals leads from [s] to [s']. *)
Inductive call : Type := Save (w : went) | Delete (u : ustr).
Definition permitted (s : zim) (c : call) : Prop := match c with Save w => savable s w | Delete _ => True end.
Definition perform (n : nat) (c : call) : M zim unit := match c with Save w => write_entry n w | Delete u => remove_entry keep_blob n u end.
Inductive calls (n : nat) : zim -> list call -> zim -> Prop :=
| calls_nil : forall s, calls n s [] s
| calls_cons : forall s c r s1 cs s', permitted s c -> perform n c s = (r, s1) -> calls n s1 cs s' -> calls n s (c :: cs) s'.
(** The same without any condition on what is written. *)
Inductive all_calls (n : nat) : zim -> list call -> zim -> Prop :=
| all_nil : forall s, all_calls n s [] s
| all_cons : forall s c r s1 cs s', perform n c s = (r, s1) -> all_calls n s1 cs s' -> all_calls n s (c :: cs) s'.
(** Url [u] is that of an entry written or removed by one of the calls. *)
Definition named (cs : list call) (u : ustr) : Prop := exists c, In c cs /\ match c with Save w => w_old_url w | Delete v => v end = u.
