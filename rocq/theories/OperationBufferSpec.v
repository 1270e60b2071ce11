(** Specification vocabulary for the buffer of redirects. *)
From Coq Require Import List ZArith Bool.
From Verif Require Import Base Utf8 Entry EntrySpec PointerList SpaceAllocator Archive ArchiveSpec OperationBuffer.
Import ListNotations.
Open Scope Z_scope.

Definition source (r : rop) : ustr := fst (fst r).
Definition target (r : rop) : ustr := snd (fst r).
Definition wanted_title (r : rop) : option ustr := snd r.

(** The archive has an entry at url [u]. *)
Definition exists_at (s : zim) (u : ustr) : Prop := exists e, get_entry_by_full_url s u = Ok e.

(** Following targets through the buffer [l], redirect [r] arrives at an entry of the archive. *)
Inductive resolvable (s : zim) (l : list rop) : rop -> Prop :=
| to_entry : forall r, In r l -> exists_at s (target r) -> resolvable s l r
| to_redirect : forall r r', In r l -> In r' l -> target r = source r' -> resolvable s l r' -> resolvable s l r.

(** The archive has redirect [r]: at its source url, leading to its target url,
    with the wanted title or the one of the target. *)
Definition has_redirect (s : zim) (r : rop) : Prop :=
  exists e, get_entry_by_full_url s (source r) = Ok e /\ is_redirect e = true /\ target_url s e = Some (target r) /\
    match wanted_title r with
    | Some t => e_title e = Some t
    | None => exists d, get_entry_by_full_url s (target r) = Ok d /\ e_title e = Some (title d)
    end.

(** Redirects the file format can represent; what [add_full_url_redirect] accepts. *)
Record sound (r : rop) : Prop := mkSound {
  so_source : exists ns u x, source r = ns :: u /\ utf8_encode [ns] = Some [x] /\ storable u;
  so_target : target r <> [] /\ exists b, utf8_encode (target r) = Some b;
  so_differ : source r <> target r;
  so_title : forall t, wanted_title r = Some t -> storable t }.

(** Redirects that can all be added to an archive with entries [L]: different
    source urls, none of them taken. *)
Record acceptable (L : list entry) (l : list rop) : Prop := mkAcceptable {
  ac_sound : forall r, In r l -> sound r;
  ac_new : forall r, In r l -> absent L (source r);
  ac_distinct : NoDup (map source l);
  ac_count : zlen L + zlen l < 2 ^ 32 }.

(** The first [n] bytes of the file are in use for something other than entries
    (header and mimetype list). *)
Definition reserved (s : zim) (n : Z) : Prop :=
  (forall p, In p (pl_ptrs (z_upl s)) -> n < p) /\ (forall x, 0 <= x <= n -> in_use (z_alloc s) x).

(** [a] and [b] are, in order, the two parts of a list. *)
Inductive parts {A} : list A -> list A -> list A -> Prop :=
| parts_nil : parts [] [] []
| parts_left : forall x l a b, parts l a b -> parts (x :: l) (x :: a) b
| parts_right : forall x l a b, parts l a b -> parts (x :: l) a (x :: b).

(** Every entry of [s], and where it leads, is still seen in [s'] *)
Definition extends (s s' : zim) : Prop := forall u e, get_entry_by_full_url s u = Ok e ->
  exists e', get_entry_by_full_url s' u = Ok e' /\ same_entry e e' /\ target_url s' e' = target_url s e.

(** What the archive and the buffer look like after resolving the redirects [l]. *)
Record resolved (s : zim) (l : list rop) (s' : zim) (l' : list rop) : Prop := mkResolved {
  rs_left : forall r, In r l' <-> In r l /\ ~ resolvable s l r;
  rs_order : exists w, parts l w l';
  rs_written : forall r, resolvable s l r -> has_redirect s' r;
  rs_kept : extends s s';
  rs_only : forall u, exists_at s' u <-> exists_at s u \/ exists r, resolvable s l r /\ u = source r;
  rs_ok : exists L', consistent s' L' }.

(** The outcome of a flush: an exception if something is left in the buffer. *)
Definition verdict (l : list rop) : res unit := match l with [] => Ok tt | _ => Err UnresolvedRedirect end.
