(** What a processor can know: a picture of the archive kept up to date from
    nothing but the notices. *)
From Coq Require Import List ZArith Bool.
From Verif Require Import Base Utf8 Entry PointerList Cluster Archive ArchiveSpec Processors.
Import ListNotations.
Open Scope Z_scope.

(** Urls and the entries behind them. *)
Definition picture := ustr -> option entry.
(** What looking up [u] in the archive gives. *)
Definition looked_up (s : zim) : picture := fun u => match get_entry_by_full_url s u with Ok e => Some e | Err _ => None end.

(** A notice changes the picture: a written entry replaces its old version,
    which may have been at another url; a removed entry is gone. *)
Definition hear (m : picture) (n : notice) : picture := fun u =>
  match n with
  | Wrote e old _ =>
      if ueqb u (full_url e) then Some e
      else match old with Some o => if ueqb u (full_url o) then None else m u | None => m u end
  | Removed url _ _ => if ueqb u url then None else m u
  end.
Definition hear_all (m : picture) (l : list notice) : picture := fold_left hear l m.

(** A notice is true of the picture before it: an entry is called new iff there
    is no old one, the old entry is what was there, nothing else is
    overwritten, and the removed entry is what was there. *)
Definition true_notice (m : picture) (n : notice) : Prop :=
  match n with
  | Wrote e None b => b = true /\ m (full_url e) = None
  | Wrote e (Some o) b => b = false /\ m (full_url o) = Some o /\ (full_url e = full_url o \/ m (full_url e) = None)
  | Removed u e _ => full_url e = u /\ m u = Some e
  end.
Fixpoint all_true (m : picture) (l : list notice) : Prop :=
  match l with [] => True | n :: r => true_notice m n /\ all_true (hear m n) r end.

(** Histories. *)
Inductive change := Write (w : went) | Remove (u : ustr).
(** The writes and removals for which the archive stays in order (C37, C39, C42). *)
Definition allowed (s : zim) (L : list entry) (c : change) : Prop :=
  match c with
  | Write w => addable L w \/ exists i e0, rewritable s L i e0 w /\ (stays e0 (w_entry w) \/ movable s L i e0 (w_entry w))
  | Remove u => (exists i e0, removable s L i e0 /\ u = full_url e0) \/ (severable s u /\ roomy s L)
  end.
Definition do_change (n : nat) (c : change) : M watched unit :=
  match c with Write w => write_entry_t n w | Remove u => remove_entry_t keep_blob n u end.
(** The notice of the change itself, which comes after those of the redirects it
    had to renumber. *)
Definition announces (c : change) (n : notice) : Prop :=
  match c, n with
  | Write w, Wrote e _ _ => full_url e = full_url (w_entry w)
  | Remove u, Removed v _ _ => v = u
  | _, _ => False
  end.
(** Any number of changes, each of which returns. *)
Inductive history (n : nat) : watched -> watched -> Prop :=
  | Start : forall x, history n x x
  | Next : forall x s l c y L, history n x (s, l) -> consistent s L -> allowed s L c -> do_change n c (s, l) = (Ok tt, y) -> history n x y.
