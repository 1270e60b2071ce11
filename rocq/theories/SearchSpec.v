(** Specification vocabulary for the title search. *)
From Coq Require Import List ZArith Bool Sorting.Sorted.
From Verif Require Import Base Utf8 Entry PointerList Archive ArchiveSpec Search.
Import ListNotations.
Open Scope Z_scope.

(** Strings that can be encoded and whose last character has a successor that
    can be encoded as well. *)
Definition searchable (term : ustr) : Prop :=
  (exists b, utf8_encode term = Some b) /\ last term 0 <> 55295 /\ last term 0 <> 1114111.

(** The entries among [es] whose title starts with [term] (for articles), and
    whose namespace followed by the title does (for all entries). *)
Definition titled (term : ustr) (es : list entry) : list entry := filter (fun e => uprefix term (title e)) es.
Definition nstitled (term : ustr) (es : list entry) : list entry := filter (fun e => uprefix term (e_ns e ++ title e)) es.

(** A search result describes entry [e], with number [k]. *)
Definition describes (term : ustr) (k : Z) (e : entry) (r : result) : Prop :=
  r = mkResult k (zlen term, zlen (title e)) (full_url e) (title e).

(** Results for the entries [es], numbered from [k] on. *)
Fixpoint numbered (term : ustr) (k : Z) (es : list entry) (rs : list result) : Prop :=
  match es, rs with
  | [], [] => True
  | e :: es', r :: rs' => describes term k e r /\ numbered term (k + 1) es' rs'
  | _, _ => False
  end.

(** Results for the entries [es], whatever their numbers. *)
Definition listed (term : ustr) (es : list entry) (rs : list result) : Prop :=
  Forall2 (fun e r => exists k, describes term k e r) es rs.

(** The part of [l] from the [start]-th element (counted from 1), at most [n] elements. *)
Definition portion {A} (start n : Z) (l : list A) : list A := firstn (Z.to_nat n) (skipn (Z.to_nat (start - 1)) l).
