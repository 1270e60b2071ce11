(** Specification vocabulary for iterating cluster by cluster. *)
From Coq Require Import List ZArith Bool Sorting.Sorted Sorting.Permutation.
From Verif Require Import Base Utf8 Entry.
Import ListNotations.
Open Scope Z_scope.

(** Entry [e] is a content entry whose blob is in cluster [c]. *)
Definition in_cluster (c : Z) (e : entry) : bool := match e_kind e with Content c' _ => c' =? c | Redirect _ => false end.
Definition blob_number (e : entry) : Z := match e_kind e with Content _ b => b | Redirect _ => -1 end.
Definition in_blob_order (a b : entry) : Prop := blob_number a <= blob_number b.

(** [g] consists of the urls of the entries of [L] in cluster [c], ordered by blob number. *)
Definition group_of (L : list entry) (c : Z) (g : list ustr) : Prop :=
  exists es, Permutation es (filter (in_cluster c) L) /\ StronglySorted in_blob_order es /\ g = map full_url es.

(** The clusters used by the entries [L], in order. *)
Definition clusters_used (L : list entry) (cs : list Z) : Prop :=
  StronglySorted Z.lt cs /\ forall c, In c cs <-> exists e, In e L /\ in_cluster c e = true.
