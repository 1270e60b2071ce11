(** What C84 says about threads that look up entries and clusters. *)
From Coq Require Import List ZArith Bool Sorting.Sorted.
From Verif Require Import Base Utf8 Entry PointerList PointerListSpec EntryCache Threads ThreadsSpec ThreadsCache.
Import ListNotations.
Open Scope Z_scope.

(** The archive in the file [f] from [base] on: its entries with their
    locations, in the order of the URL pointer list, and the locations of its
    clusters. *)
Definition list_is (f : bytes) (p : ptrlist) (l : list Z) : Prop :=
  match p with
  | InMemory l' => l' = l
  | OnDisk o => od_file o = f /\ backed_by 8 o l
  end.
Record archive_is (f : bytes) (base : Z) (urls clusters : ptrlist) (es : list (Z * entry)) (cs : list Z) : Prop := mkArchive {
  ai_base : 0 <= base;
  ai_urls : list_is f urls (map fst es);
  ai_entries : Forall (fun le => 0 <= fst le /\ entry_at f (base + fst le) = Ok (snd le)) es;
  ai_sorted : exists ks, Forall2 (fun le k => encode (full_url (snd le)) = Ok k) es ks /\ StronglySorted ble ks;
  ai_clusters : list_is f clusters cs;
  ai_offsets : Forall (fun l => 0 <= l) cs
}.

Section Spec.
Variables (base : Z) (es : list (Z * entry)) (cs : list Z).
(** The answer to a look-up. *)
Definition right (q : look) (a : seen) : Prop :=
  match q with
  | EntryAt l => exists e, a = SEntry e /\ In (l, e) es
  | EntryByIndex i => a = match znth es i with Some le => SEntry (snd le) | None => SRaise EntryNotFound end
  | EntryByUrl u =>
      (exists l e, a = SEntry e /\ In (l, e) es /\ full_url e = u) \/
      (a = SRaise EntryNotFound /\ forall l e, In (l, e) es -> full_url e <> u)
  | HasUrl u => exists b, a = SBool b /\ (b = true <-> exists l e, In (l, e) es /\ full_url e = u)
  | ClusterAt l => a = SCluster (base + l)
  | ClusterByIndex i =>
      a = if i <? 0 then SRaise AssertionError
          else match znth cs i with Some l => SCluster (base + l) | None => SRaise IndexError end
  end.
(** What a look-up may answer instead, although it is not so: the KeyError of a
    cache, taken for one of the search where a URL is looked for. *)
Definition missed (q : look) (a : seen) : Prop :=
  match q with
  | EntryByUrl _ => a = SRaise EntryNotFound \/ a = SRaise KeyError
  | HasUrl _ => a = SBool false
  | _ => a = SRaise KeyError
  end.
(** Locations are those of the archive, texts can be encoded. *)
Definition sensible (q : look) : Prop :=
  match q with
  | EntryAt l => In l (map fst es)
  | EntryByUrl u | HasUrl u => exists k, encode u = Ok k
  | ClusterAt l => 0 <= l
  | _ => True
  end.
(** The clusters that are asked for. *)
Definition asked (qs : list look) : list Z :=
  flat_map (fun q => match q with
    | ClusterAt l => [l]
    | ClusterByIndex i => match znth cs i with Some l => [l] | None => [] end
    | _ => [] end) qs.
End Spec.

(** The size given to a cache; [HybridCache] uses the first one twice
    (cache.py 664-665). *)
Definition size_of (cl : cache_class) : option Z :=
  match cl with NoOpCache => None | LastAccessCache n | TopAccessCache n | HybridCache n _ => Some n end.
Definition room_for (cl : cache_class) (locs : list Z) : Prop :=
  match size_of cl with None => True | Some n => zlen (nodup Z.eq_dec locs) <= n end.
Definition positive_size (cl : cache_class) : Prop := match size_of cl with None => True | Some n => 0 < n end.

(** Threads that run [scripts], in any order of steps: a thread that has come
    to its end has the right answers, the threads do not get stuck, and they do
    not run for ever. *)
Definition answered (f : bytes) (base : Z) (urls clusters : ptrlist) (ecl ccl : cache_class) (es : list (Z * entry)) (cs : list Z)
    (pos : Z) (blink : nat -> bool) (scripts : list (list look)) : Prop :=
  forall sched, let c := tsched sched (lstart f base urls clusters ecl ccl pos blink scripts) in
    (forall i qs r, nth_error scripts i = Some qs -> nth_error (cf_threads c) i = Some (Ret r) ->
       exists l, r = Ok l /\ Forall2 (right base es cs) qs l) /\
    (finished c \/ can_go_on c) /\
    ~ endless c.
(** The same, with answers that may be missed. *)
Definition answered_or_missed (f : bytes) (base : Z) (urls clusters : ptrlist) (ecl ccl : cache_class) (es : list (Z * entry)) (cs : list Z)
    (pos : Z) (blink : nat -> bool) (scripts : list (list look)) : Prop :=
  forall sched, let c := tsched sched (lstart f base urls clusters ecl ccl pos blink scripts) in
    (forall i qs r, nth_error scripts i = Some qs -> nth_error (cf_threads c) i = Some (Ret r) ->
       exists l, r = Ok l /\ Forall2 (fun q a => right base es cs q a \/ missed q a) qs l) /\
    (finished c \/ can_go_on c) /\
    ~ endless c.
