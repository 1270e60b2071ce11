(** C79, C80: the entry cache of the policy. *)
From Coq Require Import List ZArith Bool Lia.
From Verif Require Import Base Utf8 Entry PointerList SpaceAllocator Cluster Archive Cache EntryCache EntryCacheProofs EntryCacheClass EntryCacheSpec EntryCacheReadProofs EntryCacheNoOpProofs.
Import ListNotations.
Open Scope Z_scope.

(** ** C79: looking entries up through a cache *)

(** Whatever cache class the policy selects (all four of cache.py, with sizes
    of at least 1), whether the archive is writable, whether it writes evicted
    entries: a sequence of look-ups gives, call for call, what reading the file
    each time gives, including the exceptions. *)
Theorem C79_cache_is_transparent : forall cl, sizes_positive cl -> forall writable autoflush depth s ls,
  session writable autoflush depth ls (opened cl s) = map (look s) ls.
Proof. intros cl H wr af d s ls. exact (session_same wr af d ls (opened cl s) (opened_clean cl s H)). Qed.
Print Assumptions C79_cache_is_transparent.

(** Two policies are therefore indistinguishable. *)
Corollary C79_any_two_caches : forall cl1 cl2, sizes_positive cl1 -> sizes_positive cl2 -> forall wr1 wr2 af1 af2 d1 d2 s ls,
  session wr1 af1 d1 ls (opened cl1 s) = session wr2 af2 d2 ls (opened cl2 s).
Proof. intros. rewrite !C79_cache_is_transparent by assumption. reflexivity. Qed.

(** ** C80: changing entries through a cache *)

(** What a history of changes does depends neither on the class of the cache
    nor on its size. *)
Definition C80_full_statement : Prop :=
  forall cl, sizes_positive cl -> forall autoflush depth start es s cs,
  add_all depth es (empty_archive start) = (Ok tt, s) ->
  fst (outcome_of autoflush depth NoOpCache s cs) = Ok tt ->
  outcome_of autoflush depth cl s cs = outcome_of autoflush depth NoOpCache s cs.

(** Three articles, Ca, Cb and Cc. *)
Definition article (u : Z) : entry := mkEntry 0 [67] [u] (Some [u]) (Content 0 0).
Definition three : list entry := [article 97; article 98; article 99].
Definition s_three : zim := snd (add_all 5 three (empty_archive 100)).
Definition seen_urls (r : res unit * res seen) : res unit * list ustr :=
  (fst r, match snd r with Ok (SEntries l) => map full_url l | _ => [] end).
(** [entry = zim.get_entry_by_full_url("Cb"); entry.url = "d"; entry.flush()] *)
Definition renaming : list change := [Take [67; 98]; Rename 0 [100]; Save 0].
(** The entry is changed and then removed. *)
Definition deleting : list change := [Take [67; 98]; Retitle 0 [120]; Delete [67; 98]].
(** An entry that was not saved is in the way of a look-up of another one. *)
Definition looking : list change := [Take [67; 98]; Rename 0 [122]; Take [67; 99]].

(** Without a cache the entry is found under its new url only.  With any of
    the caches it stays under its old url too, and the list of urls is not
    sorted any more. *)
Example C80_example_rename_without : seen_urls (outcome_of true 5 NoOpCache s_three renaming) = (Ok tt, [[67; 97]; [67; 99]; [67; 100]]).
Proof. vm_compute. reflexivity. Qed.
Example C80_example_rename_last : seen_urls (outcome_of true 5 (LastAccessCache 2) s_three renaming) = (Ok tt, [[67; 97]; [67; 100]; [67; 98]; [67; 99]]).
Proof. vm_compute. reflexivity. Qed.
Example C80_example_rename_top : seen_urls (outcome_of true 5 (TopAccessCache 4) s_three renaming) = (Ok tt, [[67; 97]; [67; 100]; [67; 98]; [67; 99]]).
Proof. vm_compute. reflexivity. Qed.
Example C80_example_rename_hybrid : seen_urls (outcome_of true 5 (HybridCache 4 4) s_three renaming) = (Ok tt, [[67; 97]; [67; 100]; [67; 98]; [67; 99]]).
Proof. vm_compute. reflexivity. Qed.
Example C80_example_delete_without : seen_urls (outcome_of true 5 NoOpCache s_three deleting) = (Ok tt, [[67; 97]; [67; 99]]).
Proof. vm_compute. reflexivity. Qed.
Example C80_example_delete_last : seen_urls (outcome_of true 5 (LastAccessCache 2) s_three deleting) = (Err EntryNotFound, [[67; 97]; [67; 98]; [67; 99]]).
Proof. vm_compute. reflexivity. Qed.
Example C80_example_look_without : fst (outcome_of true 5 NoOpCache s_three looking) = Ok tt.
Proof. vm_compute. reflexivity. Qed.
Example C80_example_look_last : fst (outcome_of true 5 (LastAccessCache 2) s_three looking) = Err EntryNotFound.
Proof. vm_compute. reflexivity. Qed.

Theorem C80_refuted : ~ C80_full_statement.
Proof.
  intro H. specialize (H (LastAccessCache 2) ltac:(cbn; lia) true 5%nat 100%nat three s_three renaming).
  assert (E : seen_urls (outcome_of true 5 (LastAccessCache 2) s_three renaming) <> seen_urls (outcome_of true 5 NoOpCache s_three renaming)) by (rewrite C80_example_rename_last, C80_example_rename_without; discriminate).
  apply E. f_equal. apply H; vm_compute; reflexivity.
Qed.
Print Assumptions C80_refuted.

(** Without a cache (the default policy), [entry.flush()] on any object, in any
    state of the archive, does to the archive exactly what Archive.v's
    [write_entry] does with the attributes of that object, and changes no other
    object: all that is proved about [write_entry] holds for objects that are
    edited and flushed, in any order. *)
Theorem C80_save_without_cache_partial : forall writable autoflush fuel w r o,
  cs_cache _ w = ENone -> nth_error (cs_objs _ w) r = Some o -> co_dirty o = true ->
  let (x, w') := cflush_entry ecache estep writable autoflush fuel r w in
  (x, cs_zim _ w') = write_entry fuel (obj_went o) (cs_zim _ w) /\ cs_cache _ w' = ENone /\
  forall r' o', r' <> r -> nth_error (cs_objs _ w) r' = Some o' -> nth_error (cs_objs _ w') r' = Some o'.
Proof.
  intros wr af fuel w r o HC Ho Hd. unfold cflush_entry, mbind, obj. rewrite Ho, Hd.
  pose proof (s_write_rec wr af fuel r o true true w HC Ho) as H. unfold cwrite_entry, write_entry.
  destruct (write_entry_rec fuel (obj_went o) true true (cs_zim _ w)) as [r0 s]. destruct (cwrite_rec _ _ _ _ fuel r true true w) as [x w'].
  destruct H as (Z & I1 & K & M). split; [|split; [exact I1|]].
  - rewrite Z. f_equal. destruct r0 as [[]|], x as [[]|]; try contradiction; congruence.
  - intros r' o' N H'. apply K; [congruence|exact H'].
Qed.
Print Assumptions C80_save_without_cache_partial.

(** The same for removal, which changes no object at all. *)
Theorem C80_remove_without_cache_partial : forall writable autoflush fuel w url,
  cs_cache _ w = ENone ->
  let (x, w') := cremove_entry ecache estep writable autoflush fuel url w in
  (x, cs_zim _ w') = remove_entry keep_blob fuel url (cs_zim _ w) /\ cs_cache _ w' = ENone /\
  forall r o, nth_error (cs_objs _ w) r = Some o -> nth_error (cs_objs _ w') r = Some o.
Proof.
  intros wr af fuel w url HC. pose proof (s_remove wr af fuel url w HC Logic.I) as H.
  destruct (remove_entry keep_blob fuel url (cs_zim _ w)) as [r0 s]. destruct (cremove_entry _ _ _ _ fuel url w) as [x w'].
  destruct H as (Z & I1 & K & M). split; [|split; [exact I1|]].
  - rewrite Z. f_equal. destruct r0, x; try contradiction; unfold same in M; congruence.
  - intros r o H'. apply K; [discriminate|exact H'].
Qed.
Print Assumptions C80_remove_without_cache_partial.

(** ** Examples *)

(** A session on an archive with three articles: look-ups that succeed and
    look-ups that fail, through a cache of two entries. *)
Definition lookups : list lookup :=
  [ByFullUrl [67; 98]; HasUrl [67; 100]; ByFullUrl [67; 100]; Entries None None; IsArticle [67; 99]; MainPage; Resolved 3 [67; 97]; MetadataKeys; ByIndex 2; Articles (Some 1) None].
Example C79_example : session false true 5 lookups (opened (LastAccessCache 2) s_three) =
  [Ok (SEntry (article 98)); Ok (SBool false); Err EntryNotFound; Ok (SEntries three); Ok (SBool true); Err EntryNotFound; Ok (SEntry (article 97)); Ok (SUrls []);
   Ok (SEntry (article 99)); Ok (SEntries [article 98; article 99])].
Proof. vm_compute. reflexivity. Qed.
Example C79_example_hypothesis : sizes_positive (LastAccessCache 2) /\ sizes_positive (TopAccessCache 1) /\ sizes_positive (HybridCache 64 64) /\ sizes_positive NoOpCache.
Proof. repeat split; try reflexivity; cbn; lia. Qed.
(** A cache of size 0 makes every look-up fail. *)
Example C79_example_size_0 : session false true 5 [ByFullUrl [67; 98]] (opened (LastAccessCache 0) s_three) = [Err AttributeError].
Proof. vm_compute. reflexivity. Qed.
(** Another object of the caller is not touched by a rename. *)
Definition two_objects : cstate ecache := snd (changes true 5 [Take [67; 98]; Take [67; 99]; Rename 0 [100]] [] (opened NoOpCache s_three)).
Example C80_example_objects : option_map co_dirty (nth_error (cs_objs _ two_objects) 3) = Some true /\
  fst (cflush_entry ecache estep true true 5 3 two_objects) = Ok tt.
Proof. split; vm_compute; reflexivity. Qed.
