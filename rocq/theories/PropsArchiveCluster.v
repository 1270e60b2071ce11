(** Properties of the clusters of an archive: C43 (clusters), C44, C45. *)
From Coq Require Import List ZArith Bool Lia Strings.Byte.
From Verif Require Import Base Utf8 Infobyte Reader ReaderSpec Decompressors DecompressorsProofs Entry EntrySpec PointerList SpaceAllocator SpaceAllocatorSpec
  Blob BlobProofs Cluster ClusterSpec ClusterWrapper ClusterWrapperSpec ClusterWrapperProofs Archive ArchiveSpec ArchiveProofs ArchiveFacts ArchiveCluster ArchiveClusterSpec ArchiveClusterProofs.
Import ListNotations.
Open Scope Z_scope.

Section Clusters.
Variable fuel : nat.
Context {D : Type}.
Variable dc : decomp D.
Variable new_decomp : ctype -> res D.
Context {K : Type}.
Variable new_comp : ctype -> res K.
Variable comp : K -> bytes -> res (bytes * K).
Variable flush : K -> res bytes.
Variable kd : ckind.
Variable Stream : ctype -> bytes -> bytes -> Prop.
Hypothesis CD : codec_ok dc new_decomp new_comp comp flush Stream.
Hypothesis HF : (0 < fuel)%nat.
Notation perform := (perform_cop fuel dc new_decomp new_comp comp flush kd).
Notation shows := (shows fuel dc new_decomp kd).
Notation crash := (crash fuel dc new_decomp new_comp comp flush kd).
Notation happens := (happens fuel dc new_decomp new_comp comp flush kd).
Notation ample := (ample fuel).
Notation cop_ok := (cop_ok fuel).

(** ** C43 (clusters): writing never clobbers live data *)
(** Whether or not the operation succeeds, no byte in use changes. *)
Theorem C43_writing_clusters : forall a cells L o r a1, archive_ok Stream a cells L ->
  ample a (blobs_of L) -> cop_ok (blobs_of L) o -> unambiguous (blobs_of L) o -> perform a o = (r, a1) ->
  forall x, 0 <= x < zlen (ca_file a) -> in_use (ca_alloc a) x -> same_byte (ca_file a) (ca_file a1) x.
Proof. intros a cells L o r a1 AO AM OK UN H x Hx Hu. exact (bytes_ok fuel dc new_decomp new_comp comp flush kd Stream CD a cells L o r a1 HF AO AM OK UN H x Hx Hu). Qed.
(** Space in use stays in use, except that of the cluster itself; entries and
    all other clusters are stored as before. *)
Theorem C43_space_of_clusters : forall a cells L o n a1, archive_ok Stream a cells L ->
  ample a (blobs_of L) -> cop_ok (blobs_of L) o -> unambiguous (blobs_of L) o -> perform a o = (Ok n, a1) ->
  (forall x, in_use (ca_alloc a) x -> (forall d, at_number L n d -> ~ covers d x) -> in_use (ca_alloc a1) x) /\
  exists L', archive_ok Stream a1 cells L' /\ blobs_of L' = cop_list (blobs_of L) o.
Proof.
  intros a cells L o n a1 AO AM OK UN H. destruct (step_ok fuel dc new_decomp new_comp comp flush kd Stream CD a cells L o n a1 HF AO AM OK UN H) as (_ & A & B). auto.
Qed.

(** ** C44: a crash while a cluster is written *)
(** [f] is any file that such a crash can leave behind: no byte in use has
    changed, every cluster, also the one that was being written, reads as before,
    and so do the entries. *)
Theorem C44_interrupted_write : forall a cells L o f, archive_ok Stream a cells L ->
  ample a (blobs_of L) -> cop_ok (blobs_of L) o -> unambiguous (blobs_of L) o -> crash a o f ->
  (forall x, 0 <= x < zlen (ca_file a) -> in_use (ca_alloc a) x -> same_byte (ca_file a) f x) /\
  (ample (ca_set_file f a) (blobs_of L) -> forall i b, znth (blobs_of L) i = Some (Some b) -> shows (ca_set_file f a) i b) /\
  (forall u e, get_entry_by_full_url (ca_zim (ca_set_file f a)) u = Ok e <-> get_entry_by_full_url (ca_zim a) u = Ok e).
Proof.
  intros a cells L o f AO AM OK UN H. destruct (crash_ok fuel dc new_decomp new_comp comp flush kd Stream CD a cells L o f HF AO AM OK UN H) as (K1 & A1).
  split; [intros x Hx Hu; exact (K1 x Hx Hu)|]. split; [intros AM' i b E; eapply shown_all; eassumption|].
  intros u e. rewrite (lookup_iff _ _ u e (ao_entries _ _ _ _ AO)), (lookup_iff _ _ u e (ao_entries _ _ _ _ A1)). reflexivity.
Qed.
(** The same for the states between the chunks that [write_cluster] writes. *)
Theorem C44_between_chunks : forall f off chunks g, 0 <= off -> In g (write_states f off chunks) -> torn f off (concat chunks) g.
Proof. intros f off chunks g H. apply states_torn. exact H. Qed.

(** ** C45: numbers keep denoting their cluster *)
(** After any history of operations, every number in use denotes the cluster that
    it should: one operation changes the cluster with its number only.  Partial:
    clusters are rewritten by telling their number again, or (without) as long as
    no cluster was removed. *)
Theorem C45_numbers_partial : forall a cells L ops a' X', archive_ok Stream a cells L ->
  happens unambiguous a (blobs_of L) ops a' X' -> ample a' X' ->
  (forall i b, znth X' i = Some (Some b) -> shows a' i b) /\
  (forall u e, get_entry_by_full_url (ca_zim a') u = Ok e <-> get_entry_by_full_url (ca_zim a) u = Ok e).
Proof.
  intros a cells L ops a' X' AO H AM.
  destruct (history_steps fuel dc new_decomp new_comp comp flush kd Stream CD a _ ops a' X' H cells L HF AO eq_refl) as (L' & A' & <-).
  split; [intros i b E; eapply shown_all; eassumption|].
  intros u e. rewrite (lookup_iff _ _ u e (ao_entries _ _ _ _ AO)), (lookup_iff _ _ u e (ao_entries _ _ _ _ A')). reflexivity.
Qed.
(** The number returned is the next one for a new cluster, its own for others. *)
Theorem C45_returned_number_partial : forall a cells L o n a1, archive_ok Stream a cells L ->
  ample a (blobs_of L) -> cop_ok (blobs_of L) o -> unambiguous (blobs_of L) o -> perform a o = (Ok n, a1) -> n = cop_number (blobs_of L) o.
Proof.
  intros a cells L o n a1 AO AM OK UN H. exact (proj1 (step_ok fuel dc new_decomp new_comp comp flush kd Stream CD a cells L o n a1 HF AO AM OK UN H)).
Qed.
(** Removing a cluster always succeeds. *)
Theorem C45_removal_succeeds : forall a cells L i b, archive_ok Stream a cells L -> ample a (blobs_of L) -> znth (blobs_of L) i = Some (Some b) ->
  exists a1, perform a (CRemove i) = (Ok i, a1).
Proof.
  intros a cells L i b AO AM E. destruct (blobs_numbered _ _ _ E) as (off & c & HN & _).
  destruct (removed fuel dc new_decomp new_comp comp flush kd Stream CD a cells L i off c AO HN) as (a1 & E1 & _).
  - eapply ample_enough; [exact AM|reflexivity|exact HN].
  - exists a1. unfold perform_cop. rewrite E1. reflexivity.
Qed.
(** Writing a new cluster always succeeds, if its compression is available and
    its pointers can be represented. *)
Theorem C45_new_cluster_succeeds : forall a cells L h k, archive_ok Stream a cells L -> cop_ok (blobs_of L) (CNew h) ->
  let blobs := edit_lists true [] h [] in
  let compression := match forced_compression true h with Some c => c | None => NONE end in
  new_comp compression = Ok k -> compression <> UNKNOWN -> (forall e, width_ok (forced_extension true h) false [] blobs e -> fits e blobs) ->
  exists n a1, perform a (CNew h) = (Ok n, a1).
Proof.
  intros a cells L h k AO (O1 & O2). apply (new_total fuel dc new_decomp new_comp comp flush kd Stream CD a cells L h k HF AO O1 O2).
Qed.
End Clusters.

(** Every consistent archive without clusters is a start. *)
Theorem archives_without_clusters : forall Stream s L ptrs, consistent s L -> pl_ptrs ptrs = [] -> pl_mutable ptrs = true ->
  exists cells, map snd cells = L /\ archive_ok Stream (mkCa s ptrs 0) cells [].
Proof.
  intros Stream s L ptrs C E M. destruct (cs_core _ _ C) as (cells & EL & CO). exists cells. split; [exact EL|].
  assert (N : forall i c, ~ at_number [] i c). { intros i c H. apply PointerListProofs.znth_some in H. change (zlen (@nil (option (Z * ccell)))) with 0 in H. lia. }
  constructor; cbn [ca_zim ca_ptrs ca_next]; try (intros; exfalso; eapply N; eassumption); try assumption.
  - rewrite EL. exact C.
  - rewrite E. constructor.
  - rewrite E. reflexivity.
  - reflexivity.
Qed.

(** ** The codec of uncompressed clusters meets the assumptions *)
Theorem plain_codec : codec_ok passthrough plain_new plain_new_comp plain_comp plain_flush plain_stream.
Proof.
  constructor.
  - exact plain_compressor.
  - discriminate.
  - intros C o (_ & H). exact H.
  - intros c C o post (-> & ->). exists pt_rep, [], (o ++ post), [], post. split; [reflexivity|]. rewrite app_nil_r. split; [reflexivity|]. split; [split; reflexivity|].
    split; [exact passthrough_contract|]. left. auto.
Qed.

(** ** Refutation of C45 *)
Definition C45_full_statement : Prop := forall fuel D (dc : decomp D) new_decomp K new_comp comp flush kd Stream a cells L ops a' X',
  codec_ok (K:=K) dc new_decomp new_comp comp flush Stream -> (0 < fuel)%nat -> archive_ok Stream a cells L ->
  happens fuel dc new_decomp new_comp comp flush kd (fun _ _ => True) a (blobs_of L) ops a' X' -> ample fuel a' X' ->
  forall i b, znth X' i = Some (Some b) -> shows fuel dc new_decomp kd a' i b.

Definition none_yet : plist := mkPlist [] true true 0.
Definition tiny : zim := mkZim [x00; x00; x00] none_yet (Some none_yet) none_yet None (new_allocator 3).
Lemma tiny_consistent : consistent tiny [].
Proof.
  assert (N : forall le L, lists le L []) by (intros le L; split; [constructor|exists []; split; constructor]).
  constructor; try discriminate; try reflexivity.
  - exists []. split; [reflexivity|]. constructor; cbn [tiny z_upl z_file z_alloc z_atpl z_etpl none_yet pl_ptrs pl_mutable map]; try (constructor; fail); try reflexivity; auto.
    + split; constructor.
    + discriminate.
    + intros i e [].
    + intros t E. injection E as <-. apply N.
    + intros t E. injection E as <-. reflexivity.
  - intros t E. injection E as <-. intros i [H1 H2]. change (zlen (@nil entry)) with 0 in H2. lia.
  - intros e r [].
Qed.
Definition start : carchive := mkCa tiny none_yet 0.
Lemma start_ok : exists cells, map snd cells = [] /\ archive_ok plain_stream start cells [].
Proof. exact (archives_without_clusters plain_stream tiny [] none_yet tiny_consistent eq_refl eq_refl). Qed.

Definition go (a : carchive) (o : cop) : res Z * carchive := perform_cop 60 passthrough plain_new plain_new_comp plain_comp plain_flush KRemembering a o.
Definition adds (b : byte) : edit := EAppend (mem_source [b]) [b].
Definition changes (b : byte) : edit := ESet 0 (mem_source [b]) [b].
Fixpoint goes (a : carchive) (ops : list cop) : carchive := match ops with [] => a | o :: r => goes (snd (go a o)) r end.
Definition reads (a : carchive) (i : Z) : res bytes := read_blob_of 60 passthrough plain_new KRemembering a i 0.

Lemma happens_step : forall (ok : list (option (list bytes)) -> cop -> Prop) a X o ops X' n, ample 60 a X -> cop_ok 60 X o -> ok X o -> fst (go a o) = Ok n ->
  happens 60 passthrough plain_new plain_new_comp plain_comp plain_flush KRemembering ok (snd (go a o)) (cop_list X o) ops (goes (snd (go a o)) ops) X' ->
  happens 60 passthrough plain_new plain_new_comp plain_comp plain_flush KRemembering ok a X (o :: ops) (goes a (o :: ops)) X'.
Proof.
  intros ok a X o ops X' n AM OK H E R. eapply happens_cons with (n := n) (a1 := snd (go a o)); try eassumption.
  fold (go a o). destruct (go a o) as [r a1]. cbn [fst snd] in *. rewrite E. reflexivity.
Qed.
Ltac check_step n := eapply (happens_step _ _ _ _ _ _ n);
  [ intros b Hb; vm_compute in Hb; repeat (destruct Hb as [Hb|Hb]; [try discriminate Hb; injection Hb as <-; vm_compute; discriminate|]); destruct Hb
  | first [ split; [split; [apply mem_delivers; reflexivity|exact Logic.I]|split; [intros []|exact Logic.I]]
          | eexists; split; [reflexivity|split; [split; [split; [apply mem_delivers; reflexivity|vm_compute; split; discriminate]|exact Logic.I]|split; [intros []|exact Logic.I]]]
          | eexists; reflexivity ]
  |
  | vm_compute; reflexivity
  | ].

(** Three clusters "a", "b", "c"; the second is removed, the third rewritten
    (telling its number) and a fourth one added. *)
Definition history1 : list cop := [CNew [adds x61]; CNew [adds x62]; CNew [adds x63]; CRemove 1; CEdit 2 [changes x64] true; CNew [adds x65]].
Lemma history1_happens : happens 60 passthrough plain_new plain_new_comp plain_comp plain_flush KRemembering unambiguous start [] history1 (goes start history1)
  [Some [[x61]]; None; Some [[x64]]; Some [[x65]]].
Proof.
  unfold history1. check_step 0; [exact Logic.I|]. check_step 1; [exact Logic.I|]. check_step 2; [exact Logic.I|]. check_step 1; [exact Logic.I|].
  check_step 2; [exact Logic.I|]. check_step 3; [exact Logic.I|]. cbn [goes]. apply happens_nil.
Qed.
Example C45_example : map (reads (goes start history1)) [0; 2; 3] = [Ok [x61]; Ok [x64]; Ok [x65]].
Proof. vm_compute. reflexivity. Qed.

(** False: of two clusters "a", "b" the first is removed, the second is rewritten
    as "c" without telling its number.  It still reads as "b". *)
Definition history2 : list cop := [CNew [adds x61]; CNew [adds x62]; CRemove 0; CEdit 1 [changes x63] false].
Lemma history2_happens : happens 60 passthrough plain_new plain_new_comp plain_comp plain_flush KRemembering (fun _ _ => True) start [] history2 (goes start history2)
  [None; Some [[x63]]].
Proof.
  unfold history2. check_step 0; [exact Logic.I|]. check_step 1; [exact Logic.I|]. check_step 0; [exact Logic.I|]. check_step 0; [exact Logic.I|]. cbn [goes]. apply happens_nil.
Qed.
Lemma C45_wrong : reads (goes start history2) 1 = Ok [x62].
Proof. vm_compute. reflexivity. Qed.
(** Its space is free, so that the next cluster takes it: cluster 1 then reads as
    "d", which was written as cluster 2. *)
Example C45_overwritten : reads (goes start (history2 ++ [CNew [adds x64]])) 1 = Ok [x64] /\ reads (goes start (history2 ++ [CNew [adds x64]])) 2 = Ok [x64].
Proof. vm_compute. split; reflexivity. Qed.
Theorem C45_refuted : ~ C45_full_statement.
Proof.
  intro H. destruct start_ok as (cells & _ & AO).
  specialize (H 60%nat _ _ _ _ _ _ _ KRemembering _ _ _ _ _ _ _ plain_codec ltac:(lia) AO history2_happens).
  destruct (H ltac:(intros b Hb; vm_compute in Hb; repeat (destruct Hb as [Hb|Hb]; [try discriminate Hb; injection Hb as <-; vm_compute; discriminate|]); destruct Hb) 1 [[x63]] eq_refl) as (_ & R).
  specialize (R 0 ltac:(lia)). pose proof C45_wrong as W. unfold reads in W. rewrite W in R. discriminate R.
Qed.

(** A crash while "d" is written in place of "b". *)
Definition before_edit : carchive := goes start [CNew [adds x61]; CNew [adds x62]].
Example C44_example : exists f, crash 60 passthrough plain_new plain_new_comp plain_comp plain_flush KRemembering before_edit (CEdit 1 [changes x64] true) f /\
  f <> ca_file before_edit /\ f <> ca_file (snd (go before_edit (CEdit 1 [changes x64] true))) /\ reads (ca_set_file f before_edit) 1 = Ok [x62].
Proof.
  set (a := before_edit).
  assert (E : exists c, edited 60 passthrough plain_new KRemembering a 1 [changes x64] = Ok c /\ exists n off chunks a1 c1,
    write_begin 60 plain_new_comp plain_comp plain_flush (stored_ops passthrough plain_new 60) (Some 1) a c = (Ok (n, off, chunks), (a1, c1)) /\
    off = 23 /\ concat chunks = [x01; x08; x00; x00; x00; x09; x00; x00; x00; x64]).
  { assert (C : match edited 60 passthrough plain_new KRemembering a 1 [changes x64] with
      | Ok c => match write_begin 60 plain_new_comp plain_comp plain_flush (stored_ops passthrough plain_new 60) (Some 1) a c with
                | (Ok (n, off, chunks), _) => off = 23 /\ concat chunks = [x01; x08; x00; x00; x00; x09; x00; x00; x00; x64]
                | _ => False
                end
      | Err _ => False
      end) by (vm_compute; auto).
    destruct (edited 60 passthrough plain_new KRemembering a 1 [changes x64]) as [c|x]; [|contradiction].
    exists c. split; [reflexivity|]. destruct (write_begin _ _ _ _ _ _ a c) as [[[[n off] chunks]|x] [a1 c1]]; [|contradiction].
    exists n, off, chunks, a1, c1. split; [reflexivity|exact C]. }
  destruct E as (c & E1 & n & off & chunks & a1 & c1 & E2 & -> & E3). exists (fwrite (ca_file a) 23 (firstn 5 (concat chunks))). split.
  - exists c, n, 23, chunks, a1, c1. split; [exact E1|]. split; [exact E2|]. right. exists 5%nat. reflexivity.
  - rewrite E3. clear. unfold a. clear a. vm_compute. split; [intro Q; discriminate Q|]. split; [intro Q; discriminate Q|reflexivity].
Qed.

Print Assumptions C43_writing_clusters.
Print Assumptions C43_space_of_clusters.
Print Assumptions C44_interrupted_write.
Print Assumptions C44_between_chunks.
Print Assumptions C45_numbers_partial.
Print Assumptions C45_returned_number_partial.
Print Assumptions C45_removal_succeeds.
Print Assumptions C45_new_cluster_succeeds.
Print Assumptions C45_refuted.
Print Assumptions plain_codec.
