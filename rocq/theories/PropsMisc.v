(** Property theorems C23 (information byte), C57 (dirty state), C58
    (compression registry) and C59 (blob sources). *)
From Coq Require Import List ZArith Bool Lia.
From Verif Require Import Base BaseProofs Infobyte InfobyteSpec InfobyteProofs
  Modifiable ModifiableSpec ModifiableProofs Blob BlobProofs.
Import ListNotations.
Open Scope Z_scope.

(** C23.  The byte written for a compression type and an extended flag has
    exactly these in bits 0-3 and bit 4 and parses back to them. *)
Theorem C23_infobyte_roundtrip : forall c x, c <> UNKNOWN ->
  exists b, generate_infobyte c x = Ok b /\ parse_infobyte b = Ok (c, x) /\
    low_bits b = ctype_value c /\ bit4 b = x.
Proof. exact infobyte_roundtrip. Qed.
Print Assumptions C23_infobyte_roundtrip.

(** Every byte with a known compression parses, whatever its bits 5-7 ... *)
Theorem C23_known_parses : forall b, known (low_bits b) ->
  exists c, parse_infobyte b = Ok (c, bit4 b) /\ ctype_value c = low_bits b.
Proof. exact parse_known. Qed.
Print Assumptions C23_known_parses.

(** ... and every other byte is rejected as an unsupported compression. *)
Theorem C23_unknown_rejected : forall b, ~ known (low_bits b) -> parse_infobyte b = Err CompressionErr.
Proof. exact parse_unknown. Qed.
Print Assumptions C23_unknown_rejected.

Example C23_nontrivial : known (low_bits xf5) /\ parse_infobyte xf5 = Ok (ZSTD, true) /\ ~ known (low_bits x00).
Proof. split; [|split]; unfold known; vm_compute; [split; discriminate|reflexivity|intros [H _]; apply H; reflexivity]. Qed.

(** C57.  After every history an object of an acyclic structure reports dirty
    exactly when it or one of its transitive sub-objects was modified after
    that one's last flush. *)
Theorem C57_dirty_propagates : forall sizes inits evs height fuel o,
  acyclic height (rev evs) -> (height o < fuel)%nat ->
  exists b, is_dirty fuel (mrun sizes inits evs) o = Ok b /\
    (b = true <-> exists x, part_of (rev evs) o x /\ modified x (rev evs) = true).
Proof. exact dirty_iff. Qed.
Print Assumptions C57_dirty_propagates.

(** The size reported as that on disk is the size at the last flush. *)
Theorem C57_old_size : forall sizes inits evs o,
  m_old (mrun sizes inits evs o) = size_at_flush sizes inits o (rev evs).
Proof. exact old_size_spec. Qed.
Print Assumptions C57_old_size.

Definition C57_history : list mop :=
  [MAdd 2 1; MAdd 1 0; MFlush 0; MFlush 2; MResize 0 7; MAdd 2 3; MRemove 2 3; MModify 3; MModify 2; MFlush 2]%nat.
Example C57_nontrivial :
  acyclic (fun o => o) (rev C57_history) /\
  is_dirty 3 (mrun (fun _ => 5) (fun _ => None) C57_history) 2 = Ok true /\
  m_old (mrun (fun _ => 5) (fun _ => None) C57_history 0%nat) = Some 5.
Proof.
  split; [|vm_compute; auto]. intros o c. cbn [rev app C57_history attached].
  repeat match goal with |- context [Nat.eq_dec ?a ?b] => destruct (Nat.eq_dec a b) end; intro; try discriminate; lia.
Qed.

(** C58, full statement: [has] says whether [get] succeeds, and [get] returns
    the oldest registration that was not taken back. *)
Definition C58_full_statement : Prop := forall h t,
  (reg_has t (reg_run h) = true <-> exists i, reg_get t (reg_run h) = Ok i) /\
  (forall i, reg_get t (reg_run h) = Ok i <-> exists r, live t h = i :: r).

(** False: once the last interface of a type is unregistered, [has] still says
    yes and [get] raises IndexError. *)
Theorem C58_refuted : ~ C58_full_statement.
Proof.
  intro H. specialize (H [RegAdd ZSTD 1; RegDel (Some ZSTD) (Some 1)] ZSTD). destruct H as [[H _] _].
  destruct (H eq_refl) as (i & E). discriminate E.
Qed.
Print Assumptions C58_refuted.

(** [get] always returns the oldest live registration, and fails otherwise;
    missing: that [has] is right after single interfaces were unregistered. *)
Theorem C58_get_partial : forall h t,
  (forall i, reg_get t (reg_run h) = Ok i <-> exists r, live t h = i :: r) /\
  (live t h = [] -> reg_get t (reg_run h) = Err IndexError \/ reg_get t (reg_run h) = Err CompressionErr) /\
  iter_for t (reg_run h) = live t h /\
  ((exists i, reg_get t (reg_run h) = Ok i) -> reg_has t (reg_run h) = true).
Proof.
  intros h t. rewrite get_live. split; [|split; [|split]].
  - intro i. destruct (live t h) as [|j r]; split.
    + discriminate.
    + intros (r & E). discriminate.
    + intro E. injection E as ->. eauto.
    + intros (r' & E). injection E as -> _. reflexivity.
  - intros ->. destruct (reg_has t (reg_run h)); auto.
  - apply iter_for_live.
  - intros (i & E). apply live_has. destruct (live t h); [discriminate|discriminate].
Qed.
Print Assumptions C58_get_partial.

(** [has] is right for histories that only unregister whole types. *)
Theorem C58_has_partial : forall h t, Forall no_single h ->
  (reg_has t (reg_run h) = true <-> exists i, reg_get t (reg_run h) = Ok i).
Proof.
  intros h t F. rewrite (has_iff_live h t F), get_live. destruct (live t h); split.
  - congruence.
  - intros (i & E). discriminate.
  - eauto.
  - discriminate.
Qed.
Print Assumptions C58_has_partial.

(** Unregistering a type that is not known raises KeyError and changes nothing,
    other calls return. *)
Theorem C58_unregister_partial : forall h t i,
  snd (unregister (Some t) i (reg_run h)) = (if reg_has t (reg_run h) then Ok tt else Err KeyError) /\
  (reg_has t (reg_run h) = false -> fst (unregister (Some t) i (reg_run h)) = reg_run h).
Proof.
  intros h t i. generalize (reg_run h) as r. intro r. unfold unregister, reg_has, Dict.dmem. cbn [unregister_loop]. destruct (Dict.dget ctype_eqb t r) as [l|]; [|auto].
  split; [|discriminate]. destruct i as [x|]; [|reflexivity]. destruct (existsb (fun y => y =? x) l); reflexivity.
Qed.
Print Assumptions C58_unregister_partial.

Example C58_nontrivial :
  live ZSTD [RegAdd ZSTD 1; RegAdd LZMA2 5; RegAdd ZSTD 2; RegDel None (Some 1); RegAdd ZSTD 1] = [2; 1] /\
  Forall no_single [RegAdd ZSTD 1; RegDel (Some ZSTD) None; RegAdd BZ2 3].
Proof. split; [reflexivity|]. repeat constructor. Qed.

(** C59.  Any sequence of reads of an in-memory (or file) blob yields
    consecutive parts of the data, none longer than asked for; reading until an
    empty read yields everything; the announced size is the length. *)
Theorem C59_memory_blob_reads : forall data ns,
  let xs := fst (blob_reads ns (blob_mem data)) in
  exists rest, data = concat xs ++ rest.
Proof.
  intros data ns xs. destruct (reads_remaining ns (blob_mem data)) as (A & _); [cbn; lia|].
  eexists. exact A.
Qed.
Print Assumptions C59_memory_blob_reads.

Theorem C59_memory_blob_all : forall data n, n > 0 ->
  (exists xs, read_all (S (length data)) n (blob_mem data) = Ok xs /\ concat xs = data) /\
  blob_size (blob_mem data) = zlen data /\
  (forall ns, blob_size (snd (blob_reads ns (blob_mem data))) = zlen data).
Proof.
  intros data n N. split; [|split; [reflexivity|]].
  - apply (read_all_spec (S (length data)) n (blob_mem data)); [cbn; lia|exact N|]. cbn. lia.
  - intro ns. destruct (reads_remaining ns (blob_mem data)) as (_ & B & _); [cbn; lia|]. exact B.
Qed.
Print Assumptions C59_memory_blob_all.

(** No read returns more than asked for, and a read of a positive size is empty
    only when everything was read. *)
Theorem C59_memory_blob_read : forall data ns n, 0 <= n ->
  let b := snd (blob_reads ns (blob_mem data)) in
  zlen (fst (blob_read n b)) <= n /\
  (0 < n -> fst (blob_read n b) = [] -> concat (fst (blob_reads ns (blob_mem data))) = data).
Proof.
  intros data ns n N b. destruct (reads_remaining ns (blob_mem data)) as (A & _ & C); [cbn; lia|]. split.
  - assert (SH : forall ns s f, exists s' f', snd (blob_reads ns (BMem s f)) = BMem s' f').
    { clear. induction ns as [|n ns IH]; intros s f; [cbn; eauto|]. cbn [blob_reads blob_read].
      destruct (mem_read n f) as [x f']. specialize (IH s f'). destruct (blob_reads ns (BMem s f')). exact IH. }
    destruct (SH ns (zlen data) (mkMem data 0)) as (s' & f' & E). subst b. unfold blob_mem. rewrite E. apply read_bound. exact N.
  - intros N2 E. apply read_empty in E; [|exact C|lia]. fold b in A. rewrite E, app_nil_r in A. symmetry. exact A.
Qed.
Print Assumptions C59_memory_blob_read.

(** The same for an entry blob over the chunks the entry yields (none of which
    is empty), except that the requested size is only a hint. *)
Theorem C59_entry_blob : forall size chunks, Forall (fun c => c <> []) chunks ->
  (forall ns, exists rest, concat chunks = concat (fst (blob_reads ns (blob_entry size chunks))) ++ rest) /\
  (forall n, n > 0 -> exists xs, read_all (S (length (concat chunks))) n (blob_entry size chunks) = Ok xs /\ concat xs = concat chunks) /\
  blob_size (blob_entry size chunks) = size.
Proof.
  intros size chunks H. split; [|split; [|reflexivity]].
  - intro ns. destruct (reads_remaining ns (blob_entry size chunks)) as (A & _); [exact H|]. eexists. exact A.
  - intros n N. apply (read_all_spec (S (length (concat chunks))) n (blob_entry size chunks)); [exact H|exact N|]. cbn. lia.
Qed.
Print Assumptions C59_entry_blob.

Example C59_nontrivial :
  fst (blob_reads [2; 0; -1; 5] (blob_mem [x61; x62; x63])) = [[x61; x62]; []; [x63]; []] /\
  Forall (fun c => c <> []) [[x61]; [x62; x63]].
Proof. split; [reflexivity|]. repeat constructor; discriminate. Qed.
