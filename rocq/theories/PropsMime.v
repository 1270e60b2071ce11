(** Property theorems C12, C13, C14 and C55: the mimetype list. *)
From Coq Require Import List ZArith Bool Lia.
From Coq Require Import ZifyBool ZifyNat.
From Verif Require Import Base Utf8 MimeTypeList MimeTypeListSpec MimeTypeListProofs.
Import ListNotations.
Open Scope Z_scope.

(** C12.  The written list is read back whatever follows; for a non-empty list
    exactly the written bytes are consumed. *)
Theorem C12_mimetype_roundtrip : forall l rest, Forall mt_storable l ->
  exists rest', mt_from_file (mt_to_bytes l ++ rest) = Ok (l, rest') /\ (l <> [] -> rest' = rest).
Proof. exact mt_roundtrip. Qed.
Print Assumptions C12_mimetype_roundtrip.

Example C12_nontrivial : Forall mt_storable [[x61; x2f]; [x62]] /\
  mt_from_file (mt_to_bytes [[x61; x2f]; [x62]] ++ [x63; x00]) = Ok ([[x61; x2f]; [x62]], [x63; x00]).
Proof.
  split; [|reflexivity]. repeat constructor; cbn; try discriminate; intuition discriminate.
Qed.

(** C13, full statement. *)
Definition C13_full_statement : Prop := forall l, mt_disk_size l = zlen (mt_to_bytes l).

(** False for the empty list: one byte is accounted, two are written. *)
Theorem C13_refuted : ~ C13_full_statement.
Proof. intro H. specialize (H []). discriminate H. Qed.
Print Assumptions C13_refuted.

(** Exact for every other list.  Missing: the empty list. *)
Theorem C13_mimetype_size_partial : forall l, l <> [] -> mt_disk_size l = zlen (mt_to_bytes l).
Proof. exact mt_size_exact. Qed.
Print Assumptions C13_mimetype_size_partial.

Example C13_nontrivial : mt_disk_size [[x61; x2f]; [x62]] = 6.
Proof. reflexivity. Qed.

(** C14.  An index that was returned denotes the mimetype asked for, and still
    does after any later history; asking again returns the same index. *)
Theorem C14_index_stable : forall ops s reg o i o' m, NoDup (ml_types o) ->
  mt_get_index s reg o = Ok (Some i, o') -> as_bytes s = Ok m ->
  mt_get i (ml_types (fold_left mop_step ops o')) = Ok m /\
  (forall reg', mt_get_index s reg' (fold_left mop_step ops o') = Ok (Some i, fold_left mop_step ops o')).
Proof. exact mt_index_stable. Qed.
Print Assumptions C14_index_stable.

(** No mimetype is ever stored twice and nothing is ever removed or moved. *)
Theorem C14_no_duplicates : forall ops o, NoDup (ml_types o) ->
  NoDup (ml_types (fold_left mop_step ops o)) /\
  exists added, ml_types (fold_left mop_step ops o) = ml_types o ++ added.
Proof. exact mops_inv. Qed.
Print Assumptions C14_no_duplicates.

(** One registering lookup: it always yields an index on a mutable list, and
    either changes nothing at all or appends the mimetype and marks dirty. *)
Theorem C14_register : forall s reg o r o', mt_get_index s reg o = Ok (r, o') ->
  exists m, as_bytes s = Ok m /\
  ((o' = o /\ (r = None -> reg = false /\ ~ In m (ml_types o))) \/
   (reg = true /\ ~ In m (ml_types o) /\ ml_mutable o = true /\ ml_types o' = ml_types o ++ [m] /\ ml_dirty o' = true /\ r <> None)) /\
  (forall i, r = Some i -> mt_get i (ml_types o') = Ok m /\ mt_scan m (ml_types o') 0 = Some i).
Proof. exact mt_get_index_spec. Qed.
Print Assumptions C14_register.

(** A list that was read or created takes every mimetype that can be encoded,
    after any history: asking for its index with [register] succeeds and the
    index denotes it. *)
Theorem C14_register_succeeds : forall ops l s m, as_bytes s = Ok m ->
  let o := fold_left mop_step ops (mlist_new l) in
  exists i o', mt_get_index s true o = Ok (Some i, o') /\ mt_get i (ml_types o') = Ok m.
Proof.
  intros ops l s m A o.
  assert (M : ml_mutable o = true).
  { unfold o. assert (G : forall x, ml_mutable x = true -> ml_mutable (fold_left mop_step ops x) = true); [|apply G; reflexivity].
    clear. induction ops as [|op ops IH]; intros x M; [exact M|]. cbn [fold_left]. apply IH.
    assert (R : forall t y, mt_register t x = Ok y -> ml_mutable y = true).
    { intros t y. unfold mt_register. rewrite M. cbn [negb]. destruct (as_bytes t); cbn [bind]; [|discriminate]. destruct (mt_has _ _); intro Q; injection Q as <-; [exact M|reflexivity]. }
    destruct op as [t|t reg|]; cbn [mop_step].
    - destruct (mt_register t x) eqn:E; [exact (R _ _ E)|exact M].
    - unfold mt_get_index. destruct (as_bytes t) as [b|]; cbn [bind]; [|exact M]. destruct (mt_scan b (ml_types x) 0); [exact M|]. destruct reg; [|exact M].
      destruct (mt_register (PyBytes b) x) eqn:E; cbn [bind]; [exact (R _ _ E)|exact M].
    - exact M. }
  clearbody o. assert (T : exists r o', mt_get_index s true o = Ok (r, o')).
  { unfold mt_get_index. rewrite A. cbn [bind]. destruct (mt_scan m (ml_types o) 0); [eexists; eexists; reflexivity|]. unfold mt_register. rewrite M. cbn [negb as_bytes bind]. destruct (mt_has _ _); cbn [bind]; eexists; eexists; reflexivity. }
  destruct T as (r & o' & T). destruct (mt_get_index_spec _ _ _ _ _ T) as (m' & A' & [[-> N]|(_ & _ & _ & _ & _ & N)] & G); rewrite A in A'; injection A' as <-.
  - destruct r as [i|]; [exists i, o; split; [exact T|exact (proj1 (G i eq_refl))]|]. destruct (N eq_refl). discriminate.
  - destruct r as [i|]; [|congruence]. exists i, o'. split; [exact T|exact (proj1 (G i eq_refl))].
Qed.
Print Assumptions C14_register_succeeds.

(** After any history a list that is not dirty holds exactly what was last flushed. *)
Theorem C14_clean_is_persisted : forall ops l,
  let st := fold_left mstep_saved ops (mlist_new l, l) in
  ml_dirty (fst st) = false -> ml_types (fst st) = snd st.
Proof. intros ops l. exact (mops_clean ops (mlist_new l, l) (fun _ => eq_refl)). Qed.
Print Assumptions C14_clean_is_persisted.

(** A list that was written is not dirty any more, holds what it held and what
    was written is read back. *)
Theorem C14_flush : forall o, let (b, o') := mt_flush o in
  ml_dirty o' = false /\ ml_types o' = ml_types o /\ ml_mutable o' = ml_mutable o /\
  (Forall mt_storable (ml_types o) -> exists rest', mt_from_file b = Ok (ml_types o', rest')).
Proof.
  intro o. unfold mt_flush. do 3 (split; [reflexivity|]). intro F. destruct (mt_roundtrip (ml_types o) [] F) as (rest & E & _). rewrite app_nil_r in E. exists rest. exact E.
Qed.
Print Assumptions C14_flush.

(** [get] answers exactly the indices of the list, and raises IndexError for all
    others (negative ones too). *)
Theorem C14_get : forall i l, mt_get i l =
  if (0 <=? i) && (i <? zlen l) then match nth_error l (Z.to_nat i) with Some m => Ok m | None => Err Diverge end else Err IndexError.
Proof.
  intros i l. unfold mt_get. destruct ((zlen l <=? i) || (i <? 0)) eqn:E.
  - replace ((0 <=? i) && (i <? zlen l)) with false by lia. reflexivity.
  - replace ((0 <=? i) && (i <? zlen l)) with true by lia. destruct (nth_error l (Z.to_nat i)) eqn:N; [reflexivity|].
    apply nth_error_None in N. unfold zlen in E. lia.
Qed.
Print Assumptions C14_get.

(** After any history a list is dirty exactly if it does not hold what was last flushed, or opened. *)
Theorem C14_dirty_when_changed : forall ops l, let st := fold_left mstep_saved ops (mlist_new l, l) in ml_dirty (fst st) = true <-> ml_types (fst st) <> snd st.
Proof.
  intros ops l. assert (G : forall st, (exists a, ml_types (fst st) = snd st ++ a /\ (ml_dirty (fst st) = true <-> a <> [])) ->
    exists a, ml_types (fst (fold_left mstep_saved ops st)) = snd (fold_left mstep_saved ops st) ++ a /\ (ml_dirty (fst (fold_left mstep_saved ops st)) = true <-> a <> [])).
  { induction ops as [|op ops IH]; intros [o l0] HO; [exact HO|]. cbn [fold_left]. apply IH. cbn [fst snd] in HO. destruct HO as (a & HT & HD).
    assert (NE : forall m : bytes, a ++ [m] <> []) by (intros m Z; destruct a; discriminate Z).
    destruct op as [s|s reg|]; cbn [mstep_saved mop_step fst snd].
    - unfold mt_register. destruct (negb (ml_mutable o)); [eauto|]. destruct (as_bytes s) as [m|]; cbn [bind]; [|eauto]. destruct (mt_has m (ml_types o)); [eauto|]. cbn [ml_types ml_dirty].
      exists (a ++ [m]). split; [rewrite HT, app_assoc; reflexivity|]. split; [intros _; apply NE|reflexivity].
    - destruct (mt_get_index s reg o) as [[r o']|] eqn:E; [|eauto]. destruct (mt_get_index_spec _ _ _ _ _ E) as (m & _ & [(-> & _)|(_ & _ & _ & T & Q & _)] & _); [eauto|].
      exists (a ++ [m]). split; [rewrite T, HT, app_assoc; reflexivity|]. split; [intros _; apply NE|intros _; exact Q].
    - exists []. split; [rewrite app_nil_r; reflexivity|]. cbn. split; [discriminate|congruence]. }
  destruct (G (mlist_new l, l)) as (a & T & HD); [exists []; split; [cbn; rewrite app_nil_r; reflexivity|cbn; split; [discriminate|congruence]]|]. cbv zeta.
  rewrite HD, T. split; intros N Q; apply N; [|rewrite Q, app_nil_r; reflexivity].
  rewrite <- (app_nil_r (snd _)) in Q at 2. apply app_inv_head in Q. exact Q.
Qed.
Print Assumptions C14_dirty_when_changed.

Example C14_nontrivial :
  let o := mlist_new [[x61]] in
  mt_get_index (PyStr [98; 228]) true o =
    Ok (Some 1, mkMlist [[x61]; [x62; xc3; xa4]] true true (ml_old_size o)).
Proof. reflexivity. Qed.

(** C55.  Any number of threads, each registering any sequence of mimetypes,
    under any interleaving of element comparisons, lock operations and
    appends: every returned index denotes the mimetype asked for, two results
    are equal exactly when the mimetypes are, nothing is stored twice and the
    initial mimetypes keep their indices. *)
Theorem C55_concurrent_registration : forall types progs sched, NoDup types ->
  let s := msched sched (mstart types progs) in
  NoDup (mc_types s) /\ (exists r, mc_types s = types ++ r) /\
  (forall t m r, In (m, r) (th_done (mc_threads s t)) -> exists i, r = Some i /\ nth_error (mc_types s) i = Some m) /\
  (forall t u m n i j, In (m, Some i) (th_done (mc_threads s t)) -> In (n, Some j) (th_done (mc_threads s u)) ->
     (m = n <-> i = j)).
Proof. exact mconc_agree. Qed.
Print Assumptions C55_concurrent_registration.

(** While a thread has work left some thread can move: no deadlock. *)
Theorem C55_no_deadlock : forall types progs sched t, NoDup types ->
  let s := msched sched (mstart types progs) in
  ~ th_finished (mc_threads s t) -> exists u s', mstep u s = Some s'.
Proof.
  intros types progs sched t H s. exact (mprogress types s t (msched_inv sched types _ (mstart_inv types progs H))).
Qed.
Print Assumptions C55_no_deadlock.

(** A thread that has finished has one result per call, in program order. *)
Theorem C55_every_call_answered : forall types progs sched t,
  let s := msched sched (mstart types progs) in
  th_finished (mc_threads s t) -> map fst (th_done (mc_threads s t)) = progs t.
Proof. exact mconc_complete. Qed.
Print Assumptions C55_every_call_answered.

(** Two threads race for the same new mimetype and both finish. *)
Example C55_nontrivial :
  let s := msched ([0;1;0;1;0;1;0;0;0;1;1;1;1;1;0;0;0;0;0;0;0;1;1;1;1;1;1;1;1;1])%nat (mstart [[x61]] (fun t => if Nat.ltb t 2 then [[x62]] else [])) in
  mc_types s = [[x61]; [x62]] /\ th_done (mc_threads s 0%nat) = [([x62], Some 1%nat)] /\
  th_done (mc_threads s 1%nat) = [([x62], Some 1%nat)].
Proof. vm_compute. auto. Qed.
