(** Property theorems C15 - C19: pointer lists. *)
From Coq Require Import List ZArith Bool Lia Sorting.Sorted Sorting.Permutation.
From Coq Require Import ZifyBool ZifyNat.
From Verif Require Import Base BaseProofs PointerList PointerListSpec PointerListProofs SpaceAllocator.
Import ListNotations.
Open Scope Z_scope.

(** C15.  [w] is the pointer size: 8 for url and cluster lists, 4 for title lists. *)
Theorem C15_pointerlist_roundtrip : forall w l b, (0 < w)%nat -> ptrs_to_bytes w l = Ok b ->
  ptrs_from_bytes w b = Ok l /\ zlen b = ptrs_disk_size w l.
Proof. exact ptrs_roundtrip. Qed.
Print Assumptions C15_pointerlist_roundtrip.

Theorem C15_bytes_roundtrip : forall w s l, (0 < w)%nat -> ptrs_from_bytes w s = Ok l -> ptrs_to_bytes w l = Ok s.
Proof. exact ptrs_bytes_roundtrip. Qed.
Print Assumptions C15_bytes_roundtrip.

(** Serialisation succeeds exactly when every pointer fits, ... *)
Theorem C15_serialisable_iff_fits : forall w l,
  (exists b, ptrs_to_bytes w l = Ok b) <-> Forall (fun p => 0 <= p < 256 ^ Z.of_nat w) l.
Proof.
  intros w l. split.
  - intros [b H]. exact (proj1 (ptrs_to_bytes_inv w l b H)).
  - intro H. eexists. exact (ptrs_to_bytes_ok w l H).
Qed.
Print Assumptions C15_serialisable_iff_fits.

(** ... and parsing exactly when the length is a whole number of pointers. *)
Theorem C15_rejects_partial_pointers : forall w s, (0 < w)%nat ->
  (exists l, ptrs_from_bytes w s = Ok l) <-> (Z.of_nat w | zlen s).
Proof. exact ptrs_from_bytes_iff. Qed.
Print Assumptions C15_rejects_partial_pointers.

(** Reading a stored list from a file. *)
Theorem C15_from_file : forall w l b f seek, ptrs_to_bytes w l = Ok b -> fread f seek (zlen b) = b ->
  ptrs_from_file w f (zlen l) seek = Ok l.
Proof. exact ptrs_from_file_ok. Qed.
Print Assumptions C15_from_file.

Example C15_nontrivial :
  ptrs_to_bytes 4 [1; 65536; 4294967295] = Ok [x01;x00;x00;x00;x00;x00;x01;x00;xff;xff;xff;xff] /\
  ptrs_to_bytes 4 [4294967296] = Err StructError.
Proof. split; reflexivity. Qed.

(** C16.  Lookups on a list sorted by key. *)
Theorem C16_get_index : forall keyf l key, sorted_by keyf l ->
  match get_index keyf l key with
  | Ok i => first_with_key keyf l key i
  | Err e => e = KeyError /\ forall p, In p l -> keyf p <> Ok key
  end.
Proof. intros keyf l key. exact (get_index_gen_spec keyf l _ key (get_by_index_accessor l)). Qed.
Print Assumptions C16_get_index.

Theorem C16_get : forall keyf l key, sorted_by keyf l ->
  match get keyf l key with
  | Ok p => exists i, first_with_key keyf l key i /\ znth l i = Some p /\ keyf p = Ok key
  | Err e => e = KeyError /\ forall p, In p l -> keyf p <> Ok key
  end.
Proof. intros keyf l key. exact (get_gen_spec keyf l _ key (get_by_index_accessor l)). Qed.
Print Assumptions C16_get.

Theorem C16_has : forall keyf l key, sorted_by keyf l ->
  exists b, has keyf l key = Ok b /\ (b = true <-> exists p, In p l /\ keyf p = Ok key).
Proof. intros keyf l key. exact (has_gen_spec keyf l _ key (get_by_index_accessor l)). Qed.
Print Assumptions C16_has.

(** All keys before the returned position are smaller, all others are not. *)
Theorem C16_find_first_greater_equals : forall keyf l key ks, keys_are keyf l ks -> StronglySorted ble ks ->
  exists r, find_first_ge keyf l key = Ok r /\ 0 <= r <= zlen ks /\
    (forall i k, i < r -> znth ks i = Some k -> bltb k key = true) /\
    (forall i k, r <= i -> znth ks i = Some k -> bltb k key = false).
Proof. exact find_first_ge_spec. Qed.
Print Assumptions C16_find_first_greater_equals.

(** Even on unsorted lists the search ends, inside the list, unless a key
    computation fails. *)
Theorem C16_search_terminates : forall n keyat element, 0 <= n ->
  match binarysearch n keyat element with
  | Ok r => 0 <= r <= n
  | Err x => exists i, 0 <= i < n /\ keyat i = Err x
  end.
Proof. exact bsearch_total. Qed.
Print Assumptions C16_search_terminates.

Definition ex_keyf (p : Z) : res bytes :=
  match p with 1 => Ok [x61] | 2 => Ok [x62] | 3 => Ok [x62] | 4 => Ok [x7a; x61] | _ => Err KeyError end.
Example C16_nontrivial : sorted_by ex_keyf [1; 3; 2; 4] /\ get ex_keyf [1; 3; 2; 4] [x62] = Ok 3 /\
  get ex_keyf [1; 3; 2; 4] [x63] = Err KeyError /\ find_first_ge ex_keyf [1; 3; 2; 4] [x63] = Ok 3.
Proof.
  split; [|vm_compute; auto]. exists [[x61]; [x62]; [x62]; [x7a; x61]]. split; repeat constructor.
Qed.

(** C17.  After any history of additions (each under the key of its pointer)
    and removals, the list is sorted, holds exactly the pointers the multiset
    specification allows, and passes [check_sorted]. *)
Theorem C17_history : forall keyf ops o, sorted_by keyf (pl_ptrs o) -> pl_mutable o = true ->
  (forall p, In (PAdd p) ops -> 0 <= p /\ exists k, keyf p = Ok k) ->
  let o' := fold_left (pop_step keyf) ops o in
  sorted_by keyf (pl_ptrs o') /\ pop_spec keyf ops (pl_ptrs o) (pl_ptrs o') /\ check_sorted keyf (pl_ptrs o') = Ok tt.
Proof.
  intros keyf ops o H1 H2 H3 o'. destruct (pop_history keyf ops o H1 H2 H3) as [H4 H5].
  split; [exact H4|]. split; [exact H5|]. destruct H4 as (ks & Hk & Hs).
  apply (check_sorted_iff keyf _ ks Hk). exists ks. auto.
Qed.
Print Assumptions C17_history.

(** One addition: it succeeds, keeps everything else in place and the returned
    index is the position of the new pointer. *)
Theorem C17_add : forall keyf o k p i o', sorted_by keyf (pl_ptrs o) -> keyf p = Ok k ->
  pl_add keyf k p o = Ok (i, o') ->
  sorted_by keyf (pl_ptrs o') /\ pl_dirty o' = true /\
  exists a b, pl_ptrs o = a ++ b /\ pl_ptrs o' = a ++ p :: b /\ zlen a = i /\
    (forall q x, In q a -> keyf q = Ok x -> bltb x k = true) /\ (forall q x, In q b -> keyf q = Ok x -> bltb x k = false).
Proof. exact pl_add_spec. Qed.
Print Assumptions C17_add.

Theorem C17_add_succeeds : forall keyf o k p, sorted_by keyf (pl_ptrs o) -> 0 <= p -> pl_mutable o = true ->
  exists i o', pl_add keyf k p o = Ok (i, o').
Proof. exact pl_add_total. Qed.
Print Assumptions C17_add_succeeds.

(** One removal takes out the first pointer with the key, or raises KeyError
    when there is none. *)
Theorem C17_remove : forall keyf o k, sorted_by keyf (pl_ptrs o) -> pl_mutable o = true ->
  match pl_remove keyf k o with
  | Ok o' => sorted_by keyf (pl_ptrs o') /\ pl_dirty o' = true /\ pl_mutable o' = true /\
      exists a p b, pl_ptrs o = a ++ p :: b /\ pl_ptrs o' = a ++ b /\ keyf p = Ok k /\ (forall q, In q a -> keyf q <> Ok k)
  | Err e => e = KeyError /\ forall p, In p (pl_ptrs o) -> keyf p <> Ok k
  end.
Proof. exact pl_remove_spec. Qed.
Print Assumptions C17_remove.

(** [check_sorted] accepts exactly the sorted lists. *)
Theorem C17_check_sorted_exact : forall keyf l ks, keys_are keyf l ks ->
  (check_sorted keyf l = Ok tt <-> sorted_by keyf l).
Proof. exact check_sorted_iff. Qed.
Print Assumptions C17_check_sorted_exact.

Example C17_nontrivial :
  pl_ptrs (fold_left (pop_step ex_keyf) [PAdd 4; PAdd 2; PAdd 1; PAdd 3; PRemove [x62]; PRemove [x00]] (plist_new 8 [])) = [1; 2; 4].
Proof. vm_compute. reflexivity. Qed.

(** C18 *)
Theorem C18_mass_update : forall diff start end_ o o', pl_mass_update diff start end_ o = Ok o' ->
  zlen (pl_ptrs o') = zlen (pl_ptrs o) /\
  (forall i p, znth (pl_ptrs o) i = Some p ->
     ((forall s, start = Some s -> s <= p) /\ (forall e, end_ = Some e -> p < e) -> znth (pl_ptrs o') i = Some (p + diff)) /\
     (~ ((forall s, start = Some s -> s <= p) /\ (forall e, end_ = Some e -> p < e)) -> znth (pl_ptrs o') i = Some p)) /\
  (pl_dirty o' = true <-> pl_dirty o = true \/ exists p, In p (pl_ptrs o) /\
     (forall s, start = Some s -> s <= p) /\ (forall e, end_ = Some e -> p < e)) /\
  (pl_dirty o' = false -> pl_ptrs o' = pl_ptrs o).
Proof. exact mass_update_spec. Qed.
Print Assumptions C18_mass_update.

(** It fails only for reversed bounds. *)
Theorem C18_mass_update_total : forall diff start end_ o,
  (forall s e, start = Some s -> end_ = Some e -> s <= e) -> exists o', pl_mass_update diff start end_ o = Ok o'.
Proof.
  intros diff start end_ o H. unfold pl_mass_update. destruct (mass_loop diff start end_ (pl_ptrs o)) as [l m].
  destruct start as [s|]; destruct end_ as [e|]; try (eexists; reflexivity).
  specialize (H s e eq_refl eq_refl). apply Z.ltb_ge in H. rewrite H. eexists; reflexivity.
Qed.
Print Assumptions C18_mass_update_total.

Example C18_nontrivial :
  pl_mass_update 10 (Some 2) (Some 4) (plist_new 4 [5; 2; 1; 3; 4; 2]) =
    Ok (mkPlist [5; 12; 1; 13; 4; 12] true true 24).
Proof. reflexivity. Qed.

(** C19, full statement, for the reverse lookup. *)
Definition C19_full_statement : Prop := forall w o l, backed_by w o l ->
  forall p, od_get_by_pointer o p = get_by_pointer l p.

(** False of the code: the on-disk reverse lookup looks into an empty list. *)
Theorem C19_refuted : ~ C19_full_statement.
Proof.
  intro H. specialize (H 8%nat (mkOd [x07;x00;x00;x00;x00;x00;x00;x00] 0 1 8%nat) [7]).
  assert (B : backed_by 8 (mkOd [x07;x00;x00;x00;x00;x00;x00;x00] 0 1 8%nat) [7]).
  { split; [reflexivity|]. split; [reflexivity|]. split; [discriminate|]. eexists. split; reflexivity. }
  specialize (H B 7). discriminate H.
Qed.
Print Assumptions C19_refuted.

(** [iter_values] of a non-empty on-disk list yields nothing at all. *)
Theorem C19_iter_values_refuted : ~ (forall keyf w o l, backed_by w o l ->
  od_iter_values keyf o None None = iter_values keyf l None None).
Proof.
  intro H. specialize (H (fun p => Ok [bZ p]) 8%nat (mkOd [x07;x00;x00;x00;x00;x00;x00;x00] 0 1 8%nat) [7]).
  assert (B : backed_by 8 (mkOd [x07;x00;x00;x00;x00;x00;x00;x00] 0 1 8%nat) [7]).
  { split; [reflexivity|]. split; [reflexivity|]. split; [discriminate|]. eexists. split; reflexivity. }
  specialize (H B). discriminate H.
Qed.
Print Assumptions C19_iter_values_refuted.

Theorem C19_iter_values_yields_nothing : forall keyf o, od_iter_values keyf o None None = Ok [] /\
  forall a b, a < b -> od_iter_values keyf o (Some a) (Some b) = Err AssertionError.
Proof.
  intros keyf o. split; [reflexivity|]. intros a b H. unfold od_iter_values, iter_bounds. destruct (Z.ltb_spec a 0); [reflexivity|]. replace (0 <? b) with true by lia. reflexivity.
Qed.
Print Assumptions C19_iter_values_yields_nothing.

(** What agrees: access by every index from 0 on, iteration with any bounds
    and all key lookups.  Missing: get_by_pointer, iter_values and
    negative indices. *)
Theorem C19_index_access_partial : forall w o l i, backed_by w o l -> 0 <= i -> od_get o i = get_by_index l i.
Proof. exact od_get_same. Qed.
Print Assumptions C19_index_access_partial.

Theorem C19_iteration_partial : forall w o l start end_, backed_by w o l ->
  od_iter_pointers o start end_ = iter_pointers l start end_.
Proof. exact od_iter_same. Qed.
Print Assumptions C19_iteration_partial.

Theorem C19_lookup_partial : forall keyf w o l key, backed_by w o l ->
  od_get_index keyf o key = get_index keyf l key /\ od_get_key keyf o key = get keyf l key /\
  od_has keyf o key = has keyf l key /\ od_find_first_ge keyf o key = find_first_ge keyf l key.
Proof. exact od_lookup_same. Qed.
Print Assumptions C19_lookup_partial.

(** The in-memory reverse lookup returns the first position of the pointer. *)
Theorem C19_memory_reverse_lookup_partial : forall l p,
  match get_by_pointer l p with
  | Ok r => znth l r = Some p /\ forall j, 0 <= j < r -> znth l j <> Some p
  | Err e => e = KeyError /\ ~ In p l
  end.
Proof. exact get_by_pointer_spec. Qed.
Print Assumptions C19_memory_reverse_lookup_partial.

(** C76.  A pointer list is a list: every call of a history has the outcome it
    has for the list of pointers, and the list holds these pointers in the end.
    It is dirty then if some call changed it. *)
Lemma list_set_parts : forall {A} (l : list A) k x, (k < length l)%nat -> list_set l k x = firstn k l ++ [x] ++ skipn (S k) l.
Proof. induction l as [|y l IH]; intros [|k] x H; cbn in *; try lia; [reflexivity|]. rewrite IH by lia. reflexivity. Qed.
Lemma list_pop_parts : forall {A} (l : list A) k, (k < length l)%nat -> list_pop l k = firstn k l ++ skipn (S k) l.
Proof. induction l as [|y l IH]; intros [|k] H; cbn in *; try lia; [reflexivity|]. rewrite IH by lia. reflexivity. Qed.
Lemma lop_ok : forall o op, pl_mutable o = true -> perform_lop o op = match lop_spec (pl_ptrs o) op with Ok l => Ok (pl_change o l) | Err e => Err e end.
Proof.
  intros o [p|i p ap|i] M; cbn [perform_lop lop_spec].
  - unfold pl_append. rewrite M. destruct (p <? 0); reflexivity.
  - unfold pl_set, position, py_index. rewrite M. cbn [negb]. destruct (p <? 0); [reflexivity|]. pose proof (zlen_nonneg (pl_ptrs o)) as ZN. set (l := pl_ptrs o) in *.
    destruct (Z.ltb_spec i 0) as [I|I].
    + replace (zlen l <? i) with false by lia. cbn [andb]. replace (i <? zlen l) with true by lia. replace (0 <=? i) with false by lia. cbn [andb].
      destruct (Z.ltb_spec (zlen l + i) 0) as [J|J]; [replace (0 <=? zlen l + i) with false by lia; reflexivity|]. replace (0 <=? zlen l + i) with true by lia. replace (zlen l + i <? zlen l) with true by lia.
      rewrite list_set_parts by (unfold zlen in *; lia). replace (S (Z.to_nat (zlen l + i))) with (Z.to_nat (zlen l + i + 1)) by lia. reflexivity.
    + replace (i <? 0) with false by lia. destruct (Z.ltb_spec i (zlen l)) as [J|J].
      * replace (zlen l <? i) with false by lia. cbn [andb]. replace (0 <=? i) with true by lia. cbn [andb]. rewrite list_set_parts by (unfold zlen in *; lia). replace (S (Z.to_nat i)) with (Z.to_nat (i + 1)) by lia. reflexivity.
      * destruct (Z.eqb_spec i (zlen l)) as [->|K]; cbn [orb].
        -- replace (zlen l <? zlen l) with false by lia. cbn [andb]. replace (zlen l - zlen l + 1) with 1 by lia. reflexivity.
        -- replace (zlen l <? i) with true by lia. destruct ap; reflexivity.
  - unfold pl_remove_by_index, py_index. rewrite M. cbn [negb]. destruct (Z.ltb_spec i 0) as [I|I]; [reflexivity|]. replace (0 <=? i) with true by lia. cbn [andb]. destruct (Z.ltb_spec i (zlen (pl_ptrs o))) as [J|J]; [|reflexivity].
    rewrite list_pop_parts by (unfold zlen in *; lia). replace (S (Z.to_nat i)) with (Z.to_nat (i + 1)) by lia. reflexivity.
Qed.
Lemma lrun_ok : forall ops o, pl_mutable o = true -> lrun o ops = (let (rs, l) := lspec (pl_ptrs o) ops in (rs, mkPlist l (pl_dirty o || existsb (fun r => match r with Ok _ => true | Err _ => false end) rs) true (pl_old_size o))).
Proof.
  induction ops as [|op ops IH]; intros o M; cbn [lrun lspec existsb].
  - rewrite orb_false_r. destruct o; cbn in *. subst. reflexivity.
  - rewrite (lop_ok o op M). destruct (lop_spec (pl_ptrs o) op) as [l|e].
    + rewrite IH by exact M. cbn [pl_ptrs pl_change pl_dirty pl_old_size]. destruct (lspec l ops) as [rs l2]. cbn [existsb orb]. rewrite !orb_true_r. reflexivity.
    + rewrite IH by exact M. destruct (lspec (pl_ptrs o) ops) as [rs l2]. reflexivity.
Qed.
Theorem C76_list_history : forall ops o, pl_mutable o = true ->
  let (rs, o') := lrun o ops in
  (rs, pl_ptrs o') = lspec (pl_ptrs o) ops /\ (pl_dirty o' = true <-> pl_dirty o = true \/ In (Ok tt) rs).
Proof.
  intros ops o M. rewrite (lrun_ok ops o M). destruct (lspec (pl_ptrs o) ops) as [rs l]. split; [reflexivity|]. cbn [pl_dirty]. rewrite orb_true_iff, existsb_exists. split; (intros [H|H]; [left; exact H|right]).
  - destruct H as ([[]|e] & H1 & H2); [exact H1|discriminate H2].
  - exists (Ok tt). auto.
Qed.
Print Assumptions C76_list_history.
(** So it is from the moment a list is read or created: it can be changed. *)
Theorem C76_new_list : forall w l ops,
  let (rs, o') := lrun (plist_new w l) ops in
  (rs, pl_ptrs o') = lspec l ops /\ (pl_dirty o' = true <-> In (Ok tt) rs).
Proof.
  intros w l ops. pose proof (C76_list_history ops (plist_new w l) eq_refl) as H. destruct (lrun (plist_new w l) ops) as [rs o']. destruct H as [H1 H2].
  split; [exact H1|]. rewrite H2. cbn. split; [intros [X|X]; [discriminate X|exact X]|auto].
Qed.
Print Assumptions C76_new_list.
(** A list that is not mutable refuses every change. *)
Theorem C76_immutable : forall o op, pl_mutable o = false -> exists e, perform_lop o op = Err e.
Proof.
  intros o [p|i p ap|i] M; cbn [perform_lop]; [unfold pl_append|unfold pl_set|unfold pl_remove_by_index]; rewrite M; cbn [negb];
    repeat match goal with |- context [if ?b then _ else _] => destruct b end; eauto.
Qed.
Print Assumptions C76_immutable.
(** Reading: [l[i]] is the pointer at the position, [iter_pointers(s, e)] are the
    pointers from [s] up to [e]. *)
Lemma skipn_step : forall {A} (l : list A) n x, nth_error l n = Some x -> skipn n l = x :: skipn (S n) l.
Proof. induction l as [|y l IH]; intros [|n] x H; cbn in *; try discriminate; [injection H as ->; reflexivity|exact (IH n x H)]. Qed.
Lemma iter_range_slice : forall l c s, 0 <= s -> s + Z.of_nat c <= zlen l -> iter_range (get_by_index l) s c = Ok (firstn c (skipn (Z.to_nat s) l)).
Proof.
  intros l. induction c as [|c IH]; intros s H1 H2; [reflexivity|]. cbn [iter_range]. rewrite get_by_index_znth by exact H1. unfold znth. replace (s <? 0) with false by lia.
  destruct (nth_error l (Z.to_nat s)) as [p|] eqn:E; [|apply nth_error_None in E; unfold zlen in H2; lia]. cbn [bind]. rewrite IH by lia. cbn [bind].
  rewrite (skipn_step l (Z.to_nat s) p E). replace (Z.to_nat (s + 1)) with (S (Z.to_nat s)) by lia. reflexivity.
Qed.
Theorem C76_reads : forall l i s e,
  get_by_index l i = (if (0 <=? position l i) && (position l i <? zlen l) then match nth_error l (Z.to_nat (position l i)) with Some p => Ok p | None => Err Diverge end else Err IndexError) /\
  (0 <= s <= e -> e <= zlen l -> iter_pointers l (Some s) (Some e) = Ok (firstn (Z.to_nat (e - s)) (skipn (Z.to_nat s) l))) /\
  iter_pointers l None None = Ok l.
Proof.
  intros l i s e. pose proof (zlen_nonneg l) as ZN.
  assert (IT : forall s e, 0 <= s <= e -> e <= zlen l -> iter_pointers l (Some s) (Some e) = Ok (firstn (Z.to_nat (e - s)) (skipn (Z.to_nat s) l))).
  { clear s e. intros s e H1 H2. unfold iter_pointers, iter_bounds. replace (s <? 0) with false by lia. replace (zlen l <? e) with false by lia. replace (e <? s) with false by lia. apply iter_range_slice; lia. }
  split; [|split; [apply IT|]].
  - unfold get_by_index, py_index, position. destruct (Z.ltb_spec i 0) as [I|I].
    + replace (0 <=? i) with false by lia. cbn [andb]. replace (zlen l + i <? zlen l) with true by lia. rewrite andb_true_r. destruct (Z.leb_spec 0 (zlen l + i)) as [J|J]; [|reflexivity].
      destruct (nth_error l (Z.to_nat (zlen l + i))) eqn:N; [reflexivity|]. apply nth_error_None in N. unfold zlen in *. lia.
    + destruct ((0 <=? i) && (i <? zlen l)) eqn:J; cbn [andb]; [|reflexivity]. destruct (nth_error l (Z.to_nat i)) eqn:N; [reflexivity|]. apply nth_error_None in N. unfold zlen in *. lia.
  - pose proof (IT 0 (zlen l) ltac:(lia) ltac:(lia)) as Q. cbn [Z.to_nat skipn] in Q. rewrite Z.sub_0_r in Q. unfold zlen at 2 in Q. rewrite Nat2Z.id, firstn_all in Q. exact Q.
Qed.
Print Assumptions C76_reads.
Example C76_nontrivial :
  let (rs, o) := lrun (mkPlist [5; 7] false true 16) [LSet 4 9 false; LSet 4 9 true; LSet (-5) 1 false; LSet (-6) 1 false; LRemove 1; LAppend 3; LRemove 9; LSet 5 8 false] in
  rs = [Err IndexError; Ok tt; Ok tt; Err IndexError; Ok tt; Ok tt; Err IndexError; Ok tt] /\ pl_ptrs o = [1; 9; 9; 9; 3; 8] /\ pl_dirty o = true.
Proof. vm_compute. auto. Qed.
