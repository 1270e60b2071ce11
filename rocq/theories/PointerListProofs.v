(** Proofs about pointer lists. *)
From Coq Require Import List ZArith Bool Lia Sorting.Sorted Sorting.Permutation.
From Coq Require Import ZifyBool ZifyNat ZifyN.
From Verif Require Import Base BaseProofs SpaceAllocator SpaceAllocatorProofs PointerList PointerListSpec.
Import ListNotations.
Open Scope Z_scope.

(** *** codec *)
Lemma ptrs_to_bytes_ok : forall w l, Forall (fun p => 0 <= p < 256 ^ Z.of_nat w) l ->
  ptrs_to_bytes w l = Ok (concat (map (le_bytes w) l)).
Proof.
  induction l as [|p l IH]; intro H; [reflexivity|]. inversion H; subst. cbn [ptrs_to_bytes].
  rewrite pack_le_ok by assumption. cbn [bind]. rewrite IH by assumption. reflexivity.
Qed.

Lemma ptrs_to_bytes_inv : forall w l b, ptrs_to_bytes w l = Ok b ->
  Forall (fun p => 0 <= p < 256 ^ Z.of_nat w) l /\ b = concat (map (le_bytes w) l).
Proof.
  induction l as [|p l IH]; intros b H; cbn [ptrs_to_bytes] in H.
  - injection H as <-. auto.
  - destruct (pack_le w p) as [pb|] eqn:E; [|discriminate]. cbn [bind] in H.
    destruct (ptrs_to_bytes w l) as [rb|] eqn:E2; [|discriminate]. cbn [bind] in H. injection H as <-.
    apply pack_le_inv in E as [E1 ->]. destruct (IH rb eq_refl) as [H1 ->]. split; [constructor; assumption|reflexivity].
Qed.

Lemma concat_le_len : forall w l, zlen (concat (map (le_bytes w) l)) = Z.of_nat w * zlen l.
Proof.
  induction l as [|p l IH]; cbn [map concat]; [rewrite zlen_nil, Z.mul_0_r; reflexivity|].
  rewrite zlen_app, zlen_le_bytes, IH, zlen_cons. lia.
Qed.

Lemma unpack_concat : forall w l r, Forall (fun p => 0 <= p < 256 ^ Z.of_nat w) l ->
  unpack_n w (length l) (concat (map (le_bytes w) l) ++ r) = l.
Proof.
  induction l as [|p l IH]; intros r H; [reflexivity|]. inversion H; subst. cbn [length unpack_n map concat].
  rewrite <- app_assoc. rewrite firstn_app, le_bytes_len, Nat.sub_diag. cbn [firstn]. rewrite app_nil_r.
  rewrite firstn_all2 by (rewrite le_bytes_len; lia). rewrite le_val_bytes by assumption.
  rewrite skipn_app, le_bytes_len, Nat.sub_diag, skipn_all2 by (rewrite le_bytes_len; lia). cbn [app skipn].
  rewrite IH by assumption. reflexivity.
Qed.

Lemma ptrs_roundtrip : forall w l b, (0 < w)%nat -> ptrs_to_bytes w l = Ok b ->
  ptrs_from_bytes w b = Ok l /\ zlen b = ptrs_disk_size w l.
Proof.
  intros w l b Hw H. apply ptrs_to_bytes_inv in H as [H ->]. split; [|apply concat_le_len].
  unfold ptrs_from_bytes. rewrite concat_le_len, Z.mul_comm, Z_mod_mult, Z_div_mult by lia. cbn [negb Z.eqb].
  unfold zlen. rewrite Nat2Z.id. rewrite <- (app_nil_r (concat _)), unpack_concat by assumption. reflexivity.
Qed.

Lemma unpack_range : forall w n s, Forall (fun p => 0 <= p < 256 ^ Z.of_nat w) (unpack_n w n s).
Proof.
  induction n as [|n IH]; intro s; cbn [unpack_n]; constructor; [|apply IH].
  pose proof (le_val_range (firstn w s)). assert (zlen (firstn w s) <= Z.of_nat w) by (unfold zlen; rewrite firstn_length; lia).
  assert (256 ^ zlen (firstn w s) <= 256 ^ Z.of_nat w) by (apply Z.pow_le_mono_r; lia). lia.
Qed.


Lemma concat_unpack : forall w n s, length s = (w * n)%nat -> concat (map (le_bytes w) (unpack_n w n s)) = s.
Proof.
  induction n as [|n IH]; intros s H; cbn [unpack_n map concat].
  - rewrite Nat.mul_0_r in H. apply length_zero_iff_nil in H. auto.
  - rewrite IH by (rewrite skipn_length; lia).
    replace w with (length (firstn w s)) at 1 by (rewrite firstn_length; lia).
    rewrite le_bytes_val. apply firstn_skipn.
Qed.

(** every byte string of a whole number of pointers is the form of its list *)
Lemma ptrs_bytes_roundtrip : forall w s l, (0 < w)%nat -> ptrs_from_bytes w s = Ok l -> ptrs_to_bytes w l = Ok s.
Proof.
  intros w s l Hw H. unfold ptrs_from_bytes in H. destruct (zlen s mod Z.of_nat w =? 0) eqn:E; [|discriminate]. cbn in H.
  injection H as <-. rewrite ptrs_to_bytes_ok by apply unpack_range. rewrite concat_unpack; [reflexivity|].
  apply Z.eqb_eq in E. pose proof (Z.div_mod (zlen s) (Z.of_nat w) ltac:(lia)) as D. rewrite E, Z.add_0_r in D.
  pose proof (Z.div_pos (zlen s) (Z.of_nat w) (zlen_nonneg s) ltac:(lia)).
  unfold zlen in *. nia.
Qed.

Lemma ptrs_from_bytes_iff : forall w s, (0 < w)%nat ->
  (exists l, ptrs_from_bytes w s = Ok l) <-> (Z.of_nat w | zlen s).
Proof.
  intros w s Hw. unfold ptrs_from_bytes. rewrite <- Z.mod_divide by lia.
  destruct (zlen s mod Z.of_nat w =? 0) eqn:E; cbn; split; intro H; try lia; eauto.
  destruct H; discriminate.
Qed.

Lemma ptrs_from_file_ok : forall w l b f seek, ptrs_to_bytes w l = Ok b -> fread f seek (zlen b) = b ->
  ptrs_from_file w f (zlen l) seek = Ok l.
Proof.
  intros w l b f seek H Hf. apply ptrs_to_bytes_inv in H as [H ->]. rewrite concat_le_len in Hf.
  unfold ptrs_from_file. pose proof (zlen_nonneg l). replace (zlen l <? 0) with false by lia.
  rewrite Hf, concat_le_len, Z.eqb_refl. unfold zlen. rewrite Nat2Z.id.
  rewrite <- (app_nil_r (concat _)), unpack_concat by assumption. reflexivity.
Qed.

(** *** index access *)
Lemma get_by_index_valid : forall l i, 0 <= i < zlen l -> exists p, znth l i = Some p /\ get_by_index l i = Ok p.
Proof.
  intros l i H. unfold get_by_index, py_index, znth. replace (i <? 0) with false by lia.
  replace ((0 <=? i) && (i <? zlen l)) with true by lia.
  destruct (nth_error l (Z.to_nat i)) eqn:E; [eauto|]. apply nth_error_None in E. unfold zlen in H. lia.
Qed.

Lemma get_by_index_znth : forall l i, 0 <= i -> get_by_index l i = match znth l i with Some p => Ok p | None => Err IndexError end.
Proof.
  intros l i H. unfold get_by_index, py_index, znth. replace (i <? 0) with false by lia.
  destruct (nth_error l (Z.to_nat i)) eqn:E.
  - assert (i < zlen l) by (unfold zlen; assert (Z.to_nat i < length l)%nat by (apply nth_error_Some; congruence); lia).
    replace ((0 <=? i) && (i <? zlen l)) with true by lia. rewrite E. reflexivity.
  - apply nth_error_None in E. replace ((0 <=? i) && (i <? zlen l)) with false by (unfold zlen; lia). reflexivity.
Qed.

Lemma znth_app_l : forall {A} (a b : list A) i, i < zlen a -> znth (a ++ b) i = znth a i.
Proof. intros. unfold znth. destruct (i <? 0) eqn:E; [reflexivity|]. apply nth_error_app1. unfold zlen in *. lia. Qed.
Lemma znth_app_r : forall {A} (a b : list A) i, zlen a <= i -> znth (a ++ b) i = znth b (i - zlen a).
Proof.
  intros. unfold znth. pose proof (zlen_nonneg a). replace (i <? 0) with false by lia. replace (i - zlen a <? 0) with false by lia.
  rewrite nth_error_app2 by (unfold zlen in *; lia). f_equal. unfold zlen. lia.
Qed.
Lemma znth_some : forall {A} (l : list A) i x, znth l i = Some x -> 0 <= i < zlen l.
Proof.
  intros A l i x H. unfold znth in H. destruct (i <? 0) eqn:E; [discriminate|].
  assert (Z.to_nat i < length l)%nat by (apply nth_error_Some; congruence). unfold zlen. lia.
Qed.
Lemma znth_in : forall {A} (l : list A) i x, znth l i = Some x -> In x l.
Proof. intros A l i x H. unfold znth in H. destruct (i <? 0); [discriminate|]. eapply nth_error_In; eauto. Qed.
Lemma in_znth : forall {A} (l : list A) x, In x l -> exists i, znth l i = Some x.
Proof.
  intros A l x H. apply In_nth_error in H as [n H]. exists (Z.of_nat n). unfold znth.
  replace (Z.of_nat n <? 0) with false by lia. rewrite Nat2Z.id. exact H.
Qed.
Lemma znth_cons_0 : forall {A} (x : A) l, znth (x :: l) 0 = Some x.
Proof. reflexivity. Qed.
Lemma znth_none : forall {A} (l : list A) i, 0 <= i -> (znth l i = None <-> zlen l <= i).
Proof.
  intros A l i H. unfold znth. replace (i <? 0) with false by lia. rewrite nth_error_None. unfold zlen. lia.
Qed.

(** *** binary search *)
Lemma ssorted_nth : forall ks, StronglySorted ble ks -> forall i j a b, znth ks i = Some a -> znth ks j = Some b -> i <= j -> ble a b.
Proof.
  induction 1 as [|x l S IH F]; intros i j a b Ha Hb Hij; [unfold znth in Ha; destruct (i <? 0); [discriminate|]; destruct (Z.to_nat i); discriminate|].
  pose proof (znth_some _ _ _ Ha). pose proof (znth_some _ _ _ Hb).
  assert (Ei : i = 0 \/ 0 < i) by lia. assert (Ej : j = 0 \/ 0 < j) by lia.
  assert (Sh : forall z c, 0 < z -> znth (x :: l) z = Some c -> znth l (z - 1) = Some c).
  { intros z c Hz H1. change (x :: l) with ([x] ++ l) in H1. rewrite znth_app_r in H1 by (rewrite zlen_cons, zlen_nil; lia). exact H1. }
  destruct Ei as [->|Hi].
  - injection Ha as <-. destruct Ej as [->|Hj].
    + injection Hb as <-. apply bltb_irrefl.
    + rewrite Forall_forall in F. apply F. eapply znth_in. apply Sh; eauto.
  - destruct Ej as [->|Hj]; [lia|]. apply (IH (i - 1) (j - 1)); [apply Sh; auto|apply Sh; auto|lia].
Qed.

Definition splits (ks : list bytes) (element : bytes) (r : Z) : Prop :=
  0 <= r <= zlen ks /\
  (forall i k, i < r -> znth ks i = Some k -> bltb k element = true) /\
  (forall i k, r <= i -> znth ks i = Some k -> bltb k element = false).

Section Search.
Variable ks : list bytes.
Variable keyat : Z -> res bytes.
Hypothesis Hkey : forall i k, znth ks i = Some k -> keyat i = Ok k.
Hypothesis Hsorted : StronglySorted ble ks.

Lemma bsearch_loop_spec : forall fuel element s e, 0 <= s <= e -> e <= zlen ks -> e - s <= Z.of_nat fuel ->
  (forall i k, i < s -> znth ks i = Some k -> bltb k element = true) ->
  (forall i k, e <= i -> znth ks i = Some k -> bltb k element = false) ->
  exists r, bsearch_loop fuel keyat element s e = Ok r /\ s <= r <= e /\ splits ks element r.
Proof.
  induction fuel as [|fuel IH]; intros element s e Hse He Hf Hlo Hhi; cbn [bsearch_loop].
  - replace (s <? e) with false by lia. exists s. split; [reflexivity|]. split; [lia|]. unfold splits. split; [lia|].
    split; [exact Hlo|]. intros i k Hi. apply Hhi. lia.
  - destruct (s <? e) eqn:E.
    + assert (Hm : s <= (s + e) / 2 < e) by (split; [apply Z.div_le_lower_bound; lia|apply Z.div_lt_upper_bound; lia]).
      set (mid := (s + e) / 2) in *.
      destruct (znth ks mid) as [k|] eqn:Ek; [|apply znth_none in Ek; lia].
      rewrite (Hkey _ _ Ek). cbn [bind]. destruct (bltb k element) eqn:B.
      * destruct (IH element (mid + 1) e) as (r & H1 & H2 & H3); try lia; auto.
        { intros i k' Hi Hk'. destruct (bltb k' element) eqn:B'; [reflexivity|].
          assert (ble k' k) by (eapply ssorted_nth; [exact Hsorted|exact Hk'|exact Ek|lia]).
          unfold ble in H. rewrite (bltb_le_trans _ _ _ H B) in B'. discriminate. }
        exists r. split; [exact H1|]. split; [lia|exact H3].
      * destruct (IH element s mid) as (r & H1 & H2 & H3); try lia; auto.
        { intros i k' Hi Hk'. assert (ble k k') by (eapply ssorted_nth; [exact Hsorted|exact Ek|exact Hk'|lia]).
          apply (ble_trans _ k); assumption. }
        exists r. split; [exact H1|]. split; [lia|exact H3].
    + exists s. split; [reflexivity|]. split; [lia|]. unfold splits. split; [lia|]. split; [exact Hlo|].
      intros i k Hi. apply Hhi. lia.
Qed.

Lemma binarysearch_spec : forall element, exists r, binarysearch (zlen ks) keyat element = Ok r /\ splits ks element r.
Proof.
  intro element. unfold binarysearch. pose proof (zlen_nonneg ks). destruct (zlen ks =? 0) eqn:E.
  - exists 0. split; [reflexivity|]. unfold splits. split; [lia|].
    split; intros i k Hi Hk; apply znth_some in Hk; lia.
  - destruct (bsearch_loop_spec (Z.to_nat (zlen ks)) element 0 (zlen ks)) as (r & H1 & H2 & H3); try lia.
    + intros i k Hi Hk. apply znth_some in Hk. lia.
    + intros i k Hi Hk. apply znth_some in Hk. lia.
    + eauto.
Qed.

End Search.



(** Termination and range for arbitrary, even unsorted, lists. *)
Lemma bsearch_range : forall fuel keyat element s e, 0 <= s <= e -> e - s <= Z.of_nat fuel ->
  match bsearch_loop fuel keyat element s e with
  | Ok r => s <= r <= e
  | Err x => exists i, s <= i < e /\ keyat i = Err x
  end.
Proof.
  induction fuel as [|fuel IH]; intros keyat element s e Hse Hf; cbn [bsearch_loop].
  - replace (s <? e) with false by lia. lia.
  - destruct (s <? e) eqn:E; [|lia].
    assert (Hm : s <= (s + e) / 2 < e) by (split; [apply Z.div_le_lower_bound; lia|apply Z.div_lt_upper_bound; lia]).
    set (mid := (s + e) / 2) in *. destruct (keyat mid) as [k|x] eqn:K; cbn [bind]; [|exists mid; split; [lia|exact K]].
    destruct (bltb k element).
    + specialize (IH keyat element (mid + 1) e ltac:(lia) ltac:(lia)).
      destruct (bsearch_loop _ _ _ _ _); [lia|]. destruct IH as (i & H1 & H2). exists i. split; [lia|exact H2].
    + specialize (IH keyat element s mid ltac:(lia) ltac:(lia)).
      destruct (bsearch_loop _ _ _ _ _); [lia|]. destruct IH as (i & H1 & H2). exists i. split; [lia|exact H2].
Qed.

Lemma bsearch_total : forall n keyat element, 0 <= n ->
  match binarysearch n keyat element with
  | Ok r => 0 <= r <= n
  | Err x => exists i, 0 <= i < n /\ keyat i = Err x
  end.
Proof.
  intros n keyat element H. unfold binarysearch. destruct (n =? 0) eqn:E; [lia|].
  apply bsearch_range; lia.
Qed.

Definition accessor_of (l : list Z) (g : Z -> res Z) : Prop := forall i p, znth l i = Some p -> g i = Ok p.


Lemma get_by_index_accessor : forall l, accessor_of l (get_by_index l).
Proof. intros l i p H. rewrite get_by_index_znth by (apply znth_some in H; lia). rewrite H. reflexivity. Qed.

Lemma splits_app : forall ks element r, splits ks element r ->
  exists lo hi, ks = lo ++ hi /\ zlen lo = r /\ Forall (fun k => bltb k element = true) lo /\ Forall (fun k => bltb k element = false) hi.
Proof.
  intros ks element r (H1 & H2 & H3). exists (ztake r ks), (zskip r ks). rewrite ztake_zskip.
  split; [reflexivity|]. split; [rewrite ztake_len; lia|]. split; apply Forall_forall; intros k Hk; apply in_znth in Hk as [i Hi].
  - pose proof (znth_some _ _ _ Hi) as B. rewrite ztake_len in B by lia. apply (H2 i); [lia|].
    rewrite <- (ztake_zskip r ks). rewrite znth_app_l by (rewrite ztake_len; lia). exact Hi.
  - pose proof (znth_some _ _ _ Hi) as B. apply (H3 (i + r)); [lia|].
    rewrite <- (ztake_zskip r ks). rewrite znth_app_r by (rewrite ztake_len; lia).
    rewrite ztake_len by lia. replace (i + r - Z.min r (zlen ks)) with i by lia. exact Hi.
Qed.

Lemma ssorted_ble_app : forall a b, StronglySorted ble (a ++ b) <->
  StronglySorted ble a /\ StronglySorted ble b /\ (forall x y, In x a -> In y b -> ble x y).
Proof.
  induction a as [|x a IH]; intro b; cbn [app].
  - split; [intro H; split; [constructor|]; split; [exact H|]; intros ? ? []|tauto].
  - split.
    + intro H. inversion H as [|? ? H1 H2]; subst. apply IH in H1 as (H3 & H4 & H5). rewrite Forall_forall in H2.
      split; [constructor; [exact H3|apply Forall_forall; intros; apply H2; apply in_or_app; auto]|]. split; [exact H4|].
      intros x' y [<-|Hx] Hy; [apply H2; apply in_or_app; auto|auto].
    + intros (H1 & H2 & H3). inversion H1 as [|? ? H4 H5]; subst. constructor.
      * apply IH. split; [exact H4|]. split; [exact H2|]. intros; apply H3; cbn; auto.
      * rewrite Forall_forall in *. intros y Hy. apply in_app_or in Hy as [Hy|Hy]; [auto|apply H3; cbn; auto].
Qed.

Lemma ssorted_insert : forall lo hi k, StronglySorted ble (lo ++ hi) ->
  Forall (fun x => bltb x k = true) lo -> Forall (fun x => bltb x k = false) hi -> StronglySorted ble (lo ++ k :: hi).
Proof.
  intros lo hi k H Hlo Hhi. apply ssorted_ble_app in H as (H1 & H2 & H3). apply ssorted_ble_app.
  rewrite Forall_forall in Hlo, Hhi. split; [exact H1|]. split.
  - constructor; [exact H2|]. apply Forall_forall. intros y Hy. apply Hhi. exact Hy.
  - intros x y Hx [<-|Hy]; [|apply H3; assumption]. apply bltb_asym. apply Hlo. exact Hx.
Qed.

Lemma ssorted_delete : forall lo k hi, StronglySorted ble (lo ++ k :: hi) -> StronglySorted ble (lo ++ hi).
Proof.
  intros lo k hi H. apply ssorted_ble_app in H as (H1 & H2 & H3). inversion H2; subst. apply ssorted_ble_app.
  split; [exact H1|]. split; [assumption|]. intros x y Hx Hy. apply H3; cbn; auto.
Qed.

Lemma list_insert_mid : forall {A} (a b : list A) x n, n = length a -> list_insert (a ++ b) n x = a ++ x :: b.
Proof. intros A a. induction a as [|y a IH]; intros b x n ->; cbn; [destruct b; reflexivity|]. rewrite IH by reflexivity. reflexivity. Qed.

Lemma list_pop_mid : forall {A} (a b : list A) x n, n = length a -> list_pop (a ++ x :: b) n = a ++ b.
Proof. intros A a. induction a as [|y a IH]; intros b x n ->; cbn; [reflexivity|]. rewrite IH by reflexivity. reflexivity. Qed.

Lemma ssorted_of_adj : forall ks k, StronglySorted ble (k :: ks) <-> StronglySorted ble ks /\ match ks with [] => True | x :: _ => ble k x end.
Proof.
  intros ks k. split.
  - intro H. inversion H; subst. split; [assumption|]. destruct ks; [trivial|]. inversion H3; assumption.
  - intros [H1 H2]. constructor; [exact H1|]. destruct ks as [|x ks]; [constructor|]. constructor; [exact H2|].
    inversion H1 as [|? ? H3 H4]; subst. eapply Forall_impl; [|exact H4]. intros y Hy. unfold ble in *. eapply ble_trans; eauto.
Qed.

(** *** ordered lists *)
Section OrderedProofs.
Variable keyf : Z -> res bytes.

Lemma keys_are_nth : forall l ks, keys_are keyf l ks -> forall i,
  match znth l i, znth ks i with
  | Some p, Some k => keyf p = Ok k
  | None, None => True
  | _, _ => False
  end.
Proof.
  intros l ks H i. unfold znth. destruct (i <? 0); [trivial|]. generalize (Z.to_nat i).
  induction H; intros [|n]; cbn; auto. apply IHForall2.
Qed.

Lemma keys_are_len : forall l ks, keys_are keyf l ks -> zlen l = zlen ks.
Proof. intros l ks H. unfold zlen. f_equal. induction H; cbn; congruence. Qed.


(** The general lookup, over any accessor that agrees with the list. *)



Lemma search_gen : forall l g ks element, accessor_of l g -> keys_are keyf l ks -> StronglySorted ble ks ->
  exists r, binarysearch (zlen l) (fun i => do p <- g i ;; keyf p) element = Ok r /\ splits ks element r.
Proof.
  intros l g ks element Hg Hk Hs. rewrite (keys_are_len l ks Hk). apply binarysearch_spec; [|exact Hs].
  intros i k Hi. pose proof (keys_are_nth l ks Hk i) as N. rewrite Hi in N. destruct (znth l i) as [p|] eqn:E; [|tauto].
  rewrite (Hg i p E). exact N.
Qed.

Lemma get_index_gen_spec : forall l g key, accessor_of l g -> sorted_by keyf l ->
  match get_index_gen keyf (zlen l) g key with
  | Ok i => first_with_key keyf l key i
  | Err e => e = KeyError /\ forall p, In p l -> keyf p <> Ok key
  end.
Proof.
  intros l g key Hg (ks & Hk & Hs). destruct (search_gen l g ks key Hg Hk Hs) as (r & Hr & Hr0 & Hlo & Hhi).
  unfold get_index_gen. rewrite Hr. cbn [bind]. pose proof (keys_are_len l ks Hk) as L.
  assert (Hnone : (forall k, znth ks r = Some k -> k <> key) -> forall p, In p l -> keyf p <> Ok key).
  { intros Hne p Hp Hpk. apply in_znth in Hp as [j Hj]. pose proof (keys_are_nth l ks Hk j) as N. rewrite Hj in N.
    destruct (znth ks j) as [k|] eqn:Ej; [|tauto]. rewrite Hpk in N. injection N as <-.
    destruct (Z.lt_trichotomy j r) as [C|[C|C]].
    - specialize (Hlo j key C Ej). rewrite bltb_irrefl in Hlo. discriminate.
    - subst j. apply (Hne key); auto.
    - destruct (znth ks r) as [k|] eqn:Er; [|apply znth_none in Er; [apply znth_some in Ej; lia|lia]].
      apply (Hne k eq_refl). assert (ble k key) by (eapply ssorted_nth; [exact Hs|exact Er|exact Ej|lia]).
      specialize (Hhi r k ltac:(lia) Er). apply bltb_total; assumption. }
  destruct (r =? zlen l) eqn:E.
  - split; [reflexivity|]. apply Hnone. intros k Hkk. apply znth_some in Hkk. lia.
  - pose proof (keys_are_nth l ks Hk r) as N. destruct (znth l r) as [p|] eqn:Er; [|apply znth_none in Er; lia].
    destruct (znth ks r) as [k|] eqn:Ekr; [|tauto]. rewrite (Hg r p Er). cbn [bind]. rewrite N. cbn [bind].
    destruct (beqb k key) eqn:B.
    + apply beqb_eq in B. subst k. split; [eauto|]. intros j q Hj Hq Hqk.
      pose proof (keys_are_nth l ks Hk j) as N2. rewrite Hq in N2. destruct (znth ks j) as [k2|] eqn:Ej; [|tauto].
      rewrite Hqk in N2. injection N2 as <-. specialize (Hlo j key ltac:(lia) Ej). rewrite bltb_irrefl in Hlo. discriminate.
    + split; [reflexivity|]. apply Hnone. intros k' Hk'. injection Hk' as <-. apply beqb_neq. exact B.
Qed.

Lemma get_gen_spec : forall l g key, accessor_of l g -> sorted_by keyf l ->
  match get_gen keyf (zlen l) g key with
  | Ok p => exists i, first_with_key keyf l key i /\ znth l i = Some p /\ keyf p = Ok key
  | Err e => e = KeyError /\ forall p, In p l -> keyf p <> Ok key
  end.
Proof.
  intros l g key Hg Hs. pose proof (get_index_gen_spec l g key Hg Hs) as H. unfold get_gen.
  destruct (get_index_gen keyf (zlen l) g key) as [i|e]; cbn [bind]; [|exact H].
  pose proof H as [(p & Hp & Hk) _]. rewrite (Hg i p Hp). exists i. auto.
Qed.

Lemma has_gen_spec : forall l g key, accessor_of l g -> sorted_by keyf l ->
  exists b, has_gen keyf (zlen l) g key = Ok b /\ (b = true <-> exists p, In p l /\ keyf p = Ok key).
Proof.
  intros l g key Hg Hs. pose proof (get_gen_spec l g key Hg Hs) as H. unfold has_gen.
  destruct (get_gen keyf (zlen l) g key) as [p|e].
  - exists true. split; [reflexivity|]. split; [|reflexivity]. intros _. destruct H as (i & _ & Hi & Hk).
    exists p. split; [eapply znth_in; exact Hi|exact Hk].
  - destruct H as [-> H]. exists false. split; [reflexivity|]. split; [discriminate|]. intros (p & Hp & Hk). exfalso. apply (H p); auto.
Qed.

Lemma find_first_ge_spec : forall l key ks, keys_are keyf l ks -> StronglySorted ble ks ->
  exists r, find_first_ge keyf l key = Ok r /\ splits ks key r.
Proof.
  intros l key ks Hk Hs. exact (search_gen l (get_by_index l) ks key (get_by_index_accessor l) Hk Hs).
Qed.

(** split of the list at the result of the search *)











Lemma keys_are_app_inv : forall l lo hi, keys_are keyf l (lo ++ hi) ->
  exists la lb, l = la ++ lb /\ keys_are keyf la lo /\ keys_are keyf lb hi.
Proof.
  intros l lo hi H. apply Forall2_app_inv_r in H as (la & lb & H1 & H2 & ->). exists la, lb. auto.
Qed.

(** [add] of a pointer under its own key *)
Lemma pl_add_spec : forall o k p i o', sorted_by keyf (pl_ptrs o) -> keyf p = Ok k ->
  pl_add keyf k p o = Ok (i, o') ->
  sorted_by keyf (pl_ptrs o') /\ pl_dirty o' = true /\
  exists a b, pl_ptrs o = a ++ b /\ pl_ptrs o' = a ++ p :: b /\ zlen a = i /\
    (forall q x, In q a -> keyf q = Ok x -> bltb x k = true) /\ (forall q x, In q b -> keyf q = Ok x -> bltb x k = false).
Proof.
  intros o k p i o' (ks & Hk & Hs) Hp H. unfold pl_add in H. destruct (p <? 0); [discriminate|].
  destruct (negb (pl_mutable o)); [discriminate|].
  destruct (find_first_ge_spec (pl_ptrs o) k ks Hk Hs) as (r & Hr & Hsp). unfold find_first_ge in Hr.
  rewrite Hr in H. cbn [bind] in H. injection H as <- <-. cbn [pl_ptrs pl_change pl_dirty].
  apply splits_app in Hsp as (lo & hi & -> & Hl & Hlo & Hhi).
  destruct (keys_are_app_inv _ _ _ Hk) as (la & lb & E & Ha & Hb). pose proof (keys_are_len _ _ Ha) as La.
  rewrite E, list_insert_mid by (unfold zlen in *; lia). split; [|split; [reflexivity|]].
  - exists (lo ++ k :: hi). split; [apply Forall2_app; [exact Ha|constructor; [exact Hp|exact Hb]]|].
    apply ssorted_insert; assumption.
  - exists la, lb. split; [reflexivity|]. split; [reflexivity|]. split; [lia|].
    rewrite Forall_forall in Hlo, Hhi.
    split; intros q x Hq Hx.
    + destruct (in_znth _ _ Hq) as [j Hj]. pose proof (keys_are_nth _ _ Ha j) as N. rewrite Hj in N.
      destruct (znth lo j) eqn:E2; [|tauto]. rewrite Hx in N. injection N as <-. apply Hlo. eapply znth_in; eauto.
    + destruct (in_znth _ _ Hq) as [j Hj]. pose proof (keys_are_nth _ _ Hb j) as N. rewrite Hj in N.
      destruct (znth hi j) eqn:E2; [|tauto]. rewrite Hx in N. injection N as <-. apply Hhi. eapply znth_in; eauto.
Qed.

Lemma pl_add_total : forall o k p, sorted_by keyf (pl_ptrs o) -> 0 <= p -> pl_mutable o = true ->
  exists i o', pl_add keyf k p o = Ok (i, o').
Proof.
  intros o k p (ks & Hk & Hs) Hp M. unfold pl_add. replace (p <? 0) with false by lia. rewrite M. cbn [negb].
  destruct (find_first_ge_spec (pl_ptrs o) k ks Hk Hs) as (r & Hr & _). unfold find_first_ge in Hr. rewrite Hr. cbn. eauto.
Qed.

Lemma pl_remove_spec : forall o k, sorted_by keyf (pl_ptrs o) -> pl_mutable o = true ->
  match pl_remove keyf k o with
  | Ok o' => sorted_by keyf (pl_ptrs o') /\ pl_dirty o' = true /\ pl_mutable o' = true /\
      exists a p b, pl_ptrs o = a ++ p :: b /\ pl_ptrs o' = a ++ b /\ keyf p = Ok k /\ (forall q, In q a -> keyf q <> Ok k)
  | Err e => e = KeyError /\ forall p, In p (pl_ptrs o) -> keyf p <> Ok k
  end.
Proof.
  intros o k (ks & Hk & Hs) M. unfold pl_remove. rewrite M. cbn [negb].
  pose proof (get_index_gen_spec (pl_ptrs o) (get_by_index (pl_ptrs o)) k (get_by_index_accessor _) (ex_intro _ ks (conj Hk Hs))) as G.
  unfold get_index_gen in G. destruct (find_first_ge_spec (pl_ptrs o) k ks Hk Hs) as (r & Hr & Hsp). unfold find_first_ge in Hr.
  change (binarysearch (zlen (pl_ptrs o)) (keyat keyf (pl_ptrs o)) k) with
    (binarysearch (zlen (pl_ptrs o)) (fun i => do p <- get_by_index (pl_ptrs o) i ;; keyf p) k) in *.
  rewrite Hr in *. cbn [bind] in *.
  destruct (r =? zlen (pl_ptrs o)) eqn:E; [exact G|].
  unfold keyat. destruct (get_by_index (pl_ptrs o) r) as [p|] eqn:Ep; [|exact G]. cbn [bind] in *.
  destruct (keyf p) as [kp|] eqn:Ekp; [|exact G]. cbn [bind] in *. destruct (beqb kp k) eqn:B; [|exact G].
  apply beqb_eq in B. subst kp. cbn [pl_ptrs pl_change pl_dirty pl_mutable].
  apply splits_app in Hsp as (lo & hi & -> & Hl & Hlo & Hhi).
  destruct (keys_are_app_inv _ _ _ Hk) as (la & lb & El & Ha & Hb). pose proof (keys_are_len _ _ Ha) as La.
  destruct G as [(p' & Hp' & Hkp') Hfirst]. rewrite El in Hp'. rewrite znth_app_r in Hp' by lia.
  replace (r - zlen la) with 0 in Hp' by lia. destruct lb as [|p0 lb]; [discriminate|]. cbn in Hp'. injection Hp' as ->.
  inversion Hb as [|? k0 ? hi' Hb1 Hb2]; subst. 
  rewrite El, list_pop_mid by (unfold zlen in *; lia). split; [|split; [reflexivity|split; [assumption|]]].
  - exists (lo ++ hi'). split; [apply Forall2_app; assumption|]. eapply ssorted_delete; exact Hs.
  - exists la, p', lb. split; [reflexivity|]. split; [reflexivity|]. split; [assumption|].
    intros q Hq. apply in_znth in Hq as [j Hj]. apply (Hfirst j q); [apply znth_some in Hj; lia|].
    rewrite El, znth_app_l by (apply znth_some in Hj; lia). exact Hj.
Qed.

(** a history keeps the list sorted and matches the multiset specification *)
Lemma pop_spec_perm : forall ops l l' l2, Permutation l l2 -> pop_spec keyf ops l2 l' -> pop_spec keyf ops l l'.
Proof.
  induction ops as [|op ops IH]; intros l l' l2 P H; inversion H; subst.
  - constructor. eapply Permutation_trans; eauto.
  - constructor. eapply IH; [|eassumption]. constructor. exact P.
  - econstructor; [eassumption| |eassumption]. eapply Permutation_trans; eauto.
  - apply PS_absent; [|eapply IH; eauto]. intros q Hq. match goal with X : forall p, In p l2 -> _ |- _ => apply X end.
    eapply Permutation_in; eauto.
Qed.

Lemma pop_history : forall ops o, sorted_by keyf (pl_ptrs o) -> pl_mutable o = true ->
  (forall p, In (PAdd p) ops -> 0 <= p /\ exists k, keyf p = Ok k) ->
  let o' := fold_left (pop_step keyf) ops o in
  sorted_by keyf (pl_ptrs o') /\ pop_spec keyf ops (pl_ptrs o) (pl_ptrs o').
Proof.
  induction ops as [|op ops IH]; intros o Hs M Hv; cbn [fold_left].
  - split; [exact Hs|constructor; apply Permutation_refl].
  - destruct op as [p|k]; cbn [pop_step].
    + destruct (Hv p (or_introl eq_refl)) as (Hp & k & Hk). rewrite Hk.
      destruct (pl_add_total o k p Hs Hp M) as (i & o1 & E). rewrite E.
      destruct (pl_add_spec o k p i o1 Hs Hk E) as (Hs1 & _ & a & b & E1 & E2 & _).
      assert (M1 : pl_mutable o1 = true).
      { unfold pl_add in E. destruct (p <? 0); [discriminate|]. destruct (negb _); [discriminate|].
        destruct (binarysearch _ _ _); [|discriminate]. cbn in E. injection E as <- <-. exact M. }
      destruct (IH o1 Hs1 M1) as [H1 H2]; [intros q Hq; apply Hv; right; exact Hq|].
      split; [exact H1|]. constructor. eapply pop_spec_perm; [|exact H2].
      rewrite E1, E2. apply Permutation_middle.
    + pose proof (pl_remove_spec o k Hs M) as R. destruct (pl_remove keyf k o) as [o1|e] eqn:E.
      * destruct R as (Hs1 & _ & M1 & a & p & b & E1 & E2 & Hk & _).
        destruct (IH o1 Hs1 M1) as [H1 H2]; [intros q Hq; apply Hv; right; exact Hq|].
        split; [exact H1|]. eapply PS_remove; [exact Hk| |exact H2]. rewrite E1, E2. symmetry. apply Permutation_middle.
      * destruct R as [_ R]. destruct (IH o Hs M) as [H1 H2]; [intros q Hq; apply Hv; right; exact Hq|].
        split; [exact H1|]. apply PS_absent; assumption.
Qed.

(** check_sorted succeeds exactly on sorted lists *)


Lemma check_sorted_loop_spec : forall l ks last, keys_are keyf l ks ->
  match check_sorted_loop keyf last l with
  | Ok _ => StronglySorted ble (match last with Some k => k :: ks | None => ks end)
  | Err e => e = UnsortedList /\ ~ StronglySorted ble (match last with Some k => k :: ks | None => ks end)
  end.
Proof.
  induction l as [|p l IH]; intros ks last H; inversion H as [|? k ? ks' Hp Hl]; subst; cbn [check_sorted_loop].
  - destruct last; repeat constructor.
  - rewrite Hp. cbn [bind]. destruct last as [lk|].
    + destruct (bltb k lk) eqn:B.
      * split; [reflexivity|]. intro S. apply ssorted_of_adj in S as [_ S]. unfold ble in S. congruence.
      * specialize (IH ks' (Some k) Hl). destruct (check_sorted_loop keyf (Some k) l) as [u|e].
        -- apply ssorted_of_adj. split; [exact IH|exact B].
        -- destruct IH as [-> IH]. split; [reflexivity|]. intro S. apply ssorted_of_adj in S as [S _]. exact (IH S).
    + exact (IH ks' (Some k) Hl).
Qed.

Lemma check_sorted_iff : forall l ks, keys_are keyf l ks ->
  (check_sorted keyf l = Ok tt <-> sorted_by keyf l).
Proof.
  intros l ks H. pose proof (check_sorted_loop_spec l ks None H) as C. unfold check_sorted.
  assert (U : forall ks', keys_are keyf l ks' -> ks' = ks).
  { clear C. induction H as [|p k l ks Hp Hl IH]; intros ks' H'; inversion H' as [|? k' ? ks'' Hp' Hl']; subst; [reflexivity|].
    f_equal; [congruence|auto]. }
  destruct (check_sorted_loop keyf None l) as [[]|e].
  - split; [|reflexivity]. intros _. exists ks. auto.
  - destruct C as [_ C]. split; [discriminate|]. intros (ks' & Hk' & Hs'). rewrite (U ks' Hk') in Hs'. contradiction.
Qed.
End OrderedProofs.

(** *** mass update *)
Lemma mass_loop_spec : forall diff start end_ l,
  mass_loop diff start end_ l =
    (map (fun p => if in_range start end_ p then p + diff else p) l, existsb (in_range start end_) l).
Proof.
  induction l as [|p l IH]; cbn [mass_loop map existsb]; [reflexivity|]. rewrite IH.
  destruct (in_range start end_ p); reflexivity.
Qed.

Lemma in_range_iff : forall start end_ p, in_range start end_ p = true <->
  (forall s, start = Some s -> s <= p) /\ (forall e, end_ = Some e -> p < e).
Proof.
  intros start end_ p. unfold in_range. destruct start as [s|]; destruct end_ as [e|]; cbn; split; intro H;
    repeat match goal with
    | |- _ /\ _ => split
    | |- forall _, Some _ = Some _ -> _ => let x := fresh in let E := fresh in intros x E; injection E as <-
    | |- forall _, None = Some _ -> _ => discriminate
    end; try lia; destruct H as [H1 H2];
    try (specialize (H1 _ eq_refl)); try (specialize (H2 _ eq_refl)); lia.
Qed.

Lemma mass_update_spec : forall diff start end_ o o', pl_mass_update diff start end_ o = Ok o' ->
  zlen (pl_ptrs o') = zlen (pl_ptrs o) /\
  (forall i p, znth (pl_ptrs o) i = Some p ->
     ((forall s, start = Some s -> s <= p) /\ (forall e, end_ = Some e -> p < e) -> znth (pl_ptrs o') i = Some (p + diff)) /\
     (~ ((forall s, start = Some s -> s <= p) /\ (forall e, end_ = Some e -> p < e)) -> znth (pl_ptrs o') i = Some p)) /\
  (pl_dirty o' = true <-> pl_dirty o = true \/ exists p, In p (pl_ptrs o) /\
     (forall s, start = Some s -> s <= p) /\ (forall e, end_ = Some e -> p < e)) /\
  (pl_dirty o' = false -> pl_ptrs o' = pl_ptrs o).
Proof.
  intros diff start end_ o o' H. unfold pl_mass_update in H.
  match type of H with (if ?c then _ else _) = _ => destruct c; [discriminate|] end.
  rewrite mass_loop_spec in H. injection H as <-. cbn [pl_ptrs pl_dirty].
  split; [unfold zlen; rewrite map_length; reflexivity|]. split.
  - intros i p Hi. unfold znth in *. destruct (i <? 0); [discriminate|].
    rewrite (map_nth_error _ _ _ Hi). rewrite <- in_range_iff. destruct (in_range start end_ p); split; intro X; congruence.
  - assert (Ex : existsb (in_range start end_) (pl_ptrs o) = true <-> exists p, In p (pl_ptrs o) /\
       (forall s, start = Some s -> s <= p) /\ (forall e, end_ = Some e -> p < e)).
    { rewrite existsb_exists. split; intros (p & Hp & Hr); exists p; split; auto; apply in_range_iff; auto. }
    split.
    + destruct (existsb (in_range start end_) (pl_ptrs o)) eqn:E.
      * split; [|reflexivity]. intros _. right. apply Ex. reflexivity.
      * split; [auto|]. intros [D|D]; [exact D|]. apply Ex in D. discriminate.
    + intro D. destruct (existsb (in_range start end_) (pl_ptrs o)) eqn:E; [discriminate|].
      rewrite <- (map_id (pl_ptrs o)) at 2. apply map_ext_in. intros p Hp.
      destruct (in_range start end_ p) eqn:R; [|reflexivity].
      assert (existsb (in_range start end_) (pl_ptrs o) = true) by (apply existsb_exists; eauto). congruence.
Qed.

(** *** on-disk lists *)
Lemma concat_le_sub : forall w l i p r, znth l i = Some p ->
  zsub (i * Z.of_nat w) (Z.of_nat w) (concat (map (le_bytes w) l) ++ r) = le_bytes w p.
Proof.
  intros w l i p r H. pose proof (znth_some _ _ _ H) as B.
  assert (E : exists a b, l = a ++ p :: b /\ zlen a = i).
  { unfold znth in H. destruct (i <? 0) eqn:Ei; [discriminate|]. apply nth_error_split in H as (a & b & -> & L).
    exists a, b. split; [reflexivity|]. unfold zlen. lia. }
  destruct E as (a & b & -> & <-). rewrite map_app, concat_app. cbn [map concat].
  unfold zsub. rewrite <- !app_assoc. rewrite zskip_app_exact by (rewrite concat_le_len; lia).
  apply ztake_app_exact. apply zlen_le_bytes.
Qed.

Lemma od_get_agrees : forall w o l i p, backed_by w o l -> znth l i = Some p -> od_get o i = Ok p.
Proof.
  intros w o l i p (Hw & Hn & Ho & b & Hb & Hf) H. pose proof (znth_some _ _ _ H) as B.
  apply ptrs_to_bytes_inv in Hb as [Hr ->]. unfold od_get. rewrite Hn, Hw.
  replace ((zlen l <=? i) || (i <? 0)) with false by lia.
  assert (E : fread (od_file o) (od_offset o + i * Z.of_nat w) (Z.of_nat w) = le_bytes w p).
  { rewrite <- (concat_le_sub w l i p [] H), app_nil_r, <- Hf. unfold fread, zsub.
    rewrite concat_le_len.
    replace (Z.of_nat w * zlen l) with (i * Z.of_nat w + (Z.of_nat w * zlen l - i * Z.of_nat w)) by lia.
    rewrite ztake_zskip_comm by nia.
    rewrite zskip_zskip by nia. rewrite ztake_ztake. f_equal; [nia|]. f_equal. lia. }
  rewrite E, zlen_le_bytes, Z.eqb_refl. rewrite le_val_bytes; [reflexivity|].
  rewrite Forall_forall in Hr. apply Hr. eapply znth_in; exact H.
Qed.

Lemma iter_range_agree : forall {A} (g h : Z -> res A) c s, (forall i, s <= i < s + Z.of_nat c -> g i = h i) ->
  iter_range g s c = iter_range h s c.
Proof.
  induction c as [|c IH]; intros s H; cbn [iter_range]; [reflexivity|].
  rewrite (H s) by lia. destruct (h s); [|reflexivity]. cbn [bind]. rewrite IH by (intros; apply H; lia). reflexivity.
Qed.

Lemma iter_bounds_agree : forall {A} n (g h : Z -> res A) start end_, (forall i, 0 <= i < n -> g i = h i) ->
  iter_bounds n n g start end_ = iter_bounds n n h start end_.
Proof.
  intros A n g h start end_ H. unfold iter_bounds.
  set (s := match start with None => 0 | Some s => s end). set (e := match end_ with None => n | Some e => e end).
  destruct (s <? 0) eqn:E1; [reflexivity|]. destruct (n <? e) eqn:E2; [reflexivity|]. destruct (e <? s) eqn:E3; [reflexivity|].
  apply iter_range_agree. intros i Hi. apply H. lia.
Qed.

Lemma od_get_same : forall w o l i, backed_by w o l -> 0 <= i -> od_get o i = get_by_index l i.
Proof.
  intros w o l i B Hi. destruct (znth l i) as [p|] eqn:E.
  - rewrite (od_get_agrees w o l i p B E). symmetry. apply get_by_index_accessor. exact E.
  - pose proof E as E'. apply znth_none in E'; [|lia]. rewrite get_by_index_znth, E by lia.
    destruct B as (_ & Hn & _). unfold od_get. replace ((od_n o <=? i) || (i <? 0)) with true by lia. reflexivity.
Qed.

Lemma od_iter_same : forall w o l start end_, backed_by w o l ->
  od_iter_pointers o start end_ = iter_pointers l start end_.
Proof.
  intros w o l start end_ B. unfold od_iter_pointers, iter_pointers. pose proof B as (_ & Hn & _). rewrite Hn.
  apply iter_bounds_agree. intros i Hi. eapply od_get_same; [exact B|lia].
Qed.

Lemma bsearch_agree : forall n g h element, (forall i, 0 <= i < n -> g i = h i) -> 0 <= n ->
  binarysearch n g element = binarysearch n h element.
Proof.
  intros n g h element H Hn. unfold binarysearch. destruct (n =? 0); [reflexivity|].
  assert (G : forall fuel s e, 0 <= s <= e -> e <= n -> bsearch_loop fuel g element s e = bsearch_loop fuel h element s e).
  { induction fuel as [|fuel IH]; intros s e Hs He; cbn [bsearch_loop]; [reflexivity|].
    destruct (s <? e) eqn:E; [|reflexivity].
    assert (Hm : s <= (s + e) / 2 < e) by (split; [apply Z.div_le_lower_bound; lia|apply Z.div_lt_upper_bound; lia]).
    set (mid := (s + e) / 2) in *. rewrite (H mid) by lia. destruct (h mid); [|reflexivity]. cbn [bind].
    destruct (bltb a element); apply IH; lia. }
  apply G; lia.
Qed.

Lemma od_lookup_same : forall keyf w o l key, backed_by w o l ->
  od_get_index keyf o key = get_index keyf l key /\ od_get_key keyf o key = get keyf l key /\
  od_has keyf o key = has keyf l key /\ od_find_first_ge keyf o key = find_first_ge keyf l key.
Proof.
  intros keyf w o l key B. pose proof B as (_ & Hn & _).
  assert (S : binarysearch (zlen l) (fun i => do p <- od_get o i ;; keyf p) key =
              binarysearch (zlen l) (fun i => do p <- get_by_index l i ;; keyf p) key).
  { apply bsearch_agree; [|apply zlen_nonneg]. intros i Hi. rewrite (od_get_same w o l i B) by lia. reflexivity. }
  assert (I : get_index_gen keyf (zlen l) (od_get o) key = get_index_gen keyf (zlen l) (get_by_index l) key).
  { unfold get_index_gen. rewrite S. pose proof (bsearch_total (zlen l) (fun i => do p <- get_by_index l i ;; keyf p) key (zlen_nonneg l)) as T.
    destruct (binarysearch (zlen l) (fun i => do p <- get_by_index l i ;; keyf p) key) as [r|]; [|reflexivity]. cbn [bind]. rewrite (od_get_same w o l r B) by lia. reflexivity. }
  assert (G : get_gen keyf (zlen l) (od_get o) key = get_gen keyf (zlen l) (get_by_index l) key).
  { unfold get_gen. rewrite I. destruct (get_index_gen keyf (zlen l) (get_by_index l) key) as [i|] eqn:E; [|reflexivity].
    cbn [bind]. apply (od_get_same w o l i B).
    unfold get_index_gen in E. pose proof (bsearch_total (zlen l) (fun i => do p <- get_by_index l i ;; keyf p) key (zlen_nonneg l)) as T.
    destruct (binarysearch (zlen l) (fun i => do p <- get_by_index l i ;; keyf p) key) as [r|]; [|discriminate]. cbn [bind] in E. destruct (r =? zlen l); [discriminate|].
    destruct (get_by_index l r) as [p|]; [|discriminate]. cbn [bind] in E. destruct (keyf p) as [k|]; [|discriminate]. cbn [bind] in E.
    destruct (beqb k key); [|discriminate]. injection E as <-. lia. }
  unfold od_get_index, get_index, od_get_key, get, od_has, has, has_gen, od_find_first_ge, find_first_ge, keyat.
  rewrite Hn. rewrite I, G, S. auto.
Qed.

(** *** SimplePointerList: set *)
Lemma list_set_nth : forall {A} (l : list A) k x i, (k < length l)%nat ->
  nth_error (list_set l k x) i = if Nat.eqb i k then Some x else nth_error l i.
Proof.
  induction l as [|y l IH]; intros k x i H; [cbn in H; lia|]. destruct k as [|k]; destruct i as [|i]; cbn; try reflexivity.
  apply IH. cbn in H. lia.
Qed.
Lemma list_set_len : forall {A} (l : list A) k x, length (list_set l k x) = length l.
Proof. induction l as [|y l IH]; intros [|k] x; cbn; auto. Qed.


(** *** reverse lookup *)
Lemma gbp_loop_spec : forall todo l i p, zlen l = i + Z.of_nat todo -> 0 <= i ->
  match gbp_loop l todo i p with
  | Ok r => i <= r < zlen l /\ znth l r = Some p /\ forall j, i <= j < r -> znth l j <> Some p
  | Err e => e = KeyError /\ forall j, i <= j < zlen l -> znth l j <> Some p
  end.
Proof.
  induction todo as [|todo IH]; intros l i p L Hi; cbn [gbp_loop].
  - split; [reflexivity|]. intros; lia.
  - destruct (get_by_index_valid l i ltac:(lia)) as (q & Hq & ->). cbn [bind]. destruct (q =? p) eqn:E.
    + apply Z.eqb_eq in E. subst. split; [lia|]. split; [exact Hq|]. intros; lia.
    + specialize (IH l (i + 1) p ltac:(lia) ltac:(lia)). destruct (gbp_loop l todo (i + 1) p) as [r|e].
      * destruct IH as (H1 & H2 & H3). split; [lia|]. split; [exact H2|]. intros j Hj.
        destruct (Z.eq_dec j i) as [->|]; [rewrite Hq; intro X; injection X; lia|apply H3; lia].
      * destruct IH as (H1 & H2). split; [exact H1|]. intros j Hj.
        destruct (Z.eq_dec j i) as [->|]; [rewrite Hq; intro X; injection X; lia|apply H2; lia].
Qed.

Lemma get_by_pointer_spec : forall l p,
  match get_by_pointer l p with
  | Ok r => znth l r = Some p /\ forall j, 0 <= j < r -> znth l j <> Some p
  | Err e => e = KeyError /\ ~ In p l
  end.
Proof.
  intros l p. unfold get_by_pointer. pose proof (gbp_loop_spec (length l) l 0 p ltac:(unfold zlen; lia) ltac:(lia)) as H.
  destruct (gbp_loop l (length l) 0 p) as [r|e].
  - destruct H as (_ & H2 & H3). auto.
  - destruct H as [H1 H2]. split; [exact H1|]. intro Hi. apply in_znth in Hi as [j Hj].
    apply (H2 j); [eapply znth_some; exact Hj|exact Hj].
Qed.


