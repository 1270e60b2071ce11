(** Lemmas about the common vocabulary. *)
From Coq Require Import List ZArith NArith Lia Bool.
From Coq Require Import Init.Byte.
From Coq Require Strings.Byte.
From Coq Require Import ZifyBool ZifyNat ZifyN.
From Verif Require Import Base.
Import ListNotations.
Open Scope Z_scope.

Lemma Zb_range : forall b, 0 <= Zb b < 256.
Proof.
  intro b. unfold Zb. pose proof (Byte.to_N_bounded b) as H. lia.
Qed.

Lemma of_N_some : forall n, (n < 256)%N -> exists b, Byte.of_N n = Some b.
Proof.
  intros n H. destruct (Byte.of_N n) eqn:E; [eauto|].
  apply Byte.of_N_None_iff in E. lia.
Qed.

Lemma Zb_bZ : forall z, Zb (bZ z) = z mod 256.
Proof.
  intro z. unfold bZ, Zb.
  pose proof (Z.mod_pos_bound z 256 eq_refl) as R.
  destruct (of_N_some (Z.to_N (z mod 256))) as [b Hb]; [lia|].
  rewrite Hb. apply Byte.to_of_N in Hb. rewrite Hb. lia.
Qed.

Lemma bZ_Zb : forall b, bZ (Zb b) = b.
Proof.
  intro b. unfold bZ. pose proof (Zb_range b) as R.
  rewrite Z.mod_small by lia. unfold Zb. rewrite N2Z.id, Byte.of_to_N. reflexivity.
Qed.

Lemma Zb_inj : forall a b, Zb a = Zb b -> a = b.
Proof. intros a b H. rewrite <- (bZ_Zb a), <- (bZ_Zb b), H. reflexivity. Qed.

Lemma Zb_bZ_small : forall z, 0 <= z < 256 -> Zb (bZ z) = z.
Proof. intros z H. rewrite Zb_bZ. apply Z.mod_small; lia. Qed.

Lemma beqb_eq : forall a b, beqb a b = true <-> a = b.
Proof.
  induction a as [|x a IH]; intros [|y b]; cbn; try (split; congruence).
  rewrite andb_true_iff, IH. split.
  - intros [H ->]. apply Byte.byte_dec_bl in H. congruence.
  - intros H. injection H as -> ->. split; auto. apply Byte.byte_dec_lb; reflexivity.
Qed.

Lemma beqb_refl : forall a, beqb a a = true.
Proof. intro a. apply beqb_eq. reflexivity. Qed.

Lemma beqb_neq : forall a b, beqb a b = false <-> a <> b.
Proof.
  intros a b. destruct (beqb a b) eqn:E.
  - apply beqb_eq in E. split; congruence.
  - split; [|reflexivity]. intros _ H. apply beqb_eq in H. congruence.
Qed.

Lemma byte_eqb_Zb : forall x y, Byte.eqb x y = (Zb x =? Zb y).
Proof.
  intros x y. destruct (Zb x =? Zb y) eqn:E.
  - apply Z.eqb_eq, Zb_inj in E. subst. apply Byte.byte_dec_lb; reflexivity.
  - destruct (Byte.eqb x y) eqn:F; [|reflexivity].
    apply Byte.byte_dec_bl in F. subst. rewrite Z.eqb_refl in E. discriminate.
Qed.

(** *** the order on byte strings is a strict total order *)
Lemma bltb_irrefl : forall a, bltb a a = false.
Proof.
  induction a as [|x a IH]; cbn; [reflexivity|].
  rewrite IH, andb_false_r, orb_false_r. apply Z.ltb_irrefl.
Qed.

Lemma bltb_trans : forall a b c, bltb a b = true -> bltb b c = true -> bltb a c = true.
Proof.
  induction a as [|x a IH]; intros [|y b] [|z c]; cbn; intros H1 H2; try congruence.
  rewrite orb_true_iff, andb_true_iff in *. rewrite Z.ltb_lt, Z.eqb_eq in *.
  destruct H1 as [H1|[H1 H1']], H2 as [H2|[H2 H2']]; try (left; lia).
  right. split; [lia|]. eauto.
Qed.

Lemma bltb_total : forall a b, bltb a b = false -> bltb b a = false -> a = b.
Proof.
  induction a as [|x a IH]; intros [|y b]; cbn; intros H1 H2; try congruence.
  rewrite orb_false_iff, andb_false_iff in *. rewrite Z.ltb_ge, Z.eqb_neq in *.
  assert (Zb x = Zb y) by lia. f_equal.
  - apply Zb_inj; assumption.
  - apply IH; [destruct H1 as [_ [H1|H1]]|destruct H2 as [_ [H2|H2]]]; congruence.
Qed.

Lemma bltb_asym : forall a b, bltb a b = true -> bltb b a = false.
Proof.
  intros a b H. destruct (bltb b a) eqn:E; [|reflexivity].
  pose proof (bltb_trans _ _ _ H E) as T. rewrite bltb_irrefl in T. discriminate.
Qed.

Lemma bltb_le_trans : forall a b c, bltb b a = false -> bltb b c = true -> bltb a c = true.
Proof.
  intros a b c H1 H2. destruct (bltb a b) eqn:E.
  - eapply bltb_trans; eauto.
  - rewrite (bltb_total a b); auto.
Qed.

Lemma bltb_lt_le_trans : forall a b c, bltb a b = true -> bltb c b = false -> bltb a c = true.
Proof.
  intros a b c H1 H2. destruct (bltb b c) eqn:E.
  - eapply bltb_trans; eauto.
  - rewrite (bltb_total b c) in H1; auto.
Qed.

Lemma ble_trans : forall a b c, bltb b a = false -> bltb c b = false -> bltb c a = false.
Proof.
  intros a b c H1 H2. destruct (bltb c a) eqn:E; [|reflexivity].
  pose proof (bltb_lt_le_trans _ _ _ E H1). congruence.
Qed.

Lemma bprefix_iff : forall p s, bprefix p s = true <-> exists r, s = p ++ r.
Proof.
  induction p as [|x p IH]; intros s; cbn.
  - split; eauto.
  - destruct s as [|y s].
    + split; [discriminate|]. intros [r H]. discriminate.
    + rewrite andb_true_iff, IH. split.
      * intros [H [r ->]]. apply Byte.byte_dec_bl in H. subst. eauto.
      * intros [r H]. injection H as -> ->. split; [apply Byte.byte_dec_lb; reflexivity|eauto].
Qed.

(** *** lengths and slices *)
Lemma zlen_nonneg : forall {A} (l : list A), 0 <= zlen l.
Proof. intros. unfold zlen. lia. Qed.

Lemma zlen_nil : forall {A}, zlen (@nil A) = 0.
Proof. reflexivity. Qed.

Lemma zlen_cons : forall {A} (x : A) l, zlen (x :: l) = 1 + zlen l.
Proof. intros. unfold zlen. cbn [length]. lia. Qed.

Lemma zlen_app : forall {A} (a b : list A), zlen (a ++ b) = zlen a + zlen b.
Proof. intros. unfold zlen. rewrite app_length. lia. Qed.

Lemma zlen_repeat : forall {A} (x : A) n, zlen (repeat x n) = Z.of_nat n.
Proof. intros. unfold zlen. rewrite repeat_length. reflexivity. Qed.

Lemma zlen_0 : forall {A} (l : list A), zlen l = 0 -> l = [].
Proof. intros A [|x l]; unfold zlen; cbn; [reflexivity|lia]. Qed.

Lemma ztake_len : forall {A} n (l : list A), 0 <= n -> zlen (ztake n l) = Z.min n (zlen l).
Proof. intros. unfold zlen, ztake. rewrite firstn_length. lia. Qed.

Lemma zskip_len : forall {A} n (l : list A), 0 <= n -> zlen (zskip n l) = Z.max 0 (zlen l - n).
Proof. intros. unfold zlen, zskip. rewrite skipn_length. lia. Qed.


Lemma zskip_0 : forall {A} (l : list A), zskip 0 l = l.
Proof. reflexivity. Qed.

Lemma ztake_neg : forall {A} n (l : list A), n <= 0 -> ztake n l = [].
Proof. intros. unfold ztake. replace (Z.to_nat n) with 0%nat by lia. reflexivity. Qed.

Lemma zskip_neg : forall {A} n (l : list A), n <= 0 -> zskip n l = l.
Proof. intros. unfold zskip. replace (Z.to_nat n) with 0%nat by lia. reflexivity. Qed.

Lemma ztake_all : forall {A} n (l : list A), zlen l <= n -> ztake n l = l.
Proof. intros. unfold ztake. apply firstn_all2. unfold zlen in *. lia. Qed.

Lemma zskip_all : forall {A} n (l : list A), zlen l <= n -> zskip n l = [].
Proof. intros. unfold zskip. apply skipn_all2. unfold zlen in *. lia. Qed.

Lemma ztake_zskip : forall {A} n (l : list A), ztake n l ++ zskip n l = l.
Proof. intros. apply firstn_skipn. Qed.

Lemma zskip_zskip : forall {A} a b (l : list A), 0 <= a -> 0 <= b -> zskip a (zskip b l) = zskip (a + b) l.
Proof.
  intros A a b l Ha Hb. unfold zskip.
  replace (Z.to_nat (a + b)) with (Z.to_nat b + Z.to_nat a)%nat by lia.
  generalize (Z.to_nat b) as m. generalize (Z.to_nat a) as n. clear.
  intros n m; revert l. induction m as [|m IH]; intros l; cbn; [reflexivity|].
  destruct l; [apply skipn_nil|apply IH].
Qed.

Lemma ztake_ztake : forall {A} a b (l : list A), ztake a (ztake b l) = ztake (Z.min a b) l.
Proof.
  intros. unfold ztake. rewrite firstn_firstn. f_equal. lia.
Qed.

Lemma ztake_app_l : forall {A} n (a b : list A), n <= zlen a -> ztake n (a ++ b) = ztake n a.
Proof.
  intros. unfold ztake, zlen in *. rewrite firstn_app.
  replace (Z.to_nat n - length a)%nat with 0%nat by lia. cbn. apply app_nil_r.
Qed.

Lemma ztake_app_exact : forall {A} n (a b : list A), zlen a = n -> ztake n (a ++ b) = a.
Proof. intros. rewrite ztake_app_l by lia. apply ztake_all. lia. Qed.

Lemma ztake_app_r : forall {A} n (a b : list A), zlen a <= n -> ztake n (a ++ b) = a ++ ztake (n - zlen a) b.
Proof.
  intros. unfold ztake, zlen in *. rewrite firstn_app.
  rewrite firstn_all2 by lia. f_equal. f_equal. lia.
Qed.

Lemma zskip_app_l : forall {A} n (a b : list A), n <= zlen a -> zskip n (a ++ b) = zskip n a ++ b.
Proof.
  intros. unfold zskip, zlen in *. rewrite skipn_app.
  replace (Z.to_nat n - length a)%nat with 0%nat by lia. reflexivity.
Qed.

Lemma zskip_app_r : forall {A} n (a b : list A), zlen a <= n -> zskip n (a ++ b) = zskip (n - zlen a) b.
Proof.
  intros. unfold zskip, zlen in *. rewrite skipn_app.
  rewrite skipn_all2 by lia. cbn. f_equal. lia.
Qed.

Lemma zskip_app_exact : forall {A} n (a b : list A), zlen a = n -> zskip n (a ++ b) = b.
Proof. intros. rewrite zskip_app_r by lia. replace (n - zlen a) with 0 by lia. reflexivity. Qed.

Lemma ztake_zskip_comm : forall {A} a b (l : list A), 0 <= a -> 0 <= b ->
  zskip a (ztake (a + b) l) = ztake b (zskip a l).
Proof.
  intros A a b l Ha Hb. unfold ztake, zskip.
  replace (Z.to_nat (a + b)) with (Z.to_nat a + Z.to_nat b)%nat by lia.
  rewrite skipn_firstn_comm. f_equal. lia.
Qed.

Lemma zsub_len : forall {A} i n (l : list A), 0 <= i -> 0 <= n -> i + n <= zlen l -> zlen (zsub i n l) = n.
Proof. intros. unfold zsub. rewrite ztake_len, zskip_len by lia. lia. Qed.


Lemma ztake_add : forall {A} a b (l : list A), 0 <= a -> 0 <= b ->
  ztake (a + b) l = ztake a l ++ ztake b (zskip a l).
Proof.
  intros A a b l Ha Hb.
  rewrite <- (ztake_zskip a (ztake (a + b) l)).
  rewrite ztake_ztake, Z.min_l by lia. f_equal. apply ztake_zskip_comm; lia.
Qed.

Lemma nth_error_ext : forall {A} (l r : list A), (forall i, nth_error l i = nth_error r i) -> l = r.
Proof.
  induction l as [|x l IH]; intros [|y r] H; try reflexivity.
  - specialize (H 0%nat). discriminate.
  - specialize (H 0%nat). discriminate.
  - pose proof (H 0%nat) as H0. injection H0 as ->. f_equal. apply IH. intro i. apply (H (S i)).
Qed.

Lemma nth_error_firstn : forall {A} (l : list A) n i,
  nth_error (firstn n l) i = if (i <? n)%nat then nth_error l i else None.
Proof.
  induction l as [|x l IH]; intros n i.
  - rewrite firstn_nil. destruct (i <? n)%nat; destruct i; reflexivity.
  - destruct n as [|n]; [destruct i; reflexivity|]. cbn [firstn].
    destruct i as [|i]; [reflexivity|]. cbn [nth_error]. rewrite IH. reflexivity.
Qed.

Lemma nth_error_skipn : forall {A} (l : list A) n i,
  nth_error (skipn n l) i = nth_error l (n + i).
Proof.
  induction l as [|x l IH]; intros n i.
  - rewrite skipn_nil. destruct i, (n + 0)%nat, n; reflexivity.
  - destruct n as [|n]; [reflexivity|]. cbn. apply IH.
Qed.

(** *** little endian *)
Lemma le_bytes_len : forall n v, length (le_bytes n v) = n.
Proof. induction n; intro v; cbn; auto. Qed.

Lemma zlen_le_bytes : forall n v, zlen (le_bytes n v) = Z.of_nat n.
Proof. intros. unfold zlen. rewrite le_bytes_len. reflexivity. Qed.

Lemma le_val_range : forall b, 0 <= le_val b < 256 ^ zlen b.
Proof.
  induction b as [|x b IH]; [cbn; lia|].
  rewrite zlen_cons. cbn [le_val]. pose proof (Zb_range x) as R.
  rewrite Z.pow_add_r by (try lia; apply zlen_nonneg). change (256 ^ 1) with 256. lia.
Qed.

Lemma le_val_bytes : forall n v, 0 <= v < 256 ^ Z.of_nat n -> le_val (le_bytes n v) = v.
Proof.
  induction n as [|n IH]; intros v H.
  - cbn in *. lia.
  - cbn [le_bytes le_val]. rewrite Zb_bZ.
    rewrite Nat2Z.inj_succ, Z.pow_succ_r in H by lia.
    rewrite IH.
    + pose proof (Z.div_mod v 256 ltac:(lia)) as D. lia.
    + split; [apply Z.div_pos; lia|]. apply Z.div_lt_upper_bound; lia.
Qed.

Lemma le_bytes_val : forall b, le_bytes (length b) (le_val b) = b.
Proof.
  induction b as [|x b IH]; [reflexivity|].
  cbn [length le_bytes le_val]. pose proof (Zb_range x) as R.
  replace ((Zb x + 256 * le_val b) / 256) with (le_val b).
  - rewrite IH. f_equal. apply Zb_inj. rewrite Zb_bZ.
    rewrite (Z.mul_comm 256), Z.mod_add by lia. apply Z.mod_small; lia.
  - rewrite (Z.mul_comm 256), Z.add_comm, Z.div_add_l by lia. rewrite Z.div_small by lia. lia.
Qed.

Lemma pack_le_ok : forall n v, 0 <= v < 256 ^ Z.of_nat n -> pack_le n v = Ok (le_bytes n v).
Proof.
  intros n v H. unfold pack_le.
  replace (0 <=? v) with true by (symmetry; apply Z.leb_le; lia).
  replace (v <? 256 ^ Z.of_nat n) with true by (symmetry; apply Z.ltb_lt; lia). reflexivity.
Qed.

Lemma pack_le_inv : forall n v b, pack_le n v = Ok b ->
  0 <= v < 256 ^ Z.of_nat n /\ b = le_bytes n v.
Proof.
  intros n v b H. unfold pack_le in H.
  destruct (0 <=? v) eqn:E1; [|discriminate]. destruct (v <? 256 ^ Z.of_nat n) eqn:E2; [|discriminate].
  cbn in H. injection H as <-. apply Z.leb_le in E1. apply Z.ltb_lt in E2. split; [lia|reflexivity].
Qed.

(** *** file writes *)
Lemma fwrite_len : forall f off bs, 0 <= off -> zlen (fwrite f off bs) = Z.max (zlen f) (off + zlen bs).
Proof.
  intros f off bs H. unfold fwrite. rewrite !zlen_app, ztake_len, zskip_len, zlen_app, zlen_repeat by (try lia; pose proof (zlen_nonneg bs); lia).
  pose proof (zlen_nonneg f). pose proof (zlen_nonneg bs). lia.
Qed.

Lemma fwrite_nth : forall f off bs i, 0 <= off ->
  nth_error (fwrite f off bs) i =
    if Z.of_nat i <? off then (if Z.of_nat i <? zlen f then nth_error f i else Some x00)
    else if Z.of_nat i <? off + zlen bs then nth_error bs (i - Z.to_nat off)
    else nth_error f i.
Proof.
  intros f off bs i H. unfold fwrite.
  set (p := ztake off (f ++ repeat x00 (Z.to_nat (off - zlen f)))).
  assert (Hp : zlen p = off).
  { unfold p. rewrite ztake_len, zlen_app, zlen_repeat by lia. pose proof (zlen_nonneg f). lia. }
  assert (Hpn : length p = Z.to_nat off) by (unfold zlen in Hp; lia).
  destruct (Z.of_nat i <? off) eqn:E1.
  - rewrite nth_error_app1 by lia. unfold p, ztake. rewrite nth_error_firstn.
    replace (i <? Z.to_nat off)%nat with true by lia.
    destruct (Z.of_nat i <? zlen f) eqn:E2; unfold zlen in *.
    + rewrite nth_error_app1 by lia. reflexivity.
    + rewrite nth_error_app2 by lia. apply nth_error_repeat. lia.
  - rewrite nth_error_app2 by lia. rewrite Hpn.
    destruct (Z.of_nat i <? off + zlen bs) eqn:E2; unfold zlen in *.
    + rewrite nth_error_app1 by lia. reflexivity.
    + rewrite nth_error_app2 by lia. unfold zskip. rewrite nth_error_skipn. f_equal. lia.
Qed.

Lemma nth_error_zsub : forall {A} (l : list A) o n i, 0 <= o ->
  nth_error (zsub o n l) i = if Z.of_nat i <? n then nth_error l (Z.to_nat o + i) else None.
Proof.
  intros A l o n i H. unfold zsub, ztake, zskip.
  rewrite nth_error_firstn, nth_error_skipn.
  destruct (Z.of_nat i <? n) eqn:E.
  - replace (i <? Z.to_nat n)%nat with true by lia. reflexivity.
  - replace (i <? Z.to_nat n)%nat with false by lia. reflexivity.
Qed.

(** What was written is read back. *)
Lemma fread_fwrite_same : forall f off bs, 0 <= off -> fread (fwrite f off bs) off (zlen bs) = bs.
Proof.
  intros f off bs H. apply nth_error_ext. intro i. unfold fread.
  rewrite nth_error_zsub by lia. destruct (Z.of_nat i <? zlen bs) eqn:E.
  - rewrite fwrite_nth by lia.
    replace (Z.of_nat (Z.to_nat off + i) <? off) with false by lia.
    replace (Z.of_nat (Z.to_nat off + i) <? off + zlen bs) with true by lia.
    f_equal. lia.
  - symmetry. apply nth_error_None. unfold zlen in E. lia.
Qed.

