(** Proofs about headers. *)
From Coq Require Import List ZArith Bool Lia.
From Coq Require Import ZifyBool ZifyNat ZifyN.
From Verif Require Import Base BaseProofs Header HeaderSpec.
Import ListNotations.
Open Scope Z_scope.

Lemma list16 : forall b : bytes, zlen b = 16 ->
  exists a0 a1 a2 a3 a4 a5 a6 a7 r, b = a0 :: a1 :: a2 :: a3 :: a4 :: a5 :: a6 :: a7 :: r /\ zlen r = 8.
Proof.
  intros b H. do 8 (destruct b as [|? b]; [unfold zlen in H; cbn in H; lia|]).
  do 9 eexists. split; [reflexivity|]. unfold zlen in *. cbn [length] in H. lia.
Qed.

Lemma uuid_swap_invol : forall b, zlen b = 16 -> uuid_swap (uuid_swap b) = b.
Proof. intros b H. apply list16 in H as (? & ? & ? & ? & ? & ? & ? & ? & r & -> & _). reflexivity. Qed.

Lemma uuid_swap_len : forall b, zlen b = 16 -> zlen (uuid_swap b) = 16.
Proof.
  intros b H. apply list16 in H as (a0 & a1 & a2 & a3 & a4 & a5 & a6 & a7 & r & -> & Hr).
  change (zlen ([a3; a2; a1; a0; a5; a4; a7; a6] ++ r) = 16). rewrite zlen_app, Hr. reflexivity.
Qed.

Lemma take_le_app : forall n m v r, m = Z.of_nat n -> 0 <= v < 256 ^ Z.of_nat n ->
  take_le m (le_bytes n v ++ r) = (v, r).
Proof.
  intros n m v r -> H. unfold take_le.
  rewrite ztake_app_exact by apply zlen_le_bytes. rewrite zskip_app_exact by apply zlen_le_bytes.
  rewrite le_val_bytes by assumption. reflexivity.
Qed.

Lemma header_to_bytes_ok : forall h, header_fits h ->
  header_to_bytes h = Ok (le_bytes 4 (h_magic h) ++ le_bytes 2 (h_major h) ++ le_bytes 2 (h_minor h) ++
    uuid_swap (h_uuid h) ++ le_bytes 4 (h_entry_count h) ++ le_bytes 4 (h_cluster_count h) ++
    le_bytes 8 (h_url_pos h) ++ le_bytes 8 (h_title_pos h) ++ le_bytes 8 (h_cluster_pos h) ++
    le_bytes 8 (h_mime_pos h) ++ le_bytes 4 (h_main_page h) ++ le_bytes 4 (h_layout_page h) ++
    le_bytes 8 (h_checksum_pos h)).
Proof.
  intros h (H1 & H2 & H3 & H4 & H5 & H6 & H7 & H8 & H9 & H10 & H11 & H12 & H13).
  unfold header_to_bytes.
  rewrite !pack_le_ok by (cbn [Z.of_nat]; first [assumption | lia]). reflexivity.
Qed.

Lemma header_roundtrip : forall h, header_fits h ->
  exists b, header_to_bytes h = Ok b /\ zlen b = 80 /\ header_from_bytes b = Ok h.
Proof.
  intros h F. rewrite (header_to_bytes_ok h F). eexists. split; [reflexivity|].
  destruct F as (H1 & H2 & H3 & H4 & H5 & H6 & H7 & H8 & H9 & H10 & H11 & H12 & H13).
  split.
  { rewrite !zlen_app, !zlen_le_bytes, uuid_swap_len by assumption. reflexivity. }
  unfold header_from_bytes.
  replace (negb _) with false.
  2: { rewrite !zlen_app, !zlen_le_bytes, uuid_swap_len by assumption. reflexivity. }
  do 3 (rewrite take_le_app by (first [reflexivity|cbn [Z.of_nat]; lia])).
  rewrite ztake_app_exact by (apply uuid_swap_len; assumption).
  rewrite zskip_app_exact by (apply uuid_swap_len; assumption).
  rewrite uuid_swap_invol by assumption. cbv zeta.
  do 8 (rewrite take_le_app by (first [reflexivity|cbn [Z.of_nat]; lia])).
  rewrite <- (app_nil_r (le_bytes 8 (h_checksum_pos h))).
  rewrite take_le_app by (first [reflexivity|cbn [Z.of_nat]; lia]).
  destruct h; reflexivity.
Qed.

Lemma take_bytes : forall n (s : bytes), Z.of_nat n <= zlen s ->
  le_bytes n (le_val (ztake (Z.of_nat n) s)) = ztake (Z.of_nat n) s.
Proof.
  intros n s H. replace n with (length (ztake (Z.of_nat n) s)) at 1; [apply le_bytes_val|].
  assert (E : zlen (ztake (Z.of_nat n) s) = Z.of_nat n) by (rewrite ztake_len; lia).
  unfold zlen in E. lia.
Qed.

Lemma take_val_range : forall n (s : bytes), 0 <= n <= zlen s -> 0 <= le_val (ztake n s) < 256 ^ n.
Proof.
  intros n s H. pose proof (le_val_range (ztake n s)) as R. rewrite ztake_len in R by lia.
  replace (Z.min n (zlen s)) with n in R by lia. exact R.
Qed.

Lemma header_from_bytes_surj : forall s, zlen s = 80 ->
  exists h, header_from_bytes s = Ok h /\ header_fits h /\ header_to_bytes h = Ok s.
Proof.
  intros s H. unfold header_from_bytes. replace (negb (zlen s =? HEADER_LENGTH)) with false
    by (unfold HEADER_LENGTH; lia).
  unfold take_le. eexists. split; [reflexivity|].
  repeat rewrite zskip_zskip by lia. cbn [Z.add Pos.add Pos.succ Pos.add_carry].
  assert (L : forall n, 0 <= n <= 80 -> zlen (zskip n s) = 80 - n).
  { intros n Hn. rewrite zskip_len by lia. lia. }
  assert (Fit : header_fits (mkHeader (le_val (ztake 4 s)) (le_val (ztake 2 (zskip 4 s)))
      (le_val (ztake 2 (zskip 6 s))) (uuid_swap (ztake 16 (zskip 8 s)))
      (le_val (ztake 4 (zskip 24 s))) (le_val (ztake 4 (zskip 28 s)))
      (le_val (ztake 8 (zskip 32 s))) (le_val (ztake 8 (zskip 40 s)))
      (le_val (ztake 8 (zskip 48 s))) (le_val (ztake 8 (zskip 56 s)))
      (le_val (ztake 4 (zskip 64 s))) (le_val (ztake 4 (zskip 68 s)))
      (le_val (ztake 8 (zskip 72 s))))).
  { unfold header_fits; cbn [h_magic h_major h_minor h_uuid h_entry_count h_cluster_count h_url_pos h_title_pos
      h_cluster_pos h_mime_pos h_main_page h_layout_page h_checksum_pos].
    change (2 ^ 32) with (256 ^ 4). change (2 ^ 16) with (256 ^ 2). change (2 ^ 64) with (256 ^ 8).
    repeat split; try (apply take_val_range; rewrite ?L by lia; lia).
    apply uuid_swap_len. rewrite ztake_len, L by lia. lia. }
  split; [exact Fit|]. rewrite (header_to_bytes_ok _ Fit).
  cbn [h_magic h_major h_minor h_uuid h_entry_count h_cluster_count h_url_pos h_title_pos
      h_cluster_pos h_mime_pos h_main_page h_layout_page h_checksum_pos].
  change 4 with (Z.of_nat 4) at 1. change 2 with (Z.of_nat 2) at 1 2.
  rewrite uuid_swap_invol by (rewrite ztake_len, L by lia; lia).
  f_equal.
  assert (T4 : forall k, 0 <= k <= 76 -> le_bytes 4 (le_val (ztake 4 (zskip k s))) = ztake 4 (zskip k s)).
  { intros k Hk. apply (take_bytes 4). rewrite L by lia. lia. }
  assert (T2 : forall k, 0 <= k <= 78 -> le_bytes 2 (le_val (ztake 2 (zskip k s))) = ztake 2 (zskip k s)).
  { intros k Hk. apply (take_bytes 2). rewrite L by lia. lia. }
  assert (T8 : forall k, 0 <= k <= 72 -> le_bytes 8 (le_val (ztake 8 (zskip k s))) = ztake 8 (zskip k s)).
  { intros k Hk. apply (take_bytes 8). rewrite L by lia. lia. }
  rewrite (take_bytes 4 s) by lia. change (Z.of_nat 2) with 2. change (Z.of_nat 4) with 4.
  rewrite !T2, !T4, !T8 by lia.
  assert (A : forall a b r, 0 <= a -> 0 <= b -> ztake b (zskip a s) ++ zskip (a + b) s = r -> zskip a s = r).
  { intros a b r Ha Hb <-. rewrite Z.add_comm, <- zskip_zskip by lia. rewrite ztake_zskip. reflexivity. }
  symmetry. change s with (zskip 0 s) at 1.
  apply (A 0 4); [lia|lia|]. f_equal. apply (A 4 2); [lia|lia|]. f_equal. apply (A 6 2); [lia|lia|]. f_equal.
  apply (A 8 16); [lia|lia|]. f_equal. apply (A 24 4); [lia|lia|]. f_equal. apply (A 28 4); [lia|lia|]. f_equal.
  apply (A 32 8); [lia|lia|]. f_equal. apply (A 40 8); [lia|lia|]. f_equal. apply (A 48 8); [lia|lia|]. f_equal.
  apply (A 56 8); [lia|lia|]. f_equal. apply (A 64 4); [lia|lia|]. f_equal. apply (A 68 4); [lia|lia|]. f_equal.
  symmetry. apply ztake_all. rewrite L; lia.
Qed.

Lemma header_from_bytes_reject : forall s, zlen s <> 80 -> header_from_bytes s = Err ValueError.
Proof.
  intros s H. unfold header_from_bytes. replace (negb (zlen s =? HEADER_LENGTH)) with true
    by (unfold HEADER_LENGTH; lia). reflexivity.
Qed.

(** [to_bytes] succeeds exactly if everything fits (for a real uuid). *)
Lemma bind_ok : forall {A B} (m : res A) (k : A -> res B) b, bind m k = Ok b ->
  exists a, m = Ok a /\ k a = Ok b.
Proof. intros A B [a|e] k b H; cbn in H; [eauto|discriminate]. Qed.

Lemma header_to_bytes_inv : forall h b, zlen (h_uuid h) = 16 -> header_to_bytes h = Ok b -> header_fits h.
Proof.
  intros h b Hu H. unfold header_to_bytes in H.
  repeat match goal with
  | [ H : bind _ _ = Ok _ |- _ ] => apply bind_ok in H as (? & ? & H)
  end.
  repeat match goal with
  | [ H : pack_le _ _ = Ok _ |- _ ] => apply pack_le_inv in H as [? _]
  end.
  unfold header_fits. cbn [Z.of_nat] in *.
  change (2 ^ 32) with (256 ^ 4). change (2 ^ 16) with (256 ^ 2). change (2 ^ 64) with (256 ^ 8).
  cbn in *. repeat split; try assumption; lia.
Qed.

Lemma header_to_bytes_err : forall h, zlen (h_uuid h) = 16 -> ~ header_fits h ->
  header_to_bytes h = Err StructError.
Proof.
  intros h Hu Hn. destruct (header_to_bytes h) as [b|e] eqn:E.
  - exfalso. apply Hn. eapply header_to_bytes_inv; eauto.
  - f_equal. unfold header_to_bytes in E.
    repeat match type of E with
    | bind (pack_le ?n ?v) _ = Err _ =>
        let P := fresh in destruct (pack_le n v) eqn:P; cbn [bind] in E;
        [clear P | unfold pack_le in P; destruct ((0 <=? v) && (v <? 256 ^ Z.of_nat n)); congruence]
    end.
    discriminate.
Qed.

Lemma check_compatible_iff : forall h,
  check_compatible h = Ok tt <-> (h_magic h = 72173914 /\ h_major h = 6 /\ 1 <= h_minor h).
Proof.
  intro h. unfold check_compatible, MAGIC_NUMBER.
  destruct (h_magic h =? 72173914) eqn:E1; cbn [negb]; [|split; [discriminate|lia]].
  destruct (h_major h =? 6) eqn:E2; cbn [negb]; [|split; [discriminate|lia]].
  destruct ((h_major h <? 6) || (true && (h_minor h <? 1))) eqn:E3.
  - split; [discriminate|lia].
  - split; [lia|reflexivity].
Qed.

(** *** setters and dirty tracking *)
Lemma hval_eqb_eq : forall a b, hval_eqb a b = true <-> a = b.
Proof.
  intros [x|x] [y|y]; cbn; try (split; congruence).
  - rewrite Z.eqb_eq. split; congruence.
  - rewrite beqb_eq. split; congruence.
Qed.

Lemma hset_get_same : forall f v h, (f = FUuid <-> exists b, v = inr b) -> hget f (hset f v h) = v.
Proof.
  intros f v h H. destruct h, f, v; cbn; try reflexivity.
  all: exfalso; destruct H as [H1 H2]; first [destruct H1 as [? ?]; [reflexivity|discriminate] | (enough (X : FMagic = FUuid) by discriminate X) | idtac].
  all: try (assert (X : exists b0, @inr Z bytes b = inr b0) by eauto; apply H2 in X; discriminate X).
Qed.

Lemma hset_get_other : forall f g v h, f <> g -> hget g (hset f v h) = hget g h.
Proof. intros f g v h H. destruct h, f, g, v; cbn; try reflexivity; congruence. Qed.

Lemma hconvert_kind : forall f v c, hconvert f v = Ok c -> (f = FUuid <-> exists b, c = inr b).
Proof.
  intros f v c H. destruct f, v; cbn in H; try discriminate;
    repeat match type of H with (if ?x then _ else _) = _ => destruct x; try discriminate end;
    injection H as <-; split; try discriminate; eauto; intros [? ?]; try discriminate; reflexivity.
Qed.


Lemma clean_is_saved : forall ops st,
  (ho_dirty (fst st) = false -> ho_hdr (fst st) = snd st) ->
  let st' := fold_left hstep ops st in
  ho_dirty (fst st') = false -> ho_hdr (fst st') = snd st'.
Proof.
  induction ops as [|op ops IH]; intros [o saved] H; [exact H|].
  cbn [fold_left]. apply IH. destruct op as [f v| |m]; cbn [hstep].
  - unfold hassign. destruct (hconvert f v) as [c|e]; cbn [bind]; [|exact H].
    destruct (negb (ho_mutable o)); [exact H|].
    destruct (hval_eqb c (hget f (ho_hdr o))); [exact H|]. cbn. discriminate.
  - unfold hflush. destruct (header_to_bytes (ho_hdr o)); cbn [bind]; [|exact H]. cbn. reflexivity.
  - cbn in *. exact H.
Qed.

Lemma hassign_spec : forall f v o o', hassign f v o = Ok o' ->
  exists c, hconvert f v = Ok c /\ ho_mutable o = true /\
    hget f (ho_hdr o') = c /\ (forall g, g <> f -> hget g (ho_hdr o') = hget g (ho_hdr o)) /\
    (hget f (ho_hdr o) = c -> o' = o) /\ (hget f (ho_hdr o) <> c -> ho_dirty o' = true).
Proof.
  intros f v o o' H. unfold hassign in H. destruct (hconvert f v) as [c|e] eqn:E; cbn [bind] in H; [|discriminate].
  exists c. split; [reflexivity|]. destruct (ho_mutable o) eqn:M; cbn [negb] in H; [|discriminate].
  split; [reflexivity|]. destruct (hval_eqb c (hget f (ho_hdr o))) eqn:Q; injection H as <-.
  - apply hval_eqb_eq in Q. split; [congruence|]. split; [auto|]. split; [auto|]. congruence.
  - cbn [ho_hdr ho_dirty]. split; [apply hset_get_same; eapply hconvert_kind; eauto|].
    split; [intros g Hg; apply hset_get_other; congruence|].
    split; [|reflexivity]. intro X. exfalso.
    rewrite (proj2 (hval_eqb_eq c (hget f (ho_hdr o))) (eq_sym X)) in Q. discriminate.
Qed.

Lemma immutable_unchanged : forall ops o saved, ho_mutable o = false ->
  Forall (fun op => match op with HSetMutable _ => False | _ => True end) ops ->
  ho_hdr (fst (fold_left hstep ops (o, saved))) = ho_hdr o.
Proof.
  induction ops as [|op ops IH]; intros o saved M F; [reflexivity|].
  inversion F as [|? ? F1 F2]; subst. cbn [fold_left]. destruct op as [f v| |m]; cbn [hstep].
  - unfold hassign. destruct (hconvert f v); cbn [bind]; [|apply IH; auto].
    rewrite M. cbn [negb]. apply IH; auto.
  - unfold hflush. destruct (header_to_bytes (ho_hdr o)); cbn [bind]; [|apply IH; auto].
    rewrite (IH (mkHobj (ho_hdr o) false (ho_mutable o) HEADER_LENGTH)); auto.
  - destruct F1.
Qed.

Lemma main_page_assign : forall v o o', hassign FMainPage v o = Ok o' ->
  main_page (ho_hdr o') = match v with PInt z => if z =? 4294967295 then None else Some z | _ => None end.
Proof.
  intros v o o' H. destruct (hassign_spec _ _ _ _ H) as (c & Hc & _ & Hg & _).
  unfold main_page, NO_PAGE. cbn in Hg. destruct v; cbn in Hc; try discriminate.
  - destruct (z <? 0); [discriminate|]. injection Hc as <-. injection Hg as ->. reflexivity.
  - injection Hc as <-. injection Hg as ->. reflexivity.
Qed.
Lemma layout_page_assign : forall v o o', hassign FLayoutPage v o = Ok o' ->
  layout_page (ho_hdr o') = match v with PInt z => if z =? 4294967295 then None else Some z | _ => None end.
Proof.
  intros v o o' H. destruct (hassign_spec _ _ _ _ H) as (c & Hc & _ & Hg & _).
  unfold layout_page, NO_PAGE. cbn in Hg. destruct v; cbn in Hc; try discriminate.
  - destruct (z <? 0); [discriminate|]. injection Hc as <-. injection Hg as ->. reflexivity.
  - injection Hc as <-. injection Hg as ->. reflexivity.
Qed.

Lemma hassign_int : forall f z o, f <> FUuid -> ho_mutable o = true -> (0 <= z \/ f = FMagic) ->
  exists o', hassign f (PInt z) o = Ok o' /\ hget f (ho_hdr o') = inl z.
Proof.
  intros f z o Hf M Hz.
  assert (C : hconvert f (PInt z) = Ok (inl z)).
  { destruct f; cbn; try reflexivity; try congruence; replace (z <? 0) with false; try reflexivity;
      destruct Hz as [Hz|Hz]; try discriminate Hz; lia. }
  destruct (hassign f (PInt z) o) as [o'|e] eqn:E.
  - exists o'. split; [reflexivity|]. apply hassign_spec in E as (c & Hc & _ & Hg & _). congruence.
  - exfalso. unfold hassign in E. rewrite C, M in E. cbn [bind negb] in E. destruct (hval_eqb _ _); discriminate.
Qed.

Lemma hassign_negative : forall f z o, f <> FUuid -> f <> FMagic -> z < 0 ->
  hassign f (PInt z) o = Err ValueError.
Proof.
  intros f z o H1 H2 Hz. unfold hassign. destruct f; cbn; try congruence; replace (z <? 0) with true by lia; reflexivity.
Qed.
