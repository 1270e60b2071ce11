(** Proofs about archives with a counter (C73): the strategies. *)
From Coq Require Import List ZArith Bool Lia Permutation.
From Coq Require Import ZifyBool ZifyNat.
From Verif Require Import Base BaseProofs Utf8 Utf8Proofs Dict Infobyte Header HeaderSpec HeaderProofs MimeTypeList MimeTypeListSpec MimeTypeListProofs PointerList PointerListProofs
  SpaceAllocator SpaceAllocatorSpec SpaceAllocatorProofs Entry EntrySpec EntryProofs Reader ReaderSpec Blob Cluster ClusterSpec ClusterProofs ClusterWrapper ClusterWrapperSpec ClusterWrapperProofs
  Archive ArchiveSpec ArchiveProofs ArchiveWriteProofs ArchiveMoveProofs ArchiveRemoveProofs ArchiveObserve ArchiveFacts ArchiveLaws ArchiveEdit ArchiveCluster ArchiveClusterSpec ArchiveClusterProofs ArchiveFrame ArchiveEntryCluster ArchiveEditCluster
  CompressionStrategy CompressionStrategySpec CompressionStrategyProofs OperationBuffer OperationBufferSpec OperationBufferProofs EntryObject EntryObjectSpec EntryObjectProofs
  Flush FlushSpec FlushProofs FlushTailProofs FlushOpenProofs FlushHistorySpec FlushHistoryProofs ViewSpec ViewProofs ViewEditProofs ViewStepProofs ViewWaitProofs ViewHistoryProofs
  Counter CounterSpec CounterProofs CountedArchive CountedSpec CountedProofs.
Import ListNotations.
Open Scope Z_scope.

Definition acc (s : sarchive) (c : counter) : Prop := accounted (ca_zim (sa_arch s)) (ml_types (sa_mimes s)) (ct_counts c).
(** The counter changes only if it becomes dirty. *)
Definition noticed (c c' : counter) : Prop := ct_dirty c' = false -> c' = c.
Lemma noticed_trans : forall a b c, noticed a b -> noticed b c -> noticed a c.
Proof. intros a b c H1 H2 Q. pose proof (H2 Q). subst c. auto. Qed.

Section Store.
Variable fuel : nat.
Context {D : Type}.
Variable dc : decomp D.
Variable new_decomp : ctype -> res D.
Context {K : Type}.
Variable new_comp : ctype -> res K.
Variable comp : K -> bytes -> res (bytes * K).
Variable flush : K -> res bytes.
Variable depth : nat.
Variable Stream : ctype -> bytes -> bytes -> Prop.
Variable reserve : option Z.
Hypothesis CD : codec_ok dc new_decomp new_comp comp flush Stream.
Variable mx : Z.
Notation pending := (pendany fuel mx).
Notation pendh := (pend fuel mx).
Variable A0 : farchive.
Variable R : list rop.
Variable V : view.
Variables N1 N2 : Z.
Hypothesis B1 : N1 < 2 ^ 32.
Hypothesis B2 : N2 < 2 ^ 32.
Notation storedh := (stored Stream reserve A0 R V N1 N2).

Lemma finalize_acc : forall s st P W c s' c' st', storedh s (map pair_of P ++ W) -> pendh st P -> P <> [] -> Forall (typed fuel (sa_mimes s)) P -> zlen (ml_types (sa_mimes s)) <= 65535 -> acc s c ->
  count_finalize fuel new_comp comp flush depth ((s, c), st) = (Ok tt, ((s', c'), st')) ->
  CompressionStrategy.finalize fuel new_comp comp flush depth (s, st) = (Ok tt, (s', st')) /\ acc s' c' /\ noticed c c'.
Proof.
  intros s st P W c s' c' st' (cells & L & LO & T & Z1 & Z2) PD NE TY MZ AC E. destruct s as [a ml]. unfold acc in *. cbn [sa_arch sa_mimes] in *. unfold count_finalize, CompressionStrategy.finalize in *. cbn [sa_arch sa_mimes] in *.
  destruct (write_cluster fuel new_comp comp flush new_ops None a (st_cluster st)) as [[n|e] [a2 c2]] eqn:WC; [|discriminate E].
  destruct (count_entries depth ml n (st_entries st) (ca_zim a2, c)) as [x [l [z c1]]] eqn:CE. destruct x as [[]|e]; [|discriminate E]. injection E as <- <- <-.
  destruct (cluster_stored fuel dc new_decomp new_comp comp flush Stream reserve CD mx A0 R V a ml st P W cells L n a2 c2 LO T PD WC) as (-> & cl & LO2 & T2 & EB & NLB & LK). set (L2 := L ++ [Some cl]) in *. rewrite (pd_entries _ _ _ _ PD) in CE.
  pose proof (lo_arch _ _ _ _ _ LO2) as AO2. assert (CS2 : consistent (ca_zim a2) (map snd cells)) by exact (ao_entries _ _ _ _ AO2).
  rewrite zlen_app, zlen_map in Z1, Z2. pose proof (zlen_nonneg L). pose proof (zlen_nonneg W). pose proof (zlen_nonneg P). pose proof (zlen_nonneg cells).
  assert (NP : 1 <= zlen P) by (destruct P; [congruence|rewrite zlen_cons in *; pose proof (zlen_nonneg P); lia]).
  destruct (items_counted fuel depth (blobs_of L2) ml W R V (zlen L) (map p_data P) P 0 0 (ca_zim a2) cells l z c c1 (ao_core _ _ _ _ AO2) CS2 (laid_anchored _ _ _ _ _ LO2) T2 TY MZ) as (WE & TL & DI);
    [lia|lia|lia|lia|exact EB|intros j p Hj; rewrite Z.add_0_l, znth_map, Hj; reflexivity|exact NLB|eapply accounted_same; [exact LK|exact AC]|exact CE|].
  rewrite (pd_entries _ _ _ _ PD), WE. split; [reflexivity|]. split; [exact TL|exact DI].
Qed.

Lemma entry_acc : forall it s en s' c, CompressionStrategy.to_entry it s = (Ok en, s') -> acc s c -> acc s' c.
Proof.
  intros it s en s' c E AC. destruct (to_entry_mimes _ _ _ _ E) as ((t & MX) & EA). unfold acc in *. rewrite EA, MX. apply accounted_more. exact AC.
Qed.
Lemma add_acc : forall s st P W it c s' c' st', storedh s (map pair_of P ++ W) -> pendh st P -> Forall (typed fuel (sa_mimes s)) P -> zlen (ml_types (sa_mimes s')) <= 65535 -> acc s c ->
  count_add_item fuel new_comp comp flush depth it ((s, c), st) = (Ok tt, ((s', c'), st')) ->
  CompressionStrategy.add_item fuel new_comp comp flush depth it (s, st) = (Ok tt, (s', st')) /\ acc s' c' /\ noticed c c'.
Proof.
  intros s st P W it c s' c' st' SO PD TY MZ AC E.
  assert (END : forall s1 c1 st1, acc s1 c1 -> noticed c c1 ->
    (match CompressionStrategy.to_entry it s1 with
     | (Err e, s) => (Err e, ((s, c1), st1))
     | (Ok entry, s) =>
         match append_blob inner_empty (it_source it) (co_wrap (st_cluster st1)) with
         | (Err e, w) => (Err e, ((s, c1), mkStrat (st_comp st1) (st_max st1) (st_entries st1) (co_set w (st_cluster st1))))
         | (Ok num, w) =>
             let cl := co_set w (st_cluster st1) in
             match set_blob_number num entry with
             | Err e => (Err e, ((s, c1), mkStrat (st_comp st1) (st_max st1) (st_entries st1) cl))
             | Ok entry => (Ok tt, ((s, c1), mkStrat (st_comp st1) (st_max st1) (st_entries st1 ++ [entry]) cl))
             end
         end
     end) = (Ok tt, ((s', c'), st')) ->
    (match CompressionStrategy.to_entry it s1 with
     | (Err e, s) => (Err e, (s, st1))
     | (Ok entry, s) =>
         match append_blob inner_empty (it_source it) (co_wrap (st_cluster st1)) with
         | (Err e, w) => (Err e, (s, mkStrat (st_comp st1) (st_max st1) (st_entries st1) (co_set w (st_cluster st1))))
         | (Ok num, w) =>
             let c := co_set w (st_cluster st1) in
             match set_blob_number num entry with
             | Err e => (Err e, (s, mkStrat (st_comp st1) (st_max st1) (st_entries st1) c))
             | Ok entry => (Ok tt, (s, mkStrat (st_comp st1) (st_max st1) (st_entries st1 ++ [entry]) c))
             end
         end
     end) = (Ok tt, (s', st')) /\ acc s' c' /\ noticed c c' /\ ml_types (sa_mimes s1) = firstn (length (ml_types (sa_mimes s1))) (ml_types (sa_mimes s'))).
  { intros s1 c1 st1 AC1 NT E1. destruct (CompressionStrategy.to_entry it s1) as [[en|e] s2] eqn:ET; [|discriminate E1]. pose proof (entry_acc _ _ _ _ _ ET AC1) as AC2. destruct (to_entry_mimes _ _ _ _ ET) as ((t & MX) & _).
    destruct (append_blob _ _ _) as [[num|e] w] eqn:EA; [|discriminate E1]. cbv zeta in *. destruct (set_blob_number num en) as [en'|e]; [|discriminate E1]. injection E1 as <- <- <-.
    split; [reflexivity|]. split; [exact AC2|]. split; [exact NT|]. rewrite MX, firstn_app, Nat.sub_diag, firstn_all, firstn_O, app_nil_r. reflexivity. }
  unfold count_add_item in E. unfold CompressionStrategy.add_item.
  destruct P as [|p P].
  - assert (EN : new_cluster_needed it st = (Ok false, st)). { unfold new_cluster_needed. rewrite (pd_entries _ _ _ _ PD). reflexivity. }
    rewrite EN in *. destruct (END s c st AC (fun _ => eq_refl) E) as (Q1 & Q2 & Q3 & _). auto.
  - destruct (new_cluster_needed it st) as [[nd|e] st1] eqn:EN; [|discriminate E].
    destruct (total_pend fuel mx st (p :: P) it nd st1 PD) as (PD1 & EC & EM & NF); [intro Q; discriminate Q|exact EN|]. destruct nd.
    + destruct (count_finalize fuel new_comp comp flush depth ((s, c), st1)) as [[[]|e] [[s2 c2] st2]] eqn:EF; [|discriminate E].
      assert (MZ2 : zlen (ml_types (sa_mimes s)) <= 65535).
      { destruct (CompressionStrategy.to_entry it s2) as [[en|e] s3] eqn:ET; [|discriminate E]. destruct (to_entry_mimes _ _ _ _ ET) as ((t & MX) & _).
        assert (ES : s3 = s') by (destruct (append_blob _ _ _) as [[num|e] w]; [|discriminate E]; cbv zeta in E; destruct (set_blob_number num en); [|discriminate E]; injection E as <- _ _; reflexivity). subst s3.
        assert (EM2 : sa_mimes s2 = sa_mimes s).
        { unfold count_finalize in EF. destruct (write_cluster _ _ _ _ _ _ _ _) as [[n|e] [a2 co]]; [|discriminate EF]. destruct (count_entries _ _ _ _ _) as [x [l [z c3]]]. destruct x; [|discriminate EF]. injection EF as <- _ _. reflexivity. }
        rewrite MX, zlen_app, EM2 in MZ. pose proof (zlen_nonneg t). lia. }
      destruct (finalize_acc s st1 (p :: P) W c s2 c2 st2 SO PD1) as (EF2 & AC2 & NT); [intro Q; discriminate Q|exact TY|exact MZ2|exact AC|exact EF|]. rewrite EF2.
      destruct (END s2 c2 st2 AC2 NT E) as (Q1 & Q2 & Q3 & _). auto.
    + destruct (END s c st1 AC (fun _ => eq_refl) E) as (Q1 & Q2 & Q3 & _). auto.
Qed.
Lemma flush_acc : forall s st P W c s' c' st', storedh s (map pair_of P ++ W) -> pendh st P -> Forall (typed fuel (sa_mimes s)) P -> zlen (ml_types (sa_mimes s)) <= 65535 -> acc s c ->
  count_flush_items fuel new_comp comp flush depth ((s, c), st) = (Ok tt, ((s', c'), st')) ->
  flush_items fuel new_comp comp flush depth (s, st) = (Ok tt, (s', st')) /\ acc s' c' /\ noticed c c'.
Proof.
  intros s st P W c s' c' st' SO PD TY MZ AC E. unfold count_flush_items in E. unfold flush_items. rewrite (pend_has _ _ _ _ PD) in *. destruct P as [|p P].
  - injection E as <- <- <-. split; [reflexivity|]. split; [exact AC|]. intros _. reflexivity.
  - eapply finalize_acc; try eassumption. discriminate.
Qed.
Lemma flush_all_acc : forall l Ps W c s s' c' l', storedh s (map pair_of (concat Ps) ++ W) -> pends fuel mx l Ps -> Forall (typed fuel (sa_mimes s)) (concat Ps) -> zlen (ml_types (sa_mimes s)) <= 65535 -> acc s c ->
  count_flush_all fuel new_comp comp flush depth l (s, c) = (Ok tt, ((s', c'), l')) ->
  flush_all fuel new_comp comp flush depth l s = (Ok tt, (s', l')) /\ acc s' c' /\ noticed c c'.
Proof.
  induction l as [|[k st] l IH]; intros Ps W c s s' c' l' SO PD TY MZ AC E; inversion PD as [|? P ? Ps' PD1 PD2 E1 E2]; subst Ps; cbn [count_flush_all flush_all] in *.
  - injection E as <- <- <-. split; [reflexivity|]. split; [exact AC|]. intros _. reflexivity.
  - cbn [concat] in *. cbn [snd] in PD1.
    destruct (count_flush_items fuel new_comp comp flush depth ((s, c), st)) as [[[]|e] [[s1 c1] st1]] eqn:EF; [|discriminate E].
    destruct (count_flush_all fuel new_comp comp flush depth l (s1, c1)) as [rr [[s2 c2] l2]] eqn:ER. injection E as -> <- <- <-.
    apply Forall_app in TY as (TY1 & TY2). rewrite map_app, <- app_assoc in SO. destruct (flush_acc s st P _ c s1 c1 st1 SO PD1 TY1 MZ AC EF) as (EF2 & AC1 & NT1). pose proof (CompressionStrategyProofs.flush_mimes _ _ _ _ _ _ _ _ _ _ EF2) as EM.
    destruct (flush_stored fuel dc new_decomp new_comp comp flush depth Stream reserve CD mx A0 R V N1 N2 B1 B2 s st P _ s1 st1 SO PD1 TY1 MZ EF2) as (SO1 & Q1). rewrite <- EM in TY2, MZ.
    destruct (IH Ps' W c1 s1 s2 c2 l2 SO1 PD2 TY2 MZ AC1 ER) as (E3 & AC2 & NT2). rewrite EF2, E3. split; [reflexivity|]. split; [exact AC2|exact (noticed_trans _ _ _ NT1 NT2)].
Qed.
Lemma any_add_acc : forall s y P W it c s' c' y', storedh s (map pair_of P ++ W) -> pending y P -> Forall (typed fuel (sa_mimes s)) P -> zlen (ml_types (sa_mimes s')) <= 65535 -> acc s c ->
  count_any_add fuel new_comp comp flush depth it ((s, c), y) = (Ok tt, ((s', c'), y')) ->
  any_add fuel new_comp comp flush depth it (s, y) = (Ok tt, (s', y')) /\ acc s' c' /\ noticed c c'.
Proof.
  intros s y P W it c s' c' y' SO PA TY MZ AC E. destruct PA as [st P PD|ms Ps MM PD]; cbn [count_any_add any_add] in *.
  - destruct (count_add_item _ _ _ _ _ _ _) as [r [[s1 c1] st1]] eqn:E1. injection E as -> <- <- <-. destruct (add_acc s st P W it c s1 c1 st1 SO PD TY MZ AC E1) as (E2 & Q). rewrite E2. auto.
  - unfold count_add_item_m in E. unfold add_item_m. destruct (count_add_item _ _ _ _ _ _ _) as [r [[s1 c1] st1]] eqn:E1. injection E as -> <- <- <-.
    unfold get_cs in *. destruct (get_pend fuel mx (it_mime it) _ _ PD) as [(A & B & k & st & P & As & Bs & EL & -> & G & PD1 & PA & PB & DS)|(G & DS)]; rewrite G in *.
    + rewrite concat_app in *. cbn [concat] in *. rewrite !Forall_app in TY. destruct TY as (TA & TP & TB).
      assert (SO1 : storedh s (map pair_of P ++ (map pair_of (concat As ++ concat Bs) ++ W))).
      { eapply stored_perm; [|exact SO]. rewrite !map_app, !app_assoc. apply Permutation_app_tail. rewrite <- !app_assoc. apply Permutation_app_swap_app. }
      destruct (add_acc s st P _ it c s1 c1 st1 SO1 PD1 TP MZ AC E1) as (E2 & Q). rewrite E2. auto.
    + destruct (add_acc s (strat_new (ms_comp ms) (ms_max ms)) [] (map pair_of (concat Ps) ++ W) it c s1 c1 st1 SO (pend_empty _ _ _ _ MM)) as (E2 & Q); [constructor|exact MZ|exact AC|exact E1|]. rewrite E2. auto.
Qed.
Lemma any_flush_acc : forall s y P W c s' c' y', storedh s (map pair_of P ++ W) -> pending y P -> Forall (typed fuel (sa_mimes s)) P -> zlen (ml_types (sa_mimes s)) <= 65535 -> acc s c ->
  count_any_flush fuel new_comp comp flush depth ((s, c), y) = (Ok tt, ((s', c'), y')) ->
  any_flush fuel new_comp comp flush depth (s, y) = (Ok tt, (s', y')) /\ acc s' c' /\ noticed c c'.
Proof.
  intros s y P W c s' c' y' SO PA TY MZ AC E. destruct PA as [st P PD|ms Ps MM PD]; cbn [count_any_flush any_flush] in *.
  - destruct (count_flush_items _ _ _ _ _ _) as [r [[s1 c1] st1]] eqn:E1. injection E as -> <- <- <-. destruct (flush_acc s st P W c s1 c1 st1 SO PD TY MZ AC E1) as (E2 & Q). rewrite E2. auto.
  - unfold count_flush_items_m in E. unfold flush_items_m. destruct (count_flush_all _ _ _ _ _ _ _) as [r [[s1 c1] l1]] eqn:E1. injection E as -> <- <- <-.
    destruct (flush_all_acc _ Ps W c s s1 c1 l1 SO PD TY MZ AC E1) as (E2 & Q). rewrite E2. auto.
Qed.
End Store.
