(** Histories of adding items, flushing and opening again. *)
From Coq Require Import List ZArith Bool Lia Permutation.
From Coq Require Import ZifyBool ZifyNat.
From Verif Require Import Base BaseProofs Utf8 Utf8Proofs Dict Infobyte Header HeaderSpec HeaderProofs MimeTypeList MimeTypeListSpec MimeTypeListProofs PointerList PointerListProofs
  SpaceAllocator SpaceAllocatorSpec SpaceAllocatorProofs Entry EntrySpec EntryProofs Reader ReaderSpec Blob Cluster ClusterSpec ClusterProofs ClusterWrapper ClusterWrapperSpec ClusterWrapperProofs
  Archive ArchiveSpec ArchiveProofs ArchiveWriteProofs ArchiveMoveProofs ArchiveFacts ArchiveLaws ArchiveCluster ArchiveClusterSpec ArchiveClusterProofs ArchiveFrame
  CompressionStrategy CompressionStrategySpec CompressionStrategyProofs OperationBuffer Flush FlushSpec FlushProofs FlushTailProofs FlushOpenProofs FlushHistorySpec.
Import ListNotations.
Open Scope Z_scope.

(** ** The mimetypes of items *)
Lemma item_mime : forall fuel it d m, item_ok fuel it d -> encode (it_mime it) = Ok m -> mt_storable m.
Proof.
  intros fuel it d m (H & _ & _) E. unfold item_new in H.
  destruct (check_namespace (it_ns it)) as [[]|] eqn:E1; cbn [bind] in H; [|discriminate H].
  destruct (check_text (it_url it)) as [[]|] eqn:E2; cbn [bind] in H; [|discriminate H].
  destruct (check_text (it_mime it)) as [[]|] eqn:E3; cbn [bind] in H; [|discriminate H]. clear H.
  unfold check_text in E3. destruct (it_mime it) as [|c v]; [discriminate E3|]. rewrite E in E3. cbn [bind] in E3. destruct (has_nul m) eqn:HN; [discriminate E3|].
  split; [|apply has_nul_in; exact HN]. intros ->. unfold encode in E. destruct (utf8_encode (c :: v)) as [b|] eqn:EB; [|discriminate E]. injection E as ->.
  apply utf8_encode_nil_inv in EB. discriminate EB.
Qed.

Definition mgood (m m' : mlist) : Prop := mtracks m m' /\ (Forall mt_storable (ml_types m) -> Forall mt_storable (ml_types m')).
Lemma mgood_refl : forall m, mgood m m. Proof. intro m. split; [apply mtracks_refl|auto]. Qed.
Lemma to_entry_good : forall fuel it d s x s', item_ok fuel it d -> to_entry it s = (x, s') -> mgood (sa_mimes s) (sa_mimes s').
Proof.
  intros fuel it d s x s' OK H. unfold to_entry in H. destruct (mt_get_index _ true _) as [[o ml]|e] eqn:E; [|injection H as _ <-; apply mgood_refl].
  assert (X : mgood (sa_mimes s) ml).
  { unfold mt_get_index in E. destruct (as_bytes (PyStr (it_mime it))) as [m|] eqn:EM; cbn [bind] in E; [|discriminate E].
    destruct (mt_scan m (ml_types (sa_mimes s)) 0); [injection E as _ <-; apply mgood_refl|]. unfold mt_register in E. destruct (negb (ml_mutable (sa_mimes s))); [discriminate E|].
    cbn [as_bytes bind] in E. destruct (mt_has m (ml_types (sa_mimes s))); cbn [bind] in E; injection E as _ <-; [apply mgood_refl|].
    split; [split; [reflexivity|split; [reflexivity|intro Q; discriminate Q]]|]. cbn [ml_types]. intro F. apply Forall_app. split; [exact F|]. constructor; [|constructor].
    eapply item_mime; [exact OK|exact EM]. }
  destruct o as [i|]; [|injection H as _ <-; exact X]. destruct (it_article it && negb (ueqb (it_ns it) NS_C)); injection H as _ <-; exact X.
Qed.

Section History.
Variable fuel : nat.
Context {D : Type}.
Variable dc : decomp D.
Variable new_decomp : ctype -> res D.
Context {K : Type}.
Variable new_comp : ctype -> res K.
Variable comp : K -> bytes -> res (bytes * K).
Variable flush : K -> res bytes.
Variable depth : nat.
Variable kd : ckind.
Variable Stream : ctype -> bytes -> bytes -> Prop.
Variable reserve : option Z.
Context {H : Type}.
Variable md5 : H.
Variable feed : H -> bytes -> H.
Variable digest : H -> bytes.
Variable truncate : bool.
Variable process_blob : entry -> M zim unit.
Variable rounds : nat.
Hypothesis CD : codec_ok dc new_decomp new_comp comp flush Stream.
Hypothesis HO : hash_ok feed digest.
Variable mx : Z.   (* the largest limit of the strategies *)
Notation laid := (laid_out Stream reserve).
Notation savedh := (saved md5 feed digest).
Notation right := (checksum_right md5 feed digest).
Notation suff := (suffices fuel Stream reserve).
Notation flushesh := (flushes fuel dc new_decomp new_comp comp flush depth kd md5 feed digest reserve truncate process_blob rounds).
Notation fsuff := (flush_suffices fuel dc new_decomp new_comp comp flush depth kd Stream md5 feed digest reserve truncate process_blob rounds).
Notation grow := (grown Stream mx).

Lemma add_good : forall it d s st x s' st', item_ok fuel it d -> add_item fuel new_comp comp flush depth it (s, st) = (x, (s', st')) -> mgood (sa_mimes s) (sa_mimes s').
Proof.
  intros it d s st x s' st' OK E0. unfold add_item in E0. destruct (new_cluster_needed it st) as [[nd|e] st1]; [|injection E0 as _ <- _; apply mgood_refl].
  destruct (if nd then _ else _) as [[[]|e] [s1 st2]] eqn:EF.
  - assert (E1 : sa_mimes s1 = sa_mimes s). { destruct nd; [eapply finalize_mimes; exact EF|injection EF as <- _; reflexivity]. }
    destruct (to_entry it s1) as [[en|e] s2] eqn:ET; pose proof (to_entry_good _ _ _ _ _ _ OK ET) as X; rewrite E1 in X.
    + destruct (append_blob _ _ _) as [[num|e] w]; [destruct (set_blob_number num en)|]; injection E0 as _ <- _; exact X.
    + injection E0 as _ <- _. exact X.
  - injection E0 as _ <- _. assert (E1 : sa_mimes s1 = sa_mimes s). { destruct nd; [eapply finalize_mimes; exact EF|discriminate EF]. } rewrite E1. apply mgood_refl.
Qed.
Lemma any_add_good : forall it d s y x s' y', item_ok fuel it d -> any_add fuel new_comp comp flush depth it (s, y) = (x, (s', y')) -> mgood (sa_mimes s) (sa_mimes s').
Proof.
  intros it d s y x s' y' OK E0. destruct y as [st|ms]; cbn [any_add] in E0.
  - destruct (add_item _ _ _ _ _ _ _) as [r [s1 st1]] eqn:E. injection E0 as _ <- _. eapply add_good; [exact OK|exact E].
  - unfold add_item_m in E0. destruct (add_item _ _ _ _ _ _ _) as [r [s1 st1]] eqn:E. injection E0 as _ <- _. eapply add_good; [exact OK|exact E].
Qed.
Lemma perform_good : forall z o x z', (forall it d, In (it, d) (added_by [o]) -> item_ok fuel it d) -> perform_sop fuel new_comp comp flush depth z o = (x, z') ->
  mgood (sa_mimes (zs_arch z)) (sa_mimes (zs_arch z')).
Proof.
  intros z o x z' OK E0. destruct o as [it d u|]; cbn [perform_sop] in E0.
  - assert (OK1 : item_ok fuel it d) by (apply OK; left; reflexivity). unfold zim_add_item in E0.
    destruct u; cbn [negb] in E0; destruct (any_add _ _ _ _ _ _ _) as [r [s y]] eqn:E; injection E0 as _ <-; eapply any_add_good; [exact OK1|exact E|exact OK1|exact E].
  - unfold zim_flush_items in E0. destruct (any_flush _ _ _ _ _ _) as [[[]|e] [s y]] eqn:E; pose proof (any_flush_mimes _ _ _ _ _ _ _ _ _ _ E) as E1.
    + destruct (any_flush _ _ _ _ _ (s, zs_plain z)) as [r [s2 y2]] eqn:F. injection E0 as _ <-. cbn [zs_arch]. rewrite (any_flush_mimes _ _ _ _ _ _ _ _ _ _ F), E1. apply mgood_refl.
    + injection E0 as _ <-. cbn [zs_arch]. rewrite E1. apply mgood_refl.
Qed.

(** ** Items that are in the archive, outside the title lists *)
Definition shelved (s : zim) (X : list (option (list bytes))) (p : pitem) : Prop :=
  exists n k bl, get_entry_by_full_url s (p_url p) = Ok (p_entry n k p) /\ znth X n = Some (Some bl) /\ znth bl k = Some (p_data p) /\ 0 <= k /\ ~ listing_blob s n k.

Lemma laid_same : forall A A' cells L, fa_state A' = fa_state A -> fa_header A' = fa_header A -> laid A cells L -> laid A' cells L.
Proof. intros [z h d r m] [z' h' d' r' m'] cells L E1 E2 LO. cbn in E1, E2. subst z' h'. destruct LO. constructor; assumption. Qed.

Section Growing.
Variables (A : farchive) (cells : list (Z * entry)) (L : list (option (Z * ccell))) (a' : carchive) (cells' : list (Z * entry)) (L' : list (option (Z * ccell))) (P : list pitem).
Variable lo : Z.
Hypothesis LO : laid A cells L.
Hypothesis G : grow lo (fa_arch A) cells L a' cells' L' P.

Lemma grown_lookup : forall u e c b, get_entry_by_full_url (fa_zim A) u = Ok e -> e_kind e = Content c b -> get_entry_by_full_url (ca_zim a') u = Ok e.
Proof. intros u e c b E EK. destruct (gr_old _ _ _ _ _ _ _ _ _ _ G u e E) as (e' & E' & S & _). rewrite (same_content e e' c b EK S) in E'. exact E'. Qed.
Lemma grown_blob : forall c bl, znth (blobs_of L) c = Some (Some bl) -> znth (blobs_of L') c = Some (Some bl).
Proof. intros c bl E. destruct (gr_clusters _ _ _ _ _ _ _ _ _ _ G) as (N & -> & _). unfold blobs_of in *. rewrite map_app. apply znth_app_some. exact E. Qed.
Lemma grown_etpl : z_etpl (ca_zim a') <> None <-> z_etpl (fa_zim A) <> None.
Proof.
  pose proof (zt_etpl _ _ (fr_zim _ _ _ _ _ _ (gr_framed _ _ _ _ _ _ _ _ _ _ G))) as X. unfold fa_zim. destruct (z_etpl (ca_zim (fa_arch A))), (z_etpl (ca_zim a')); cbn in X; try contradiction; split; congruence.
Qed.
Lemma grown_kept : forall url l l' c b, tracks l l' -> kept_at (fa_zim A) (blobs_of L) url l c b -> kept_at (ca_zim a') (blobs_of L') url l' c b.
Proof.
  intros url l l' c b (_ & _ & T) (e & bl & E & EK & EX & EB & CL). exists e, bl. split; [exact (grown_lookup _ _ _ _ E EK)|]. split; [exact EK|]. split; [exact (grown_blob _ _ EX)|]. split; [exact EB|].
  intro Dl. rewrite (T Dl) in Dl |- *. exact (CL Dl).
Qed.
(** The title lists are where they were. *)
Lemma grown_listing : forall c b, listing_blob (ca_zim a') c b -> listing_blob (fa_zim A) c b.
Proof.
  intros c b (url & e & HU & E & EK). destruct (lo_listings _ _ _ _ _ LO) as (c0 & b0 & K0 & KE).
  assert (Q : exists e0 cc bb, get_entry_by_full_url (fa_zim A) url = Ok e0 /\ e_kind e0 = Content cc bb).
  { destruct HU as [->|(-> & HN)].
    - destruct K0 as (e0 & bl & E0 & EK0 & _). eauto.
    - apply grown_etpl in HN. destruct (z_etpl (fa_zim A)) as [t|] eqn:ET; [|congruence]. destruct (KE t eq_refl) as (c1 & b1 & (e0 & bl & E0 & EK0 & _) & _). eauto. }
  destruct Q as (e0 & cc & bb & E0 & EK0). pose proof (grown_lookup _ _ _ _ E0 EK0) as E1. rewrite E in E1. injection E1 as ->. exists url, e0. split; [|auto].
  destruct HU as [HU|(HU & HN)]; [auto|right; split; [exact HU|apply grown_etpl; exact HN]].
Qed.
Lemma grown_shelved : forall p, shelved (fa_zim A) (blobs_of L) p -> shelved (ca_zim a') (blobs_of L') p.
Proof.
  intros p (n & k & bl & H1 & H2 & H3 & H4 & H5). exists n, k, bl. split; [exact (grown_lookup _ _ n k H1 eq_refl)|]. split; [exact (grown_blob _ _ H2)|]. split; [exact H3|]. split; [exact H4|].
  intro Q. apply H5. exact (grown_listing _ _ Q).
Qed.
Lemma grown_new : zlen L <= lo -> Forall (shelved (ca_zim a') (blobs_of L')) P.
Proof.
  intro HL. eapply Forall_impl; [|exact (gr_items _ _ _ _ _ _ _ _ _ _ G)]. intros p (n & k & bl & H1 & H2 & H3 & H4 & H5). exists n, k, bl. do 4 (split; [assumption|]).
  intro Q. apply grown_listing in Q as (url & e & HU & E & EK). destruct (lo_listings _ _ _ _ _ LO) as (c0 & b0 & K0 & KE).
  assert (X : exists bl0, znth (blobs_of L) n = Some (Some bl0)).
  { destruct HU as [->|(-> & HN)].
    - destruct K0 as (e0 & bl0 & E0 & EK0 & EX & _). rewrite E in E0. injection E0 as <-. rewrite EK in EK0. injection EK0 as <- <-. eauto.
    - destruct (z_etpl (fa_zim A)) as [t|] eqn:ET; [|congruence]. destruct (KE t eq_refl) as (c1 & b1 & (e0 & bl0 & E0 & EK0 & EX & _) & _).
      rewrite E in E0. injection E0 as <-. rewrite EK in EK0. injection EK0 as <- <-. eauto. }
  destruct X as (bl0 & X). apply znth_some in X. unfold blobs_of in X. rewrite zlen_map in X. lia.
Qed.
Lemma grown_laid : forall A', fa_arch A' = a' -> fa_header A' = fa_header A -> mgood (fa_mimes A) (fa_mimes A') -> mextends (fa_mimes A) (fa_mimes A') -> laid A' cells' L'.
Proof.
  intros A' EA EH (MT & MS) (t & MX). eapply laid_content; [exact LO|exact EH|exact MT| | | | |].
  - destruct (lo_types _ _ _ _ _ LO) as (T1 & T2). split; [|auto]. rewrite MX. destruct (ml_types (fa_mimes A)); [congruence|discriminate].
  - rewrite EA. exact (gr_ok _ _ _ _ _ _ _ _ _ _ G).
  - destruct (gr_clusters _ _ _ _ _ _ _ _ _ _ G) as (N & -> & B & _). intro Q. apply in_app_or in Q as [Q|Q]; [exact (lo_present _ _ _ _ _ LO Q)|].
    rewrite Forall_forall in B. destruct (B None Q) as (? & ? & X & _). discriminate X.
  - rewrite EA. exact (gr_framed _ _ _ _ _ _ _ _ _ _ G).
  - pose proof (fr_zim _ _ _ _ _ _ (gr_framed _ _ _ _ _ _ _ _ _ _ G)) as [_ T2 T3]. destruct (lo_listings _ _ _ _ _ LO) as (c & b & K0 & KE). exists c, b.
    change (fa_zim A') with (ca_zim (fa_arch A')). rewrite EA. split; [exact (grown_kept _ _ _ _ _ T2 K0)|]. intros t' Ht'. rewrite Ht' in T3. unfold otracks in T3. change (fa_zim A) with (ca_zim (fa_arch A)) in *.
    destruct (z_etpl (ca_zim (fa_arch A))) as [t0|] eqn:ET; [|contradiction]. destruct (KE t0 eq_refl) as (c1 & b1 & K1 & N1). exists c1, b1. split; [exact (grown_kept _ _ _ _ _ T3 K1)|exact N1].
Qed.
(** The place of the entry title list is known as long as nothing was added. *)
Lemma grown_titled : forall A', fa_arch A' = a' -> fa_header A' = fa_header A -> titled A L -> titled A' L'.
Proof.
  intros A' EA EH T t' e c b Ht He Hk. change (fa_zim A') with (ca_zim (fa_arch A')) in *. rewrite EA in Ht, He |- *.
  pose proof (fr_zim _ _ _ _ _ _ (gr_framed _ _ _ _ _ _ _ _ _ _ G)) as [_ _ T3]. rewrite Ht in T3. unfold otracks in T3. destruct (z_etpl (ca_zim (fa_arch A))) as [t0|] eqn:ET; [|contradiction].
  destruct (lo_listings _ _ _ _ _ LO) as (c0 & b0 & _ & KE). destruct (KE t0 ET) as (c1 & b1 & (e0 & bl & E0 & EK0 & _) & _).
  pose proof (grown_lookup _ _ _ _ E0 EK0) as E1. rewrite He in E1. injection E1 as ->. rewrite Hk in EK0. injection EK0 as <- <-.
  destruct (T t0 e0 c b ET E0 Hk) as (off & cell & H1 & H2 & H3). exists off, cell. destruct (gr_clusters _ _ _ _ _ _ _ _ _ _ G) as (N & EL & _).
  split; [rewrite EL; apply znth_app_some; exact H1|]. split; [exact H2|]. intro DI. destruct T3 as (_ & _ & T3). pose proof (T3 DI) as Q. subst t'. destruct (H3 DI) as (H4 & H5).
  split; [|unfold fa_hdr in *; rewrite EH; exact H5].
  assert (PN : P = []).
  { pose proof (cs_complete _ _ (ao_entries _ _ _ _ (lo_arch _ _ _ _ _ LO)) t0 ET) as Q1. pose proof (cs_complete _ _ (ao_entries _ _ _ _ (gr_ok _ _ _ _ _ _ _ _ _ _ G)) t0 Ht) as Q2.
    pose proof (Permutation_length (gr_urls _ _ _ _ _ _ _ _ _ _ G)) as Q3. rewrite app_length, !map_length in Q3. destruct P as [|x y]; [reflexivity|exfalso; cbn [length] in Q3].
    destruct (co_etpl _ _ (ao_core _ _ _ _ (lo_arch _ _ _ _ _ LO)) t0 ET) as (_ & es & Q4 & _). rewrite !zlen_map in *.
    specialize (Q2 (zlen cells) ltac:(unfold zlen in *; lia)). assert (Q5 : exists e, znth (map snd cells) (zlen cells) = Some e).
    { clear - Q2 Q4. induction Q4 as [|i e l m I1 I2 IH]; [destruct Q2|]. destruct Q2 as [->|Q2]; eauto. }
    destruct Q5 as (e1 & Q5). apply znth_some in Q5. rewrite zlen_map in Q5. lia. }
  rewrite (gr_nothing _ _ _ _ _ _ _ _ _ _ G PN). exact H4.
Qed.
End Growing.

(** ** The invariant of histories: [A0] is the archive at the beginning, [A] that
    of now; of the items that have been added, [Pd] are in the archive, [Pc] and
    [Pp] wait in the strategies. *)
Notation pending := (pendany fuel mx).
Record hcore (A0 : farchive) (cells0 : list (Z * entry)) (L0 : list (option (Z * ccell))) (A : farchive) (done : list (item * bytes)) cells L (Pd Pc Pp : list pitem) : Prop := mkHcore {
  hv_laid : laid A cells L;
  hv_comp : pending (zs_comp (fa_state A)) Pc;
  hv_plain : pending (zs_plain (fa_state A)) Pp;
  hv_all : Permutation (map pair_of (Pd ++ Pc ++ Pp)) done;
  hv_typed : Forall (typed fuel (fa_mimes A)) (Pd ++ Pc ++ Pp);
  hv_shelved : Forall (shelved (fa_zim A) (blobs_of L)) Pd;
  hv_absent : forall u, ~ In u (map p_url Pd) -> absent (map snd cells0) u -> absent (map snd cells) u;
  hv_urls : Permutation (map full_url (map snd cells)) (map p_url Pd ++ map full_url (map snd cells0));
  hv_old : forall u e, get_entry_by_full_url (fa_zim A0) u = Ok e ->
     exists e', get_entry_by_full_url (fa_zim A) u = Ok e' /\ same_entry e e' /\ target_url (fa_zim A) e' = target_url (fa_zim A0) e;
  hv_count : zlen L0 <= zlen L <= zlen L0 + zlen Pd;
  hv_content : forall c b bl, znth (blobs_of L0) c = Some (Some bl) -> ~ listing_blob (fa_zim A0) c b -> exists bl', znth (blobs_of L) c = Some (Some bl') /\ znth bl' b = znth bl b;
  hv_listing : forall c b, listing_blob (fa_zim A) c b -> listing_blob (fa_zim A0) c b;
  hv_articles : forall us, article_urls (fa_zim A0) = Some us -> exists us', article_urls (fa_zim A) = Some us' /\ Permutation us' (p_articles Pd ++ us);
  hv_header : forall f, In f [FMagic; FMajor; FMinor; FUuid; FLayoutPage] -> hget f (fa_hdr A) = hget f (fa_hdr A0);
  hv_types : mextends (fa_mimes A0) (fa_mimes A);
  hv_buffer : fa_redirects A = fa_redirects A0 /\ fa_main A = fa_main A0;
  hv_titled : titled A0 L0 -> titled A L }.

Lemma sop_items : forall o, Forall (fun x => item_ok fuel (fst x) (snd x)) (added_by [o]) -> forall it d, In (it, d) (added_by [o]) -> item_ok fuel it d.
Proof. intros o F it d Hi. rewrite Forall_forall in F. exact (F (it, d) Hi). Qed.

Lemma content_step : forall A0 cells0 L0 A done cells L Pd Pc Pp o z1, hcore A0 cells0 L0 A done cells L Pd Pc Pp ->
  room 0 cells0 L0 (done ++ added_by [o]) -> Forall (fun x => item_ok fuel (fst x) (snd x)) (added_by [o]) -> zlen (ml_types (sa_mimes (zs_arch z1))) <= 65535 ->
  perform_sop fuel new_comp comp flush depth (fa_state A) o = (Ok tt, z1) ->
  exists cells1 L1 Pd1 Pc1 Pp1, hcore A0 cells0 L0 (fa_set_state z1 A) (done ++ added_by [o]) cells1 L1 Pd1 Pc1 Pp1 /\ (o = FlushItems -> Pc1 = [] /\ Pp1 = []).
Proof.
  intros A0 cells0 L0 A done cells L Pd Pc Pp o z1 HV (RN & RA & RC & _ & RL) OK B3 E. pose proof HV as [].
  assert (SI : sinv fuel Stream mx (zlen L) (fa_arch A) cells L (fa_state A) (map pair_of (Pc ++ Pp)) cells L [] Pc Pp).
  { constructor; [apply grown_refl; exact (lo_arch _ _ _ _ _ hv_laid0)|exact hv_comp0|exact hv_plain0|apply Permutation_refl|]. apply Forall_app in hv_typed0 as (_ & T). exact T. }
  assert (U : Permutation (map p_url (Pd ++ Pc ++ Pp)) (urls_of done)) by (rewrite <- urls_pairs; unfold urls_of; apply Permutation_map; exact hv_all0).
  assert (ND : NoDup (map p_url Pd ++ map p_url (Pc ++ Pp) ++ urls_of (added_by [o]))).
  { eapply Permutation_NoDup; [|exact RN]. unfold urls_of in *. rewrite (map_app _ done), app_assoc, <- (map_app p_url Pd). apply Permutation_app_tail. apply Permutation_sym. exact U. }
  assert (ZD : zlen done = zlen Pd + zlen (Pc ++ Pp)). { pose proof (Permutation_length hv_all0) as LN. rewrite map_length in LN. unfold zlen. rewrite <- LN, app_length. lia. }
  assert (ZC : zlen cells = zlen Pd + zlen cells0). { pose proof (Permutation_length hv_urls0) as LN. rewrite app_length, !map_length in LN. unfold zlen. lia. }
  assert (RM : room (zlen L) cells L (map pair_of (Pc ++ Pp) ++ added_by [o])).
  { split; [|split; [|split; [|split; [lia|]]]].
    - unfold urls_of. rewrite map_app. fold (urls_of (map pair_of (Pc ++ Pp))). rewrite urls_pairs. eapply NoDup_app_remove_l. exact ND.
    - intros u Hu. unfold urls_of in Hu. rewrite map_app in Hu. fold (urls_of (map pair_of (Pc ++ Pp))) in Hu. rewrite urls_pairs in Hu. apply hv_absent0.
      + intro I0. eapply NoDup_app_disjoint; [exact ND|exact I0|exact Hu].
      + apply RA. unfold urls_of. rewrite map_app. apply in_app_or in Hu as [Hu|Hu]; apply in_or_app; [left|right; exact Hu].
        eapply Permutation_in; [exact U|]. rewrite map_app. apply in_or_app. auto.
    - rewrite zlen_app, zlen_map in *. lia.
    - rewrite zlen_app, zlen_map in *. lia. }
  destruct (sinv_step fuel dc new_decomp new_comp comp flush depth Stream CD mx (zlen L) _ _ _ _ _ _ _ _ _ _ o z1 SI RM OK B3 E) as (cells1 & L1 & Pd1 & Pc1 & Pp1 & [G S1 S2 S3 S4] & FI).
  exists cells1, L1, (Pd ++ Pd1), Pc1, Pp1. split; [|exact FI]. pose proof (perform_mimes _ _ _ _ _ _ _ _ _ E) as MX. pose proof (perform_good _ _ _ _ (sop_items o OK) E) as MG.
  set (A' := fa_set_state z1 A). change (sa_arch (zs_arch z1)) with (fa_arch A') in G.
  assert (EX : exists N, L1 = L ++ N /\ zlen N <= zlen Pd1) by (destruct (gr_clusters _ _ _ _ _ _ _ _ _ _ G) as (N & EN & _ & ZN); eauto).
  constructor; try assumption.
  - exact (grown_laid A cells L _ cells1 L1 Pd1 _ hv_laid0 G A' eq_refl eq_refl MG MX).
  - rewrite <- app_assoc, map_app. rewrite S3. rewrite app_assoc, <- map_app. apply Permutation_app_tail. exact hv_all0.
  - rewrite <- app_assoc. apply Forall_app. split; [|exact S4]. apply Forall_app in hv_typed0 as (T & _). eapply typed_later; [exact MX|exact T].
  - apply Forall_app. split.
    + eapply Forall_impl; [|exact hv_shelved0]. intros p Hp. exact (grown_shelved A cells L _ cells1 L1 Pd1 _ hv_laid0 G p Hp).
    + exact (grown_new A cells L _ cells1 L1 Pd1 _ hv_laid0 G (Z.le_refl _)).
  - intros u Hu Ha. rewrite map_app in Hu. apply (gr_absent _ _ _ _ _ _ _ _ _ _ G); [intro; apply Hu; apply in_or_app; auto|]. apply hv_absent0; [intro; apply Hu; apply in_or_app; auto|exact Ha].
  - rewrite (gr_urls _ _ _ _ _ _ _ _ _ _ G), hv_urls0, map_app, !app_assoc. apply Permutation_app_tail. apply Permutation_app_comm.
  - intros u e Hu. destruct (hv_old0 u e Hu) as (e1 & E1 & T1 & T2). destruct (gr_old _ _ _ _ _ _ _ _ _ _ G u e1 E1) as (e2 & E2 & T3 & T4). exists e2. split; [exact E2|].
    split; [|exact (eq_trans T4 T2)]. clear - T1 T3. destruct T1 as (X1 & X2 & X3 & X4 & X5), T3 as (Y1 & Y2 & Y3 & Y4 & Y5). unfold same_entry. repeat (split; [congruence|]).
    destruct (e_kind e), (e_kind e1), (e_kind e2); try contradiction; auto. destruct X5, Y5. split; congruence.
  - destruct EX as (N & -> & ZN). rewrite !zlen_app. pose proof (zlen_nonneg N). lia.
  - intros c b bl HX NL. destruct (hv_content0 c b bl HX NL) as (bl' & X1 & X2). exists bl'. split; [|exact X2]. exact (grown_blob A cells L _ cells1 L1 Pd1 _ G c bl' X1).
  - intros c b Q. apply hv_listing0. exact (grown_listing A cells L _ cells1 L1 Pd1 _ hv_laid0 G c b Q).
  - intros us Hus. destruct (hv_articles0 us Hus) as (us1 & U1 & U2). destruct (gr_articles _ _ _ _ _ _ _ _ _ _ G us1 U1) as (us2 & U3 & U4). exists us2. split; [exact U3|].
    unfold p_articles in *. rewrite filter_app, map_app, U4, U2, !app_assoc. apply Permutation_app_tail. apply Permutation_app_comm.
  - eapply mextends_trans; [exact hv_types0|exact MX].
  - intro T. exact (grown_titled A cells L _ cells1 L1 Pd1 _ hv_laid0 G A' eq_refl eq_refl (hv_titled0 T)).
Qed.

(** ** A flush *)
Lemma listed_again : forall s s2 E us, consistent s E -> consistent s2 E -> pl_ptrs (z_atpl s2) = pl_ptrs (z_atpl s) -> article_urls s = Some us ->
  exists us2, article_urls s2 = Some us2 /\ Permutation us2 us.
Proof.
  intros s s2 E us C C2 EA E0. destruct (article_urls_ok s2 E C2) as (us2 & H2 & N2). exists us2. split; [exact H2|].
  destruct (article_urls_ok s E C) as (us1 & H1 & N1). rewrite E0 in H1. injection H1 as <-. apply perm_by_in; try assumption.
  intro u. rewrite (article_urls_in _ _ _ C2 H2), (article_urls_in _ _ _ C E0), EA. reflexivity.
Qed.
Lemma pending_idle : forall x, pending x [] -> idle_strategy x.
Proof.
  intros x P. inversion P as [st P0 PD E1 E2|ms Ps MM PD E1 E2]; subst; cbn [idle_strategy].
  - exact (pd_entries _ _ _ _ PD).
  - clear P MM. revert E2. induction PD as [|[k st] P l Ps PD1 PD2 IH]; intro E; [constructor|]. cbn [concat] in E. apply app_eq_nil in E as (-> & E). constructor; [exact (pd_entries _ _ _ _ PD1)|].
    apply IH. exact E.
Qed.
(** The same entries, and blobs that differ only in title lists: an archive whose
    pointer lists are saved, or that has been opened. *)
Lemma seen_again : forall A0 cells0 L0 A done cells L Pd B L', hcore A0 cells0 L0 A done cells L Pd [] [] -> laid B cells L' ->
  (forall u, get_entry_by_full_url (fa_zim B) u = get_entry_by_full_url (fa_zim A) u) -> same_content_of (fa_zim A) (blobs_of L) (blobs_of L') ->
  same_lists (z_etpl (fa_zim B)) (z_etpl (fa_zim A)) -> pl_ptrs (z_atpl (fa_zim B)) = pl_ptrs (z_atpl (fa_zim A)) -> ml_types (fa_mimes B) = ml_types (fa_mimes A) ->
  (forall f, In f [FMagic; FMajor; FMinor; FUuid; FLayoutPage] -> hget f (fa_hdr B) = hget f (fa_hdr A)) ->
  pending (zs_comp (fa_state B)) [] -> pending (zs_plain (fa_state B)) [] -> fa_redirects B = fa_redirects A0 /\ fa_main B = fa_main A0 ->
  (titled A L -> titled B L') -> hcore A0 cells0 L0 B done cells L' Pd [] [].
Proof.
  intros A0 cells0 L0 A done cells L Pd B L' HV LB LK (SC1 & SC2) ST SA SM SH PC PP BF TI. pose proof HV as [].
  pose proof (ao_entries _ _ _ _ (lo_arch _ _ _ _ _ hv_laid0)) as CS. pose proof (ao_entries _ _ _ _ (lo_arch _ _ _ _ _ LB)) as CB.
  change (ca_zim (fa_arch A)) with (fa_zim A) in CS. change (ca_zim (fa_arch B)) with (fa_zim B) in CB.
  assert (LB1 : forall c b, listing_blob (fa_zim B) c b -> listing_blob (fa_zim A) c b).
  { intros c b (url & e & HU & E & EK). exists url, e. rewrite LK in E. split; [|auto]. destruct HU as [HU|(HU & HN)]; [auto|right; split; [exact HU|]].
    intro Q. apply HN. unfold same_lists in ST. rewrite Q in ST. destruct (z_etpl (fa_zim B)); [discriminate ST|reflexivity]. }
  assert (ZL : zlen L' = zlen L). { unfold blobs_of in SC1. rewrite !zlen_map in SC1. exact SC1. }
  constructor; try assumption.
  - eapply Forall_impl; [|exact hv_typed0]. intros p (T1 & m & T2 & T3). split; [exact T1|]. exists m. rewrite SM. auto.
  - eapply Forall_impl; [|exact hv_shelved0]. intros p (n & k & bl & H1 & H2 & H3 & H4 & H5). destruct (SC2 n k bl H2 H5) as (bl' & X1 & X2 & X3).
    exists n, k, bl'. rewrite LK. split; [exact H1|]. split; [exact X1|]. split; [congruence|]. split; [exact H4|]. intro Q. apply H5. auto.
  - intros u e Hu. destruct (hv_old0 u e Hu) as (e' & E1 & E2 & E3). exists e'. rewrite LK. split; [exact E1|]. split; [exact E2|]. rewrite (same_target _ _ _ e' CS CB). exact E3.
  - rewrite ZL. exact hv_count0.
  - intros c b bl HX NL. destruct (hv_content0 c b bl HX NL) as (bl' & X1 & X2). destruct (SC2 c b bl' X1) as (bl2 & Y1 & Y2 & Y3).
    + intro Q. apply NL. auto.
    + exists bl2. split; [exact Y1|congruence].
  - auto.
  - intros us Hus. destruct (hv_articles0 us Hus) as (us1 & U1 & U2). destruct (listed_again _ _ _ us1 CS CB SA U1) as (us2 & U3 & U4). exists us2. split; [exact U3|]. rewrite U4. exact U2.
  - intros f Hf. rewrite SH by exact Hf. auto.
  - destruct hv_types0 as (t & X). exists t. congruence.
  - auto.
Qed.

Lemma buffer_idle : forall A A', fa_redirects A = [] -> fa_main A = None -> flush_buffer depth process_blob rounds A = (Ok tt, A') -> A' = A.
Proof.
  intros A A' E1 E2 E. unfold flush_buffer in E. rewrite E1, E2 in E. unfold OperationBuffer.finalize, apply_redirects, mbind in E.
  destruct rounds as [|r]; cbn [apply_loop raise mbind] in E; [discriminate E|]. cbn in E. injection E as <-. destruct A as [[[[z p n] m] sc sp] h d rr mm]. cbn in *. subst rr mm. reflexivity.
Qed.

Lemma header_step : forall A0 cells0 L0 A done cells L Pd Pc Pp A1, hcore A0 cells0 L0 A done cells L Pd Pc Pp -> sync_main A = (Ok tt, A1) ->
  hcore A0 cells0 L0 A1 done cells L Pd Pc Pp /\ fa_state A1 = fa_state A /\ (is_dirty A1 = false -> A1 = A).
Proof.
  intros A0 cells0 L0 A done cells L Pd Pc Pp A1 HV E. pose proof HV as [].
  assert (DI : is_dirty A1 = false -> A1 = A).
  { intro DI. unfold sync_main in E. destruct (assign_inv _ _ _ _ _ E) as (h & HA & ->). destruct (hassign_more _ _ _ _ HA) as (_ & [->|HD] & _); [destruct A; reflexivity|].
    unfold is_dirty in DI. change (fa_header (fa_set_header h A)) with h in DI. rewrite HD, orb_true_r in DI. discriminate DI. }
  destruct (sync_main_ok _ _ A cells L A1 hv_laid0 E) as (LO1 & _ & h & -> & HG). split; [|split; [reflexivity|exact DI]].
  constructor; try assumption.
  - intros f Hf. change (fa_hdr (fa_set_header h A)) with (ho_hdr h). rewrite HG; [auto|]. intros ->. cbn in Hf. intuition discriminate.
  - intro T. apply (titled_same A L); [reflexivity|auto|reflexivity| |exact (hv_titled0 T)]. left. pose proof (HG FTitlePos ltac:(discriminate)) as Q. cbn [hget] in Q. injection Q as Q. exact Q.
Qed.

(** From the saving of the mimetypes to the end of the flush. *)
Notation tailh := (flush_tail fuel dc new_decomp new_comp comp flush depth kd md5 feed digest reserve truncate).
Lemma tail_step : forall A0 cells0 L0 A done cells L Pd A', hcore A0 cells0 L0 A done cells L Pd [] [] -> suff A ->
  (forall A2, (let* _ := sync_main in flush_articles fuel dc new_decomp new_comp comp flush kd) A = (Ok tt, A2) -> suff A2 /\ forall A3, flush_titles fuel dc new_decomp new_comp comp flush depth kd A2 = (Ok tt, A3) -> suff A3) -> tailh A = (Ok tt, A') ->
  exists L', hcore A0 cells0 L0 A' done cells L' Pd [] [] /\ settled A' /\ right A'.
Proof.
  intros A0 cells0 L0 A done cells L Pd A' HV (F0 & FA & FT & FE) SA E. pose proof (hv_laid _ _ _ _ _ _ _ _ _ _ HV) as LO.
  destruct (tail_ok fuel dc new_decomp new_comp comp flush depth kd Stream reserve CD md5 feed digest HO truncate A cells L A' LO) as (L' & A4 & ES4 & LO' & SV & VW); [| | |exact E|].
  - split; [exact F0|]. split; [exact (FA _ _ LO)|]. split; [exact FT|]. intros t Ht. split; [exact (FE t Ht)|]. intros B0 B1 L2 HB0 HB1 HL.
    destruct (SA B1) as ((_ & G & _) & G2); [unfold mbind; rewrite HB0; exact HB1|]. split; [exact (G _ _ HL)|]. intros B2 L3 HB2 HL2. destruct (G2 B2 HB2) as (_ & G3 & _). exact (G3 _ _ HL2).
  - apply pending_idle. exact (hv_comp _ _ _ _ _ _ _ _ _ _ HV).
  - apply pending_idle. exact (hv_plain _ _ _ _ _ _ _ _ _ _ HV).
  - destruct (header_step _ _ _ _ _ _ _ _ _ _ _ HV ES4) as (HV4 & _ & _). destruct VW as [V1 V2 V3 V4 V5 V6 (V7 & V8 & V9 & V10) V11 V12 _ V13].
    exists L'. destruct SV as (S1 & S2 & S3 & S4). split; [|split; [split; [exact S1|split; assumption]|exact S4]]. eapply (seen_again A0 cells0 L0 A4 done cells L Pd A' L' HV4 LO'); try assumption.
    + intros f Hf. apply V6. unfold kept_fields. cbn in *. intuition.
    + rewrite V7. exact (hv_comp _ _ _ _ _ _ _ _ _ _ HV4).
    + rewrite V8. exact (hv_plain _ _ _ _ _ _ _ _ _ _ HV4).
    + rewrite V9, V10. exact (hv_buffer _ _ _ _ _ _ _ _ _ _ HV4).
Qed.
(** The strategies are flushed. *)
Lemma strategies_step : forall A0 cells0 L0 A done cells L Pd Pc Pp A', hcore A0 cells0 L0 A done cells L Pd Pc Pp -> room 0 cells0 L0 done -> zlen (ml_types (fa_mimes A)) <= 65535 ->
  flush_strategies fuel new_comp comp flush depth A = (Ok tt, A') -> exists cells1 L1 Pd1, hcore A0 cells0 L0 A' done cells1 L1 Pd1 [] [].
Proof.
  intros A0 cells0 L0 A done cells L Pd Pc Pp A' HV RO B3 E3. unfold flush_strategies in E3.
  destruct (zim_flush_items fuel new_comp comp flush depth (fa_state A)) as [r z] eqn:EF. injection E3 as -> <-.
  assert (MM : sa_mimes (zs_arch z) = fa_mimes A).
  { unfold zim_flush_items in EF. destruct (any_flush _ _ _ _ _ _) as [[[]|e] [s y]] eqn:EX; [|discriminate EF].
    destruct (any_flush _ _ _ _ _ (s, zs_plain (fa_state A))) as [r2 [s2 y2]] eqn:EY. injection EF as _ <-. cbn [zs_arch].
    rewrite (any_flush_mimes _ _ _ _ _ _ _ _ _ _ EY), (any_flush_mimes _ _ _ _ _ _ _ _ _ _ EX). reflexivity. }
  destruct (content_step _ _ _ _ _ _ _ _ _ _ FlushItems z HV) as (cells1 & L1 & Pd1 & Pc1 & Pp1 & HV2 & FI).
  { change (added_by [FlushItems]) with (@nil (item * bytes)). rewrite app_nil_r. exact RO. }
  { constructor. }
  { rewrite MM. exact B3. }
  { exact EF. }
  destruct (FI eq_refl) as (-> & ->). change (added_by [FlushItems]) with (@nil (item * bytes)) in HV2. rewrite app_nil_r in HV2. eauto.
Qed.

Definition no_buffer (A : farchive) : Prop := fa_redirects A = [] /\ fa_main A = None.
Lemma flush_step : forall A0 cells0 L0 A done cells L Pd Pc Pp A', no_buffer A0 -> hcore A0 cells0 L0 A done cells L Pd Pc Pp -> (is_dirty A = false -> settled A /\ Pc = [] /\ Pp = []) ->
  room 0 cells0 L0 done -> zlen (ml_types (fa_mimes A)) <= 65535 -> fsuff A -> flushesh A = (Ok tt, A') ->
  exists cells1 L1 Pd1, hcore A0 cells0 L0 A' done cells1 L1 Pd1 [] [] /\ settled A' /\ ((is_dirty A = false -> right A) -> right A').
Proof.
  intros A0 cells0 L0 A done cells L Pd Pc Pp A' (N1 & N2) HV CL RO B3 (FS & _) E. unfold flushes, zim_flush, mbind in E.
  destruct (sync_main A) as [[[]|] A1] eqn:E1; [|discriminate E]. destruct (header_step _ _ _ _ _ _ _ _ _ _ _ HV E1) as (HV1 & ES & DI).
  destruct (is_dirty A1) eqn:ED; cbn [negb] in E.
  2:{ injection E as <-. rewrite (DI eq_refl) in *. destruct (CL ED) as (S & -> & ->). exists cells, L, Pd. split; [exact HV|]. split; [exact S|]. auto. }
  destruct (flush_content _ _ _ _ _ _ _ A1) as [[[]|] A2] eqn:E2; [|discriminate E].
  destruct (FS A2) as (SU & SA); [unfold mbind; rewrite E1; exact E2|]. unfold flush_content, mbind in E2.
  destruct (flush_strategies _ _ _ _ _ A1) as [[[]|] A3] eqn:E3; [|discriminate E2].
  destruct (strategies_step A0 cells0 L0 A1 done cells L Pd Pc Pp A3 HV1 RO) as (cells1 & L1 & Pd1 & HV2); [change (fa_mimes A1) with (sa_mimes (zs_arch (fa_state A1))); rewrite ES; exact B3|exact E3|].
  pose proof (hv_buffer _ _ _ _ _ _ _ _ _ _ HV2) as (BR & BM). rewrite N1 in BR. rewrite N2 in BM. pose proof (buffer_idle A3 A2 BR BM E2) as ->.
  destruct (tail_step _ _ _ _ _ _ _ _ A' HV2 SU SA E) as (L' & HV3 & S1 & S2). exists cells1, L', Pd1. auto.
Qed.

(** ** Opening again, and all histories *)
Lemma reopen_step : forall A0 cells0 L0 A done cells L Pd sc sp, no_buffer A0 -> hcore A0 cells0 L0 A done cells L Pd [] [] -> settled A -> suff A ->
  fresh_strategy sc -> fresh_strategy sp -> limit_of sc <= mx -> limit_of sp <= mx ->
  exists B, open_zim fuel dc new_decomp new_comp comp flush depth kd (fa_file A) true sc sp = Ok B /\ same_archive A B /\ hcore A0 cells0 L0 B done cells L Pd [] [] /\ settled B /\ (right A -> right B).
Proof.
  intros A0 cells0 L0 A done cells L Pd sc sp (N1 & N2) HV SV (F0 & FA & _) F1 F2 M1 M2. pose proof (hv_laid _ _ _ _ _ _ _ _ _ _ HV) as LO.
  destruct (open_settled fuel dc new_decomp new_comp comp flush depth kd Stream reserve md5 feed digest CD true sc sp A cells L LO SV (FA _ _ LO) F0) as (B & E & SA & E1 & E2 & E3 & E4 & _ & W).
  destruct (W eq_refl) as (LB & SB & SR). exists B. split; [exact E|]. split; [exact SA|]. split; [|split; [exact SB|exact SR]]. destruct SA as [S1 S2 S3 S4 S5 S6 S7 S8].
  apply (seen_again A0 cells0 L0 A done cells L Pd B L HV LB); try assumption.
  - intro u. apply lookup_ext; assumption.
  - apply same_content_refl.
  - intros f _. rewrite S2. reflexivity.
  - rewrite E1. apply fresh_pendany; assumption.
  - rewrite E2. apply fresh_pendany; assumption.
  - split; congruence.
  - intro T. assert (CLN : forall X : farchive, settled X -> pl_dirty (z_atpl (fa_zim X)) = false /\ tdirty (fa_zim X) = false).
    { intros X (DI & _). unfold is_dirty in DI. fold (tdirty (fa_zim X)) in DI. repeat (apply orb_false_iff in DI; destruct DI as (DI & ?)). auto. }
    destruct (CLN A SV) as (CA & CT). destruct (CLN B SB) as (CB & _). intros t e c b Ht He Hk. rewrite (lookup_ext _ _ _ S1 S4) in He.
    unfold same_lists in S7. rewrite Ht in S7. unfold tdirty in CT. destruct (z_etpl (fa_zim A)) as [t0|] eqn:ET; [|discriminate S7].
    destruct (T t0 e c b ET He Hk) as (off & cell & T1 & T2 & T3). exists off, cell. split; [exact T1|]. split; [exact T2|]. intros _. split; [exact CB|]. rewrite S2. exact (proj2 (T3 CT)).
Qed.

Notation performz := (perform_zop fuel dc new_decomp new_comp comp flush depth kd md5 feed digest reserve truncate process_blob rounds).
Notation zrunsh := (zruns fuel dc new_decomp new_comp comp flush depth kd Stream md5 feed digest reserve truncate process_blob rounds).
Definition limited (o : zop) : Prop := match o with ZReopen sc sp => limit_of sc <= mx /\ limit_of sp <= mx | _ => True end.
Definition clean (A : farchive) (Pc Pp : list pitem) : Prop := is_dirty A = false -> settled A /\ Pc = [] /\ Pp = [].

Lemma zadded_cons : forall o ops, zadded (o :: ops) = zadded [o] ++ zadded ops.
Proof. intros o ops. unfold zadded. cbn [map concat]. rewrite app_nil_r. reflexivity. Qed.

Lemma zop_step : forall A0 cells0 L0 A done cells L Pd Pc Pp o A', no_buffer A0 -> hcore A0 cells0 L0 A done cells L Pd Pc Pp -> clean A Pc Pp ->
  room 0 cells0 L0 (done ++ zadded [o]) -> zop_ok fuel o -> limited o -> zlen (ml_types (fa_mimes A)) <= 65535 -> zlen (ml_types (fa_mimes A')) <= 65535 -> fsuff A ->
  performz A o = (Ok tt, A') ->
  exists cells1 L1 Pd1 Pc1 Pp1, hcore A0 cells0 L0 A' (done ++ zadded [o]) cells1 L1 Pd1 Pc1 Pp1 /\ clean A' Pc1 Pp1 /\
    (zadded [o] = [] -> settled A' /\ Pc1 = [] /\ Pp1 = []) /\ ((is_dirty A = false -> right A) -> is_dirty A' = false -> right A').
Proof.
  intros A0 cells0 L0 A done cells L Pd Pc Pp o A' NB HV CL RO OK LM B1 B2 FS E. destruct o as [it d u| |sc sp]; cbn [perform_zop] in E.
  - unfold fa_add_item in E. destruct (zim_add_item fuel new_comp comp flush depth it u (fa_state A)) as [[[]|x] z1] eqn:EZ; [|discriminate E]. injection E as <-.
    destruct (content_step A0 cells0 L0 A done cells L Pd Pc Pp (AddItem it d u) z1 HV RO) as (cells1 & L1 & Pd1 & Pc1 & Pp1 & HV1 & _); [constructor; [exact OK|constructor]|exact B2|exact EZ|].
    exists cells1, L1, Pd1, Pc1, Pp1. split; [|split; [intro Q; discriminate Q|split; [intro Q; discriminate Q|intros _ Q; discriminate Q]]].
    destruct HV1. constructor; try assumption. eapply laid_same; [| |exact hv_laid0]; reflexivity.
  - change (zadded [ZFlush]) with (@nil (item * bytes)) in *. rewrite app_nil_r in *.
    destruct (flush_step A0 cells0 L0 A done cells L Pd Pc Pp A' NB HV CL RO B1 FS E) as (cells1 & L1 & Pd1 & HV1 & SV & SR). exists cells1, L1, Pd1, [], []. unfold clean. auto 8.
  - change (zadded [ZReopen sc sp]) with (@nil (item * bytes)) in *. rewrite app_nil_r in *. destruct OK as (F1 & F2). destruct LM as (M1 & M2).
    destruct (flushesh A) as [[[]|x] A1] eqn:EF; [|discriminate E].
    destruct (flush_step A0 cells0 L0 A done cells L Pd Pc Pp A1 NB HV CL RO B1 FS EF) as (cells1 & L1 & Pd1 & HV1 & SV & SR).
    destruct (reopen_step A0 cells0 L0 A1 done cells1 L1 Pd1 sc sp NB HV1 SV (proj2 FS A1 EF) F1 F2 M1 M2) as (B & EO & _ & HV2 & SV2 & SR2). rewrite EO in E. injection E as <-.
    exists cells1, L1, Pd1, [], []. unfold clean. auto 8.
Qed.

Lemma zruns_limits : forall A ops A', zrunsh A ops A' -> within_limits fuel Stream reserve A /\ within_limits fuel Stream reserve A'.
Proof. induction 1 as [A W|A o A1 ops A' W FS E R IH]; [auto|]. split; [exact W|exact (proj2 IH)]. Qed.
Lemma zruns_step : forall A ops A', zrunsh A ops A' -> forall A0 cells0 L0 done cells L Pd Pc Pp, no_buffer A0 -> hcore A0 cells0 L0 A done cells L Pd Pc Pp -> clean A Pc Pp ->
  room 0 cells0 L0 (done ++ zadded ops) -> Forall (zop_ok fuel) ops -> Forall limited ops ->
  exists cells1 L1 Pd1 Pc1 Pp1, hcore A0 cells0 L0 A' (done ++ zadded ops) cells1 L1 Pd1 Pc1 Pp1 /\ clean A' Pc1 Pp1 /\ ((is_dirty A = false -> right A) -> is_dirty A' = false -> right A').
Proof.
  induction 1 as [A W|A o A1 ops A' W FS E R IH]; intros A0 cells0 L0 done cells L Pd Pc Pp NB HV CL RO OK LM.
  - unfold zadded. cbn [map concat]. rewrite app_nil_r. eauto 9.
  - rewrite zadded_cons, app_assoc in *. inversion OK as [|? ? OK1 OK2]; subst. inversion LM as [|? ? LM1 LM2]; subst.
    destruct (zop_step A0 cells0 L0 A done cells L Pd Pc Pp o A1 NB HV CL (room_part _ _ _ _ _ RO) OK1 LM1 (proj2 W) (proj2 (proj1 (zruns_limits _ _ _ R))) FS E)
      as (cells1 & L1 & Pd1 & Pc1 & Pp1 & HV1 & CL1 & _ & SR1).
    destruct (IH _ _ _ _ _ _ _ _ _ NB HV1 CL1 RO OK2 LM2) as (cells2 & L2 & Pd2 & Pc2 & Pp2 & HV2 & CL2 & SR2). exists cells2, L2, Pd2, Pc2, Pp2. auto.
Qed.
Lemma zruns_app : forall A ops A' o, zrunsh A (ops ++ [o]) A' -> exists A1, zrunsh A ops A1 /\ performz A1 o = (Ok tt, A') /\ fsuff A1.
Proof.
  intros A ops. revert A. induction ops as [|p ops IH]; intros A A' o R; cbn [app] in R; inversion R as [|? ? A1 ? ? W FS E R1]; subst.
  - inversion R1; subst. exists A. split; [constructor; exact W|auto].
  - destruct (IH _ _ _ R1) as (A2 & R2 & E2 & F2). exists A2. split; [econstructor; eassumption|auto].
Qed.

Lemma hcore_begin : forall A cells L Pc Pp, laid A cells L -> pending (zs_comp (fa_state A)) Pc -> pending (zs_plain (fa_state A)) Pp -> Forall (typed fuel (fa_mimes A)) (Pc ++ Pp) ->
  hcore A cells L A (map pair_of (Pc ++ Pp)) cells L [] Pc Pp.
Proof.
  intros A cells L Pc Pp LO P1 P2 TY. constructor; auto.
  - intros u e E. exists e. split; [exact E|]. split; [|reflexivity]. unfold same_entry. destruct (e_kind e); auto 10.
  - change (zlen (@nil pitem)) with 0. lia.
  - intros c b bl E _. eauto.
  - intros us E. exists us. split; [exact E|apply Permutation_refl].
  - apply mextends_refl.
Qed.
Lemma hcore_start : forall A cells L, laid A cells L -> pending (zs_comp (fa_state A)) [] -> pending (zs_plain (fa_state A)) [] -> hcore A cells L A [] cells L [] [] [].
Proof. intros A cells L LO P1 P2. exact (hcore_begin A cells L [] [] LO P1 P2 (Forall_nil _)). Qed.
(** After a last flush, or after opening again. *)
Lemma history : forall A cells L ops o A', laid A cells L -> pending (zs_comp (fa_state A)) [] -> pending (zs_plain (fa_state A)) [] -> fa_redirects A = [] -> fa_main A = None ->
  (is_dirty A = false -> savedh A) -> zrunsh A (ops ++ [o]) A' -> zadded [o] = [] -> room 0 cells L (zadded ops) -> Forall (zop_ok fuel) (ops ++ [o]) -> Forall limited (ops ++ [o]) ->
  exists cells1 L1 P, hcore A cells L A' (zadded ops) cells1 L1 P [] [] /\ savedh A'.
Proof.
  intros A cells L ops o A' LO P1 P2 B1 B2 SV R EO RO OK LM. destruct (zruns_app _ _ _ _ R) as (A1 & R1 & E1 & F1). apply Forall_app in OK as (OK1 & OK2). apply Forall_app in LM as (LM1 & LM2).
  inversion OK2 as [|? ? OK3 _]; subst. inversion LM2 as [|? ? LM3 _]; subst.
  assert (CL : clean A [] []) by (intro Q; destruct (SV Q) as (S1 & S2 & S3 & _); split; [split; [exact S1|split; assumption]|auto]).
  destruct (zruns_step _ _ _ R1 A cells L [] cells L [] [] [] (conj B1 B2) (hcore_start A cells L LO P1 P2) CL RO OK1 LM1) as (cells1 & L1 & Pd1 & Pc1 & Pp1 & HV1 & CL1 & SR1).
  cbn [app] in HV1.
  destruct (zop_step A cells L A1 (zadded ops) cells1 L1 Pd1 Pc1 Pp1 o A' (conj B1 B2) HV1 CL1) as (cells2 & L2 & Pd2 & Pc2 & Pp2 & HV2 & _ & FI & SR2); try assumption.
  - rewrite EO, app_nil_r. exact RO.
  - exact (proj2 (proj2 (zruns_limits _ _ _ R1))).
  - exact (proj2 (proj2 (zruns_limits _ _ _ R))).
  - destruct (FI EO) as ((S1 & S2 & S3) & -> & ->). rewrite EO, app_nil_r in HV2. exists cells2, L2, Pd2. split; [exact HV2|]. split; [exact S1|]. split; [exact S2|]. split; [exact S3|].
    apply SR2; [|exact S1]. apply SR1. intro Q. destruct (SV Q) as (_ & _ & _ & X). exact X.
Qed.
End History.
