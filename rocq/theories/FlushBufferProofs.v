(** Buffered redirects and the flush of a whole archive: proofs. *)
From Coq Require Import List ZArith Bool Lia Permutation.
From Coq Require Import ZifyBool ZifyNat.
From Verif Require Import Base BaseProofs Utf8 Utf8Proofs Dict Infobyte Header HeaderSpec HeaderProofs MimeTypeList MimeTypeListSpec MimeTypeListProofs PointerList PointerListProofs
  SpaceAllocator SpaceAllocatorSpec SpaceAllocatorProofs Entry EntrySpec EntryProofs Reader ReaderSpec Blob Cluster ClusterSpec ClusterProofs ClusterWrapper ClusterWrapperSpec ClusterWrapperProofs
  Archive ArchiveSpec ArchiveProofs ArchiveWriteProofs ArchiveMoveProofs ArchiveFacts ArchiveLaws ArchiveEdit ArchiveCluster ArchiveClusterSpec ArchiveClusterProofs ArchiveFrame ArchiveEntryCluster ArchiveEditCluster
  CompressionStrategy CompressionStrategySpec CompressionStrategyProofs OperationBuffer OperationBufferSpec OperationBufferProofs EntryObject EntryObjectSpec EntryObjectProofs
  Flush FlushSpec FlushProofs FlushTailProofs FlushOpenProofs FlushHistorySpec FlushHistoryProofs ViewSpec ViewProofs ViewEditProofs ViewStepProofs.
Import ListNotations.
Open Scope Z_scope.

(** ** One redirect is written *)
Lemma redirect_written : forall n s cells r b s', core s cells -> consistent s (map snd cells) -> sound r -> absent (map snd cells) (rsource r) -> zlen cells + 1 < 2 ^ 32 ->
  exists_at s (rtarget r) -> add_full_url_redirect (S (S n)) (rsource r) (rtarget r) (wanted_title r) s = (Ok b, s') ->
  b = true /\ exists cells', entry_step s cells s' cells' /\ steady s s' /\ zlen cells' = zlen cells + 1 /\ extends s s' /\ has_redirect s' r /\
    (forall y, y <> rsource r -> exists_at s' y -> exists_at s y).
Proof.
  intros n s cells r b s' CO C SO V2 HN EXt EA. set (L := map snd cells) in *.
  destruct SO as [(ns & u & x & Es & Hns & Hu) [Ht0 [tb Htb]] Hd Hti].
  destruct EXt as (d & Gd). pose proof Gd as Gd0. apply (lookup_iff _ _ _ _ C) in Gd0 as (Hd1 & Hd2). destruct (in_znth _ _ Hd1) as [i Hi].
  set (t := match wanted_title r with Some t => t | None => title d end).
  assert (Hst : storable t).
  { unfold t. destruct (wanted_title r) as [t0|]; [auto|]. apply title_storable. eapply consistent_storable; eauto. }
  set (e := mkEntry MIMETYPE_ID_REDIRECT [ns] u (Some t) (Redirect i)).
  assert (MR : make_redirect s (rsource r) (rtarget r) (wanted_title r) = Ok (Some e)).
  { unfold make_redirect. replace (ueqb (rsource r) (rtarget r)) with false by (symmetry; apply ueqb_neq; exact Hd).
    rewrite Es. destruct (rtarget r) as [|t0 tr] eqn:Et; [contradiction|]. rewrite <- Et in *. rewrite <- Hd2 at 1. rewrite (url_index_in _ _ _ _ C Hi). rewrite Gd.
    unfold e, t. destruct (wanted_title r); reflexivity. }
  pose proof (znth_some _ _ _ Hi) as Hib.
  assert (EF : full_url (w_entry (fresh e)) = rsource r) by (rewrite Es; reflexivity).
  assert (AD : addable L (fresh e)).
  { constructor; cbn [fresh w_entry w_old_url w_force e].
    - split; [cbn; unfold MIMETYPE_ID_REDIRECT; lia|]. cbn. split; [eauto|]. split; [exact Hu|]. split; [eauto|]. unfold L in Hib. rewrite zlen_map in Hib. lia.
    - reflexivity.
    - unfold full_url. cbn. rewrite <- Es. exact V2.
    - unfold full_url. cbn. rewrite <- Es. exact V2.
    - unfold full_url. cbn [e_ns e_url app]. eapply encode_storable_app; eauto.
    - cbn. intros r0 Q. injection Q as <-. exact Hib.
    - discriminate.
    - intros _ Q. cbn in Q. injection Q as ->. reflexivity.
    - unfold L. rewrite zlen_map. exact HN. }
  unfold add_full_url_redirect, query, mbind in EA. rewrite MR in EA. cbv beta iota in EA. destruct (write_entry (S (S n)) (fresh e) s) as [[[]|] s1] eqn:EW; [|discriminate EA]. injection EA as <- <-.
  split; [reflexivity|]. destruct (add_step s cells (fresh e) n s1 CO C AD EW) as (cells' & ES). exists cells'. pose proof (es_consistent _ _ _ _ ES) as C'.
  destruct (add_lookup _ _ _ _ _ C AD EW) as ((e' & Ge' & Se' & Te') & Lo & Lm). rewrite EF in Ge', Lm.
  assert (SD : steady s s1).
  { constructor; [intro; apply tracks_listing; exact (es_tracks _ _ _ _ ES)|]. intros y e0 _ G. destruct (Lo y e0 G) as (e1 & G1 & S1 & _). eauto. }
  split; [exact ES|]. split; [exact SD|]. split.
  { destruct (add_cases _ _ _ _ _ _ C AD EW) as [(_ & LA & LB2 & a & _ & _ & _ & _ & D0)|(Q & _)]; [|discriminate Q]. destruct D0 as (L' & off & CL' & Ln & _).
    pose proof CL' as [(cells2 & E2 & Co2) _ _ _ _]. rewrite (core_unique _ _ _ Co2 (es_core _ _ _ _ ES)) in E2. rewrite <- E2 in Ln. unfold L in Ln. rewrite !zlen_map in Ln. exact Ln. }
  split; [exact Lo|]. split.
  - exists e'. split; [exact Ge'|]. destruct Se' as (Q1 & _ & _ & Q4 & _). split; [unfold is_redirect; rewrite <- Q1; reflexivity|].
    split; [rewrite Te'; unfold target_url; cbn; rewrite (proj2 (index_iff _ _ _ _ C) Hi); congruence|]. cbn [fresh w_entry e e_title] in Q4. unfold t in Q4. destruct (wanted_title r) as [t0|]; [congruence|].
    destruct (Lo _ d Gd) as (d' & Gd' & Sd' & _). exists d'. split; [exact Gd'|]. rewrite <- Q4, (same_title _ _ Sd'). reflexivity.
  - intros y Ny Q. exact (taken_before s L s1 y C (Lm y Ny) Q).
Qed.

(** ** All of them: [T] are those that are still to be tried, [l0] all of them *)
Section Buffer.
Variables (s0 : zim) (cells0 : list (Z * entry)) (l0 : list rop) (nn : Z).
Hypothesis NN : nn + 1 < 2 ^ 32.
Record bwaits (o : buffered) (T : list rop) (cells : list (Z * entry)) : Prop := mkBwaits {
  bw_step : entry_step s0 cells0 (b_zim o) cells;
  bw_steady : steady s0 (b_zim o);
  bw_new : forall r, In r (T ++ b_redirects o) -> sound r /\ absent (map snd cells) (rsource r);
  bw_distinct : NoDup (map rsource (T ++ b_redirects o));
  bw_count : zlen cells + zlen (T ++ b_redirects o) <= nn;
  bw_all : forall r, In r l0 -> In r (T ++ b_redirects o) \/ has_redirect (b_zim o) r }.
Lemma waits_one : forall n r T o o' cells, bwaits o (r :: T) cells -> add_redirect (S (S n)) r o = (Ok tt, o') -> exists cells', bwaits o' T cells' /\ b_main o' = b_main o.
Proof.
  intros n r T o o' cells [ES SD SO ND Z HA] E. pose proof (es_consistent _ _ _ _ ES) as C. pose proof (es_core _ _ _ _ ES) as CO. rewrite add_redirect_eq in E. cbn [app] in *. rewrite zlen_cons in Z.
  pose proof (zlen_nonneg (T ++ b_redirects o)) as ZN. destruct (SO r (or_introl eq_refl)) as (S0 & A0). cbn [map] in ND. inversion ND as [|? ? NI ND2]; subst.
  destruct (exists_at_dec (b_zim o) _ (rtarget r) C) as [EX|AB].
  - destruct (add_full_url_redirect (S (S n)) (rsource r) (rtarget r) (wanted_title r) (b_zim o)) as [[b|] s'] eqn:EA; [|discriminate E].
    destruct (redirect_written _ _ _ _ _ _ CO C S0 A0 ltac:(lia) EX EA) as (-> & cells' & ES2 & SD2 & Z2 & XT & HR & ON). injection E as <-. exists cells'. split; [|reflexivity].
    constructor; cbn [b_zim b_set_zim b_redirects].
    + eapply step_trans; eassumption.
    + eapply steady_trans; eassumption.
    + intros r1 H1. destruct (SO r1 (or_intror H1)) as (S1 & A1). split; [exact S1|]. apply (absent_exists _ _ _ (es_consistent _ _ _ _ ES2)). intro Q. apply ON in Q; [exact (not_both _ _ _ C Q A1)|].
      intro Q2. apply NI. rewrite <- Q2. apply in_map. exact H1.
    + exact ND2.
    + lia.
    + intros r1 H1. destruct (HA r1 H1) as [[<-|H2]|H2]; [right; exact HR|left; exact H2|right; exact (has_redirect_extends _ _ _ XT H2)].
  - rewrite (add_missing _ _ _ r C S0 AB) in E. injection E as <-. exists cells. split; [|reflexivity]. assert (PM : Permutation (r :: T ++ b_redirects o) (T ++ b_redirects o ++ [r])) by (rewrite app_assoc; apply Permutation_cons_append).
    constructor; cbn [b_zim b_set_zim b_redirects b_set_redirects]; try assumption.
    + intros r1 H1. apply SO. exact (Permutation_in _ (Permutation_sym PM) H1).
    + eapply Permutation_NoDup; [apply Permutation_map; exact PM|]. exact ND.
    + rewrite !zlen_app in *. change (zlen [r]) with 1. lia.
    + intros r1 H1. destruct (HA r1 H1) as [H2|H2]; [left; exact (Permutation_in _ PM H2)|auto].
Qed.
Lemma waits_round : forall n l o o' cells, bwaits o l cells -> add_redirects (S (S n)) l o = (Ok tt, o') -> exists cells', bwaits o' [] cells' /\ b_main o' = b_main o.
Proof.
  intros n. induction l as [|r l IH]; intros o o' cells B E; cbn [add_redirects] in E; [injection E as <-; eauto|]. unfold mbind in E.
  destruct (add_redirect (S (S n)) r o) as [[[]|] o1] eqn:E1; [|discriminate E]. destruct (waits_one _ _ _ _ _ _ B E1) as (c1 & B1 & M1). destruct (IH _ _ _ B1 E) as (c2 & B2 & M2). exists c2. split; [exact B2|congruence].
Qed.
Lemma waits_loop : forall n k o o' cells, bwaits o [] cells -> apply_loop k (S (S n)) o = (Ok tt, o') -> exists cells', bwaits o' [] cells' /\ b_main o' = b_main o.
Proof.
  intros n. induction k as [|k IH]; intros o o' cells B E; cbn [apply_loop] in E; [discriminate E|]. cbv zeta in E. unfold mbind in E.
  destruct (add_redirects (S (S n)) (b_redirects o) (b_set_redirects [] o)) as [[[]|] o1] eqn:E1; [|discriminate E].
  assert (B0 : bwaits (b_set_redirects [] o) (b_redirects o) cells).
  { destruct B. constructor; cbn [b_zim b_set_redirects b_redirects app] in *; rewrite ?app_nil_r; assumption. }
  destruct (waits_round _ _ _ _ _ B0 E1) as (c1 & B1 & M1). cbn [b_main b_set_redirects] in M1. destruct (rops_eqb _ _); [injection E as <-; eauto|]. destruct (IH _ _ _ B1 E) as (c2 & B2 & M2). exists c2. split; [exact B2|congruence].
Qed.
Lemma waits_done : forall process_blob rounds n o o' cells, bwaits o [] cells -> b_main o = None -> OperationBuffer.finalize process_blob rounds (S (S n)) o = (Ok tt, o') ->
  b_main o' = None /\ exists cells', entry_step s0 cells0 (b_zim o') cells' /\ steady s0 (b_zim o') /\ b_redirects o' = [] /\ forall r, In r l0 -> has_redirect (b_zim o') r.
Proof.
  intros process_blob rounds n o o' cells B M E. unfold OperationBuffer.finalize, apply_redirects, mbind in E. destruct (apply_loop rounds (S (S n)) o) as [[[]|] o1] eqn:E1; [|discriminate E].
  destruct (waits_loop _ _ _ _ _ B E1) as (c1 & B1 & M1). rewrite M in M1. destruct (b_redirects o1) eqn:ER; [|discriminate E]. unfold apply_set_mainpage_url in E. rewrite M1 in E. injection E as <-. split; [exact M1|].
  exists c1. destruct B1. rewrite ER in *. split; [assumption|]. split; [assumption|]. split; [reflexivity|]. intros r Hr. destruct (bw_all0 r Hr) as [[]|Q]. exact Q.
Qed.
End Buffer.

(** ** Archives with the same entries have the same redirects *)
Lemma same_entries_redirect : forall s s' E r, consistent s E -> consistent s' E -> has_redirect s r -> has_redirect s' r.
Proof.
  intros s s' E r C C'. apply has_redirect_extends. intros u e G. exists e. pose proof G as G0. apply (lookup_iff _ _ _ _ C) in G0. split; [apply (lookup_iff _ _ _ _ C'); exact G0|]. split; [apply same_entry_refl|].
  destruct (target_url s e) as [v|] eqn:T1, (target_url s' e) as [w|] eqn:T2; try reflexivity.
  - apply (target_iff _ _ _ _ C) in T1. apply (target_iff _ _ _ _ C') in T1. congruence.
  - apply (target_iff _ _ _ _ C) in T1. apply (target_iff _ _ _ _ C') in T1. congruence.
  - apply (target_iff _ _ _ _ C') in T2. apply (target_iff _ _ _ _ C) in T2. congruence.
Qed.
Lemma same_archive_redirect : forall A B r, same_archive A B -> has_redirect (fa_zim A) r -> has_redirect (fa_zim B) r.
Proof.
  intros A B r [S1 S2 S3 S4 S5 S6 S7 S8]. apply has_redirect_extends. intros u e G. exists e. split; [rewrite <- G; apply lookup_ext; assumption|]. split; [apply same_entry_refl|]. apply target_ext; assumption.
Qed.
