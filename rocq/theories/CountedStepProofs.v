(** Proofs about archives with a counter (C73): the operations. *)
From Coq Require Import List ZArith Bool Lia Permutation.
From Coq Require Import ZifyBool ZifyNat.
From Verif Require Import Base BaseProofs Utf8 Utf8Proofs Dict Infobyte Header HeaderSpec HeaderProofs MimeTypeList MimeTypeListSpec MimeTypeListProofs PointerList PointerListProofs
  SpaceAllocator SpaceAllocatorSpec SpaceAllocatorProofs Entry EntrySpec EntryProofs Reader ReaderSpec Blob Cluster ClusterSpec ClusterProofs ClusterWrapper ClusterWrapperSpec ClusterWrapperProofs
  Archive ArchiveSpec ArchiveProofs ArchiveWriteProofs ArchiveMoveProofs ArchiveRemoveProofs ArchiveObserve ArchiveFacts ArchiveLaws ArchiveEdit ArchiveCluster ArchiveClusterSpec ArchiveClusterProofs ArchiveFrame ArchiveEntryCluster ArchiveEditCluster
  CompressionStrategy CompressionStrategySpec CompressionStrategyProofs OperationBuffer OperationBufferSpec OperationBufferProofs EntryObject EntryObjectSpec EntryObjectProofs
  Flush FlushSpec FlushProofs FlushTailProofs FlushOpenProofs FlushHistorySpec FlushHistoryProofs ViewSpec ViewProofs ViewEditProofs ViewStepProofs ViewWaitProofs ViewHistoryProofs
  Counter CounterSpec CounterProofs CountedArchive CountedSpec CountedProofs CountedStrategyProofs.
Import ListNotations.
Open Scope Z_scope.

(** ** The table of an archive and what is counted in it *)
Section Table.
Variables (s : zim) (E : list entry) (X : list (option (list bytes))) (types : list bytes) (W : list (item * bytes)) (R : list rop) (V : view).
Hypothesis C : consistent s E.
Hypothesis T : table s E X types W R V.
Definition written (m u : ustr) : Prop := pages_of V m u /\ ~ In u (urls_of W).
Lemma counted_page : forall u e c b, in_C u = true -> get_entry_by_full_url s u = Ok e -> e_kind e = Content c b ->
  ~ In u (urls_of W) /\ exists p t d, V u = Some p /\ pg_body p = Data t d /\ mt_get (e_mimetype e) types = Ok t.
Proof.
  intros u e c b IC G K. assert (NL : ~ listing s u) by (intro Q; rewrite (listing_not_C _ _ Q) in IC; discriminate IC).
  destruct (tb_only _ _ _ _ _ _ _ T u e G) as [Q|Q]; [contradiction|]. destruct (V u) as [p|] eqn:EV; [|congruence]. split.
  - intro Q2. unfold urls_of in Q2. apply in_map_iff in Q2 as ([it d] & Q2 & Hi). cbn [fst] in Q2. destruct (tb_waiting _ _ _ _ _ _ _ T it d Hi) as (_ & AB & _). rewrite Q2 in AB. apply (not_both _ _ _ C (ex_intro _ e G) AB).
  - destruct (page_in_archive _ _ _ _ _ _ _ C T u p EV NL (ex_intro _ e G)) as (e1 & G1 & _ & _ & B). rewrite G in G1. injection G1 as <-. exists p. destruct (pg_body p) as [t d|v].
    + destruct B as (c1 & b1 & bl & _ & M & _). exists t, d. auto.
    + unfold target_url in B. rewrite K in B. discriminate B.
Qed.
Lemma table_counted : forall m u, counted_at s types m u <-> written m u.
Proof.
  intros m u. split.
  - intros (IC & e & c & b & t & G & K & M & DE). destruct (counted_page u e c b IC G K) as (NW & p & t1 & d & EV & B & M1). rewrite M in M1. injection M1 as <-. split; [|exact NW]. split; [exact IC|]. exists p, t, d. auto.
  - intros ((IC & p & t & d & EV & B & DE) & NW). split; [exact IC|]. assert (NL : ~ listing s u) by (intro Q; rewrite (listing_not_C _ _ Q) in IC; discriminate IC).
    destruct (tb_page _ _ _ _ _ _ _ T u p EV NL) as [SH|[Q|Q]]; [|contradiction|].
    + destruct SH as (e & G & _ & _ & SB). rewrite B in SB. destruct SB as (c & b & bl & K & M & _). exists e, c, b, t. auto.
    + apply in_map_iff in Q as (r & <- & Hr). destruct (tb_buffer _ _ _ _ _ _ _ T r Hr) as (EV2 & _). rewrite EV in EV2. injection EV2 as ->. discriminate B.
Qed.
Lemma table_mimed : mimed s types.
Proof. intros u e c b IC G K. destruct (counted_page u e c b IC G K) as (_ & p & t & d & _ & _ & M). eauto. Qed.
Lemma table_accounted : forall n, accounted s types n <-> tally written n.
Proof.
  intro n. split.
  - intros (TL & _). eapply tally_ext; [|exact TL]. exact table_counted.
  - intro TL. split; [|exact table_mimed]. eapply tally_ext; [|exact TL]. intros m u. symmetry. apply table_counted.
Qed.
End Table.
Lemma written_ext : forall W V V' n, (forall m u, pages_of V' m u <-> pages_of V m u) -> tally (written W V) n -> tally (written W V') n.
Proof. intros W V V' n HP T. eapply tally_ext; [|exact T]. intros m u. unfold written. rewrite HP. reflexivity. Qed.
(** A page that is not a counted one before nor after. *)
Lemma pages_put : forall V u q, (forall m, ~ pages_of V m u) -> (forall m, ~ pages_of (vput u q V) m u) -> forall m x, pages_of (vput u q V) m x <-> pages_of V m x.
Proof.
  intros V u q N1 N2 m x. destruct (list_eq_dec Z.eq_dec x u) as [ -> |N]; [split; intro Q; exfalso; [exact (N2 m Q)|exact (N1 m Q)]|]. unfold pages_of. rewrite vput_other by exact N. reflexivity.
Qed.
Lemma pages_none : forall V m u, V u = None -> ~ pages_of V m u.
Proof. intros V m u Q (_ & p & t & d & E & _). congruence. Qed.
Lemma pages_link : forall V m u p v, V u = Some p -> pg_body p = Link v -> ~ pages_of V m u.
Proof. intros V m u p v Q B (_ & p1 & t & d & E & B1 & _). congruence. Qed.
Lemma pages_content : forall V u d m x, pages_of (vstep V (VContent u d)) m x <-> pages_of V m x.
Proof.
  intros V u d m x. cbn [vstep]. destruct (V u) as [p|] eqn:EV; [|reflexivity]. destruct (list_eq_dec Z.eq_dec x u) as [ -> |N]; [|unfold pages_of; rewrite vput_other by exact N; reflexivity].
  unfold pages_of. rewrite vput_same, EV. split; intros (IC & p1 & t & d1 & Q & B & DE); (split; [exact IC|]); injection Q as <-; cbn [pg_body] in *.
  - destruct (pg_body p) as [t0 d0|v] eqn:BP; [|discriminate B]. injection B as <- <-. exists p, t0, d0. auto.
  - rewrite B. do 3 eexists. split; [reflexivity|]. split; [reflexivity|exact DE].
Qed.
Lemma pages_link_step : forall V source target ttl, V source = None -> forall m x, pages_of (vstep V (VLink source target ttl)) m x <-> pages_of V m x.
Proof.
  intros V source target ttl Q. apply pages_put; [intro m; apply pages_none; exact Q|]. intros m. eapply pages_link; [apply vput_same|reflexivity].
Qed.
Lemma pages_main_step : forall V u m x, pages_of (vstep V (VMain u)) m x <-> pages_of V m x.
Proof. intros V u. apply pages_put; intros m (IC & _); discriminate IC. Qed.

Section Steps.
Variable fuel : nat.
Context {D : Type}.
Variable dc : decomp D.
Variable new_decomp : ctype -> res D.
Context {K : Type}.
Variable new_comp : ctype -> res K.
Variable comp : K -> bytes -> res (bytes * K).
Variable flush : K -> res bytes.
Variable depth : nat.
Variable kd : ckind.
Variable Stream : ctype -> bytes -> bytes -> Prop.
Variable reserve : option Z.
Context {H : Type}.
Variable md5 : H.
Variable feed : H -> bytes -> H.
Variable digest : H -> bytes.
Variable truncate : bool.
Variable process_blob : entry -> M zim unit.
Variable rounds : nat.
Hypothesis CD : codec_ok dc new_decomp new_comp comp flush Stream.
Hypothesis HO : hash_ok feed digest.
Variable mx : Z.
Notation wcoreh := (wcore fuel Stream reserve mx).
Notation vcoreh := (vcore fuel Stream reserve mx).
Notation storedh := (stored Stream reserve).
Definition accd (A : farchive) (c : counter) : Prop := accounted (fa_zim A) (ml_types (fa_mimes A)) (ct_counts c).

Lemma core_accd : forall A cells L Pc Pp V c, vcoreh A cells L Pc Pp V -> (accd A c <-> tally (written (map pair_of (Pc ++ Pp)) V) (ct_counts c)).
Proof.
  intros A cells L Pc Pp V c VC. unfold accd. eapply table_accounted; [exact (laid_consistent _ _ _ _ _ (vc_laid _ _ _ _ _ _ _ _ _ _ VC))|exact (vc_table _ _ _ _ _ _ _ _ _ _ VC)].
Qed.
(** Operations that do not change what is counted. *)
Lemma same_accd : forall A cells L Pc Pp V A' cells' L' V' c, vcoreh A cells L Pc Pp V -> vcoreh A' cells' L' Pc Pp V' -> (forall m u, pages_of V' m u <-> pages_of V m u) -> accd A c -> accd A' c.
Proof.
  intros A cells L Pc Pp V A' cells' L' V' c VC VC' HP AC. apply (core_accd _ _ _ _ _ _ _ VC'). eapply written_ext; [exact HP|]. apply (core_accd _ _ _ _ _ _ _ VC). exact AC.
Qed.

(** ** Adding items and writing them *)
Lemma stored_core : forall A cells L Pc Pp V, wcoreh A cells L Pc Pp V -> storedh A (fa_redirects A) V (zlen cells + zlen (Pc ++ Pp)) (zlen L + zlen (Pc ++ Pp)) (zs_arch (fa_state A)) (map pair_of Pc ++ map pair_of Pp).
Proof.
  intros A cells L Pc Pp V [LO PC PP TY MN T]. exists cells, L. split; [eapply laid_alike; [| | |exact LO]; reflexivity|]. rewrite <- map_app. split; [exact T|]. rewrite zlen_map. lia.
Qed.
Lemma add_counted : forall A cells L Pc Pp V n it d un c A' c', wcoreh A cells L Pc Pp V -> ViewSpec.counts n A -> zlen (Pc ++ Pp) + zlen (fa_redirects A) + 1 <= n ->
  zlen (ml_types (fa_mimes A')) <= 65535 -> accd A c -> count_zim_add fuel new_comp comp flush depth it un (A, c) = (Ok tt, (A', c')) ->
  perform_vop fuel dc new_decomp new_comp comp flush depth kd md5 feed digest reserve truncate process_blob rounds A (VAdd it d un) = (Ok tt, A') /\ accd A' c' /\ noticed c c'.
Proof.
  intros A cells L Pc Pp V n it d un c A' c' VC (C1 & C2) Z MZ AC E. pose proof (stored_core _ _ _ _ _ _ VC) as SO. destruct (wcore_count fuel Stream reserve md5 feed digest mx _ _ _ _ _ _ VC) as (Q1 & Q2). rewrite Q1 in C1. rewrite Q2 in C2.
  pose proof VC as [LO PC PP TY MN T]. pose proof (zlen_nonneg (fa_redirects A)) as ZR. apply Forall_app in TY as (TYc & TYp).
  set (N1 := zlen cells + zlen (Pc ++ Pp)) in *. set (N2 := zlen L + zlen (Pc ++ Pp)) in *. assert (CN1 : N1 < 2 ^ 32) by (unfold N1; lia). assert (CN2 : N2 < 2 ^ 32) by (unfold N2; lia).
  cbn [perform_vop perform_zop]. unfold fa_add_item, zim_add_item. unfold count_zim_add in E. destruct un; cbn [negb] in *.
  - destruct (count_any_add _ _ _ _ _ _ _) as [r [[s c1] y]] eqn:EA. destruct r as [[]|]; [|discriminate E]. injection E as <- <-.
    destruct (any_add_acc fuel dc new_decomp new_comp comp flush depth Stream reserve CD mx A (fa_redirects A) V N1 N2 CN1 CN2 (zs_arch (fa_state A)) (zs_plain (fa_state A)) Pp (map pair_of Pc) it c s c1 y) as (E2 & AC2 & NT); [|exact PP|exact TYp|exact MZ|exact AC|exact EA|].
    { eapply stored_perm; [|exact SO]. apply Permutation_app_comm. }
    rewrite E2. split; [reflexivity|]. split; [exact AC2|exact NT].
  - destruct (count_any_add _ _ _ _ _ _ _) as [r [[s c1] y]] eqn:EA. destruct r as [[]|]; [|discriminate E]. injection E as <- <-.
    destruct (any_add_acc fuel dc new_decomp new_comp comp flush depth Stream reserve CD mx A (fa_redirects A) V N1 N2 CN1 CN2 _ _ Pc (map pair_of Pp) it c s c1 y SO PC TYc MZ AC EA) as (E2 & AC2 & NT).
    rewrite E2. split; [reflexivity|]. split; [exact AC2|exact NT].
Qed.
Lemma strategies_counted : forall A cells L Pc Pp V c A' c', wcoreh A cells L Pc Pp V -> zlen cells + zlen (Pc ++ Pp) < 2 ^ 32 -> zlen L + zlen (Pc ++ Pp) < 2 ^ 32 -> zlen (ml_types (fa_mimes A)) <= 65535 ->
  accd A c -> count_flush_strategies fuel new_comp comp flush depth (A, c) = (Ok tt, (A', c')) ->
  flush_strategies fuel new_comp comp flush depth A = (Ok tt, A') /\ accd A' c' /\ noticed c c'.
Proof.
  intros A cells L Pc Pp V c A' c' VC CN1 CN2 MZ AC E. pose proof (stored_core _ _ _ _ _ _ VC) as SO. pose proof VC as [LO PC PP TY MN T]. apply Forall_app in TY as (TYc & TYp).
  unfold count_flush_strategies in E. unfold flush_strategies, zim_flush_items. destruct (count_any_flush _ _ _ _ _ (zs_arch (fa_state A), c, _)) as [[[]|e] [[s c1] y]] eqn:EX; [|discriminate E].
  destruct (count_any_flush _ _ _ _ _ (s, c1, _)) as [r2 [[s2 c2] y2]] eqn:EY. injection E as -> <- <-.
  destruct (any_flush_acc fuel dc new_decomp new_comp comp flush depth Stream reserve CD mx A (fa_redirects A) V _ _ CN1 CN2 _ _ Pc _ c s c1 y SO PC TYc MZ AC EX) as (E1 & AC1 & NT1).
  destruct (any_flush_stored fuel dc new_decomp new_comp comp flush depth Stream reserve CD mx A (fa_redirects A) V _ _ CN1 CN2 _ _ _ _ _ _ SO PC TYc MZ E1) as (SO1 & PC1). pose proof (any_flush_mimes _ _ _ _ _ _ _ _ _ _ E1) as EM.
  change (fa_mimes A) with (sa_mimes (zs_arch (fa_state A))) in *. rewrite <- app_nil_r in SO1. rewrite <- EM in TYp, MZ.
  destruct (any_flush_acc fuel dc new_decomp new_comp comp flush depth Stream reserve CD mx A (fa_redirects A) V _ _ CN1 CN2 _ _ Pp _ c1 s2 c2 y2 SO1 PP TYp MZ AC1 EY) as (E2 & AC2 & NT2).
  rewrite E1, E2. split; [reflexivity|]. split; [exact AC2|]. exact (noticed_trans _ _ _ NT1 NT2).
Qed.

Lemma note_write_noticed : forall ml old e c r c', note_write ml old e c = (r, c') -> noticed c c'.
Proof.
  intros ml old e c r c' E. unfold note_write in E. unfold noticed. destruct (negb (counts_entry e)); [congruence|]. destruct (bind _ _) as [[m o]|]; [|congruence]. destruct (after_write o _ _) as [n' r']. injection E as _ <-. discriminate.
Qed.
Lemma set_zim_same : forall A, fa_set_zim (fa_zim A) A = A.
Proof. intros [[[[? ? ?] ?] ? ?] ? ? ? ?]. reflexivity. Qed.
Lemma edit_counted : forall A cells L Pc Pp V u l c A' c', vcoreh A cells L Pc Pp V -> vclean A Pc Pp -> allowed fuel A V (VEdit u l) -> untouched (VEdit u l) V -> accd A c ->
  count_edit depth u l (A, c) = (Ok tt, (A', c')) -> edit_entry depth u l A = (Ok tt, A') /\ accd A' c' /\ noticed c c'.
Proof.
  intros A cells L Pc Pp V u l c A' c' VC CL AL (NU & UT) AC E. pose proof AL as (p & m & d & Vu & Bu & NL & NK & FR & NC & ZL). specialize (UT p Vu). cbv zeta in UT. destruct UT as (NV & IV).
  unfold count_edit in E. pose proof (vc_laid _ _ _ _ _ _ _ _ _ _ VC) as LO. pose proof (laid_consistent _ _ _ _ _ LO) as C. pose proof (vc_table _ _ _ _ _ _ _ _ _ _ VC) as T.
  destruct (get_entry_by_full_url (fa_zim A) u) as [e0|] eqn:G0; [|discriminate E]. assert (EX : exists_at (fa_zim A) u) by (exists e0; exact G0).
  destruct (page_in_archive _ _ _ _ _ _ _ C T u p Vu NL EX) as (e1 & G1 & T1 & A1 & B1). rewrite G0 in G1. injection G1 as <-. rewrite Bu in B1. destruct B1 as (cn & b & bl & K0 & M0 & Z1 & Z2 & NLB).
  pose proof G0 as G0'. apply (lookup_iff _ _ _ _ C) in G0' as (HI & HU). pose proof (ArchiveFacts.consistent_storable _ _ _ C HI) as ST0. pose proof (consistent_kind _ _ _ C HI) as KC0.
  destruct (article_urls_ok _ _ C) as (us & U0 & ND0). specialize (A1 us U0).
  destruct (assign_all l (eobj_read e0, fa_mimes A)) as [r [o ml]] eqn:EAS. destruct r as [[]|]; [|discriminate E]. cbv zeta in E.
  assert (P0 : pairs e0 u p d (fa_mimes A) [] (eobj_read e0) (fa_mimes A) u p).
  { constructor; cbn [eobj_read eo_went attrs fresh w_entry w_old_url w_force eo_mutable eo_dirty]; try assumption; try reflexivity; try discriminate; auto.
    - split; [exact ST0|exact KC0].
    - exists m. auto.
    - intro Q. apply A1 in Q. exact (proj1 (article_found _ _ _ _ _ _ _ LO U0 Q)).
    - split; [apply mgood_refl|apply mextends_refl].
    - change (zlen (@nil field)) with 0. lia. }
  pose proof (pairs_all e0 u p d (fa_mimes A) l [] _ _ u p o ml ltac:(eauto) P0 ltac:(change (zlen (@nil field)) with 0; lia) EAS) as PR. pose proof AL as AL2. unfold set_fields in *. 
  destruct (fold_left set_field l (u, p)) as [v q] eqn:ESF. cbn [app fst] in *.
  destruct PR. destruct pr_body as (m' & BQ & MQ). destruct pr_types as (MG & (t & MX)). set (A1' := fa_set_mimes ml A) in *. change (fa_zim A1') with (fa_zim A) in E.
  assert (EE : eo_dirty o = false -> edit_entry depth u l A = (Ok tt, A1')).
  { intro ED. unfold edit_entry. rewrite G0, EAS. unfold on_zim, mbind, eobj_flush. rewrite pr_mutable, ED. cbn [negb]. unfold ret. fold A1'. rewrite set_zim_same. reflexivity. }
  assert (ET : forall s', write_entry (S (S depth)) (eo_went o) (fa_zim A) = (Ok tt, s') -> eo_dirty o = true -> edit_entry depth u l A = (Ok tt, fa_set_zim s' A1')).
  { intros s' WE ED. unfold edit_entry. rewrite G0, EAS. unfold on_zim, mbind, eobj_flush. rewrite pr_mutable, ED. cbn [negb]. unfold mbind. fold A1'. change (fa_zim A1') with (fa_zim A). rewrite WE. reflexivity. }
  destruct (eo_dirty o) eqn:ED.
  2:{ injection E as <- <-. split; [exact (EE eq_refl)|]. split; [|intros _; reflexivity]. unfold accd. change (fa_zim A1') with (fa_zim A). change (fa_mimes A1') with ml. rewrite MX. apply accounted_more. exact AC. }
  unfold count_write in E. rewrite pr_old in E. unfold old_of in E. rewrite G0 in E. destruct (write_entry (S (S depth)) (eo_went o) (fa_zim A)) as [[[]|] s'] eqn:WE; [|discriminate E].
  destruct (note_write ml (Some e0) (w_entry (eo_went o)) c) as [r c1] eqn:EN. injection E as -> <- <-. specialize (ET s' eq_refl eq_refl). split; [exact ET|]. split; [|eapply note_write_noticed; exact EN].
  destruct (vedit_step fuel depth Stream reserve process_blob mx A cells L Pc Pp V u l _ VC CL AL2 ET) as (cells' & VC' & _). cbn [vstep] in VC'. rewrite Vu in VC'. unfold set_fields in VC'. rewrite ESF in VC'. set (V' := vput v (Some q) (vput u None V)) in *.
  apply (core_accd _ _ _ _ _ _ _ VC'). apply (core_accd _ _ _ _ _ _ _ VC) in AC. set (W := map pair_of (Pc ++ Pp)) in *.
  assert (NW : forall x, V x = None \/ x = u -> ~ In x (urls_of W)).
  { intros x [Q| -> ] Hi; unfold urls_of in Hi; apply in_map_iff in Hi as ([it d0] & Q2 & Hi); cbn [fst] in Q2; destruct (tb_waiting _ _ _ _ _ _ _ T it d0 Hi) as (V1 & AB & _); rewrite Q2 in *; [congruence|exact (not_both _ _ _ C EX AB)]. }
  assert (FV : v = u \/ V v = None) by (destruct FR as [F|(F & _)]; auto).
  assert (VV : V' v = Some q) by apply vput_same. assert (VU : v <> u -> V' u = None) by (intro N; unfold V'; rewrite vput_other by congruence; apply vput_same).
  assert (VO : forall x, x <> u -> x <> v -> V' x = V x) by (intros x N1 N2; unfold V'; rewrite !vput_other by assumption; reflexivity).
  assert (PO : forall m1 x, x <> u -> x <> v -> (pages_of V' m1 x <-> pages_of V m1 x)) by (intros m1 x N1 N2; unfold pages_of; rewrite (VO x N1 N2); reflexivity).
  change (w_entry (eo_went o)) with (attrs o) in EN. unfold note_write in EN. destruct pr_ok as (STo & KCo). destruct (counts_entry (attrs o)) eqn:EC; cbn [negb] in EN.
  - apply (counts_entry_iff _ STo KCo) in EC as (IN & _). rewrite pr_url in IN. pose proof pr_kind as KO. rewrite K0 in KO. rewrite (mime_of_content ml (attrs o) cn b KCo KO), MQ in EN. cbn [bind] in EN.
    destruct (decode m') as [mn|] eqn:DN; [|discriminate EN]. cbn [bind] in EN. rewrite (mime_of_content ml e0 cn b KC0 K0), MX, (mt_get_app _ _ t _ M0) in EN. cbn [bind] in EN. destruct (decode m) as [m0|] eqn:D0; [|discriminate EN]. cbn [bind] in EN.
    unfold after_write in EN. assert (IR : is_redirect e0 = false) by (unfold is_redirect, MIMETYPE_ID_REDIRECT; unfold kind_consistent in KC0; rewrite K0 in KC0; lia). rewrite IR in EN.
    cbn [should_count ce_redirect ce_ns negb andb ce_mime] in EN. change (67 =? 67) with true in EN. cbv iota in EN.
    destruct (decrement m0 (increment mn (ct_counts c))) as [n'|] eqn:EDC; [|discriminate EN]. injection EN as <-. cbn [ct_counts].
    eapply tally_ext; [|eapply (tally_moved (written W V) (ct_counts c) u v m0 mn n' AC); [| |exact EDC]].
    + intros m1 x. cbn. unfold written. destruct (list_eq_dec Z.eq_dec x v) as [ -> |Nv].
      * split.
        -- intros [(_ & _ & Q)|(_ & ->)]; [congruence|]. split; [|apply NW; destruct FV; auto]. split; [exact IN|]. exists q, m', d. auto.
        -- intros ((_ & q1 & t1 & d1 & Q1 & Q2 & Q3) & _). right. split; [reflexivity|]. rewrite VV in Q1. injection Q1 as <-. rewrite BQ in Q2. injection Q2 as <- _. congruence.
      * destruct (list_eq_dec Z.eq_dec x u) as [ -> |Nu].
        -- split; [intros [(_ & Q & _)|(Q & _)]; congruence|]. intros (Q & _). exfalso. exact (pages_none _ _ _ (VU ltac:(congruence)) Q).
        -- rewrite (PO m1 x Nu Nv). split; [intros [(Q & _)|(Q & _)]; [exact Q|congruence]|auto].
    + intro m1. unfold written. split.
      * intros ((_ & q1 & t1 & d1 & Q1 & Q2 & Q3) & _). rewrite Vu in Q1. injection Q1 as <-. rewrite Bu in Q2. injection Q2 as <- _. congruence.
      * intros ->. split; [|apply NW; auto]. split; [congruence|]. exists p, m, d. auto.
    + destruct FV as [FV|FV]; [auto|]. right. intros m1 (Q & _). exact (pages_none _ _ _ FV Q).
  - injection EN as <-. assert (IN : in_C v = false).
    { destruct (in_C v) eqn:Q; [|reflexivity]. assert (Q2 : counts_entry (attrs o) = true) by (apply (counts_entry_iff _ STo KCo); split; [rewrite pr_url; exact Q|]; rewrite pr_kind; eauto). congruence. }
    eapply written_ext; [|exact AC]. intros m1 x. destruct (list_eq_dec Z.eq_dec x v) as [ -> |Nv]; [split; intros (Q & _); congruence|]. destruct (list_eq_dec Z.eq_dec x u) as [ -> |Nu]; [split; intros (Q & _); congruence|].
    apply PO; assumption.
Qed.
Lemma remove_counted : forall A cells L Pc Pp V u c A' c', vcoreh A cells L Pc Pp V -> vclean A Pc Pp -> allowed fuel A V (VRemove u) -> accd A c ->
  count_remove depth u (A, c) = (Ok tt, (A', c')) -> remove_entry_at depth u A = (Ok tt, A') /\ accd A' c' /\ noticed c c'.
Proof.
  intros A cells L Pc Pp V u c A' c' VC CL AL AC E. pose proof AL as (p & Vu & NL & NK & AR). unfold count_remove in E.
  pose proof (vc_laid _ _ _ _ _ _ _ _ _ _ VC) as LO. pose proof (laid_consistent _ _ _ _ _ LO) as C. pose proof (vc_table _ _ _ _ _ _ _ _ _ _ VC) as T.
  destruct (get_entry_by_full_url (fa_zim A) u) as [e0|] eqn:G0; [|discriminate E]. assert (EX : exists_at (fa_zim A) u) by (exists e0; exact G0).
  destruct (remove_entry_at depth u A) as [[[]|] A1] eqn:ER; [|discriminate E]. destruct (note_remove (fa_mimes A1) e0 c) as [r c1] eqn:EN. injection E as -> <- <-. split; [reflexivity|].
  destruct (vremove_step fuel depth Stream reserve mx A cells L Pc Pp V u A1 VC CL AL ER) as (cells' & VC' & _).
  assert (EM : fa_mimes A1 = fa_mimes A) by (unfold remove_entry_at in ER; rewrite G0 in ER; unfold on_zim in ER; destruct (eobj_remove _ _ _ _) as [r s]; injection ER as _ <-; reflexivity). rewrite EM in EN.
  assert (NT : noticed c c1).
  { unfold note_remove in EN. unfold noticed. destruct (negb (counts_entry e0)); [congruence|]. destruct (mime_of _ e0) as [m|]; [|congruence]. destruct (after_remove _ _) as [n' r']. destruct r'; injection EN as _ <-; [discriminate|auto]. }
  split; [|exact NT]. apply (core_accd _ _ _ _ _ _ _ VC'). apply (core_accd _ _ _ _ _ _ _ VC) in AC. set (W := map pair_of (Pc ++ Pp)) in *. unfold note_remove in EN.
  pose proof G0 as G0'. apply (lookup_iff _ _ _ _ C) in G0' as (HI & HU). pose proof (ArchiveFacts.consistent_storable _ _ _ C HI) as ST0. pose proof (consistent_kind _ _ _ C HI) as KC0.
  destruct (page_in_archive _ _ _ _ _ _ _ C T u p Vu NL EX) as (e1 & G1 & _ & _ & B1). rewrite G0 in G1. injection G1 as <-.
  destruct (counts_entry e0) eqn:EC; cbn [negb] in EN.
  - apply (counts_entry_iff _ ST0 KC0) in EC as (IN & cn & b & K0). rewrite HU in IN. destruct (counted_page _ _ _ _ _ _ _ C T u e0 cn b IN G0 K0) as (NW & p1 & t & d & V1 & Bu & M0). rewrite Vu in V1. injection V1 as <-.
    rewrite (mime_of_content _ e0 cn b KC0 K0), M0 in EN. cbn [bind] in EN. destruct (decode t) as [m|] eqn:DE; [|discriminate EN]. unfold after_remove in EN. cbn [should_count ce_redirect ce_ns negb andb ce_mime] in EN. change (67 =? 67) with true in EN. cbv iota in EN.
    destruct (decrement m (ct_counts c)) as [n'|] eqn:EDC; [|discriminate EN]. injection EN as <-. cbn [ct_counts].
    eapply tally_ext; [|eapply (tally_gone _ _ AC u m n'); [|exact EDC]].
    + intros m1 x. cbn. unfold written. destruct (list_eq_dec Z.eq_dec x u) as [ -> |Nu].
      * split; [intros (_ & Q); congruence|]. intros (Q & _). exfalso. eapply pages_none; [|exact Q]. apply vput_same.
      * unfold pages_of. rewrite vput_other by exact Nu. tauto.
    + intro m1. unfold written. split.
      * intros ((_ & q1 & t1 & d1 & Q1 & Q2 & Q3) & _). rewrite Vu in Q1. injection Q1 as <-. rewrite Bu in Q2. injection Q2 as <- _. congruence.
      * intros ->. split; [|exact NW]. split; [exact IN|]. exists p, t, d. auto.
  - injection EN as <-. eapply written_ext; [|exact AC]. apply pages_put; intros m1 Q.
    + destruct Q as (IN & q1 & t1 & d1 & Q1 & Q2 & Q3). rewrite Vu in Q1. injection Q1 as <-. rewrite Q2 in B1. destruct B1 as (cn & b & bl & K0 & _).
      assert (Q : counts_entry e0 = true) by (apply (counts_entry_iff _ ST0 KC0); split; [rewrite HU; exact IN|eauto]). congruence.
    + eapply pages_none; [|exact Q]. apply vput_same.
Qed.
End Steps.
