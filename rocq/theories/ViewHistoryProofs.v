(** Histories of changes (C65): the invariant with items that replace content. *)
From Coq Require Import List ZArith Bool Lia Permutation.
From Coq Require Import ZifyBool ZifyNat.
From Verif Require Import Base BaseProofs Utf8 Utf8Proofs Dict Infobyte Header HeaderSpec HeaderProofs MimeTypeList MimeTypeListSpec MimeTypeListProofs PointerList PointerListProofs
  SpaceAllocator SpaceAllocatorSpec SpaceAllocatorProofs Entry EntrySpec EntryProofs Reader ReaderSpec Blob Cluster ClusterSpec ClusterProofs ClusterWrapper ClusterWrapperSpec ClusterWrapperProofs
  Archive ArchiveSpec ArchiveProofs ArchiveWriteProofs ArchiveMoveProofs ArchiveRemoveProofs ArchiveObserve ArchiveFacts ArchiveLaws ArchiveEdit ArchiveCluster ArchiveClusterSpec ArchiveClusterProofs ArchiveFrame ArchiveEntryCluster ArchiveEditCluster
  CompressionStrategy CompressionStrategySpec CompressionStrategyProofs OperationBuffer OperationBufferSpec OperationBufferProofs EntryObject EntryObjectSpec EntryObjectProofs
  Flush FlushSpec FlushProofs FlushTailProofs FlushOpenProofs FlushHistorySpec FlushHistoryProofs ViewSpec ViewProofs ViewEditProofs ViewStepProofs ViewWaitProofs.
Import ListNotations.
Open Scope Z_scope.

(** ** A new item *)
Section Extend.
Variables (s : zim) (E : list entry) (X : list (option (list bytes))) (types : list bytes) (W : list (item * bytes)) (R : list rop) (V : view).
Hypothesis C : consistent s E.
Hypothesis T : wtable s E X types W R V.
Lemma wextend_item : forall fuel it d, item_ok fuel it d -> ~ listing s (item_url it) ->
  (V (item_url it) = None \/ (exists p m d0, V (item_url it) = Some p /\ pg_body p = Data m d0) /\ (forall x q, V x = Some q -> pg_body q <> Link (item_url it)) /\ ~ In (item_url it) (urls_of W)) ->
  wtable s E X types (W ++ [(it, d)]) R (vput (item_url it) (Some (page_of it d)) V).
Proof.
  intros fuel it d OK NL HU. set (u := item_url it) in *. set (V' := vput u (Some (page_of it d)) V).
  assert (VU : V' u = Some (page_of it d)) by apply vput_same.
  assert (EU : urls_of (W ++ [(it, d)]) = urls_of W ++ [u]) by (unfold urls_of; rewrite map_app; reflexivity).
  assert (NW : ~ In u (urls_of W)).
  { destruct HU as [N|(_ & _ & N)]; [|exact N]. intro Q. unfold urls_of in Q. apply in_map_iff in Q as ([it1 d1] & Q & Hi). cbn [fst] in Q. destruct (wt_waiting _ _ _ _ _ _ _ T it1 d1 Hi) as (Q1 & _). rewrite Q in Q1. congruence. }
  assert (NR : ~ In u (map rsource R)).
  { intro Q. apply in_map_iff in Q as (r & Q & Hr). destruct (wt_buffer _ _ _ _ _ _ _ T r Hr) as (Q1 & _). rewrite Q in Q1. destruct HU as [N|((p & m & d0 & Hp & HB) & _)]; [congruence|]. rewrite Hp in Q1. injection Q1 as ->. discriminate HB. }
  assert (LK : forall x q v, V' x = Some q -> pg_body q = Link v -> V x = Some q).
  { intros x q v Hq B. unfold V' in Hq. destruct (list_eq_dec Z.eq_dec x u) as [->|Nx]; [rewrite vput_same in Hq; injection Hq as <-; discriminate B|]. rewrite vput_other in Hq by exact Nx. exact Hq. }
  constructor.
  - intros x p Hp NLx. rewrite EU. destruct (list_eq_dec Z.eq_dec x u) as [->|Nx]; [right; left; apply in_or_app; right; left; reflexivity|]. unfold V' in Hp. rewrite vput_other in Hp by exact Nx.
    destruct (wt_page _ _ _ _ _ _ _ T x p Hp NLx) as [S|[S|S]]; auto. right. left. apply in_or_app. auto.
  - intros x e G. destruct (wt_only _ _ _ _ _ _ _ T x e G) as [L|L]; [auto|]. right. unfold V'. destruct (list_eq_dec Z.eq_dec x u) as [->|Nx]; [rewrite vput_same; discriminate|]. rewrite vput_other by exact Nx. exact L.
  - intros it1 d1 Hi. apply in_app_or in Hi as [Hi|[Hi|[]]].
    + destruct (wt_waiting _ _ _ _ _ _ _ T it1 d1 Hi) as (V1 & V2 & V3 & V4). split; [|split; [|auto]].
      * unfold V'. rewrite vput_other; [exact V1|]. intro Q. apply NW. rewrite <- Q. unfold urls_of. apply in_map_iff. exists (it1, d1). auto.
      * destruct V2 as [V2|(V2 & V5)]; [auto|]. right. split; [exact V2|]. intros x q Hq B. exact (V5 x q (LK x q _ Hq B) B).
    + injection Hi as <- <-. split; [exact VU|]. split; [|split; [exact NL|eapply item_nameable; exact OK]]. destruct HU as [N|((p & m & d0 & Hp & HB) & NK & _)].
      * left. apply (absent_exists _ _ _ C). intros (e & G). destruct (wt_only _ _ _ _ _ _ _ T u e G); [contradiction|congruence].
      * right. split.
        -- destruct (wt_page _ _ _ _ _ _ _ T u p Hp NL) as [S|[S|S]]; [|contradiction|contradiction]. destruct S as (e & G & _ & _ & B). rewrite HB in B. destruct B as (c & b & bl & EK & _). eauto.
        -- intros x q Hq B. exact (NK x q (LK x q _ Hq B) B).
  - intros r Hr. destruct (wt_buffer _ _ _ _ _ _ _ T r Hr) as (V1 & V2 & V3 & V4 & V5 & V6).
    assert (VS : V' (rsource r) = V (rsource r)) by (apply vput_other; intro Q; apply NR; rewrite <- Q; apply in_map; exact Hr).
    assert (VT : V (rtarget r) <> None -> V' (rtarget r) = V (rtarget r)).
    { intro Q. apply vput_other. intro Q2. destruct HU as [N|(_ & NK & _)]; [congruence|]. apply (NK _ _ V1). cbn [link_page pg_body]. rewrite Q2. reflexivity. }
    rewrite VS. destruct (link_kept V V' r V4 VT) as (LP & V4'). rewrite LP. auto 8.
  - rewrite EU. rewrite <- app_assoc. eapply Permutation_NoDup; [apply Permutation_middle|]. constructor; [|exact (wt_distinct _ _ _ _ _ _ _ T)]. intro Q. apply in_app_or in Q as [Q|Q]; contradiction.
Qed.
End Extend.

Section History.
Variable fuel : nat.
Context {D : Type}.
Variable dc : decomp D.
Variable new_decomp : ctype -> res D.
Context {K : Type}.
Variable new_comp : ctype -> res K.
Variable comp : K -> bytes -> res (bytes * K).
Variable flush : K -> res bytes.
Variable depth : nat.
Variable kd : ckind.
Variable Stream : ctype -> bytes -> bytes -> Prop.
Variable reserve : option Z.
Context {H : Type}.
Variable md5 : H.
Variable feed : H -> bytes -> H.
Variable digest : H -> bytes.
Variable truncate : bool.
Variable process_blob : entry -> M zim unit.
Variable rounds : nat.
Hypothesis CD : codec_ok dc new_decomp new_comp comp flush Stream.
Hypothesis HO : hash_ok feed digest.
Variable mx : Z.
Notation laid := (laid_out Stream reserve).
Notation hcoreh := (hcore fuel Stream reserve mx).
Notation pending := (pendany fuel mx).
Notation table_of A cells L W V := (table (fa_zim A) (map snd cells) (blobs_of L) (ml_types (fa_mimes A)) W (fa_redirects A) V).
Notation wtable_of A cells L W V := (wtable (fa_zim A) (map snd cells) (blobs_of L) (ml_types (fa_mimes A)) W (fa_redirects A) V).
Notation vcoreh := (vcore fuel Stream reserve mx).

(** ** What waits in a strategy *)
Lemma entries_urls : forall P n k, map (fun w => full_url (w_entry w)) (entries_of n k P) = map p_url P.
Proof. induction P as [|p P IH]; intros n k; cbn [entries_of map]; [reflexivity|]. rewrite IH. reflexivity. Qed.
Lemma queued_urls : forall y P, pending y P -> map (fun w => full_url (w_entry w)) (queued y) = map p_url P.
Proof.
  intros y P PA. destruct PA as [st P PD|ms Ps MM PD]; cbn [queued].
  - rewrite (pd_entries _ _ _ _ PD). apply entries_urls.
  - clear MM. induction PD as [|[k st] P l Ps PD1 PD2 IH]; [reflexivity|]. cbn [map concat snd] in *. rewrite !map_app, IH, (pd_entries _ _ _ _ PD1), entries_urls. reflexivity.
Qed.
Lemma queue_urls : forall A Pc Pp, pending (zs_comp (fa_state A)) Pc -> pending (zs_plain (fa_state A)) Pp -> map (fun w => full_url (w_entry w)) (queue A) = map p_url (Pc ++ Pp).
Proof. intros A Pc Pp H1 H2. unfold queue. rewrite !map_app, (queued_urls _ _ H1), (queued_urls _ _ H2). reflexivity. Qed.

(** ** The invariant *)
Record wcore (A : farchive) (cells : list (Z * entry)) (L : list (option (Z * ccell))) (Pc Pp : list pitem) (V : view) : Prop := mkWcore {
  wc_laid : laid A cells L;
  wc_comp : pending (zs_comp (fa_state A)) Pc;
  wc_plain : pending (zs_plain (fa_state A)) Pp;
  wc_typed : Forall (typed fuel (fa_mimes A)) (Pc ++ Pp);
  wc_main : mains (fa_main A) (fa_redirects A) V;
  wc_table : wtable_of A cells L (map pair_of (Pc ++ Pp)) V }.
Lemma vcore_wcore : forall A cells L Pc Pp V, vcoreh A cells L Pc Pp V -> wcore A cells L Pc Pp V.
Proof. intros A cells L Pc Pp V []. constructor; try assumption. apply table_wtable. assumption. Qed.
Lemma wcore_vcore : forall A cells L Pc Pp V, no_replacement A -> wcore A cells L Pc Pp V -> vcoreh A cells L Pc Pp V.
Proof.
  intros A cells L Pc Pp V NR []. constructor; try assumption. apply wtable_table; [exact (laid_consistent _ _ _ _ _ wc_laid0)| |assumption]. intros it d Hi (e & G).
  assert (Q : In (item_url it) (map (fun w => full_url (w_entry w)) (queue A))).
  { rewrite (queue_urls _ _ _ wc_comp0 wc_plain0), <- urls_pairs. unfold urls_of. apply in_map_iff. exists (it, d). auto. }
  apply in_map_iff in Q as (w & Q & Hw). apply (NR w e Hw). rewrite Q. exact G.
Qed.
Lemma wcore_none : forall A cells L V, wcore A cells L [] [] V -> vcoreh A cells L [] [] V.
Proof. intros A cells L V []. constructor; try assumption. apply wtable_table; [exact (laid_consistent _ _ _ _ _ wc_laid0)|intros it d []|assumption]. Qed.
Lemma wcore_count : forall A cells L Pc Pp V, wcore A cells L Pc Pp V -> zlen (pl_ptrs (z_upl (fa_zim A))) = zlen cells /\ zlen (pl_ptrs (ca_ptrs (fa_arch A))) = zlen L.
Proof.
  intros A cells L Pc Pp V []. pose proof (lo_arch _ _ _ _ _ wc_laid0) as AO. split.
  - change (fa_zim A) with (ca_zim (fa_arch A)). rewrite (co_locs _ _ (ao_core _ _ _ _ AO)). apply zlen_map.
  - exact (present_count Stream md5 feed digest _ _ _ AO (lo_present _ _ _ _ _ wc_laid0)).
Qed.

(** ** Adding *)
Notation performz := (perform_zop fuel dc new_decomp new_comp comp flush depth kd md5 feed digest reserve truncate process_blob rounds).
Notation storedh := (stored Stream reserve).
Lemma wadd_step : forall A cells L Pc Pp V n it d un A', wcore A cells L Pc Pp V -> counts n A -> zlen (Pc ++ Pp) + zlen (fa_redirects A) + 1 <= n -> allowed fuel A V (VAdd it d un) ->
  zlen (ml_types (fa_mimes A')) <= 65535 -> performz A (ZAdd it d un) = (Ok tt, A') ->
  exists cells' L' Pc' Pp', wcore A' cells' L' Pc' Pp' (vput (item_url it) (Some (page_of it d)) V) /\ vclean A' Pc' Pp' /\ fa_redirects A' = fa_redirects A /\ zlen (Pc' ++ Pp') <= zlen (Pc ++ Pp) + 1.
Proof.
  intros A cells L Pc Pp V n it d un A' VC (C1 & C2) Z (OK & NL & HU) B2 E. destruct (wcore_count _ _ _ _ _ _ VC) as (Q1 & Q2). rewrite Q1 in C1. rewrite Q2 in C2. pose proof VC as [LO PC PP TY MN0 T].
  pose proof (laid_consistent _ _ _ _ _ LO) as C. pose proof (zlen_nonneg (fa_redirects A)) as ZR. pose proof (zlen_nonneg L) as ZL.
  set (V' := vput (item_url it) (Some (page_of it d)) V).
  assert (T2 : wtable_of A cells L (map pair_of (Pc ++ Pp) ++ [(it, d)]) V').
  { apply (wextend_item _ _ _ _ _ _ _ C T fuel); [exact OK|exact NL|]. destruct HU as [N|(HD & NK & NQ)]; [auto|]. right. split; [exact HD|]. split; [exact NK|]. rewrite urls_pairs. intro Q.
    rewrite <- (queue_urls _ _ _ PC PP) in Q. apply in_map_iff in Q as (w & Q & Hw). exact (NQ w Hw Q). }
  assert (MN : mains (fa_main A) (fa_redirects A) V').
  { eapply mains_step; [exact MN0|auto|]. intros x q _ Hq B. unfold V' in Hq. destruct (list_eq_dec Z.eq_dec x (item_url it)) as [->|Nx]; [rewrite vput_same in Hq; injection Hq as <-; discriminate B|].
    rewrite vput_other in Hq by exact Nx. eauto. }
  set (N1 := zlen cells + zlen (Pc ++ Pp) + 1). set (N2 := zlen L + zlen (Pc ++ Pp) + 1).
  assert (SO : storedh A (fa_redirects A) V' N1 N2 (zs_arch (fa_state A)) (map pair_of (Pc ++ Pp) ++ [(it, d)])).
  { exists cells, L. split; [eapply laid_alike; [| | |exact LO]; reflexivity|]. split; [exact T2|]. rewrite zlen_app, zlen_map. change (zlen [(it, d)]) with 1. unfold N1, N2. lia. }
  cbn [perform_zop] in E. unfold fa_add_item in E. destruct (zim_add_item fuel new_comp comp flush depth it un (fa_state A)) as [[[]|x] z1] eqn:EZ; [|discriminate E]. injection E as <-.
  assert (END : forall s y1 y2 P1 P2 W, z1 = mkZs s y1 y2 -> pending y1 P1 -> pending y2 P2 -> Forall (typed fuel (sa_mimes s)) (P1 ++ P2) -> storedh A (fa_redirects A) V' N1 N2 s W -> Permutation W (map pair_of (P1 ++ P2)) -> zlen (P1 ++ P2) <= zlen (Pc ++ Pp) + 1 ->
    exists cells' L' Pc' Pp', wcore (fa_set_dirty true (fa_set_state z1 A)) cells' L' Pc' Pp' V' /\ vclean (fa_set_dirty true (fa_set_state z1 A)) Pc' Pp' /\ fa_redirects (fa_set_dirty true (fa_set_state z1 A)) = fa_redirects A /\ zlen (Pc' ++ Pp') <= zlen (Pc ++ Pp) + 1).
  { intros s y1 y2 P1 P2 W -> PA1 PA2 TY2 SO2 PW ZP. destruct (stored_perm _ _ _ _ _ _ _ _ _ _ PW SO2) as (cells' & L' & LO' & T' & _). exists cells', L', P1, P2.
    split; [|split; [intro Q; discriminate Q|split; [reflexivity|exact ZP]]]. constructor; try assumption. eapply laid_alike; [| | |exact LO']; reflexivity. }
  unfold zim_add_item in EZ. assert (CN : N1 < 2 ^ 32 /\ N2 < 2 ^ 32) by (unfold N1, N2; lia). destruct CN as (CN1 & CN2). pose proof TY as TYA. apply Forall_app in TYA as (TYc & TYp).
  destruct un; cbn [negb] in EZ; destruct (any_add fuel new_comp comp flush depth it _) as [r [s y]] eqn:EA; injection EZ as -> <-; pose proof (any_add_mimes _ _ _ _ _ _ _ _ _ _ _ EA) as MX;
    change (zlen (ml_types (sa_mimes s)) <= 65535) in B2.
  - destruct (any_add_stored fuel dc new_decomp new_comp comp flush depth Stream reserve CD mx A (fa_redirects A) V' N1 N2 CN1 CN2 (zs_arch (fa_state A)) (zs_plain (fa_state A)) Pp (map pair_of Pc ++ [(it, d)]) it d s y) as (mid & P' & P2 & PA & PE & IN & LN & SO2 & TN);
      [|exact PP|exact TYp|exact OK|exact B2|exact EA|].
    { eapply stored_perm; [|exact SO]. rewrite map_app, !app_assoc. apply Permutation_app_tail. apply Permutation_app_comm. }
    eapply (END s _ y Pc P2); [reflexivity|exact PC|exact PA| |exact SO2| |].
    + apply Forall_app. split; [eapply typed_later; [exact MX|exact TYc]|]. eapply Permutation_Forall; [apply Permutation_sym; exact PE|]. apply Forall_app. split; [|constructor; [exact TN|constructor]].
      eapply incl_Forall; [exact IN|]. eapply typed_later; [exact MX|exact TYp].
    + rewrite map_app, PE, map_app. cbn [map pair_of p_item p_data]. rewrite !app_assoc. apply Permutation_app_tail. apply Permutation_app_comm.
    + pose proof (Permutation_length PE) as PL. rewrite app_length in PL. cbn [length] in PL. unfold zlen. rewrite !app_length. lia.
  - destruct (any_add_stored fuel dc new_decomp new_comp comp flush depth Stream reserve CD mx A (fa_redirects A) V' N1 N2 CN1 CN2 (zs_arch (fa_state A)) (zs_comp (fa_state A)) Pc (map pair_of Pp ++ [(it, d)]) it d s y) as (mid & P' & P2 & PA & PE & IN & LN & SO2 & TN);
      [|exact PC|exact TYc|exact OK|exact B2|exact EA|].
    { eapply stored_perm; [|exact SO]. rewrite map_app, !app_assoc. apply Permutation_refl. }
    eapply (END s y _ P2 Pp); [reflexivity|exact PA|exact PP| |exact SO2| |].
    + apply Forall_app. split; [|eapply typed_later; [exact MX|exact TYp]]. eapply Permutation_Forall; [apply Permutation_sym; exact PE|]. apply Forall_app. split; [|constructor; [exact TN|constructor]].
      eapply incl_Forall; [exact IN|]. eapply typed_later; [exact MX|exact TYc].
    + rewrite map_app, PE, map_app. cbn [map pair_of p_item p_data]. rewrite <- !app_assoc. apply Permutation_app_head. apply Permutation_app_comm.
    + pose proof (Permutation_length PE) as PL. rewrite app_length in PL. cbn [length] in PL. unfold zlen. rewrite !app_length. lia.
Qed.

(** ** Flushing *)
Lemma wstrategies_step : forall A cells L Pc Pp V A', wcore A cells L Pc Pp V -> zlen cells + zlen (Pc ++ Pp) < 2 ^ 32 -> zlen L + zlen (Pc ++ Pp) < 2 ^ 32 -> zlen (ml_types (fa_mimes A)) <= 65535 ->
  flush_strategies fuel new_comp comp flush depth A = (Ok tt, A') -> exists cells1 L1, vcoreh A' cells1 L1 [] [] V /\ zlen cells1 <= zlen cells + zlen (Pc ++ Pp) /\ fa_redirects A' = fa_redirects A /\ fa_main A' = fa_main A.
Proof.
  intros A cells L Pc Pp V A' VC CN1 CN2 B3 E3. pose proof VC as [LO PC PP TY MN T]. unfold flush_strategies in E3.
  destruct (zim_flush_items fuel new_comp comp flush depth (fa_state A)) as [r z] eqn:EF. injection E3 as -> <-. unfold zim_flush_items in EF.
  destruct (any_flush _ _ _ _ _ _) as [[[]|e] [s y]] eqn:EX; [|discriminate EF]. destruct (any_flush _ _ _ _ _ (s, zs_plain (fa_state A))) as [r2 [s2 y2]] eqn:EY. injection EF as -> <-.
  set (N1 := zlen cells + zlen (Pc ++ Pp)) in *. set (N2 := zlen L + zlen (Pc ++ Pp)) in *. apply Forall_app in TY as (TYc & TYp).
  assert (SO : storedh A (fa_redirects A) V N1 N2 (zs_arch (fa_state A)) (map pair_of Pc ++ map pair_of Pp)).
  { exists cells, L. split; [eapply laid_alike; [| | |exact LO]; reflexivity|]. rewrite <- map_app. split; [exact T|]. rewrite zlen_map. unfold N1, N2. lia. }
  destruct (any_flush_stored fuel dc new_decomp new_comp comp flush depth Stream reserve CD mx A (fa_redirects A) V N1 N2 CN1 CN2 _ _ _ _ _ _ SO PC TYc B3 EX) as (SO1 & PC1). pose proof (any_flush_mimes _ _ _ _ _ _ _ _ _ _ EX) as EM.
  change (sa_mimes (zs_arch (fa_state A))) with (fa_mimes A) in *. rewrite <- app_nil_r in SO1. rewrite <- EM in TYp, B3.
  destruct (any_flush_stored fuel dc new_decomp new_comp comp flush depth Stream reserve CD mx A (fa_redirects A) V N1 N2 CN1 CN2 _ _ _ _ _ _ SO1 PP TYp B3 EY) as ((cells' & L' & LO' & T' & Z1 & _) & PP1).
  exists cells', L'. split; [|split; [change (zlen (@nil (item * bytes))) with 0 in Z1; fold N1; lia|split; reflexivity]]. apply wcore_none. constructor; try assumption; [eapply laid_alike; [| | |exact LO']; reflexivity|constructor].
Qed.

Notation suff := (suffices fuel Stream reserve).
Notation flushesh := (flushes fuel dc new_decomp new_comp comp flush depth kd md5 feed digest reserve truncate process_blob rounds).
Notation fsuff := (flush_suffices fuel dc new_decomp new_comp comp flush depth kd Stream md5 feed digest reserve truncate process_blob rounds).
Lemma wflush_step : forall A cells L Pc Pp V n A', wcore A cells L Pc Pp V -> vclean A Pc Pp -> allowed fuel A V VFlush -> counts n A -> zlen (Pc ++ Pp) + zlen (fa_redirects A) <= n ->
  zlen (ml_types (fa_mimes A)) <= 65535 -> fsuff A -> flushesh A = (Ok tt, A') -> exists cells' L', vcoreh A' cells' L' [] [] V /\ settled A' /\ fa_redirects A' = [] /\
  (fa_main A <> None -> main_url (fa_zim A') = Some URL_MAINPAGE_REDIRECT) /\ (is_dirty A = true \/ checksum_right md5 feed digest A -> checksum_right md5 feed digest A').
Proof.
  intros A cells L Pc Pp V n A' VC CL OK CT ZQ B3 (FS & _) E. unfold flushes, zim_flush, mbind in E. pose proof VC as [LO PC PP TY MN T].
  pose proof (hcore_begin fuel Stream reserve mx A cells L Pc Pp LO PC PP TY) as HV.
  destruct (sync_main A) as [[[]|] A1] eqn:E1; [|discriminate E]. destruct (header_step _ _ _ _ _ _ _ _ _ _ _ _ _ _ _ HV E1) as (HV1 & ES & DI).
  destruct (is_dirty A1) eqn:ED; cbn [negb] in E.
  2:{ injection E as <-. rewrite (DI eq_refl) in *. destruct (CL ED) as (S & -> & ->). exists cells, L. pose proof (wcore_none _ _ _ _ VC) as VN. split; [exact VN|]. split; [exact S|]. destruct OK as [OK|OK]; [congruence|].
      destruct (fa_redirects A) as [|r R] eqn:ER; [split; [reflexivity|]; split; [intro Q; elim Q; eapply mains_none; exact MN|intros [Q|Q]; [congruence|exact Q]]|]. exfalso. destruct (wt_buffer _ _ _ _ _ _ _ T r (or_introl eq_refl)) as (V1 & V2 & V3 & _).
      apply (not_both _ _ (rsource r) (laid_consistent _ _ _ _ _ LO)); [apply OK; [congruence|exact V3]|exact V2]. }
  destruct (flush_content _ _ _ _ _ _ _ A1) as [[[]|] A2] eqn:E2; [|discriminate E].
  destruct (FS A2) as (SU & SA); [unfold mbind; rewrite E1; exact E2|]. unfold flush_content, mbind in E2.
  destruct (flush_strategies _ _ _ _ _ A1) as [[[]|] A3] eqn:E3; [|discriminate E2].
  destruct (hv_buffer _ _ _ _ _ _ _ _ _ _ _ _ _ _ HV1) as (ER1 & EM1).
  assert (EMM : fa_mimes A1 = fa_mimes A) by (change (fa_mimes A1) with (sa_mimes (zs_arch (fa_state A1))); rewrite ES; reflexivity).
  assert (EZ1 : fa_zim A1 = fa_zim A) by (change (fa_zim A1) with (ca_zim (sa_arch (zs_arch (fa_state A1)))); rewrite ES; reflexivity).
  assert (VC1 : wcore A1 cells L Pc Pp V).
  { constructor; [exact (hv_laid _ _ _ _ _ _ _ _ _ _ _ _ _ _ HV1)|rewrite ES; exact PC|rewrite ES; exact PP|rewrite EMM; exact TY|rewrite ER1, EM1; exact MN|rewrite EZ1, EMM, ER1; exact T]. }
  destruct (wcore_count _ _ _ _ _ _ VC) as (Q1 & Q2). destruct CT as (C1 & C2). rewrite Q1 in C1. rewrite Q2 in C2. pose proof (zlen_nonneg (fa_redirects A)) as ZR.
  destruct (wstrategies_step A1 cells L Pc Pp V A3 VC1 ltac:(lia) ltac:(lia)) as (cells1 & L1 & VC3 & ZC1 & ER3 & EM3); [rewrite EMM; exact B3|exact E3|].
  assert (ZC : zlen cells1 + zlen (fa_redirects A3) + 1 < 2 ^ 32) by (rewrite ER3, ER1; lia).
  destruct (vbuffer_step fuel depth Stream reserve process_blob rounds mx A3 cells1 L1 V A2 VC3 ZC E2) as (cells2 & VC2 & ER & EU).
  destruct (tail_step fuel dc new_decomp new_comp comp flush depth kd Stream reserve md5 feed digest truncate CD HO mx A2 cells2 L1 A2 [] cells2 L1 [] A' (vcore_begin _ _ _ _ _ _ _ _ _ _ VC2) SU SA E) as (L' & HV3 & S1 & S2).
  exists cells2, L'. split; [exact (vcore_after fuel Stream reserve mx A2 cells2 L1 V A' _ cells2 L' [] [] [] (vc_laid _ _ _ _ _ _ _ _ _ _ VC2) (vc_main _ _ _ _ _ _ _ _ _ _ VC2) (vc_table _ _ _ _ _ _ _ _ _ _ VC2) HV3)|]. split; [exact S1|].
  destruct (hv_buffer _ _ _ _ _ _ _ _ _ _ _ _ _ _ HV3) as (-> & _). split; [exact ER|]. split; [|intros _; exact S2]. intro MN2.
  rewrite (tail_main fuel dc new_decomp new_comp comp flush depth kd Stream reserve md5 feed digest truncate CD HO mx A2 [] cells2 L1 A' (vcore_begin _ _ _ _ _ _ _ _ _ _ VC2) SU SA E). apply EU. congruence.
Qed.

(** ** All operations *)
Notation performv := (perform_vop fuel dc new_decomp new_comp comp flush depth kd md5 feed digest reserve truncate process_blob rounds).
Notation vrunsh := (vruns fuel dc new_decomp new_comp comp flush depth kd Stream md5 feed digest reserve truncate process_blob rounds).
Definition vlimited (o : vop) : Prop := match o with VReopen sc sp => limit_of sc <= mx /\ limit_of sp <= mx | _ => True end.
Definition vends (o : vop) : Prop := match o with VFlush | VReopen _ _ => True | _ => False end.
Definition waiting (A : farchive) (Pc Pp : list pitem) : Z := zlen (Pc ++ Pp) + zlen (fa_redirects A).
Lemma vop_step : forall A cells L Pc Pp V n o A', wcore A cells L Pc Pp V -> vclean A Pc Pp -> counts n A -> waiting A Pc Pp + vadds [o] <= n -> vlimited o -> suff A ->
  zlen (ml_types (fa_mimes A)) <= 65535 -> zlen (ml_types (fa_mimes A')) <= 65535 -> fsuff A -> vok fuel A V o -> performv A o = (Ok tt, A') ->
  exists cells' L' Pc' Pp', wcore A' cells' L' Pc' Pp' (vstep V o) /\ vclean A' Pc' Pp' /\ waiting A' Pc' Pp' <= waiting A Pc Pp + vadds [o] /\
    (vends o -> settled A' /\ Pc' = [] /\ Pp' = [] /\ fa_redirects A' = []).
Proof.
  intros A cells L Pc Pp V n o A' VC CL CT ZW LM SU B1 B2 FS (OK & NR) E. unfold waiting in *. pose proof (zlen_nonneg (Pc ++ Pp)) as ZP. pose proof (zlen_nonneg (fa_redirects A)) as ZR.
  destruct o as [it d un|src tgt ttl|u l|u d|u|u| |sc sp]; cbn [perform_vop vends] in *; try (pose proof (wcore_vcore _ _ _ _ _ _ NR VC) as VN).
  - change (vadds [VAdd it d un]) with 1 in *.
    destruct (wadd_step A cells L Pc Pp V n it d un A' VC CT ltac:(lia) OK B2 E) as (cells' & L' & Pc' & Pp' & VC' & CL' & ER & Z). exists cells', L', Pc', Pp'. rewrite ER. split; [exact VC'|]. split; [exact CL'|]. split; [lia|intros []].
  - destruct OK as (O1 & O2 & O3 & O4 & O9 & O10 & O11 & (c & r & O5 & (x & O6) & O7) & O8 & O12). change (vadds [VLink src tgt ttl]) with 1 in *.
    assert (SO : sound (src, tgt, ttl)).
    { constructor; cbn.
      - exists c, r, x. auto.
      - split; assumption.
      - exact O9.
      - exact O8. }
    destruct (vlink_step fuel depth Stream reserve md5 feed digest process_blob mx A cells L Pc Pp V n (src, tgt, ttl) A' VN CL CT O1 O2 O3 O4 SO O12 ltac:(lia) E) as (cells' & VC' & CL' & Z). exists cells', L, Pc, Pp. split; [exact (vcore_wcore _ _ _ _ _ _ VC')|]. split; [exact CL'|]. split; [lia|intros []].
  - destruct (vedit_step fuel depth Stream reserve process_blob mx A cells L Pc Pp V u l A' VN CL OK E) as (cells' & VC' & CL' & ER). exists cells', L, Pc, Pp. rewrite ER. change (vadds [VEdit u l]) with 0. split; [exact (vcore_wcore _ _ _ _ _ _ VC')|]. split; [exact CL'|]. split; [lia|intros []].
  - destruct (vcontent_step fuel dc new_decomp new_comp comp flush kd Stream reserve CD mx A cells L Pc Pp V u d A' VN SU OK E) as (L' & VC' & CL' & ER). exists cells, L', Pc, Pp. rewrite ER. change (vadds [VContent u d]) with 0. split; [exact (vcore_wcore _ _ _ _ _ _ VC')|]. split; [exact CL'|]. split; [lia|intros []].
  - destruct (vremove_step fuel depth Stream reserve mx A cells L Pc Pp V u A' VN CL OK E) as (cells' & VC' & CL' & ER). exists cells', L, Pc, Pp. rewrite ER. change (vadds [VRemove u]) with 0. split; [exact (vcore_wcore _ _ _ _ _ _ VC')|]. split; [exact CL'|]. split; [lia|intros []].
  - change (vadds [VMain u]) with 1 in *. destruct (vmain_step fuel depth Stream reserve md5 feed digest process_blob mx A cells L Pc Pp V n u A' VN CL CT OK ltac:(lia) E) as (cells' & VC' & CL' & Z & _). exists cells', L, Pc, Pp. split; [exact (vcore_wcore _ _ _ _ _ _ VC')|]. split; [exact CL'|]. split; [lia|intros []].
  - change (vadds [VFlush]) with 0 in *. destruct (wflush_step A cells L Pc Pp V n A' VC CL OK CT ltac:(lia) B1 FS E) as (cells' & L' & VC' & SE & ER & _). exists cells', L', [], []. rewrite ER.
    split; [exact (vcore_wcore _ _ _ _ _ _ VC')|]. split; [unfold vclean; auto|]. split; [change (zlen (@nil pitem ++ [])) with 0; change (zlen (@nil rop)) with 0; lia|auto].
  - change (vadds [VReopen sc sp]) with 0 in *. destruct OK as (OF & F1 & F2). destruct LM as (M1 & M2). cbn [perform_zop] in E. destruct (flushesh A) as [[[]|x] A1] eqn:EF; [|discriminate E].
    destruct (wflush_step A cells L Pc Pp V n A1 VC CL OF CT ltac:(lia) B1 FS EF) as (cells' & L' & VC' & SE & ER & _).
    destruct (vopen_step fuel dc new_decomp new_comp comp flush depth kd Stream reserve md5 feed digest CD mx A1 cells' L' V sc sp VC' SE ER (proj2 FS A1 EF) F1 F2 M1 M2) as (B & EO & _ & VB & SB & RB). rewrite EO in E. injection E as <-. exists cells', L', [], []. rewrite RB.
    split; [exact (vcore_wcore _ _ _ _ _ _ VB)|]. split; [unfold vclean; auto|]. split; [change (zlen (@nil pitem ++ [])) with 0; change (zlen (@nil rop)) with 0; lia|auto].
Qed.

Lemma vadds_cons : forall o ops, vadds (o :: ops) = vadds [o] + vadds ops.
Proof. intros o ops. unfold vadds. cbn [filter]. destruct o; rewrite ?zlen_cons; cbn; lia. Qed.
Lemma vadds_app : forall a b, vadds (a ++ b) = vadds a + vadds b.
Proof. induction a as [|o a IH]; intro b; [reflexivity|]. cbn [app]. rewrite vadds_cons, IH, (vadds_cons o a). lia. Qed.
Lemma vadds_pos : forall ops, 0 <= vadds ops.
Proof. intro ops. apply zlen_nonneg. Qed.
Lemma vruns_ends : forall n A V ops A', vrunsh n A V ops A' -> within_limits fuel Stream reserve A /\ within_limits fuel Stream reserve A'.
Proof. induction 1 as [A V W CT|A V o A1 ops A' W CT FS OK E R IH]; [auto|]. split; [exact W|exact (proj2 IH)]. Qed.
Lemma vruns_step : forall n A V ops A', vrunsh n A V ops A' -> forall cells L Pc Pp, wcore A cells L Pc Pp V -> vclean A Pc Pp -> waiting A Pc Pp + vadds ops <= n -> Forall vlimited ops ->
  exists cells' L' Pc' Pp', wcore A' cells' L' Pc' Pp' (vsteps V ops) /\ vclean A' Pc' Pp' /\ waiting A' Pc' Pp' <= waiting A Pc Pp + vadds ops.
Proof.
  induction 1 as [A V W CT|A V o A1 ops A' W CT FS OK E R IH]; intros cells L Pc Pp VC CL ZW LM.
  - exists cells, L, Pc, Pp. split; [exact VC|]. split; [exact CL|]. change (vadds []) with 0. lia.
  - rewrite vadds_cons in *. inversion LM as [|? ? LM1 LM2]; subst. pose proof (vadds_pos ops) as VP.
    destruct (vop_step A cells L Pc Pp V n o A1 VC CL CT ltac:(lia) LM1 (proj1 W) (proj2 W) (proj2 (proj1 (vruns_ends _ _ _ _ _ R))) FS OK E) as (cells1 & L1 & Pc1 & Pp1 & VC1 & CL1 & Z1 & _).
    destruct (IH cells1 L1 Pc1 Pp1 VC1 CL1 ltac:(lia) LM2) as (cells' & L' & Pc' & Pp' & VC' & CL' & Z'). exists cells', L', Pc', Pp'. split; [exact VC'|]. split; [exact CL'|lia].
Qed.
Lemma vruns_app : forall n ops A V A' o, vrunsh n A V (ops ++ [o]) A' -> exists A1, vrunsh n A V ops A1 /\ counts n A1 /\ within_limits fuel Stream reserve A1 /\ within_limits fuel Stream reserve A' /\
  fsuff A1 /\ vok fuel A1 (vsteps V ops) o /\ performv A1 o = (Ok tt, A').
Proof.
  intros n. induction ops as [|p ops IH]; intros A V A' o R; cbn [app] in R; inversion R as [|? ? ? A1 ? ? W CT FS OK E R1]; subst.
  - inversion R1 as [? ? W1 CT1|]; subst. exists A. split; [constructor; assumption|]. auto 8.
  - destruct (IH _ _ _ _ R1) as (A2 & R2 & X). exists A2. split; [econstructor; eassumption|exact X].
Qed.
(** A history that ends with a flush, or with closing and opening. *)
Lemma view_history : forall n A V ops o A' cells L, vrunsh n A V (ops ++ [o]) A' -> vends o -> laid A cells L -> pending (zs_comp (fa_state A)) [] -> pending (zs_plain (fa_state A)) [] ->
  no_buffer A -> (is_dirty A = false -> settled A) -> table_of A cells L [] V -> vadds ops <= n -> Forall vlimited (ops ++ [o]) ->
  exists cells' L', vcoreh A' cells' L' [] [] (vsteps V ops) /\ settled A' /\ fa_redirects A' = [].
Proof.
  intros n A V ops o A' cells L R VE LO P1 P2 (N1 & N2) SE T Z LM. destruct (vruns_app _ _ _ _ _ _ R) as (A1 & R1 & CT & W1 & W2 & FS & OK & E). apply Forall_app in LM as (LM1 & LM2). inversion LM2 as [|? ? LM3 _]; subst.
  assert (VC : wcore A cells L [] [] V) by (constructor; auto; [constructor|left; exact N2|apply table_wtable; exact T]). assert (W0 : waiting A [] [] = 0) by (unfold waiting; rewrite N1; reflexivity).
  assert (ZE : vadds [o] = 0) by (destruct o; [destruct VE..|reflexivity|reflexivity]).
  destruct (vruns_step _ _ _ _ _ R1 cells L [] [] VC ltac:(unfold vclean; auto) ltac:(lia) LM1) as (cells1 & L1 & Pc1 & Pp1 & VC1 & CL1 & Z1).
  destruct (vop_step A1 cells1 L1 Pc1 Pp1 _ n o A' VC1 CL1 CT ltac:(lia) LM3 (proj1 W1) (proj2 W1) (proj2 W2) FS OK E) as (cells2 & L2 & Pc2 & Pp2 & VC2 & _ & _ & EN).
  destruct (EN VE) as (S & -> & -> & R0). exists cells2, L2. split; [|split; [exact S|exact R0]]. destruct o; try destruct VE; exact (wcore_none _ _ _ _ VC2).
Qed.

End History.
