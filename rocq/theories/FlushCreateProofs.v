(** New archives. *)
From Coq Require Import List ZArith Bool Lia Permutation Sorting.Sorted.
From Coq Require Import ZifyBool ZifyNat.
From Verif Require Import Base BaseProofs Utf8 Utf8Proofs Dict Infobyte Header HeaderSpec HeaderProofs MimeTypeList MimeTypeListSpec MimeTypeListProofs PointerList PointerListProofs
  SpaceAllocator SpaceAllocatorSpec SpaceAllocatorProofs Entry EntrySpec EntryProofs Reader ReaderSpec Blob Cluster ClusterSpec ClusterProofs ClusterWrapper ClusterWrapperSpec ClusterWrapperProofs
  Archive ArchiveSpec ArchiveProofs ArchiveWriteProofs ArchiveMoveProofs ArchiveFacts ArchiveLaws ArchiveCluster ArchiveClusterSpec ArchiveClusterProofs ArchiveFrame
  CompressionStrategy CompressionStrategySpec CompressionStrategyProofs OperationBuffer Flush FlushSpec FlushProofs FlushTailProofs FlushOpenProofs FlushHistorySpec FlushHistoryProofs.
Import ListNotations.
Open Scope Z_scope.

Lemma in_new : forall e x, 0 <= x < e -> in_use (new_allocator e) x.
Proof. intros e x Hx. split; [exact Hx|]. unfold listed_free, new_allocator. cbn. intros (b & Q & _). destruct Q. Qed.
Lemma nothing_core : forall f e, 0 <= e -> core (mkZim f empty_list None empty_list None (new_allocator e)) [].
Proof.
  intros f e He. constructor; cbn [z_upl z_file z_alloc z_atpl z_etpl pl_ptrs pl_mutable empty_list map].
  - reflexivity.
  - constructor.
  - constructor.
  - constructor.
  - split; constructor.
  - exact He.
  - constructor.
  - split; [constructor|]. exists []. split; constructor.
  - intros i x [].
  - intros t Q. discriminate Q.
  - reflexivity.
  - reflexivity.
  - intros t Q. discriminate Q.
Qed.
Lemma nothing_consistent : forall f e, 0 <= e -> consistent (mkZim f empty_list None empty_list None (new_allocator e)) [].
Proof.
  intros f e He. constructor.
  - exists []. split; [reflexivity|apply nothing_core; exact He].
  - intros t Q. discriminate Q.
  - intros x r [].
  - intros m Q. discriminate Q.
  - reflexivity.
Qed.
Lemma nothing_ok : forall Stream f e, 0 <= e -> archive_ok Stream (mkCa (mkZim f empty_list None empty_list None (new_allocator e)) empty_list 0) [] [].
Proof.
  intros Stream f e He. assert (N : forall i (c : Z * ccell), at_number [] i c -> False). { intros i c Q. unfold at_number, znth in Q. destruct (i <? 0); [discriminate Q|]. destruct (Z.to_nat i); discriminate Q. }
  constructor; cbn [ca_zim ca_ptrs ca_next map]; try (intros; exfalso; eapply N; eassumption).
  - apply nothing_core. exact He.
  - apply nothing_consistent. exact He.
  - constructor.
  - reflexivity.
  - reflexivity.
  - reflexivity.
Qed.
Lemma placeholder_ok : forall fuel, (0 < fuel)%nat -> item_ok fuel placeholder_item [].
Proof. intros fuel HF. split; [reflexivity|]. split; [apply mem_delivers; change (zlen (@nil byte)) with 0; lia|intro Q; discriminate Q]. Qed.

Section Create.
Variable fuel : nat.
Context {D : Type}.
Variable dc : decomp D.
Variable new_decomp : ctype -> res D.
Context {K : Type}.
Variable new_comp : ctype -> res K.
Variable comp : K -> bytes -> res (bytes * K).
Variable flush : K -> res bytes.
Variable depth : nat.
Variable Stream : ctype -> bytes -> bytes -> Prop.
Hypothesis CD : codec_ok dc new_decomp new_comp comp flush Stream.
Variable mx : Z.
Variable r : Z.
Hypothesis Hr : 0 <= r.
Hypothesis HF : (0 < fuel)%nat.
Notation laid := (laid_out Stream (Some r)).

(** ** Adding an item registers at most one mimetype *)
Lemma to_entry_types : forall it s x s', to_entry it s = (x, s') -> zlen (ml_types (sa_mimes s')) <= zlen (ml_types (sa_mimes s)) + 1.
Proof.
  intros it s x s' E0. unfold to_entry in E0. destruct (mt_get_index _ true _) as [[o ml]|e] eqn:E; [|injection E0 as _ <-; lia].
  assert (X : zlen (ml_types ml) <= zlen (ml_types (sa_mimes s)) + 1).
  { unfold mt_get_index in E. destruct (as_bytes (PyStr (it_mime it))) as [m|] eqn:EM; cbn [bind] in E; [|discriminate E].
    destruct (mt_scan m (ml_types (sa_mimes s)) 0); [injection E as _ <-; lia|]. unfold mt_register in E. destruct (negb (ml_mutable (sa_mimes s))); [discriminate E|].
    cbn [as_bytes bind] in E. destruct (mt_has m (ml_types (sa_mimes s))); cbn [bind] in E; injection E as _ <-; [lia|]. cbn [ml_types]. rewrite zlen_app. change (zlen [m]) with 1. lia. }
  destruct o as [i|]; [|injection E0 as _ <-; exact X]. destruct (it_article it && negb (ueqb (it_ns it) NS_C)); injection E0 as _ <-; exact X.
Qed.
Lemma add_types : forall it s st x s' st', add_item fuel new_comp comp flush depth it (s, st) = (x, (s', st')) -> zlen (ml_types (sa_mimes s')) <= zlen (ml_types (sa_mimes s)) + 1.
Proof.
  intros it s st x s' st' E0. unfold add_item in E0. destruct (new_cluster_needed it st) as [[nd|e] st1]; [|injection E0 as _ <- _; lia].
  destruct (if nd then _ else _) as [[[]|e] [s1 st2]] eqn:EF.
  - assert (E1 : sa_mimes s1 = sa_mimes s). { destruct nd; [eapply finalize_mimes; exact EF|injection EF as <- _; reflexivity]. }
    destruct (to_entry it s1) as [[en|e] s2] eqn:ET; pose proof (to_entry_types _ _ _ _ ET) as X; rewrite E1 in X.
    + destruct (append_blob _ _ _) as [[num|e] w]; [destruct (set_blob_number num en)|]; injection E0 as _ <- _; exact X.
    + injection E0 as _ <- _. exact X.
  - injection E0 as _ <- _. assert (E1 : sa_mimes s1 = sa_mimes s). { destruct nd; [eapply finalize_mimes; exact EF|discriminate EF]. } rewrite E1. lia.
Qed.
Lemma any_add_types : forall it s y x s' y', any_add fuel new_comp comp flush depth it (s, y) = (x, (s', y')) -> zlen (ml_types (sa_mimes s')) <= zlen (ml_types (sa_mimes s)) + 1.
Proof.
  intros it s y x s' y' E0. destruct y as [st|ms]; cbn [any_add] in E0.
  - destruct (add_item _ _ _ _ _ _ _) as [q [s1 st1]] eqn:E. injection E0 as _ <- _. eapply add_types; exact E.
  - unfold add_item_m in E0. destruct (add_item _ _ _ _ _ _ _) as [q [s1 st1]] eqn:E. injection E0 as _ <- _. eapply add_types; exact E.
Qed.

(** ** The placeholder, as a history of the strategies *)
Lemma placeholder_runs : forall A A', add_placeholder fuel new_comp comp flush depth A = (Ok tt, A') -> idle_strategy (zs_comp (fa_state A)) ->
  exists z1, perform_sop fuel new_comp comp flush depth (fa_state A) (AddItem placeholder_item [] true) = (Ok tt, z1) /\
    perform_sop fuel new_comp comp flush depth z1 FlushItems = (Ok tt, fa_state A') /\
    zlen (ml_types (fa_mimes A')) <= zlen (ml_types (fa_mimes A)) + 1 /\ fa_header A' = fa_header A /\ fa_redirects A' = fa_redirects A /\ fa_main A' = fa_main A.
Proof.
  intros A A' E0 I. unfold add_placeholder, mbind, fa_add_item in E0. destruct (zim_add_item _ _ _ _ _ _ _ _) as [[[]|e] z1] eqn:E1; [|discriminate E0].
  exists z1. split; [exact E1|]. unfold zim_add_item in E1. cbn [negb] in E1. destruct (any_add _ _ _ _ _ _ _) as [q [s y]] eqn:EA. injection E1 as -> <-.
  pose proof (any_add_types _ _ _ _ _ _ EA) as T. unfold fa_sarch, fa_set_dirty, fa_set_state in E0. cbn [fa_state zs_plain zs_comp zs_arch fa_header fa_dirty fa_redirects fa_main] in E0.
  destruct (any_flush fuel new_comp comp flush depth (s, y)) as [q [s2 y2]] eqn:EF. injection E0 as -> <-. cbn [perform_sop]. unfold zim_flush_items. cbn [zs_arch zs_comp zs_plain].
  rewrite idle_flush by exact I. rewrite EF. split; [reflexivity|]. split; [|split; [reflexivity|split; reflexivity]].
  unfold fa_mimes, fa_sarch. cbn [fa_state zs_arch]. rewrite (any_flush_mimes _ _ _ _ _ _ _ _ _ _ EF). exact T.
Qed.

Lemma fresh_idle : forall x, fresh_strategy x -> idle_strategy x.
Proof. intros x (c & max & [-> | ->]); cbn; constructor. Qed.
(** A new archive: only the entry that keeps a place for the article title list;
    everything is still to be saved. *)
Lemma created : forall u sc sp A, zlen u = 16 -> fresh_strategy sc -> fresh_strategy sp -> limit_of sc <= mx -> limit_of sp <= mx ->
  init_new fuel new_comp comp flush depth (Some r) u sc sp = Ok A ->
  exists cells L, laid A cells L /\ pendany fuel mx (zs_comp (fa_state A)) [] /\ pendany fuel mx (zs_plain (fa_state A)) [] /\ fa_redirects A = [] /\ fa_main A = None /\
    is_dirty A = true /\ map full_url (map snd cells) = [URL_ARTICLE_TITLE_INDEX] /\ article_urls (fa_zim A) = Some [] /\ zlen L <= 1 /\ h_uuid (fa_hdr A) = u.
Proof.
  intros u sc sp A HU F1 F2 M1 M2 E0. unfold init_new in E0. destruct (init_state (Some r) u sc sp) as [A0|e] eqn:EI; cbn [bind] in E0; [|discriminate E0].
  destruct (add_placeholder fuel new_comp comp flush depth A0) as [[[]|e] A1] eqn:EP; cbn [bind] in E0; [|discriminate E0]. injection E0 as <-.
  unfold init_state in EI. cbv zeta in EI. destruct (header_to_bytes _) as [data|e]; cbn [bind] in EI; [|discriminate EI]. injection EI as <-.
  match type of EP with add_placeholder _ _ _ _ _ ?X = _ => set (A0 := X) in * end.
  destruct (placeholder_runs _ _ EP (fresh_idle _ F1)) as (z1 & R1 & R2 & T & EH & ER & EM). change (zlen (ml_types (fa_mimes A0))) with 0 in T.
  pose proof (placeholder_ok fuel HF) as OK.
  assert (AO : archive_ok Stream (fa_arch A0) [] []). { apply nothing_ok. unfold init_space, HEADER_LENGTH. lia. }
  assert (S0 : sinv fuel Stream mx 0 (fa_arch A0) [] [] (fa_state A0) [] [] [] [] [] []).
  { constructor; [apply grown_refl; exact AO|apply fresh_pendany; assumption..|constructor|constructor]. }
  assert (RO : room 0 [] [] [(placeholder_item, [])]).
  { split; [constructor; [intros []|constructor]|]. split; [intros x _ e []|]. cbn. lia. }
  pose proof (perform_mimes _ _ _ _ _ _ _ _ _ R2) as EX. pose proof (mextends_len _ _ EX) as LE. change (sa_mimes (zs_arch (fa_state A1))) with (fa_mimes A1) in LE.
  destruct (sinv_step fuel dc new_decomp new_comp comp flush depth Stream CD mx 0 _ _ _ _ _ _ _ _ _ _ (AddItem placeholder_item [] true) z1 S0) as (cells1 & L1 & Pd1 & Pc1 & Pp1 & S1 & _).
  { exact RO. } { constructor; [exact OK|constructor]. } { lia. } { exact R1. }
  cbn [app] in S1.
  destruct (sinv_step fuel dc new_decomp new_comp comp flush depth Stream CD mx 0 _ _ _ _ _ _ _ _ _ _ FlushItems (fa_state A1) S1) as (cells & L & P & Pc & Pp & [G C PL SA ST] & EE).
  { exact RO. } { constructor. } { change (zlen (ml_types (fa_mimes A1)) <= 65535). lia. } { exact R2. }
  destruct (EE eq_refl) as (-> & ->). rewrite !app_nil_r in *. change (added_by [AddItem placeholder_item [] true] ++ added_by [FlushItems]) with [(placeholder_item, @nil byte)] in SA.
  pose proof (perform_good fuel new_comp comp flush depth _ (AddItem placeholder_item [] true) _ _ (fun it d Q => match Q with or_introl e => ltac:(injection e as <- <-; exact OK) | or_intror f => match f with end end) R1) as (MT1 & MS1).
  pose proof (perform_good fuel new_comp comp flush depth _ FlushItems _ _ (fun it d Q => match Q with end) R2) as (MT2 & MS2).
  pose proof (mtracks_trans _ _ _ MT1 MT2) as (MO & MM & MD).
  assert (EPP : exists mid, P = [mkP placeholder_item [] mid]).
  { pose proof (Permutation_length SA) as LN. rewrite map_length in LN. cbn [length] in LN. destruct P as [|[it d mid] [|? ?]]; try discriminate LN.
    cbn [map pair_of p_item p_data] in SA. apply Permutation_length_1 in SA. injection SA as -> ->. eauto. }
  destruct EPP as (mid & ->). inversion ST as [|? ? T1 _]; subst. destruct T1 as (_ & m & TM & _).
  pose proof (gr_items _ _ _ _ _ _ _ _ _ _ G) as GI. inversion GI as [|? ? HI _]; subst. destruct HI as (n & k & bl & I1 & I2 & I3 & I4 & _).
  pose proof (gr_framed _ _ _ _ _ _ _ _ _ _ G) as FR. pose proof (fr_zim _ _ _ _ _ _ FR) as [ZU ZA ZE].
  destruct (fr_ptrs _ _ _ _ _ _ FR) as (PO & PM & PD). destruct ZU as (UO & UM & UD). destruct ZA as (AOo & AM & AD).
  change (sa_arch (zs_arch (fa_state A1))) with (fa_arch A1) in *. change (ca_zim (fa_arch A1)) with (fa_zim A1) in *.
  change (sa_mimes (zs_arch (fa_state A1))) with (fa_mimes A1) in *.
  assert (SP : forall x, 0 <= x < 80 + r -> spare (fa_arch A1) cells L x).
  { intros x Hx. apply (fr_spare _ _ _ _ _ _ FR). split; [apply in_new; unfold init_space, HEADER_LENGTH; exact Hx|]. split; [intros c []|].
    intros i d Q. exfalso. unfold at_number, znth in Q. destruct (i <? 0); [discriminate Q|]. destruct (Z.to_nat i); discriminate Q. }
  assert (HH : fa_hdr A1 = ho_hdr (header_placeholder u)) by (unfold fa_hdr; rewrite EH; reflexivity).
  assert (PP : parts (Some r) A1 = [(0, 80); (80, r); (h_cluster_pos (ho_hdr (header_placeholder u)), 0); (h_url_pos (ho_hdr (header_placeholder u)), 0)]).
  { unfold parts, header_part, mime_part, cluster_part, url_part. rewrite HH. change (fa_zim A1) with (ca_zim (fa_arch A1)) in *. rewrite PO, UO. reflexivity. }
  exists cells, L. split; [|split; [exact C|split; [exact PL|]]].
  - apply (laid_same Stream (Some r) A1); [reflexivity|reflexivity|]. constructor.
    + exact (gr_ok _ _ _ _ _ _ _ _ _ _ G).
    + destruct (gr_clusters _ _ _ _ _ _ _ _ _ _ G) as (N & -> & B & _). cbn [app]. intro Q. rewrite Forall_forall in B. destruct (B None Q) as (? & ? & X & _). discriminate X.
    + rewrite PP. intros q x Q W. apply SP. unfold within in W. destruct Q as [<-|[<-|[<-|[<-|[]]]]]; cbn [fst snd] in W; lia.
    + rewrite PP. unfold within. repeat (constructor; [repeat (constructor; [cbn [fst snd]; intros x Q; lia|]); constructor|]). constructor.
    + rewrite PP. repeat (constructor; [cbn [fst snd]; split; [cbn; lia|lia]|]). constructor.
    + rewrite EH. reflexivity.
    + rewrite MM. reflexivity.
    + rewrite HH. exact HU.
    + split; [|apply MS2; apply MS1; constructor]. intro Q. rewrite Q in TM. apply mt_get_range in TM. change (zlen (@nil bytes)) with 0 in TM. lia.
    + rewrite EH. intro Q. discriminate Q.
    + intro Q. rewrite (MD Q) in Q. discriminate Q.
    + intro Q. rewrite (PD Q) in Q. discriminate Q.
    + intro Q. rewrite (UD Q) in Q. discriminate Q.
    + rewrite HH. unfold otracks in ZE. cbn in ZE. destruct (z_etpl (fa_zim A1)); [contradiction|]. split; intros _; reflexivity.
    + exists n, k. split.
      * exists (p_entry n k (mkP placeholder_item [] mid)), bl. split; [exact I1|]. split; [reflexivity|]. split; [exact I2|]. split; [pose proof (znth_some _ _ _ I3); lia|].
        intro Q. rewrite (AD Q) in Q. discriminate Q.
      * intros t Q. unfold otracks in ZE. cbn in ZE. rewrite Q in ZE. contradiction.
  - split; [exact ER|]. split; [exact EM|]. split.
    { unfold is_dirty. change (fa_header (fa_set_dirty false A1)) with (fa_header A1). rewrite EH. cbn [ho_dirty header_placeholder]. rewrite Bool.orb_true_r. reflexivity. }
    split; [apply Permutation_length_1_inv; apply Permutation_sym; exact (gr_urls _ _ _ _ _ _ _ _ _ _ G)|].
    split.
    { destruct (gr_articles _ _ _ _ _ _ _ _ _ _ G [] eq_refl) as (us & E1 & E2). cbn in E2. apply Permutation_sym, Permutation_nil in E2. subst us. exact E1. }
    split; [|change (h_uuid (fa_hdr A1) = u); rewrite HH; reflexivity].
    destruct (gr_clusters _ _ _ _ _ _ _ _ _ _ G) as (N & -> & _ & LN). exact LN.
Qed.
End Create.
