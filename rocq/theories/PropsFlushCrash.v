(** C94: a crash while the archive is flushed. *)
From Coq Require Import List ZArith Bool Lia Permutation Strings.Byte.
From Coq Require Import ZifyBool ZifyNat.
From Verif Require Import Base BaseProofs Utf8 Utf8Proofs Infobyte Header HeaderSpec HeaderProofs MimeTypeList MimeTypeListSpec Entry EntrySpec Reader ReaderSpec Decompressors DecompressorsProofs Blob BlobProofs
  PointerList PointerListProofs SpaceAllocator Cluster ClusterSpec ClusterProofs ClusterWrapper ClusterWrapperSpec ClusterWrapperProofs Archive ArchiveSpec ArchiveProofs ArchiveFacts ArchiveObserve
  ArchiveCluster ArchiveClusterSpec ArchiveClusterProofs ArchiveFrame ArchiveEntryCluster CompressionStrategy CompressionStrategySpec CompressionStrategyProofs OperationBuffer OperationBufferSpec EntryObject Flush FlushSpec FlushProofs FlushTailProofs FlushOpenProofs
  FlushHistorySpec FlushHistoryProofs FlushCreateProofs ViewSpec ViewProofs ViewEditProofs ViewStepProofs ViewWaitProofs ViewHistoryProofs PropsArchiveCluster PropsCompressionStrategy PropsFlush PropsView CrashSpec PropsCrash FlushCrashSpec.
Import ListNotations.
Open Scope Z_scope.

Section Crash.
Variable fuel : nat.
Context {D : Type}.
Variable dc : decomp D.
Variable new_decomp : ctype -> res D.
Context {K : Type}.
Variable new_comp : ctype -> res K.
Variable comp : K -> bytes -> res (bytes * K).
Variable flush : K -> res bytes.
Variable depth : nat.
Variable kd : ckind.
Variable Stream : ctype -> bytes -> bytes -> Prop.
Context {H : Type}.
Variable md5 : H.
Variable feed : H -> bytes -> H.
Variable digest : H -> bytes.
Variable truncate : bool.
Variable process_blob : entry -> M zim unit.
Variable rounds : nat.
Hypothesis CD : codec_ok dc new_decomp new_comp comp flush Stream.
Hypothesis HO : hash_ok feed digest.
Notation runs reserve := (vruns fuel dc new_decomp new_comp comp flush depth kd Stream md5 feed digest reserve truncate process_blob rounds).
Notation opens := (open_zim fuel dc new_decomp new_comp comp flush depth kd).
Notation shows := (shows fuel dc new_decomp kd).
Notation passes := (passes fuel new_comp comp flush depth).
Notation flushes reserve := (flushes fuel dc new_decomp new_comp comp flush depth kd md5 feed digest reserve truncate process_blob rounds).
Notation to_header reserve := (to_header fuel dc new_decomp new_comp comp flush depth kd reserve process_blob rounds).
Notation from_header := (from_header md5 feed digest truncate).

(** The steps make up a flush. *)
Lemma sync_dirty : forall A A1, sync_main A = (Ok tt, A1) -> is_dirty A = true -> is_dirty A1 = true.
Proof.
  intros A A1 E DI. unfold sync_main in E. destruct (assign_inv _ _ _ _ _ E) as (h & HA & ->). destruct (hassign_more _ _ _ _ HA) as (_ & [->|HD] & _).
  - destruct A; exact DI.
  - unfold is_dirty. change (fa_header (fa_set_header h A)) with h. rewrite HD, orb_true_r. reflexivity.
Qed.
Theorem C94_steps : forall reserve A A', is_dirty A = true ->
  (flushes reserve A = (Ok tt, A') <-> exists Ah A2 fs0 fs, proceeds (to_header reserve) A Ah fs0 /\ proceeds from_header Ah A2 fs /\ A' = fa_set_dirty false A2).
Proof.
  intros reserve A A' DI. unfold flushes, zim_flush, mbind. split.
  - intro E. destruct (sync_main A) as [[[]|] A1] eqn:E1; [|discriminate E]. rewrite (sync_dirty _ _ E1 DI) in E. cbn [negb] in E.
    destruct (flush_content _ _ _ _ _ _ _ A1) as [[[]|] A3] eqn:E2; [|discriminate E]. unfold flush_content, mbind in E2.
    destruct (flush_strategies _ _ _ _ _ A1) as [[[]|] A2] eqn:E3; [|discriminate E2]. unfold flush_tail, mbind in E.
    destruct (sync_main A3) as [[[]|] A4] eqn:E4; [|discriminate E]. destruct (flush_articles _ _ _ _ _ _ _ A4) as [[[]|] A5] eqn:E5; [|discriminate E].
    destruct (flush_titles _ _ _ _ _ _ _ _ A5) as [[[]|] A6] eqn:E6; [|discriminate E]. destruct (flush_mimes _ A6) as [[[]|] A7] eqn:E7; [|discriminate E].
    destruct (flush_clusters A7) as [[[]|] A8] eqn:E8; [|discriminate E]. destruct (flush_urls A8) as [[[]|] A9] eqn:E9; [|discriminate E].
    destruct (flush_header A9) as [[[]|] Ah] eqn:E10; [|discriminate E]. destruct (update_checksum _ _ _ Ah) as [[[]|] Ac] eqn:E11; [|discriminate E].
    destruct (flush_truncate _ _) as [[[]|] At] eqn:E12; [|discriminate E]. injection E as <-.
    exists Ah, At. eexists. eexists. split; [|split; [|reflexivity]].
    + unfold FlushCrashSpec.to_header. repeat (econstructor; [eassumption|]). constructor.
    + unfold FlushCrashSpec.from_header. repeat (econstructor; [eassumption|]). constructor.
  - intros (Ah & A2 & fs0 & fs & P & Q & ->). unfold FlushCrashSpec.to_header, FlushCrashSpec.from_header in P, Q.
    repeat match goal with R : proceeds (_ :: _) _ _ _ |- _ => inversion R; clear R; subst | R : proceeds [] _ _ _ |- _ => inversion R; clear R; subst end.
    match goal with E : sync_main A = _ |- _ => rewrite E, (sync_dirty _ _ E DI) end. cbn [negb]. unfold flush_content, flush_tail, mbind.
    repeat match goal with E : ?m ?X = (Ok tt, _) |- context [?m ?X] => rewrite E end. reflexivity.
Qed.

(** ** Behind the header *)
Lemma last_steps : forall A A2 fs, proceeds from_header A A2 fs -> h_checksum_pos (fa_hdr A) = file_end (fa_alloc A) -> 0 <= file_end (fa_alloc A) ->
  (exists f, A2 = fa_set_file f A) /\ file_end (fa_alloc A) <= zlen (fa_file A) /\ forall f, In f fs -> keeps (fa_file A) f (fun x => in_use (fa_alloc A) x).
Proof.
  intros A A2 fs P CP C0. unfold FlushCrashSpec.from_header in P.
  inversion P as [|? ? ? Ac ? fs1 E1 P1]; subst. inversion P1 as [|? ? ? At ? fs2 E2 P2]; subst. inversion P2; subst. clear P P1 P2.
  unfold update_checksum, calculate_checksum in E1. rewrite CP in E1. set (cp := file_end (fa_alloc A)) in *.
  destruct (checksum_loop feed _ (fa_file A) 0 cp md5) as [h|] eqn:CL; cbn [bind] in E1; [|discriminate E1]. injection E1 as <-.
  destruct (checksum_loop_ok feed digest HO _ _ 0 cp _ _ ltac:(lia) CL) as (_ & EF). pose proof (hash_len _ _ HO h) as ZD.
  assert (CE : cp <= zlen (fa_file A)) by (destruct (Z.eq_dec cp 0) as [Z0|N0]; [pose proof (zlen_nonneg (fa_file A)); lia|apply EF; lia]).
  unfold flush_truncate in E2. injection E2 as <-. change (fa_hdr (fa_set_file _ A)) with (fa_hdr A). rewrite CP. fold cp.
  set (f1 := fwrite (fa_file A) cp (digest h)) in *.
  assert (K1 : keeps (fa_file A) f1 (fun x => in_use (fa_alloc A) x)).
  { eapply keeps_weaken; [apply keeps_fwrite; lia|]. intros x (HX & _) W. fold cp in HX. lia. }
  assert (L1 : zlen f1 = Z.max (zlen (fa_file A)) (cp + 16)) by (unfold f1; rewrite fwrite_len by lia; lia).
  split; [|split; [exact CE|]].
  - destruct truncate; [eexists; reflexivity|]. exists f1. destruct A as [[[[[] ? ?] ?] ? ?] ? ? ? ?]; reflexivity.
  - intros f [<-|[<-|[<-|[]]]].
    + apply keeps_refl.
    + exact K1.
    + destruct truncate; [|exact K1]. change (fa_file (fa_set_file f1 A)) with f1. intros x HX HU.
      change (nth_error (ztake (cp + 16) f1) (Z.to_nat x) = nth_error (fa_file A) (Z.to_nat x)). destruct HU as (HU & HF). fold cp in HU.
      unfold ztake. rewrite <- (K1 x HX (conj HU HF)). rewrite <- (firstn_skipn (Z.to_nat (cp + 16)) f1) at 2. rewrite nth_error_app1; [reflexivity|].
      rewrite firstn_length. unfold zlen in *. lia.
Qed.

Lemma after_header_ends : forall reserve mx n A cells L V ops A1 Ah A2 A' fs0 fs g w sc sp,
  laid_out Stream reserve A cells L -> pendany fuel mx (zs_comp (fa_state A)) [] -> pendany fuel mx (zs_plain (fa_state A)) [] -> Forall (vlimited mx) (ops ++ [VFlush]) ->
  fa_redirects A = [] -> fa_main A = None -> (is_dirty A = false -> settled A) ->
  shows A V -> runs reserve n A V ops A1 -> vadds ops <= n -> runs reserve n A1 (vsteps V ops) [VFlush] A' -> is_dirty A1 = true ->
  proceeds (to_header reserve) A1 Ah fs0 -> proceeds from_header Ah A2 fs -> mixed (fa_file Ah) fs g -> suffices fuel Stream reserve (fa_set_file g A') ->
  exists B, opens g w sc sp = Ok B /\ shows B (vsteps V ops).
Proof.
  intros reserve mx n A cells L V ops A1 Ah A2 A' fs0 fs g w sc sp LO PY PZ LM N1 N2 SE SH R Z R2 DI P Q MX (S0 & SA & _).
  assert (RR : runs reserve n A V (ops ++ [VFlush]) A').
  { clear - R R2. induction R as [A V W CT|A V o A1 ops A2 W CT FS OK E R IH]; [exact R2|]. cbn [app]. econstructor; eauto. }
  destruct (vruns_ends _ _ _ _ _ _ _ _ _ _ _ _ _ _ _ _ _ _ _ _ _ R) as (((_ & FA & _) & _) & _).
  assert (T : table (fa_zim A) (map snd cells) (blobs_of L) (ml_types (fa_mimes A)) [] (fa_redirects A) V).
  { rewrite N1. exact (shows_table fuel dc new_decomp new_comp comp flush kd Stream reserve md5 feed digest process_blob CD A cells L V LO (FA _ _ LO) SH). }
  destruct (view_history fuel dc new_decomp new_comp comp flush depth kd Stream reserve md5 feed digest truncate process_blob rounds CD HO mx n A V ops VFlush A' cells L RR I LO) as (cells1 & L1 & VC & S1 & R1); try assumption.
  { split; assumption. }
  assert (EA : A' = fa_set_dirty false A2).
  { inversion R2 as [|? ? ? A3 ? ? W CT FS OK E R3]; subst. inversion R3; subst. cbn [perform_vop perform_zop] in E.
    assert (E2 : flushes reserve A1 = (Ok tt, fa_set_dirty false A2)) by (apply (C94_steps reserve A1 _ DI); eauto 8). unfold FlushHistorySpec.flushes in *. congruence. }
  pose proof (vc_laid _ _ _ _ _ _ _ _ _ _ VC) as LO1. pose proof (co_end _ _ (ao_core _ _ _ _ (lo_arch _ _ _ _ _ LO1))) as C0. change (z_alloc (ca_zim (fa_arch A'))) with (fa_alloc A') in C0.
  pose proof S1 as (DA & CP & MP).
  assert (SAME : fa_hdr A' = fa_hdr Ah /\ fa_alloc A' = fa_alloc Ah).
  { rewrite EA. unfold FlushCrashSpec.from_header in Q. inversion Q as [|? ? ? Ac ? fs1 E1 P1]; subst. inversion P1 as [|? ? ? At ? fs2 E2 P2]; subst. inversion P2; subst.
    unfold update_checksum in E1. destruct (calculate_checksum _ _ _ Ah); [|discriminate E1]. injection E1 as <-. unfold flush_truncate in E2. injection E2 as <-. destruct truncate; split; reflexivity. }
  destruct SAME as (SH1 & SH2). rewrite SH1, SH2 in CP. rewrite SH2 in C0.
  destruct (last_steps Ah A2 fs Q CP C0) as ((f2 & E2) & CE & KA).
  assert (FF : In (fa_file A') fs).
  { rewrite EA. change (fa_file (fa_set_dirty false A2)) with (fa_file A2). clear - Q. induction Q; [left; reflexivity|right; assumption]. }
  assert (KE : keeps (fa_file A') g (fun x => in_use (fa_alloc A') x)).
  { intros x HX HU. rewrite SH2 in HU. pose proof HU as (HU1 & _). assert (HL : 0 <= x < zlen (fa_file Ah)) by lia.
    destruct (MX (Z.to_nat x)) as (f' & I1 & ->); [unfold zlen in HL; lia|]. rewrite (KA f' I1 x HL HU). symmetry. exact (KA _ FF x HL HU). }
  pose proof (laid_bytes _ _ _ _ _ _ LO1 KE) as LG.
  destruct (found_again fuel dc new_decomp new_comp comp flush depth kd Stream md5 feed digest process_blob CD reserve mx A' cells1 L1 _ g w sc sp VC S1 R1 S0 (SA _ _ LG) KE) as (B & E & _ & SB). eauto.
Qed.

(** *** C94, behind the header: an archive that shows a table is changed in any
    of the ways of C65, so that something is marked as modified, and flushed.  The
    program ends after the header was written.  Whatever part of what was
    written since has reached the disk, the file that is found opens, and shows
    the table with all changes. *)
Theorem C94_after_header_partial : forall reserve n A cells L V ops A1 Ah A2 A' fs0 fs g w sc sp,
  laid_out Stream reserve A cells L -> fresh_strategy (zs_comp (fa_state A)) -> fresh_strategy (zs_plain (fa_state A)) ->
  fa_redirects A = [] -> fa_main A = None -> (is_dirty A = false -> settled A) ->
  shows A V -> runs reserve n A V ops A1 -> vadds ops <= n -> runs reserve n A1 (vsteps V ops) [VFlush] A' -> is_dirty A1 = true ->
  proceeds (to_header reserve) A1 Ah fs0 -> proceeds from_header Ah A2 fs -> mixed (fa_file Ah) fs g -> suffices fuel Stream reserve (fa_set_file g A') ->
  exists B, opens g w sc sp = Ok B /\ shows B (vsteps V ops).
Proof.
  intros reserve n A cells L V ops A1 Ah A2 A' fs0 fs g w sc sp LO F1 F2.
  set (mx := Z.max (Z.max (limit_of (zs_comp (fa_state A))) (limit_of (zs_plain (fa_state A)))) (vhighest (ops ++ [VFlush]))).
  apply (after_header_ends reserve mx n A cells L V ops A1 Ah A2 A' fs0 fs g w sc sp LO).
  - apply fresh_pendany; [exact F1|lia].
  - apply fresh_pendany; [exact F2|lia].
  - eapply vlimited_more; [|apply vhighest_limits]. lia.
Qed.
(** The same for an archive that has been created. *)
Theorem C94_after_header_new_partial : forall r u sc0 sp0 n A ops A1 Ah A2 A' fs0 fs g w sc sp,
  0 <= r -> zlen u = 16 -> fresh_strategy sc0 -> fresh_strategy sp0 ->
  init_new fuel new_comp comp flush depth (Some r) u sc0 sp0 = Ok A -> runs (Some r) n A empty_view ops A1 -> vadds ops <= n -> runs (Some r) n A1 (vsteps empty_view ops) [VFlush] A' -> is_dirty A1 = true ->
  proceeds (to_header (Some r)) A1 Ah fs0 -> proceeds from_header Ah A2 fs -> mixed (fa_file Ah) fs g -> suffices fuel Stream (Some r) (fa_set_file g A') ->
  exists B, opens g w sc sp = Ok B /\ shows B (vsteps empty_view ops).
Proof.
  intros r u sc0 sp0 n A ops A1 Ah A2 A' fs0 fs g w sc sp Hr HU F1 F2 IN R. set (mx := Z.max (Z.max (limit_of sc0) (limit_of sp0)) (vhighest (ops ++ [VFlush]))).
  destruct (vruns_ends _ _ _ _ _ _ _ _ _ _ _ _ _ _ _ _ _ _ _ _ _ R) as (((F0 & _) & _) & _).
  destruct (created fuel dc new_decomp new_comp comp flush depth Stream CD mx r Hr F0 u sc0 sp0 A HU F1 F2) as (cells & L & LO & P1 & P2 & B1 & B2 & DI & EU & EA & ZL & UU); [lia|lia|exact IN|].
  pose proof (ao_entries _ _ _ _ (lo_arch _ _ _ _ _ LO)) as CS.
  assert (SH : shows A empty_view).
  { intros x NLI e G. apply (lookup_iff _ _ _ _ CS) in G as (G1 & G2). apply (in_map full_url) in G1. rewrite EU, G2 in G1. destruct G1 as [G1|[]]. apply NLI. left. congruence. }
  assert (LM : Forall (vlimited mx) (ops ++ [VFlush])) by (eapply vlimited_more; [|apply vhighest_limits]; lia).
  exact (after_header_ends (Some r) mx n A cells L empty_view ops A1 Ah A2 A' fs0 fs g w sc sp LO P1 P2 LM B1 B2 ltac:(intro Q; congruence) SH R).
Qed.
(** ** Before the pointer lists *)
Definition adds_of (its : list (item * bytes * bool)) : list vop := map (fun '(it, d, u) => VAdd it d u) its.
Definition sops_of (its : list (item * bytes * bool)) : list sop := map (fun '(it, d, u) => AddItem it d u) its.
Lemma passes_snoc : forall z ops z1 fs, passes z ops z1 fs -> forall o z2, perform_sop fuel new_comp comp flush depth z1 o = (Ok tt, z2) -> passes z (ops ++ [o]) z2 (fs ++ [file_of z2]).
Proof.
  induction 1 as [z|z o z1 ops z' fs E P IH]; intros o' z2 E2; cbn [app]; [econstructor; [exact E2|constructor]|]. econstructor; [exact E|]. apply IH. exact E2.
Qed.
Lemma passes_end : forall mx z ops z' fs, passes z ops z' fs -> forall lo a0 cells0 L0 done cells L Pd Pc Pp, sinv fuel Stream mx lo a0 cells0 L0 z done cells L Pd Pc Pp ->
  room lo cells0 L0 (done ++ added_by ops) -> Forall (fun x => item_ok fuel (fst x) (snd x)) (added_by ops) -> zlen (ml_types (sa_mimes (zs_arch z'))) <= 65535 ->
  exists done' cells' L' Pd' Pc' Pp', sinv fuel Stream mx lo a0 cells0 L0 z' done' cells' L' Pd' Pc' Pp'.
Proof.
  induction 1 as [z|z o z1 ops z' fs E P IH]; intros lo a0 cells0 L0 done cells L Pd Pc Pp SI RO OK B3; [eauto 8|].
  rewrite (added_cons o ops), app_assoc in *. apply Forall_app in OK as (OK1 & OK2).
  pose proof (mextends_len _ _ (passes_mimes fuel new_comp comp flush depth _ _ _ _ P)).
  destruct (sinv_step fuel dc new_decomp new_comp comp flush depth Stream CD mx lo _ _ _ _ _ _ _ _ _ _ o z1 SI (room_part _ _ _ _ _ RO) OK1) as (cells1 & L1 & Pd1 & Pc1 & Pp1 & SI1 & _); [lia|exact E|].
  eapply IH; eassumption.
Qed.
Lemma buffer_empty : forall A A', fa_redirects A = [] -> fa_main A = None -> flush_buffer depth process_blob rounds A = (Ok tt, A') -> fa_state A' = fa_state A.
Proof.
  intros A A' N1 N2 E. unfold flush_buffer, finalize, apply_redirects, mbind in E. rewrite N1, N2 in E. destruct rounds as [|k]; cbn [apply_loop] in E; [discriminate E|].
  cbn in E. injection E as <-. destruct A as [[[[[] ? ?] ?] ? ?] ? ? ? ?]. reflexivity.
Qed.
Lemma articles_keep : forall reserve A cells L A', laid_out Stream reserve A cells L -> ample fuel (fa_arch A) (blobs_of L) -> (0 < fuel)%nat -> 4 * zlen (pl_ptrs (z_atpl (fa_zim A))) < Z.of_nat fuel ->
  flush_articles fuel dc new_decomp new_comp comp flush kd A = (Ok tt, A') -> keeps (fa_file A) (fa_file A') (fun x => in_use (fa_alloc A) x).
Proof.
  intros reserve A cells L A' LO AM HF ZF E. unfold flush_articles in E. destruct (pl_dirty (z_atpl (fa_zim A))) eqn:DI; cbn [negb] in E; [|injection E as <-; apply keeps_refl].
  destruct (pl_flush 4 (z_atpl (fa_zim A))) as [[data l']|x] eqn:PF; [|discriminate E]. destruct (pl_flush_inv _ _ _ _ PF ltac:(lia)) as (_ & ZD & _). unfold ptrs_disk_size in ZD.
  unfold mbind in E. destruct (set_listing fuel dc new_decomp new_comp comp flush kd URL_ARTICLE_TITLE_INDEX data A) as [[x|x] A1] eqn:SL; [|discriminate E]. injection E as <-.
  change (fa_file (fa_set_zim (set_atpl l' (fa_zim A1)) A1)) with (fa_file A1).
  destruct (lo_listings _ _ _ _ _ LO) as (c & b & (e & bl & GE & EK & EX & EB & _) & _). unfold set_listing in SL. rewrite GE, EK in SL.
  set (h := [ESet b (mem_source data) data]) in *.
  assert (G : exists r, perform_cop fuel dc new_decomp new_comp comp flush kd (fa_arch A) (CEdit c h false) = (r, fa_arch A1)).
  { cbn [perform_cop]. destruct (edited fuel dc new_decomp kd (fa_arch A) c h) as [o|y]; [|discriminate SL]. change (told_number c false) with (@None Z).
    destruct (write_cluster fuel new_comp comp flush (stored_ops dc new_decomp fuel) None (fa_arch A) o) as [r [a o']]. exists r.
    injection SL as _ <-. reflexivity. }
  destruct G as (r & G).
  refine (bytes_ok fuel dc new_decomp new_comp comp flush kd Stream CD (fa_arch A) cells L (CEdit c h false) r (fa_arch A1) HF (lo_arch _ _ _ _ _ LO) AM _ _ G).
  - exists bl. split; [exact EX|]. split.
    + cbn. split; [split; [apply mem_delivers; lia|lia]|exact Logic.I].
    + cbn. split; [intros []|exact Logic.I].
  - cbn. apply present_blobs. exact (lo_present _ _ _ _ _ LO).
Qed.

Lemma before_lists_ends : forall reserve mx n A cells L V ops A' its A2 A3 A5 fs0 fs g w sc sp,
  laid_out Stream reserve A cells L -> pendany fuel mx (zs_comp (fa_state A)) [] -> pendany fuel mx (zs_plain (fa_state A)) [] -> Forall (vlimited mx) (ops ++ [VFlush]) ->
  fa_redirects A = [] -> fa_main A = None -> (is_dirty A = false -> settled A) ->
  shows A V -> runs reserve n A V (ops ++ [VFlush]) A' -> vadds ops <= n -> (forall u p t, vsteps V ops u = Some p -> pg_body p <> Link t) ->
  runs reserve n A' (vsteps V ops) (adds_of its) A2 -> passes (fa_state A') (sops_of its) (fa_state A2) fs0 -> zlen its <= n ->
  Forall (fun x => item_ok fuel (fst x) (snd x)) (map fst its) -> NoDup (urls_of (map fst its)) ->
  (forall u, In u (urls_of (map fst its)) -> vsteps V ops u = None /\ ~ listing (fa_zim A') u) ->
  runs reserve n A2 (vsteps V (ops ++ adds_of its)) [VFlush] A3 ->
  proceeds (firstn 5 (to_header reserve)) A2 A5 fs -> mixed (fa_file A') (fs0 ++ fs) g -> suffices fuel Stream reserve (fa_set_file g A') ->
  exists B, opens g w sc sp = Ok B /\ shows B (vsteps V ops).
Proof.
  intros reserve mx n A cells L V ops A' its A2 A3 A5 fs0 fs g w sc sp LO PY PZ LM N1 N2 SE SH R Z NL R2 P ZI OK ND FR R3 Q MX (S0 & SA & _).
  destruct (vruns_ends _ _ _ _ _ _ _ _ _ _ _ _ _ _ _ _ _ _ _ _ _ R) as (((_ & FA & _) & _) & _).
  assert (T : table (fa_zim A) (map snd cells) (blobs_of L) (ml_types (fa_mimes A)) [] (fa_redirects A) V).
  { rewrite N1. exact (shows_table fuel dc new_decomp new_comp comp flush kd Stream reserve md5 feed digest process_blob CD A cells L V LO (FA _ _ LO) SH). }
  destruct (view_history fuel dc new_decomp new_comp comp flush depth kd Stream reserve md5 feed digest truncate process_blob rounds CD HO mx n A V ops VFlush A' cells L R I LO) as (cells1 & L1 & VC & S1 & R1); try assumption.
  { split; assumption. }
  pose proof (vc_laid _ _ _ _ _ _ _ _ _ _ VC) as LO1. pose proof (vc_table _ _ _ _ _ _ _ _ _ _ VC) as T1. rewrite R1 in T1. pose proof (laid_consistent _ _ _ _ _ LO1) as CS1.
  pose proof (no_redirects fuel Stream reserve mx A' cells1 L1 _ VC R1 NL) as NR. destruct (vcore_count fuel Stream reserve md5 feed digest _ _ _ _ _ _ _ VC) as (C1 & C2).
  assert (CN : counts n A').
  { clear - R. remember (ops ++ [VFlush]) as l eqn:E. clear E. induction R; assumption. }
  destruct CN as (CN1 & CN2).
  assert (EAB : added_by (sops_of its) = map fst its).
  { clear. unfold added_by. induction its as [|((it, d), u) r IH]; [reflexivity|]. cbn. f_equal. exact IH. }
  assert (SI : sinv fuel Stream mx 0 (fa_arch A') cells1 L1 (fa_state A') [] cells1 L1 [] [] []).
  { constructor; [apply grown_refl; exact (lo_arch _ _ _ _ _ LO1)|exact (vc_comp _ _ _ _ _ _ _ _ _ _ VC)|exact (vc_plain _ _ _ _ _ _ _ _ _ _ VC)|apply Permutation_refl|constructor]. }
  assert (EAF : added_by (sops_of its ++ [FlushItems]) = map fst its) by (unfold added_by; rewrite map_app, concat_app; cbn; rewrite app_nil_r; exact EAB).
  assert (RO : room 0 cells1 L1 ([] ++ added_by (sops_of its ++ [FlushItems]))).
  { rewrite EAF. cbn [app]. split; [exact ND|]. pose proof (zlen_nonneg L1). assert (ZM : zlen (map fst its) = zlen its) by apply zlen_map. split; [|split; [lia|split; [lia|lia]]]. intros u Hu. destruct (FR u Hu) as (V0 & NLI). intros e He Qu.
    assert (G : get_entry_by_full_url (fa_zim A') u = Ok e) by (apply (lookup_iff _ _ _ _ CS1); auto). destruct (tb_only _ _ _ _ _ _ _ T1 _ _ G); congruence. }
  (* the archive with the new items *)
  pose proof (vcore_wcore _ _ _ _ _ _ _ _ _ _ VC) as WC. pose proof (mains_none _ _ (eq_ind _ (fun l => mains (fa_main A') l _) (vc_main _ _ _ _ _ _ _ _ _ _ VC) _ R1)) as M1.
  assert (VA : vadds (adds_of its) = zlen its). { clear. induction its as [|((it, d), u) r IH]; [reflexivity|]. cbn [adds_of map]. rewrite vadds_cons, zlen_cons. fold (adds_of r). rewrite IH. reflexivity. }
  destruct (vruns_step fuel dc new_decomp new_comp comp flush depth kd Stream reserve md5 feed digest truncate process_blob rounds CD HO mx _ _ _ _ _ R2 cells1 L1 [] [] WC ltac:(unfold vclean; auto))
    as (cells2 & L2 & Pc2 & Pp2 & WC2 & CL2 & Z2).
  { unfold waiting. rewrite R1, VA. change (zlen (@nil pitem ++ [])) with 0. change (zlen (@nil rop)) with 0. lia. }
  { apply Forall_forall. intros o Ho. unfold adds_of in Ho. apply in_map_iff in Ho as (((it, d), u) & <- & _). exact Logic.I. }
  assert (BF : fa_redirects A2 = [] /\ fa_main A2 = None).
  { clear - R2 R1 M1. remember (adds_of its) as l eqn:El. revert its El. induction R2 as [X VX W CT|X VX o B1 l X2 W CT FS OK E R IH]; intros its El; [auto|].
    destruct its as [|((it, d), u) r]; [discriminate El|]. injection El as -> ->. cbn [perform_vop perform_zop] in E. unfold fa_add_item in E.
    destruct (zim_add_item _ _ _ _ _ _ _ _) as [[x|x] zz]; [|discriminate E]. injection E as <-. eapply IH; [exact R1|exact M1|unfold adds_of; reflexivity]. }
  destruct BF as (NB1 & NB2). unfold waiting in Z2. rewrite NB1, R1, VA in Z2. change (zlen (@nil pitem ++ [])) with 0 in Z2. change (zlen (@nil rop)) with 0 in Z2.
  inversion R3 as [|? ? ? A4 ? ? W4 CT4 FS4 OK4 E4 R4]; subst. clear R4 E4 OK4.
  destruct W4 as (_ & B3).
  (* the steps *)
  unfold FlushCrashSpec.to_header in Q. cbn [firstn] in Q.
  inversion Q as [|? ? ? B1 ? fs1 E1 Q1]; subst. inversion Q1 as [|? ? ? B2 ? fs2 E2 Q2]; subst. inversion Q2 as [|? ? ? B4 ? fs3 E3 Q3]; subst.
  inversion Q3 as [|? ? ? B5 ? fs4 E5 Q4]; subst. inversion Q4 as [|? ? ? B6 ? fs5 E6 Q5]; subst. inversion Q5; subst. clear Q Q1 Q2 Q3 Q4 Q5.
  pose proof WC2 as [LO2 PC2 PP2 TY2 MN2 TT2].
  pose proof (hcore_begin fuel Stream reserve mx A2 cells2 L2 Pc2 Pp2 LO2 PC2 PP2 TY2) as HV.
  destruct (header_step _ _ _ _ _ _ _ _ _ _ _ _ _ _ _ HV E1) as (HV1 & ES & _). destruct (hv_buffer _ _ _ _ _ _ _ _ _ _ _ _ _ _ HV1) as (ER1 & EM1).
  assert (EMM : fa_mimes B1 = fa_mimes A2) by (change (fa_mimes B1) with (sa_mimes (zs_arch (fa_state B1))); rewrite ES; reflexivity).
  assert (EZ1 : fa_zim B1 = fa_zim A2) by (change (fa_zim B1) with (ca_zim (sa_arch (zs_arch (fa_state B1)))); rewrite ES; reflexivity).
  assert (WB1 : wcore fuel Stream reserve mx B1 cells2 L2 Pc2 Pp2 (vsteps (vsteps V ops) (adds_of its))).
  { constructor; [exact (hv_laid _ _ _ _ _ _ _ _ _ _ _ _ _ _ HV1)|rewrite ES; exact PC2|rewrite ES; exact PP2|rewrite EMM; exact TY2|rewrite ER1, EM1; exact MN2|rewrite EZ1, EMM, ER1; exact TT2]. }
  destruct (wcore_count _ _ _ md5 feed digest _ _ _ _ _ _ _ WC2) as (K1 & K2). destruct CT4 as (CT1 & CT2). rewrite K1 in CT1. rewrite K2 in CT2.
  destruct (wstrategies_step fuel dc new_decomp new_comp comp flush depth Stream reserve CD mx B1 cells2 L2 Pc2 Pp2 _ B2 WB1 ltac:(lia) ltac:(lia)) as (cells3 & L3 & VC3 & ZC3 & ER3 & EM3); [rewrite EMM; exact B3|exact E2|].
  assert (RB2 : fa_redirects B2 = []) by (rewrite ER3, ER1; exact NB1). assert (MB2 : fa_main B2 = None) by (rewrite EM3, EM1; exact NB2).
  destruct (vbuffer_step fuel depth Stream reserve process_blob rounds mx B2 cells3 L3 _ B4 VC3 ltac:(rewrite RB2; change (zlen (@nil rop)) with 0; lia) E3) as (cells4 & VC4 & _).
  pose proof (buffer_empty B2 B4 RB2 MB2 E3) as ST4.
  destruct FS4 as (FS4 & _). destruct (FS4 B4) as ((_ & SB & SAT & _) & _).
  { unfold mbind. rewrite E1. unfold flush_content, mbind. rewrite E2. exact E3. }
  pose proof (vc_laid _ _ _ _ _ _ _ _ _ _ VC4) as LO4. destruct (sync_main_ok _ _ B4 cells4 L3 B5 LO4 E5) as (LO5 & _ & hh & EB5 & _).
  assert (KA : keeps (fa_file B5) (fa_file A5) (fun x => in_use (fa_alloc B5) x)).
  { refine (articles_keep reserve B5 cells4 L3 A5 LO5 _ S0 _ E6); [|rewrite EB5; exact SAT]. rewrite EB5. exact (SB _ _ LO4). }
  (* what the old archive occupies *)
  assert (EF2 : perform_sop fuel new_comp comp flush depth (fa_state A2) FlushItems = (Ok tt, fa_state B2)).
  { cbn [perform_sop]. rewrite <- ES. unfold flush_strategies in E2. destruct (zim_flush_items _ _ _ _ _ (fa_state B1)) as [r z]. injection E2 as -> <-. reflexivity. }
  pose proof (passes_snoc _ _ _ _ P _ _ EF2) as PS.
  assert (MB : zlen (ml_types (sa_mimes (zs_arch (fa_state B2)))) <= 65535).
  { pose proof (mextends_len _ _ (passes_mimes fuel new_comp comp flush depth _ _ _ _ PS)) as _. unfold perform_sop, zim_flush_items in EF2. destruct (any_flush _ _ _ _ _ _) as [[[]|e] [s y]] eqn:EX; [|discriminate EF2].
    destruct (any_flush _ _ _ _ _ (s, _)) as [r2 [s2 y2]] eqn:EY. injection EF2 as -> <-. cbn [zs_arch]. rewrite (any_flush_mimes _ _ _ _ _ _ _ _ _ _ EY), (any_flush_mimes _ _ _ _ _ _ _ _ _ _ EX). exact B3. }
  pose proof (passes_keep fuel dc new_decomp new_comp comp flush depth Stream CD mx _ _ _ _ PS 0 _ _ _ _ _ _ _ _ _ SI RO ltac:(rewrite EAF; exact OK) MB) as KP.
  destruct (passes_end mx _ _ _ _ PS 0 _ _ _ _ _ _ _ _ _ SI RO ltac:(rewrite EAF; exact OK) MB) as (dn & cells6 & L6 & Pd6 & Pc6 & Pp6 & SI6). pose proof (gr_still _ _ _ _ _ _ _ _ _ _ (si_grown _ _ _ _ _ _ _ _ _ _ _ _ _ _ SI6)) as STILL.
  assert (US : forall x, in_use (fa_alloc A') x -> still (ca_alloc (fa_arch A')) cells1 x). { intros x Hx. split; [exact Hx|]. intros c Hc Qc. rewrite (NR c Hc) in Qc. discriminate Qc. }
  assert (FB1 : fa_file B1 = file_of (fa_state A2)) by (change (fa_file B1) with (file_of (fa_state B1)); rewrite ES; reflexivity).
  assert (FB4 : fa_file B4 = file_of (fa_state B2)) by (change (fa_file B4) with (file_of (fa_state B4)); rewrite ST4; reflexivity).
  assert (FB5 : fa_file B5 = file_of (fa_state B2)) by (rewrite EB5; exact FB4).
  assert (AB5 : fa_alloc B5 = ca_alloc (sa_arch (zs_arch (fa_state B2)))) by (rewrite EB5; change (ca_alloc (sa_arch (zs_arch (fa_state B4))) = ca_alloc (sa_arch (zs_arch (fa_state B2)))); rewrite ST4; reflexivity).
  assert (LAST : In (file_of (fa_state A2)) fs0). { clear - P. induction P; [left; reflexivity|right; assumption]. }
  assert (ALL : forall f, In f (fs0 ++ [fa_file A2; fa_file B1; fa_file B2; fa_file B4; fa_file B5; fa_file A5]) -> keeps (fa_file A') f (still (ca_alloc (fa_arch A')) cells1)).
  { intros f Hf. apply in_app_or in Hf as [Hf|Hf]; [apply KP; apply in_or_app; left; exact Hf|].
    assert (KB2 : keeps (fa_file A') (file_of (fa_state B2)) (still (ca_alloc (fa_arch A')) cells1) /\ zlen (fa_file A') <= zlen (file_of (fa_state B2))) by (apply KP; apply in_or_app; right; left; reflexivity).
    destruct Hf as [<-|[<-|[<-|[<-|[<-|[<-|[]]]]]]].
    - apply KP. apply in_or_app. left. exact LAST.
    - rewrite FB1. apply KP. apply in_or_app. left. exact LAST.
    - exact (proj1 KB2).
    - rewrite FB4. exact (proj1 KB2).
    - rewrite FB5. exact (proj1 KB2).
    - intros x HX HS. rewrite FB5 in KA. rewrite (KA x); [apply (proj1 KB2); assumption|lia|]. rewrite AB5. exact (proj1 (STILL x HS)). }
  assert (KE : keeps (fa_file A') g (fun x => in_use (fa_alloc A') x)).
  { intros x HX HU. destruct (MX (Z.to_nat x)) as (f' & I1 & ->); [unfold zlen in HX; lia|]. exact (ALL f' I1 x HX (US x HU)). }
  pose proof (laid_bytes _ _ _ _ _ _ LO1 KE) as LG.
  destruct (found_again fuel dc new_decomp new_comp comp flush depth kd Stream md5 feed digest process_blob CD reserve mx A' cells1 L1 _ g w sc sp VC S1 R1 S0 (SA _ _ LG) KE) as (B & E & _ & SBB). eauto.
Qed.

(** *** C94, before the pointer lists: an archive that shows a table without links
    was flushed, items have been added to it, and it is flushed again.  The
    program ends before the entry title list and the pointer lists are written.
    Whatever part of what was written since the first flush has reached the
    disk, the file that is found opens, and shows the table of the first flush. *)
Theorem C94_before_lists_partial : forall reserve n A cells L V ops A' its A2 A3 A5 fs0 fs g w sc sp,
  laid_out Stream reserve A cells L -> fresh_strategy (zs_comp (fa_state A)) -> fresh_strategy (zs_plain (fa_state A)) ->
  fa_redirects A = [] -> fa_main A = None -> (is_dirty A = false -> settled A) ->
  shows A V -> runs reserve n A V (ops ++ [VFlush]) A' -> vadds ops <= n -> (forall u p t, vsteps V ops u = Some p -> pg_body p <> Link t) ->
  runs reserve n A' (vsteps V ops) (adds_of its) A2 -> passes (fa_state A') (sops_of its) (fa_state A2) fs0 -> zlen its <= n ->
  Forall (fun x => item_ok fuel (fst x) (snd x)) (map fst its) -> NoDup (urls_of (map fst its)) ->
  (forall u, In u (urls_of (map fst its)) -> vsteps V ops u = None /\ ~ listing (fa_zim A') u) ->
  runs reserve n A2 (vsteps V (ops ++ adds_of its)) [VFlush] A3 ->
  proceeds (firstn 5 (to_header reserve)) A2 A5 fs -> mixed (fa_file A') (fs0 ++ fs) g -> suffices fuel Stream reserve (fa_set_file g A') ->
  exists B, opens g w sc sp = Ok B /\ shows B (vsteps V ops).
Proof.
  intros reserve n A cells L V ops A' its A2 A3 A5 fs0 fs g w sc sp LO F1 F2.
  set (mx := Z.max (Z.max (limit_of (zs_comp (fa_state A))) (limit_of (zs_plain (fa_state A)))) (vhighest (ops ++ [VFlush]))).
  apply (before_lists_ends reserve mx n A cells L V ops A' its A2 A3 A5 fs0 fs g w sc sp LO).
  - apply fresh_pendany; [exact F1|lia].
  - apply fresh_pendany; [exact F2|lia].
  - eapply vlimited_more; [|apply vhighest_limits]. lia.
Qed.
(** The same for an archive that has been created. *)
Theorem C94_before_lists_new_partial : forall r u sc0 sp0 n A ops A' its A2 A3 A5 fs0 fs g w sc sp,
  0 <= r -> zlen u = 16 -> fresh_strategy sc0 -> fresh_strategy sp0 ->
  init_new fuel new_comp comp flush depth (Some r) u sc0 sp0 = Ok A -> runs (Some r) n A empty_view (ops ++ [VFlush]) A' -> vadds ops <= n -> (forall u p t, vsteps empty_view ops u = Some p -> pg_body p <> Link t) ->
  runs (Some r) n A' (vsteps empty_view ops) (adds_of its) A2 -> passes (fa_state A') (sops_of its) (fa_state A2) fs0 -> zlen its <= n ->
  Forall (fun x => item_ok fuel (fst x) (snd x)) (map fst its) -> NoDup (urls_of (map fst its)) ->
  (forall u, In u (urls_of (map fst its)) -> vsteps empty_view ops u = None /\ ~ listing (fa_zim A') u) ->
  runs (Some r) n A2 (vsteps empty_view (ops ++ adds_of its)) [VFlush] A3 ->
  proceeds (firstn 5 (to_header (Some r))) A2 A5 fs -> mixed (fa_file A') (fs0 ++ fs) g -> suffices fuel Stream (Some r) (fa_set_file g A') ->
  exists B, opens g w sc sp = Ok B /\ shows B (vsteps empty_view ops).
Proof.
  intros r u sc0 sp0 n A ops A' its A2 A3 A5 fs0 fs g w sc sp Hr HU F1 F2 IN R. set (mx := Z.max (Z.max (limit_of sc0) (limit_of sp0)) (vhighest (ops ++ [VFlush]))).
  destruct (vruns_ends _ _ _ _ _ _ _ _ _ _ _ _ _ _ _ _ _ _ _ _ _ R) as (((F0 & _) & _) & _).
  destruct (created fuel dc new_decomp new_comp comp flush depth Stream CD mx r Hr F0 u sc0 sp0 A HU F1 F2) as (cells & L & LO & P1 & P2 & B1 & B2 & DI & EU & EA & ZL & UU); [lia|lia|exact IN|].
  pose proof (ao_entries _ _ _ _ (lo_arch _ _ _ _ _ LO)) as CS.
  assert (SH : shows A empty_view).
  { intros x NLI e G. apply (lookup_iff _ _ _ _ CS) in G as (G1 & G2). apply (in_map full_url) in G1. rewrite EU, G2 in G1. destruct G1 as [G1|[]]. apply NLI. left. congruence. }
  assert (LM : Forall (vlimited mx) (ops ++ [VFlush])) by (eapply vlimited_more; [|apply vhighest_limits]; lia).
  exact (before_lists_ends (Some r) mx n A cells L empty_view ops A' its A2 A3 A5 fs0 fs g w sc sp LO P1 P2 LM B1 B2 ltac:(intro Q; congruence) SH R).
Qed.
End Crash.

(** ** The full statement, for all points in between, is false: the url pointer
    list may be written over the cluster pointer list that the header in the
    file, which is still the old one, refers to. *)
Definition C94_full_statement : Prop :=
  forall fuel D (dc : decomp D) new_decomp K new_comp comp flush depth kd Stream H (md5 : H) feed digest truncate process_blob rounds,
  codec_ok (K:=K) dc new_decomp new_comp comp flush Stream -> hash_ok feed digest ->
  forall r u sc0 sp0 n A ops A1 more A2 A3 A4 fs g w sc sp, 0 <= r -> zlen u = 16 -> fresh_strategy sc0 -> fresh_strategy sp0 ->
  init_new fuel new_comp comp flush depth (Some r) u sc0 sp0 = Ok A ->
  vruns fuel dc new_decomp new_comp comp flush depth kd Stream md5 feed digest (Some r) truncate process_blob rounds n A empty_view (ops ++ [VFlush]) A1 ->
  vruns fuel dc new_decomp new_comp comp flush depth kd Stream md5 feed digest (Some r) truncate process_blob rounds n A1 (vsteps empty_view ops) (more ++ [VFlush]) A3 ->
  vruns fuel dc new_decomp new_comp comp flush depth kd Stream md5 feed digest (Some r) truncate process_blob rounds n A1 (vsteps empty_view ops) more A2 ->
  vadds (ops ++ more) <= n -> is_dirty A2 = true ->
  proceeds (to_header fuel dc new_decomp new_comp comp flush depth kd (Some r) process_blob rounds ++ from_header md5 feed digest truncate) A2 A4 fs ->
  mixed (fa_file A2) fs g -> open_zim fuel dc new_decomp new_comp comp flush depth kd g w sc sp <> Err Diverge ->
  exists B, open_zim fuel dc new_decomp new_comp comp flush depth kd g w sc sp = Ok B /\
    (shows fuel dc new_decomp kd B (vsteps empty_view ops) \/ shows fuel dc new_decomp kd B (vsteps empty_view (ops ++ more))).

(** *** Following the steps of the sample *)
Fixpoint step_run (l : list (M farchive unit)) (A : farchive) : option (farchive * list bytes) :=
  match l with
  | [] => Some (A, [fa_file A])
  | m :: r => match m A with (Ok _, A1) => match step_run r A1 with Some (A', fs) => Some (A', fa_file A :: fs) | None => None end | (Err _, _) => None end
  end.
Lemma step_run_ok : forall l A A' fs, step_run l A = Some (A', fs) -> proceeds l A A' fs.
Proof.
  induction l as [|m r IH]; intros A A' fs E; cbn [step_run] in E; [injection E as <- <-; constructor|].
  destruct (m A) as [[[]|e] A1] eqn:EM; [|discriminate E]. destruct (step_run r A1) as [[A2 fs2]|] eqn:ER; [|discriminate E]. injection E as <- <-. econstructor; [exact EM|]. apply IH. exact ER.
Qed.
Notation sample_to_header := (to_header sample_fuel passthrough plain_new plain_new_comp plain_comp plain_flush 6 KRemembering (Some 50) (fun _ => ret tt) 3).
Notation sample_from_header := (from_header 0 sample_feed sample_digest true).
Definition first_b : list vop := [VAdd item_b [x42] false].
Definition then_c : list vop := [VAdd item_c [x43] true].
(** An item is added and the archive is flushed, another one is added: the archives after that, and after a second flush. *)
Definition twice_of (r : res farchive) : option (farchive * farchive * farchive) :=
  match r with
  | Ok A => match sample_vrun 100 sample_dom A empty_view (first_b ++ [VFlush]) with
            | Some A1 => match sample_vrun 100 sample_dom A1 (vsteps empty_view first_b) then_c, sample_vrun 100 sample_dom A1 (vsteps empty_view first_b) (then_c ++ [VFlush]) with
                         | Some A2, Some A3 => Some (A1, A2, A3)
                         | _, _ => None
                         end
            | None => None
            end
  | Err _ => None
  end.
Lemma first_dom : forall x, vsteps empty_view first_b x <> None -> In x sample_dom.
Proof.
  intros x Q. unfold first_b, vsteps in Q. cbn [fold_left vstep] in Q. unfold vput, empty_view in Q. destruct (ueqb x (item_url item_b)) eqn:EU; [|congruence]. apply ueqb_eq in EU. subst x. vm_compute. tauto.
Qed.
Lemma twice_of_parts : forall r A1 A2 A3, twice_of r = Some (A1, A2, A3) ->
  exists A, r = Ok A /\ sample_vruns 100 A empty_view (first_b ++ [VFlush]) A1 /\ sample_vruns 100 A1 (vsteps empty_view first_b) then_c A2 /\ sample_vruns 100 A1 (vsteps empty_view first_b) (then_c ++ [VFlush]) A3.
Proof.
  intros [A|e] A1 A2 A3 E; [|discriminate E]. unfold twice_of in E. destruct (sample_vrun 100 sample_dom A empty_view (first_b ++ [VFlush])) as [X1|] eqn:E1; [|discriminate E].
  destruct (sample_vrun 100 sample_dom X1 (vsteps empty_view first_b) then_c) as [X2|] eqn:E2; [|discriminate E].
  destruct (sample_vrun 100 sample_dom X1 (vsteps empty_view first_b) (then_c ++ [VFlush])) as [X3|] eqn:E3; [|discriminate E]. injection E as <- <- <-.
  assert (LE : (200 <= sample_fuel)%nat) by (unfold sample_fuel; lia). exists A. split; [reflexivity|]. repeat split.
  - refine (sample_vrun_ok 100 sample_dom _ _ _ _ _ _ _ E1); [intros y Q; elim Q; reflexivity|intros x Q; vm_compute in Q; vm_compute; tauto|].
    repeat (constructor; [cbn [side_ok]; first [exact I|eapply larger_ok; [first [exact item_b_ok|exact item_c_ok]|exact LE]]|]). constructor.
  - refine (sample_vrun_ok 100 sample_dom _ _ _ _ first_dom _ _ E2); [intros x Q; vm_compute in Q; vm_compute; tauto|].
    repeat (constructor; [cbn [side_ok]; first [exact I|eapply larger_ok; [first [exact item_b_ok|exact item_c_ok]|exact LE]]|]). constructor.
  - refine (sample_vrun_ok 100 sample_dom _ _ _ _ first_dom _ _ E3); [intros x Q; vm_compute in Q; vm_compute; tauto|].
    repeat (constructor; [cbn [side_ok]; first [exact I|eapply larger_ok; [first [exact item_b_ok|exact item_c_ok]|exact LE]]|]). constructor.
Qed.
Lemma one_mixed : forall f fs g, In g fs -> mixed f fs g.
Proof. intros f fs g I0 x _. exists g. auto. Qed.

(** *** The counterexample: the program ends before the header is written. *)
Definition unreadable (x : option (farchive * farchive * farchive)) : bool :=
  match x with
  | Some (A1, A2, A3) => is_dirty A2 &&
      match step_run (sample_to_header ++ sample_from_header) A2 with
      | Some (A4, fs) => match nth_error fs 9 with
                         | Some g => match sample_open g false sample_simple sample_simple with Err IOErr => true | _ => false end
                         | None => false
                         end
      | None => false
      end
  | None => false
  end.
Lemma twice_unreadable : unreadable (twice_of sample_created) = true.
Proof. vm_compute. reflexivity. Qed.
Theorem C94_refuted : ~ C94_full_statement.
Proof.
  intro F. pose proof twice_unreadable as UR. destruct (twice_of sample_created) as [[[A1 A2] A3]|] eqn:ET; [|discriminate UR].
  destruct (twice_of_parts _ _ _ _ ET) as (A & EA & R1 & R2 & R3). clear ET. unfold unreadable in UR. apply andb_true_iff in UR as (DI & UR).
  destruct (step_run (sample_to_header ++ sample_from_header) A2) as [[A4 fs]|] eqn:ES; [|discriminate UR]. apply step_run_ok in ES.
  destruct (nth_error fs 9) as [g|] eqn:EG; [|discriminate UR]. apply nth_error_In in EG. destruct (sample_open g false sample_simple sample_simple) as [B|e] eqn:EO; [discriminate UR|].
  destruct sample_zops_ok as (_ & _ & _ & FS & FM).
  destruct (F sample_fuel _ passthrough plain_new _ plain_new_comp plain_comp plain_flush 6%nat KRemembering plain_stream _ 0 sample_feed sample_digest true (fun _ => ret tt) 3%nat plain_codec sample_hash
    50 sample_uuid sample_simple sample_mime 100 A first_b A1 then_c A2 A3 A4 fs g false sample_simple sample_simple ltac:(lia) eq_refl FS FM EA R1 R3 R2 ltac:(vm_compute; discriminate) DI ES (one_mixed _ _ _ EG)) as (B & EB & _).
  - intro Q. rewrite Q in EO. injection EO as EO. rewrite <- EO in UR. discriminate UR.
  - congruence.
Qed.

(** *** Cases of the theorems: the same archive, when the program ends after the
    article title list was written, or when the header and half of the checksum
    have reached the disk. *)
Lemma vruns_last : forall n A V ops A' o A3, sample_vruns n A V ops A' -> sample_vruns n A V (ops ++ [o]) A3 -> sample_vruns n A' (vsteps V ops) [o] A3.
Proof.
  intros n A V ops A' o A3 R. revert A3. induction R as [A V W CT|A V p A1 ops A2 W CT FS OK E R IH]; intros A3 R3; [exact R3|].
  cbn [app] in R3. inversion R3 as [|? ? ? B1 ? ? W3 CT3 FS3 OK3 E3 R4]; subst. rewrite E in E3. injection E3 as <-. exact (IH _ R4).
Qed.
Definition before_lists (x : option (farchive * farchive * farchive)) : bool :=
  match x with
  | Some (A1, A2, A3) =>
      match step_run (firstn 5 sample_to_header) A2, pass_run (fa_state A1) [AddItem item_c [x43] true] with
      | Some (A5, fs), Some (z, fs0) => let g := fa_file A5 in small (fa_set_file g A1) && negb (beqb g (fa_file A1)) && existsb (beqb g) fs
      | _, _ => false
      end
  | None => false
  end.
Lemma twice_before : before_lists (twice_of sample_created) = true.
Proof. vm_compute. reflexivity. Qed.
Lemma add_states : forall it d u A A1 z fs, sample_vstep A (VAdd it d u) = (Ok tt, A1) -> pass_run (fa_state A) [AddItem it d u] = Some (z, fs) -> fa_state A1 = z.
Proof.
  intros it d u A A1 z fs E P. cbn [pass_run] in P. unfold perform_vop in E. cbn [perform_zop] in E. unfold fa_add_item in E. cbn [perform_sop] in P.
  destruct (zim_add_item _ _ _ _ _ _ _ _) as [[x|x] zz]; [|discriminate E]. injection E as <-. injection P as <- <-. reflexivity.
Qed.
Example C94_before_example : exists A A1 A2 A5 fs B, sample_created = Ok A /\ sample_vruns 100 A empty_view (first_b ++ [VFlush]) A1 /\ sample_vruns 100 A1 (vsteps empty_view first_b) then_c A2 /\
  proceeds (firstn 5 sample_to_header) A2 A5 fs /\ fa_file A5 <> fa_file A1 /\ sample_open (fa_file A5) true sample_simple sample_simple = Ok B /\
  shows_page sample_fuel passthrough plain_new KRemembering B (item_url item_b) (page_of item_b [x42]) /\ forall e, get_entry_by_full_url (fa_zim B) (item_url item_c) <> Ok e.
Proof.
  pose proof twice_before as TB. destruct (twice_of sample_created) as [[[A1 A2] A3]|] eqn:ET; [|discriminate TB]. destruct (twice_of_parts _ _ _ _ ET) as (A & EA & R1 & R2 & R3). clear ET.
  unfold before_lists in TB. destruct (step_run (firstn 5 sample_to_header) A2) as [[A5 fs]|] eqn:ES; [|discriminate TB]. destruct (pass_run (fa_state A1) _) as [[z fs0]|] eqn:EP; [|discriminate TB].
  cbv zeta in TB. apply andb_true_iff in TB as (TB & T3). apply andb_true_iff in TB as (T1 & T2). apply step_run_ok in ES.
  assert (EZ : fa_state A2 = z). { inversion R2 as [|? ? ? B1 ? ? W CT FS OK E R]; subst. inversion R; subst. eapply add_states; [exact E|exact EP]. }
  apply pass_run_ok in EP. rewrite <- EZ in EP. apply existsb_exists in T3 as (f & I1 & I2). apply beqb_eq in I2. subst f.
  destruct sample_zops_ok as (_ & _ & _ & FS & FM). assert (LE : (200 <= sample_fuel)%nat) by (unfold sample_fuel; lia).
  destruct (C94_before_lists_new_partial sample_fuel passthrough plain_new plain_new_comp plain_comp plain_flush 6%nat KRemembering plain_stream 0 sample_feed sample_digest true (fun _ => ret tt) 3%nat plain_codec sample_hash
    50 sample_uuid sample_simple sample_mime 100 A first_b A1 [(item_c, [x43], true)] A2 A3 A5 fs0 fs (fa_file A5) true sample_simple sample_simple ltac:(lia) eq_refl FS FM EA R1) as (B & EB & SH).
  - vm_compute. discriminate.
  - intros u p t Q. unfold first_b, vsteps in Q. cbn [fold_left vstep] in Q. unfold vput, empty_view in Q. destruct (ueqb u (item_url item_b)); [injection Q as <-; discriminate|discriminate Q].
  - exact R2.
  - exact EP.
  - vm_compute. discriminate.
  - constructor; [|constructor]. eapply larger_ok; [exact item_c_ok|exact LE].
  - vm_compute. repeat constructor. intros [].
  - intros u [<-|[]]. split; [vm_compute; reflexivity|]. apply free_ok. vm_compute. reflexivity.
  - exact (vruns_last _ _ _ _ _ _ _ R2 R3).
  - exact ES.
  - apply one_mixed. apply in_or_app. right. exact I1.
  - apply small_suffices. exact T1.
  - exists A, A1, A2, A5, fs, B. split; [exact EA|]. split; [exact R1|]. split; [exact R2|]. split; [exact ES|].
    split; [intro Q; rewrite (proj2 (beqb_eq _ _) Q) in T2; discriminate T2|]. split; [exact EB|].
    pose proof (SH (item_url item_b) (free_ok _ (item_url item_b) eq_refl)) as S1. pose proof (SH (item_url item_c) (free_ok _ (item_url item_c) eq_refl)) as S2.
    change (vsteps empty_view first_b (item_url item_b)) with (Some (page_of item_b [x42])) in S1. change (vsteps empty_view first_b (item_url item_c)) with (@None page) in S2. auto.
Qed.
Definition after_header (x : option (farchive * farchive * farchive)) : bool :=
  match x with
  | Some (A1, A2, A3) => is_dirty A2 &&
      match step_run sample_to_header A2 with
      | Some (Ah, fs0) => match step_run sample_from_header Ah with
                          | Some (A4, fs) => let g := ztake (zlen (fa_file A4) - 8) (fa_file A4) in
                              (zlen (fa_file Ah) <=? zlen (fa_file A4) - 8) && small (fa_set_file g A3) && existsb (beqb (fa_file A4)) fs
                          | None => false
                          end
      | None => false
      end
  | None => false
  end.
Lemma twice_after : after_header (twice_of sample_created) = true.
Proof. vm_compute. reflexivity. Qed.
Example C94_after_example : exists A A1 Ah A2 A' fs0 fs g B, sample_created = Ok A /\ sample_vruns 100 A empty_view (first_b ++ VFlush :: then_c) A1 /\ sample_vruns 100 A1 (vsteps empty_view (first_b ++ VFlush :: then_c)) [VFlush] A' /\
  proceeds sample_to_header A1 Ah fs0 /\ proceeds sample_from_header Ah A2 fs /\ mixed (fa_file Ah) fs g /\ zlen g = zlen (fa_file A2) - 8 /\ sample_open g true sample_simple sample_simple = Ok B /\
  shows_page sample_fuel passthrough plain_new KRemembering B (item_url item_b) (page_of item_b [x42]) /\ shows_page sample_fuel passthrough plain_new KRemembering B (item_url item_c) (page_of item_c [x43]).
Proof.
  pose proof twice_after as TA. destruct (twice_of sample_created) as [[[A1 A2] A3]|] eqn:ET; [|discriminate TA]. destruct (twice_of_parts _ _ _ _ ET) as (A & EA & R1 & R2 & R3). clear ET.
  unfold after_header in TA. apply andb_true_iff in TA as (DI & TA). destruct (step_run sample_to_header A2) as [[Ah fs0]|] eqn:EH; [|discriminate TA]. destruct (step_run sample_from_header Ah) as [[A4 fs]|] eqn:ES; [|discriminate TA].
  cbv zeta in TA. apply andb_true_iff in TA as (TA & T3). apply andb_true_iff in TA as (T1 & T2). apply step_run_ok in EH, ES. apply existsb_exists in T3 as (f & I1 & I2). apply beqb_eq in I2. subst f.
  set (g := ztake (zlen (fa_file A4) - 8) (fa_file A4)) in *. apply Z.leb_le in T1. pose proof (zlen_nonneg (fa_file Ah)) as Z0.
  assert (MX : mixed (fa_file Ah) fs g). { intros x Hx. exists (fa_file A4). split; [exact I1|]. apply nth_ztake; [lia|]. unfold zlen in *. lia. }
  assert (RR : sample_vruns 100 A empty_view (first_b ++ VFlush :: then_c) A2).
  { change (first_b ++ VFlush :: then_c) with ((first_b ++ [VFlush]) ++ then_c). change (vsteps empty_view first_b) with (vsteps empty_view (first_b ++ [VFlush])) in R2. clear - R1 R2.
    induction R1 as [A V W CT|A V o B1 l A1 W CT FS OK E R IH]; [exact R2|]. cbn [app]. econstructor; eauto. }
  pose proof (vruns_last _ _ _ _ _ _ _ R2 R3) as RF. change (vsteps (vsteps empty_view first_b) then_c) with (vsteps empty_view (first_b ++ VFlush :: then_c)) in RF.
  destruct sample_zops_ok as (_ & _ & _ & FS & FM).
  destruct (C94_after_header_new_partial sample_fuel passthrough plain_new plain_new_comp plain_comp plain_flush 6%nat KRemembering plain_stream 0 sample_feed sample_digest true (fun _ => ret tt) 3%nat plain_codec sample_hash
    50 sample_uuid sample_simple sample_mime 100 A (first_b ++ VFlush :: then_c) A2 Ah A4 A3 fs0 fs g true sample_simple sample_simple ltac:(lia) eq_refl FS FM EA RR ltac:(vm_compute; discriminate) RF DI EH ES MX (small_suffices _ T2)) as (B & EB & SH).
  exists A, A2, Ah, A4, A3, fs0, fs, g, B. split; [exact EA|]. split; [exact RR|]. split; [exact RF|]. split; [exact EH|]. split; [exact ES|]. split; [exact MX|].
  split; [unfold g; rewrite ztake_len by lia; lia|]. split; [exact EB|].
  pose proof (SH (item_url item_b) (free_ok _ (item_url item_b) eq_refl)) as S1. pose proof (SH (item_url item_c) (free_ok _ (item_url item_c) eq_refl)) as S2.
  change (vsteps empty_view (first_b ++ VFlush :: then_c) (item_url item_b)) with (Some (page_of item_b [x42])) in S1. change (vsteps empty_view (first_b ++ VFlush :: then_c) (item_url item_c)) with (Some (page_of item_c [x43])) in S2. auto.
Qed.

Print Assumptions C94_steps.
Print Assumptions C94_after_header_partial.
Print Assumptions C94_after_header_new_partial.
Print Assumptions C94_before_lists_partial.
Print Assumptions C94_before_lists_new_partial.
Print Assumptions C94_refuted.
Print Assumptions C94_before_example.
Print Assumptions C94_after_example.
