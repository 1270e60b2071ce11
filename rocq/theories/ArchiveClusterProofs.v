(** Proofs about the clusters of an archive. *)
From Coq Require Import List ZArith Bool Lia.
From Coq Require Import ZifyBool ZifyNat.
From Verif Require Import Base BaseProofs Dict Infobyte Reader ReaderSpec Entry EntrySpec PointerList PointerListProofs SpaceAllocator SpaceAllocatorSpec SpaceAllocatorProofs
  Cluster ClusterSpec ClusterProofs ClusterWrapper ClusterWrapperSpec ClusterWrapperProofs Archive ArchiveSpec ArchiveProofs ArchiveWriteProofs ArchiveMoveProofs
  ArchiveCluster ArchiveClusterSpec.
Import ListNotations.
Open Scope Z_scope.

(** ** Writing chunks *)
Lemma fwrite_fwrite : forall f off a b, 0 <= off -> fwrite (fwrite f off a) (off + zlen a) b = fwrite f off (a ++ b).
Proof.
  intros f off a b H. pose proof (zlen_nonneg a). pose proof (zlen_nonneg b). apply nth_error_ext. intro i.
  rewrite !fwrite_nth by lia. rewrite fwrite_len, zlen_app by lia.
  destruct (Z.ltb_spec (Z.of_nat i) off).
  - replace (Z.of_nat i <? off + zlen a) with true by lia. replace (Z.of_nat i <? off) with true by lia.
    destruct (Z.ltb_spec (Z.of_nat i) (zlen f)).
    + replace (Z.of_nat i <? Z.max (zlen f) (off + zlen a)) with true by lia. reflexivity.
    + replace (Z.of_nat i <? Z.max (zlen f) (off + zlen a)) with true by lia. reflexivity.
  - destruct (Z.ltb_spec (Z.of_nat i) (off + zlen a)).
    + replace (Z.of_nat i <? Z.max (zlen f) (off + zlen a)) with true by lia.
      replace (Z.of_nat i <? off) with false by lia. replace (Z.of_nat i <? off + (zlen a + zlen b)) with true by lia.
      rewrite nth_error_app1; [reflexivity|]. unfold zlen in *. lia.
    + destruct (Z.ltb_spec (Z.of_nat i) (off + zlen a + zlen b)).
      * replace (Z.of_nat i <? off + (zlen a + zlen b)) with true by lia. rewrite nth_error_app2 by (unfold zlen in *; lia).
        f_equal. unfold zlen in *. lia.
      * replace (Z.of_nat i <? off + (zlen a + zlen b)) with false by lia. replace (Z.of_nat i <? off) with false by lia.
        replace (Z.of_nat i <? off + zlen a) with false by lia. reflexivity.
Qed.

Lemma write_chunks_concat : forall chunks f pos, 0 <= pos -> chunks <> [] -> write_chunks f pos chunks = fwrite f pos (concat chunks).
Proof.
  induction chunks as [|c r IH]; intros f pos H N; [congruence|]. cbn [write_chunks concat]. destruct r as [|d r].
  - cbn [write_chunks concat]. rewrite app_nil_r. reflexivity.
  - pose proof (zlen_nonneg c). rewrite IH; [|lia|discriminate]. apply fwrite_fwrite. exact H.
Qed.
Lemma states_torn : forall chunks f pos g, 0 <= pos -> In g (write_states f pos chunks) -> torn f pos (concat chunks) g.
Proof.
  induction chunks as [|c r IH]; intros f pos g H I; cbn [write_states] in I.
  - destruct I as [<-|[]]. left. reflexivity.
  - destruct I as [<-|I]; [left; reflexivity|]. right. assert (H' : 0 <= pos + zlen c) by (pose proof (zlen_nonneg c); lia). destruct (IH _ _ _ H' I) as [->|(k & ->)].
    + exists (length c). cbn [concat]. rewrite firstn_app, Nat.sub_diag, firstn_all. cbn [firstn]. rewrite app_nil_r. reflexivity.
    + exists (length c + k)%nat. cbn [concat]. rewrite firstn_app, (firstn_all2 c) by lia. replace (length c + k - length c)%nat with k by lia. apply fwrite_fwrite. exact H.
Qed.
Lemma zlen_firstn : forall A k (l : list A), zlen (firstn k l) <= zlen l.
Proof. intros A k l. unfold zlen. pose proof (firstn_le_length k l). rewrite firstn_length. lia. Qed.

(** ** Frames *)
Lemma cluster_len : forall Stream f off c, cluster_at Stream f off c -> 0 <= off /\ 0 < cc_len c /\ off + cc_len c <= zlen f.
Proof.
  intros Stream f off c (H & _ & b & C & E & R & _). split; [exact H|]. pose proof (zlen_nonneg C). split; [lia|].
  assert (L : zlen (b :: C) = cc_len c) by (rewrite E; unfold zlen; cbn [length]; lia). rewrite <- L. apply fread_full; [exact H|rewrite L; exact R|lia].
Qed.
Lemma cluster_keeps : forall Stream f g off c, cluster_at Stream f off c -> keeps f g (covers (off, c)) -> cluster_at Stream g off c.
Proof.
  intros Stream f g off c CA K. pose proof (cluster_len _ _ _ _ CA) as (H & P & E). destruct CA as (_ & F & b & C & A1 & A2 & A3 & A4).
  split; [exact H|]. split; [exact F|]. exists b, C. split; [exact A1|]. split; [|auto]. rewrite <- A2. apply keeps_fread; [exact H|exact E|exact K].
Qed.
Lemma core_frame : forall s cells g al, core s cells -> keeps (z_file s) g (in_use (z_alloc s)) -> canonical al -> 0 <= file_end al ->
  (forall c x, In c cells -> occupies c x -> in_use al x) -> core (set_file g (set_alloc al s)) cells.
Proof.
  intros s cells g al [] K CA EN U. constructor; cbn [z_file z_upl z_etpl z_atpl z_main z_alloc set_file set_alloc]; try assumption.
  - rewrite Forall_forall in *. intros c Hc. eapply stored_keeps; [apply co_stored; exact Hc|]. eapply keeps_weaken; [exact K|].
    intros x Hx. apply (co_used c Hc). destruct c; exact Hx.
  - rewrite Forall_forall. intros c Hc x. apply U. exact Hc.
Qed.
Lemma consistent_frame : forall s cells g al, core s cells -> consistent s (map snd cells) -> keeps (z_file s) g (in_use (z_alloc s)) -> canonical al -> 0 <= file_end al ->
  (forall c x, In c cells -> occupies c x -> in_use al x) -> consistent (set_file g (set_alloc al s)) (map snd cells).
Proof.
  intros s cells g al C [] K CA EN U. constructor; try assumption. exists cells. split; [reflexivity|]. apply core_frame; assumption.
Qed.

Lemma zlen_renumber : forall {A} n (v : A) L, 0 <= n <= zlen L -> zlen (replace_at n v L) = Z.max (zlen L) (n + 1).
Proof. intros A n v L H. rewrite replace_len by exact H. destruct (n =? zlen L) eqn:E; lia. Qed.

(** Number [n] is given to [v]; [v] lies in space that was not in use. *)
Lemma replaced : forall Stream a cells L n v g al p next, archive_ok Stream a cells L -> 0 <= n <= zlen L ->
  keeps (ca_file a) g (in_use (ca_alloc a)) -> canonical al -> 0 <= file_end al ->
  (forall x, in_use (ca_alloc a) x -> (forall d, at_number L n d -> ~ covers d x) -> in_use al x) ->
  (forall d, v = Some d -> cluster_at Stream g (fst d) (snd d) /\ forall x, covers d x -> in_use al x /\ ~ in_use (ca_alloc a) x) ->
  (forall d, v = Some d -> znth (pl_ptrs p) n = Some (fst d)) ->
  (forall i d, i <> n -> at_number L i d -> znth (pl_ptrs p) i = Some (fst d)) ->
  zlen (pl_ptrs p) <= Z.max (zlen L) (n + 1) -> Forall (fun p => 0 <= p) (pl_ptrs p) -> pl_mutable p = true -> next = Z.max (zlen L) (n + 1) ->
  archive_ok Stream (mkCa (set_file g (set_alloc al (ca_zim a))) p next) cells (replace_at n v L).
Proof.
  intros Stream a cells L n v g al p next [] HN K CA EN U SN P1 P2 PC PO PM NX.
  assert (UE : forall c x, In c cells -> occupies c x -> in_use al x).
  { intros c x Hc Hx. pose proof (co_used _ _ ao_core) as Us. rewrite Forall_forall in Us. apply U; [eapply Us; eassumption|].
    intros d Hd Hy. apply (ao_apart c n d x Hc Hd). auto. }
  assert (NEW : forall i d, at_number (replace_at n v L) i d -> (i = n /\ v = Some d) \/ (i <> n /\ at_number L i d)).
  { intros i d H. unfold at_number in H. rewrite replace_nth in H by exact HN. destruct (Z.eqb_spec i n); [left|right; auto]. injection H as ->. auto. }
  assert (UO : forall i d x, i <> n -> at_number L i d -> covers d x -> in_use al x).
  { intros i d x NE Hd Hx. apply U; [eapply ao_used; eassumption|]. intros y Hy Hc. apply (ao_separate i n d y Hd Hy NE x). auto. }
  constructor; cbn [ca_zim ca_ptrs ca_next ca_file ca_alloc z_file z_alloc set_file set_alloc]; try assumption.
  - apply core_frame; assumption.
  - apply consistent_frame; assumption.
  - intros i d H. apply NEW in H as [(-> & E)|(NE & H)]; auto.
  - rewrite zlen_renumber by exact HN. exact PC.
  - rewrite zlen_renumber by exact HN. exact NX.
  - intros i d H. change (ca_file _) with g. apply NEW in H as [(-> & E)|(NE & H)]; [apply SN; exact E|]. eapply cluster_keeps; [eapply ao_stored; exact H|].
    eapply keeps_weaken; [exact K|]. intros x Hx. apply (ao_used i d x H). destruct d; exact Hx.
  - intros i d x H Hx. change (in_use al x). apply NEW in H as [(-> & E)|(NE & H)]; [eapply SN; eassumption|eauto].
  - intros i j c d Hc Hd NE. apply NEW in Hc as [(-> & E)|(NE1 & H1)]; apply NEW in Hd as [(-> & E')|(NE2 & H2)].
    + congruence.
    + intros x (Hx & Hy). destruct (SN c E) as (_ & S). destruct (S x Hx) as (_ & S1). apply S1. eapply ao_used; eassumption.
    + intros x (Hx & Hy). destruct (SN d E') as (_ & S). destruct (S x Hy) as (_ & S1). apply S1. eapply ao_used; eassumption.
    + eapply ao_separate; eassumption.
  - intros c i d x Hc Hd (Hx & Hy). apply NEW in Hd as [(-> & E)|(NE & H)]; [|apply (ao_apart c i d x Hc H); auto].
    destruct (SN d E) as (_ & S). destruct (S x Hy) as (_ & S1). apply S1. pose proof (co_used _ _ ao_core) as Us. rewrite Forall_forall in Us. eapply Us; eassumption.
Qed.

Lemma znth_In : forall {A} (l : list A) i x, znth l i = Some x -> In x l.
Proof. intros A l i x H. unfold znth in H. destruct (i <? 0); [discriminate|]. eapply nth_error_In. exact H. Qed.

(** ** Opening a cluster *)
Section Codec.
Variable fuel : nat.
Context {D : Type}.
Variable dc : decomp D.
Variable new_decomp : ctype -> res D.
Context {K : Type}.
Variable new_comp : ctype -> res K.
Variable comp : K -> bytes -> res (bytes * K).
Variable flush : K -> res bytes.
Variable kd : ckind.
Variable Stream : ctype -> bytes -> bytes -> Prop.
Hypothesis CD : codec_ok dc new_decomp new_comp comp flush Stream.

Lemma cluster_split : forall f off c, cluster_at Stream f off c -> exists b C post,
  f = ztake off f ++ (b :: C) ++ post /\ zlen (ztake off f) = off /\ cc_len c = 1 + zlen C /\ parse_infobyte b = Ok (cc_ct c, cc_ext c) /\
  Stream (cc_ct c) C (cluster_data (cc_ext c) (cc_blobs c)) /\ zlen post <= zlen f.
Proof.
  intros f off c CA. destruct (cluster_len _ _ _ _ CA) as (H & P & E). destruct CA as (_ & _ & b & C & A1 & A2 & A3 & A4).
  exists b, C, (zskip (off + cc_len c) f). split.
  - rewrite <- A2. unfold fread, zsub. replace (off + cc_len c) with (cc_len c + off) by lia. rewrite <- zskip_zskip by lia. rewrite ztake_zskip. symmetry. apply ztake_zskip.
  - split; [rewrite ztake_len; lia|]. split; [exact A1|]. split; [exact A3|]. split; [exact A4|]. rewrite zskip_len by lia. lia.
Qed.
Lemma cluster_stored : forall f off c, cluster_at Stream f off c -> enough fuel f c -> exists Rep C J tail,
  ClusterSpec.stored dc new_decomp Rep f off (cc_ct c) (cc_ext c) (cc_blobs c) C J tail /\
  zlen (cluster_data (cc_ext c) (cc_blobs c) ++ tail) + 2 <= Z.of_nat fuel /\
  (exists ends, (ends = true -> stored_ends dc Rep J tail) /\ (cc_ct c = NONE \/ ends = true)) /\
  (1 + if ctype_eqb (cc_ct c) NONE then zlen (cluster_data (cc_ext c) (cc_blobs c)) else zlen C) = cc_len c.
Proof.
  intros f off c CA EN. destruct (cluster_split _ _ _ CA) as (b & C & post & EF & EO & EL & PI & ST & LP). pose proof CA as (Hoff & FI & _).
  destruct (cd_read _ _ _ _ _ _ CD _ _ _ post ST) as (Rep & d0 & C' & J & tail & ND & CJ & RP & CT & TL).
  exists Rep, C', J, tail. split; [|split; [|split]].
  - constructor.
    + exact Hoff.
    + exists b. split; [|exact PI]. rewrite EF. unfold zsub. rewrite zskip_app_exact by (exact EO). reflexivity.
    + rewrite CJ. rewrite EF at 1. replace (off + 1) with (1 + off) by lia. rewrite <- zskip_zskip by lia. rewrite zskip_app_exact by (exact EO). reflexivity.
    + eauto.
    + exact CT.
    + exact FI.
  - rewrite zlen_app. unfold enough in EN. assert (zlen tail <= zlen f) by (destruct TL as [(_ & ->)|(_ & _ & -> & _)]; [exact LP|apply zlen_nonneg]). lia.
  - destruct TL as [(E & _)|(_ & _ & -> & CE)]; [exists false; split; [discriminate|auto]|exists true; split; [intros _; split; [exact CE|reflexivity]|auto]].
  - rewrite EL. f_equal. destruct TL as [(E & _)|(E & -> & _)].
    + rewrite E in ST |- *. cbn [ctype_eqb]. rewrite (cd_plain _ _ _ _ _ _ CD _ _ ST). reflexivity.
    + destruct (cc_ct c); try reflexivity. congruence.
Qed.

Definition open_ok (f : bytes) (off : Z) (c : ccell) (o : cobj (cluster D)) (Inv : cluster D -> Prop) : Prop :=
  co_old o = cc_len c /\ holds (inner_cluster dc new_decomp f fuel) Inv (cc_ct c) (cc_ext c) (cc_blobs c) /\
  rep fuel Inv (cc_blobs c) (co_wrap o) (cc_blobs c) /\
  w_ext (co_wrap o) = None /\ w_comp (co_wrap o) = None /\ w_removed (co_wrap o) = [] /\
  forall x, Inv x -> cl_offset x = off.
Lemma opened : forall a off c, cluster_at Stream (ca_file a) off c -> enough fuel (ca_file a) c ->
  exists o Inv, get_cluster_at fuel dc new_decomp kd a off = Ok o /\ open_ok (ca_file a) off c o Inv.
Proof.
  intros a off c CA EN. destruct (cluster_stored _ _ _ CA EN) as (Rep & C & J & tail & ST & FU & (ends & E1 & E2) & LEN).
  set (Inv := cinv Rep off (cc_ct c) (cc_ext c) (cc_blobs c) C J tail kd true).
  pose proof (holds_cluster D dc new_decomp Rep (ca_file a) fuel off (cc_ct c) (cc_ext c) (cc_blobs c) C J tail kd true ST FU) as HO. fold Inv in HO.
  assert (I0 : Inv (reset (cluster_new kd off))) by (apply reset_inv, new_cinv).
  destruct (total_compressed_ok dc new_decomp Rep (ca_file a) fuel off _ _ _ C J tail ends ST E1 FU kd true _ I0 E2) as (c1 & ET & I1 & _).
  eexists. exists Inv. unfold get_cluster_at. change (w_in _) with (@reset D (cluster_new kd off)). rewrite ET, LEN.
  split; [reflexivity|]. split; [reflexivity|]. split; [exact HO|]. split; [|repeat split; intros x (_ & H & _); exact H].
  pose proof (wrap_rep (inner_cluster dc new_decomp (ca_file a) fuel) fuel Inv _ _ _ HO _ I0) as R. eapply rep_same; [exact R|exact I1|reflexivity..].
Qed.
Lemma opened_index : forall a cells L i off c, archive_ok Stream a cells L -> at_number L i (off, c) -> enough fuel (ca_file a) c ->
  exists o Inv, get_cluster_by_index fuel dc new_decomp kd a i = Ok o /\ open_ok (ca_file a) off c o Inv.
Proof.
  intros a cells L i off c AO EI EN. unfold get_cluster_by_index. pose proof (znth_some _ _ _ EI) as Hi. replace (i <? 0) with false by lia.
  assert (G : get_by_index (pl_ptrs (ca_ptrs a)) i = Ok off).
  { rewrite get_by_index_znth by lia. rewrite (ao_ptrs _ _ _ _ AO _ _ EI). reflexivity. }
  rewrite G. cbn [bind]. apply opened; [|exact EN]. exact (ao_stored _ _ _ _ AO i (off, c) EI).
Qed.

(** What is shown by the cluster object. *)
Lemma shown : forall a cells L i off c, archive_ok Stream a cells L -> at_number L i (off, c) -> enough fuel (ca_file a) c ->
  shows fuel dc new_decomp kd a i (cc_blobs c).
Proof.
  intros a cells L i off c AO EI EN. destruct (opened_index a cells L i off c AO EI EN) as (o & Inv & E & _ & HO & R & _).
  unfold shows, blobs_in, read_blob_of. rewrite E. cbn [bind]. split.
  - destruct (count_ok _ fuel Inv _ _ _ HO _ _ R) as (w' & E1 & _). rewrite E1. reflexivity.
  - intros j Hj. pose proof (wask_ok _ fuel Inv _ _ _ HO _ _ (QRead j None None) R) as (_ & _ & A).
    { exact Logic.I. } { split; [exact Hj|repeat split]. } { unfold inside, starts_inside. destruct (znth (cc_blobs c) j); exact Logic.I. }
    specialize (A (or_introl eq_refl)). cbn [wask] in A. destruct (wread_blob _ fuel j None None (co_wrap o)) as [x w1]. cbn [fst] in *.
    cbn [wanswer answer] in A. destruct (znth (cc_blobs c) j) as [b|].
    + destruct x; [|discriminate A]. injection A as ->. f_equal. unfold part. rewrite Z.sub_0_r. unfold zsub. rewrite zskip_0. apply ztake_all. lia.
    + destruct x; [discriminate A|]. injection A as ->. reflexivity.
Qed.

(** ** Writing a cluster *)
Lemma in_dget : forall (d : list (Z * source)) k v, NoDup (map fst d) -> In (k, v) d -> dget Z.eqb k d = Some v.
Proof.
  induction d as [|(k0, v0) d IH]; intros k v N H; [destruct H|]. cbn [map fst] in N. inversion N as [|? ? N1 N2]; subst. cbn [dget fst snd].
  destruct H as [E|H].
  - injection E as -> ->. rewrite Z.eqb_refl. reflexivity.
  - destruct (Z.eqb_spec k k0) as [->|]; [|auto]. exfalso. apply N1. apply in_map_iff. exists (k0, v). auto.
Qed.
Lemma rep_sane : forall I (Inv : I -> Prop) orig w L, rep fuel Inv orig w L -> sane fuel Inv w.
Proof.
  intros I Inv orig w L R. split; [exact (vw_inv _ _ _ _ _ R)|]. intros k s H.
  assert (HK : In k (map fst (w_blobs w))) by (apply in_map_iff; exists (k, s); auto).
  pose proof (rp_keys _ _ _ _ _ R k HK) as B. pose proof (vw_item _ _ _ _ _ R k B) as IT.
  rewrite (in_dget _ k s (rp_nodup _ _ _ _ _ R) H) in IT. destruct IT as (d & _ & DE). eauto.
Qed.

Section Write.
Context {I : Type}.
Variable ops : cops I.
Variables (a : carchive) (c : cobj I) (num : option Z).
Variable Inv : I -> Prop.
Variables (ct : ctype) (ext : bool) (orig Bl : list bytes) (oo : option Z).
Hypothesis HO : holds (op_inner ops (ca_file a)) Inv ct ext orig.
Hypothesis SA : sane fuel Inv (co_wrap c).
Hypothesis VW : view fuel Inv orig (co_wrap c) Bl.
Hypothesis OO : forall x, Inv x -> op_offset ops x = oo.

Lemma begin_ok : forall n off chunks a1 c1,
  write_begin fuel new_comp comp flush ops num a c = (Ok (n, off, chunks), (a1, c1)) ->
  let w := co_wrap c in let e := wwide ext w Bl in let cm := compression_of ct w in
  exists s a0 b C, allocate (ca_alloc a) (zlen (concat chunks)) = Ok (off, s) /\
    concat chunks = b :: C /\ parse_infobyte b = Ok (cm, e) /\ Stream cm C (cluster_data e Bl) /\ fits e Bl /\
    a1 = ca_set_alloc s a0 /\ (forall m, num = Some m -> 0 <= m) /\
    match oo, num with
    | None, _ => n = ca_next a /\ a0 = ca_set_next (ca_next a + 1) a
    | Some o, None => get_cluster_index_by_offset a o = Ok n /\ a0 = a
    | Some _, Some m => n = m /\ a0 = a
    end /\ co_old c1 = co_old c /\ co_offset ops c1 = oo.
Proof.
  intros n off chunks a1 c1 H w e cm. unfold write_begin in H.
  assert (NM : forall m, num = Some m -> 0 <= m). { intros m ->. destruct (Z.ltb_spec m 0); [discriminate H|lia]. }
  destruct (match num with Some n => n <? 0 | None => false end); [discriminate H|].
  set (ic := op_inner ops (ca_file a)) in *. fold w in SA, VW.
  unfold wdisk, wdisk_size, mbind in H. fold ic w in H.
  destruct (iter_write ic fuel K new_comp comp flush w) as [[l|x] w1] eqn:EW; [|discriminate H]. cbn [ret] in H.
  assert (HN : 0 <= zlen orig - zlen (w_removed w) + zlen (w_added w)) by (rewrite <- (vw_len _ _ _ _ _ VW); apply zlen_nonneg).
  destruct (written_view ic fuel Inv ct ext orig HO K new_comp comp flush w l w1 SA HN (cd_unknown _ _ _ _ _ _ CD) EW) as (NK & _ & k & _ & NC).
  pose proof (cd_comp _ _ _ _ _ _ CD) as CO.
  destruct (iter_write_ok ic fuel Inv ct ext orig HO K new_comp comp flush Stream CO w Bl k VW NC NK) as (G1 & G2).
  assert (FI : fits e Bl).
  { unfold fits. destruct (Z.lt_ge_cases (pointers_size e Bl + zlen (concat Bl)) (256 ^ Z.of_nat (pointer_bytes e))) as [Q|Q]; [exact Q|].
    exfalso. assert (X : fst (iter_write ic fuel K new_comp comp flush w) = Err StructError) by (apply G2; fold e; unfold fits; clear -Q; lia). rewrite EW in X. discriminate X. }
  destruct (G1 FI) as (l1 & w1' & b & C & EW1 & V1 & S1 & EC & PI & ST). rewrite EW in EW1. injection EW1 as <- <-.
  assert (CW : compression_of ct w1 = cm) by (unfold compression_of; destruct S1 as (_ & _ & _ & _ & -> & _); reflexivity).
  assert (WW : wwide ext w1 Bl = e) by (apply (same_wide ic ct ext w w1 Bl S1)).
  assert (OF : co_offset ops (co_set w1 c) = oo) by (apply OO; exact (vw_inv _ _ _ _ _ V1)).
  rewrite OF in H.
  destruct (iter_write_ok ic fuel Inv ct ext orig HO K new_comp comp flush Stream CO w1 Bl k V1) as (G3 & _); [rewrite CW; exact NC|rewrite CW; exact NK|].
  rewrite WW, CW in G3. destruct (G3 FI) as (l2 & w2 & b2 & C2 & EW2 & V2 & S2 & EC2 & PI2 & ST2).
  destruct (disk_size_ok ic fuel Inv ct ext orig HO K new_comp comp flush w Bl k l w1 VW NC NK EW) as (_ & DS).
  assert (LEN : zlen (concat l2) = zlen (concat l)). { unfold wdisk_size, mbind in DS. rewrite EW2 in DS. cbn [ret fst] in DS. injection DS as DS. exact DS. }
  destruct (match oo, num with
            | None, _ => Ok (new_cluster_num a)
            | Some off, None => do n <- get_cluster_index_by_offset a off ;; Ok (n, a)
            | Some _, Some n => Ok (n, a)
            end) as [[m a0]|x] eqn:EN; [|discriminate H].
  assert (FA : ca_alloc a0 = ca_alloc a /\ ca_file a0 = ca_file a /\ match oo, num with
    | None, _ => m = ca_next a /\ a0 = ca_set_next (ca_next a + 1) a
    | Some o, None => get_cluster_index_by_offset a o = Ok m /\ a0 = a
    | Some _, Some k => m = k /\ a0 = a
    end).
  { destruct oo as [o|]; [destruct num|].
    - injection EN as <- <-. auto.
    - destruct (get_cluster_index_by_offset a o); [|discriminate EN]. injection EN as <- <-. auto.
    - unfold new_cluster_num in EN. injection EN as <- <-. auto. }
  destruct FA as (FA & FF & FN). rewrite FA in H.
  destruct (allocate (ca_alloc a) (zlen (concat l))) as [[p s]|x] eqn:EA; [|discriminate H].
  change (ca_file (ca_set_alloc s a0)) with (ca_file a0) in H. rewrite FF in H. unfold wwrite in H. fold ic in H. cbn [co_set co_wrap] in H. rewrite EW2 in H.
  injection H as <- <- <- <- <-. exists s, a0, b2, C2. rewrite LEN. split; [exact EA|]. split; [exact EC2|]. split; [exact PI2|]. split; [exact ST2|]. split; [exact FI|].
  split; [reflexivity|]. split; [exact NM|]. split; [exact FN|]. split; [reflexivity|]. apply OO. exact (vw_inv _ _ _ _ _ V2).
Qed.
End Write.

Lemma end_ok : forall I (ops : cops I) n off chunks a1 c1 r a2 c2, write_end fuel new_comp comp flush ops n off chunks a1 c1 = (Ok r, (a2, c2)) ->
  r = n /\ exists p al, pl_set n off true (ca_ptrs a1) = Ok p /\
    match co_offset ops c1 with None => al = ca_alloc a1 | Some o => mark_free (ca_alloc a1) o (co_old c1) = Ok al end /\
    a2 = mkCa (set_file (write_chunks (ca_file a1) off chunks) (set_alloc al (ca_zim a1))) p (ca_next a1).
Proof.
  intros I ops n off chunks a1 c1 r a2 c2 H. unfold write_end in H. cbv zeta in H.
  change (ca_ptrs (ca_set_file _ a1)) with (ca_ptrs a1) in H. destruct (pl_set n off true (ca_ptrs a1)) as [p|x] eqn:EP; [|discriminate H].
  match type of H with (match ?m with _ => _ end) = _ => destruct m as [[size|x] w] end; [|discriminate H].
  destruct a1 as [[f u et at_ mn al] pt nx]. cbn [ca_set_file ca_set_ptrs ca_zim ca_ptrs ca_next set_file] in H.
  destruct (co_offset ops c1) as [o|].
  - change (mark_free (ca_alloc _) o (co_old c1)) with (mark_free al o (co_old c1)) in H. destruct (mark_free al o (co_old c1)) as [al'|x] eqn:EM; [|discriminate H].
    injection H as <- <- <-. split; [reflexivity|]. exists p, al'. auto.
  - injection H as <- <- <-. split; [reflexivity|]. exists p, al. auto.
Qed.


Lemma index_of_found : forall (l : list Z) i n p, 0 <= n -> znth l n = Some p -> (forall j, 0 <= j < n -> znth l j <> Some p) -> index_of i l p = Ok (i + n).
Proof.
  induction l as [|x l IH]; intros i n p Hn E H; cbn [index_of].
  - pose proof (znth_some _ _ _ E) as X. change (zlen (@nil Z)) with 0 in X. lia.
  - rewrite znth_cons in E by exact Hn. destruct (Z.eqb_spec n 0) as [->|].
    + injection E as ->. rewrite Z.eqb_refl. f_equal. lia.
    + destruct (Z.eqb_spec x p) as [->|].
      * exfalso. apply (H 0); [lia|reflexivity].
      * rewrite (IH (i + 1) (n - 1) p); [f_equal; lia|lia|exact E|]. intros j Hj Ej. apply (H (j + 1)); [lia|]. rewrite znth_cons by lia.
        replace (j + 1 =? 0) with false by lia. replace (j + 1 - 1) with j by lia. exact Ej.
Qed.
Lemma pl_set_spec : forall pl n p q, 0 <= n -> pl_set n p true pl = Ok q ->
  znth (pl_ptrs q) n = Some p /\ (forall i x, i <> n -> znth (pl_ptrs pl) i = Some x -> znth (pl_ptrs q) i = Some x) /\
  zlen (pl_ptrs q) = Z.max (zlen (pl_ptrs pl)) (n + 1) /\ pl_mutable q = true /\ (Forall (fun p => 0 <= p) (pl_ptrs pl) -> Forall (fun p => 0 <= p) (pl_ptrs q)).
Proof.
  intros pl n p q Hn H. unfold pl_set in H. destruct (Z.ltb_spec p 0) as [|HP]; [discriminate H|]. cbn [negb] in H. rewrite andb_false_r in H.
  destruct (pl_mutable pl) eqn:M; [|discriminate H]. cbn [negb] in H. cbv zeta in H. set (l := pl_ptrs pl) in *. pose proof (zlen_nonneg l) as NN.
  destruct (Z.ltb_spec n (zlen l)) as [Hl|Hl]; [|destruct (Z.eqb_spec n (zlen l)) as [->|NE]].
  - unfold py_index in H. replace ((0 <=? n) && (n <? zlen l)) with true in H by lia. injection H as <-. cbn [pl_change pl_ptrs pl_mutable]. fold l.
    assert (LL : (Z.to_nat n < length l)%nat) by (unfold zlen in *; lia).
    assert (Q : forall i, znth (list_set l (Z.to_nat n) p) i = if i =? n then Some p else znth l i).
    { intro i. unfold znth. destruct (Z.ltb_spec i 0); [destruct (Z.eqb_spec i n); [lia|reflexivity]|].
      rewrite list_set_nth by exact LL. destruct (Z.eqb_spec i n) as [->|]; [rewrite Nat.eqb_refl; reflexivity|].
      destruct (Nat.eqb_spec (Z.to_nat i) (Z.to_nat n)); [lia|reflexivity]. }
    split; [rewrite Q, Z.eqb_refl; reflexivity|]. split.
    { intros i x NE E. rewrite Q. destruct (Z.eqb_spec i n); [contradiction|exact E]. }
    split; [unfold zlen; rewrite list_set_len; unfold zlen in *; lia|]. split; [exact M|]. rewrite !Forall_forall. intros PO x Hx.
    apply In_nth_error in Hx as (k & Hk). rewrite list_set_nth in Hk by exact LL. destruct (Nat.eqb k (Z.to_nat n)); [injection Hk as <-; lia|].
    apply PO. eapply nth_error_In. exact Hk.
  - injection H as <-. cbn [pl_change pl_ptrs pl_mutable]. fold l. split; [rewrite znth_app_r by lia; rewrite Z.sub_diag; reflexivity|]. split.
    { intros i x _ E. pose proof (znth_some _ _ _ E). rewrite znth_app_l by lia. exact E. }
    split; [rewrite zlen_app; change (zlen [p]) with 1; lia|]. split; [exact M|]. intro PO. apply Forall_app. split; [exact PO|]. repeat constructor. lia.
  - injection H as <-. cbn [pl_change pl_ptrs pl_mutable]. fold l. split.
    { rewrite znth_app_r by lia. unfold znth. replace (n - zlen l <? 0) with false by lia. apply nth_error_repeat. lia. }
    split. { intros i x _ E. pose proof (znth_some _ _ _ E). rewrite znth_app_l by lia. exact E. }
    split; [rewrite zlen_app; unfold zlen at 2; rewrite repeat_length; lia|]. split; [exact M|]. intro PO. apply Forall_app. split; [exact PO|].
    rewrite Forall_forall. intros x Hx. apply repeat_spec in Hx. lia.
Qed.

(** ** Writing *)
(** The object with this [offset] and [get_unmodified_disk_size] gets the number
    [n]: a new one the next number, a stored one keeps its own. *)
Definition placed (a : carchive) L (n : Z) (offset : option Z) (old : Z) (num : option Z) : Prop :=
  (offset = None /\ n = zlen L) \/
  exists p c, at_number L n (p, c) /\ offset = Some p /\ old = cc_len c /\
    (num = Some n \/ (num = None /\ forall j, 0 <= j < n -> znth (pl_ptrs (ca_ptrs a)) j <> Some p)).

Lemma fwrite_keeps_unused : forall a s n off data, canonical a -> 0 <= file_end a -> allocate a n = Ok (off, s) -> zlen data <= n ->
  forall f, keeps f (fwrite f off data) (in_use a).
Proof.
  intros a s n off data Ca En Ha Hl f. destruct (allocate_in_use _ _ _ _ Ca En Ha) as (Ho & _ & _ & _ & New).
  eapply keeps_weaken; [apply keeps_fwrite; exact Ho|]. intros x Hx Hy. apply (New x); [lia|exact Hx].
Qed.
(** Freeing the space of cluster [n]. *)
Lemma freed : forall a cells L n p c s al, archive_ok Stream a cells L -> at_number L n (p, c) ->
  canonical s -> (forall x, in_use (ca_alloc a) x -> in_use s x) -> mark_free s p (cc_len c) = Ok al ->
  canonical al /\ file_end al = file_end s /\ forall x, in_use al x <-> in_use s x /\ ~ covers (p, c) x.
Proof.
  intros a cells L n p c s al AO HN Cs Us MF. destruct (cluster_len _ _ _ _ (ao_stored _ _ _ _ AO _ _ HN)) as (Hp & Hl & _). cbn [fst snd] in Hp, Hl.
  assert (LAST : in_use s (p + cc_len c - 1)). { apply Us. apply (ao_used _ _ _ _ AO n (p, c)); [exact HN|]. unfold covers. cbn [fst snd]. lia. }
  assert (LE : p + cc_len c <= file_end s) by (unfold in_use in LAST; lia).
  destruct (mark_free_spec _ _ _ _ Cs LE MF) as (C3 & _ & _ & FE & LF). split; [exact C3|]. split; [exact FE|].
  intro x. unfold in_use. rewrite LF, FE. unfold covers. cbn [fst snd]. tauto.
Qed.

Lemma pl_set_tracks : forall i p o o', pl_set i p true o = Ok o' -> pl_dirty o' = true /\ pl_old_size o' = pl_old_size o.
Proof.
  intros i p o o' H. unfold pl_set in H. destruct (p <? 0); [discriminate H|]. rewrite andb_false_r in H. destruct (negb (pl_mutable o)); [discriminate H|].
  destruct (i <? zlen (pl_ptrs o)); [destruct (py_index _ _); [|discriminate H]|destruct (i =? zlen (pl_ptrs o))]; injection H as <-; auto.
Qed.

Section Written.
Context {I : Type}.
Variable ops : cops I.
Variables (a : carchive) (c : cobj I) (num : option Z).
Variable Inv : I -> Prop.
Variables (ct : ctype) (ext : bool) (orig Bl : list bytes) (oo : option Z).
Hypothesis HO : holds (op_inner ops (ca_file a)) Inv ct ext orig.
Hypothesis SA : sane fuel Inv (co_wrap c).
Hypothesis VW : view fuel Inv orig (co_wrap c) Bl.
Hypothesis OO : forall x, Inv x -> op_offset ops x = oo.
Variables (cells : list (Z * entry)) (L : list (option (Z * ccell))) (n : Z).
Hypothesis AO : archive_ok Stream a cells L.
Hypothesis PL : placed a L n oo (co_old c) num.

Lemma placed_range : 0 <= n <= zlen L.
Proof.
  destruct PL as [(_ & ->)|(p & c0 & H & _)]; [pose proof (zlen_nonneg L); lia|]. pose proof (znth_some _ _ _ H). lia.
Qed.
Lemma began : forall m off chunks a1 c1,
  write_begin fuel new_comp comp flush ops num a c = (Ok (m, off, chunks), (a1, c1)) ->
  m = n /\ 0 <= off /\ chunks <> [] /\ ca_file a1 = ca_file a /\ ca_ptrs a1 = ca_ptrs a /\
  (forall k f, keeps f (fwrite f off (firstn k (concat chunks))) (in_use (ca_alloc a))).
Proof.
  intros m off chunks a1 c1 H. destruct (begin_ok ops a c num Inv ct ext orig Bl oo HO SA VW OO m off chunks a1 c1 H) as (s & a0 & b & C & Al & Ch & _ & _ & _ & E1 & NM & NU & _).
  pose proof (ao_core _ _ _ _ AO) as CO. pose proof (co_canonical _ _ CO) as Ca. pose proof (co_end _ _ CO) as En.
  change (z_alloc (ca_zim a)) with (ca_alloc a) in Ca, En.
  assert (F0 : ca_file a0 = ca_file a /\ ca_ptrs a0 = ca_ptrs a). { destruct oo; [destruct num|]; destruct NU as (_ & ->); auto. }
  destruct (allocate_in_use _ _ _ _ Ca En Al) as (Ho & _ & _ & Us & New). split.
  { destruct PL as [(EO & EN)|(p & c0 & HN & EO & EL & EN)]; rewrite EO in NU.
    - destruct NU as (-> & _). rewrite (ao_next _ _ _ _ AO). symmetry. exact EN.
    - destruct EN as [E|(E & EN)]; rewrite E in NU.
      + destruct NU as (-> & _). reflexivity.
      + destruct NU as (G & _). unfold get_cluster_index_by_offset in G. rewrite (index_of_found _ 0 n p) in G.
        * injection G as <-. reflexivity.
        * pose proof placed_range. lia.
        * apply (ao_ptrs _ _ _ _ AO _ _ HN).
        * exact EN. }
  split; [exact Ho|]. split; [intros ->; discriminate Ch|]. rewrite E1. split; [apply F0|]. split; [apply F0|].
  intros k f. eapply fwrite_keeps_unused; [exact Ca|exact En|exact Al|]. apply zlen_firstn.
Qed.

(** Whatever of the data has arrived, nothing that is in use has changed. *)
Lemma torn_ok : forall m off chunks a1 c1 g,
  write_begin fuel new_comp comp flush ops num a c = (Ok (m, off, chunks), (a1, c1)) -> torn (ca_file a) off (concat chunks) g ->
  keeps (ca_file a) g (in_use (ca_alloc a)) /\ archive_ok Stream (ca_set_file g a) cells L.
Proof.
  intros m off chunks a1 c1 g H T. destruct (began _ _ _ _ _ H) as (_ & _ & _ & _ & _ & KE).
  assert (KK : keeps (ca_file a) g (in_use (ca_alloc a))). { destruct T as [->|(k & ->)]; [apply keeps_refl|apply KE]. }
  split; [exact KK|]. pose proof AO as [].
  assert (E : ca_zim (ca_set_file g a) = set_file g (set_alloc (ca_alloc a) (ca_zim a))) by (destruct a as [[] ? ?]; reflexivity).
  assert (UE : forall d x, In d cells -> occupies d x -> in_use (ca_alloc a) x).
  { intros d x Hd Hx. pose proof (co_used _ _ ao_core) as Us. rewrite Forall_forall in Us. eapply Us; eassumption. }
  constructor; try assumption.
  - rewrite E. apply core_frame; try assumption; [exact (co_canonical _ _ ao_core)|exact (co_end _ _ ao_core)].
  - rewrite E. apply consistent_frame; try assumption; [exact (co_canonical _ _ ao_core)|exact (co_end _ _ ao_core)].
  - intros i d Hd. change (ca_file (ca_set_file g a)) with g. eapply cluster_keeps; [eapply ao_stored; exact Hd|].
    eapply keeps_weaken; [exact KK|]. intros x Hx. apply (ao_used i d x Hd). destruct d; exact Hx.
Qed.

Lemma written_at : forall m' off chunks a1 c1 m a2 c2, write_begin fuel new_comp comp flush ops num a c = (Ok (m', off, chunks), (a1, c1)) ->
  write_end fuel new_comp comp flush ops m' off chunks a1 c1 = (Ok m, (a2, c2)) ->
  m = n /\
  archive_ok Stream a2 cells (replace_at n (Some (off, mkCcell (compression_of ct (co_wrap c)) (wwide ext (co_wrap c) Bl) Bl (zlen (concat chunks)))) L) /\
  (forall x, in_use (ca_alloc a) x -> (forall d, at_number L n d -> ~ covers d x) -> in_use (ca_alloc a2) x) /\
  (forall x, off <= x < off + (zlen (concat chunks)) -> ~ in_use (ca_alloc a) x) /\
  keeps (ca_file a) (ca_file a2) (in_use (ca_alloc a)) /\ zlen (ca_file a) <= zlen (ca_file a2) /\
  pl_dirty (ca_ptrs a2) = true /\ pl_old_size (ca_ptrs a2) = pl_old_size (ca_ptrs a) /\ exists f al, ca_zim a2 = set_file f (set_alloc al (ca_zim a)).
Proof.
  intros m' off chunks a1 c1 m a2 c2 EB H.
  destruct (began _ _ _ _ _ EB) as (EM & Ho & NE & EF & EP & KE). subst m'.
  destruct (begin_ok ops a c num Inv ct ext orig Bl oo HO SA VW OO n off chunks a1 c1 EB) as (s & a0 & b & C & Al & Ch & IB & ST & FI & E1 & NM & NU & CO1 & CO2).
  destruct (end_ok I ops n off chunks a1 c1 m a2 c2 H) as (-> & p & al & PS & MF & E2).
  split; [reflexivity|]. pose proof (ao_core _ _ _ _ AO) as CO. pose proof (co_canonical _ _ CO) as Ca. pose proof (co_end _ _ CO) as En.
  change (z_alloc (ca_zim a)) with (ca_alloc a) in Ca, En. pose proof placed_range as RG.
  destruct (allocate_in_use _ _ _ _ Ca En Al) as (_ & Cs & Es & Us & New).
  assert (Z0 : ca_zim a0 = ca_zim a). { destruct oo; [destruct num|]; destruct NU as (_ & ->); auto. }
  set (cell := mkCcell _ _ _ _).
  assert (EA : a2 = mkCa (set_file (fwrite (ca_file a) off (concat chunks)) (set_alloc al (ca_zim a))) p (ca_next a1)).
  { rewrite E2, EF, write_chunks_concat by assumption. f_equal. rewrite E1. unfold ca_set_alloc. cbn [ca_zim]. rewrite Z0. destruct (ca_zim a); reflexivity. }
  rewrite EA.
  assert (KK : keeps (ca_file a) (fwrite (ca_file a) off (concat chunks)) (in_use (ca_alloc a))).
  { specialize (KE (length (concat chunks)) (ca_file a)). rewrite firstn_all in KE. exact KE. }
  assert (AL : canonical al /\ 0 <= file_end al /\ (forall x, in_use al x <-> in_use s x /\ forall d, at_number L n d -> ~ covers d x)).
  { rewrite CO2 in MF. destruct PL as [(EO & EN)|(p1 & c0 & HN & EO & EL & EN)]; rewrite EO in MF.
    - subst al. rewrite E1. change (ca_alloc (ca_set_alloc s a0)) with s. split; [exact Cs|]. split; [exact Es|].
      intro x. split; [intro Hx; split; [exact Hx|]|tauto]. intros d Hd. pose proof (znth_some _ _ _ Hd). lia.
    - rewrite CO1, EL, E1 in MF. change (ca_alloc (ca_set_alloc s a0)) with s in MF.
      destruct (freed a cells L n p1 c0 s al AO HN Cs (fun x Hx => proj2 (Us x) (or_introl Hx)) MF) as (C3 & FE & U3).
      split; [exact C3|]. split; [rewrite FE; exact Es|]. intro x. rewrite U3. split; intros (B1 & B2); (split; [exact B1|]).
      + intros d Hd. unfold at_number in *. rewrite HN in Hd. injection Hd as <-. exact B2.
      + apply B2. exact HN. }
  destruct AL as (C3 & E3 & U3).
  assert (NC : forall x, covers (off, cell) x -> ~ in_use (ca_alloc a) x) by (intros x Hx; apply New; exact Hx).
  rewrite EP in PS. destruct (pl_set_spec _ _ _ _ (proj1 RG) PS) as (P1 & P2 & P3 & P4 & P5).
  split; [|split; [|split; [exact New|]]].
  3: { split; [exact KK|]. split; [unfold ca_file at 2; cbn [ca_zim z_file set_file set_alloc]; rewrite fwrite_len by exact Ho; pose proof (zlen_nonneg (ca_file a)); lia|].
       cbn [ca_ptrs ca_zim]. rewrite (proj1 (pl_set_tracks _ _ _ _ PS)). split; [reflexivity|]. split; [apply (pl_set_tracks _ _ _ _ PS)|]. eauto. }
  2: { intros x Hx Hn. change (in_use al x). apply U3. split; [apply Us; left; exact Hx|exact Hn]. }
  eapply (replaced Stream a cells L n); [exact AO|exact RG|exact KK|exact C3|exact E3| | | | | |exact (P5 (ao_positive _ _ _ _ AO))|exact P4|].
  - intros x Hx Hn. apply U3. split; [apply Us; left; exact Hx|exact Hn].
  - intros d Ed. injection Ed as <-. cbn [fst snd]. split.
    + split; [exact Ho|]. split; [exact FI|]. exists b, C. cbn [cell cc_len cc_ct cc_ext cc_blobs].
      rewrite Ch. split; [unfold zlen; cbn [length]; lia|]. split; [|auto]. apply fread_fwrite_same. exact Ho.
    + intros x Hx. split; [|apply NC; exact Hx]. apply U3. split; [apply Us; right; left; exact Hx|].
      intros d Hd Cv. apply (NC x Hx). apply (ao_used _ _ _ _ AO n d x Hd Cv).
  - intros d Ed. injection Ed as <-. exact P1.
  - intros i d NI Hd. apply P2; [exact NI|]. apply (ao_ptrs _ _ _ _ AO _ _ Hd).
  - rewrite P3. pose proof (ao_count _ _ _ _ AO). lia.
  - rewrite E1. change (ca_next (ca_set_alloc s a0)) with (ca_next a0). pose proof (ao_next _ _ _ _ AO) as NX.
    destruct PL as [(EO & EN)|(p1 & c0 & HN & EO & EL & EN)]; rewrite EO in NU.
    + destruct NU as (_ & ->). cbn [ca_next ca_set_next]. lia.
    + assert (EQ : a0 = a) by (destruct num; tauto). rewrite EQ, NX. pose proof (znth_some _ _ _ HN). lia.
Qed.
Lemma written : forall m a2 c2, write_cluster fuel new_comp comp flush ops num a c = (Ok m, (a2, c2)) ->
  m = n /\ exists off len,
  archive_ok Stream a2 cells (replace_at n (Some (off, mkCcell (compression_of ct (co_wrap c)) (wwide ext (co_wrap c) Bl) Bl len)) L) /\
  (forall x, in_use (ca_alloc a) x -> (forall d, at_number L n d -> ~ covers d x) -> in_use (ca_alloc a2) x) /\
  (forall x, off <= x < off + len -> ~ in_use (ca_alloc a) x) /\
  keeps (ca_file a) (ca_file a2) (in_use (ca_alloc a)) /\ zlen (ca_file a) <= zlen (ca_file a2) /\
  pl_dirty (ca_ptrs a2) = true /\ pl_old_size (ca_ptrs a2) = pl_old_size (ca_ptrs a) /\ exists f al, ca_zim a2 = set_file f (set_alloc al (ca_zim a)).
Proof.
  intros m a2 c2 H. unfold write_cluster in H.
  destruct (write_begin fuel new_comp comp flush ops num a c) as [[[[m' off] chunks]|x] [a1 c1]] eqn:EB; [|discriminate H].
  destruct (written_at _ _ _ _ _ _ _ _ EB H) as (-> & G). split; [reflexivity|]. exists off, (zlen (concat chunks)). exact G.
Qed.
End Written.

(** ** Removing *)
Lemma removed : forall a cells L i p c, archive_ok Stream a cells L -> at_number L i (p, c) -> enough fuel (ca_file a) c ->
  exists a2, remove_cluster_by_index fuel dc new_decomp kd a i = (Ok tt, a2) /\ archive_ok Stream a2 cells (replace_at i None L) /\ ca_file a2 = ca_file a /\
    (forall x, in_use (ca_alloc a) x -> (forall d, at_number L i d -> ~ covers d x) -> in_use (ca_alloc a2) x).
Proof.
  intros a cells L i p c AO HN EN. pose proof (znth_some _ _ _ HN) as RG. pose proof (ao_ptrs _ _ _ _ AO _ _ HN) as PI. cbn [fst] in PI.
  destruct (opened_index a cells L i p c AO HN EN) as (o & Inv & EO & OLD & _).
  unfold remove_cluster_by_index. replace (i <? 0) with false by lia.
  assert (G : get_by_index (pl_ptrs (ca_ptrs a)) i = Ok p). { rewrite get_by_index_znth by lia. rewrite PI. reflexivity. }
  rewrite G, EO. cbn [bind]. rewrite OLD. pose proof (ao_core _ _ _ _ AO) as CO. pose proof (co_canonical _ _ CO) as Ca. pose proof (co_end _ _ CO) as En.
  change (z_alloc (ca_zim a)) with (ca_alloc a) in Ca, En.
  destruct (cluster_len _ _ _ _ (ao_stored _ _ _ _ AO _ _ HN)) as (Hp & Hl & _). cbn [fst snd] in Hp, Hl.
  destruct (mark_free_total (ca_alloc a) p (cc_len c)) as (s & MF); [lia..|]. rewrite MF.
  cbn [bind]. destruct (freed a cells L i p c (ca_alloc a) s AO HN Ca (fun x H => H) MF) as (C3 & FE & U3).
  change (ca_ptrs (ca_set_alloc s a)) with (ca_ptrs a).
  pose proof (znth_some _ _ _ PI) as RP. pose proof (ao_mutable _ _ _ _ AO) as MU. pose proof (ao_count _ _ _ _ AO) as CN.
  pose proof (ao_positive _ _ _ _ AO) as PO.
  set (l := pl_ptrs (ca_ptrs a)) in *.
  assert (Q : exists q, (if i =? zlen l - 1 then pl_remove_by_index i (ca_ptrs a) else do placeholder <- get_by_index l (zlen l - 1);; pl_set i placeholder false (ca_ptrs a)) = Ok q /\
    (forall j x, j <> i -> znth l j = Some x -> znth (pl_ptrs q) j = Some x) /\ zlen (pl_ptrs q) <= zlen l /\ pl_mutable q = true /\ Forall (fun p => 0 <= p) (pl_ptrs q)).
  { destruct (Z.eqb_spec i (zlen l - 1)) as [EI|NI].
    - unfold pl_remove_by_index. fold l. replace (i <? 0) with false by lia. rewrite MU. cbn [negb].
      unfold py_index. replace ((0 <=? i) && (i <? zlen l)) with true by lia. eexists. split; [reflexivity|]. cbn [pl_change pl_ptrs pl_mutable]. fold l.
      assert (NP : nth_error l (Z.to_nat i) = Some p). { unfold znth in PI. replace (i <? 0) with false in PI by lia. exact PI. }
      destruct (list_pop_split _ _ _ NP) as (u & v & EL & LU & ->). split; [|split; [|split; [exact MU|]]].
      + intros j x NJ EJ. pose proof (znth_some _ _ _ EJ). rewrite EL in EJ. rewrite znth_app_l in EJ |- * by (unfold zlen in *; lia). exact EJ.
      + rewrite EL, !zlen_app. unfold zlen. cbn [length]. lia.
      + rewrite EL in PO. apply Forall_app in PO as (PO1 & PO2). inversion PO2; subst. apply Forall_app. auto.
    - assert (GL : exists z, get_by_index l (zlen l - 1) = Ok z /\ znth l (zlen l - 1) = Some z).
      { rewrite get_by_index_znth by lia. destruct (znth l (zlen l - 1)) as [z|] eqn:Z; [eauto|]. apply PointerListProofs.znth_none in Z; lia. }
      destruct GL as (z & -> & ZL). cbn [bind].
      assert (Hz : 0 <= z). { rewrite Forall_forall in PO. apply PO. eapply znth_In. exact ZL. }
      assert (PS : exists q, pl_set i z true (ca_ptrs a) = Ok q /\ pl_set i z false (ca_ptrs a) = Ok q).
      { unfold pl_set. fold l. replace (z <? 0) with false by lia. rewrite MU. cbn [negb]. rewrite andb_false_r. replace ((zlen l <? i) && true) with false by lia.
        cbv zeta. replace (i <? zlen l) with true by lia. unfold py_index. replace ((0 <=? i) && (i <? zlen l)) with true by lia. eauto. }
      destruct PS as (q & PS & ->). destruct (pl_set_spec _ _ _ _ (proj1 RG) PS) as (_ & P2 & P3 & P4 & P5). fold l in P2, P3, P5.
      exists q. split; [reflexivity|]. split; [exact P2|]. split; [lia|]. split; [exact P4|exact (P5 PO)]. }
  destruct Q as (q & EQ & Q1 & Q2 & Q3 & Q4). rewrite EQ. eexists. split; [reflexivity|].
  split; [|split; [reflexivity|intros x Hx Hd; change (in_use s x); apply U3; split; [exact Hx|apply Hd; exact HN]]].
  assert (EA : ca_set_ptrs q (ca_set_alloc s a) = mkCa (set_file (ca_file a) (set_alloc s (ca_zim a))) q (ca_next a)) by (destruct a as [[] ? ?]; reflexivity).
  rewrite EA. eapply (replaced Stream a cells L i); [exact AO|lia|apply keeps_refl|exact C3|lia| | | | | |exact Q4|exact Q3|].
  - intros x Hx Hd. apply U3. split; [exact Hx|]. apply Hd. exact HN.
  - discriminate.
  - discriminate.
  - intros j d NJ Hd. apply Q1; [exact NJ|]. apply (ao_ptrs _ _ _ _ AO _ _ Hd).
  - lia.
  - pose proof (ao_next _ _ _ _ AO). lia.
Qed.

(** ** Histories *)
Lemma data_size : forall ext b, zlen (cluster_data ext b) <= zlen (cluster_data true b).
Proof. intros ext b. rewrite !cluster_data_len. unfold pointers_size. pose proof (zlen_nonneg b). destruct ext; cbn [pointer_bytes]; lia. Qed.
Lemma ample_enough : forall a X i off c L, ample fuel a X -> blobs_of L = X -> at_number L i (off, c) -> enough fuel (ca_file a) c.
Proof.
  intros a X i off c L AM <- HN. unfold enough. pose proof (data_size (cc_ext c) (cc_blobs c)).
  assert (I : In (Some (cc_blobs c)) (blobs_of L)). { apply in_map_iff. exists (Some (off, c)). split; [reflexivity|]. eapply znth_In. exact HN. }
  specialize (AM _ I). lia.
Qed.
Lemma blobs_numbered : forall L i b, znth (blobs_of L) i = Some (Some b) -> exists off c, at_number L i (off, c) /\ cc_blobs c = b.
Proof.
  intros L i b H. unfold blobs_of in H. rewrite znth_map in H. destruct (znth L i) as [[(off, c)|]|] eqn:E; try discriminate H. injection H as <-. exists off, c. auto.
Qed.

Lemma edited_new_ok : forall h, (0 < fuel)%nat -> history_ok fuel true [] [] h -> history_safe true [] [] [] h ->
  exists w, edited_new fuel h = (Ok tt, co_set w new_cluster) /\ rep fuel (fun o => o = None) [] w (edit_lists true [] h []) /\
    w_ext w = forced_extension true h /\ w_comp w = forced_compression true h.
Proof.
  intros h HF OK SF. pose proof (holds_empty (option Z) (fun o => o = None)) as HE.
  pose proof (wrap_rep inner_empty fuel (fun o : option Z => o = None) _ _ _ HE None eq_refl) as R.
  destruct (edits_rep inner_empty fuel (fun o : option Z => o = None) _ _ _ HE h (wrap inner_empty None) [] [] HF R) as (w & E & R' & X1 & X2); [intros x Hx; exact Hx|exact OK|exact SF|].
  exists w. unfold edited_new. change (co_wrap new_cluster) with (wrap (@inner_empty (option Z)) None). rewrite E. split; [reflexivity|]. split; [exact R'|]. split; [exact X1|exact X2].
Qed.
Lemma edited_ok : forall a cells L i off c h, (0 < fuel)%nat -> archive_ok Stream a cells L -> at_number L i (off, c) -> enough fuel (ca_file a) c ->
  history_ok fuel false (cc_blobs c) (cc_blobs c) h -> history_safe false (cc_blobs c) (cc_blobs c) [] h ->
  exists w Inv, edited fuel dc new_decomp kd a i h = Ok (mkCobj w (cc_len c)) /\
    holds (inner_cluster dc new_decomp (ca_file a) fuel) Inv (cc_ct c) (cc_ext c) (cc_blobs c) /\
    rep fuel Inv (cc_blobs c) w (edit_lists false (cc_blobs c) h (cc_blobs c)) /\ forall x, Inv x -> cl_offset x = off.
Proof.
  intros a cells L i off c h HF AO HN EN OK SF. destruct (opened_index a cells L i off c AO HN EN) as (o & Inv & E & OLD & HO & R & _ & _ & RM & OFF).
  destruct (edits_rep _ fuel Inv _ _ _ HO h (co_wrap o) _ [] HF R) as (w & EE & R' & _); [rewrite RM; apply incl_refl|exact OK|exact SF|].
  exists w, Inv. unfold edited. rewrite E. cbn [bind]. rewrite EE. unfold co_set. rewrite OLD. auto.
Qed.

Lemma all_present : forall a cells L i p c, archive_ok Stream a cells L -> at_number L i (p, c) -> ~ In None (blobs_of L) ->
  forall j, 0 <= j < i -> znth (pl_ptrs (ca_ptrs a)) j <> Some p.
Proof.
  intros a cells L i p c AO HN NI j Hj E. pose proof (znth_some _ _ _ HN) as RG.
  destruct (znth L j) as [[(q, d)|]|] eqn:EJ.
  - pose proof (ao_ptrs _ _ _ _ AO j (q, d) EJ) as P. rewrite P in E. cbn [fst] in E. injection E as ->.
    destruct (cluster_len _ _ _ _ (ao_stored _ _ _ _ AO _ _ HN)) as (_ & L1 & _). destruct (cluster_len _ _ _ _ (ao_stored _ _ _ _ AO _ _ EJ)) as (_ & L2 & _).
    cbn [fst snd] in *. apply (ao_separate _ _ _ _ AO i j (p, c) (p, d) HN EJ ltac:(lia) p). unfold covers. cbn [fst snd]. lia.
  - apply NI. apply in_map_iff. exists None. split; [reflexivity|]. eapply znth_In. exact EJ.
  - apply PointerListProofs.znth_none in EJ; lia.
Qed.

Lemma blobs_replace : forall n v L, 0 <= n <= zlen L -> blobs_of (replace_at n v L) = replace_at n (option_map (fun c => cc_blobs (snd c)) v) (blobs_of L).
Proof.
  intros n v L H. assert (ZL : zlen (blobs_of L) = zlen L) by (unfold blobs_of, zlen; rewrite map_length; reflexivity).
  assert (E : forall i, znth (blobs_of (replace_at n v L)) i = znth (replace_at n (option_map (fun c => cc_blobs (snd c)) v) (blobs_of L)) i).
  { intro i. unfold blobs_of at 1. rewrite znth_map, !replace_nth by (try rewrite ZL; exact H). destruct (i =? n); [reflexivity|]. unfold blobs_of. rewrite znth_map. reflexivity. }
  apply nth_error_ext. intro k. specialize (E (Z.of_nat k)). unfold znth in E. replace (Z.of_nat k <? 0) with false in E by lia. rewrite Nat2Z.id in E. exact E.
Qed.

Lemma step_ok : forall a cells L o n a1, (0 < fuel)%nat -> archive_ok Stream a cells L -> let X := blobs_of L in
  ample fuel a X -> cop_ok fuel X o -> unambiguous X o -> perform_cop fuel dc new_decomp new_comp comp flush kd a o = (Ok n, a1) ->
  n = cop_number X o /\ (exists L', archive_ok Stream a1 cells L' /\ blobs_of L' = cop_list X o) /\
  (forall x, in_use (ca_alloc a) x -> (forall d, at_number L n d -> ~ covers d x) -> in_use (ca_alloc a1) x).
Proof.
  intros a cells L o n a1 HF AO X AM OK UN H. assert (ZX : zlen X = zlen L) by (unfold X, blobs_of, zlen; rewrite map_length; reflexivity).
  destruct o as [h|i h told|i]; cbn [cop_ok cop_number cop_list perform_cop] in *.
  - destruct OK as (O1 & O2). destruct (edited_new_ok h HF O1 O2) as (w & E & R & _). rewrite E in H.
    destruct (write_cluster fuel new_comp comp flush new_ops None a (co_set w new_cluster)) as [r [a2 c2]] eqn:W. injection H as -> <-.
    destruct (written new_ops a (co_set w new_cluster) None (fun o => o = None) NONE false [] (edit_lists true [] h []) None
      (holds_empty (option Z) _) (rep_sane _ _ _ _ _ R) R (fun x Hx => Hx) cells L (zlen L) AO (or_introl (conj eq_refl eq_refl)) n a2 c2 W) as (-> & off & len & AO' & US & _).
    split; [symmetry; exact ZX|]. split; [|exact US]. eexists. split; [exact AO'|]. rewrite blobs_replace by (pose proof (zlen_nonneg L); lia). cbn [option_map snd cc_blobs].
    fold X. rewrite <- ZX. apply append_replace.
  - destruct OK as (b & EB & O1 & O2). destruct (blobs_numbered _ _ _ EB) as (off & c & HN & <-). pose proof (ample_enough _ _ _ _ _ _ AM eq_refl HN) as EN.
    assert (BA : blobs_at X i = cc_blobs c) by (unfold blobs_at; rewrite EB; reflexivity). rewrite BA.
    destruct (edited_ok a cells L i off c h HF AO HN EN O1 O2) as (w & Inv & E & HO & R & OFF). rewrite E in H.
    destruct (write_cluster fuel new_comp comp flush (stored_ops dc new_decomp fuel) (told_number i told) a _) as [r [a2 c2]] eqn:W. injection H as -> <-.
    assert (PL : placed a L i (Some off) (cc_len c) (told_number i told)).
    { right. exists off, c. split; [exact HN|]. split; [reflexivity|]. split; [reflexivity|]. destruct told; [left; reflexivity|right]. split; [reflexivity|].
      eapply all_present; [exact AO|exact HN|exact UN]. }
    destruct (written (stored_ops dc new_decomp fuel) a (mkCobj w (cc_len c)) (told_number i told) Inv (cc_ct c) (cc_ext c) (cc_blobs c) _ (Some off)
      HO (rep_sane _ _ _ _ _ R) R (fun x Hx => f_equal Some (OFF x Hx)) cells L i AO PL n a2 c2 W) as (-> & off' & len & AO' & US & _).
    split; [reflexivity|]. split; [|exact US]. eexists. split; [exact AO'|]. pose proof (znth_some _ _ _ HN). rewrite blobs_replace by lia. reflexivity.
  - destruct OK as (b & EB). destruct (blobs_numbered _ _ _ EB) as (off & c & HN & <-). pose proof (ample_enough _ _ _ _ _ _ AM eq_refl HN) as EN.
    destruct (removed a cells L i off c AO HN EN) as (a2 & E & AO' & _ & US). rewrite E in H. cbn [bind] in H. injection H as <- <-.
    split; [reflexivity|]. split; [|exact US]. eexists. split; [exact AO'|]. pose proof (znth_some _ _ _ HN). rewrite blobs_replace by lia. reflexivity.
Qed.
Lemma history_steps : forall a X ops a' X', happens fuel dc new_decomp new_comp comp flush kd unambiguous a X ops a' X' ->
  forall cells L, (0 < fuel)%nat -> archive_ok Stream a cells L -> X = blobs_of L -> exists L', archive_ok Stream a' cells L' /\ blobs_of L' = X'.
Proof.
  intros a X ops a' X' H. induction H as [a X|a X o n a1 ops a' X' AM OK UN E H IH]; intros cells L HF AO ->.
  - eauto.
  - destruct (step_ok a cells L o n a1 HF AO AM OK UN E) as (_ & (L1 & A1 & E1) & _). apply (IH cells L1 HF A1). symmetry. exact E1.
Qed.
Lemma shown_all : forall a cells L i b, archive_ok Stream a cells L -> ample fuel a (blobs_of L) -> znth (blobs_of L) i = Some (Some b) ->
  shows fuel dc new_decomp kd a i b.
Proof.
  intros a cells L i b AO AM H. destruct (blobs_numbered _ _ _ H) as (off & c & HN & <-). eapply shown; [exact AO|exact HN|]. eapply ample_enough; [exact AM|reflexivity|exact HN].
Qed.
Lemma crash_ok : forall a cells L o f, (0 < fuel)%nat -> archive_ok Stream a cells L -> let X := blobs_of L in
  ample fuel a X -> cop_ok fuel X o -> unambiguous X o -> crash fuel dc new_decomp new_comp comp flush kd a o f ->
  keeps (ca_file a) f (in_use (ca_alloc a)) /\ archive_ok Stream (ca_set_file f a) cells L.
Proof.
  intros a cells L o f HF AO X AM OK UN H. destruct o as [h|i h told|i]; cbn [cop_ok crash] in *.
  - destruct OK as (O1 & O2). destruct (edited_new_ok h HF O1 O2) as (w & E & R & _). destruct H as (c & n & off & chunks & a1 & c1 & E' & W & T).
    rewrite E in E'. injection E' as <-.
    exact (torn_ok new_ops a (co_set w new_cluster) None (fun o => o = None) NONE false [] (edit_lists true [] h []) None
      (holds_empty (option Z) _) (rep_sane _ _ _ _ _ R) R (fun x Hx => Hx) cells L (zlen L) AO (or_introl (conj eq_refl eq_refl)) _ _ _ _ _ _ W T).
  - destruct OK as (b & EB & O1 & O2). destruct (blobs_numbered _ _ _ EB) as (off & c & HN & <-). pose proof (ample_enough _ _ _ _ _ _ AM eq_refl HN) as EN.
    destruct (edited_ok a cells L i off c h HF AO HN EN O1 O2) as (w & Inv & E & HO & R & OFF). destruct H as (c0 & n & off' & chunks & a1 & c1 & E' & W & T).
    rewrite E in E'. injection E' as <-.
    assert (PL : placed a L i (Some off) (cc_len c) (told_number i told)).
    { right. exists off, c. split; [exact HN|]. split; [reflexivity|]. split; [reflexivity|]. destruct told; [left; reflexivity|right]. split; [reflexivity|].
      eapply all_present; [exact AO|exact HN|exact UN]. }
    exact (torn_ok (stored_ops dc new_decomp fuel) a (mkCobj w (cc_len c)) (told_number i told) Inv (cc_ct c) (cc_ext c) (cc_blobs c) _ (Some off)
      HO (rep_sane _ _ _ _ _ R) R (fun x Hx => f_equal Some (OFF x Hx)) cells L i AO PL _ _ _ _ _ _ W T).
  - subst f. split; [apply keeps_refl|]. replace (ca_set_file (ca_file a) a) with a by (destruct a as [[] ? ?]; reflexivity). exact AO.
Qed.

(** Whatever happens, only bytes that were not in use are written. *)
Lemma write_file : forall I (ops : cops I) num a c r a2 c2, write_cluster fuel new_comp comp flush ops num a c = (r, (a2, c2)) ->
  ca_file a2 = ca_file a \/ exists n off chunks a1 c1, write_begin fuel new_comp comp flush ops num a c = (Ok (n, off, chunks), (a1, c1)) /\
    ca_file a2 = write_chunks (ca_file a1) off chunks.
Proof.
  intros I ops num a c r a2 c2 H. unfold write_cluster in H.
  destruct (write_begin fuel new_comp comp flush ops num a c) as [[[[n off] chunks]|x] [a1 c1]] eqn:EB.
  - right. exists n, off, chunks, a1, c1. split; [reflexivity|]. unfold write_end in H. cbv zeta in H.
    destruct (pl_set n off true _) as [p|x]; [|injection H as _ <- _; reflexivity].
    match type of H with (match ?m with _ => _ end) = _ => destruct m as [[size|x] w] end; [|injection H as _ <- _; reflexivity].
    destruct (co_offset ops c1) as [o|]; [|injection H as _ <- _; reflexivity].
    destruct (mark_free _ o (co_old c1)); injection H as _ <- _; reflexivity.
  - injection H as _ <- _. left. unfold write_begin in EB.
    destruct (match num with Some n => n <? 0 | None => false end); [injection EB as _ <- _; reflexivity|].
    destruct (wdisk _ _ _ _ _ _ _) as [[sz|y] w]; [|injection EB as _ <- _; reflexivity].
    match type of EB with (match ?m with _ => _ end) = _ => destruct m as [[n a0]|y] eqn:EN end; [|injection EB as _ <- _; reflexivity].
    assert (F : ca_file a0 = ca_file a).
    { destruct (co_offset ops _); [destruct num|].
      - injection EN as _ <-. reflexivity.
      - destruct (get_cluster_index_by_offset a z); [injection EN as _ <-; reflexivity|discriminate EN].
      - injection EN as _ <-. reflexivity. }
    destruct (allocate _ sz) as [(o, s)|y]; [|injection EB as _ <- _; exact F].
    destruct (wwrite _ _ _ _ _ _ _) as [[ch|y] w1]; [discriminate EB|injection EB as _ <- _; exact F].
Qed.
Lemma bytes_ok : forall a cells L o r a1, (0 < fuel)%nat -> archive_ok Stream a cells L -> let X := blobs_of L in
  ample fuel a X -> cop_ok fuel X o -> unambiguous X o -> perform_cop fuel dc new_decomp new_comp comp flush kd a o = (r, a1) ->
  keeps (ca_file a) (ca_file a1) (in_use (ca_alloc a)).
Proof.
  intros a cells L o r a1 HF AO X AM OK UN H.
  assert (G : ca_file a1 = ca_file a \/ crash fuel dc new_decomp new_comp comp flush kd a o (ca_file a1)).
  { destruct o as [h|i h told|i]; cbn [cop_ok perform_cop crash] in *.
    - destruct OK as (O1 & O2). destruct (edited_new_ok h HF O1 O2) as (w & E & R & _). rewrite E in H |- *.
      destruct (write_cluster fuel new_comp comp flush new_ops None a (co_set w new_cluster)) as [r2 [a2 c2]] eqn:W. injection H as -> <-.
      destruct (write_file _ _ _ _ _ _ _ _ W) as [G|(n & off & chunks & b1 & c1 & EB & G)]; [left; exact G|].
      destruct (began new_ops a (co_set w new_cluster) None (fun o => o = None) NONE false [] (edit_lists true [] h []) None
        (holds_empty (option Z) _) (rep_sane _ _ _ _ _ R) R (fun x Hx => Hx) cells L (zlen L) AO (or_introl (conj eq_refl eq_refl)) _ _ _ _ _ EB) as (_ & Ho & NE & EF & _).
      right. exists (co_set w new_cluster), n, off, chunks, b1, c1. split; [reflexivity|]. split; [exact EB|]. right. exists (length (concat chunks)).
      rewrite firstn_all, G, EF. apply write_chunks_concat; assumption.
    - destruct OK as (b & EB & O1 & O2). destruct (blobs_numbered _ _ _ EB) as (off & c & HN & <-). pose proof (ample_enough _ _ _ _ _ _ AM eq_refl HN) as EN.
      destruct (edited_ok a cells L i off c h HF AO HN EN O1 O2) as (w & Inv & E & HO & R & OFF). rewrite E in H |- *.
      destruct (write_cluster fuel new_comp comp flush (stored_ops dc new_decomp fuel) (told_number i told) a _) as [r2 [a2 c2]] eqn:W. injection H as -> <-.
      assert (PL : placed a L i (Some off) (cc_len c) (told_number i told)).
      { right. exists off, c. split; [exact HN|]. split; [reflexivity|]. split; [reflexivity|]. destruct told; [left; reflexivity|right]. split; [reflexivity|].
        eapply all_present; [exact AO|exact HN|exact UN]. }
      destruct (write_file _ _ _ _ _ _ _ _ W) as [G|(n & o2 & chunks & b1 & c1 & EB' & G)]; [left; exact G|].
      destruct (began (stored_ops dc new_decomp fuel) a (mkCobj w (cc_len c)) (told_number i told) Inv (cc_ct c) (cc_ext c) (cc_blobs c) _ (Some off)
        HO (rep_sane _ _ _ _ _ R) R (fun x Hx => f_equal Some (OFF x Hx)) cells L i AO PL _ _ _ _ _ EB') as (_ & Ho & NE & EF & _).
      right. exists (mkCobj w (cc_len c)), n, o2, chunks, b1, c1. split; [reflexivity|]. split; [exact EB'|]. right. exists (length (concat chunks)).
      rewrite firstn_all, G, EF. apply write_chunks_concat; assumption.
    - destruct OK as (b & EB). destruct (blobs_numbered _ _ _ EB) as (off & c & HN & <-). pose proof (ample_enough _ _ _ _ _ _ AM eq_refl HN) as EN.
      destruct (removed a cells L i off c AO HN EN) as (a2 & E & AO' & EF & _). rewrite E in H. injection H as _ <-. left. exact EF. }
  destruct G as [->|G]; [apply keeps_refl|]. exact (proj1 (crash_ok a cells L o _ HF AO AM OK UN G)).
Qed.

(** New clusters can be written. *)
Lemma write_new_total : forall a cells L w Bl k, archive_ok Stream a cells L -> rep fuel (fun o => o = None) [] w Bl ->
  new_comp (compression_of NONE w) = Ok k -> compression_of NONE w <> UNKNOWN -> fits (wwide false w Bl) Bl ->
  exists n a1 c1, write_cluster fuel new_comp comp flush new_ops None a (co_set w new_cluster) = (Ok n, (a1, c1)).
Proof.
  intros a cells L w Bl k AO R NC NK FW.
  pose proof (cd_comp _ _ _ _ _ _ CD) as CO. pose proof (ao_core _ _ _ _ AO) as CR.
  set (cm := compression_of NONE w) in *. assert (CW : compression_of NONE w = cm) by reflexivity.
  assert (STEP : forall (P : option Z -> Prop) w', view fuel P [] w' Bl -> w_ext w' = w_ext w -> w_comp w' = w_comp w -> has_modifications w' = has_modifications w ->
    exists l w2, iter_write inner_empty fuel K new_comp comp flush w' = (Ok l, w2) /\ view fuel P [] w2 Bl /\ w_ext w2 = w_ext w /\ w_comp w2 = w_comp w /\ has_modifications w2 = has_modifications w).
  { intros P w' V Q1 Q2 Q3. pose proof (holds_empty (option Z) P) as HE.
    assert (CW' : compression_of NONE w' = cm) by (unfold compression_of in *; rewrite Q2; exact CW).
    destruct (iter_write_ok inner_empty fuel P NONE false [] HE K new_comp comp flush Stream CO w' Bl k V) as (G & _); [rewrite CW'; exact NC|rewrite CW'; exact NK|].
    destruct G as (l & w2 & b & C & EW & V2 & S & _). { unfold wwide in *. rewrite Q1, Q3. exact FW. }
    exists l, w2. split; [exact EW|]. split; [exact V2|]. rewrite (same_mod _ _ _ _ _ S), Q3. destruct S as (_ & _ & _ & S1 & S2 & _). rewrite S1, S2. auto. }
  destruct (STEP _ w R eq_refl eq_refl eq_refl) as (l1 & w1 & EW1 & V1 & A1 & B1 & M1).
  destruct (STEP _ w1 V1 A1 B1 M1) as (l2 & w2 & EW2 & V2 & A2 & B2 & M2).
  assert (OF : co_offset new_ops (co_set w1 (co_set w new_cluster)) = None) by (exact (vw_inv _ _ _ _ _ V1)).
  assert (OF2 : co_offset new_ops (co_set w2 (co_set w1 (co_set w new_cluster))) = None) by (exact (vw_inv _ _ _ _ _ V2)).
  destruct (allocate_total (ca_alloc a) (zlen (concat l1)) (zlen_nonneg _)) as (off & s & AL).
  pose proof (co_canonical _ _ CR) as Ca. pose proof (co_end _ _ CR) as En. change (z_alloc (ca_zim a)) with (ca_alloc a) in Ca, En.
  destruct (allocate_in_use _ _ _ _ Ca En AL) as (Ho & _).
  assert (EB : write_begin fuel new_comp comp flush new_ops None a (co_set w new_cluster) =
    (Ok (ca_next a, off, l2), (ca_set_alloc s (ca_set_next (ca_next a + 1) a), co_set w2 (co_set w1 (co_set w new_cluster))))).
  { unfold write_begin, wdisk, wdisk_size, mbind. cbn [op_inner new_ops]. change (co_wrap (co_set w new_cluster)) with w. rewrite EW1. cbn [ret]. rewrite OF.
    unfold new_cluster_num. change (ca_alloc (ca_set_next (ca_next a + 1) a)) with (ca_alloc a). rewrite AL. unfold wwrite. cbn [op_inner new_ops].
    change (co_wrap (co_set w1 (co_set w new_cluster))) with w1. rewrite EW2. reflexivity. }
  unfold write_cluster. rewrite EB. unfold write_end. rewrite OF2.
  assert (PS : exists q, pl_set (ca_next a) off true (ca_ptrs a) = Ok q).
  { unfold pl_set. replace (off <? 0) with false by lia. cbn [negb]. rewrite andb_false_r, (ao_mutable _ _ _ _ AO). cbn [negb]. cbv zeta.
    assert (0 <= ca_next a) by (rewrite (ao_next _ _ _ _ AO); apply zlen_nonneg).
    destruct (ca_next a <? zlen (pl_ptrs (ca_ptrs a))) eqn:LT; [|destruct (ca_next a =? _); eauto].
    unfold py_index. replace ((0 <=? ca_next a) && (ca_next a <? zlen (pl_ptrs (ca_ptrs a)))) with true by lia. eauto. }
  destruct PS as (q & PS). cbn [ca_ptrs ca_set_file ca_set_alloc ca_set_next]. rewrite PS. cbv zeta. unfold wdisk, wdisk_size, mbind. cbn [op_inner new_ops].
  set (w3 := co_wrap _). destruct (STEP (fun o => o = Some off) w3) as (l3 & w4 & EW3 & _).
  { constructor; [reflexivity|exact (vw_len _ _ _ _ _ V2)|exact (vw_item _ _ _ _ _ V2)]. }
  { exact A2. } { exact B2. } { exact M2. }
  rewrite EW3. cbn [ret]. eexists. eexists. eexists. reflexivity.
Qed.
Lemma new_total : forall a cells L h k, (0 < fuel)%nat -> archive_ok Stream a cells L -> history_ok fuel true [] [] h -> history_safe true [] [] [] h ->
  let Bl := edit_lists true [] h [] in let cm := match forced_compression true h with Some c => c | None => NONE end in
  new_comp cm = Ok k -> cm <> UNKNOWN -> (forall e, width_ok (forced_extension true h) false [] Bl e -> fits e Bl) ->
  exists n a1, perform_cop fuel dc new_decomp new_comp comp flush kd a (CNew h) = (Ok n, a1).
Proof.
  intros a cells L h k HF AO O1 O2 Bl cm NC NK FI. destruct (edited_new_ok h HF O1 O2) as (w & E & R & X1 & X2). cbn [perform_cop]. rewrite E. fold Bl in R.
  assert (CW : compression_of NONE w = cm) by (unfold compression_of; rewrite X2; reflexivity).
  destruct (write_new_total a cells L w Bl k AO R) as (n & a1 & c1 & W).
  { rewrite CW. exact NC. } { rewrite CW. exact NK. } { apply FI. rewrite <- X1. eapply wwide_ok. exact R. }
  rewrite W. eauto.
Qed.
End Codec.
