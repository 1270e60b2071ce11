(** Proofs for C74. *)
From Coq Require Import List ZArith Bool Lia.
From Coq Require Import ZifyBool ZifyNat.
From Verif Require Import Base BaseProofs Dict Infobyte InfobyteProofs Reader ReaderSpec Entry EntrySpec PointerList PointerListProofs SpaceAllocator SpaceAllocatorSpec
  Cluster ClusterSpec ClusterProofs ClusterWrapper ClusterWrapperSpec ClusterWrapperProofs Archive ArchiveSpec ArchiveProofs ArchiveWriteProofs ArchiveMoveProofs
  ArchiveCluster ArchiveClusterSpec ArchiveClusterProofs ClusterReuseProofs ClusterObjectSpec.
Import ListNotations.
Open Scope Z_scope.

Section Codec.
Variable fuel : nat.
Context {D : Type}.
Variable dc : decomp D.
Variable new_decomp : ctype -> res D.
Context {K : Type}.
Variable new_comp : ctype -> res K.
Variable comp : K -> bytes -> res (bytes * K).
Variable flush : K -> res bytes.
Variable kd : ckind.
Variable Stream : ctype -> bytes -> bytes -> Prop.
Hypothesis CD : codec_ok dc new_decomp new_comp comp flush Stream.
Hypothesis SD : steady new_comp comp flush.

(** What a wrapper writes: the information byte and the compressed data. *)
Lemma stream_written : forall I (ic : inner I) Inv ct ext orig, holds ic Inv ct ext orig -> forall w Bl k l w',
  view fuel Inv orig w Bl -> new_comp (compression_of ct w) = Ok k -> compression_of ct w <> UNKNOWN ->
  iter_write ic fuel K new_comp comp flush w = (Ok l, w') ->
  view fuel Inv orig w' Bl /\ same ic ct ext w w' /\
  exists b xs out, l = [b] :: out /\ compress_all K comp flush k xs = Ok out /\ concat xs = cluster_data (wwide ext w Bl) Bl.
Proof.
  intros I ic Inv ct ext orig HO w Bl k l w' V NC NU E. destruct (infobyte_roundtrip _ (wwide ext w Bl) NU) as (b & GI & _).
  destruct (iter_write_eq ic fuel Inv ct ext orig HO K new_comp comp flush w Bl b k V NC GI) as (w1 & V1 & (S1 & _) & E1). rewrite E in E1.
  pose proof (f_equal snd E1) as E0. cbn [snd] in E0. subst w1. split; [exact V1|]. split; [exact S1|]. apply (f_equal fst) in E1. cbn [fst] in E1.
  assert (P0 : 0 <= pointers_size (wwide ext w Bl) Bl) by (unfold pointers_size; pose proof (zlen_nonneg Bl); lia).
  destruct (Z.lt_ge_cases (pointers_size (wwide ext w Bl) Bl + zlen (concat Bl)) (256 ^ Z.of_nat (pointer_bytes (wwide ext w Bl)))) as [FI|FI].
  2: { rewrite (pack_fails ct K new_comp comp) in E1; [discriminate E1|exact P0|lia]. }
  rewrite (pack_ok ct K new_comp comp) in E1; [|exact P0|exact FI]. cbn [bind] in E1.
  set (xs := _ :: _) in E1. destruct (compress_all K comp flush k xs) as [out|x] eqn:EC; [|discriminate E1]. injection E1 as ->.
  exists b, xs, out. split; [reflexivity|]. split; [exact EC|]. subst xs. cbn [concat]. unfold cluster_data, positions. f_equal.
  destruct (raw_blobs_ok ic fuel Inv ct ext orig HO Bl (Z.to_nat (zlen Bl)) 0 w w V (same_refl _ _ _ w)) as (w7 & _ & _ & _ & C); [unfold zlen; lia|].
  unfold zrange. rewrite C. cbn [skipn]. unfold zlen. rewrite Nat2Z.id, firstn_all. reflexivity.
Qed.

Section Write.
Context {I : Type}.
Variable ops : cops I.
Variables (a : carchive) (c : cobj I) (num : option Z).
Variable Inv : I -> Prop.
Variables (ct : ctype) (ext : bool) (orig Bl : list bytes).
Hypothesis HO : holds (op_inner ops (ca_file a)) Inv ct ext orig.
Hypothesis R : rep fuel Inv orig (co_wrap c) Bl.

Lemma begin_object : forall n off chunks a1 c1,
  write_begin fuel new_comp comp flush ops num a c = (Ok (n, off, chunks), (a1, c1)) ->
  let w := co_wrap c in
  rep fuel Inv orig (co_wrap c1) Bl /\ same (op_inner ops (ca_file a)) ct ext w (co_wrap c1) /\ compression_of ct w <> UNKNOWN /\
  exists k b xs out, new_comp (compression_of ct w) = Ok k /\ chunks = [b] :: out /\
    compress_all K comp flush k xs = Ok out /\ concat xs = cluster_data (wwide ext w Bl) Bl.
Proof.
  intros n off chunks a1 c1 H w. unfold write_begin in H.
  destruct (match num with Some n => n <? 0 | None => false end); [discriminate H|].
  set (ic := op_inner ops (ca_file a)) in *.
  unfold wdisk, wdisk_size, mbind in H. fold ic w in H. fold w in R.
  destruct (iter_write ic fuel K new_comp comp flush w) as [[l|x] w1] eqn:EW; [|discriminate H]. cbn [ret] in H.
  assert (HN : 0 <= zlen orig - zlen (w_removed w) + zlen (w_added w)) by (rewrite <- (vw_len _ _ _ _ _ R); apply zlen_nonneg).
  destruct (written_view ic fuel Inv ct ext orig HO K new_comp comp flush w l w1 (rep_sane fuel _ _ _ _ _ R) HN (cd_unknown _ _ _ _ _ _ CD) EW) as (NK & _ & k & _ & NC).
  destruct (stream_written _ ic Inv ct ext orig HO w Bl k l w1 R NC NK EW) as (V1 & S1 & _).
  assert (CW : compression_of ct w1 = compression_of ct w) by (unfold compression_of; destruct S1 as (_ & _ & _ & _ & -> & _); reflexivity).
  match type of H with (match ?m with _ => _ end) = _ => destruct m as [[m0 a0]|x] eqn:EN end; [|discriminate H].
  assert (F : ca_file a0 = ca_file a).
  { destruct (co_offset ops _); [destruct num|].
    - injection EN as _ <-. reflexivity.
    - destruct (get_cluster_index_by_offset a z); [injection EN as _ <-; reflexivity|discriminate EN].
    - injection EN as _ <-. reflexivity. }
  destruct (allocate _ _) as [[p s]|x]; [|discriminate H].
  change (ca_file (ca_set_alloc s a0)) with (ca_file a0) in H. rewrite F in H. unfold wwrite in H. fold ic in H. cbn [co_set co_wrap] in H.
  destruct (iter_write ic fuel K new_comp comp flush w1) as [[l2|x] w2] eqn:EW2; [|discriminate H]. injection H as _ _ <- _ <-.
  destruct (stream_written _ ic Inv ct ext orig HO w1 Bl k l2 w2 V1) as (V2 & S2 & b & xs & out & E1 & E2 & E3); [rewrite CW; exact NC|rewrite CW; exact NK|exact EW2|].
  assert (S12 : same ic ct ext w w2) by (eapply same_trans; eassumption). cbn [co_wrap co_set].
  split; [eapply keep; [exact R|exact V2|exact S12]|]. split; [exact S12|]. split; [exact NK|]. exists k, b, xs, out.
  rewrite (same_wide ic ct ext w w1 Bl S1) in E3. auto.
Qed.
End Write.

Lemma end_object : forall I (ops : cops I) n off chunks a1 c1 r a2 c2, write_end fuel new_comp comp flush ops n off chunks a1 c1 = (Ok r, (a2, c2)) ->
  wdisk fuel new_comp comp flush ops (ca_file a2) (wreset (op_inner ops (ca_file a2)) (co_wrap (co_move ops off c1))) = (Ok (co_old c2), co_wrap c2).
Proof.
  intros I ops n off chunks a1 c1 r a2 c2 H. unfold write_end in H. cbv zeta in H.
  destruct (pl_set n off true _) as [p|x]; [|discriminate H].
  match type of H with (match ?m with _ => _ end) = _ => destruct m as [[size|x] w] eqn:EW end; [|discriminate H].
  destruct (co_offset ops c1) as [o|].
  - destruct (mark_free _ o (co_old c1)) as [s|x]; [|discriminate H]. injection H as <- <- <-. exact EW.
  - injection H as <- <- <-. exact EW.
Qed.

(** What a flush leaves: [Inv'] describes the wrapped cluster at its new place. *)
Lemma flushed_rep : forall I (ops : cops I) a c num Inv ct ext orig Bl n off chunks a1 c1 r a2 c2 Inv' ct' ext' orig',
  holds (op_inner ops (ca_file a)) Inv ct ext orig -> rep fuel Inv orig (co_wrap c) Bl ->
  write_begin fuel new_comp comp flush ops num a c = (Ok (n, off, chunks), (a1, c1)) ->
  write_end fuel new_comp comp flush ops n off chunks a1 c1 = (Ok r, (a2, c2)) ->
  let w := wreset (op_inner ops (ca_file a2)) (co_wrap (co_move ops off c1)) in
  holds (op_inner ops (ca_file a2)) Inv' ct' ext' orig' -> rep fuel Inv' orig' w Bl ->
  compression_of ct' w = compression_of ct (co_wrap c) -> wwide ext' w Bl = wwide ext (co_wrap c) Bl ->
  rep fuel Inv' orig' (co_wrap c2) Bl /\ same (op_inner ops (ca_file a2)) ct' ext' w (co_wrap c2) /\
  exists k b xs out b' ys out', new_comp (compression_of ct (co_wrap c)) = Ok k /\ chunks = [b] :: out /\ compress_all K comp flush k xs = Ok out /\
    compress_all K comp flush k ys = Ok out' /\ concat ys = concat xs /\ co_old c2 = zlen (concat ([b'] :: out')).
Proof.
  intros I ops a c num Inv ct ext orig Bl n off chunks a1 c1 r a2 c2 Inv' ct' ext' orig' HO R EB EE w HO' R' EC EX.
  destruct (begin_object ops a c num Inv ct ext orig Bl HO R _ _ _ _ _ EB) as (_ & _ & NK & k & b & xs & out & NC & E1 & E2 & E3).
  pose proof (end_object _ _ _ _ _ _ _ _ _ _ EE) as EW. fold w in EW. unfold wdisk, wdisk_size, mbind in EW.
  destruct (iter_write (op_inner ops (ca_file a2)) fuel K new_comp comp flush w) as [[l|x] w'] eqn:EI; [|discriminate EW]. injection EW as E0 E4. subst w'.
  destruct (stream_written _ _ Inv' ct' ext' orig' HO' w Bl k l (co_wrap c2) R') as (V' & S' & b' & ys & out' & F1 & F2 & F3); [rewrite EC; exact NC|rewrite EC; exact NK|exact EI|].
  split; [eapply keep; eassumption|]. split; [exact S'|]. exists k, b, xs, out, b', ys, out'. rewrite <- F1, F3, E3, EX. auto 10.
Qed.
Lemma flushed : forall I (ops : cops I) a c num Inv ct ext orig Bl n off chunks a1 c1 r a2 c2 Inv' ct' ext' orig',
  holds (op_inner ops (ca_file a)) Inv ct ext orig -> rep fuel Inv orig (co_wrap c) Bl ->
  write_begin fuel new_comp comp flush ops num a c = (Ok (n, off, chunks), (a1, c1)) ->
  write_end fuel new_comp comp flush ops n off chunks a1 c1 = (Ok r, (a2, c2)) ->
  let w := wreset (op_inner ops (ca_file a2)) (co_wrap (co_move ops off c1)) in
  holds (op_inner ops (ca_file a2)) Inv' ct' ext' orig' -> rep fuel Inv' orig' w Bl ->
  compression_of ct' w = compression_of ct (co_wrap c) -> wwide ext' w Bl = wwide ext (co_wrap c) Bl ->
  rep fuel Inv' orig' (co_wrap c2) Bl /\ same (op_inner ops (ca_file a2)) ct' ext' w (co_wrap c2) /\ co_old c2 = zlen (concat chunks).
Proof.
  intros I ops a c num Inv ct ext orig Bl n off chunks a1 c1 r a2 c2 Inv' ct' ext' orig' HO R EB EE w HO' R' EC EX.
  destruct (flushed_rep _ ops a c num Inv ct ext orig Bl n off chunks a1 c1 r a2 c2 Inv' ct' ext' orig' HO R EB EE HO' R' EC EX) as (R2 & S2 & k & b & xs & out & b' & ys & out' & NC & E1 & E2 & F2 & EQ & E0).
  split; [exact R2|]. split; [exact S2|]. rewrite E0, E1. cbn [concat app].
  assert (Q : zlen (concat out') = zlen (concat out)). { eapply (SD _ k ys xs); [exact NC|exact EQ|apply compresses_iff; exact F2|apply compresses_iff; exact E2]. }
  unfold zlen in *. cbn [length]. lia.
Qed.

Lemma roomy_enough : forall a s c, roomy fuel a s -> ol_written s = Some (cc_blobs c) -> enough fuel (ca_file a) c.
Proof.
  intros a s c H E. unfold roomy, written_blobs in H. rewrite E in H. unfold enough. pose proof (data_size (cc_ext c) (cc_blobs c)). lia.
Qed.
Lemma shows_of : forall I (ops : cops I) a c Inv ct ext orig Bl, holds (op_inner ops (ca_file a)) Inv ct ext orig -> rep fuel Inv orig (co_wrap c) Bl ->
  object_shows fuel ops a c Bl.
Proof.
  intros I ops a c Inv ct ext orig Bl HO R q e WQ WF SE INS.
  destruct (wask_ok _ fuel Inv ct ext orig HO (co_wrap c) Bl q R WQ SE INS) as (_ & _ & A). specialize (A (or_introl WF)).
  destruct q; try discriminate WF; exact A.
Qed.
Lemma no_gaps : forall L n off cell, ~ In None (blobs_of L) -> forall L', at_number L' n (off, cell) -> (forall j, j <> n -> znth L' j = znth L j) -> ~ In None (blobs_of L').
Proof.
  intros L n off cell NI L' HN OT IN. apply In_nth_error in IN as (k & Hk).
  assert (E : znth (blobs_of L') (Z.of_nat k) = Some None) by (unfold znth; replace (Z.of_nat k <? 0) with false by lia; rewrite Nat2Z.id; exact Hk).
  unfold blobs_of in E. rewrite znth_map in E. destruct (Z.eq_dec (Z.of_nat k) n) as [Q|Q].
  - rewrite Q, HN in E. discriminate E.
  - rewrite (OT _ Q) in E. apply NI. eapply znth_In. unfold blobs_of. rewrite znth_map. exact E.
Qed.

(** ** Objects of stored clusters *)
Definition kept (a : carchive) (off : Z) (cell : ccell) (c : cobj (cluster D)) (s : olist) : Prop :=
  exists Inv, holds (inner_cluster dc new_decomp (ca_file a) fuel) Inv (cc_ct cell) (cc_ext cell) (cc_blobs cell) /\
    rep fuel Inv (cc_blobs cell) (co_wrap c) (ol_shown s) /\ (forall x, Inv x -> cl_offset x = off /\ movable kd x) /\
    co_old c = cc_len cell /\ incl (w_removed (co_wrap c)) (ol_marks s) /\ ol_written s = Some (cc_blobs cell).

Lemma moved_holds : forall f off cell, cluster_at Stream f off cell -> enough fuel f cell ->
  exists Inv, holds (inner_cluster dc new_decomp f fuel) Inv (cc_ct cell) (cc_ext cell) (cc_blobs cell) /\
    (forall x, Inv x -> cl_offset x = off /\ movable kd x) /\
    (forall x, movable kd x -> Inv (reset (move_cluster off x))) /\
    exists c1, total_compressed dc new_decomp f fuel (reset (cluster_new kd off)) = (Ok (cc_len cell), c1) /\ Inv c1 /\ Inv (reset (cluster_new kd off)).
Proof.
  intros f off cell CA EN. destruct (cluster_stored fuel dc new_decomp new_comp comp flush Stream CD _ _ _ CA EN) as (Rep & C & J & tail & ST & FU & (ends & E1 & E2) & LEN).
  exists (minv Rep off (cc_ct cell) (cc_ext cell) (cc_blobs cell) C J tail kd).
  split; [exact (holds_moved dc new_decomp Rep f fuel off _ _ _ C J tail ST FU kd)|].
  split; [intros x Hx; split; [eapply minv_offset; exact Hx|eapply minv_movable; exact Hx]|].
  split; [intros x Hx; right; apply moved_stale; exact Hx|].
  assert (I0 : cinv Rep off (cc_ct cell) (cc_ext cell) (cc_blobs cell) C J tail kd true (reset (cluster_new kd off))) by (apply reset_inv, new_cinv).
  destruct (total_compressed_ok dc new_decomp Rep f fuel off _ _ _ C J tail ends ST E1 FU kd true _ I0 E2) as (c1 & ET & I1 & _).
  exists c1. rewrite ET, LEN. split; [reflexivity|]. split; left; assumption.
Qed.
(** A cluster object that has just been taken from the archive. *)
Lemma opened_movable : forall a cells L n off cell, archive_ok Stream a cells L -> at_number L n (off, cell) -> enough fuel (ca_file a) cell ->
  exists c Inv, get_cluster_by_index fuel dc new_decomp kd a n = Ok c /\ holds (inner_cluster dc new_decomp (ca_file a) fuel) Inv (cc_ct cell) (cc_ext cell) (cc_blobs cell) /\
    rep fuel Inv (cc_blobs cell) (co_wrap c) (cc_blobs cell) /\ (forall x, Inv x -> cl_offset x = off /\ movable kd x) /\ co_old c = cc_len cell /\
    w_removed (co_wrap c) = [] /\ w_ext (co_wrap c) = None /\ w_comp (co_wrap c) = None.
Proof.
  intros a cells L n off cell AO HN EN.
  destruct (moved_holds (ca_file a) off cell (ao_stored _ _ _ _ AO _ _ HN) EN) as (Inv & HO & MV & _ & c1 & ET & I1 & I0).
  pose proof (znth_some _ _ _ HN) as Hn. unfold get_cluster_by_index. replace (n <? 0) with false by lia.
  assert (GB : get_by_index (pl_ptrs (ca_ptrs a)) n = Ok off). { rewrite get_by_index_znth by lia. rewrite (ao_ptrs _ _ _ _ AO _ _ HN). reflexivity. }
  rewrite GB. cbn [bind]. unfold get_cluster_at. change (w_in _) with (@reset D (cluster_new kd off)). rewrite ET.
  eexists. exists Inv. split; [reflexivity|]. split; [exact HO|]. cbn [co_wrap co_old w_removed w_ext w_comp].
  pose proof (wrap_rep (inner_cluster dc new_decomp (ca_file a) fuel) fuel Inv _ _ _ HO _ I0) as R.
  split; [eapply rep_same; [exact R|exact I1|reflexivity..]|]. auto.
Qed.
(** The offsets that a cluster object tells after it was written. *)
Lemma written_offsets : forall a cells L n off cell c Inv Bl num m m' off' chunks a1 c1 a2 c2, archive_ok Stream a cells L -> at_number L n (off, cell) ->
  holds (inner_cluster dc new_decomp (ca_file a) fuel) Inv (cc_ct cell) (cc_ext cell) (cc_blobs cell) -> rep fuel Inv (cc_blobs cell) (co_wrap c) Bl ->
  (forall x, Inv x -> cl_offset x = off /\ movable kd x) ->
  write_begin fuel new_comp comp flush (stored_ops dc new_decomp fuel) num a c = (Ok (m', off', chunks), (a1, c1)) ->
  write_end fuel new_comp comp flush (stored_ops dc new_decomp fuel) m' off' chunks a1 c1 = (Ok m, (a2, c2)) ->
  let cell' := mkCcell (compression_of (cc_ct cell) (co_wrap c)) (wwide (cc_ext cell) (co_wrap c) Bl) Bl (zlen (concat chunks)) in
  cluster_at Stream (ca_file a2) off' cell' -> enough fuel (ca_file a2) cell' ->
  forall i, 0 <= i -> fst (wget_offset (inner_cluster dc new_decomp (ca_file a2) fuel) i (co_wrap c2)) = match znth (positions (cc_ext cell') (cc_blobs cell')) i with Some x => Ok x | None => Err IndexError end.
Proof.
  intros a cells L n off cell c Inv Bl num m m' off' chunks a1 c1 a2 c2 AO HN HO R MV EB W cell' CA EN i Hi. set (ops := stored_ops dc new_decomp fuel) in *.
  destruct (moved_holds (ca_file a2) off' cell' CA EN) as (Inv' & HO' & MV' & MS & _).
  destruct (begin_object ops a c _ Inv _ _ _ _ HO R _ _ _ _ _ EB) as (R1 & S1 & _).
  set (w := wreset (op_inner ops (ca_file a2)) (co_wrap (co_move ops off' c1))).
  assert (IW : Inv' (w_in w)) by (apply MS; apply MV; exact (rp_inv _ _ _ _ _ R1)).
  assert (RW : rep fuel Inv' (cc_blobs cell') w Bl).
  { pose proof (wrap_rep (inner_cluster dc new_decomp (ca_file a2) fuel) fuel Inv' _ _ _ HO' _ IW) as R0. eapply rep_same; [exact R0|exact IW|reflexivity..]. }
  destruct (flushed_rep _ ops a c _ Inv _ _ _ Bl _ off' chunks a1 c1 _ a2 c2 Inv' (cc_ct cell') (cc_ext cell') (cc_blobs cell') HO R EB W HO' RW eq_refl eq_refl) as (R2 & S2 & _).
  pose proof (end_object _ _ _ _ _ _ _ _ _ _ W) as EW. fold w in EW. unfold wdisk, wdisk_size, mbind in EW. fold w in S2.
  destruct (iter_write (op_inner ops (ca_file a2)) fuel K new_comp comp flush w) as [[l|x] w'] eqn:EI; [|discriminate EW]. injection EW as _ ->.
  destruct (begin_object ops a c _ Inv _ _ _ _ HO R _ _ _ _ _ EB) as (_ & _ & NK & k & _ & _ & _ & NC & _).
  pose proof (written_known _ fuel Inv' _ _ _ HO' K new_comp comp flush w Bl k l (co_wrap c2) RW NC NK EI) as KN.
  destruct (get_offset_wok _ fuel Inv' _ _ _ HO' (co_wrap c2) Bl i R2 KN Hi) as (w3 & E3 & _). rewrite E3. cbn [fst].
  rewrite (same_wide _ _ _ w (co_wrap c2) Bl S2). reflexivity.
Qed.
Lemma kept_opened : forall a cells L n b c, archive_ok Stream a cells L -> znth (blobs_of L) n = Some (Some b) ->
  get_cluster_by_index fuel dc new_decomp kd a n = Ok c -> roomy fuel a (mkOlist (Some b) b []) ->
  exists off cell, at_number L n (off, cell) /\ kept a off cell c (mkOlist (Some b) b []).
Proof.
  intros a cells L n b c AO EB G RM. destruct (blobs_numbered _ _ _ EB) as (off & cell & HN & <-). exists off, cell. split; [exact HN|].
  destruct (moved_holds (ca_file a) off cell (ao_stored _ _ _ _ AO _ _ HN) (roomy_enough _ _ _ RM eq_refl)) as (Inv & HO & MV & _ & c1 & ET & I1 & I0).
  exists Inv. split; [exact HO|]. unfold get_cluster_by_index in G. pose proof (znth_some _ _ _ HN) as Hn. replace (n <? 0) with false in G by lia.
  assert (GB : get_by_index (pl_ptrs (ca_ptrs a)) n = Ok off). { rewrite get_by_index_znth by lia. rewrite (ao_ptrs _ _ _ _ AO _ _ HN). reflexivity. }
  rewrite GB in G. cbn [bind] in G. unfold get_cluster_at in G. change (w_in _) with (@reset D (cluster_new kd off)) in G. rewrite ET in G. injection G as <-.
  cbn [co_wrap co_old ol_shown ol_marks ol_written w_removed].
  pose proof (wrap_rep (inner_cluster dc new_decomp (ca_file a) fuel) fuel Inv _ _ _ HO _ I0) as R.
  split; [eapply rep_same; [exact R|exact I1|reflexivity..]|]. split; [exact MV|]. split; [reflexivity|]. split; [apply incl_refl|reflexivity].
Qed.

Lemma kept_edit : forall gaps a off cell c s e r w, (0 < fuel)%nat -> kept a off cell c s -> ostep_ok fuel true gaps s (OEdit e) ->
  perform_edit (inner_cluster dc new_decomp (ca_file a) fuel) fuel e (co_wrap c) = (r, w) -> kept a off cell (co_set w c) (ostep_list false s (OEdit e)).
Proof.
  intros gaps a off cell c s e r w HF (Inv & HO & R & MV & OLD & IM & WR) (OK & SF0) E. specialize (SF0 eq_refl). rename SF0 into SF.
  destruct (edit_rep _ fuel Inv _ _ _ HO e (co_wrap c) _ _ HF R IM OK SF) as (w' & E' & R' & I' & _). rewrite E in E'. injection E' as -> ->.
  exists Inv. cbn [ostep_list ol_shown ol_marks ol_written co_wrap co_set co_old]. unfold written_blobs. rewrite WR. split; [exact HO|]. split; [exact R'|]. auto 10.
Qed.
Lemma kept_flush : forall a cells L n off cell c s told m a2 c2, archive_ok Stream a cells L -> at_number L n (off, cell) -> kept a off cell c s ->
  (told = true \/ ~ In None (blobs_of L)) ->
  write_cluster fuel new_comp comp flush (stored_ops dc new_decomp fuel) (told_number n told) a c = (Ok m, (a2, c2)) ->
  roomy fuel a2 (ostep_list false s (OFlush told)) ->
  m = n /\ exists off' cell', archive_ok Stream a2 cells (replace_at n (Some (off', cell')) L) /\ kept a2 off' cell' c2 (ostep_list false s (OFlush told)).
Proof.
  intros a cells L n off cell c s told m a2 c2 AO HN (Inv & HO & R & MV & OLD & IM & WR) UN W RM.
  assert (PL : placed a L n (Some off) (co_old c) (told_number n told)).
  { right. exists off, cell. split; [exact HN|]. split; [reflexivity|]. split; [exact OLD|]. destruct told; [left; reflexivity|right]. split; [reflexivity|].
    destruct UN as [UN|UN]; [discriminate UN|]. eapply all_present; [exact AO|exact HN|exact UN]. }
  set (ops := stored_ops dc new_decomp fuel) in *. unfold write_cluster in W.
  destruct (write_begin fuel new_comp comp flush ops (told_number n told) a c) as [[[[m' off'] chunks]|x] [a1 c1]] eqn:EB; [|discriminate W].
  destruct (written_at fuel dc new_decomp new_comp comp flush Stream CD ops a c (told_number n told) Inv (cc_ct cell) (cc_ext cell) (cc_blobs cell) (ol_shown s) (Some off)
    HO (rep_sane _ _ _ _ _ _ R) R (fun x Hx => f_equal Some (proj1 (MV x Hx))) cells L n AO PL _ _ _ _ _ _ _ _ EB W) as (-> & AO2 & _).
  split; [reflexivity|]. set (cell' := mkCcell _ _ _ _) in AO2. exists off', cell'. split; [exact AO2|].
  assert (HN2 : at_number (replace_at n (Some (off', cell')) L) n (off', cell')).
  { unfold at_number. pose proof (znth_some _ _ _ HN). rewrite replace_nth by lia. rewrite Z.eqb_refl. reflexivity. }
  destruct (moved_holds (ca_file a2) off' cell' (ao_stored _ _ _ _ AO2 _ _ HN2)) as (Inv' & HO' & MV' & MS & _).
  { eapply roomy_enough; [exact RM|reflexivity]. }
  destruct (begin_object ops a c _ Inv _ _ _ _ HO R _ _ _ _ _ EB) as (R1 & S1 & _).
  set (w := wreset (op_inner ops (ca_file a2)) (co_wrap (co_move ops off' c1))).
  assert (IW : Inv' (w_in w)) by (apply MS; apply MV; exact (rp_inv _ _ _ _ _ R1)).
  assert (RW : rep fuel Inv' (cc_blobs cell') w (ol_shown s)).
  { pose proof (wrap_rep (inner_cluster dc new_decomp (ca_file a2) fuel) fuel Inv' _ _ _ HO' _ IW) as R0. eapply rep_same; [exact R0|exact IW|reflexivity..]. }
  destruct (flushed _ ops a c _ Inv _ _ _ (ol_shown s) _ off' chunks a1 c1 _ a2 c2 Inv' (cc_ct cell') (cc_ext cell') (cc_blobs cell') HO R EB W HO' RW eq_refl eq_refl) as (R2 & S2 & OL2).
  exists Inv'. cbn [ostep_list ol_shown ol_marks ol_written]. split; [exact HO'|]. split; [exact R2|]. split; [exact MV'|]. split; [exact OL2|].
  split; [|reflexivity]. destruct S2 as (_ & _ & E3 & _). rewrite E3. apply incl_refl.
Qed.

Lemma kept_runs : forall n gaps a c s h a' c', object_runs fuel new_comp comp flush (stored_ops dc new_decomp fuel) n false true gaps (roomy fuel) a c s h a' c' ->
  forall cells L off cell, (0 < fuel)%nat -> archive_ok Stream a cells L -> at_number L n (off, cell) -> kept a off cell c s -> (gaps = false -> ~ In None (blobs_of L)) ->
  exists L' off' cell', archive_ok Stream a' cells L' /\ at_number L' n (off', cell') /\ (forall j, j <> n -> znth L' j = znth L j) /\
    kept a' off' cell' c' (osteps_list false s h) /\ roomy fuel a' (osteps_list false s h).
Proof.
  intros n gaps a c s h a' c' H. induction H as [a c s RM|a c s o m a1 c1 h a' c' RM OK E H IH]; intros cells L off cell HF AO HN KE GA.
  - exists L, off, cell. auto 10.
  - cbn [osteps_list fold_left]. destruct o as [e|told]; cbn [perform_ostep] in E.
    + destruct (perform_edit _ fuel e (co_wrap c)) as [r w] eqn:EE. injection E as _ <- <-.
      apply (IH cells L off cell HF AO HN); [|exact GA]. eapply kept_edit; [exact HF|exact KE|exact OK|exact EE].
    + assert (RM1 : roomy fuel a1 (ostep_list false s (OFlush told))) by (inversion H; assumption).
      destruct (kept_flush a cells L n off cell c s told m a1 c1 AO HN KE) as (_ & off' & cell' & AO1 & KE1); [destruct OK; auto|exact E|exact RM1|].
      pose proof (znth_some _ _ _ HN) as RG.
      assert (HN1 : at_number (replace_at n (Some (off', cell')) L) n (off', cell')). { unfold at_number. rewrite replace_nth by lia. rewrite Z.eqb_refl. reflexivity. }
      assert (OT : forall j, j <> n -> znth (replace_at n (Some (off', cell')) L) j = znth L j). { intros j NE. rewrite replace_nth by lia. replace (j =? n) with false by lia. reflexivity. }
      destruct (IH cells _ off' cell' HF AO1 HN1 KE1) as (L' & o2 & e2 & A2 & N2 & T2 & K2).
      { intro G. eapply no_gaps; [exact (GA G)|exact HN1|exact OT]. }
      exists L', o2, e2. split; [exact A2|]. split; [exact N2|]. split; [|exact K2]. intros j NE. rewrite T2, OT by exact NE. reflexivity.
Qed.

(** ** New objects *)
Definition kept_new L (n : Z) (c : cobj (option Z)) (s : olist) : Prop :=
  exists oo, rep fuel (fun o => o = oo) [] (co_wrap c) (ol_shown s) /\ incl (w_removed (co_wrap c)) (ol_marks s) /\
    match oo with
    | None => n = zlen L /\ ol_written s = None
    | Some off => exists cell, at_number L n (off, cell) /\ co_old c = cc_len cell /\ ol_written s = Some (cc_blobs cell)
    end.
Lemma kept_created : forall L, kept_new L (zlen L) new_cluster (mkOlist None [] []).
Proof.
  intro L. exists None. pose proof (wrap_rep (@inner_empty (option Z)) fuel (fun o => o = None) _ _ _ (holds_empty _ _) None eq_refl) as R.
  split; [exact R|]. split; [apply incl_refl|]. auto.
Qed.
Lemma kept_new_edit : forall gaps L n c s e r w, (0 < fuel)%nat -> kept_new L n c s -> ostep_ok fuel true gaps s (OEdit e) ->
  perform_edit inner_empty fuel e (co_wrap c) = (r, w) -> kept_new L n (co_set w c) (ostep_list true s (OEdit e)).
Proof.
  intros gaps L n c s e r w HF (oo & R & IM & PL) (OK & SF0) E. specialize (SF0 eq_refl). rename SF0 into SF.
  destruct (edit_rep _ fuel _ _ _ _ (holds_empty _ (fun o => o = oo)) e (co_wrap c) _ _ HF R IM OK SF) as (w' & E' & R' & I' & _). rewrite E in E'. injection E' as -> ->.
  exists oo. cbn [ostep_list ol_shown ol_marks ol_written co_wrap co_set co_old]. split; [|split; [exact I'|exact PL]].
  destruct e; exact R'.
Qed.
Lemma kept_new_flush : forall a cells L n c s told m a2 c2, archive_ok Stream a cells L -> kept_new L n c s ->
  (told = true \/ ~ In None (blobs_of L)) ->
  write_cluster fuel new_comp comp flush new_ops (told_number n told) a c = (Ok m, (a2, c2)) ->
  m = n /\ 0 <= n <= zlen L /\ exists v, archive_ok Stream a2 cells (replace_at n (Some v) L) /\ kept_new (replace_at n (Some v) L) n c2 (ostep_list true s (OFlush told)).
Proof.
  intros a cells L n c s told m a2 c2 AO (oo & R & IM & PL) UN W.
  assert (PD : placed a L n oo (co_old c) (told_number n told)).
  { destruct oo as [off|]; [|left; split; [reflexivity|apply PL]]. destruct PL as (cell & HN & OLD & WR).
    right. exists off, cell. split; [exact HN|]. split; [reflexivity|]. split; [exact OLD|]. destruct told; [left; reflexivity|right]. split; [reflexivity|].
    destruct UN as [UN|UN]; [discriminate UN|]. eapply all_present; [exact AO|exact HN|exact UN]. }
  assert (RG : 0 <= n <= zlen L). { destruct PD as [(_ & ->)|(p & c0 & HN & _)]; [pose proof (zlen_nonneg L); lia|pose proof (znth_some _ _ _ HN); lia]. }
  unfold write_cluster in W.
  destruct (write_begin fuel new_comp comp flush new_ops (told_number n told) a c) as [[[[m' off'] chunks]|x] [a1 c1]] eqn:EB; [|discriminate W].
  destruct (written_at fuel dc new_decomp new_comp comp flush Stream CD new_ops a c (told_number n told) (fun o => o = oo) NONE false [] (ol_shown s) oo
    (holds_empty _ _) (rep_sane _ _ _ _ _ _ R) R (fun x Hx => Hx) cells L n AO PD _ _ _ _ _ _ _ _ EB W) as (-> & AO2 & _).
  split; [reflexivity|]. split; [exact RG|]. set (cell' := mkCcell _ _ _ _) in AO2. exists (off', cell'). split; [exact AO2|].
  destruct (begin_object new_ops a c _ (fun o => o = oo) _ _ _ _ (holds_empty _ _) R _ _ _ _ _ EB) as (R1 & S1 & _).
  set (w := wreset (op_inner new_ops (ca_file a2)) (co_wrap (co_move new_ops off' c1))).
  assert (RW : rep fuel (fun o => o = Some off') [] w (ol_shown s)).
  { destruct R1 as [[] ? ? ?]. constructor; [constructor|..]; try assumption; reflexivity. }
  assert (EX : wwide false w (ol_shown s) = wwide false (co_wrap c) (ol_shown s)). { rewrite <- (same_wide _ _ _ _ _ _ S1). reflexivity. }
  assert (EC : compression_of NONE w = compression_of NONE (co_wrap c)). { destruct S1 as (_ & _ & _ & _ & E5 & _). unfold compression_of. rewrite <- E5. reflexivity. }
  destruct (flushed _ new_ops a c _ (fun o => o = oo) _ _ _ (ol_shown s) _ off' chunks a1 c1 _ a2 c2 (fun o => o = Some off') NONE false [] (holds_empty _ _) R EB W (holds_empty _ _) RW EC EX) as (R2 & S2 & OL2).
  exists (Some off'). cbn [ostep_list ol_shown ol_marks ol_written]. split; [exact R2|].
  split; [destruct S2 as (_ & _ & E3 & _); destruct S1 as (_ & _ & E4 & _); intros z Hz; apply IM; rewrite <- E4; rewrite E3 in Hz; exact Hz|].
  exists cell'. split; [unfold at_number; rewrite replace_nth by exact RG; rewrite Z.eqb_refl; reflexivity|]. split; [exact OL2|reflexivity].
Qed.
Lemma no_gaps_new : forall L n v, ~ In None (blobs_of L) -> 0 <= n <= zlen L -> ~ In None (blobs_of (replace_at n (Some v) L)).
Proof.
  intros L n v NI RG. destruct v as (off, cell). eapply no_gaps; [exact NI| |].
  - unfold at_number. rewrite replace_nth by exact RG. rewrite (Z.eqb_refl n). reflexivity.
  - intros j NE. rewrite replace_nth by exact RG. replace (j =? n) with false by lia. reflexivity.
Qed.
Lemma kept_new_runs : forall n gaps big a c s h a' c', object_runs fuel new_comp comp flush new_ops n true true gaps big a c s h a' c' ->
  forall cells L, (0 < fuel)%nat -> archive_ok Stream a cells L -> kept_new L n c s -> (gaps = false -> ~ In None (blobs_of L)) ->
  exists L', archive_ok Stream a' cells L' /\ (forall j, j <> n -> znth L' j = znth L j) /\ kept_new L' n c' (osteps_list true s h).
Proof.
  intros n gaps big a c s h a' c' H. induction H as [a c s RM|a c s o m a1 c1 h a' c' RM OK E H IH]; intros cells L HF AO KE GA.
  - exists L. auto.
  - cbn [osteps_list fold_left]. destruct o as [e|told]; cbn [perform_ostep] in E.
    + destruct (perform_edit _ fuel e (co_wrap c)) as [r w] eqn:EE. injection E as _ <- <-.
      apply (IH cells L HF AO); [|exact GA]. eapply kept_new_edit; [exact HF|exact KE|exact OK|exact EE].
    + destruct (kept_new_flush a cells L n c s told m a1 c1 AO KE) as (_ & RG & v & AO1 & KE1); [destruct OK; auto|exact E|].
      destruct (IH cells _ HF AO1 KE1) as (L' & A2 & T2 & K2).
      { intro G. apply no_gaps_new; [exact (GA G)|exact RG]. }
      exists L'. split; [exact A2|]. split; [|exact K2]. intros j NE. rewrite T2 by exact NE. rewrite replace_nth by exact RG. replace (j =? n) with false by lia. reflexivity.
Qed.

(** The number that a flush returns. *)
Lemma kept_number : forall a cells L n off cell c s told m a2 c2, archive_ok Stream a cells L -> at_number L n (off, cell) -> kept a off cell c s ->
  (told = true \/ ~ In None (blobs_of L)) ->
  write_cluster fuel new_comp comp flush (stored_ops dc new_decomp fuel) (told_number n told) a c = (Ok m, (a2, c2)) -> m = n.
Proof.
  intros a cells L n off cell c s told m a2 c2 AO HN (Inv & HO & R & MV & OLD & IM & WR) UN W.
  assert (PL : placed a L n (Some off) (co_old c) (told_number n told)).
  { right. exists off, cell. split; [exact HN|]. split; [reflexivity|]. split; [exact OLD|]. destruct told; [left; reflexivity|right]. split; [reflexivity|].
    destruct UN as [UN|UN]; [discriminate UN|]. eapply all_present; [exact AO|exact HN|exact UN]. }
  exact (proj1 (written fuel dc new_decomp new_comp comp flush Stream CD (stored_ops dc new_decomp fuel) a c (told_number n told) Inv (cc_ct cell) (cc_ext cell) (cc_blobs cell) (ol_shown s) (Some off)
    HO (rep_sane _ _ _ _ _ _ R) R (fun x Hx => f_equal Some (proj1 (MV x Hx))) cells L n AO PL _ _ _ W)).
Qed.
End Codec.
