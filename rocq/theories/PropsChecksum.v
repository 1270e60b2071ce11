(** C82: [calculate_checksum], [get_checksum] and [update_checksum]. *)
From Coq Require Import List ZArith Bool Lia Strings.Byte.
From Coq Require Import ZifyBool ZifyNat.
From Verif Require Import Base BaseProofs Utf8 Infobyte Header MimeTypeList Entry Reader Decompressors Blob PointerList SpaceAllocator Cluster ClusterSpec ClusterWrapper Archive ArchiveSpec
  ArchiveCluster ArchiveClusterSpec ArchiveClusterProofs ClusterProofs ClusterWrapperSpec ClusterWrapperProofs CompressionStrategy CompressionStrategySpec OperationBuffer Flush FlushSpec FlushTailProofs FlushHistorySpec PropsArchiveCluster PropsCompressionStrategy PropsFlush.
Import ListNotations.
Open Scope Z_scope.

Section Checksum.
Context {H : Type}.
Variable md5 : H.
Variable feed : H -> bytes -> H.
Variable digest : H -> bytes.
Hypothesis HO : hash_ok feed digest.

(** The loop ends if all that is to be read is in the file. *)
Lemma checksum_loop_ends : forall todo f pos end_ h, 0 <= pos -> end_ <= zlen f -> end_ - pos <= Z.of_nat todo -> exists h', checksum_loop feed todo f pos end_ h = Ok h'.
Proof.
  induction todo as [|todo IH]; intros f pos end_ h P E T; cbn [checksum_loop]; destruct (Z.ltb_spec pos end_) as [LT|GE]; eauto; [lia|].
  assert (ZD : zlen (fread f pos (Z.min 8192 (end_ - pos))) = Z.min 8192 (end_ - pos)) by (unfold fread; apply zsub_len; lia).
  rewrite ZD. apply IH; lia.
Qed.
(** It never does if the file ends before: behind the end nothing is read. *)
Lemma checksum_loop_hangs : forall todo f pos end_ h, 0 <= pos -> pos < end_ -> zlen f < end_ -> checksum_loop feed todo f pos end_ h = Err Diverge.
Proof.
  induction todo as [|todo IH]; intros f pos end_ h P L E; cbn [checksum_loop]; (destruct (Z.ltb_spec pos end_) as [LT|GE]; [|lia]); [reflexivity|].
  set (data := fread f pos (Z.min 8192 (end_ - pos))).
  assert (ZD : 0 <= zlen data /\ pos + zlen data < end_).
  { unfold data, fread, zsub. rewrite ztake_len, zskip_len by lia. lia. }
  apply IH; lia.
Qed.

(** *** C82: the checksum is that of all bytes before the checksum position.
    Partial: the position must not be behind the end of the file. *)
Theorem C82_calculate_partial : forall A, 0 <= h_checksum_pos (fa_hdr A) <= zlen (fa_file A) ->
  calculate_checksum md5 feed digest A = Ok (hash md5 feed digest (ztake (h_checksum_pos (fa_hdr A)) (fa_file A))).
Proof.
  intros A B. unfold calculate_checksum. destruct (checksum_loop_ends (S (length (fa_file A))) (fa_file A) 0 (h_checksum_pos (fa_hdr A)) md5) as (h & E); [lia|lia|unfold zlen in *; lia|].
  rewrite E. cbn [bind]. destruct (checksum_loop_ok feed digest HO _ _ _ _ _ _ (conj (Z.le_refl 0) (proj1 B)) E) as (-> & _). unfold hash, fread, zsub. rewrite zskip_0, Z.sub_0_r. reflexivity.
Qed.

(** [update_checksum] returns, and then the checksum that is read is the one
    that is calculated, before and after; the bytes that it stands for, and
    those behind it, are not touched. *)
Theorem C82_update_partial : forall A, 0 <= h_checksum_pos (fa_hdr A) <= zlen (fa_file A) ->
  exists A', update_checksum md5 feed digest A = (Ok tt, A') /\
    calculate_checksum md5 feed digest A = Ok (get_checksum A') /\ calculate_checksum md5 feed digest A' = Ok (get_checksum A') /\
    checksum_right md5 feed digest A' /\ fa_hdr A' = fa_hdr A /\
    (forall i, (i < h_checksum_pos (fa_hdr A) \/ h_checksum_pos (fa_hdr A) + 16 <= i < zlen (fa_file A)) -> znth (fa_file A') i = znth (fa_file A) i).
Proof.
  intros A B. unfold update_checksum. rewrite (C82_calculate_partial A B). eexists. split; [reflexivity|]. set (cp := h_checksum_pos (fa_hdr A)) in *.
  set (c := hash md5 feed digest (ztake cp (fa_file A))). pose proof (hash_len _ _ HO (feed md5 (ztake cp (fa_file A)))) as ZC. fold c in ZC. change (zlen c = 16) in ZC.
  set (A' := fa_set_file (fwrite (fa_file A) cp c) A). assert (EF : fa_file A' = fwrite (fa_file A) cp c) by reflexivity. assert (EH : fa_hdr A' = fa_hdr A) by reflexivity.
  assert (G : get_checksum A' = c). { unfold get_checksum, CHECKSUM_LENGTH. rewrite EF, EH. fold cp. rewrite <- ZC. apply fread_fwrite_same. lia. }
  assert (T : ztake cp (fa_file A') = ztake cp (fa_file A)).
  { rewrite EF. unfold fwrite. rewrite ztake_app_l by (rewrite ztake_len, zlen_app by lia; pose proof (zlen_nonneg (repeat x00 (Z.to_nat (cp - zlen (fa_file A))))); lia).
    rewrite ztake_ztake, Z.min_id. apply ztake_app_l. lia. }
  assert (L : zlen (fa_file A) <= zlen (fa_file A')) by (rewrite EF, fwrite_len by lia; lia).
  split; [rewrite G; reflexivity|]. split; [rewrite C82_calculate_partial by (rewrite EH; fold cp; lia); rewrite G, EH; fold cp; rewrite T; reflexivity|].
  split; [|split; [exact EH|]].
  - split; [rewrite EH; fold cp; lia|]. rewrite G, EH. fold cp. rewrite T. reflexivity.
  - intros i Hi. rewrite EF. unfold znth. destruct (Z.ltb_spec i 0) as [N|N]; [reflexivity|]. rewrite fwrite_nth by lia. rewrite Z2Nat.id by lia.
    repeat match goal with |- context [if ?b then _ else _] => destruct b eqn:? end; try reflexivity; try lia.
Qed.

(** If the position is behind the end of the file, the calculation never ends,
    no matter how many rounds of its loop are performed. *)
Theorem C82_truncated_file : forall A rounds, zlen (fa_file A) < h_checksum_pos (fa_hdr A) -> checksum_loop feed rounds (fa_file A) 0 (h_checksum_pos (fa_hdr A)) md5 = Err Diverge.
Proof. intros A rounds L. pose proof (zlen_nonneg (fa_file A)). apply checksum_loop_hangs; lia. Qed.
End Checksum.

(** ** The full statement: for each file that can be opened, the calculation ends
    with the checksum of what is in the file before the position.  It is false. *)
Definition C82_full_statement : Prop :=
  forall fuel D (dc : decomp D) new_decomp K new_comp comp flush depth kd Stream H (md5 : H) feed digest,
  codec_ok (K:=K) dc new_decomp new_comp comp flush Stream -> hash_ok feed digest ->
  forall f w sc sp A, open_zim fuel dc new_decomp new_comp comp flush depth kd f w sc sp = Ok A ->
  exists rounds h, checksum_loop feed rounds (fa_file A) 0 (h_checksum_pos (fa_hdr A)) md5 = Ok h /\ digest h = hash md5 feed digest (ztake (h_checksum_pos (fa_hdr A)) (fa_file A)).
(** The file of the sample archive, as if something at its end were missing: its
    header has a checksum position that is larger by 1000. *)
Definition damaged (r : res farchive) : res farchive :=
  do A <- r ;; sample_open (fwrite (fa_file A) 72 (le_bytes 8 (h_checksum_pos (fa_hdr A) + 1000))) false sample_simple sample_simple.
Definition short (x : res farchive) : bool := match x with Ok B => zlen (fa_file B) <? h_checksum_pos (fa_hdr B) | Err _ => false end.
Lemma damaged_short : short (damaged sample_end) = true.
Proof. vm_compute. reflexivity. Qed.
Lemma short_parts : forall r, short (damaged r) = true -> exists f B, sample_open f false sample_simple sample_simple = Ok B /\ zlen (fa_file B) < h_checksum_pos (fa_hdr B).
Proof.
  intros [A|e] E; cbn [damaged bind] in E; [|discriminate E]. set (f := fwrite _ _ _) in E. exists f. clearbody f. destruct (sample_open f false sample_simple sample_simple) as [B|]; [|discriminate E].
  exists B. split; [reflexivity|]. cbn [short] in E. lia.
Qed.
Theorem C82_refuted : ~ C82_full_statement.
Proof.
  intro F. destruct (short_parts _ damaged_short) as (f & B & EO & L).
  destruct (F sample_fuel _ _ _ _ _ _ _ 6%nat KRemembering plain_stream _ 0 sample_feed sample_digest plain_codec sample_hash f false sample_simple sample_simple B EO) as (n & h & E & _).
  rewrite (C82_truncated_file 0 sample_feed B n L) in E. discriminate E.
Qed.
(** The other theorems apply to the sample archive. *)
Definition in_file (x : res farchive) : bool := match x with Ok B => (0 <=? h_checksum_pos (fa_hdr B)) && (h_checksum_pos (fa_hdr B) <=? zlen (fa_file B)) | Err _ => false end.
Example C82_meets : in_file sample_end = true.
Proof. vm_compute. reflexivity. Qed.
Print Assumptions C82_calculate_partial.
Print Assumptions C82_update_partial.
Print Assumptions C82_truncated_file.
Print Assumptions C82_refuted.
