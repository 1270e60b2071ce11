(** A cluster object that was moved: after [write_cluster] the same object reads
    the cluster at its new place, although [reset] (cluster.py 54-60) keeps the
    reader of the old place. *)
From Coq Require Import List ZArith Bool Lia.
From Coq Require Import ZifyBool ZifyNat.
From Verif Require Import Base BaseProofs Infobyte Reader ReaderSpec ReaderProofs Cluster ClusterSpec ClusterProofs ClusterWrapper ClusterWrapperSpec ClusterWrapperProofs ArchiveCluster.
Import ListNotations.
Open Scope Z_scope.

Lemma range_sane : forall s e, sensible_range s e -> range_ok s e = true.
Proof. intros [s|] [e|]; unfold sensible_range, range_ok; intros (A & B & X); lia. Qed.

Section Stale.
Context {D : Type}.
Variable dc : decomp D.
Variable new_decomp : ctype -> res D.
Variable Rep : D -> bytes -> bytes -> bytes -> Prop.
Variable f : bytes.
Variable fuel : nat.
Variables (off : Z) (ct : ctype) (ext : bool) (blobs : list bytes) (C J tail : bytes).
Hypothesis ST : stored dc new_decomp Rep f off ct ext blobs C J tail.
Hypothesis FU : zlen (cluster_data ext blobs ++ tail) + 2 <= Z.of_nat fuel.
Variable kd : ckind.
Notation cinv := (cinv Rep off ct ext blobs C J tail kd true).

(** Everything but the reader is as in a new object; the reader, wherever it
    reads, has read something. *)
Definition stale (c : cluster D) : Prop :=
  cl_kind c = kd /\ cl_offset c = off /\ (cl_info c = None \/ cl_info c = Some (ct, ext)) /\ cl_offsets c = None /\ cl_data c = None /\
  forall r, cl_reader c = Some r -> 0 < r_out r.
Notation bare c := (set_reader None c).

Lemma bare_cinv : forall c, stale c -> cinv (bare c).
Proof.
  intros c (K & O & I & F & Dt & R). unfold ClusterProofs.cinv, set_reader. cbn. split; [exact K|]. split; [exact O|]. split; [exact I|]. split; [discriminate|auto].
Qed.
Lemma info_stale : forall c, stale c -> exists c', info f c = (Ok (ct, ext), c') /\ stale c' /\ cl_info c' = Some (ct, ext) /\ info f (bare c) = (Ok (ct, ext), bare c').
Proof.
  intros c (K & O & I & F & Dt & R). unfold info. cbn [set_reader cl_info cl_offset]. destruct I as [I|I]; rewrite I.
  - destruct (st_info _ _ _ _ _ _ _ _ _ _ _ ST) as (b & E & Pb). rewrite O, E, Pb. eexists. split; [reflexivity|]. split; [|split; reflexivity].
    unfold stale, set_info. cbn. auto 10.
  - exists c. split; [reflexivity|]. split; [unfold stale; auto 10|]. split; [exact I|]. reflexivity.
Qed.
Lemma reader_stale : forall A (k : reader D -> res A * reader D) c, stale c -> cl_info c = Some (ct, ext) ->
  with_reader dc new_decomp f 0 k c = with_reader dc new_decomp f 0 k (bare c).
Proof.
  intros A k c (K & O & _ & F & Dt & R) I. unfold with_reader, info. cbn [set_reader cl_info cl_reader cl_offset]. rewrite I. change (0 <? 0) with false. cbv iota zeta.
  cbn [set_reader cl_kind cl_offset cl_info cl_reader cl_offsets cl_data].
  destruct (st_decomp _ _ _ _ _ _ _ _ _ _ _ ST) as (d0 & E & _). rewrite E.
  destruct (cl_reader c) as [r|] eqn:ER; [|reflexivity]. specialize (R r eq_refl). destruct (Z.leb_spec (r_out r) 0); [lia|]. reflexivity.
Qed.
Lemma plain_offsets_stale : forall ns c, ns <> Some [] -> stale c -> plain_offsets dc new_decomp f fuel ns c = plain_offsets dc new_decomp f fuel ns (bare c).
Proof.
  intros ns c NE SC. unfold plain_offsets, mbind. destruct (info_stale c SC) as (c1 & E1 & S1 & I1 & E2). rewrite E1, E2.
  destruct ns as [[|x l]|]; [congruence|apply reader_stale; assumption..].
Qed.
Lemma remembered_stale : forall c, stale c -> remembered dc new_decomp f fuel c = remembered dc new_decomp f fuel (bare c).
Proof.
  intros c SC. pose proof SC as (_ & _ & _ & F & _). unfold remembered. cbn [set_reader cl_offsets]. rewrite F. rewrite plain_offsets_stale by (assumption || discriminate). reflexivity.
Qed.
Lemma blob_offsets_stale : forall ns c, ns <> Some [] -> stale c -> blob_offsets dc new_decomp f fuel ns c = blob_offsets dc new_decomp f fuel ns (bare c).
Proof.
  intros ns c NE SC. unfold blob_offsets. cbn [set_reader cl_kind]. fold (set_reader None c). unfold mbind. rewrite remembered_stale, plain_offsets_stale by assumption. reflexivity.
Qed.
Lemma get_offset_stale : forall i c, 0 <= i -> stale c -> get_offset dc new_decomp f fuel i c = get_offset dc new_decomp f fuel i (bare c).
Proof. intros i c Hi SC. unfold get_offset. destruct (Z.ltb_spec i 0); [lia|]. unfold mbind. rewrite blob_offsets_stale by (assumption || discriminate). reflexivity. Qed.
Lemma number_stale : forall c, stale c -> number_of_blobs dc new_decomp f fuel c = number_of_blobs dc new_decomp f fuel (bare c).
Proof. intros c SC. unfold number_of_blobs, number_of_offsets, mbind. rewrite get_offset_stale by (assumption || lia). reflexivity. Qed.
Lemma size_stale : forall i c, 0 <= i -> stale c -> blob_size dc new_decomp f fuel i c = blob_size dc new_decomp f fuel i (bare c).
Proof. intros i c Hi SC. unfold blob_size. destruct (Z.ltb_spec i 0); [lia|]. unfold mbind. rewrite blob_offsets_stale by (assumption || discriminate). reflexivity. Qed.
Lemma data_stale : forall c, stale c -> mem_data dc new_decomp f fuel c = mem_data dc new_decomp f fuel (bare c).
Proof.
  intros c SC. pose proof SC as (_ & _ & _ & _ & Dt & _). unfold mem_data. cbn [set_reader cl_data]. rewrite Dt. unfold mbind.
  destruct (info_stale c SC) as (c1 & E1 & S1 & I1 & E2). fold (set_reader None c). rewrite E1, E2, remembered_stale by exact S1. reflexivity.
Qed.
Lemma read_stale : forall i s e c, 0 <= i -> sensible_range s e -> stale c -> read_blob dc new_decomp f fuel i s e c = read_blob dc new_decomp f fuel i s e (bare c).
Proof.
  intros i s e c Hi SR SC. unfold read_blob. cbn [set_reader cl_kind]. fold (set_reader None c).
  assert (PL : plain_read_blob dc new_decomp f fuel i s e c = plain_read_blob dc new_decomp f fuel i s e (bare c)).
  { unfold plain_read_blob. rewrite (range_sane _ _ SR). destruct (Z.ltb_spec i 0); [lia|]. cbn [orb negb]. unfold mbind. rewrite blob_offsets_stale by (assumption || discriminate). reflexivity. }
  destruct (cl_kind c); [exact PL|exact PL|]. unfold mem_read_blob. destruct (Z.ltb_spec i 0); [lia|]. unfold mbind. rewrite data_stale by exact SC. reflexivity.
Qed.
Lemma iter_stale : forall i n s e c, 0 <= i -> 1 <= n -> sensible_range s e -> stale c ->
  iter_read_blob dc new_decomp f fuel i n s e c = iter_read_blob dc new_decomp f fuel i n s e (bare c).
Proof.
  intros i n s e c Hi Hn SR SC. unfold iter_read_blob. cbn [set_reader cl_kind]. fold (set_reader None c).
  assert (PL : plain_iter_read_blob dc new_decomp f fuel i n s e c = plain_iter_read_blob dc new_decomp f fuel i n s e (bare c)).
  { unfold plain_iter_read_blob. rewrite (range_sane _ _ SR). destruct (Z.ltb_spec i 0); [lia|]. destruct (Z.leb_spec n 0); [lia|]. cbn [orb negb]. unfold mbind.
    rewrite blob_offsets_stale by (assumption || discriminate). reflexivity. }
  destruct (cl_kind c); [exact PL|exact PL|]. unfold mem_iter_read_blob. destruct (Z.ltb_spec i 0); [lia|]. destruct (Z.leb_spec n 0); [lia|]. cbn [orb]. unfold mbind.
  rewrite data_stale by exact SC. reflexivity.
Qed.
Lemma reset_stale : forall c, stale c -> stale (reset c).
Proof.
  intros c (K & O & I & F & Dt & R). unfold reset. rewrite K. unfold stale.
  destruct kd eqn:KD; cbn [set_info set_offsets set_data cl_kind cl_offset cl_info cl_offsets cl_data cl_reader]; auto 10.
Qed.

(** An object of the cluster, new or moved. *)
Definition minv (c : cluster D) : Prop := cinv c \/ stale c.
Lemma holds_moved : holds (inner_cluster dc new_decomp f fuel) minv ct ext blobs.
Proof.
  pose proof (holds_cluster D dc new_decomp Rep f fuel off ct ext blobs C J tail kd true ST FU) as HO.
  constructor; cbn [in_attr in_info in_reset in_blobs in_size in_read in_iter inner_cluster].
  - intros c [(_ & _ & H & _)|(_ & _ & H & _)]; exact H.
  - intros c [H|H].
    + destruct (ho_info _ _ _ _ _ HO c H) as (c' & E & I & A). exists c'. split; [exact E|]. split; [left; exact I|exact A].
    + destruct (info_stale c H) as (c' & E & S1 & I1 & _). exists c'. split; [exact E|]. split; [right; exact S1|exact I1].
  - intros c [H|H]; [left; apply (ho_reset _ _ _ _ _ HO c H)|right; apply reset_stale; exact H].
  - intros c H. assert (G : exists c0, number_of_blobs dc new_decomp f fuel c = number_of_blobs dc new_decomp f fuel c0 /\ cinv c0).
    { destruct H as [H|H]; [eauto|]. rewrite number_stale by exact H. eauto using bare_cinv. }
    destruct G as (c0 & -> & H0). destruct (ho_blobs _ _ _ _ _ HO c0 H0) as (c' & E & I & A). exists c'. split; [exact E|]. split; [left; exact I|exact A].
  - intros c i H Hi. assert (G : exists c0, blob_size dc new_decomp f fuel i c = blob_size dc new_decomp f fuel i c0 /\ cinv c0).
    { destruct H as [H|H]; [eauto|]. rewrite size_stale by assumption. eauto using bare_cinv. }
    destruct G as (c0 & -> & H0). destruct (ho_size _ _ _ _ _ HO c0 i H0 Hi) as (c' & E & I & A). exists c'. split; [exact E|]. split; [left; exact I|exact A].
  - intros c i s e H Hi SR SI. assert (G : exists c0, read_blob dc new_decomp f fuel i s e c = read_blob dc new_decomp f fuel i s e c0 /\ cinv c0).
    { destruct H as [H|H]; [eauto|]. rewrite read_stale by assumption. eauto using bare_cinv. }
    destruct G as (c0 & -> & H0). destruct (ho_read _ _ _ _ _ HO c0 i s e H0 Hi SR SI) as (c' & E & I & A). exists c'. split; [exact E|]. split; [left; exact I|exact A].
  - intros c i n s e H Hi Hn SR SI. assert (G : exists c0, iter_read_blob dc new_decomp f fuel i n s e c = iter_read_blob dc new_decomp f fuel i n s e c0 /\ cinv c0).
    { destruct H as [H|H]; [eauto|]. rewrite iter_stale by assumption. eauto using bare_cinv. }
    destruct G as (c0 & -> & H0). destruct (ho_iter _ _ _ _ _ HO c0 i n s e H0 Hi Hn SR SI) as (x & c' & E & I & A & P). exists x, c'. split; [exact E|]. split; [left; exact I|]. split; [exact A|exact P].
Qed.
(** What is left of an object when it is moved. *)
Definition movable (c : cluster D) : Prop :=
  cl_kind c = kd /\ (kd = KPlain -> cl_offsets c = None) /\ (kd <> KInMemory -> cl_data c = None) /\ forall r, cl_reader c = Some r -> 0 < r_out r.
Lemma minv_movable : forall c, minv c -> movable c.
Proof.
  intros c [(K & O & I & R & F & Dt)|(K & O & I & F & Dt & R)]; (split; [exact K|]).
  - split; [intro; destruct F as [F|(_ & N & _)]; [exact F|contradiction]|]. split; [intro; destruct Dt as [Dt|(_ & N)]; [exact Dt|contradiction]|].
    intros r E. destruct (R r E) as (p & (_ & Q & _) & PP). rewrite Q. apply PP. reflexivity.
  - auto.
Qed.
Lemma minv_offset : forall c, minv c -> cl_offset c = off.
Proof. intros c [(_ & O & _)|(_ & O & _)]; exact O. Qed.
End Stale.
Lemma moved_stale : forall D (c : cluster D) kd p ct ext, movable kd c -> stale p ct ext kd (reset (move_cluster p c)).
Proof.
  intros D c kd p ct ext (K & F & Dt & R). unfold reset, move_cluster. cbn [cl_kind]. rewrite K. unfold stale.
  destruct kd; cbn [set_info set_offsets set_data cl_kind cl_offset cl_info cl_offsets cl_data cl_reader];
  (split; [reflexivity|]); (split; [reflexivity|]); (split; [auto|]); (split; [auto|]); (split; [first [reflexivity|apply Dt; discriminate]|exact R]).
Qed.
