From Coq Require Import List ZArith Bool Lia.
From Coq Require Import ZifyBool.
From Verif Require Import Base BaseProofs Blob.
Import ListNotations.
Open Scope Z_scope.

(** What is left to be read. *)
Definition remaining (b : blob) : bytes :=
  match b with
  | BMem _ f => zskip (mf_pos f) (mf_data f)
  | BEmpty => []
  | BEntry _ ch closed => if closed then [] else concat ch
  end.
Definition blob_ok (b : blob) : Prop :=
  match b with BMem _ f => 0 <= mf_pos f | BEntry _ ch _ => Forall (fun c => c <> []) ch | BEmpty => True end.

Lemma read_remaining : forall n b, blob_ok b ->
  remaining b = fst (blob_read n b) ++ remaining (snd (blob_read n b)) /\ blob_ok (snd (blob_read n b)) /\
  blob_size (snd (blob_read n b)) = blob_size b.
Proof.
  intros n [s f| |s ch cl] H; cbn [blob_read blob_ok remaining] in *.
  - unfold mem_read. cbn [fst snd remaining blob_ok blob_size mf_data mf_pos].
    set (rest := zskip (mf_pos f) (mf_data f)). set (r := if n <? 0 then rest else ztake n rest).
    assert (R : ztake (zlen r) rest = r).
    { unfold r. destruct (n <? 0) eqn:E; [apply ztake_all; lia|].
      unfold ztake, zlen in *. rewrite firstn_length, Nat2Z.id, <- firstn_all, !firstn_length. rewrite firstn_firstn. f_equal. lia. }
    split; [|split; [pose proof (zlen_nonneg r); lia|reflexivity]].
    assert (Z : zskip (mf_pos f + zlen r) (mf_data f) = zskip (zlen r) rest).
    { unfold rest. rewrite zskip_zskip; [f_equal; lia|apply zlen_nonneg|lia]. }
    rewrite Z. rewrite <- R at 1. symmetry. apply ztake_zskip.
  - auto.
  - destruct cl; [cbn; auto|]. destruct ch as [|c ch]; cbn; [auto|]. inversion H; subst. auto.
Qed.

Lemma reads_remaining : forall ns b, blob_ok b ->
  remaining b = concat (fst (blob_reads ns b)) ++ remaining (snd (blob_reads ns b)) /\
  blob_size (snd (blob_reads ns b)) = blob_size b /\ blob_ok (snd (blob_reads ns b)).
Proof.
  induction ns as [|n ns IH]; intros b H; cbn [blob_reads]; [auto|].
  destruct (read_remaining n b H) as (A & B & C). destruct (blob_read n b) as [x b']. cbn [fst snd] in *.
  destruct (IH b' B) as (D & E & F). destruct (blob_reads ns b') as [xs b'']. cbn [fst snd concat] in *.
  split; [rewrite A, D, <- app_assoc; reflexivity|]. split; [congruence|exact F].
Qed.

Lemma read_empty : forall n b, blob_ok b -> n > 0 -> fst (blob_read n b) = [] -> remaining b = [].
Proof.
  intros n [s f| |s ch cl] H N E; cbn [blob_read remaining blob_ok] in *; [|reflexivity|].
  - unfold mem_read in E. cbn [fst] in E. destruct (n <? 0) eqn:X; [lia|].
    destruct (zskip (mf_pos f) (mf_data f)); [reflexivity|]. unfold ztake in E.
    destruct (Z.to_nat n) eqn:Y; [lia|discriminate].
  - destruct cl; [reflexivity|]. destruct ch as [|c ch]; [reflexivity|]. cbn in E. inversion H; subst. congruence.
Qed.

Lemma read_bound : forall n s f, 0 <= n -> zlen (fst (blob_read n (BMem s f))) <= n.
Proof.
  intros n s f H. cbn [blob_read]. unfold mem_read. cbn [fst]. destruct (n <? 0) eqn:E; [lia|].
  unfold ztake, zlen. rewrite firstn_length. lia.
Qed.

Lemma read_all_spec : forall fuel n b, blob_ok b -> n > 0 -> (length (remaining b) < fuel)%nat ->
  exists xs, read_all fuel n b = Ok xs /\ concat xs = remaining b.
Proof.
  induction fuel as [|fuel IH]; intros n b H N L; [lia|]. cbn [read_all].
  destruct (read_remaining n b H) as (A & B & _). pose proof (read_empty n b H N) as RE.
  destruct (blob_read n b) as [x b'] eqn:E. cbn [fst snd] in *. destruct x as [|c x].
  - exists []. split; [reflexivity|]. rewrite (RE eq_refl). reflexivity.
  - destruct (IH n b' B N) as (xs & R & C). { rewrite A in L. rewrite app_length in L. cbn in L. lia. }
    rewrite R. cbn [bind]. eexists. split; [reflexivity|]. cbn [concat]. rewrite C, A. reflexivity.
Qed.
