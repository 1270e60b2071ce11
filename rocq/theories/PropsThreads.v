(** C83: threads that read from the clusters of one archive. *)
From Coq Require Import List ZArith Bool Lia Arith.
From Coq Require Import Strings.Byte.
From Verif Require Import Base BaseProofs Infobyte Reader ReaderSpec ReaderProofs Cluster ClusterSpec ClusterProofs DecompressorsProofs ClusterWrapperProofs Threads ThreadsSpec ThreadsProofs ThreadsClusterProofs.
From Verif Require PropsCluster.
Import ListNotations.
Open Scope Z_scope.

(** The cluster objects [0, 1, 2, ...]: object [k] has class [kind k] and is for
    the cluster at [off k]; several objects may be for the same cluster.  All of
    them are stored in the file [f] with the blobs [blobs k], as in C25. *)
Section Statement.
Context {D : Type}.
Variables (dc : decomp D) (new_decomp : ctype -> res D) (f : bytes) (fuel : nat).
Variable Rep : nat -> D -> bytes -> bytes -> bytes -> Prop.
Variables (kind : nat -> ckind) (off : nat -> Z) (ct : nat -> ctype) (ext : nat -> bool) (blobs : nat -> list bytes) (C J tail : nat -> bytes).
Variable ends : nat -> bool.
Definition clusters_stored : Prop := forall k,
  stored dc new_decomp (Rep k) f (off k) (ct k) (ext k) (blobs k) (C k) (J k) (tail k) /\
  (ends k = true -> stored_ends dc (Rep k) (J k) (tail k)) /\
  zlen (cluster_data (ext k) (blobs k) ++ tail k) + 2 <= Z.of_nat fuel.
(** Threads that run [scripts], in any order of steps: what a thread that has
    come to its end has got is right, the threads do not get stuck, and they do
    not run for ever. *)
Definition served (pos : Z) (scripts : list (list cmd)) : Prop :=
  forall sched, let c := tsched sched (tstart dc new_decomp f fuel kind off pos scripts) in
    (forall i cs r, nth_error scripts i = Some cs -> nth_error (cf_threads c) i = Some (Ret r) ->
       exists l, r = Ok l /\ results ct ext blobs C cs l (fun _ => Over)) /\
    (finished c \/ can_go_on c) /\
    ~ endless c.
End Statement.

(** What one would like: any calls, in any number of threads. *)
Definition C83_full_statement : Prop :=
  forall (D : Type) (dc : decomp D) new_decomp f fuel Rep kind off ct ext blobs C J tail ends pos scripts,
    clusters_stored dc new_decomp f fuel Rep off ct ext blobs C J tail ends ->
    Forall (Forall (fun c => match c with
      | Call k q => allowed_call (ct k) (blobs k) (kind k) (ends k) q
      | Open _ k i n s e => allowed_call (ct k) (blobs k) (kind k) (ends k) (QIter i n s e)
      | _ => True end)) scripts ->
    served dc new_decomp f fuel kind off ct ext blobs C pos scripts.

(** Proved: no cluster is reset meanwhile, and a thread that has begun to take
    chunks from a generator ends or closes it before it uses the archive again. *)
Theorem C83_reads_partial :
  forall (D : Type) (dc : decomp D) new_decomp f fuel Rep kind off ct ext blobs C J tail ends pos scripts,
    clusters_stored dc new_decomp f fuel Rep off ct ext blobs C J tail ends ->
    Forall (Forall (usable ct blobs ends kind)) scripts ->
    Forall (fun cs => tidy kind cs (fun _ => 0%nat) None) scripts ->
    served dc new_decomp f fuel kind off ct ext blobs C pos scripts.
Proof.
  intros D dc new_decomp f fuel Rep kind off ct ext blobs C J tail ends pos scripts ST U T sched.
  assert (S1 : forall k, stored dc new_decomp (Rep k) f (off k) (ct k) (ext k) (blobs k) (C k) (J k) (tail k)) by (intro k; apply ST).
  assert (S2 : forall k, ends k = true -> stored_ends dc (Rep k) (J k) (tail k)) by (intro k; apply ST).
  assert (S3 : forall k, zlen (cluster_data (ext k) (blobs k) ++ tail k) + 2 <= Z.of_nat fuel) by (intro k; apply ST).
  set (good := good (D := D) kind ct ext blobs). set (quiet := quiet (D := D) Rep off ext blobs C J tail).
  set (Q := fun (i : nat) (h : bool) (s : shared D) (w : bytes) (r : res (list got)) =>
    h = false /\ forall cs, nth_error scripts i = Some cs -> exists l, r = Ok l /\ results ct ext blobs C cs l (fun _ => Over)).
  assert (A0 : all_safe _ good grows same quiet (tstart dc new_decomp f fuel kind off pos scripts) Q).
  { assert (G0 : good (mkShared pos (fun _ => new_cell))). { intro k. unfold good_cell. cbn. auto. }
    split; [exact G0|]. split; [intros _ k r E; discriminate|]. split; [discriminate|].
    intros i p E. cbn [tstart cf_threads] in E. rewrite nth_error_map in E. destruct (nth_error scripts i) as [cs|] eqn:EC; [|discriminate]. injection E as <-.
    eapply safe_impl; [eapply (L_script dc new_decomp f fuel Rep kind off ct ext blobs C J tail ends S1 S2 S3 cs no_gens (fun _ => Over) (fun _ => 0%nat) None false)|].
    - exact G0.
    - split; try discriminate. intro g. apply generator_over.
    - rewrite Forall_forall in T. apply T. eapply nth_error_In; exact EC.
    - rewrite Forall_forall in U. apply U. eapply nth_error_In; exact EC.
    - intros h s w r Gs (-> & l & -> & HR). split; [reflexivity|]. intros cs' E'. assert (cs' = cs) by congruence. subst cs'. exists l. auto. }
  cbv zeta. assert (A : all_safe _ good grows same quiet (tsched sched (tstart dc new_decomp f fuel kind off pos scripts)) Q).
  { apply sched_safe; [exact grows_refl|exact grows_trans|exact same_refl|exact same_trans| |exact A0]. apply quiet_same. }
  split; [|split].
  - intros i cs r EC ER. destruct A as (G & _ & _ & AS). specialize (AS i _ ER). cbn in AS. destruct (AS _ G) as (_ & X); [|apply X; exact EC].
    apply later_refl; [exact grows_refl|exact same_refl].
  - eapply safe_progress; [exact grows_refl|exact same_refl|exact A|]. intros i h s w r (X & _). exact X.
  - apply never_endless.
Qed.
Print Assumptions C83_reads_partial.

(** With clusters that keep their data in memory there is no condition on how
    generators are used. *)
Theorem C83_in_memory :
  forall (D : Type) (dc : decomp D) new_decomp f fuel Rep kind off ct ext blobs C J tail ends pos scripts,
    clusters_stored dc new_decomp f fuel Rep off ct ext blobs C J tail ends ->
    (forall k, kind k = KInMemory) ->
    Forall (Forall (usable ct blobs ends kind)) scripts ->
    served dc new_decomp f fuel kind off ct ext blobs C pos scripts.
Proof.
  intros D dc new_decomp f fuel Rep kind off ct ext blobs C J tail ends pos scripts ST K U. eapply C83_reads_partial; [exact ST|exact U|].
  apply Forall_forall. intros cs _. generalize (fun _ : nat => 0%nat). induction cs as [|c cs IH]; intro cl; [reflexivity|].
  destruct c; cbn [tidy]; repeat split; try discriminate; try (left; reflexivity); rewrite ?K; apply IH.
Qed.
Print Assumptions C83_in_memory.

(** Nor with any class, if the blobs are read in one go: by [read_blob], or with
    a generator that is run to its end ([QIter]). *)
Theorem C83_calls :
  forall (D : Type) (dc : decomp D) new_decomp f fuel Rep kind off ct ext blobs C J tail ends pos (calls : list (list (nat * ccall))),
    clusters_stored dc new_decomp f fuel Rep off ct ext blobs C J tail ends ->
    Forall (Forall (fun c => snd c <> QReset /\ allowed_call (ct (fst c)) (blobs (fst c)) (kind (fst c)) (ends (fst c)) (snd c))) calls ->
    let scripts := map (map (fun c => Call (fst c) (snd c))) calls in
    served dc new_decomp f fuel kind off ct ext blobs C pos scripts.
Proof.
  intros D dc new_decomp f fuel Rep kind off ct ext blobs C J tail ends pos calls ST AL scripts. eapply C83_reads_partial; [exact ST| |].
  - unfold scripts. apply Forall_map. eapply Forall_impl; [|exact AL]. intros l HL. apply Forall_map. eapply Forall_impl; [|exact HL]. intros (k & q) H. exact H.
  - unfold scripts. apply Forall_map, Forall_forall. intros l _. generalize (fun _ : nat => 0%nat). induction l as [|c l IH]; intro cl; [reflexivity|]. cbn. split; [reflexivity|apply IH].
Qed.
Print Assumptions C83_calls.

(** ** An archive with one cluster: the blobs "a", "" and "bc" *)
Definition three : list bytes := [[x61]; []; [x62; x63]].
(** Objects of the three classes; the default one is [OffsetRememberingCluster]
    (policy.py 130-131). *)
Definition kinds (k : nat) : ckind := match k with 0%nat => KRemembering | 1%nat => KInMemory | _ => KPlain end.
Lemma three_stored : clusters_stored passthrough plain_new PropsCluster.sample 100 (fun _ => pt_rep) (fun _ => 1)
  (fun _ => NONE) (fun _ => false) (fun _ => three) (fun _ => zskip 2 PropsCluster.sample) (fun _ => []) (fun _ => [x51]) (fun _ => false).
Proof. intro k. split; [exact PropsCluster.sample_stored|]. split; [discriminate|]. vm_compute. discriminate. Qed.

Notation start3 := (tstart passthrough plain_new PropsCluster.sample 100 kinds (fun _ => 1) 0).
Definition run3 (sched : list nat) (scripts : list (list cmd)) := tsched sched (start3 scripts).
(** No thread can move, and one is not at its end. *)
Definition deadlocked {St A} (c : config St A) : bool :=
  forallb (fun i => match tstep i c with None => true | Some _ => false end) (seq 0 (length (cf_threads c))) &&
  existsb (fun p => match p with Ret _ => false | _ => true end) (cf_threads c).
Lemma deadlocked_stuck : forall St A (c : config St A), deadlocked c = true -> ~ (finished c \/ can_go_on c).
Proof.
  intros St A c H. apply andb_prop in H. destruct H as (H1 & H2). intros [F|(i & c' & E)].
  - apply existsb_exists in H2. destruct H2 as (p & Ip & Hp). unfold finished in F. rewrite Forall_forall in F. destruct (F p Ip) as (r & ->). discriminate.
  - rewrite forallb_forall in H1. assert (L : (i < length (cf_threads c))%nat). { apply nth_error_Some. intro N. unfold tstep in E. rewrite N in E. discriminate. }
    specialize (H1 i). rewrite in_seq in H1. specialize (H1 ltac:(lia)). rewrite E in H1. discriminate.
Qed.

(** False in general: a thread takes a chunk of the last blob from a generator of
    a cluster of the default class, and reads another blob before it takes the
    next one.  The generator holds the lock of the file, so the thread waits for
    itself for ever. *)
Theorem C83_refuted : ~ C83_full_statement.
Proof.
  intro F. specialize (F _ _ _ _ _ _ kinds _ _ _ _ _ _ _ _ 0 [[Open 0 0 2 1 None None; Next 0; Call 0 (QRead 0 None None)]] three_stored).
  assert (X : served passthrough plain_new PropsCluster.sample 100 kinds (fun _ => 1) (fun _ => NONE) (fun _ => false) (fun _ => three) (fun _ => zskip 2 PropsCluster.sample) 0
    [[Open 0 0 2 1 None None; Next 0; Call 0 (QRead 0 None None)]]).
  { apply F. repeat constructor; cbn; auto; lia. }
  destruct (X (repeat 0%nat 80)) as (_ & G & _). revert G. apply deadlocked_stuck. vm_compute. reflexivity.
Qed.
Print Assumptions C83_refuted.
(** So does a thread whose cluster is reset by another one between the moment it
    has looked at the information byte and the moment it makes a decompressor. *)
Theorem C83_reset_refuted : ~ served passthrough plain_new PropsCluster.sample 100 kinds (fun _ => 1) (fun _ => NONE) (fun _ => false) (fun _ => three) (fun _ => zskip 2 PropsCluster.sample) 0
  [[Call 2 QBlobCount]; [Call 2 QReset]].
Proof.
  intro X. destruct (X (repeat 0%nat 12 ++ repeat 1%nat 6 ++ repeat 0%nat 100)) as (_ & G & _). revert G. apply deadlocked_stuck. vm_compute. reflexivity.
Qed.
Print Assumptions C83_reset_refuted.

(** The hypotheses of [C83_reads_partial] are met by three threads that share
    two objects of the cluster; one of them closes its generator early, another
    interleaves two generators of the object in memory. *)
Definition readers3 : list (list cmd) :=
  [ [Open 0 0 2 1 None None; Next 0; Next 0; Next 0; Close 0; Call 1 QBlobCount; Open 1 0 0 4 None None; Next 1; Close 1; Elsewhere 3; Call 0 (QBlobSize 2)];
    [Open 0 1 2 1 None None; Open 1 1 2 8 (Some 1) None; Next 0; Next 1; Call 0 (QRead 0 None None); Next 0; Next 0];
    [Call 0 (QIter 2 1 None None); Call 0 (QRead 3 None None); Next 5; Close 5] ].
Example C83_example_usable : Forall (Forall (usable (fun _ => NONE) (fun _ => three) (fun _ => false) kinds)) readers3.
Proof. repeat constructor; cbn; auto; try lia; discriminate. Qed.
Example C83_example_tidy : Forall (fun cs => tidy kinds cs (fun _ => 0%nat) None) readers3.
Proof.
  unfold readers3. repeat match goal with |- Forall _ (_ :: _) => apply Forall_cons | |- Forall _ [] => apply Forall_nil end;
    vm_compute; repeat split; try discriminate; auto.
Qed.
(** Their steps taken in turn, and what they get. *)
Example C83_example_results :
  map (fun p => match p with Ret r => r | _ => Err Diverge end)
    (cf_threads (run3 (concat (repeat [0; 1; 2; 2]%nat 200)) readers3)) =
  [ Ok [GNothing; GChunk [x62]; GChunk [x63]; GStop; GNothing; GAns (CNum 3); GNothing; GChunk [x61]; GNothing; GNothing; GAns (CNum 2)];
    Ok [GNothing; GNothing; GChunk [x62]; GChunk [x63]; GAns (CData [x61]); GChunk [x63]; GStop];
    Ok [GAns (CParts [[x62]; [x63]]); GAns (CFail BlobNotFound); GStop; GNothing] ].
Proof. vm_compute. reflexivity. Qed.
