(** Property C101: processors that replace the clusters that are read, and cluster
    caches, do not disturb look-ups. *)
From Coq Require Import List ZArith Bool Lia.
From Coq Require Import ZifyBool ZifyNat.
From Verif Require Import Base PointerList PointerListProofs Cluster Cache EntryCache EntryCacheSpec EntryCacheClass ClusterHooks.
Import ListNotations.
Open Scope Z_scope.

(** ** Specification *)
Section Spec.
Context {P X : Type}.
(** The processors are told one after another that [location] is read. *)
Inductive told (location : Z) : list (cproc P X) -> P -> P -> Prop :=
| told_all : forall p, told location [] p p
| told_one : forall x r p p', told location r (before_cget x location p) p' -> told location (x :: r) p p'.
(** The processors are asked one after another, each of them with the cluster that
    the one before returned and with the memory that it left. *)
Inductive cpassed : list (cproc P X) -> clu X -> P -> clu X -> P -> Prop :=
| cpassed_all : forall c p, cpassed [] c p c p
| cpassed_one : forall x r c p c1 p1 c' p', after_cget x c p = (c1, p1) -> cpassed r c1 p1 c' p' -> cpassed (x :: r) c p c' p'.
(** What a caller gets for the cluster at [location], when the processors remember
    [p]: what they make of the cluster that is in the file there; they remember [p']
    afterwards. *)
Inductive reads (procs : list (cproc P X)) (base location : Z) (p : P) : res (clu X) -> P -> Prop :=
| reads_one : forall p1 c p', 0 <= base + location -> told location procs p p1 -> cpassed procs (FromFile (base + location)) p1 c p' -> reads procs base location p (Ok c) p'
| reads_none : forall p1, base + location < 0 -> told location procs p p1 -> reads procs base location p (Err AssertionError) p1.
(** Calls of [get_cluster_at]; between them the processors may do something. *)
Inductive history (procs : list (cproc P X)) (base : Z) (w : cstate P X) : cstate P X -> Prop :=
| history_none : history procs base w w
| history_get : forall location w1, history procs base w w1 -> history procs base w (snd (hget_cluster_at procs base location w1))
| history_other : forall w1 p, history procs base w w1 -> history procs base w (mkCs (cs_cache w1) (cs_objs w1) p).
End Spec.

Section Proofs.
Context {P X : Type}.
Variable procs : list (cproc P X).
Variable base : Z.

Definition kept (objs : list (clu X)) (kv : Z * nat) : Prop := 0 <= fst kv /\ nth_error objs (snd kv) = Some (FromFile (fst kv)).
Definition cinv (w : cstate P X) : Prop := holds (kept (cs_objs w)) (cs_cache w).

Lemma told_ok : forall (l : list (cproc P X)) location p, told location l p (cask_before l location p).
Proof. induction l as [|x l IH]; intros; cbn [cask_before]; constructor. apply IH. Qed.
Lemma cpassed_ok : forall (l : list (cproc P X)) c p, cpassed l c p (fst (cpass_on l c p)) (snd (cpass_on l c p)).
Proof.
  induction l as [|x l IH]; intros c p; cbn [cpass_on]; [constructor|]. destruct (after_cget x c p) as [c1 p1] eqn:E. econstructor; [exact E|apply IH].
Qed.
Lemma leave_ok : forall objs evs, evs_hold (kept objs) evs -> on_cluster_leave evs = Ok tt.
Proof.
  intros objs evs H. unfold on_cluster_leave. replace (existsb (fun e => lv_key e <? 0) evs) with false; [reflexivity|]. symmetry.
  induction H as [|e l [H0 _] _ IH]; [reflexivity|]. cbn [existsb fst] in *. rewrite IH. lia.
Qed.
Lemma kept_more : forall objs o kv, kept objs kv -> kept (objs ++ [o]) kv.
Proof. intros objs o kv (H1 & H2). split; [exact H1|]. rewrite nth_error_app1; [exact H2|]. apply nth_error_Some. congruence. Qed.
Lemma get_ok : forall location w, cinv w -> exists r w', hget_cluster_at procs base location w = (r, w') /\ cinv w' /\ reads procs base location (cs_mem w) r (cs_mem w').
Proof.
  intros location w I. unfold hget_cluster_at. rewrite has_step. pose proof (told_ok procs location (cs_mem w)) as T. destruct (ehas (cs_cache w) (base + location)) eqn:EH.
  - destruct (get_step _ _ _ I EH) as (c' & evs & v & -> & H' & (K1 & K2) & EV & _). rewrite (leave_ok _ _ EV). cbn [fst snd] in K1, K2. rewrite K2.
    pose proof (cpassed_ok procs (FromFile (base + location)) (cask_before procs location (cs_mem w))) as Q. destruct (cpass_on _ _ _) as [o p]. cbn [fst snd] in Q.
    exists (Ok o), (mkCs c' (cs_objs w) p). split; [reflexivity|]. split; [exact H'|]. econstructor; eassumption.
  - destruct (base + location <? 0) eqn:EN.
    + eexists _, _. split; [reflexivity|]. split; [exact I|]. constructor; [lia|exact T].
    + assert (KN : nth_error (cs_objs w ++ [FromFile (base + location)]) (length (cs_objs w)) = Some (FromFile (base + location))) by (rewrite nth_error_app2, Nat.sub_diag by lia; reflexivity).
      destruct (push_step (kept (cs_objs w ++ [FromFile (base + location)])) (cs_cache w) (base + location) (length (cs_objs w)) true) as (c' & evs & b & -> & H' & EV & _).
      { eapply holds_weaken; [|exact I]. intros kv. apply kept_more. }
      { split; cbn [fst snd]; [lia|exact KN]. }
      rewrite (leave_ok _ _ EV). rewrite KN.
      pose proof (cpassed_ok procs (FromFile (base + location)) (cask_before procs location (cs_mem w))) as Q. destruct (cpass_on _ _ _) as [o p]. cbn [fst snd] in Q.
      exists (Ok o), (mkCs c' (cs_objs w ++ [FromFile (base + location)]) p). split; [reflexivity|]. split; [|econstructor; [lia|exact T|exact Q]].
      unfold cinv. cbn [cs_cache cs_objs]. eapply holds_weaken; [|exact H']. intros kv (H & _). exact H.
Qed.
Lemma history_inv : forall cl p w, sizes_positive cl -> history procs base (cs_new cl p) w -> cinv w.
Proof.
  intros cl p w S H. induction H as [|location w1 _ IH|w1 q _ IH].
  - apply new_holds. exact S.
  - destruct (get_ok location w1 IH) as (r & w' & -> & I & _). exact I.
  - exact IH.
Qed.
Lemma told_det : forall l location (p p1 p2 : P), @told P X location l p p1 -> told location l p p2 -> p1 = p2.
Proof. intros l location p p1 p2 H. revert p2. induction H; intros p2 H2; inversion H2; subst; auto. Qed.
Lemma cpassed_det : forall l (c : clu X) (p : P) c1 p1 c2 p2, cpassed l c p c1 p1 -> cpassed l c p c2 p2 -> c1 = c2 /\ p1 = p2.
Proof.
  intros l c p c1 p1 c2 p2 H. revert c2 p2. induction H as [|x r c p c1 p1 c' p' E H IH]; intros c2 p2 H2; inversion H2; subst; [auto|].
  match goal with E2 : after_cget x c p = _ |- _ => rewrite E in E2; injection E2 as <- <- end. apply IH. assumption.
Qed.
End Proofs.

(** ** C101 *)
(** Whatever was read before, and whatever the cache keeps: a look-up gives what the
    processors, each called once before and once after, make of the cluster that is
    in the file at that location. *)
Theorem C101_lookup : forall (P X : Type) (procs : list (cproc P X)) base cl p0 w location, sizes_positive cl -> history procs base (cs_new cl p0) w ->
  exists r w', hget_cluster_at procs base location w = (r, w') /\ reads procs base location (cs_mem w) r (cs_mem w').
Proof.
  intros P X procs base cl p0 w location S H. destruct (get_ok procs base location w (history_inv procs base cl p0 w S H)) as (r & w' & E & _ & R). eauto.
Qed.
(** The same for look-ups by number. *)
Theorem C101_by_index : forall (P X : Type) (procs : list (cproc P X)) base ptrs cl p0 w i, sizes_positive cl -> history procs base (cs_new cl p0) w ->
  (i < 0 -> hget_cluster_by_index procs base ptrs i w = (Err AssertionError, w)) /\
  (zlen ptrs <= i -> hget_cluster_by_index procs base ptrs i w = (Err IndexError, w)) /\
  (forall location, 0 <= i -> nth_error ptrs (Z.to_nat i) = Some location ->
     exists r w', hget_cluster_by_index procs base ptrs i w = (r, w') /\ reads procs base location (cs_mem w) r (cs_mem w')).
Proof.
  intros P X procs base ptrs cl p0 w i S H. unfold hget_cluster_by_index, raise. split; [|split].
  - intro L. replace (i <? 0) with true by lia. reflexivity.
  - intro L. unfold zlen in L. replace (i <? 0) with false by lia. rewrite get_by_index_znth by lia. unfold znth. replace (i <? 0) with false by lia.
    destruct (nth_error ptrs (Z.to_nat i)) eqn:E; [|reflexivity]. assert (Z.to_nat i < length ptrs)%nat by (apply nth_error_Some; congruence). lia.
  - intros location L E. replace (i <? 0) with false by lia.
    assert (G : get_by_index ptrs i = Ok location) by (rewrite get_by_index_znth by lia; unfold znth; replace (i <? 0) with false by lia; rewrite E; reflexivity).
    rewrite G. eapply C101_lookup; eassumption.
Qed.
(** Two archives with different caches, and processors that remember the same: every
    look-up gives the same, and leaves the processors with the same memory. *)
Theorem C101_any_cache : forall (P X : Type) (procs : list (cproc P X)) base cl cl' p0 p0' w w' location, sizes_positive cl -> sizes_positive cl' ->
  history procs base (cs_new cl p0) w -> history procs base (cs_new cl' p0') w' -> cs_mem w = cs_mem w' ->
  fst (hget_cluster_at procs base location w) = fst (hget_cluster_at procs base location w') /\
  cs_mem (snd (hget_cluster_at procs base location w)) = cs_mem (snd (hget_cluster_at procs base location w')).
Proof.
  intros P X procs base cl cl' p0 p0' w w' location S S' H H' EM.
  destruct (C101_lookup P X procs base cl p0 w location S H) as (r & w1 & -> & R). destruct (C101_lookup P X procs base cl' p0' w' location S' H') as (r' & w1' & -> & R'). cbn [fst snd].
  rewrite <- EM in R'. inversion R as [q c p L T Q E1 E2|q L T E1 E2]; inversion R' as [q' c' p' L' T' Q' E1' E2'|q' L' T' E1' E2']; try lia.
  - rewrite (told_det _ _ _ _ _ T' T) in Q'. destruct (cpassed_det _ _ _ _ _ _ _ Q Q') as (-> & ->). auto.
  - split; [reflexivity|]. exact (told_det _ _ _ _ _ T T').
Qed.
(** A processor that writes down its calls and replaces the cluster by a number. *)
Definition witness (name : Z) : cproc (list (bool * Z)) Z :=
  mkCproc (fun _ p => p ++ [(false, name)]) (fun c p => (match c with FromFile q => Other (q + name) | Other x => Other (x * 10 + name) end, p ++ [(true, name)])).
(** A case that meets the hypotheses: the clusters at 7, 9 and 7 again, when there is
    room for one, and when there is room for two; two processors that replace. *)
Fixpoint after_gets (base : Z) (locations : list Z) (w : cstate (list (bool * Z)) Z) : cstate (list (bool * Z)) Z :=
  match locations with [] => w | l :: r => snd (hget_cluster_at [witness 1; witness 2] base l (after_gets base r w)) end.
Example C101_example : forall n, n = 1 \/ n = 2 ->
  let w := after_gets 100 [9; 7] (cs_new (LastAccessCache n) []) in
  sizes_positive (LastAccessCache n) /\ history [witness 1; witness 2] 100 (cs_new (LastAccessCache n) []) w /\
  ehas (cs_cache w) 107 = (n =? 2) /\ zlen (cs_mem w) = 8 /\
  let '(r, w') := hget_cluster_at [witness 1; witness 2] 100 7 w in
  r = Ok (Other 1082) /\ cs_mem w' = cs_mem w ++ [(false, 1); (false, 2); (true, 1); (true, 2)] /\
  fst (hget_cluster_by_index [witness 1; witness 2] 100 [9; 7] 1 w) = r.
Proof.
  intros n [-> | ->]; (split; [cbn; lia|]; split; [cbn [after_gets]; do 2 apply history_get; apply history_none|]; vm_compute; repeat split; reflexivity).
Qed.

Print Assumptions C101_lookup.
Print Assumptions C101_by_index.
Print Assumptions C101_any_cache.
Print Assumptions C101_example.
