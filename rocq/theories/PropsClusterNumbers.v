(** Concurrent cluster numbering: C56. *)
From Coq Require Import List ZArith Bool Lia Logic.FinFun.
From Verif Require Import ClusterNumbers.
Import ListNotations.
Open Scope Z_scope.

(** The numbers handed out along a schedule. *)
Definition handed_out (num : Z) (calls : nat -> nat) (sched : list nat) : list Z := map snd (cc_log (csched sched (cstart num calls))).
Definition handed_to (t : nat) (num : Z) (calls : nat -> nat) (sched : list nat) : list Z :=
  map snd (filter (fun x => Nat.eqb (fst x) t) (cc_log (csched sched (cstart num calls)))).

(** ** The property is false *)
Definition C56_full_statement : Prop := forall num calls sched, NoDup (handed_out num calls sched).
(** Two threads, one call each: both read the attribute before either changes it. *)
Theorem C56_refuted : ~ C56_full_statement.
Proof.
  intro F. specialize (F 0 (fun t => if Nat.ltb t 2 then 1%nat else 0%nat) [0; 1; 0; 0; 1; 1]%nat).
  change (NoDup [0; 0]) in F. inversion F as [|? ? H _]. apply H. left. reflexivity.
Qed.
(** A thread can even get a number that it already got itself: the increment of
    the other thread sets the counter back. *)
Theorem C56_own_number_refuted : ~ (forall num calls sched t, NoDup (handed_to t num calls sched)).
Proof.
  intro F. specialize (F 0 (fun t => match t with O => 3%nat | 1%nat => 1%nat | _ => 0%nat end) [1; 1; 0; 0; 0; 0; 0; 0; 1; 0; 0; 0]%nat 0%nat).
  change (NoDup [0; 1; 1]) in F. inversion F as [|? ? _ F']. inversion F' as [|? ? Q _]. apply Q. left. reflexivity.
Qed.

(** ** What holds: if no two calls overlap, the numbers are consecutive *)
Definition calling (s : cconc) (t : nat) : Prop := ct_pc (cc_threads s t) <> CIdle.
Definition one_at_a_time (num : Z) (calls : nat -> nat) (sched : list nat) : Prop :=
  forall k t u, calling (csched (firstn k sched) (cstart num calls)) t -> calling (csched (firstn k sched) (cstart num calls)) u -> t = u.

Definition upto (num : Z) (n : nat) : list Z := map (fun i => num + Z.of_nat i) (seq 0 n).

Record good (num : Z) (s : cconc) : Prop := mkGood {
  go_log : map snd (cc_log s) = upto num (length (cc_log s));
  go_num : cc_num s = num + Z.of_nat (length (cc_log s));
  go_read : forall t a, ct_pc (cc_threads s t) = CRead a -> a = cc_num s;
  go_add : forall t a b, ct_pc (cc_threads s t) = CAdd a b -> a = cc_num s /\ b = cc_num s }.

Lemma good_step : forall num t s s', good num s -> (forall u v, calling s u -> calling s v -> u = v) -> cstep t s = Some s' -> good num s'.
Proof.
  intros num t s s' [G1 G2 G3 G4] A. unfold cstep. destruct (ct_pc (cc_threads s t)) as [|a|a b] eqn:P.
  - destruct (ct_todo (cc_threads s t)); [discriminate|]. intro E. injection E as <-. constructor; cbn [cc_log cc_num cc_threads]; auto.
    + intros u a. unfold set_cthread. destruct (Nat.eqb u t); cbn [ct_pc]; [intro E; injection E as <-; reflexivity|apply G3].
    + intros u a b. unfold set_cthread. destruct (Nat.eqb u t); cbn [ct_pc]; [discriminate|apply G4].
  - intro E. injection E as <-. constructor; cbn [cc_log cc_num cc_threads]; auto.
    + intros u a'. unfold set_cthread. destruct (Nat.eqb u t); cbn [ct_pc]; [discriminate|apply G3].
    + intros u a' b'. unfold set_cthread. destruct (Nat.eqb u t); cbn [ct_pc]; [intro E; injection E as <- <-; split; [apply (G3 t); exact P|reflexivity]|apply G4].
  - intro E. injection E as <-. destruct (G4 _ _ _ P) as [-> ->].
    assert (O : forall u, u <> t -> ct_pc (cc_threads s u) = CIdle).
    { intros u Hu. destruct (ct_pc (cc_threads s u)) eqn:Q; [reflexivity| |]; exfalso; apply Hu; apply A; unfold calling; congruence. }
    constructor; cbn [cc_log cc_num cc_threads].
    + rewrite map_app, app_length, G1. unfold upto. rewrite Nat.add_1_r, seq_S, map_app. cbn [map snd]. rewrite Nat.add_0_l, G2. reflexivity.
    + rewrite app_length. cbn [length]. lia.
    + intros u a. unfold set_cthread. destruct (Nat.eqb_spec u t); cbn [ct_pc]; [discriminate|]. rewrite O by assumption. discriminate.
    + intros u a b. unfold set_cthread. destruct (Nat.eqb_spec u t); cbn [ct_pc]; [discriminate|]. rewrite O by assumption. discriminate.
Qed.

Lemma good_sched : forall num sched s, good num s ->
  (forall k u v, calling (csched (firstn k sched) s) u -> calling (csched (firstn k sched) s) v -> u = v) -> good num (csched sched s).
Proof.
  intros num. induction sched as [|t sched IH]; intros s G A; [exact G|]. unfold csched. cbn [fold_left].
  fold (csched sched (match cstep t s with Some s' => s' | None => s end)). apply IH.
  - destruct (cstep t s) as [s'|] eqn:E; [|exact G]. eapply good_step; [exact G| |exact E]. exact (A 0%nat).
  - intros k. exact (A (S k)).
Qed.

Theorem C56_one_at_a_time_partial : forall num calls sched, one_at_a_time num calls sched ->
  handed_out num calls sched = upto num (length (handed_out num calls sched)) /\ NoDup (handed_out num calls sched).
Proof.
  intros num calls sched A. assert (G : good num (csched sched (cstart num calls))).
  { apply good_sched; [|exact A]. constructor; cbn; [reflexivity|lia|discriminate|discriminate]. }
  unfold handed_out. rewrite map_length. split; [apply (go_log _ _ G)|]. rewrite (go_log _ _ G). unfold upto.
  apply Injective_map_NoDup; [intros x y H; lia|apply seq_NoDup].
Qed.
(** In particular for a single thread, whatever the schedule. *)
Theorem C56_single_thread : forall num calls sched t0, (forall t, t <> t0 -> calls t = 0%nat) -> NoDup (handed_out num calls sched).
Proof.
  intros num calls sched t0 H. apply C56_one_at_a_time_partial.
  assert (I : forall l s, (forall t, t <> t0 -> cc_threads s t = mkCthread 0 CIdle) -> forall t, t <> t0 -> cc_threads (csched l s) t = mkCthread 0 CIdle).
  { induction l as [|u l IH]; intros s Hs; [exact Hs|]. unfold csched. cbn [fold_left]. fold (csched l (match cstep u s with Some s' => s' | None => s end)). apply IH.
    destruct (cstep u s) as [s'|] eqn:E; [|exact Hs]. intros t Ht. assert (u = t0).
    { destruct (Nat.eq_dec u t0); [assumption|]. unfold cstep in E. rewrite (Hs u) in E by assumption. discriminate. } subst u.
    unfold cstep in E. destruct (ct_pc (cc_threads s t0)); [destruct (ct_todo (cc_threads s t0)); [discriminate|]| |]; injection E as <-; cbn [cc_threads]; unfold set_cthread;
      (replace (Nat.eqb t t0) with false by (symmetry; apply Nat.eqb_neq; exact Ht)); apply Hs; exact Ht. }
  assert (J : forall k t, calling (csched (firstn k sched) (cstart num calls)) t -> t = t0).
  { intros k t Hc. destruct (Nat.eq_dec t t0); [assumption|]. exfalso. apply Hc. rewrite (I _ _) by (try assumption; intros v Hv; cbn; rewrite H by exact Hv; reflexivity). reflexivity. }
  intros k t u Ht Hu. rewrite (J k t Ht), (J k u Hu). reflexivity.
Qed.

(** Example: three threads, five calls, one after the other. *)
Example C56_example : handed_out 7 (fun t => match t with O => 2 | 1 => 2 | 2 => 1 | _ => 0 end)%nat [0; 0; 0; 2; 2; 2; 1; 1; 1; 1; 1; 1; 0; 0; 0]%nat = [7; 8; 9; 10; 11].
Proof. reflexivity. Qed.

Print Assumptions C56_refuted.
Print Assumptions C56_own_number_refuted.
Print Assumptions C56_one_at_a_time_partial.
Print Assumptions C56_single_thread.
