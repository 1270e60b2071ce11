(** Proofs about threads: a logic for programs that run among others. *)
From Coq Require Import List ZArith Bool Lia Arith.
From Coq Require Import ZifyBool ZifyNat.
From Verif Require Import Base BaseProofs Infobyte Reader ReaderSpec ReaderProofs Cluster ClusterSpec ClusterProofs Threads ThreadsSpec.
Import ListNotations.
Open Scope Z_scope.

(** ** The logic *)
Section Logic.
Variable St : Type.
Variable good : St -> Prop.               (* what holds of the shared state at all times *)
Variable grows : St -> St -> Prop.        (* how it may change under others *)
Variable same : St -> St -> Prop.         (* what the lock protects is the same *)
Variable quiet : St -> Prop.              (* what holds when nobody holds the lock *)
Hypothesis grows_refl : forall s, grows s s.
Hypothesis grows_trans : forall a b c, grows a b -> grows b c -> grows a c.
Hypothesis same_refl : forall s, same s s.
Hypothesis same_trans : forall a b c, same a b -> same b c -> same a c.
Hypothesis quiet_same : forall a b, quiet a -> same a b -> quiet b.

(** [s] is a state after [u], seen by a thread that holds the lock or not. *)
Definition later (h : bool) (u s : St) : Prop := grows u s /\ (h = true -> same u s).
Lemma later_refl : forall h s, later h s s. Proof. split; auto. Qed.
Lemma later_trans : forall h a b c, later h a b -> later h b c -> later h a c.
Proof. intros h a b c (A & B) (X & Y). split; [eauto|]. intro H. eapply same_trans; eauto. Qed.
Lemma later_false : forall a b, grows a b -> later false a b. Proof. intros a b H. split; [exact H|discriminate]. Qed.

(** [p], run by a thread that holds the lock iff [h], from [u] on, with [w]
    still to be handed out, keeps to the rules and ends as [Q] says.  [Y]: which
    chunks may be handed out.  [st = false]: inside of a [with] block. *)
Fixpoint safe {A} (Y : bool -> bytes -> bytes -> Prop) (st : bool) (h : bool) (u : St) (w : bytes) (p : prog St A)
    (Q : bool -> St -> bytes -> res A -> Prop) {struct p} : Prop :=
  match p with
  | Ret r => forall s, good s -> later h u s -> Q h s w r
  | Act k g => forall s, good s -> later h u s ->
      good (g s) /\ grows s (g s) /\ (h = false -> same s (g s)) /\ safe Y st h (g s) w (k s) Q
  | Acquire p => h = false /\ forall s, good s -> later false u s -> quiet s -> safe Y st true s w p Q
  | Release p => h = true /\ forall s, good s -> later true u s -> quiet s /\ safe Y st false s w p Q
  | Yield x c p => (if st then c = h else h = true) /\ exists w', w = x ++ w' /\ Y h x w /\
      forall s, good s -> later h u s -> (h = true -> quiet s) /\ safe Y st h s w' p Q
  end.

Lemma safe_later : forall A Y st (p : prog St A) Q h u u' w, safe Y st h u w p Q -> later h u u' -> safe Y st h u' w p Q.
Proof.
  induction p as [r|k IH g|p IH|p IH|x c p IH]; cbn [safe]; intros Q h u u' w H L.
  - intros s G L'. apply H; [exact G|]. eapply later_trans; eauto.
  - intros s G L'. apply H; [exact G|]. eapply later_trans; eauto.
  - destruct H as (-> & H). split; [reflexivity|]. intros s G L' Qt. apply H; [exact G| |exact Qt]. eapply later_trans; eauto.
  - destruct H as (-> & H). split; [reflexivity|]. intros s G L'. apply H; [exact G|]. eapply later_trans; eauto.
  - destruct H as (E & w' & Ew & Hy & H). split; [exact E|]. exists w'. split; [exact Ew|]. split; [exact Hy|].
    intros s G L'. apply H; [exact G|]. eapply later_trans; eauto.
Qed.

Lemma safe_impl : forall A Y st (p : prog St A) (Q Q' : bool -> St -> bytes -> res A -> Prop) h u w,
  safe Y st h u w p Q -> (forall h s w r, good s -> Q h s w r -> Q' h s w r) -> safe Y st h u w p Q'.
Proof.
  induction p as [r|k IH g|p IH|p IH|x c p IH]; cbn [safe]; intros Q Q' h u w H I.
  - intros s G L. apply I; [exact G|]. apply H; assumption.
  - intros s G L. destruct (H s G L) as (H1 & H2 & H3 & H4). split; [exact H1|]. split; [exact H2|]. split; [exact H3|]. eapply IH; eauto.
  - destruct H as (E & H). split; [exact E|]. intros s G L Qt. eapply IH; [apply H; assumption|exact I].
  - destruct H as (E & H). split; [exact E|]. intros s G L. destruct (H s G L) as (H1 & H2). split; [exact H1|]. eapply IH; [exact H2|exact I].
  - destruct H as (E & w' & Ew & Hy & H). split; [exact E|]. exists w'. split; [exact Ew|]. split; [exact Hy|].
    intros s G L. destruct (H s G L) as (H1 & H2). split; [exact H1|]. eapply IH; eauto.
Qed.

(** What holds at the end still holds later. *)
Lemma safe_closed : forall A Y st (p : prog St A) (Q : bool -> St -> bytes -> res A -> Prop) h u w,
  safe Y st h u w p Q -> safe Y st h u w p (fun h s w r => forall s', good s' -> later h s s' -> Q h s' w r).
Proof.
  induction p as [r|k IH g|p IH|p IH|x c p IH]; cbn [safe]; intros Q h u w H.
  - intros s G L s' G' L'. apply H; [exact G'|]. eapply later_trans; eauto.
  - intros s G L. destruct (H s G L) as (H1 & H2 & H3 & H4). split; [exact H1|]. split; [exact H2|]. split; [exact H3|]. apply IH; exact H4.
  - destruct H as (E & H). split; [exact E|]. intros s G L Qt. apply IH, H; assumption.
  - destruct H as (E & H). split; [exact E|]. intros s G L. destruct (H s G L) as (H1 & H2). split; [exact H1|]. apply IH; exact H2.
  - destruct H as (E & w' & Ew & Hy & H). split; [exact E|]. exists w'. split; [exact Ew|]. split; [exact Hy|].
    intros s G L. destruct (H s G L) as (H1 & H2). split; [exact H1|]. apply IH; exact H2.
Qed.

Lemma safe_then : forall A B Y st (p : prog St A) (k : res A -> prog St B) Q h u w, good u ->
  safe Y st h u w p (fun h s w r => safe Y st h s w (k r) Q) -> safe Y st h u w (pthen p k) Q.
Proof.
  induction p as [r|c IH g|p IH|p IH|x c p IH]; cbn [safe pthen]; intros k Q h u w Gu H.
  - exact (H u Gu (later_refl h u)).
  - intros s G L. destruct (H s G L) as (H1 & H2 & H3 & H4). split; [exact H1|]. split; [exact H2|]. split; [exact H3|]. apply IH; assumption.
  - destruct H as (E & H). split; [exact E|]. intros s G L Qt. apply IH; [exact G|]. apply H; assumption.
  - destruct H as (E & H). split; [exact E|]. intros s G L. destruct (H s G L) as (H1 & H2). split; [exact H1|]. apply IH; assumption.
  - destruct H as (E & w' & Ew & Hy & H). split; [exact E|]. exists w'. split; [exact Ew|]. split; [exact Hy|].
    intros s G L. destruct (H s G L) as (H1 & H2). split; [exact H1|]. apply IH; assumption.
Qed.

Lemma safe_bind : forall A B Y st (p : prog St A) (k : A -> prog St B) (Q : bool -> St -> bytes -> res B -> Prop) h u w, good u ->
  safe Y st h u w p (fun h s w r => match r with Ok a => safe Y st h s w (k a) Q | Err e => Q h s w (Err e) end) ->
  safe Y st h u w (pbind p k) Q.
Proof.
  intros A B Y st p k Q h u w G H. apply safe_then; [exact G|]. eapply safe_impl; [exact (safe_closed _ _ _ _ _ _ _ _ H)|].
  intros h' s w' r Gs Hr. destruct r as [a|e]; [exact (Hr s Gs (later_refl _ _))|]. cbn [safe]. intros s' G' L. exact (Hr s' G' L).
Qed.

(** Programs that raise nothing here. *)
Lemma safe_ok : forall A B Y st (p : prog St A) (k : A -> prog St B) Q h u w, good u ->
  safe Y st h u w p (fun h s w r => exists a, r = Ok a /\ safe Y st h s w (k a) Q) -> safe Y st h u w (pbind p k) Q.
Proof.
  intros A B Y st p k Q h u w G H. apply safe_then; [exact G|]. eapply safe_impl; [exact H|].
  intros h' s w' r Gs (a & -> & Hr). exact Hr.
Qed.

Lemma safe_get : forall A B Y st (g : St -> A) (k : A -> prog St B) Q h u w, 
  (forall s, good s -> later h u s -> safe Y st h s w (k (g s)) Q) -> safe Y st h u w (pbind (get g) k) Q.
Proof.
  intros A B Y st g k Q h u w H. cbn. intros s G L. split; [exact G|]. split; [apply grows_refl|]. split; [intros _; apply same_refl|]. apply H; assumption.
Qed.
Lemma safe_put : forall B Y st (g : St -> St) (k : unit -> prog St B) Q h u w,
  (forall s, good s -> later h u s -> good (g s) /\ grows s (g s) /\ (h = false -> same s (g s)) /\ safe Y st h (g s) w (k tt) Q) ->
  safe Y st h u w (pbind (put g) k) Q.
Proof. intros B Y st g k Q h u w H. cbn. exact H. Qed.
Lemma safe_ret : forall A Y st (r : res A) (Q : bool -> St -> bytes -> res A -> Prop) h u w,
  (forall s, good s -> later h u s -> Q h s w r) -> safe Y st h u w (Ret r) Q.
Proof. intros A Y st r Q h u w H. exact H. Qed.

Lemma safe_finally : forall A Y st (p : prog St A) (Q : bool -> St -> bytes -> res A -> Prop) h u w, good u ->
  safe Y false h u w p (fun h s w r => h = true /\ quiet s /\ forall s', good s' -> grows s s' -> Q false s' w r) ->
  safe Y st h u w (finally p) Q.
Proof.
  induction p as [r|c IH g|p IH|p IH|x c p IH]; cbn [safe finally]; intros Q h u w Gu H.
  - destruct (H u Gu (later_refl h u)) as (-> & _). split; [reflexivity|]. intros s G L. destruct (H s G L) as (_ & Qt & HQ). split; [exact Qt|].
    intros s' G' L'. apply HQ; [exact G'|apply L'].
  - intros s G L. destruct (H s G L) as (H1 & H2 & H3 & H4). split; [exact H1|]. split; [exact H2|]. split; [exact H3|]. apply IH; assumption.
  - destruct H as (E & H). split; [exact E|]. intros s G L Qt. apply IH; [exact G|]. apply H; assumption.
  - destruct H as (E & H). split; [exact E|]. intros s G L. destruct (H s G L) as (H1 & H2). split; [exact H1|]. apply IH; assumption.
  - destruct H as (-> & w' & Ew & Hy & H). split; [destruct st; reflexivity|]. exists w'. split; [exact Ew|]. split; [exact Hy|].
    intros s G L. destruct (H s G L) as (H1 & H2). split; [exact H1|]. apply IH; assumption.
Qed.
Lemma safe_locked : forall A Y st (p : prog St A) (Q : bool -> St -> bytes -> res A -> Prop) u w,
  (forall s, good s -> later false u s -> quiet s ->
    safe Y false true s w p (fun h s w r => h = true /\ quiet s /\ forall s', good s' -> grows s s' -> Q false s' w r)) ->
  safe Y st false u w (locked p) Q.
Proof.
  intros A Y st p Q u w H. cbn [locked safe]. split; [reflexivity|]. intros s G L Qt. apply safe_finally; [exact G|]. apply H; assumption.
Qed.

(** A generator run to its end. *)
Lemma safe_drain : forall Y Y' (p : prog St unit) (Q : bool -> St -> bytes -> res unit -> Prop) h u w, good u -> safe Y true h u w p Q ->
  safe Y' true h u [] (drain p) (fun h s w0 r => w0 = [] /\ exists l w', w = concat l ++ w' /\ Forall (fun x => exists b v, Y b x v) l /\
    match r with Ok l' => l' = l /\ Q h s w' (Ok tt) | Err e => Q h s w' (Err e) end).
Proof.
  induction p as [r|c IH g|p IH|p IH|x c p IH]; cbn [safe drain]; intros Q h u w Gu H.
  - destruct r as [[]|e]; cbn [safe]; intros s G L; (split; [reflexivity|]); exists [], w; (split; [reflexivity|]); (split; [constructor|]); [split; [reflexivity|]|]; apply H; assumption.
  - intros s G L. destruct (H s G L) as (H1 & H2 & H3 & H4). split; [exact H1|]. split; [exact H2|]. split; [exact H3|]. apply IH; assumption.
  - destruct H as (E & H). split; [exact E|]. intros s G L Qt. apply IH; [exact G|]. apply H; assumption.
  - destruct H as (E & H). split; [exact E|]. intros s G L. destruct (H s G L) as (H1 & H2). split; [exact H1|]. apply IH; assumption.
  - destruct H as (E & w' & Ew & Hy & H). destruct (H u Gu (later_refl h u)) as (_ & H2).
    apply safe_then; [exact Gu|].
    eapply safe_impl; [apply safe_closed, IH; [exact Gu|exact H2]|].
    intros h' s w0 r Gs HR. destruct (HR s Gs (later_refl _ _)) as (-> & l & w2 & E2 & FF & _). destruct r as [l'|e]; cbn [safe].
    + intros s' G' L'. destruct (HR s' G' L') as (_ & l0 & w3 & E3 & FF3 & -> & HR3). split; [reflexivity|]. exists (x :: l0), w3.
      split; [rewrite Ew, E3; cbn; rewrite app_assoc; reflexivity|]. split; [constructor; [eexists _, _; exact Hy|exact FF3]|]. split; [reflexivity|exact HR3].
    + intros s' G' L'. destruct (HR s' G' L') as (_ & l0 & w3 & E3 & FF3 & HR3). split; [reflexivity|]. exists (x :: l0), w3.
      split; [rewrite Ew, E3; cbn; rewrite app_assoc; reflexivity|]. split; [constructor; [eexists _, _; exact Hy|exact FF3]|exact HR3].
Qed.

(** The state at the end comes after the one at the start. *)
Lemma safe_since : forall A Y st (p : prog St A) (Q : bool -> St -> bytes -> res A -> Prop) u0 h u w, grows u0 u ->
  safe Y st h u w p Q -> safe Y st h u w p (fun h s w r => grows u0 s /\ Q h s w r).
Proof.
  induction p as [r|k IH g|p IH|p IH|x c p IH]; cbn [safe]; intros Q u0 h u w GR H.
  - intros s G L. split; [eapply grows_trans; [exact GR|apply L]|apply H; assumption].
  - intros s G L. destruct (H s G L) as (H1 & H2 & H3 & H4). split; [exact H1|]. split; [exact H2|]. split; [exact H3|]. apply IH; [|exact H4].
    eapply grows_trans; [exact GR|]. eapply grows_trans; [apply L|exact H2].
  - destruct H as (E & H). split; [exact E|]. intros s G L Qt. apply IH; [eapply grows_trans; [exact GR|apply L]|apply H; assumption].
  - destruct H as (E & H). split; [exact E|]. intros s G L. destruct (H s G L) as (H1 & H2). split; [exact H1|]. apply IH; [eapply grows_trans; [exact GR|apply L]|exact H2].
  - destruct H as (E & w' & Ew & Hy & H). split; [exact E|]. exists w'. split; [exact Ew|]. split; [exact Hy|].
    intros s G L. destruct (H s G L) as (H1 & H2). split; [exact H1|]. apply IH; [eapply grows_trans; [exact GR|apply L]|exact H2].
Qed.

(** [next] of a generator. *)
Lemma safe_resume : forall (A : Type) Y Yg u0 (p : prog St unit) (k : got -> bool * prog St unit -> prog St A) Qg Q h u w w0,
  good u -> grows u0 u -> safe Yg true h u w p Qg ->
  (forall h s r, good s -> grows u0 s -> Qg h s w r ->
    safe Y true h s w0 (k (match r with Ok _ => GStop | Err e => GRaise e end) (false, Ret (Ok tt))) Q) ->
  (forall h s x q w', good s -> grows u0 s -> w = x ++ w' -> Yg h x w -> (h = true -> quiet s) -> safe Yg true h s w' q Qg ->
    safe Y true h s w0 (k (GChunk x) (h, q)) Q) ->
  safe Y true h u w0 (resume p k) Q.
Proof.
  intros A Y Yg u0. induction p as [r|c IH g|p IH|p IH|x c p IH]; cbn [safe resume]; intros k Qg Q h u w w0 Gu GR H HR HY.
  - destruct r as [[]|e]; [apply (HR h u (Ok tt))|apply (HR h u (Err e))]; auto; apply H; auto using later_refl.
  - intros s G L. destruct (H s G L) as (H1 & H2 & H3 & H4). split; [exact H1|]. split; [exact H2|]. split; [exact H3|].
    eapply IH; [exact H1| |exact H4|exact HR|exact HY]. eapply grows_trans; [exact GR|]. eapply grows_trans; [apply L|exact H2].
  - destruct H as (E & H). split; [exact E|]. intros s G L Qt. eapply IH; [exact G| |apply H; assumption|exact HR|exact HY]. eapply grows_trans; [exact GR|apply L].
  - destruct H as (E & H). split; [exact E|]. intros s G L. destruct (H s G L) as (H1 & H2). split; [exact H1|].
    eapply IH; [exact G| |exact H2|exact HR|exact HY]. eapply grows_trans; [exact GR|apply L].
  - destruct H as (-> & w' & Ew & Hy & H). destruct (H u Gu (later_refl h u)) as (H1 & H2). eapply HY; eauto.
Qed.

(** The threads together: every thread keeps to the rules. *)
Notation never := (fun _ _ _ => False).
Definition holds_lock (l : option nat) (i : nat) : bool := match l with Some j => Nat.eqb i j | None => false end.
Definition all_safe {A} (c : config St A) (Q : nat -> bool -> St -> bytes -> res A -> Prop) : Prop :=
  good (cf_shared c) /\
  (cf_lock c = None -> quiet (cf_shared c)) /\
  (forall i, cf_lock c = Some i -> (i < length (cf_threads c))%nat) /\
  forall i p, nth_error (cf_threads c) i = Some p -> safe never true (holds_lock (cf_lock c) i) (cf_shared c) [] p (Q i).

Lemma set_nth_len : forall A i (a : A) l, length (set_nth i a l) = length l.
Proof. induction i as [|i IH]; intros a [|x l]; cbn; auto. Qed.
Lemma set_nth_eq : forall A i (a b : A) l j, nth_error (set_nth i a l) j = Some b ->
  (j = i /\ b = a) \/ (j <> i /\ nth_error l j = Some b).
Proof.
  induction i as [|i IH]; intros a b [|x l] j H; cbn in H; try (destruct j; discriminate H).
  - destruct j as [|j]; cbn in H; [left; injection H as <-; auto|right; split; [discriminate|exact H]].
  - destruct j as [|j]; cbn in H; [right; split; [discriminate|exact H]|]. apply IH in H. destruct H as [(-> & ->)|(N & H)]; [left; auto|right; split; [congruence|exact H]].
Qed.

Lemma step_safe : forall A (c c' : config St A) Q i, all_safe c Q -> tstep i c = Some c' -> all_safe c' Q.
Proof.
  intros A c c' Q i (G & QT & IL & AS) E. unfold tstep in E. destruct (nth_error (cf_threads c) i) as [p|] eqn:EP; [|discriminate].
  pose proof (AS i p EP) as SP. destruct p as [r|k g|p|p|x y p]; try discriminate.
  - injection E as <-. cbn [safe] in SP. destruct (SP _ G (later_refl _ _)) as (G1 & G2 & G3 & G4). unfold all_safe. cbn [cf_threads cf_lock cf_shared].
    split; [exact G1|]. split; [intro L; eapply quiet_same; [exact (QT L)|apply G3; unfold holds_lock; rewrite L; reflexivity]|].
    split; [intros j L; rewrite set_nth_len; auto|].
    intros j q Hj. apply set_nth_eq in Hj. destruct Hj as [(-> & ->)|(N & Hj)]; [exact G4|].
    eapply safe_later; [apply AS; exact Hj|]. split; [exact G2|]. intro HL. apply G3. unfold holds_lock in *. destruct (cf_lock c) as [m|]; [|discriminate]. lia.
  - destruct (cf_lock c) as [m|] eqn:EL; [discriminate|]. injection E as <-. unfold all_safe. cbn [cf_threads cf_lock cf_shared].
    cbn [safe] in SP. destruct SP as (_ & SP). split; [exact G|]. split; [discriminate|]. split; [intros j J; injection J as <-; rewrite set_nth_len; apply nth_error_Some; congruence|].
    intros j q Hj. apply set_nth_eq in Hj. destruct Hj as [(-> & ->)|(N & Hj)].
    + unfold holds_lock. rewrite Nat.eqb_refl. apply SP; [exact G|apply later_refl|auto].
    + pose proof (AS j q Hj) as X. unfold holds_lock in *. rewrite (proj2 (Nat.eqb_neq j i) N). exact X.
  - destruct (cf_lock c) as [m|] eqn:EL; [|discriminate]. destruct (Nat.eqb_spec i m) as [<-|]; [|discriminate]. injection E as <-. unfold all_safe. cbn [cf_threads cf_lock cf_shared].
    cbn [safe] in SP. destruct SP as (_ & SP). assert (HH : holds_lock (Some i) i = true) by (unfold holds_lock; apply Nat.eqb_refl).
    destruct (SP _ G (later_refl _ _)) as (Q1 & S1). split; [exact G|]. split; [intros _; exact Q1|]. split; [discriminate|].
    intros j q Hj. apply set_nth_eq in Hj. destruct Hj as [(-> & ->)|(N & Hj)]; [exact S1|].
    pose proof (AS j q Hj) as X. unfold holds_lock in *. rewrite (proj2 (Nat.eqb_neq j i) N) in X. exact X.
Qed.
Lemma sched_safe : forall A sched (c : config St A) Q, all_safe c Q -> all_safe (tsched sched c) Q.
Proof.
  intros A sched. induction sched as [|i l IH]; intros c Q H; [exact H|]. cbn. apply IH. destruct (tstep i c) eqn:E; [|exact H]. eapply step_safe; eauto.
Qed.

(** Somebody can go on, as long as the rules demand that the lock is not held
    at the end. *)
Lemma safe_progress : forall A (c : config St A) Q, all_safe c Q -> (forall i h s w r, Q i h s w r -> h = false) ->
  finished c \/ can_go_on c.
Proof.
  intros A c Q (G & QT & IL & AS) HF. 
  assert (GO : forall i p, nth_error (cf_threads c) i = Some p -> (cf_lock c = None \/ cf_lock c = Some i) -> ended p \/ can_go_on c).
  { intros i p EP HL. pose proof (AS i p EP) as SP. destruct p as [r|k g|p|p|x y p].
    - left. exists r. reflexivity.
    - right. exists i. unfold tstep. rewrite EP. eexists. reflexivity.
    - right. exists i. unfold tstep. rewrite EP. destruct HL as [HL|HL]; rewrite HL; [eexists; reflexivity|].
      cbn [safe] in SP. destruct SP as (HH & _). unfold holds_lock in HH. rewrite HL, Nat.eqb_refl in HH. discriminate.
    - right. exists i. unfold tstep. rewrite EP. cbn [safe] in SP. destruct SP as (HH & _). destruct HL as [HL|HL]; rewrite HL in *; [discriminate|].
      rewrite Nat.eqb_refl. eexists. reflexivity.
    - cbn [safe] in SP. destruct SP as (_ & w' & _ & [] & _). }
  destruct (cf_lock c) as [i|] eqn:EL.
  - destruct (nth_error (cf_threads c) i) as [p|] eqn:EP; [|apply nth_error_None in EP; specialize (IL i eq_refl); lia].
    destruct (GO i p EP) as [(r & ->)|X]; [right; reflexivity| |right; exact X].
    pose proof (AS i _ EP) as SP. cbn [safe] in SP. specialize (SP _ G (later_refl _ _)). apply HF in SP. unfold holds_lock in SP. rewrite Nat.eqb_refl in SP. discriminate.
  - assert (FD : Forall ended (cf_threads c) \/ exists i p, nth_error (cf_threads c) i = Some p /\ ~ ended p).
    { clear. induction (cf_threads c) as [|p l IH]; [left; constructor|].
      destruct p as [r|k g|p|p|x y p]; try (right; exists 0%nat; eexists; split; [reflexivity|intros (r & X); discriminate]).
      destruct IH as [IH|(i & q & Ha & Hb)]; [left; constructor; [exists r; reflexivity|exact IH]|right; exists (S i), q; auto]. }
    destruct FD as [FD|(i & p & EP & NE)]; [left; exact FD|]. destruct (GO i p EP) as [X|X]; [left; reflexivity|contradiction|right; exact X].
Qed.
End Logic.

(** Programs are finite: no run goes on for ever. *)
Section Termination.
Context {St A : Type}.
(** What is left of a program after a step. *)
Inductive sub : prog St A -> prog St A -> Prop :=
| sub_act : forall k g s, sub (k s) (Act k g)
| sub_acq : forall p, sub p (Acquire p)
| sub_rel : forall p, sub p (Release p).
Lemma sub_wf : forall p, Acc sub p.
Proof.
  induction p as [r|k IH g|p IH|p IH|x c p IH]; constructor; intros q H; inversion H; subst; auto.
Qed.
Inductive subs : list (prog St A) -> list (prog St A) -> Prop :=
| subs_here : forall p q l, sub p q -> subs (p :: l) (q :: l)
| subs_there : forall p l l', subs l' l -> subs (p :: l') (p :: l).
Lemma subs_wf : forall l, Acc subs l.
Proof.
  induction l as [|p l IH]; [constructor; intros y H; inversion H|].
  revert l IH. induction (sub_wf p) as [p _ IHp]. intros l IHl. induction IHl as [l HL IHl].
  constructor. intros y H. inversion H; subst.
  - apply IHp; [assumption|]. constructor. exact HL.
  - apply IHl. assumption.
Qed.
Lemma step_subs : forall i (c c' : config St A), tstep i c = Some c' -> subs (cf_threads c') (cf_threads c).
Proof.
  intros i c c' E. unfold tstep in E. destruct (nth_error (cf_threads c) i) as [p|] eqn:EP; [|discriminate].
  assert (G : forall q, sub q p -> subs (set_nth i q (cf_threads c)) (cf_threads c)).
  { clear E. intros q H. revert i EP. induction (cf_threads c) as [|x l IH]; intros [|i] EP; try discriminate.
    - cbn in EP. injection EP as ->. cbn. constructor. exact H.
    - cbn in EP |- *. constructor. apply IH. exact EP. }
  destruct p as [r|k g|p|p|x y p]; try discriminate.
  - injection E as <-. apply G. constructor.
  - destruct (cf_lock c); [discriminate|]. injection E as <-. apply G. constructor.
  - destruct (cf_lock c) as [m|]; [|discriminate]. destruct (Nat.eqb i m); [|discriminate]. injection E as <-. apply G. constructor.
Qed.
Lemma never_endless : forall c : config St A, ~ endless c.
Proof.
  intros c (run & E0 & H). assert (G : forall l, Acc subs l -> forall n, cf_threads (run n) = l -> False).
  { intros l AL. induction AL as [l _ IH]. intros n EN. destruct (H n) as (i & E). apply step_subs in E. rewrite EN in E. eapply IH; [exact E|reflexivity]. }
  exact (G _ (subs_wf _) 0%nat eq_refl).
Qed.
End Termination.
