From Coq Require Import List ZArith Bool Arith Lia.
From Verif Require Import Base Modifiable ModifiableSpec.
Import ListNotations.
Open Scope Z_scope.

Lemma hset_same : forall h o x, hset h o x o = x.
Proof. intros. unfold hset. rewrite Nat.eqb_refl. reflexivity. Qed.
Lemma hset_other : forall h o x p, p <> o -> hset h o x p = h p.
Proof. intros. unfold hset. apply Nat.eqb_neq in H. rewrite H. reflexivity. Qed.

Definition any_dirty (f : nat -> res bool) : list nat -> res bool :=
  fix any (l : list nat) : res bool :=
    match l with [] => Ok false | c :: r => do b <- f c ;; do b' <- any r ;; Ok (b || b') end.
Lemma is_dirty_unfold : forall fuel h o,
  is_dirty (S fuel) h o = if m_dirty (h o) then Ok true else any_dirty (is_dirty fuel h) (m_subs (h o)).
Proof. reflexivity. Qed.

Lemma any_dirty_ok : forall (f : nat -> res bool) (P : nat -> Prop) l,
  (forall c, In c l -> exists b, f c = Ok b /\ (b = true <-> P c)) ->
  exists b, any_dirty f l = Ok b /\ (b = true <-> exists c, In c l /\ P c).
Proof.
  intros f P. induction l as [|c l IH]; intro H.
  - exists false. split; [reflexivity|]. split; [discriminate|intros (c & [] & _)].
  - destruct (H c (or_introl eq_refl)) as (b & E & B). destruct IH as (b' & E' & B'). { intros d D. apply H. right. exact D. }
    exists (b || b'). cbn [any_dirty]. rewrite E. cbn [bind]. change (any_dirty f l) with (any_dirty f l) in E'.
    rewrite E'. cbn [bind]. split; [reflexivity|]. rewrite orb_true_iff, B, B'. split.
    + intros [X|(d & D & X)]; [exists c; split; [left; reflexivity|exact X]|exists d; split; [right; exact D|exact X]].
    + intros (d & [<-|D] & X); [left; exact X|right; exists d; auto].
Qed.

(** Heap and history agree. *)
Record agrees (sizes : nat -> Z) (inits : nat -> option Z) (h : mheap) (e : list mop) : Prop := {
  ag_dirty : forall o, m_dirty (h o) = modified o e;
  ag_subs : forall o c, In c (m_subs (h o)) <-> attached o c e = true;
  ag_nodup : forall o, NoDup (m_subs (h o));
  ag_size : forall o, m_size (h o) = size_now sizes o e;
  ag_init : forall o, m_init (h o) = inits o;
  ag_old : forall o, m_old (h o) = size_at_flush sizes inits o e;
}.

Lemma existsb_in : forall c l, existsb (Nat.eqb c) l = true <-> In c l.
Proof.
  intros c l. rewrite existsb_exists. split.
  - intros (x & I & E). apply Nat.eqb_eq in E. subst. exact I.
  - intro I. exists c. split; [exact I|apply Nat.eqb_refl].
Qed.
Lemma remove_nat_in : forall l c, NoDup l -> forall x, In x (remove_nat c l) <-> In x l /\ x <> c.
Proof.
  induction l as [|y l IH]; intros c ND x; cbn; [tauto|]. inversion ND; subst.
  destruct (Nat.eqb_spec y c) as [->|N].
  - split; [intro I; split; [tauto|intros ->; contradiction]|intros [[<-|I] X]; [congruence|exact I]].
  - cbn. rewrite IH by assumption. split; [intros [<-|[I X]]; [split; [left; reflexivity|exact N]|tauto]|tauto].
Qed.
Lemma remove_nat_nodup : forall l c, NoDup l -> NoDup (remove_nat c l).
Proof.
  induction l as [|y l IH]; intros c ND; cbn; [constructor|]. inversion ND; subst.
  destruct (Nat.eqb y c); [assumption|]. constructor; [rewrite remove_nat_in by assumption; tauto|apply IH; assumption].
Qed.

Lemma flushed_old : forall sizes inits o e, flushed o e = false <-> size_at_flush sizes inits o e = None.
Proof.
  induction e as [|x e IH]; [split; reflexivity|]. unfold flushed in *. destruct x as [p|p n|p c|p c|p]; cbn [existsb size_at_flush]; try exact IH.
  destruct (Nat.eq_dec p o) as [->|N].
  - rewrite Nat.eqb_refl. split; discriminate.
  - apply Nat.eqb_neq in N. rewrite N. exact IH.
Qed.

Ltac obj o p := destruct (Nat.eq_dec o p) as [->|?]; [rewrite ?hset_same|rewrite ?hset_other by congruence].

Lemma step_agrees : forall sizes inits h e x, agrees sizes inits h e -> agrees sizes inits (mstep h x) (x :: e).
Proof.
  intros sizes inits h e x [D SB ND SZ IN OL]. destruct x as [p|p n|p c|p c|p]; cbn [mstep].
  - unfold mark_dirty. constructor; intro o; cbn [modified attached size_now size_at_flush]; obj p o; cbn [m_dirty m_subs m_old m_size m_init]; auto; try (intro c; apply SB).
  - unfold resize. constructor; intro o; cbn [modified attached size_now size_at_flush]; obj p o; cbn [m_dirty m_subs m_old m_size m_init]; auto; try (intro c; apply SB).
  - unfold add_sub. destruct (existsb (Nat.eqb c) (m_subs (h p))) eqn:E.
    + apply existsb_in in E. constructor; intro o; cbn [modified attached size_now size_at_flush]; auto.
      intro d. destruct (Nat.eq_dec p o) as [->|]; [|apply SB]. destruct (Nat.eq_dec c d) as [->|]; [|apply SB]. tauto.
    + assert (NI : ~ In c (m_subs (h p))) by (intro X; apply existsb_in in X; congruence).
      constructor; intro o; cbn [modified attached size_now size_at_flush]; obj p o; cbn [m_dirty m_subs m_old m_size m_init]; auto; try (intro d; apply SB).
      * intro d. rewrite in_app_iff. cbn [In]. destruct (Nat.eq_dec c d) as [->|]; [tauto|]. rewrite SB. intuition.
      * rewrite <- (rev_involutive (m_subs (h o) ++ [c])). apply NoDup_rev. rewrite rev_app_distr. cbn. constructor; [rewrite <- in_rev; exact NI|apply NoDup_rev, ND].
  - unfold remove_sub. destruct (existsb (Nat.eqb c) (m_subs (h p))) eqn:E.
    + constructor; intro o; cbn [modified attached size_now size_at_flush]; obj p o; cbn [m_dirty m_subs m_old m_size m_init]; auto; try (intro d; apply SB).
      * intro d. rewrite remove_nat_in by apply ND. rewrite SB. destruct (Nat.eq_dec c d) as [->|]; intuition congruence.
      * apply remove_nat_nodup, ND.
    + assert (NI : ~ In c (m_subs (h p))) by (intro X; apply existsb_in in X; congruence).
      constructor; intro o; cbn [modified attached size_now size_at_flush]; auto.
      intro d. destruct (Nat.eq_dec p o) as [->|]; [|apply SB]. destruct (Nat.eq_dec c d) as [->|]; [|apply SB]. intuition discriminate.
  - unfold after_flush. constructor; intro o; cbn [modified attached size_now size_at_flush]; obj p o; cbn [m_dirty m_subs m_old m_size m_init]; auto; try (intro c; apply SB).
    f_equal. rewrite OL, IN, SZ. destruct (flushed o e) eqn:F.
    + destruct (size_at_flush sizes inits o e) eqn:Z; [reflexivity|]. apply (flushed_old sizes inits) in Z. congruence.
    + apply (flushed_old sizes inits) in F. rewrite F. destruct (inits o); reflexivity.
Qed.

Lemma run_agrees : forall sizes inits evs, agrees sizes inits (mrun sizes inits evs) (rev evs).
Proof.
  intros sizes inits evs. induction evs as [|x evs IH] using rev_ind.
  - unfold mrun. constructor; intro o; cbn; auto; try (constructor; fail); try (intro c; split; [intros []|discriminate]).
  - unfold mrun in *. rewrite fold_left_app, rev_app_distr. cbn [fold_left rev app]. apply step_agrees. exact IH.
Qed.

Lemma dirty_iff : forall sizes inits evs height fuel o,
  acyclic height (rev evs) -> (height o < fuel)%nat ->
  exists b, is_dirty fuel (mrun sizes inits evs) o = Ok b /\
    (b = true <-> exists x, part_of (rev evs) o x /\ modified x (rev evs) = true).
Proof.
  intros sizes inits evs height fuel. pose proof (run_agrees sizes inits evs) as A. set (h := mrun sizes inits evs) in *.
  induction fuel as [|fuel IH]; intros o AC H; [lia|]. rewrite is_dirty_unfold, (ag_dirty _ _ _ _ A).
  destruct (modified o (rev evs)) eqn:M.
  - exists true. split; [reflexivity|]. split; [|reflexivity]. intros _. exists o. split; [constructor|exact M].
  - destruct (any_dirty_ok (is_dirty fuel h) (fun c => exists x, part_of (rev evs) c x /\ modified x (rev evs) = true) (m_subs (h o))) as (b & E & B).
    { intros c C. apply (ag_subs _ _ _ _ A) in C. apply IH; [exact AC|]. specialize (AC _ _ C). lia. }
    exists b. split; [exact E|]. rewrite B. split.
    + intros (c & C & x & P & X). apply (ag_subs _ _ _ _ A) in C. exists x. split; [econstructor; eauto|exact X].
    + intros (x & P & X). inversion P as [|? c ? C P2]; subst; [congruence|]. exists c. split; [apply (ag_subs _ _ _ _ A); exact C|eauto].
Qed.

Lemma old_size_spec : forall sizes inits evs o,
  m_old (mrun sizes inits evs o) = size_at_flush sizes inits o (rev evs).
Proof. intros. apply (ag_old _ _ _ _ (run_agrees sizes inits evs)). Qed.
