(** Python dictionaries: association lists in insertion order. *)
From Coq Require Import List Bool.
Import ListNotations.

Section Dict.
Context {K V : Type}.
Variable keqb : K -> K -> bool.

(** [d.get(k)] / [d[k]] *)
Fixpoint dget (k : K) (d : list (K * V)) : option V :=
  match d with
  | [] => None
  | (k', v) :: r => if keqb k k' then Some v else dget k r
  end.

(** [k in d] *)
Definition dmem (k : K) (d : list (K * V)) : bool :=
  match dget k d with Some _ => true | None => false end.

(** [d[k] = v]: an existing key keeps its position. *)
Fixpoint dset (k : K) (v : V) (d : list (K * V)) : list (K * V) :=
  match d with
  | [] => [(k, v)]
  | (k', v') :: r => if keqb k k' then (k', v) :: r else (k', v') :: dset k v r
  end.

(** [del d[k]] (for a key that is present) *)
Fixpoint ddel (k : K) (d : list (K * V)) : list (K * V) :=
  match d with
  | [] => []
  | (k', v') :: r => if keqb k k' then r else (k', v') :: ddel k r
  end.

Hypothesis keqb_spec : forall a b, keqb a b = true <-> a = b.

Lemma keqb_refl : forall a, keqb a a = true.
Proof. intro a. apply keqb_spec. reflexivity. Qed.
Lemma keqb_false : forall a b, keqb a b = false <-> a <> b.
Proof.
  intros a b. destruct (keqb a b) eqn:E.
  - apply keqb_spec in E. split; [discriminate|congruence].
  - split; [|reflexivity]. intros _ H. apply keqb_spec in H. congruence.
Qed.

Lemma dget_dset : forall d k v k', dget k' (dset k v d) = if keqb k' k then Some v else dget k' d.
Proof.
  induction d as [|[a b] d IH]; intros k v k'; cbn [dget dset]; [reflexivity|].
  destruct (keqb k a) eqn:E; cbn [dget].
  - apply keqb_spec in E. subst a. destruct (keqb k' k); reflexivity.
  - rewrite IH. destruct (keqb k' a) eqn:E1; [|reflexivity].
    destruct (keqb k' k) eqn:E2; [|reflexivity]. apply keqb_spec in E1, E2. subst. rewrite keqb_refl in E. discriminate.
Qed.

Lemma dget_in : forall d k v, dget k d = Some v -> In (k, v) d.
Proof.
  induction d as [|[a b] d IH]; intros k v H; cbn in H; [discriminate|].
  destruct (keqb k a) eqn:E; [apply keqb_spec in E; subst; injection H as ->; left; reflexivity|right; auto].
Qed.
Lemma dget_none : forall d k, dget k d = None <-> ~ In k (map fst d).
Proof.
  induction d as [|[a b] d IH]; intro k; cbn; [tauto|]. destruct (keqb k a) eqn:E.
  - apply keqb_spec in E. subst. split; [discriminate|]. intro H. exfalso. apply H. auto.
  - apply keqb_false in E. rewrite IH. split; [intros H [?|?]; congruence|tauto].
Qed.
Lemma dget_some_iff : forall d k, (exists v, dget k d = Some v) <-> In k (map fst d).
Proof.
  intros d k. destruct (dget k d) as [v|] eqn:E.
  - split; [intros _|eauto]. apply in_map_iff. exists (k, v). split; [reflexivity|apply dget_in; exact E].
  - split; [intros [v H]; discriminate|]. intro H. apply dget_none in E. contradiction.
Qed.
Lemma dmem_iff : forall d k, dmem k d = true <-> In k (map fst d).
Proof.
  intros d k. rewrite <- dget_some_iff. unfold dmem. destruct (dget k d); split; eauto; try discriminate.
  intros [v H]; discriminate.
Qed.
Lemma in_dget : forall d k v, NoDup (map fst d) -> In (k, v) d -> dget k d = Some v.
Proof.
  induction d as [|[a b] d IH]; intros k v H Hi; [destruct Hi|]. cbn in *. inversion H; subst.
  destruct Hi as [Hi|Hi].
  - injection Hi as -> ->. rewrite keqb_refl. reflexivity.
  - destruct (keqb k a) eqn:E; [|auto]. apply keqb_spec in E. subst. exfalso. apply H2.
    apply in_map_iff. exists (a, v). auto.
Qed.

Lemma dset_keys : forall d k v, map fst (dset k v d) = if dmem k d then map fst d else map fst d ++ [k].
Proof.
  induction d as [|[a b] d IH]; intros k v; cbn [dset dmem dget map fst app]; [reflexivity|].
  unfold dmem in *. cbn [dget]. destruct (keqb k a) eqn:E; [reflexivity|]. cbn [map fst]. rewrite IH.
  destruct (dget k d); reflexivity.
Qed.

Lemma dset_nodup : forall d k v, NoDup (map fst d) -> NoDup (map fst (dset k v d)).
Proof.
  intros d k v H. rewrite dset_keys. destruct (dmem k d) eqn:E; [exact H|].
  assert (N : ~ In k (map fst d)) by (rewrite <- dmem_iff; congruence).
  clear E. induction (map fst d) as [|a l IH]; cbn; [constructor; [auto|constructor]|].
  inversion H; subst. constructor; [|apply IH; [assumption|cbn in N; tauto]].
  rewrite in_app_iff. cbn in *. intros [?|[?|[]]]; subst; tauto.
Qed.

Lemma ddel_keys : forall d k, NoDup (map fst d) -> forall k', In k' (map fst (ddel k d)) <-> In k' (map fst d) /\ k' <> k.
Proof.
  induction d as [|[a b] d IH]; intros k H k'; cbn [ddel map fst]; [cbn; tauto|]. inversion H; subst.
  destruct (keqb k a) eqn:E.
  - apply keqb_spec in E. subst a. cbn. split; [intro Hi; split; [auto|intros ->; contradiction]|intros [[?|?] ?]; congruence].
  - apply keqb_false in E. cbn [map fst In]. rewrite IH by assumption. split; [intros [->|[? ?]]; auto|intros [[->|?] ?]; auto].
Qed.
Lemma ddel_nodup : forall d k, NoDup (map fst d) -> NoDup (map fst (ddel k d)).
Proof.
  induction d as [|[a b] d IH]; intros k H; cbn [ddel map fst]; [constructor|]. inversion H; subst.
  destruct (keqb k a); [assumption|]. cbn. constructor; [|auto].
  intro Hi. apply ddel_keys in Hi as [Hi _]; [contradiction|assumption].
Qed.
Lemma dget_ddel : forall d k k', NoDup (map fst d) -> dget k' (ddel k d) = if keqb k' k then None else dget k' d.
Proof.
  induction d as [|[a b] d IH]; intros k k' H; cbn [ddel dget]; [destruct (keqb k' k); reflexivity|]. inversion H; subst.
  destruct (keqb k a) eqn:E.
  - apply keqb_spec in E. subst a. destruct (keqb k' k) eqn:E2; [|reflexivity].
    apply keqb_spec in E2. subst. apply dget_none. assumption.
  - cbn [dget]. rewrite IH by assumption. destruct (keqb k' a) eqn:E1; [|reflexivity].
    destruct (keqb k' k) eqn:E2; [|reflexivity]. apply keqb_spec in E1, E2. subst. rewrite keqb_refl in E. discriminate.
Qed.
End Dict.
