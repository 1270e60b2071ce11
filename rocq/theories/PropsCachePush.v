(** C96: an element that is pushed into a cache without permission to replace
    others ([push(key, element, allow_replacement=False)]).

    Keys are any type with a decidable equality [keqb]; [crun step c ops] runs
    a history of method calls. *)
From Coq Require Import List ZArith Bool Lia.
From Verif Require Import Base Dict LinkedList Cache CacheSpec CacheProofs CacheFacts.
Import ListNotations.
Open Scope Z_scope.

(** ** What is claimed *)
Section Claims.
Context {K V S : Type}.
Variable step : S -> cop K V -> outcome K V S.
Variable has : S -> K -> bool.

(** [push(k, v, allow_replacement=False)] reports nothing as having left the
    cache, and whatever has been cached for other keys is as it was. *)
Definition others_stay (c : S) (k : K) (v : V) : Prop :=
  o_leaves (step c (CPush k v false)) = [] /\
  forall k', k' <> k -> has (o_state (step c (CPush k v false))) k' = has c k' /\ value_of step (o_state (step c (CPush k v false))) k' = value_of step c k'.

(** There is room for another element in a cache of size [n]. *)
Definition has_room (c : S) (n : Z) : Prop := forall ks, NoDup ks -> (forall k, In k ks -> has c k = true) -> zlen ks < n.
(** The element is cached afterwards. *)
Definition stores (c : S) (k : K) (v : V) (allow : bool) : Prop :=
  o_ret (step c (CPush k v allow)) = Ok (RBool true) /\ value_of step (o_state (step c (CPush k v allow))) k = Some v.
End Claims.

Section Props.
Context {K V : Type}.
Variable keqb : K -> K -> bool.
Hypothesis keqb_spec : forall a b, keqb a b = true <-> a = b.
Notation kne := (kneq keqb keqb_spec).

Lemma dget_del : forall k k' (r : list (K * V)), k' <> k -> dget keqb k' (del keqb k r) = dget keqb k' r.
Proof.
  intros k k' r N. unfold del. induction r as [|[a w] r IH]; [reflexivity|]. cbn [filter fst dget]. destruct (keqb k a) eqn:E; cbn [negb].
  - apply keqb_spec in E. subst a. rewrite (kne k' k N). exact IH.
  - cbn [dget]. destruct (keqb k' a); [reflexivity|exact IH].
Qed.
Lemma dget_update_other : forall k v k' (r : list (K * V)), k' <> k -> dget keqb k' (update keqb k v r) = dget keqb k' r.
Proof.
  intros k v k' r N. unfold update. induction r as [|[a w] r IH]; [reflexivity|]. cbn [map fst dget]. destruct (keqb k a) eqn:E; cbn [dget].
  - apply keqb_spec in E. subst a. rewrite (kne k' k N). exact IH.
  - destruct (keqb k' a); [reflexivity|exact IH].
Qed.

(** One push without permission, seen on the lists of elements. *)
Lemma lru_gently : forall (c : lru K V) r k v, lru_abs c r -> exists r', lru_abs (o_state (lru_push keqb c k v false)) r' /\ o_leaves (lru_push keqb c k v false) = [] /\
  (forall k', k' <> k -> dget keqb k' r' = dget keqb k' r) /\ o_ret (lru_push keqb c k v false) = Ok (RBool (lru_has keqb c k)).
Proof.
  intros c r k v A. destruct (lru_refines keqb keqb_spec c r (CPush k v false) A) as (c' & evs & ret & r' & E1 & S1 & A1 & _). cbn [lru_step] in E1. rewrite E1. cbn [o_state o_leaves o_ret fst snd].
  exists r'. split; [exact A1|]. cbn [lru_spec negb] in S1. rewrite (lru_abs_has keqb keqb_spec c r k A). destruct (dmem keqb k r); injection S1 as <- <- <-; (split; [reflexivity|]); split; try reflexivity.
  intros k' N. cbn [dget]. rewrite (kne k' k N). apply dget_del. exact N.
Qed.
Lemma top_gently : forall (c : top K V) s k v, top_abs keqb c s -> exists s', top_abs keqb (o_state (top_push keqb c k v false)) s' /\ o_leaves (top_push keqb c k v false) = [] /\
  (forall k', k' <> k -> dget keqb k' (fst s') = dget keqb k' (fst s)) /\ (zlen (fst s) < t_max c -> o_ret (top_push keqb c k v false) = Ok (RBool true)).
Proof.
  intros c [r acc] k v A. destruct (top_refines keqb keqb_spec c (r, acc) (CPush k v false) A) as (c' & evs & ret & s' & E1 & S1 & A1 & _). cbn [top_step] in E1. rewrite E1. cbn [o_state o_leaves o_ret fst snd].
  exists s'. split; [exact A1|]. pose proof (top_abs_nodup keqb c (r, acc) A) as ND. cbn [fst] in ND. cbn [top_spec] in S1. set (acc1 := bump keqb acc k) in S1. set (r1 := promote keqb acc1 k r) in S1.
  assert (G : forall k', dget keqb k' r1 = dget keqb k' r) by (intro k'; apply (dget_promote keqb keqb_spec); exact ND).
  assert (ZL : zlen r1 = zlen r) by apply promote_len.
  destruct (dmem keqb k r1).
  - injection S1 as <- <- <-. split; [reflexivity|]. split; [|reflexivity]. intros k' N. cbn [fst]. rewrite (dget_update_other k v k' r1 N). apply G.
  - destruct (zlen r1 <? t_max c) eqn:EL.
    + injection S1 as <- <- <-. split; [reflexivity|]. split; [|reflexivity]. intros k' N. cbn [fst]. rewrite (dget_snoc keqb), G, (kne k' k N). destruct (dget keqb k' r); reflexivity.
    + rewrite ZL in EL. apply Z.ltb_ge in EL. destruct (rev r1) as [|x q]; [|rewrite andb_false_r in S1]; injection S1 as <- <- <-; (split; [reflexivity|]); (split; [intros k' _; apply G|lia]).
Qed.

(** *** C96: nothing else is touched, in no cache and after no history. *)
Theorem C96_lru_others_partial : forall cb n (ops : list (cop K V)) k v, 0 <= n ->
  others_stay (lru_step keqb) (lru_has keqb) (final (crun (lru_step keqb) (lru_new cb n) ops)) k v.
Proof.
  intros cb n ops k v Hn. destruct (lru_reachable keqb keqb_spec cb n ops Hn) as (r & A & _). set (c := final (crun (lru_step keqb) (lru_new cb n) ops)) in *.
  destruct (lru_gently c r k v A) as (r' & A' & E & G & _). split; [exact E|]. intros k' N. cbn [lru_step]. rewrite (lru_abs_has keqb keqb_spec _ r' k' A'), (lru_abs_has keqb keqb_spec _ r k' A).
  rewrite (lru_value keqb keqb_spec _ r' k' A'), (lru_value keqb keqb_spec c r k' A). unfold dmem. rewrite (G k' N). auto.
Qed.
Theorem C96_top_others : forall cb n (ops : list (cop K V)) k v, 0 <= n ->
  others_stay (top_step keqb) (top_has keqb) (final (crun (top_step keqb) (top_new cb n) ops)) k v.
Proof.
  intros cb n ops k v Hn. destruct (top_reachable keqb keqb_spec cb n ops Hn) as (s & A & _). set (c := final (crun (top_step keqb) (top_new cb n) ops)) in *.
  destruct (top_gently c s k v A) as (s' & A' & E & G & _). split; [exact E|]. intros k' N. cbn [top_step]. rewrite (top_abs_has keqb keqb_spec _ s' k' A'), (top_abs_has keqb keqb_spec _ s k' A).
  rewrite (top_value keqb keqb_spec _ s' k' A'), (top_value keqb keqb_spec c s k' A). unfold dmem. rewrite (G k' N). auto.
Qed.
Theorem C96_hybrid_others_partial : forall cb ls ts (ops : list (cop K V)) k v, 0 <= ls ->
  others_stay (hybrid_step keqb) (hybrid_has keqb) (final (crun (hybrid_step keqb) (hybrid_new cb ls ts) ops)) k v.
Proof.
  intros cb ls ts ops k v Hn. destruct (hybrid_parts_reachable keqb keqb_spec cb ls ts ops) as (r & s & H). destruct (hybrid_parts_reachable keqb keqb_spec cb ls ts (ops ++ [CPush k v false])) as (r1 & s1 & H1).
  pose proof (fun k' => hybrid_room keqb keqb_spec cb ls ts ops k' Hn) as R0. pose proof (fun k' => hybrid_room keqb keqb_spec cb ls ts (ops ++ [CPush k v false]) k' Hn) as R1. rewrite final_snoc in H1, R1.
  set (c := final (crun (hybrid_step keqb) (hybrid_new cb ls ts) ops)) in *.
  pose proof H as (HC & A & C1 & B & C2). destruct (top_gently (h_top c) s k v B) as (s' & B' & ET & GT & _). destruct (lru_gently (h_last c) r k v A) as (r' & A' & EL & GL & _).
  assert (X : exists r2 s2, lru_abs (h_last (o_state (hybrid_step keqb c (CPush k v false)))) r2 /\ top_abs keqb (h_top (o_state (hybrid_step keqb c (CPush k v false)))) s2 /\ o_leaves (hybrid_step keqb c (CPush k v false)) = [] /\
    (forall k', k' <> k -> dget keqb k' r2 = dget keqb k' r) /\ forall k', k' <> k -> dget keqb k' (fst s2) = dget keqb k' (fst s)).
  { cbn [hybrid_step]. unfold hybrid_push. destruct (top_push keqb (h_top c) k v false) as [[t evs1] x]. destruct (lru_push keqb (h_last c) k v false) as [[l evs2] y]. cbn [o_state o_leaves fst snd] in *. subst evs1 evs2.
    assert (FN : forward (h_cb c) (@nil (leave K V)) = []) by (destruct (h_cb c); reflexivity).
    destruct x as [[[]|?|]|e]; cbn [o_state o_leaves fst snd h_last h_top app]; rewrite FN; eauto 10. }
  destruct X as (r2 & s2 & A2 & B2 & EV & G1 & G2). split; [exact EV|]. intros k' N.
  assert (H2 : hparts keqb cb (o_state (hybrid_step keqb c (CPush k v false))) r2 s2) by (destruct H1 as (Q1 & Q2 & Q3 & Q4 & Q5); unfold hparts; auto).
  rewrite (proj1 (hybrid_value keqb keqb_spec _ _ _ _ k' H2 (R1 k'))), (proj1 (hybrid_value keqb keqb_spec _ _ _ _ k' H (R0 k'))). unfold hybrid_has.
  rewrite (lru_abs_has keqb keqb_spec _ r2 k' A2), (lru_abs_has keqb keqb_spec _ r k' A), (top_abs_has keqb keqb_spec _ s2 k' B2), (top_abs_has keqb keqb_spec _ s k' B). unfold dmem. rewrite (G1 k' N), (G2 k' N). auto.
Qed.

(** The frequency cache takes the element if there is room for it. *)
Theorem C96_top_room : forall cb n (ops : list (cop K V)) k v, 0 <= n ->
  let c := final (crun (top_step keqb) (top_new cb n) ops) in has_room (top_has keqb) c n -> stores (top_step keqb) c k v false.
Proof.
  intros cb n ops k v Hn c R. destruct (top_reachable keqb keqb_spec cb n ops Hn) as (s & A & _ & _ & M & _). fold c in A, M. destruct (top_gently c s k v A) as (s' & _ & _ & _ & T).
  assert (Q : o_ret (top_step keqb c (CPush k v false)) = Ok (RBool true)).
  { cbn [top_step]. apply T. rewrite M. specialize (R (map fst (fst s)) (top_abs_nodup keqb c s A)). unfold zlen in *. rewrite map_length in R. apply R. intros x Hx. rewrite (top_abs_has keqb keqb_spec c s x A). apply (dmem_iff keqb keqb_spec). exact Hx. }
  split; [exact Q|]. exact (top_push_cached keqb keqb_spec cb n ops k v false Hn Q).
Qed.
(** The last-access cache takes it only for a key that is cached already. *)
Theorem C96_lru_refuses : forall cb n (ops : list (cop K V)) k v, 0 <= n ->
  let c := final (crun (lru_step keqb) (lru_new cb n) ops) in
  (lru_has keqb c k = true -> stores (lru_step keqb) c k v false) /\
  (lru_has keqb c k = false -> o_ret (lru_step keqb c (CPush k v false)) = Ok (RBool false) /\ lru_has keqb (o_state (lru_step keqb c (CPush k v false))) k = false).
Proof.
  intros cb n ops k v Hn c. destruct (lru_reachable keqb keqb_spec cb n ops Hn) as (r & A & _). fold c in A. destruct (lru_gently c r k v A) as (r' & _ & _ & _ & T).
  split; intro E; rewrite E in T.
  - split; [exact T|]. exact (lru_push_cached keqb keqb_spec cb n ops k v false Hn T).
  - split; [exact T|]. exact (proj1 (lru_push_tells keqb keqb_spec c r k v false false A T)).
Qed.
(** With permission, both take an element if there is room, and nothing leaves. *)
Theorem C96_allowed_room : forall cb n (ops : list (cop K V)) k v, 0 <= n ->
  (let c := final (crun (lru_step keqb) (lru_new cb n) ops) in has_room (lru_has keqb) c n -> stores (lru_step keqb) c k v true /\ o_leaves (lru_step keqb c (CPush k v true)) = []) /\
  (let c := final (crun (top_step keqb) (top_new cb n) ops) in has_room (top_has keqb) c n -> stores (top_step keqb) c k v true /\ o_leaves (top_step keqb c (CPush k v true)) = []).
Proof.
  intros cb n ops k v Hn. split.
  - intros c R. destruct (lru_reachable keqb keqb_spec cb n ops Hn) as (r & A & (ND & _) & _ & M & _). fold c in A, M.
    assert (ZL : zlen r < n). { specialize (R (map fst r) ND). unfold zlen in *. rewrite map_length in R. apply R. intros x Hx. rewrite (lru_abs_has keqb keqb_spec c r x A). apply (dmem_iff keqb keqb_spec). exact Hx. }
    destruct (lru_refines keqb keqb_spec c r (CPush k v true) A) as (c' & evs & ret & r' & E1 & S1 & A1 & _). cbn [lru_spec negb] in S1. rewrite M in S1. assert (E0 : (zlen r <? n) = true) by lia. rewrite E0 in S1.
    assert (Q : o_ret (lru_step keqb c (CPush k v true)) = Ok (RBool true) /\ o_leaves (lru_step keqb c (CPush k v true)) = []) by (rewrite E1; destruct (dmem keqb k r); injection S1 as <- <- <-; split; reflexivity).
    destruct Q as (Q1 & Q2). split; [|exact Q2]. split; [exact Q1|]. exact (lru_push_cached keqb keqb_spec cb n ops k v true Hn Q1).
  - intros c R. destruct (top_reachable keqb keqb_spec cb n ops Hn) as (s & A & _ & _ & M & _). fold c in A, M. pose proof (top_abs_nodup keqb c s A) as ND.
    assert (ZL : zlen (fst s) < n). { specialize (R (map fst (fst s)) ND). unfold zlen in *. rewrite map_length in R. apply R. intros x Hx. rewrite (top_abs_has keqb keqb_spec c s x A). apply (dmem_iff keqb keqb_spec). exact Hx. }
    destruct (top_refines keqb keqb_spec c s (CPush k v true) A) as (c' & evs & ret & s' & E1 & S1 & A1 & _). destruct s as [r acc]. cbn [top_spec fst] in *. rewrite M, promote_len in S1. assert (E0 : (zlen r <? n) = true) by lia. rewrite E0 in S1.
    assert (Q : o_ret (top_step keqb c (CPush k v true)) = Ok (RBool true) /\ o_leaves (top_step keqb c (CPush k v true)) = []) by (rewrite E1; destruct (dmem keqb k _); injection S1 as <- <- <-; split; reflexivity).
    destruct Q as (Q1 & Q2). split; [|exact Q2]. split; [exact Q1|]. exact (top_push_cached keqb keqb_spec cb n ops k v true Hn Q1).
Qed.
End Props.

(** ** The full statement, that the element is taken by each cache if there is
    room for it, is false: the last-access cache refuses although it is empty. *)
Definition C96_full_statement : Prop := forall cb n (ops : list (cop Z Z)) k v, 0 <= n ->
  (let c := final (crun (lru_step Z.eqb) (lru_new cb n) ops) in has_room (lru_has Z.eqb) c n -> stores (lru_step Z.eqb) c k v false) /\
  (let c := final (crun (top_step Z.eqb) (top_new cb n) ops) in has_room (top_has Z.eqb) c n -> stores (top_step Z.eqb) c k v false).
Theorem C96_refuted : ~ C96_full_statement.
Proof.
  intro F. destruct (F true 4 [] 1 10 ltac:(lia)) as (L & _). destruct L as (L & _); [|vm_compute in L; discriminate L].
  intros ks _ H. destruct ks as [|x ks]; [reflexivity|]. specialize (H x (or_introl eq_refl)). discriminate H.
Qed.

(** Full caches with two elements: key 3 would push out another element if it
    were allowed to, and does not. *)
Example C96_nontrivial :
  let ops := [CPush 1 10 true; CPush 2 20 true; CPush 3 30 true; CPush 3 30 true; CRemove 3 true; CPush 1 11 true; CPush 2 21 true; CPush 5 50 true; CPush 5 50 true; CPush 5 50 true; CPush 5 50 true] in
  let l := final (crun (lru_step Z.eqb) (lru_new true 2) ops) in let t := final (crun (top_step Z.eqb) (top_new true 2) ops) in let h := final (crun (hybrid_step Z.eqb) (hybrid_new true 2 2) ops) in
  (length (o_leaves (lru_step Z.eqb l (CPush 3 33 true))) = 1%nat /\ o_leaves (lru_step Z.eqb l (CPush 3 33 false)) = [] /\ value_of (lru_step Z.eqb) l 2 = Some 21) /\
  (length (o_leaves (top_step Z.eqb t (CPush 3 33 true))) = 1%nat /\ o_leaves (top_step Z.eqb t (CPush 3 33 false)) = []) /\
  o_ret (hybrid_step Z.eqb h (CPush 3 33 false)) = Ok (RBool false) /\ length (o_leaves (hybrid_step Z.eqb h (CPush 3 33 true))) = 1%nat.
Proof. vm_compute. auto 10. Qed.
Example C96_room_nontrivial : has_room (top_has Z.eqb) (final (crun (top_step Z.eqb) (top_new true 2) [CPush 1 10 true])) 2.
Proof.
  intros ks N H. destruct ks as [|a [|b ks]]; [reflexivity|reflexivity|]. exfalso. inversion N as [|? ? N1 N2]; subst.
  pose proof (H a (or_introl eq_refl)) as Ha. pose proof (H b (or_intror (or_introl eq_refl))) as Hb.
  assert (Q : forall x, top_has Z.eqb (final (crun (top_step Z.eqb) (top_new true 2) [CPush 1 10 true])) x = true -> x = 1).
  { intros x. vm_compute. destruct x as [|[]|]; intro E; congruence. }
  apply N1. rewrite (Q a Ha), (Q b Hb). left. reflexivity.
Qed.

Print Assumptions C96_lru_others_partial.
Print Assumptions C96_top_others.
Print Assumptions C96_hybrid_others_partial.
Print Assumptions C96_top_room.
Print Assumptions C96_lru_refuses.
Print Assumptions C96_allowed_room.
Print Assumptions C96_refuted.
