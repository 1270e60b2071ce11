(** Property theorems C30-C36: the linked list and the caches.

    Keys are any type with a decidable equality [keqb]; [crun step c ops] runs
    a history of method calls. *)
From Coq Require Import List ZArith Bool Lia.
From Verif Require Import Base Dict LinkedList LinkedListSpec LinkedListProofs Cache CacheSpec CacheProofs CacheFacts.
Import ListNotations.
Open Scope Z_scope.

(** C30.  Any history of operations on elements that are in the list succeeds
    and leaves a list that reads, forwards and backwards, as the same
    operations on a plain sequence; its length is right. *)
Theorem C30_linked_list : forall (V : Type) (ops : list (dop V)), all_applicable 0 [] ops ->
  exists d, drun dll_new ops = Ok d /\
    dll_to_list d = Ok (map snd (lrun 0 [] ops)) /\
    dll_to_list_back d = Ok (rev (map snd (lrun 0 [] ops))) /\
    d_len d = zlen (lrun 0 [] ops).
Proof.
  intros V ops A. destruct (drun_refines ops dll_new [] rep_new A) as (d & l & E & L & R). exists d.
  split; [exact E|]. cbn [dll_new d_fresh] in L. rewrite L. destruct (rep_to_list d l R) as (H1 & H2 & H3).
  split; [exact H1|]. split; [exact H2|]. rewrite H3. unfold zlen. rewrite map_length. reflexivity.
Qed.
Print Assumptions C30_linked_list.

Example C30_nontrivial :
  let ops := [DAppend 10; DAppend 11; DPrepend 12; DMoveFront 1%nat; DSwap 0%nat; DSetValue 2%nat 7; DRemove 1%nat; DAppend 5; DRemoveLast] in
  all_applicable 0 [] ops /\ map snd (lrun 0 [] ops) = [10; 7].
Proof. vm_compute. intuition (auto; discriminate). Qed.

Section Props.
Context {K V : Type}.
Variable keqb : K -> K -> bool.
Hypothesis keqb_spec : forall a b, keqb a b = true <-> a = b.

(** C31.  For a history of has/get/push, the cached keys are the [n] most
    recently used ones (a key is used when it is pushed or read from the
    cache), and every cached key has the value pushed last. *)
Theorem C31_lru_most_recent : forall cb (n : nat) ops, (0 < n)%nat -> forallb plain ops = true ->
  let '(c, _, rets) := crun (lru_step keqb) (lru_new cb (Z.of_nat n)) ops in
  (forall k : K, lru_has keqb c k = true <-> In k (firstn n (recency keqb (uses ops rets)))) /\
  (forall k (v : V), value_of (lru_step keqb) c k = Some v <->
     last_pushed keqb k ops = Some v /\ In k (firstn n (recency keqb (uses ops rets)))).
Proof.
  intros cb n ops Hn P. destruct n as [|m]; [lia|].
  destruct (lru_run_refines keqb keqb_spec ops (lru_new cb (Z.of_nat (S m))) [] (lru_new_abs cb _)) as (c & evs & rets & r & E & HS & A & _).
  pose proof (lru_reachable keqb keqb_spec cb (Z.of_nat (S m)) ops ltac:(lia)) as (r2 & A2 & (N & L & Q) & _ & _ & E2).
  rewrite E in *. cbn [final fst] in A2. cbn [lru_new l_cb l_max] in HS.
  pose proof (lru_spec_recency keqb keqb_spec cb m ops P) as R. rewrite HS in R, E2. cbn [final fst snd] in R, E2. subst r2.
  assert (Hk : forall k, lru_has keqb c k = true <-> In k (firstn (S m) (recency keqb (uses ops rets)))).
  { intro k. rewrite (lru_abs_has keqb keqb_spec c r k A), (dmem_iff keqb keqb_spec), <- R. reflexivity. }
  split; [exact Hk|]. intros k v. rewrite <- Hk, (lru_value keqb keqb_spec c r k A), (lru_abs_has keqb keqb_spec c r k A).
  unfold dmem. destruct (dget keqb k r) as [w|] eqn:G.
  - apply (dget_in keqb keqb_spec) in G. rewrite (Q _ _ G). split; [auto|tauto].
  - split; [discriminate|intros [_ X]; discriminate X].
Qed.

(** For every history, including remove, clear and pushes that may not replace,
    the cache answers and reports exactly as a plain recency list. *)
Theorem C31_lru_refines_recency_list : forall cb n ops,
  let '(_, evs, rets) := crun (lru_step keqb) (@lru_new K V cb n) ops in
  let '(_, evs', rets') := crun (lru_spec keqb cb n) [] ops in evs = evs' /\ rets = rets'.
Proof.
  intros cb n ops. destruct (lru_run_refines keqb keqb_spec ops (lru_new cb n) [] (lru_new_abs cb n)) as (c & evs & rets & r & E & S & _).
  rewrite E. cbn [lru_new l_cb l_max] in S. rewrite S. auto.
Qed.

(** C32.  After any history, [get] returns the value pushed last or raises
    KeyError, and returns a value exactly when [has] says so. *)
Theorem C32_lru_get : forall cb n (ops : list (cop K V)), 0 <= n ->
  get_correct keqb (lru_step keqb) (lru_has keqb) ops (final (crun (lru_step keqb) (lru_new cb n) ops)).
Proof. exact (lru_get_correct keqb keqb_spec). Qed.
Theorem C32_top_get : forall cb n (ops : list (cop K V)), 0 <= n ->
  get_correct keqb (top_step keqb) (top_has keqb) ops (final (crun (top_step keqb) (top_new cb n) ops)).
Proof. exact (top_get_correct keqb keqb_spec). Qed.
Theorem C32_noop_get : forall (ops : list (cop K V)) k,
  o_ret (noop_step (@CGet K V k)) = Err KeyError /\ o_ret (noop_step (@CHas K V k)) = Ok (RBool false).
Proof. intros; split; reflexivity. Qed.
(** What was pushed successfully is cached. *)
Theorem C32_push_cached : forall cb n ops k (v : V) allow, 0 <= n ->
  (let c := final (crun (lru_step keqb) (lru_new cb n) ops) in
   o_ret (lru_step keqb c (CPush k v allow)) = Ok (RBool true) ->
   value_of (lru_step keqb) (o_state (lru_step keqb c (CPush k v allow))) k = Some v) /\
  (let c := final (crun (top_step keqb) (top_new cb n) ops) in
   o_ret (top_step keqb c (CPush k v allow)) = Ok (RBool true) ->
   value_of (top_step keqb) (o_state (top_step keqb c (CPush k v allow))) k = Some v).
Proof.
  intros cb n ops k v allow Hn. split; [exact (lru_push_cached keqb keqb_spec cb n ops k v allow Hn)|exact (top_push_cached keqb keqb_spec cb n ops k v allow Hn)].
Qed.

(** [push] tells whether the element is cached now: [has] says the same. *)
Theorem C32_push_tells : forall cb n ops k (v : V) allow b, 0 <= n ->
  (let c := final (crun (lru_step keqb) (lru_new cb n) ops) in
   o_ret (lru_step keqb c (CPush k v allow)) = Ok (RBool b) -> lru_has keqb (o_state (lru_step keqb c (CPush k v allow))) k = b) /\
  (let c := final (crun (top_step keqb) (top_new cb n) ops) in
   o_ret (top_step keqb c (CPush k v allow)) = Ok (RBool b) -> top_has keqb (o_state (top_step keqb c (CPush k v allow))) k = b) /\
  (forall m, let c := final (crun (hybrid_step keqb) (hybrid_new cb n m) ops) in
   o_ret (hybrid_step keqb c (CPush k v allow)) = Ok (RBool b) -> hybrid_has keqb (o_state (hybrid_step keqb c (CPush k v allow))) k = b) /\
  (o_ret (noop_step (CPush k v allow)) = Ok (RBool b) -> o_ret (noop_step (@CHas K V k)) = Ok (RBool b)).
Proof.
  intros cb n ops k v allow b Hn. split; [|split; [|split]].
  - intros c E. destruct (lru_reachable keqb keqb_spec cb n ops Hn) as (r & A & _). exact (proj1 (lru_push_tells keqb keqb_spec c r k v allow b A E)).
  - intros c E. destruct (top_reachable keqb keqb_spec cb n ops Hn) as (s & A & _). exact (proj1 (top_push_tells keqb keqb_spec c s k v allow b A E)).
  - intros m. exact (hybrid_push_tells keqb keqb_spec cb n m ops k v allow b Hn).
  - intro E. injection E as <-. reflexivity.
Qed.

(** HybridCache never returns a foreign value.  Missing: the value may be a
    superseded one, see [C32_refuted]. *)
Theorem C32_hybrid_get_partial : forall cb ls ts ops k (v : V), 0 <= ls ->
  value_of (hybrid_step keqb) (final (crun (hybrid_step keqb) (hybrid_new cb ls ts) ops)) k = Some v -> ever_pushed k v ops.
Proof. exact (hybrid_get_foreign keqb keqb_spec). Qed.

(** HybridCache.get returns a value exactly for the keys [has] knows; for any
    other key it raises KeyError, reports nothing and changes nothing. *)
Theorem C32_hybrid_missing : forall cb ls ts (ops : list (cop K V)) k, 0 <= ls ->
  let c := final (crun (hybrid_step keqb) (hybrid_new cb ls ts) ops) in
  (hybrid_has keqb c k = false -> hybrid_step keqb c (CGet k) = (c, [], Err KeyError)) /\
  (hybrid_has keqb c k = true -> exists v, o_ret (hybrid_step keqb c (CGet k)) = Ok (RVal v)).
Proof.
  intros cb ls ts ops k Hn c. destruct (hybrid_parts_reachable keqb keqb_spec cb ls ts ops) as (r & s & H).
  exact (proj2 (hybrid_value keqb keqb_spec cb c r s k H (hybrid_room keqb keqb_spec cb ls ts ops k Hn))).
Qed.

(** C33.  For the LRU and the frequency cache, in every reachable state and
    for every operation, the [on_leave] calls are exactly, and each once, the
    elements that were cached before and are not cached afterwards. *)
Theorem C33_lru_leave : forall cb n (ops : list (cop K V)) op, 0 <= n ->
  leave_exact (lru_step keqb) (lru_has keqb) cb (final (crun (lru_step keqb) (lru_new cb n) ops)) op.
Proof. exact (lru_leave_exact keqb keqb_spec). Qed.
Theorem C33_top_leave : forall cb n (ops : list (cop K V)) op, 0 <= n ->
  leave_exact (top_step keqb) (top_has keqb) cb (final (crun (top_step keqb) (top_new cb n) ops)) op.
Proof. exact (top_leave_exact keqb keqb_spec). Qed.

(** HybridCache: nothing leaves unnoticed.  Whatever [get] would have returned
    and is no longer cached after the operation has been reported with that
    very value, only keys that were cached are reported, and nothing is
    reported when no callback is set or the caller asked for none.  Missing:
    an element moving from one part to the other is reported as well, see
    [C33_refuted]. *)
Theorem C33_hybrid_leave_partial : forall cb ls ts (ops : list (cop K V)) op, 0 <= ls ->
  let c := final (crun (hybrid_step keqb) (hybrid_new cb ls ts) ops) in
  let c' := o_state (hybrid_step keqb c op) in
  let evs := o_leaves (hybrid_step keqb c op) in
  (if cb && wants_leave op
   then (forall k v, value_of (hybrid_step keqb) c k = Some v -> hybrid_has keqb c' k = false -> In (k, v) (leaves evs)) /\
        (forall k v, In (k, v) (leaves evs) -> hybrid_has keqb c k = true)
   else evs = []).
Proof. exact (hybrid_leave keqb keqb_spec). Qed.

(** C34. *)
Theorem C34_lru_bounded : forall cb n (ops : list (cop K V)), 0 <= n ->
  bounded (lru_has keqb) n (final (crun (lru_step keqb) (lru_new cb n) ops)).
Proof. exact (lru_bounded keqb keqb_spec). Qed.
Theorem C34_top_bounded : forall cb n (ops : list (cop K V)), 0 <= n ->
  bounded (top_has keqb) n (final (crun (top_step keqb) (top_new cb n) ops)).
Proof. exact (top_bounded keqb keqb_spec). Qed.
(** The hybrid cache holds at most twice the last-access size.  Missing: with
    [top_cache_size < last_cache_size] this exceeds what was asked for, see
    [C34_refuted]. *)
Theorem C34_hybrid_bounded_partial : forall cb ls ts (ops : list (cop K V)), 0 <= ls ->
  bounded (hybrid_has keqb) (2 * ls) (final (crun (hybrid_step keqb) (hybrid_new cb ls ts) ops)) /\
  (ls <= ts -> bounded (hybrid_has keqb) (ls + ts) (final (crun (hybrid_step keqb) (hybrid_new cb ls ts) ops))).
Proof.
  intros cb ls ts ops H. pose proof (hybrid_bounded keqb keqb_spec cb ls ts ops H) as B. split; [exact B|].
  intros L ks N I. specialize (B ks N I). lia.
Qed.

(** C35.  What is evicted is the element at the tail of the list; it was
    accessed strictly less often than the newcomer, and nothing is evicted
    when replacement is not allowed.  Missing: the tail need not be the least
    accessed one, see [C35_refuted]. *)
Theorem C35_top_evicts_tail_partial : forall cb n ops k (v : V) allow e, 0 <= n ->
  let c := final (crun (top_step keqb) (top_new cb n) ops) in
  In e (o_leaves (top_step keqb c (CPush k v allow))) ->
  accesses keqb (lv_key e) ops < accesses keqb k (ops ++ [CPush k v allow]) /\ lv_key e <> k /\ allow = true /\
  exists l, dll_to_list (t_list c) = Ok (l ++ [(lv_key e, lv_val e)]).
Proof. exact (top_evict keqb keqb_spec). Qed.

(** For every history the frequency cache answers and reports as the list
    specification does, whose counters are the access counts of the history. *)
Theorem C35_top_refines_list : forall cb n ops, 0 <= n ->
  (let '(_, evs, rets) := crun (top_step keqb) (@top_new K V cb n) ops in
   let '(_, evs', rets') := crun (top_spec keqb cb n) ([], fun _ => 0) ops in evs = evs' /\ rets = rets') /\
  (forall k, snd (final (crun (top_spec keqb cb n) (@nil (K * V), fun _ => 0) ops)) k = accesses keqb k ops).
Proof.
  intros cb n ops Hn. split.
  - destruct (top_run_refines keqb keqb_spec ops (top_new cb n) ([], fun _ => 0) (top_new_abs keqb cb n)) as (c & evs & rets & r & E & S & _).
    rewrite E. cbn [top_new t_cb t_max] in S. rewrite S. auto.
  - intro k. destruct (top_reachable keqb keqb_spec cb n ops Hn) as (s & _ & [_ HA] & _ & _ & Es). rewrite <- Es. apply HA.
Qed.

(** C36.  The LRU cache never holds its lock while calling [on_leave], in any
    state; the frequency cache does not in remove and clear.  Missing: push of
    the frequency cache, see [C36_refuted]. *)
Theorem C36_lru_unlocked : forall (c : lru K V) op e, In e (o_leaves (lru_step keqb c op)) -> lv_locked e = false.
Proof. exact (lru_unlocked keqb). Qed.
Theorem C36_top_unlocked_partial : forall (c : top K V) op e, (forall k v allow, op <> CPush k v allow) ->
  In e (o_leaves (top_step keqb c op)) -> lv_locked e = false.
Proof. exact (top_unlocked keqb). Qed.
End Props.
Print Assumptions C31_lru_most_recent.
Print Assumptions C31_lru_refines_recency_list.
Print Assumptions C32_lru_get.
Print Assumptions C32_top_get.
Print Assumptions C32_noop_get.
Print Assumptions C32_push_cached.
Print Assumptions C32_push_tells.
Print Assumptions C32_hybrid_get_partial.
Print Assumptions C32_hybrid_missing.
Print Assumptions C33_lru_leave.
Print Assumptions C33_top_leave.
Print Assumptions C33_hybrid_leave_partial.
Print Assumptions C34_lru_bounded.
Print Assumptions C34_top_bounded.
Print Assumptions C34_hybrid_bounded_partial.
Print Assumptions C35_top_evicts_tail_partial.
Print Assumptions C35_top_refines_list.
Print Assumptions C36_lru_unlocked.
Print Assumptions C36_top_unlocked_partial.

(** The remaining full statements and the histories that falsify them, with
    integer keys and values. *)
Definition hrun ls ts ops := final (crun (hybrid_step Z.eqb) (@hybrid_new Z Z true ls ts) ops).
Definition trun n ops := final (crun (top_step Z.eqb) (@top_new Z Z true n) ops).

Definition C32_full_statement : Prop := forall ls ts ops, 0 <= ls -> 0 <= ts ->
  get_correct Z.eqb (hybrid_step Z.eqb) (hybrid_has Z.eqb) ops (hrun ls ts ops).
(** key 2 is first kept in the last-access part, then moves to the frequency
    part by a push (which leaves the old value behind) and is removed there by
    an eviction: the old value is returned. *)
Theorem C32_refuted : ~ C32_full_statement.
Proof.
  intro H.
  specialize (H 2 2 [CPush 1 10 true; CPush 1 10 true; CPush 9 90 true; CPush 9 90 true; CPush 2 20 true; CPush 2 21 true; CPush 2 22 true;
                     CPush 3 30 true; CPush 3 30 true; CPush 3 30 true; CPush 3 30 true] ltac:(lia) ltac:(lia) 2).
  vm_compute in H. destruct H as [_ H]. discriminate H.
Qed.
Print Assumptions C32_refuted.

Definition C33_full_statement : Prop := forall ls ts ops op, 0 <= ls -> 0 <= ts ->
  leave_exact (hybrid_step Z.eqb) (hybrid_has Z.eqb) true (hrun ls ts ops) op.
(** Reading a key that moves from the last-access to the frequency part
    reports it as having left although it is still cached. *)
Theorem C33_refuted : ~ C33_full_statement.
Proof.
  intro H.
  specialize (H 1 1 [CPush 1 10 true; CPush 2 20 true] (CGet 2) ltac:(lia) ltac:(lia)).
  unfold leave_exact in H. cbv beta zeta in H. destruct H as [_ H]. cbn [andb wants_leave] in H.
  specialize (H 2 20). vm_compute in H. destruct H as [H _]. destruct H as [_ H]; [auto|discriminate H].
Qed.
Print Assumptions C33_refuted.
(** Both parts of a hybrid cache report: key 1 is pushed out of the frequency
    part by key 2, which was asked for more often, or key 2 leaves the
    last-access part for key 4. *)
Example C33_hybrid_nontrivial :
  let c := hrun 1 1 [CPush 1 10 true; CPush 2 20 true] in
  value_of (hybrid_step Z.eqb) c 1 = Some 10 /\
  leaves (o_leaves (hybrid_step Z.eqb c (CPush 2 21 true))) = [(1, 10)] /\
  hybrid_has Z.eqb (o_state (hybrid_step Z.eqb c (CPush 2 21 true))) 1 = false /\
  leaves (o_leaves (hybrid_step Z.eqb c (CPush 4 40 true))) = [(2, 20)] /\
  hybrid_step Z.eqb c (CGet 5) = (c, [], Err KeyError).
Proof. vm_compute. auto 10. Qed.

Definition C34_full_statement : Prop := forall ls ts ops, 0 <= ls -> 0 <= ts ->
  bounded (hybrid_has Z.eqb) (ls + ts) (hrun ls ts ops).
Theorem C34_refuted : ~ C34_full_statement.
Proof.
  intro H. specialize (H 1 0 [CPush 1 10 true; CPush 2 20 true] ltac:(lia) ltac:(lia) [1; 2]).
  assert (X : zlen [1; 2] <= 1 + 0); [|vm_compute in X; apply X; reflexivity].
  apply H; [repeat constructor; cbn; intuition discriminate|]. intros k [<-|[<-|[]]]; reflexivity.
Qed.
Print Assumptions C34_refuted.

Definition C35_full_statement : Prop := forall n ops k v allow e k', 0 <= n ->
  In e (o_leaves (top_step Z.eqb (trun n ops) (CPush k v allow))) -> top_has Z.eqb (trun n ops) k' = true ->
  accesses Z.eqb (lv_key e) ops <= accesses Z.eqb k' ops.
(** Key 2 was accessed twice, key 1 once, and key 2 is evicted. *)
Theorem C35_refuted : ~ C35_full_statement.
Proof.
  intro H.
  specialize (H 3 [CPush 1 10 true; CPush 2 20 true; CPush 3 30 true; CGet 3; CGet 2; CPush 4 40 true; CPush 4 40 true] 4 40 true
                  (mkLeave 2 20 true) 1 ltac:(lia)).
  vm_compute in H. specialize (H (or_introl eq_refl) eq_refl). apply H. reflexivity.
Qed.
Print Assumptions C35_refuted.

Definition C36_full_statement : Prop := forall n ops op e, 0 <= n ->
  In e (o_leaves (top_step Z.eqb (trun n ops) op)) -> lv_locked e = false.
Theorem C36_refuted : ~ C36_full_statement.
Proof.
  intro H. specialize (H 1 [CPush 1 10 true; CPush 2 20 true] (CPush 2 20 true) (mkLeave 1 10 true) ltac:(lia)).
  vm_compute in H. specialize (H (or_introl eq_refl)). discriminate H.
Qed.
Print Assumptions C36_refuted.

(** Non-trivial instances. *)
Example C32_push_nontrivial :
  let c := final (crun (hybrid_step Z.eqb) (@hybrid_new Z Z true 1 1) [CPush 1 10 true; CPush 1 11 true]) in
  o_ret (hybrid_step Z.eqb c (CPush 2 20 false)) = Ok (RBool false) /\ o_ret (hybrid_step Z.eqb c (CPush 2 20 true)) = Ok (RBool true) /\
  hybrid_has Z.eqb (o_state (hybrid_step Z.eqb c (CPush 2 20 true))) 2 = true.
Proof. vm_compute. auto. Qed.
Example C31_nontrivial :
  let ops := [CPush 1 10 true; CPush 2 20 true; CGet 1; CPush 3 30 true; CGet 2; CPush 1 11 true] in
  forallb plain ops = true /\
  let '(c, evs, rets) := crun (lru_step Z.eqb) (@lru_new Z Z true 2) ops in
  recency Z.eqb (uses ops rets) = [1; 3; 2] /\ map (lru_has Z.eqb c) [1; 2; 3] = [true; false; true] /\
  value_of (lru_step Z.eqb) c 1 = Some 11 /\ leaves evs = [(2, 20)].
Proof. split; [reflexivity|]. vm_compute. repeat split. Qed.
Example C35_nontrivial :
  o_leaves (top_step Z.eqb (trun 1 [CPush 1 10 true; CPush 2 20 true]) (CPush 2 20 true)) = [mkLeave 1 10 true].
Proof. reflexivity. Qed.
