(** The caches refine their list specifications. *)
From Coq Require Import List ZArith Bool Lia Permutation.
From Coq Require Import ZifyBool ZifyNat ZifyN.
From Verif Require Import Base BaseProofs Dict LinkedList LinkedListSpec LinkedListProofs Cache CacheSpec.
Import ListNotations.
Open Scope Z_scope.

Section Proofs.
Context {K V : Type}.
Variable keqb : K -> K -> bool.
Hypothesis keqb_spec : forall a b, keqb a b = true <-> a = b.
Notation seq := (list (nat * (K * V))).
Implicit Types (l a b : seq) (m : list (K * nat)) (r : list (K * V)).

Lemma krefl : forall k, keqb k k = true.
Proof. intro k. apply keqb_spec. reflexivity. Qed.
Lemma kneq : forall k k', k <> k' -> keqb k k' = false.
Proof. intros k k' H. destruct (keqb k k') eqn:E; [apply keqb_spec in E; contradiction|reflexivity]. Qed.

(** The dictionary points to exactly the elements of the list. *)
Definition idx l : list (K * nat) := map (fun x => (fst (snd x), fst x)) l.
Definition minv l m : Prop := NoDup (map fst m) /\ Permutation m (idx l).
Definition lkeys l : list K := map (fun x => fst (snd x)) l.

Lemma idx_keys : forall l, map fst (idx l) = lkeys l.
Proof. intro l. unfold idx, lkeys. rewrite map_map. reflexivity. Qed.
Lemma lkeys_snd : forall l, map fst (map snd l) = lkeys l.
Proof. intro l. unfold lkeys. rewrite map_map. reflexivity. Qed.
Lemma minv_nodup : forall l m, minv l m -> NoDup (lkeys l).
Proof.
  intros l m [N P]. rewrite <- idx_keys. eapply Permutation_NoDup; [|exact N]. apply Permutation_map. exact P.
Qed.
Lemma minv_perm : forall l l' m, Permutation l l' -> minv l m -> minv l' m.
Proof. intros l l' m P [N Q]. split; [exact N|]. rewrite Q. apply Permutation_map. exact P. Qed.

Lemma minv_in : forall l m k i, minv l m -> dget keqb k m = Some i <-> exists v, In (i, (k, v)) l.
Proof.
  intros l m k i [N P]. split.
  - intro H. apply (dget_in keqb keqb_spec) in H. rewrite P in H. unfold idx in H. apply in_map_iff in H as ([j [k' v]] & E & H).
    cbn in E. injection E as -> ->. eauto.
  - intros [v H]. apply (in_dget keqb keqb_spec); [exact N|]. rewrite P. unfold idx. apply in_map_iff. exists (i, (k, v)). auto.
Qed.
Lemma minv_none : forall l m k, minv l m -> dget keqb k m = None <-> ~ In k (lkeys l).
Proof.
  intros l m k [N P]. rewrite (dget_none keqb keqb_spec).
  assert (E : Permutation (map fst m) (lkeys l)) by (rewrite <- idx_keys; apply Permutation_map; exact P).
  split; intros H Hi; apply H; [rewrite E|rewrite <- E]; exact Hi.
Qed.

Lemma ddel_perm : forall (m : list (K * nat)) k i, NoDup (map fst m) -> In (k, i) m -> Permutation m ((k, i) :: ddel keqb k m).
Proof.
  induction m as [|[k' j] m IH]; intros k i N H; [destruct H|]. cbn [ddel]. cbn in N. inversion N as [|? ? N1 N2]; subst.
  destruct (keqb k k') eqn:E.
  - apply keqb_spec in E. subst k'. destruct H as [H|H]; [injection H as ->; reflexivity|].
    exfalso. apply N1. apply in_map_iff. exists (k, i). auto.
  - destruct H as [H|H]; [injection H as -> ->; rewrite krefl in E; discriminate|].
    rewrite (IH k i N2 H) at 1. apply perm_swap.
Qed.
Lemma dset_new : forall (m : list (K * nat)) k i, dget keqb k m = None -> dset keqb k i m = m ++ [(k, i)].
Proof.
  induction m as [|[k' j] m IH]; intros k i H; cbn [dset dget app] in *; [reflexivity|].
  destruct (keqb k k'); [discriminate|]. rewrite IH by exact H. reflexivity.
Qed.

Lemma minv_del : forall a i k v b m, minv (a ++ (i, (k, v)) :: b) m -> minv (a ++ b) (ddel keqb k m).
Proof.
  intros a i k v b m [N P]. split; [apply (ddel_nodup keqb keqb_spec); exact N|].
  assert (H : In (k, i) m).
  { rewrite P. unfold idx. apply in_map_iff. exists (i, (k, v)). split; [reflexivity|]. apply in_elt. }
  pose proof (ddel_perm m k i N H) as Q.
  assert (Q2 : Permutation ((k, i) :: ddel keqb k m) ((k, i) :: idx (a ++ b))).
  { eapply Permutation_trans; [symmetry; exact Q|]. eapply Permutation_trans; [exact P|].
    unfold idx. rewrite !map_app. cbn [map fst snd]. symmetry. apply Permutation_middle. }
  apply Permutation_cons_inv in Q2. exact Q2.
Qed.
Lemma minv_add : forall l m i k v, minv l m -> ~ In k (lkeys l) -> minv ((i, (k, v)) :: l) (dset keqb k i m).
Proof.
  intros l m i k v M H. pose proof M as [N P]. assert (D : dget keqb k m = None) by (apply (minv_none l); assumption).
  split; [apply (dset_nodup keqb keqb_spec); exact N|]. rewrite dset_new by exact D.
  cbn [idx map fst snd]. rewrite <- Permutation_cons_append. constructor. exact P.
Qed.


(** dictionary lookup agrees with lookup in the contents *)
Lemma find_some : forall l m k i, minv l m -> dget keqb k m = Some i ->
  exists a v b, l = a ++ (i, (k, v)) :: b /\ dget keqb k (map snd l) = Some v /\
    del keqb k (map snd l) = map snd (a ++ b) /\ ~ In k (lkeys a) /\ ~ In k (lkeys b).
Proof.
  intros l m k i M H. pose proof (minv_nodup l m M) as N. apply (minv_in l m) in H as [v H]; [|exact M].
  apply in_split in H as (a & b & ->). exists a, v, b. split; [reflexivity|].
  assert (Na : ~ In k (lkeys a) /\ ~ In k (lkeys b)).
  { unfold lkeys in N. rewrite map_app in N. cbn in N. apply NoDup_remove_2 in N. rewrite in_app_iff in N.
    unfold lkeys. tauto. }
  destruct Na as [Na Nb]. split.
  - apply (in_dget keqb keqb_spec); [rewrite lkeys_snd; exact N|]. apply in_map_iff. exists (i, (k, v)). split; [reflexivity|apply in_elt].
  - split; [|split; assumption]. unfold del. rewrite map_app, filter_app. cbn [map filter snd fst]. rewrite krefl. cbn [negb].
    assert (D : forall l, ~ In k (lkeys l) -> filter (fun kv => negb (keqb k (fst kv))) (map snd l) = map snd l).
    { induction l as [|[j [k' w]] l IH]; intro X; [reflexivity|]. unfold lkeys in *. cbn in *. rewrite kneq by (intuition congruence). cbn. rewrite IH by tauto. reflexivity. }
    rewrite !D by assumption. rewrite map_app. reflexivity.
Qed.
Lemma find_none : forall l m k, minv l m -> dget keqb k m = None -> dget keqb k (map snd l) = None.
Proof.
  intros l m k M H. apply (dget_none keqb keqb_spec). rewrite lkeys_snd. apply (minv_none l m); assumption.
Qed.
Lemma find_dmem : forall l m k, minv l m -> dmem keqb k m = dmem keqb k (map snd l).
Proof.
  intros l m k M. unfold dmem. destruct (dget keqb k m) as [i|] eqn:E.
  - destruct (find_some l m k i M E) as (a & v & b & _ & -> & _). reflexivity.
  - rewrite (find_none l m k M E). reflexivity.
Qed.

Lemma rep_elem_value : forall (d : dll (K * V)) a i kv b, rep d (a ++ (i, kv) :: b) -> elem_value d i = Ok kv.
Proof. intros d a i kv b R. unfold elem_value. rewrite (seg_cell _ _ _ _ _ _ _ (r_seg _ _ R)). reflexivity. Qed.

(** ** LastAccessCache *)
Definition lru_abs (c : lru K V) r : Prop :=
  exists l, rep (l_list c) l /\ minv l (l_map c) /\ r = map snd l.

Lemma lru_add_abs : forall c l k v, rep (l_list c) l -> minv l (l_map c) -> ~ In k (lkeys l) ->
  lru_abs (lru_add keqb c k v) ((k, v) :: map snd l) /\ l_cb (lru_add keqb c k v) = l_cb c /\ l_max (lru_add keqb c k v) = l_max c.
Proof.
  intros c l k v R M H. unfold lru_add. destruct (rep_prepend (l_list c) l (k, v) R) as (R1 & F & _).
  destruct (dll_prepend (l_list c) (k, v)) as [i d] eqn:E. cbn [fst snd] in *. subst i.
  split; [|split; reflexivity]. exists ((d_fresh (l_list c), (k, v)) :: l). split; [exact R1|].
  split; [apply minv_add; assumption|reflexivity].
Qed.

Lemma zlen_map : forall {A B} (f : A -> B) x, zlen (map f x) = zlen x.
Proof. intros. unfold zlen. rewrite map_length. reflexivity. Qed.

Definition same_cfg (c c' : lru K V) : Prop := l_cb c' = l_cb c /\ l_max c' = l_max c.

Lemma lru_refines : forall c r op, lru_abs c r ->
  exists c' evs ret r', lru_step keqb c op = (c', evs, ret) /\ lru_spec keqb (l_cb c) (l_max c) r op = (r', evs, ret) /\
    lru_abs c' r' /\ same_cfg c c'.
Proof.
  intros c r op A. pose proof A as (l & R & M & ->). destruct op as [k|k|k v allow|k call|call]; cbn [lru_step lru_spec].
  - (* has *) exists c, [], (Ok (RBool (lru_has keqb c k))), (map snd l). split; [reflexivity|].
    unfold lru_has. rewrite (find_dmem l _ k M). split; [reflexivity|]. split; [exact A|split; reflexivity].
  - (* get *) unfold lru_get. destruct (dget keqb k (l_map c)) as [i|] eqn:E.
    + destruct (find_some l _ k i M E) as (a & v & b & -> & G & D & _). rewrite G, D.
      destruct (rep_move_front _ _ _ _ _ R) as (d1 & E1 & R1 & _). rewrite E1.
      rewrite (rep_elem_value _ [] _ _ _ R1).
      eexists _, _, _, _. split; [reflexivity|]. split; [reflexivity|]. split; [|split; reflexivity].
      exists ((i, (k, v)) :: a ++ b). cbn [l_list l_map]. split; [exact R1|]. split; [|reflexivity].
      eapply minv_perm; [|exact M]. symmetry. apply Permutation_middle.
    + rewrite (find_none l _ k M E). eexists _, _, _, _. split; [reflexivity|]. split; [reflexivity|]. split; [exact A|split; reflexivity].
  - (* push *) unfold lru_push. destruct (dget keqb k (l_map c)) as [i|] eqn:E.
    + destruct (find_some l _ k i M E) as (a & w & b & -> & G & D & Na & Nb). unfold dmem. rewrite G, D.
      destruct (rep_remove _ _ _ _ _ R) as (d1 & E1 & R1 & _ & _). rewrite E1.
      destruct (lru_add_abs (mkLru (l_cb c) (l_max c) d1 (ddel keqb k (l_map c))) (a ++ b) k v) as (A1 & C1 & C2).
      { exact R1. } { apply (minv_del a i k w b). exact M. }
      { unfold lkeys in *. rewrite map_app, in_app_iff. tauto. }
      eexists _, _, _, _. split; [reflexivity|]. split; [reflexivity|]. split; [exact A1|]. split; assumption.
    + unfold dmem. rewrite (find_none l _ k M E). rewrite (r_len _ _ R), zlen_map.
      assert (Nk : ~ In k (lkeys l)) by (apply (minv_none l (l_map c)); assumption).
      destruct allow; cbn [negb]; rewrite ?andb_true_r, ?andb_false_r.
      2:{ eexists _, _, _, _. split; [reflexivity|]. split; [reflexivity|]. split; [exact A|split; reflexivity]. }
      destruct (Z.ltb_spec (zlen l) (l_max c)) as [L|L].
      * destruct (Z.leb_spec (l_max c) (zlen l)); [lia|].
        destruct (lru_add_abs c l k v R M Nk) as (A1 & C1 & C2).
        eexists _, _, _, _. split; [reflexivity|]. split; [reflexivity|]. split; [exact A1|split; assumption].
      * destruct (Z.leb_spec (l_max c) (zlen l)); [|lia]. rewrite (r_tail _ _ R).
        destruct l as [|x l0].
        { cbn. eexists _, _, _, _. split; [reflexivity|]. split; [reflexivity|]. split; [exact A|split; reflexivity]. }
        destruct (exists_last (l := x :: l0)) as (a & [i [ok ov]] & El); [discriminate|]. rewrite El in *. clear El x l0.
        rewrite lastid_app. cbn [lastid]. rewrite (rep_elem_value _ a i (ok, ov) [] R).
        destruct (rep_remove_last _ _ _ _ R) as (d1 & E1 & R1 & _). rewrite E1.
        rewrite map_app. cbn [map snd]. rewrite rev_app_distr. cbn [rev app]. rewrite removelast_last.
        destruct (lru_add_abs (mkLru (l_cb c) (l_max c) d1 (ddel keqb ok (l_map c))) a k v) as (A1 & C1 & C2).
        { exact R1. } { cbn [l_map]. pose proof (minv_del a i ok ov [] _ M) as X. rewrite app_nil_r in X. exact X. }
        { unfold lkeys in *. rewrite map_app, in_app_iff in Nk. tauto. }
        rewrite C1. cbn [l_cb l_max] in *.
        eexists _, _, _, _. split; [reflexivity|]. split; [reflexivity|]. split; [exact A1|split; assumption].
  - (* remove *) unfold lru_remove. destruct (dget keqb k (l_map c)) as [i|] eqn:E.
    + destruct (find_some l _ k i M E) as (a & w & b & -> & G & D & Na & Nb). rewrite G, D.
      destruct (rep_remove _ _ _ _ _ R) as (d1 & E1 & R1 & _ & Hc). rewrite E1.
      unfold elem_value. rewrite Hc. cbn [c_val l_cb].
      assert (A1 : lru_abs (mkLru (l_cb c) (l_max c) d1 (ddel keqb k (l_map c))) (map snd (a ++ b))).
      { exists (a ++ b). split; [exact R1|]. split; [|reflexivity]. apply (minv_del a i k w b). exact M. }
      destruct call, (l_cb c) eqn:Ecb; cbn [andb negb]; eexists _, _, _, _; (split; [reflexivity|]); (split; [reflexivity|]);
        (split; [exact A1|split; [cbn [l_cb]; congruence|reflexivity]]).
    + rewrite (find_none l _ k M E). eexists _, _, _, _. split; [reflexivity|]. split; [reflexivity|]. split; [exact A|split; reflexivity].
  - (* clear *) unfold lru_clear. destruct (rep_to_list _ _ R) as (T & _ & _). rewrite T.
    assert (A1 : lru_abs (mkLru (l_cb c) (l_max c) (dll_clear (l_list c)) []) []).
    { exists []. split; [eapply rep_clear; exact R|]. split; [|reflexivity]. split; constructor. }
    destruct (call && l_cb c); eexists _, _, _, _; (split; [reflexivity|]); (split; [reflexivity|]); (split; [exact A1|split; reflexivity]).
Qed.

Lemma lru_new_abs : forall cb n, lru_abs (lru_new cb n) [].
Proof. intros cb n. exists []. split; [apply rep_new|]. split; [|reflexivity]. split; constructor. Qed.

Lemma lru_abs_nodup : forall c r, lru_abs c r -> NoDup (map fst r).
Proof. intros c r (l & R & M & ->). rewrite lkeys_snd. eapply minv_nodup. exact M. Qed.
Lemma lru_abs_has : forall c r k, lru_abs c r -> lru_has keqb c k = dmem keqb k r.
Proof. intros c r k (l & R & M & ->). apply find_dmem. exact M. Qed.

Lemma lru_run_refines : forall ops c r, lru_abs c r ->
  exists c' evs rets r', crun (lru_step keqb) c ops = (c', evs, rets) /\
    crun (lru_spec keqb (l_cb c) (l_max c)) r ops = (r', evs, rets) /\ lru_abs c' r' /\ same_cfg c c'.
Proof.
  induction ops as [|op ops IH]; intros c r A; cbn [crun].
  - eexists _, _, _, _. split; [reflexivity|]. split; [reflexivity|]. split; [exact A|split; reflexivity].
  - destruct (lru_refines c r op A) as (c1 & e1 & x1 & r1 & E1 & S1 & A1 & [C1 C2]). rewrite E1, S1.
    destruct (IH c1 r1 A1) as (c2 & e2 & x2 & r2 & E2 & S2 & A2 & [D1 D2]). rewrite C1, C2 in S2. rewrite E2, S2.
    eexists _, _, _, _. split; [reflexivity|]. split; [reflexivity|]. split; [exact A2|split; congruence].
Qed.

(** ** TopAccessCache *)
Definition acc_abs (t : list (K * Z)) (acc : K -> Z) : Prop :=
  NoDup (map fst t) /\ forall k, match dget keqb k t with Some n => n = acc k /\ 1 <= n | None => acc k = 0 end.
Definition top_abs (c : top K V) (s : list (K * V) * (K -> Z)) : Prop :=
  exists l, rep (t_list c) l /\ minv l (t_map c) /\ fst s = map snd l /\ acc_abs (t_acc c) (snd s) /\
    (forall k, In k (lkeys l) -> 1 <= snd s k).
Definition same_tcfg (c c' : top K V) : Prop := t_cb c' = t_cb c /\ t_max c' = t_max c.

Lemma promote_absent : forall acc k r, ~ In k (map fst r) -> promote keqb acc k r = r.
Proof.
  induction r as [|x [|y r] IH]; intro H; try reflexivity.
  change (promote keqb acc k (x :: y :: r)) with
    (if keqb k (fst y) then (if acc (fst x) <? acc k then y :: x :: r else x :: y :: r) else x :: promote keqb acc k (y :: r)).
  cbn in H. rewrite kneq by (intuition congruence). rewrite IH; [reflexivity|cbn; tauto].
Qed.
Lemma promote_head : forall acc k v r, NoDup (map fst ((k, v) :: r)) -> promote keqb acc k ((k, v) :: r) = (k, v) :: r.
Proof.
  intros acc k v [|y r] H; [reflexivity|]. cbn in H. inversion H as [|? ? H1 H2]; subst.
  change (promote keqb acc k ((k, v) :: y :: r)) with
    (if keqb k (fst y) then (if acc k <? acc k then y :: (k, v) :: r else (k, v) :: y :: r) else (k, v) :: promote keqb acc k (y :: r)).
  cbn in H1. rewrite kneq by (intuition congruence). rewrite promote_absent; [reflexivity|cbn; exact H1].
Qed.
Lemma promote_mid : forall acc k q qv v p r, NoDup (map fst (p ++ (q, qv) :: (k, v) :: r)) ->
  promote keqb acc k (p ++ (q, qv) :: (k, v) :: r) =
  if acc q <? acc k then p ++ (k, v) :: (q, qv) :: r else p ++ (q, qv) :: (k, v) :: r.
Proof.
  induction p as [|x p IH]; intros r H.
  - cbn [app promote fst]. rewrite krefl. reflexivity.
  - assert (N : NoDup (map fst (p ++ (q, qv) :: (k, v) :: r))) by (cbn in H; inversion H; assumption).
    specialize (IH r N). cbn [app]. destruct p as [|y p].
    + cbn [app] in *. change (promote keqb acc k (x :: (q, qv) :: (k, v) :: r)) with
        (if keqb k q then (if acc (fst x) <? acc k then (q, qv) :: x :: (k, v) :: r else x :: (q, qv) :: (k, v) :: r)
         else x :: promote keqb acc k ((q, qv) :: (k, v) :: r)).
      cbn in N. inversion N as [|? ? N1 N2]; subst. cbn in N1. rewrite kneq by (intuition congruence).
      rewrite IH. destruct (acc q <? acc k); reflexivity.
    + cbn [app] in *. change (promote keqb acc k (x :: y :: p ++ (q, qv) :: (k, v) :: r)) with
        (if keqb k (fst y) then (if acc (fst x) <? acc k then y :: x :: p ++ (q, qv) :: (k, v) :: r else x :: y :: p ++ (q, qv) :: (k, v) :: r)
         else x :: promote keqb acc k (y :: p ++ (q, qv) :: (k, v) :: r)).
      cbn in N. inversion N as [|? ? N1 N2]; subst. rewrite map_app, in_app_iff in N1. cbn in N1. rewrite kneq by (intuition congruence).
      rewrite IH. destruct (acc q <? acc k); reflexivity.
Qed.

Lemma acc_abs_bump : forall t acc k, acc_abs t acc ->
  acc_abs (dset keqb k (match dget keqb k t with Some n => n + 1 | None => 1 end) t) (bump keqb acc k).
Proof.
  intros t acc k [N H]. split; [apply (dset_nodup keqb keqb_spec); exact N|]. intro k'.
  rewrite (dget_dset keqb keqb_spec). unfold bump. destruct (keqb k' k) eqn:E.
  - apply keqb_spec in E. subst k'. rewrite krefl. specialize (H k). destruct (dget keqb k t); lia.
  - rewrite (kneq k k'); [exact (H k')|]. intros ->. rewrite krefl in E. discriminate.
Qed.
Lemma acc_abs_get : forall t acc k, acc_abs t acc -> 1 <= acc k -> dget keqb k t = Some (acc k).
Proof. intros t acc k [_ H] L. specialize (H k). destruct (dget keqb k t); [f_equal; tauto|lia]. Qed.
Lemma bump_ge : forall acc k k', acc k' <= bump keqb acc k k'.
Proof. intros. unfold bump. destruct (keqb k k'); lia. Qed.
Lemma acc_nonneg : forall t acc k, acc_abs t acc -> 0 <= acc k.
Proof. intros t acc k [_ H]. specialize (H k). destruct (dget keqb k t); lia. Qed.
Lemma bump_self : forall t acc k, acc_abs t acc -> 1 <= bump keqb acc k k.
Proof. intros t acc k H. pose proof (acc_nonneg t acc k H). unfold bump. rewrite krefl. lia. Qed.

Lemma top_increment_abs : forall c s k, top_abs c s ->
  exists c', top_increment keqb c k = Ok c' /\
    top_abs c' (promote keqb (bump keqb (snd s) k) k (fst s), bump keqb (snd s) k) /\ same_tcfg c c' /\ t_map c' = t_map c.
Proof.
  intros c [r acc] k (l & R & M & Er & HA & HC). cbn [fst snd] in *. subst r.
  pose proof (acc_abs_bump _ _ k HA) as HA'. pose proof (bump_self _ _ k HA) as Hself.
  assert (HC' : forall k', In k' (lkeys l) -> 1 <= bump keqb acc k k').
  { intros k' H. pose proof (HC k' H). pose proof (bump_ge acc k k'). lia. }
  unfold top_increment.
  set (n := match dget keqb k (t_acc c) with Some n => n + 1 | None => 1 end) in *.
  cbn [t_map t_list t_acc t_cb t_max].
  assert (Hn : n = bump keqb acc k k).
  { pose proof (acc_abs_get _ _ k HA' Hself) as X. rewrite (dget_dset keqb keqb_spec), krefl in X. congruence. }
  destruct (dget keqb k (t_map c)) as [i|] eqn:E.
  - destruct (find_some l _ k i M E) as (a & v & b & -> & G & D & Na & Nb).
    rewrite (seg_cell _ _ _ _ _ _ _ (r_seg _ _ R)). cbn [c_prev].
    pose proof (minv_nodup _ _ M) as Nd. rewrite <- lkeys_snd in Nd.
    destruct a as [|x a0].
    + cbn [lastid]. eexists. split; [reflexivity|]. split; [|split; [split; reflexivity|reflexivity]].
      exists ((i, (k, v)) :: b). cbn [t_list t_map t_acc fst snd app] in *.
      split; [exact R|]. split; [exact M|]. split; [cbn [map snd] in *; apply promote_head; exact Nd|]. split; [exact HA'|exact HC'].
    + destruct (exists_last (l := x :: a0)) as (a & [q [qk qv]] & Ea); [discriminate|]. rewrite Ea in *. clear Ea x a0.
      rewrite lastid_app. cbn [lastid]. rewrite <- app_assoc in *. cbn [app] in *.
      rewrite (rep_elem_value _ _ _ _ _ R). cbn [bind fst].
      assert (Hq : 1 <= bump keqb acc k qk).
      { apply HC'. unfold lkeys. rewrite map_app, in_app_iff. right. left. reflexivity. }
      rewrite (acc_abs_get _ _ _ HA' Hq).
      rewrite map_app in Nd. cbn [map snd] in Nd.
      pose proof (promote_mid (bump keqb acc k) k qk qv v (map snd a) (map snd b) Nd) as PM.
      rewrite Hn in *. rewrite map_app. cbn [map snd]. destruct (Z.ltb_spec (bump keqb acc k qk) (bump keqb acc k k)) as [L|L].
      * eexists. split; [reflexivity|]. split; [|split; [split; reflexivity|reflexivity]].
        destruct (rep_swap _ _ _ _ _ _ _ R) as [R1 _].
        exists (a ++ (i, (k, v)) :: (q, (qk, qv)) :: b). cbn [t_list t_map t_acc fst snd].
        assert (P : Permutation (a ++ (q, (qk, qv)) :: (i, (k, v)) :: b) (a ++ (i, (k, v)) :: (q, (qk, qv)) :: b)).
        { apply Permutation_app_head. constructor. }
        split; [exact R1|]. split; [eapply minv_perm; [exact P|exact M]|].
        split; [rewrite PM, map_app; reflexivity|]. split; [exact HA'|].
        intros k' Hk. apply HC'. unfold lkeys in *. eapply Permutation_in; [|exact Hk]. apply Permutation_map. symmetry. exact P.
      * eexists. split; [reflexivity|]. split; [|split; [split; reflexivity|reflexivity]].
        exists (a ++ (q, (qk, qv)) :: (i, (k, v)) :: b). cbn [t_list t_map t_acc fst snd].
        split; [exact R|]. split; [exact M|]. split; [rewrite PM, map_app; reflexivity|]. split; [exact HA'|exact HC'].
  - eexists. split; [reflexivity|]. split; [|split; [split; reflexivity|reflexivity]].
    exists l. cbn [t_list t_map t_acc fst snd]. split; [exact R|]. split; [exact M|].
    split; [apply promote_absent; rewrite lkeys_snd; apply (minv_none l (t_map c)); assumption|]. split; [exact HA'|exact HC'].
Qed.

Lemma top_append_abs : forall c l acc k v, rep (t_list c) l -> minv l (t_map c) -> ~ In k (lkeys l) ->
  acc_abs (t_acc c) acc -> (forall k', In k' (lkeys l) -> 1 <= acc k') -> 1 <= acc k ->
  top_abs (top_append keqb c k v) (map snd l ++ [(k, v)], acc) /\ same_tcfg c (top_append keqb c k v) /\
  exists i, dget keqb k (t_map (top_append keqb c k v)) = Some i.
Proof.
  intros c l acc k v R M H HA HC Hk. unfold top_append. destruct (rep_append (t_list c) l (k, v) R) as (R1 & F & _).
  destruct (dll_append (t_list c) (k, v)) as [i d] eqn:E. cbn [fst snd] in *. subst i.
  split; [|split; [split; reflexivity|]].
  - exists (l ++ [(d_fresh (t_list c), (k, v))]). cbn [t_list t_map t_acc fst snd]. split; [exact R1|].
    split; [eapply minv_perm; [apply Permutation_cons_append|]; apply minv_add; assumption|].
    split; [rewrite map_app; reflexivity|]. split; [exact HA|].
    intros k' Hk'. unfold lkeys in *. rewrite map_app, in_app_iff in Hk'. destruct Hk' as [Hk'|[<-|[]]]; [auto|exact Hk].
  - cbn [t_map]. rewrite (dget_dset keqb keqb_spec), krefl. eauto.
Qed.

Lemma update_absent : forall k v r, ~ In k (map fst r) -> update keqb k v r = r.
Proof.
  intros k v r. unfold update. induction r as [|[a w] r IH]; intro H; [reflexivity|]. cbn in *. rewrite kneq by (intuition congruence). rewrite IH by tauto. reflexivity.
Qed.
Lemma update_mid : forall k v w (p r : list (K * V)), NoDup (map fst (p ++ (k, w) :: r)) -> update keqb k v (p ++ (k, w) :: r) = p ++ (k, v) :: r.
Proof.
  intros k v w p r H. rewrite map_app in H. cbn in H. apply NoDup_remove_2 in H. rewrite in_app_iff in H.
  unfold update. rewrite map_app. cbn [map fst]. rewrite krefl. fold (update keqb k v p). fold (update keqb k v r).
  rewrite !update_absent by tauto. reflexivity.
Qed.
Lemma top_set_abs : forall c r acc k v i, top_abs c (r, acc) -> dget keqb k (t_map c) = Some i ->
  top_abs (mkTop (t_cb c) (t_max c) (dll_set_value (t_list c) i (k, v)) (t_map c) (t_acc c)) (update keqb k v r, acc).
Proof.
  intros c r acc k v i (l & R & M & Er & HA & HC) E. cbn [fst snd] in *. subst r.
  pose proof (minv_nodup _ _ M) as Nd. rewrite <- lkeys_snd in Nd.
  destruct (find_some l _ k i M E) as (a & w & b & -> & _ & _ & Na & Nb).
  exists (a ++ (i, (k, v)) :: b). cbn [t_list t_map t_acc fst snd].
  split; [eapply rep_set_value; exact R|]. split.
  - destruct M as [N P]. split; [exact N|]. rewrite P. unfold idx. rewrite !map_app. reflexivity.
  - rewrite (map_app snd a) in *. cbn [map snd] in *. split; [rewrite map_app; cbn [map snd]; eapply update_mid; exact Nd|]. split; [exact HA|].
    intros k' H. apply HC. unfold lkeys in *. rewrite map_app in *. exact H.
Qed.

Lemma top_refines : forall c s op, top_abs c s ->
  exists c' evs ret s', top_step keqb c op = (c', evs, ret) /\ top_spec keqb (t_cb c) (t_max c) s op = (s', evs, ret) /\
    top_abs c' s' /\ same_tcfg c c'.
Proof.
  intros c [r acc] op A. destruct op as [k|k|k v allow|k call|call]; cbn [top_step top_spec].
  - (* has *) pose proof A as (l & R & M & Er & HA & HC). cbn [fst snd] in *. subst r.
    unfold top_has. rewrite (find_dmem l _ k M).
    eexists _, _, _, _. split; [reflexivity|]. split; [reflexivity|]. split; [exact A|split; reflexivity].
  - (* get *) unfold top_get. destruct (top_increment_abs c _ k A) as (c1 & E1 & A1 & C1 & Mp). rewrite E1. cbn [fst snd] in *.
    set (r1 := promote keqb (bump keqb acc k) k r) in *. set (acc1 := bump keqb acc k) in *.
    pose proof A1 as (l1 & R1 & M1 & Er1 & HA1 & HC1). cbn [fst snd] in *.
    destruct (dget keqb k (t_map c1)) as [i|] eqn:E.
    + destruct (find_some l1 _ k i M1 E) as (a & v & b & -> & G & D & _). rewrite Er1, G, <- Er1.
      rewrite (rep_elem_value _ _ _ _ _ R1). cbn [snd].
      eexists _, _, _, _. split; [reflexivity|]. split; [reflexivity|]. split; [exact A1|exact C1].
    + rewrite Er1, (find_none l1 _ k M1 E), <- Er1.
      eexists _, _, _, _. split; [reflexivity|]. split; [reflexivity|]. split; [exact A1|exact C1].
  - (* push *) unfold top_push. destruct (top_increment_abs c _ k A) as (c1 & E1 & A1 & [C1 C1'] & Mp). rewrite E1. cbn [fst snd] in *.
    assert (Hself : 1 <= bump keqb acc k k).
    { destruct A as (l & _ & _ & _ & HA & _). cbn [snd] in HA. eapply bump_self. exact HA. }
    set (r1 := promote keqb (bump keqb acc k) k r) in *. set (acc1 := bump keqb acc k) in *.
    pose proof A1 as (l1 & R1 & M1 & Er1 & HA1 & HC1). cbn [fst snd] in *.
    unfold top_replace_tail. rewrite (acc_abs_get _ _ _ HA1 Hself). rewrite (find_dmem l1 _ k M1), <- Er1.
    destruct (dmem keqb k r1) eqn:Em.
    + rewrite Er1, <- (find_dmem l1 _ k M1) in Em. unfold dmem in Em. destruct (dget keqb k (t_map c1)) as [i|] eqn:E; [|discriminate].
      eexists _, _, _, _. split; [reflexivity|]. split; [reflexivity|].
      split; [apply top_set_abs; assumption|split; assumption].
    + assert (Nk : ~ In k (lkeys l1)).
      { apply (minv_none l1 (t_map c1) k M1). rewrite Er1, <- (find_dmem l1 _ k M1) in Em. unfold dmem in Em.
        destruct (dget keqb k (t_map c1)); [discriminate|reflexivity]. }
      rewrite (r_len _ _ R1), C1'. assert (El : zlen r1 = zlen l1) by (rewrite Er1, zlen_map; reflexivity). rewrite El.
      destruct (Z.ltb_spec (zlen l1) (t_max c)) as [L|L].
      * destruct (top_append_abs c1 l1 acc1 k v R1 M1 Nk HA1 HC1 Hself) as (A2 & [C2 C2'] & i & Ei). rewrite Ei.
        eexists _, _, _, _. split; [reflexivity|]. split; [reflexivity|].
        split; [|split; cbn [t_cb t_max]; congruence].
        rewrite Er1. replace (map snd l1 ++ [(k, v)]) with (update keqb k v (map snd l1 ++ [(k, v)])); [apply top_set_abs; assumption|].
        apply update_mid. destruct A2 as (l2 & _ & M2 & Er2 & _). cbn [fst] in Er2. rewrite Er2, lkeys_snd. eapply minv_nodup. exact M2.
      * rewrite (r_tail _ _ R1). destruct l1 as [|x l0].
        { cbn [lastid]. rewrite Er1. cbn [map rev].
          eexists _, _, _, _. split; [reflexivity|]. split; [reflexivity|]. split; [rewrite Er1 in A1; exact A1|split; assumption]. }
        destruct (exists_last (l := x :: l0)) as (a & [i [ok ov]] & Ea); [discriminate|]. rewrite Ea in *. clear Ea x l0.
        rewrite lastid_app. cbn [lastid]. rewrite (rep_elem_value _ a i (ok, ov) [] R1). cbn [bind fst snd].
        assert (Hok : 1 <= acc1 ok). { apply HC1. unfold lkeys. rewrite map_app, in_app_iff. right. left. reflexivity. }
        rewrite (acc_abs_get _ _ _ HA1 Hok). rewrite Er1, map_app. cbn [map snd]. rewrite rev_app_distr. cbn [rev app fst snd].
        destruct ((acc1 ok <? acc1 k) && allow) eqn:Ec.
        -- destruct (rep_remove_last _ _ _ _ R1) as (d1 & E2 & R2 & _). rewrite E2. cbn [bind].
           rewrite removelast_last.
           destruct (top_append_abs (mkTop (t_cb c1) (t_max c) d1 (ddel keqb ok (t_map c1)) (t_acc c1)) a acc1 k v) as (A2 & [C2 C2'] & i2 & Ei).
           { exact R2. } { cbn [t_map]. pose proof (minv_del a i ok ov [] _ M1) as X. rewrite app_nil_r in X. exact X. }
           { unfold lkeys in *. rewrite map_app, in_app_iff in Nk. tauto. } { exact HA1. }
           { intros k' Hk'. apply HC1. unfold lkeys in *. rewrite map_app, in_app_iff. auto. } { exact Hself. }
           set (c2 := top_append keqb _ k v) in *. rewrite Ei. cbn [t_cb t_max] in C2, C2'.
           assert (Ecb : t_cb c2 = t_cb c) by congruence.
           exists (mkTop (t_cb c2) (t_max c2) (dll_set_value (t_list c2) i2 (k, v)) (t_map c2) (t_acc c2)). eexists _, _, _.
           split; [rewrite Ecb; reflexivity|]. split; [reflexivity|].
           split; [|split; cbn [t_cb t_max]; congruence].
           replace (map snd a ++ [(k, v)]) with (update keqb k v (map snd a ++ [(k, v)])); [apply top_set_abs; assumption|].
           apply update_mid. destruct A2 as (l2 & _ & M2 & Er2 & _). cbn [fst] in Er2. rewrite Er2, lkeys_snd. eapply minv_nodup. exact M2.
        -- eexists _, _, _, _. split; [reflexivity|]. split; [reflexivity|]. split; [rewrite Er1, map_app in A1; exact A1|split; assumption].
  - (* remove *) pose proof A as (l & R & M & Er & HA & HC). cbn [fst snd] in *. subst r.
    unfold top_remove. destruct (dget keqb k (t_map c)) as [i|] eqn:E.
    + destruct (find_some l _ k i M E) as (a & w & b & -> & G & D & Na & Nb). rewrite G, D.
      destruct (rep_remove _ _ _ _ _ R) as (d1 & E1 & R1 & _ & Hc). rewrite E1.
      unfold elem_value. rewrite Hc. cbn [c_val t_cb].
      assert (A1 : top_abs (mkTop (t_cb c) (t_max c) d1 (ddel keqb k (t_map c)) (t_acc c)) (map snd (a ++ b), acc)).
      { exists (a ++ b). cbn [t_list t_map t_acc fst snd]. split; [exact R1|].
        split; [apply (minv_del a i k w b); exact M|]. split; [reflexivity|]. split; [exact HA|].
        intros k' H. apply HC. unfold lkeys in *. rewrite map_app, in_app_iff in *. cbn. tauto. }
      destruct call, (t_cb c) eqn:Ecb; cbn [andb negb]; eexists _, _, _, _; (split; [reflexivity|]); (split; [reflexivity|]);
        (split; [exact A1|split; [cbn [t_cb]; congruence|reflexivity]]).
    + rewrite (find_none l _ k M E). eexists _, _, _, _. split; [reflexivity|]. split; [reflexivity|]. split; [exact A|split; reflexivity].
  - (* clear *) pose proof A as (l & R & M & Er & HA & HC). cbn [fst snd] in *. subst r.
    unfold top_clear. destruct (rep_to_list _ _ R) as (T & _ & _). rewrite T.
    assert (A1 : top_abs (mkTop (t_cb c) (t_max c) (dll_clear (t_list c)) [] []) ([], fun _ => 0)).
    { exists []. cbn [t_list t_map t_acc fst snd]. split; [eapply rep_clear; exact R|]. split; [split; constructor|].
      split; [reflexivity|]. split; [split; [constructor|intro; reflexivity]|intros k []]. }
    destruct (call && t_cb c); eexists _, _, _, _; (split; [reflexivity|]); (split; [reflexivity|]); (split; [exact A1|split; reflexivity]).
Qed.

Lemma top_new_abs : forall cb n, top_abs (top_new cb n) ([], fun _ => 0).
Proof.
  intros cb n. exists []. split; [apply rep_new|]. split; [split; constructor|]. split; [reflexivity|].
  split; [split; [constructor|intro; reflexivity]|intros k []].
Qed.
Lemma top_run_refines : forall ops c s, top_abs c s ->
  exists c' evs rets s', crun (top_step keqb) c ops = (c', evs, rets) /\
    crun (top_spec keqb (t_cb c) (t_max c)) s ops = (s', evs, rets) /\ top_abs c' s' /\ same_tcfg c c'.
Proof.
  induction ops as [|op ops IH]; intros c r A; cbn [crun].
  - eexists _, _, _, _. split; [reflexivity|]. split; [reflexivity|]. split; [exact A|split; reflexivity].
  - destruct (top_refines c r op A) as (c1 & e1 & x1 & r1 & E1 & S1 & A1 & [C1 C2]). rewrite E1, S1.
    destruct (IH c1 r1 A1) as (c2 & e2 & x2 & r2 & E2 & S2 & A2 & [D1 D2]). rewrite C1, C2 in S2. rewrite E2, S2.
    eexists _, _, _, _. split; [reflexivity|]. split; [reflexivity|]. split; [exact A2|split; congruence].
Qed.
Lemma top_abs_nodup : forall c s, top_abs c s -> NoDup (map fst (fst s)).
Proof. intros c s (l & R & M & -> & _). rewrite lkeys_snd. eapply minv_nodup. exact M. Qed.
Lemma top_abs_list : forall c s, top_abs c s -> dll_to_list (t_list c) = Ok (fst s).
Proof. intros c s (l & R & M & -> & _). destruct (rep_to_list _ _ R) as (T & _). exact T. Qed.
Lemma top_abs_has : forall c s k, top_abs c s -> top_has keqb c k = dmem keqb k (fst s).
Proof. intros c s k (l & R & M & -> & _). apply find_dmem. exact M. Qed.
End Proofs.
