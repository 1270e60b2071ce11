(** History properties of the caches, from their list specifications. *)
From Coq Require Import List ZArith Bool Lia Permutation.
From Coq Require Import ZifyBool ZifyNat ZifyN.
From Verif Require Import Base BaseProofs Dict LinkedList LinkedListSpec LinkedListProofs Cache CacheSpec CacheProofs.
Import ListNotations.
Open Scope Z_scope.

Section Facts.
Context {K V : Type}.
Variable keqb : K -> K -> bool.
Hypothesis keqb_spec : forall a b, keqb a b = true <-> a = b.
Implicit Types (r : list (K * V)) (ops : list (cop K V)).

Notation dg := (dget_none keqb keqb_spec).

Lemma crun_app : forall {S} (step : S -> cop K V -> outcome K V S) ops1 ops2 c,
  crun step c (ops1 ++ ops2) =
  let '(c1, e1, x1) := crun step c ops1 in
  let '(c2, e2, x2) := crun step c1 ops2 in (c2, e1 ++ e2, x1 ++ x2).
Proof.
  intros S step. induction ops1 as [|op ops1 IH]; intros ops2 c; cbn [app crun].
  - destruct (crun step c ops2) as [[c2 e2] x2]. reflexivity.
  - destruct (step c op) as [[c1 e1] x1]. rewrite IH. destruct (crun step c1 ops1) as [[c2 e2] x2].
    destruct (crun step c2 ops2) as [[c3 e3] x3]. rewrite app_assoc. reflexivity.
Qed.
Lemma final_snoc : forall {S} (step : S -> cop K V -> outcome K V S) ops op c,
  final (crun step c (ops ++ [op])) = o_state (step (final (crun step c ops)) op).
Proof.
  intros. rewrite crun_app. destruct (crun step c ops) as [[c1 e1] x1]. cbn [final fst crun].
  destruct (step c1 op) as [[c2 e2] x2]. reflexivity.
Qed.

(** list facts *)
Lemma in_del : forall k r kv, In kv (del keqb k r) <-> In kv r /\ fst kv <> k.
Proof.
  intros k r kv. unfold del. rewrite filter_In, negb_true_iff. split; intros [H1 H2]; (split; [exact H1|]).
  - intros E. rewrite E, (krefl keqb keqb_spec) in H2. discriminate.
  - apply (kneq keqb keqb_spec). congruence.
Qed.
Lemma del_keys : forall k r x, In x (map fst (del keqb k r)) <-> In x (map fst r) /\ x <> k.
Proof.
  intros k r x. rewrite !in_map_iff. split.
  - intros (kv & <- & H). apply in_del in H as [H1 H2]. split; [exists kv; auto|exact H2].
  - intros [(kv & <- & H) N]. exists kv. split; [reflexivity|]. apply in_del. auto.
Qed.
Lemma del_nodup : forall k r, NoDup (map fst r) -> NoDup (map fst (del keqb k r)).
Proof.
  intros k r. unfold del. induction r as [|[a w] r IH]; intro H; [constructor|]. cbn in *. inversion H as [|? ? H1 H2]; subst.
  destruct (keqb k a); cbn; [auto|]. constructor; [|auto]. intro X. apply (del_keys k r) in X. tauto.
Qed.
Lemma del_len_le : forall k r, zlen (del keqb k r) <= zlen r.
Proof.
  intros k r. unfold del. induction r as [|[a w] r IH]; cbn [filter fst]; [lia|]. destruct (keqb k a); cbn [negb]; rewrite ?zlen_cons; lia.
Qed.
Lemma del_len_lt : forall k r, In k (map fst r) -> zlen (del keqb k r) + 1 <= zlen r.
Proof.
  intros k r. induction r as [|[a w] r IH]; intro H; [destruct H|]. unfold del in *. cbn [filter fst]. rewrite (zlen_cons (a, w)).
  destruct (keqb k a) eqn:E; cbn [negb].
  - pose proof (del_len_le k r). unfold del in *. lia.
  - rewrite (zlen_cons (a, w)). destruct H as [H|H]; [cbn in H; subst; rewrite (krefl keqb keqb_spec) in E; discriminate|]. specialize (IH H). lia.
Qed.
Lemma removelast_in : forall {A} (x : list A) y, In y (removelast x) -> In y x.
Proof.
  intros A x y H. destruct x as [|z x]; [destruct H|].
  destruct (exists_last (l := z :: x)) as (a & w & E); [discriminate|]. rewrite E in *. rewrite removelast_last in H.
  apply in_or_app. auto.
Qed.
Lemma rev_last : forall {A} (x : list A) y q, rev x = y :: q -> x = rev q ++ [y].
Proof. intros A x y q H. rewrite <- (rev_involutive x), H. reflexivity. Qed.

Lemma dmem_false : forall k r, dmem keqb k r = false <-> ~ In k (map fst r).
Proof. intros k r. rewrite <- (dmem_iff keqb keqb_spec). destruct (dmem keqb k r); split; congruence. Qed.
Lemma dget_snoc : forall k a w r, dget keqb k (r ++ [(a, w)]) = match dget keqb k r with Some v => Some v | None => if keqb k a then Some w else None end.
Proof.
  intros k a w r. induction r as [|[b u] r IH]; cbn [app dget]; [reflexivity|]. destruct (keqb k b); [reflexivity|exact IH].
Qed.

(** ** one step of the LRU specification *)
Definition linv (n : Z) (h : list (cop K V)) r : Prop :=
  NoDup (map fst r) /\ zlen r <= n /\ forall k v, In (k, v) r -> last_pushed keqb k h = Some v.

Lemma last_pushed_snoc : forall k (h : list (cop K V)) op, last_pushed keqb k (h ++ [op]) = pushed_step keqb k (last_pushed keqb k h) op.
Proof. intros. unfold last_pushed. rewrite fold_left_app. reflexivity. Qed.

Lemma nodup_removelast : forall {A} (x : list A), NoDup x -> NoDup (removelast x).
Proof.
  intros A x H. destruct x as [|z x]; [constructor|].
  destruct (exists_last (l := z :: x)) as (a & w & E); [discriminate|]. rewrite E in *. rewrite removelast_last.
  apply NoDup_remove_1 in H. rewrite app_nil_r in H. exact H.
Qed.
Lemma map_removelast : forall {A B} (f : A -> B) x, map f (removelast x) = removelast (map f x).
Proof.
  intros A B f x. induction x as [|a [|b x] IH]; [reflexivity|reflexivity|].
  change (removelast (a :: b :: x)) with (a :: removelast (b :: x)). cbn [map]. rewrite IH. reflexivity.
Qed.
Lemma removelast_len : forall {A} (x : list A), x <> [] -> zlen (removelast x) = zlen x - 1.
Proof.
  intros A x H. destruct (exists_last H) as (a & w & ->). rewrite removelast_last, zlen_app, zlen_cons, zlen_nil. lia.
Qed.

Lemma lru_spec_inv : forall cb n h r op, 0 <= n -> linv n h r -> linv n (h ++ [op]) (o_state (lru_spec keqb cb n r op)).
Proof.
  intros cb n h r op Hn (N & L & P).
  assert (P' : forall k v, (match op with CPush k' _ _ => k <> k' | _ => True end) -> In (k, v) r -> last_pushed keqb k (h ++ [op]) = Some v).
  { intros k v H I. rewrite last_pushed_snoc. destruct op; cbn [pushed_step]; try (apply P; exact I).
    rewrite (kneq keqb keqb_spec) by exact H. apply P. exact I. }
  assert (Hmove : forall k v, In k (map fst r) -> NoDup (map fst ((k, v) :: del keqb k r)) /\ zlen ((k, v) :: del keqb k r) <= n).
  { intros k v H. split.
    - cbn. constructor; [|apply del_nodup; exact N]. intro X. apply del_keys in X. tauto.
    - rewrite zlen_cons. pose proof (del_len_lt k r H). lia. }
  destruct op as [k|k|k v allow|k call|call]; cbn [lru_spec].
  - cbn. split; [exact N|]. split; [exact L|]. intros; apply P'; auto.
  - destruct (dget keqb k r) as [v|] eqn:E; cbn [o_state fst].
    + pose proof (dget_in keqb keqb_spec _ _ _ E) as I.
      assert (Ik : In k (map fst r)) by (apply in_map_iff; exists (k, v); auto).
      destruct (Hmove k v Ik) as [H1 H2]. split; [exact H1|]. split; [exact H2|].
      intros k' v' [X|X]; [injection X as <- <-; apply P'; auto|]. apply in_del in X as [X _]. apply P'; auto.
    + split; [exact N|]. split; [exact L|]. intros; apply P'; auto.
  - assert (Hp : last_pushed keqb k (h ++ [CPush k v allow]) = Some v).
    { rewrite last_pushed_snoc. cbn. rewrite (krefl keqb keqb_spec). reflexivity. }
    destruct (dmem keqb k r) eqn:E; cbn [o_state fst].
    + apply (dmem_iff keqb keqb_spec) in E. destruct (Hmove k v E) as [H1 H2]. split; [exact H1|]. split; [exact H2|].
      intros k' v' [X|X]; [injection X as <- <-; exact Hp|]. apply in_del in X as [X Y]. apply P'; auto.
    + apply dmem_false in E.
      assert (Hne : forall x y, In (x, y) r -> x <> k). { intros x y I ->. apply E. apply in_map_iff. exists (k, y). auto. }
      destruct allow; cbn [negb].
      2:{ cbn. split; [exact N|]. split; [exact L|]. intros x y I. apply P'; [eapply Hne; exact I|exact I]. }
      destruct (Z.ltb_spec (zlen r) n) as [Ln|Ln].
      * cbn [o_state fst]. split; [cbn; constructor; assumption|]. split; [rewrite zlen_cons; lia|].
        intros x y [X|X]; [injection X as <- <-; exact Hp|]. apply P'; [eapply Hne; exact X|exact X].
      * destruct (rev r) as [|z q] eqn:Er; cbn [o_state fst].
        { split; [exact N|]. split; [exact L|]. intros x y I. apply P'; [eapply Hne; exact I|exact I]. }
        assert (Hr : r <> []) by (intros ->; discriminate).
        split; [cbn; constructor; [intro X; apply E; rewrite map_removelast in X; apply removelast_in in X; exact X|rewrite map_removelast; apply nodup_removelast; exact N]|].
        split; [rewrite zlen_cons, removelast_len by exact Hr; lia|].
        intros x y [X|X]; [injection X as <- <-; exact Hp|]. apply removelast_in in X. apply P'; [eapply Hne; exact X|exact X].
  - destruct (dget keqb k r) as [v|] eqn:E; cbn [o_state fst].
    + split; [apply del_nodup; exact N|]. split; [pose proof (del_len_le k r); lia|].
      intros k' v' X. apply in_del in X as [X _]. apply P'; auto.
    + split; [exact N|]. split; [exact L|]. intros; apply P'; auto.
  - cbn. split; [constructor|]. split; [unfold zlen; cbn; lia|]. intros k v [].
Qed.

Lemma dropped_in : forall r r' kv, In kv (dropped keqb r r') <-> In kv r /\ ~ In (fst kv) (map fst r').
Proof.
  intros r r' kv. unfold dropped. rewrite filter_In, negb_true_iff, dmem_false. reflexivity.
Qed.

Lemma leaves_unlocked : forall r, leaves (map (@unlocked K V) r) = r.
Proof. intro r. unfold leaves. rewrite map_map. induction r as [|[k v] r IH]; cbn in *; [reflexivity|]. rewrite IH. reflexivity. Qed.

(** What a step of either specification reports is exactly what it drops. *)
Lemma in_uniq : forall r k v w, NoDup (map fst r) -> In (k, v) r -> In (k, w) r -> v = w.
Proof.
  intros r k v w N H1 H2. apply (in_dget keqb keqb_spec) in H1; [|exact N]. apply (in_dget keqb keqb_spec) in H2; [|exact N]. congruence.
Qed.

Definition reports (cb : bool) (op : cop K V) (r r' : list (K * V)) (evs : list (leave K V)) : Prop :=
  NoDup (map fst (leaves evs)) /\
  (if cb && wants_leave op then forall kv, In kv (leaves evs) <-> In kv (dropped keqb r r') else evs = []).

Lemma lru_spec_reports : forall cb n r op r' evs ret, NoDup (map fst r) ->
  lru_spec keqb cb n r op = (r', evs, ret) -> reports cb op r r' evs.
Proof.
  intros cb n r op r' evs ret N H. unfold reports.
  assert (Hno : forall r2, (forall k, In k (map fst r) -> In k (map fst r2)) -> forall kv : K * V, In kv (leaves (@nil (leave K V))) <-> In kv (dropped keqb r r2)).
  { intros r2 X kv. rewrite dropped_in. cbn. split; [tauto|]. intros [Y Z]. apply Z, X. apply in_map. exact Y. }
  assert (Hmv : forall k v, In k (map fst r) -> forall k', In k' (map fst r) -> In k' (map fst ((k, v) :: del keqb k r))).
  { intros k v _ k' Hk'. cbn. rewrite del_keys. destruct (keqb k k') eqn:E; [apply keqb_spec in E; auto|].
    right. split; [exact Hk'|]. intros ->. rewrite (krefl keqb keqb_spec) in E. discriminate. }
  destruct op as [k|k|k v allow|k call|call]; cbn [lru_spec wants_leave] in *; rewrite ?andb_true_r.
  - injection H as <- <- <-. split; [constructor|]. destruct cb; [|reflexivity]. apply Hno. auto.
  - destruct (dget keqb k r) as [v|] eqn:E; injection H as <- <- <-; (split; [constructor|]); (destruct cb; [|reflexivity]); apply Hno; auto.
    apply Hmv. apply (dget_in keqb keqb_spec) in E. apply in_map_iff. exists (k, v). auto.
  - destruct (dmem keqb k r) eqn:E.
    { injection H as <- <- <-. split; [constructor|]. destruct cb; [|reflexivity]. apply Hno. apply Hmv.
      apply (dmem_iff keqb keqb_spec). exact E. }
    apply dmem_false in E. destruct allow; cbn [negb] in H.
    2:{ injection H as <- <- <-. split; [constructor|]. destruct cb; [|reflexivity]. apply Hno. auto. }
    destruct (zlen r <? n).
    { injection H as <- <- <-. split; [constructor|]. destruct cb; [|reflexivity]. apply Hno. cbn. auto. }
    destruct (rev r) as [|z q] eqn:Er.
    { injection H as <- <- <-. split; [constructor|]. destruct cb; [|reflexivity]. apply Hno. auto. }
    injection H as <- <- <-. destruct cb; [|split; [constructor|reflexivity]].
    split; [cbn; constructor; [intros []|constructor]|]. intro kv. rewrite dropped_in.
    apply rev_last in Er. rewrite Er in *. rewrite removelast_last. cbn [leaves map unlocked lv_key lv_val In fst].
    rewrite <- surjective_pairing. rewrite map_app in N, E. cbn [map] in N, E. split.
    + intros [<-|[]]. split; [apply in_elt|]. intros [X|X]; [apply E; rewrite X; apply in_elt|].
      apply NoDup_remove_2 in N. rewrite app_nil_r in N. contradiction.
    + intros [X Y]. apply in_app_or in X as [X|[X|[]]]; [|auto]. exfalso. apply Y. right. apply in_map. exact X.
  - destruct (dget keqb k r) as [v|] eqn:E.
    2:{ injection H as <- <- <-. split; [constructor|]. destruct (cb && call); [|reflexivity]. apply Hno. auto. }
    injection H as <- <- <-. rewrite (andb_comm cb). destruct (call && cb); [|split; [constructor|reflexivity]].
    split; [cbn; constructor; [intros []|constructor]|]. intro kv. rewrite dropped_in, del_keys. cbn.
    pose proof (dget_in keqb keqb_spec _ _ _ E) as I. split.
    + intros [<-|[]]. split; [exact I|]. cbn. tauto.
    + destruct kv as [k' v']. cbn. intros [X Y]. left. destruct (keqb k' k) eqn:Ek.
      { apply keqb_spec in Ek. subst k'. f_equal. eapply in_uniq; eassumption. }
      exfalso. apply Y. split; [apply in_map_iff; exists (k', v'); auto|]. intros ->. rewrite (krefl keqb keqb_spec) in Ek. discriminate.
  - injection H as <- <- <-. rewrite (andb_comm cb). destruct (call && cb); [|split; [constructor|reflexivity]].
    rewrite leaves_unlocked. split; [exact N|]. intro kv. rewrite dropped_in. cbn. tauto.
Qed.

(** ** recency *)
Definition rdel (k : K) (x : list K) : list K := filter (fun k' => negb (keqb k k')) x.
Lemma rdel_notin : forall k x, ~ In k x -> rdel k x = x.
Proof.
  intros k x. unfold rdel. induction x as [|a x IH]; intro H; [reflexivity|]. cbn in *.
  rewrite (kneq keqb keqb_spec) by (intuition congruence). cbn. rewrite IH by tauto. reflexivity.
Qed.
Lemma in_rdel : forall k x y, In y (rdel k x) <-> In y x /\ y <> k.
Proof.
  intros k x y. unfold rdel. rewrite filter_In, negb_true_iff. split; intros [H1 H2]; (split; [exact H1|]).
  - intros ->. rewrite (krefl keqb keqb_spec) in H2. discriminate.
  - apply (kneq keqb keqb_spec). congruence.
Qed.
Lemma rdel_nodup : forall k x, NoDup x -> NoDup (rdel k x).
Proof. intros. apply NoDup_filter. assumption. Qed.
Lemma del_map : forall k r, map fst (del keqb k r) = rdel k (map fst r).
Proof.
  intros k r. unfold del, rdel. induction r as [|[a w] r IH]; [reflexivity|]. cbn. destruct (keqb k a); cbn; [exact IH|rewrite IH; reflexivity].
Qed.
Lemma firstn_rdel : forall m k x, ~ In k (firstn (S m) x) -> firstn m (rdel k x) = firstn m x.
Proof.
  induction m as [|m IH]; intros k x H; [reflexivity|]. destruct x as [|a x]; [reflexivity|].
  cbn [firstn] in H. change (rdel k (a :: x)) with (if negb (keqb k a) then a :: rdel k x else rdel k x).
  rewrite (kneq keqb keqb_spec) by (cbn in H; intuition congruence). cbn [negb firstn]. f_equal. apply IH. cbn [In] in H. tauto.
Qed.
Lemma rdel_firstn : forall x m k, NoDup x -> In k (firstn (S m) x) -> rdel k (firstn (S m) x) = firstn m (rdel k x).
Proof.
  induction x as [|a x IH]; intros m k N H; [destruct H|]. inversion N as [|? ? N1 N2]; subst.
  cbn [firstn] in H |- *. change (rdel k (a :: x)) with (if negb (keqb k a) then a :: rdel k x else rdel k x).
  change (rdel k (a :: firstn m x)) with (if negb (keqb k a) then a :: rdel k (firstn m x) else rdel k (firstn m x)).
  destruct (keqb k a) eqn:E; cbn [negb].
  - apply keqb_spec in E. subst a. rewrite (rdel_notin k x N1). apply rdel_notin. intro X. apply N1.
    rewrite <- (firstn_skipn m x). apply in_or_app. auto.
  - destruct H as [H|H]; [subst; rewrite (krefl keqb keqb_spec) in E; discriminate|].
    destruct m as [|m]; [destruct H|]. rewrite IH by assumption. reflexivity.
Qed.
Lemma recency_snoc : forall us k, recency keqb (us ++ [k]) = k :: rdel k (recency keqb us).
Proof. intros. unfold recency. rewrite fold_left_app. reflexivity. Qed.
Lemma recency_nodup : forall us, NoDup (recency keqb us).
Proof.
  intro us. pattern us. apply rev_ind; [constructor|]. intros k x IH. rewrite recency_snoc. constructor; [|apply rdel_nodup; exact IH].
  rewrite in_rdel. tauto.
Qed.
Lemma removelast_firstn' : forall {A} (x : list A) m, length (firstn (S m) x) = S m -> removelast (firstn (S m) x) = firstn m x.
Proof. intros A x m H. apply removelast_firstn. rewrite firstn_length in H. lia. Qed.

Lemma recent_step : forall m R k keys, NoDup R -> keys = firstn (S m) R ->
  (In k keys -> k :: rdel k keys = firstn (S m) (k :: rdel k R)) /\
  (~ In k keys -> (length keys < S m)%nat -> k :: keys = firstn (S m) (k :: rdel k R)) /\
  (~ In k keys -> (S m <= length keys)%nat -> k :: removelast keys = firstn (S m) (k :: rdel k R)).
Proof.
  intros m R k keys N ->. split; [|split].
  - intro H. change (firstn (S m) (k :: rdel k R)) with (k :: firstn m (rdel k R)). f_equal. apply rdel_firstn; assumption.
  - intros H L. change (firstn (S m) (k :: rdel k R)) with (k :: firstn m (rdel k R)). f_equal.
    rewrite firstn_rdel by exact H. rewrite firstn_length in L. rewrite !firstn_all2 by lia. reflexivity.
  - intros H L. change (firstn (S m) (k :: rdel k R)) with (k :: firstn m (rdel k R)). f_equal.
    rewrite firstn_rdel by exact H. apply removelast_firstn'. pose proof (firstn_le_length (S m) R). lia.
Qed.

Definition use1 (op : cop K V) (x : res (cret V)) : list K :=
  match op, x with CPush k _ _, _ => [k] | CGet k, Ok _ => [k] | _, _ => [] end.
Lemma uses_snoc : forall ops rs op x, length ops = length rs -> uses (ops ++ [op]) (rs ++ [x]) = uses ops rs ++ use1 op x.
Proof.
  induction ops as [|o ops IH]; intros [|y rs] op x L; try discriminate L.
  - destruct op, x; reflexivity.
  - cbn in L. injection L as L. specialize (IH rs op x L). cbn [app uses]. destruct o, y; cbn; rewrite IH; reflexivity.
Qed.

Lemma lru_spec_recent : forall cb m R r op r' evs x, NoDup R -> map fst r = firstn (S m) R -> plain op = true ->
  lru_spec keqb cb (Z.of_nat (S m)) r op = (r', evs, x) ->
  map fst r' = firstn (S m) (fold_left (touch keqb) (use1 op x) R).
Proof.
  intros cb m R r op r' evs x N E P H.
  assert (Hlen : Z.of_nat (length (map fst r)) = zlen r) by (rewrite map_length; reflexivity).
  destruct op as [k|k|k v allow|k call|call]; cbn [lru_spec plain use1] in *; try discriminate P.
  - injection H as <- <- <-. exact E.
  - destruct (recent_step m R k _ N E) as (S1 & S2 & S3). destruct (dget keqb k r) as [v|] eqn:G; injection H as <- <- <-; [|exact E].
    cbn [fold_left map fst]. rewrite del_map. apply S1. apply (dget_in keqb keqb_spec) in G. apply in_map_iff. exists (k, v). auto.
  - subst allow. cbn [negb] in H. destruct (recent_step m R k _ N E) as (S1 & S2 & S3).
    destruct (dmem keqb k r) eqn:D.
    { injection H as <- <- <-. cbn [fold_left map fst]. rewrite del_map. apply S1. apply (dmem_iff keqb keqb_spec). exact D. }
    apply dmem_false in D. destruct (Z.ltb_spec (zlen r) (Z.of_nat (S m))) as [L|L].
    { injection H as <- <- <-. cbn [fold_left map fst]. apply S2; [exact D|lia]. }
    destruct (rev r) as [|z q] eqn:Er.
    { apply (f_equal (@length _)) in Er. rewrite rev_length in Er. unfold zlen in L. cbn in Er. lia. }
    injection H as <- <- <-. cbn [fold_left map fst]. rewrite map_removelast. apply S3; [exact D|lia].
Qed.

Lemma crun_rets_len : forall {S} (step : S -> cop K V -> outcome K V S) ops c, length ops = length (snd (crun step c ops)).
Proof.
  intros S step. induction ops as [|op ops IH]; intro c; [reflexivity|]. cbn [crun]. destruct (step c op) as [[c1 e1] x1].
  specialize (IH c1). destruct (crun step c1 ops) as [[c2 e2] x2]. cbn in *. congruence.
Qed.

Lemma lru_spec_recency : forall cb m ops, forallb plain ops = true ->
  map fst (final (crun (lru_spec keqb cb (Z.of_nat (S m))) [] ops)) =
  firstn (S m) (recency keqb (uses ops (snd (crun (lru_spec keqb cb (Z.of_nat (S m))) [] ops)))).
Proof.
  intros cb m ops. set (st := lru_spec keqb cb (Z.of_nat (S m))).
  pattern ops. apply rev_ind; clear ops.
  - intros _. reflexivity.
  - intros op ops IH P. rewrite forallb_app in P. apply andb_prop in P as [P1 P2]. specialize (IH P1). cbn in P2. rewrite andb_true_r in P2.
    pose proof (crun_rets_len st ops []) as L.
    rewrite crun_app. destruct (crun st [] ops) as [[c1 e1] x1]. cbn [final fst snd crun] in *.
    destruct (st c1 op) as [[c2 e2] x2] eqn:Es. cbn [fst snd]. rewrite uses_snoc by exact L.
    unfold recency. rewrite fold_left_app. fold (recency keqb (uses ops x1)).
    eapply lru_spec_recent; [apply recency_nodup|exact IH|exact P2|exact Es].
Qed.

(** ** one step of the frequency specification *)
Lemma promote_perm : forall acc k r, Permutation r (promote keqb acc k r).
Proof.
  intros acc k r. induction r as [|x [|y r] IH]; try reflexivity.
  change (promote keqb acc k (x :: y :: r)) with
    (if keqb k (fst y) then (if acc (fst x) <? acc k then y :: x :: r else x :: y :: r) else x :: promote keqb acc k (y :: r)).
  destruct (keqb k (fst y)); [destruct (acc (fst x) <? acc k); [constructor|reflexivity]|]. constructor. exact IH.
Qed.
Lemma promote_keys : forall acc k r x, In x (map fst (promote keqb acc k r)) <-> In x (map fst r).
Proof.
  intros. pose proof (Permutation_map fst (promote_perm acc k r)) as P. split; intro H; [eapply Permutation_in; [symmetry; exact P|exact H]|eapply Permutation_in; eassumption].
Qed.
Lemma promote_in : forall acc k r x, In x (promote keqb acc k r) <-> In x r.
Proof.
  intros. pose proof (promote_perm acc k r) as P. split; intro H; [eapply Permutation_in; [symmetry; exact P|exact H]|eapply Permutation_in; eassumption].
Qed.
Lemma promote_nodup : forall acc k r, NoDup (map fst r) -> NoDup (map fst (promote keqb acc k r)).
Proof. intros acc k r H. eapply Permutation_NoDup; [|exact H]. apply Permutation_map. apply promote_perm. Qed.
Lemma promote_len : forall acc k r, zlen (promote keqb acc k r) = zlen r.
Proof. intros. unfold zlen. rewrite <- (Permutation_length (promote_perm acc k r)). reflexivity. Qed.
Lemma update_keys : forall k v r, map fst (update keqb k v r) = map fst r.
Proof.
  intros k v r. unfold update. rewrite map_map. apply map_ext. intros [a w]. cbn. destruct (keqb k a) eqn:E; [|reflexivity].
  apply keqb_spec in E. exact E.
Qed.
Lemma update_in : forall k v r x y, In (x, y) (update keqb k v r) -> (x = k /\ y = v) \/ (x <> k /\ In (x, y) r).
Proof.
  intros k v r x y H. unfold update in H. apply in_map_iff in H as ([a w] & E & H). cbn in E. destruct (keqb k a) eqn:Ek.
  - injection E as <- <-. auto.
  - injection E as -> ->. right. split; [|exact H]. intros ->. rewrite (krefl keqb keqb_spec) in Ek. discriminate.
Qed.

Definition tinv (n : Z) (h : list (cop K V)) (s : list (K * V) * (K -> Z)) : Prop :=
  linv n h (fst s) /\ forall k, snd s k = accesses keqb k h.
Lemma accesses_snoc : forall k (h : list (cop K V)) op, accesses keqb k (h ++ [op]) = access_step keqb k (accesses keqb k h) op.
Proof. intros. unfold accesses. rewrite fold_left_app. reflexivity. Qed.

Lemma keqb_sym : forall a b, keqb a b = keqb b a.
Proof.
  intros a b. destruct (keqb a b) eqn:E; destruct (keqb b a) eqn:F; try reflexivity.
  - apply keqb_spec in E. subst. rewrite (krefl keqb keqb_spec) in F. discriminate.
  - apply keqb_spec in F. subst. rewrite (krefl keqb keqb_spec) in E. discriminate.
Qed.

Lemma top_spec_inv : forall cb n h s op, 0 <= n -> tinv n h s -> tinv n (h ++ [op]) (o_state (top_spec keqb cb n s op)).
Proof.
  intros cb n h [r acc] op Hn [(N & L & P) HA]. cbn [fst snd] in *.
  assert (P' : forall k v, (match op with CPush k' _ _ => k <> k' | _ => True end) -> In (k, v) r -> last_pushed keqb k (h ++ [op]) = Some v).
  { intros k v H I. rewrite last_pushed_snoc. destruct op; cbn [pushed_step]; try (apply P; exact I).
    rewrite (kneq keqb keqb_spec) by exact H. apply P. exact I. }
  assert (HB : forall k v, (op = CGet k \/ exists al, op = CPush k v al) -> forall k', bump keqb acc k k' = accesses keqb k' (h ++ [op])).
  { intros k v H k'. rewrite accesses_snoc, <- HA. unfold bump. destruct H as [->|[al ->]]; cbn [access_step]; rewrite (keqb_sym k' k); reflexivity. }
  destruct op as [k|k|k v allow|k call|call]; cbn [top_spec].
  - split; [split; [exact N|split; [exact L|intros; apply P'; auto]]|]. intro k'. rewrite accesses_snoc. apply HA.
  - set (r1 := promote keqb (bump keqb acc k) k r). cbn [o_state fst]. split; cbn [fst snd].
    + split; [apply promote_nodup; exact N|]. split; [unfold r1; rewrite promote_len; exact L|].
      intros k' v' I. apply promote_in in I. apply P'; auto.
    + assert (X : forall v : V, forall k', bump keqb acc k k' = accesses keqb k' (h ++ [CGet k])) by (intros v k'; apply (HB k v); auto).
      intro k'. rewrite accesses_snoc, <- HA. unfold bump. cbn. rewrite (keqb_sym k' k). reflexivity.
  - assert (Hacc : forall k', bump keqb acc k k' = accesses keqb k' (h ++ [CPush k v allow])) by (apply (HB k v); eauto).
    assert (Hp : last_pushed keqb k (h ++ [CPush k v allow]) = Some v).
    { rewrite last_pushed_snoc. cbn. rewrite (krefl keqb keqb_spec). reflexivity. }
    pose proof (promote_nodup (bump keqb acc k) k r N) as N1. pose proof (promote_len (bump keqb acc k) k r) as L1.
    assert (P1 : forall x y, In (x, y) (promote keqb (bump keqb acc k) k r) -> x <> k -> last_pushed keqb x (h ++ [CPush k v allow]) = Some y).
    { intros x y I X. apply promote_in in I. apply P'; assumption. }
    set (r1 := promote keqb (bump keqb acc k) k r) in *.
    destruct (dmem keqb k r1) eqn:E.
    { split; cbn [o_state fst snd]; [|exact Hacc]. split; [rewrite update_keys; exact N1|]. split; [unfold update; rewrite zlen_map; lia|].
      intros x y I. apply update_in in I as [[-> ->]|[I1 I2]]; [exact Hp|]. apply P1; assumption. }
    apply dmem_false in E.
    assert (Hne : forall x y, In (x, y) r1 -> x <> k). { intros x y I ->. apply E. apply in_map_iff. exists (k, y). auto. }
    destruct (Z.ltb_spec (zlen r1) n) as [Ln|Ln].
    { split; cbn [o_state fst snd]; [|exact Hacc]. split; [rewrite map_app; cbn; eapply Permutation_NoDup; [apply Permutation_cons_append|]; constructor; assumption|].
      split; [rewrite zlen_app, zlen_cons, zlen_nil; lia|]. intros x y I. apply in_app_or in I as [I|[I|[]]]; [apply P1; [exact I|eapply Hne; exact I]|].
      injection I as <- <-. exact Hp. }
    destruct (rev r1) as [|z q] eqn:Er.
    { split; cbn [o_state fst snd]; [|exact Hacc]. split; [exact N1|]. split; [lia|]. intros x y I. apply P1; [exact I|eapply Hne; exact I]. }
    assert (Hr : r1 <> []) by (intros X; rewrite X in Er; discriminate).
    destruct ((bump keqb acc k (fst z) <? bump keqb acc k k) && allow).
    + split; cbn [o_state fst snd]; [|exact Hacc]. split.
      { rewrite map_app. cbn. eapply Permutation_NoDup; [apply Permutation_cons_append|]. rewrite map_removelast. constructor; [|apply nodup_removelast; exact N1].
        intro X. apply removelast_in in X. contradiction. }
      split; [rewrite zlen_app, zlen_cons, zlen_nil, removelast_len by exact Hr; lia|].
      intros x y I. apply in_app_or in I as [I|[I|[]]]; [apply removelast_in in I; apply P1; [exact I|eapply Hne; exact I]|].
      injection I as <- <-. exact Hp.
    + split; cbn [o_state fst snd]; [|exact Hacc]. split; [exact N1|]. split; [lia|]. intros x y I. apply P1; [exact I|eapply Hne; exact I].
  - destruct (dget keqb k r) as [v|] eqn:E; cbn [o_state fst snd].
    + split; cbn [fst snd]; [|intro k'; rewrite accesses_snoc; apply HA]. split; [apply del_nodup; exact N|]. split; [pose proof (del_len_le k r); lia|].
      intros k' v' X. apply in_del in X as [X _]. apply P'; auto.
    + split; cbn [fst snd]; [|intro k'; rewrite accesses_snoc; apply HA]. split; [exact N|]. split; [exact L|]. intros; apply P'; auto.
  - split; cbn [o_state fst snd]; [|intro k'; rewrite accesses_snoc; reflexivity].
    split; [constructor|]. split; [unfold zlen; cbn; lia|]. intros k v [].
Qed.

Lemma top_spec_reports : forall cb n s op s' evs ret, NoDup (map fst (fst s)) ->
  top_spec keqb cb n s op = (s', evs, ret) -> reports cb op (fst s) (fst s') evs.
Proof.
  intros cb n [r acc] op s' evs ret N H. unfold reports. cbn [fst] in *.
  assert (Hno : forall r2 : list (K * V), (forall k, In k (map fst r) -> In k (map fst r2)) -> forall kv : K * V, In kv (leaves (@nil (leave K V))) <-> In kv (dropped keqb r r2)).
  { intros r2 X kv. rewrite dropped_in. cbn. split; [tauto|]. intros [Y Z]. apply Z, X. apply in_map. exact Y. }
  destruct op as [k|k|k v allow|k call|call]; cbn [top_spec wants_leave] in *; rewrite ?andb_true_r.
  - injection H as <- <- <-. split; [constructor|]. destruct cb; [|reflexivity]. apply Hno. auto.
  - injection H as <- <- <-. split; [constructor|]. destruct cb; [|reflexivity]. apply Hno. intros x Hx. cbn [fst]. apply promote_keys. exact Hx.
  - pose proof (promote_nodup (bump keqb acc k) k r N) as N1.
    assert (Hk : forall x, In x (map fst (promote keqb (bump keqb acc k) k r)) <-> In x (map fst r)) by (intro; apply promote_keys).
    assert (Hi : forall x, In x (promote keqb (bump keqb acc k) k r) <-> In x r) by (intro; apply promote_in).
    set (r1 := promote keqb (bump keqb acc k) k r) in *.
    destruct (dmem keqb k r1) eqn:E.
    { injection H as <- <- <-. split; [constructor|]. destruct cb; [|reflexivity]. apply Hno. intros x Hx. cbn [fst]. rewrite update_keys. apply Hk. exact Hx. }
    apply dmem_false in E. destruct (zlen r1 <? n).
    { injection H as <- <- <-. split; [constructor|]. destruct cb; [|reflexivity]. apply Hno. intros x Hx. cbn [fst]. rewrite map_app, in_app_iff, Hk. auto. }
    destruct (rev r1) as [|z q] eqn:Er.
    { injection H as <- <- <-. split; [constructor|]. destruct cb; [|reflexivity]. apply Hno. intros x Hx. cbn [fst]. apply Hk. exact Hx. }
    destruct ((bump keqb acc k (fst z) <? bump keqb acc k k) && allow).
    2:{ injection H as <- <- <-. split; [constructor|]. destruct cb; [|reflexivity]. apply Hno. intros x Hx. cbn [fst]. apply Hk. exact Hx. }
    injection H as <- <- <-. destruct cb; [|split; [constructor|reflexivity]].
    split; [cbn; constructor; [intros []|constructor]|]. intro kv. rewrite dropped_in. cbn [fst]. rewrite <- Hi.
    apply rev_last in Er. rewrite Er in *. rewrite removelast_last. cbn [leaves map lv_key lv_val In fst].
    rewrite <- surjective_pairing. rewrite map_app in N1, E. cbn [map] in N1, E. rewrite map_app, !in_app_iff. cbn [map fst In]. split.
    + intros [<-|[]]. split; [tauto|]. intros [X|[X|[]]]; [|apply E; rewrite X; apply in_elt].
      apply NoDup_remove_2 in N1. rewrite app_nil_r in N1. contradiction.
    + intros [[X|[X|[]]] Y]; [|auto]. exfalso. apply Y. left. apply in_map. exact X.
  - destruct (dget keqb k r) as [v|] eqn:E.
    2:{ injection H as <- <- <-. split; [constructor|]. destruct (cb && call); [|reflexivity]. apply Hno. auto. }
    injection H as <- <- <-. rewrite (andb_comm cb). destruct (call && cb); [|split; [constructor|reflexivity]].
    split; [cbn; constructor; [intros []|constructor]|]. intro kv. cbn [fst]. rewrite dropped_in, del_keys. cbn.
    pose proof (dget_in keqb keqb_spec _ _ _ E) as I. split.
    + intros [<-|[]]. split; [exact I|]. cbn. tauto.
    + destruct kv as [k' v']. cbn. intros [X Y]. left. destruct (keqb k' k) eqn:Ek.
      { apply keqb_spec in Ek. subst k'. f_equal. eapply in_uniq; eassumption. }
      exfalso. apply Y. split; [apply in_map_iff; exists (k', v'); auto|]. intros ->. rewrite (krefl keqb keqb_spec) in Ek. discriminate.
  - injection H as <- <- <-. rewrite (andb_comm cb). destruct (call && cb); [|split; [constructor|reflexivity]].
    rewrite leaves_unlocked. split; [exact N|]. intro kv. rewrite dropped_in. cbn. tauto.
Qed.

(** ** reachable states *)
Lemma lru_reachable : forall cb n ops, 0 <= n -> exists r,
  lru_abs (final (crun (lru_step keqb) (lru_new cb n) ops)) r /\ linv n ops r /\
  l_cb (final (crun (lru_step keqb) (lru_new cb n) ops)) = cb /\ l_max (final (crun (lru_step keqb) (lru_new cb n) ops)) = n /\
  r = final (crun (lru_spec keqb cb n) [] ops).
Proof.
  intros cb n ops Hn. pattern ops. apply rev_ind; clear ops.
  - exists []. split; [apply lru_new_abs|]. split; [split; [constructor|split; [exact Hn|intros k v []]]|]. repeat split.
  - intros op ops (r & A & I & C1 & C2 & E). rewrite !final_snoc. rewrite <- E.
    set (c := final (crun (lru_step keqb) (lru_new cb n) ops)) in *.
    destruct (lru_refines keqb keqb_spec c r op A) as (c' & evs & ret & r' & E1 & S1 & A1 & [D1 D2]).
    pose proof (lru_spec_inv cb n ops r op Hn I) as I1. rewrite C1, C2 in S1. rewrite E1, S1 in *. cbn [o_state fst] in *.
    exists r'. split; [exact A1|]. split; [exact I1|]. split; [congruence|]. split; [congruence|reflexivity].
Qed.

Lemma top_reachable : forall cb n ops, 0 <= n -> exists s,
  top_abs keqb (final (crun (top_step keqb) (top_new cb n) ops)) s /\ tinv n ops s /\
  t_cb (final (crun (top_step keqb) (top_new cb n) ops)) = cb /\ t_max (final (crun (top_step keqb) (top_new cb n) ops)) = n /\
  s = final (crun (top_spec keqb cb n) ([], fun _ => 0) ops).
Proof.
  intros cb n ops Hn. pattern ops. apply rev_ind; clear ops.
  - eexists. split; [apply top_new_abs|]. split; [split; [split; [constructor|split; [exact Hn|intros k v []]]|reflexivity]|]. repeat split.
  - intros op ops (s & A & I & C1 & C2 & E). rewrite !final_snoc. rewrite <- E.
    set (c := final (crun (top_step keqb) (top_new cb n) ops)) in *.
    destruct (top_refines keqb keqb_spec c s op A) as (c' & evs & ret & s' & E1 & S1 & A1 & [D1 D2]).
    pose proof (top_spec_inv cb n ops s op Hn I) as I1. rewrite C1, C2 in S1. rewrite E1, S1 in *. cbn [o_state fst] in *.
    exists s'. split; [exact A1|]. split; [exact I1|]. split; [congruence|]. split; [congruence|reflexivity].
Qed.

Lemma lru_value : forall c r k, lru_abs c r -> value_of (lru_step keqb) c k = dget keqb k r.
Proof.
  intros c r k A. unfold value_of. destruct (lru_refines keqb keqb_spec c r (CGet k) A) as (c' & evs & ret & r' & E1 & S1 & _).
  rewrite E1. cbn [lru_spec] in S1. cbn [o_ret snd]. destruct (dget keqb k r); injection S1 as <- <- <-; reflexivity.
Qed.
Lemma dget_promote : forall acc k k' r, NoDup (map fst r) -> dget keqb k' (promote keqb acc k r) = dget keqb k' r.
Proof.
  intros acc k k' r N. destruct (dget keqb k' r) as [v|] eqn:E.
  - apply (in_dget keqb keqb_spec); [apply promote_nodup; exact N|]. apply promote_in. apply (dget_in keqb keqb_spec). exact E.
  - apply (dget_none keqb keqb_spec). apply (dget_none keqb keqb_spec) in E. rewrite promote_keys. exact E.
Qed.
Lemma top_value : forall (c : top K V) s k, top_abs keqb c s -> value_of (top_step keqb) c k = dget keqb k (fst s).
Proof.
  intros c s k A. unfold value_of. destruct (top_refines keqb keqb_spec c s (CGet k) A) as (c' & evs & ret & r' & E1 & S1 & _).
  rewrite E1. destruct s as [r acc]. cbn [top_spec] in S1. cbn [o_ret snd fst]. injection S1 as <- <- <-.
  rewrite dget_promote by exact (top_abs_nodup keqb c (r, acc) A). destruct (dget keqb k r); reflexivity.
Qed.

Lemma dmem_value : forall k r, dmem keqb k r = true <-> exists v, dget keqb k r = Some v.
Proof. intros k r. unfold dmem. destruct (dget keqb k r); split; eauto; try discriminate. intros [v H]; discriminate. Qed.

(** ** The claims, for both caches. *)
Lemma len_bound : forall (ks : list K) r, NoDup ks -> (forall k, In k ks -> dmem keqb k r = true) -> zlen ks <= zlen r.
Proof.
  intros ks r N H. unfold zlen. apply inj_le. rewrite <- (map_length fst r). apply NoDup_incl_length; [exact N|].
  intros k Hk. apply (dmem_iff keqb keqb_spec). apply H. exact Hk.
Qed.

Lemma lru_get_correct : forall cb n ops, 0 <= n ->
  get_correct keqb (lru_step keqb) (lru_has keqb) ops (final (crun (lru_step keqb) (lru_new cb n) ops)).
Proof.
  intros cb n ops Hn k. destruct (lru_reachable cb n ops Hn) as (r & A & (N & L & P) & _).
  set (c := final (crun (lru_step keqb) (lru_new cb n) ops)) in *.
  destruct (lru_refines keqb keqb_spec c r (CGet k) A) as (c' & evs & ret & r' & E1 & S1 & _). rewrite E1. cbn [o_ret snd].
  rewrite (lru_abs_has keqb keqb_spec c r k A). unfold dmem. cbn [lru_spec] in S1. destruct (dget keqb k r) as [v|] eqn:E; injection S1 as <- <- <-.
  - split; [reflexivity|]. apply P. apply (dget_in keqb keqb_spec). exact E.
  - split; reflexivity.
Qed.
Lemma top_get_correct : forall cb n ops, 0 <= n ->
  get_correct keqb (top_step keqb) (top_has keqb) ops (final (crun (top_step keqb) (top_new cb n) ops)).
Proof.
  intros cb n ops Hn k. destruct (top_reachable cb n ops Hn) as (s & A & [(N & L & P) _] & _).
  set (c := final (crun (top_step keqb) (top_new cb n) ops)) in *.
  destruct (top_refines keqb keqb_spec c s (CGet k) A) as (c' & evs & ret & r' & E1 & S1 & _). rewrite E1. cbn [o_ret snd].
  rewrite (top_abs_has keqb keqb_spec c s k A). destruct s as [r acc]. cbn [fst] in *. unfold dmem. cbn [top_spec] in S1. injection S1 as <- <- <-.
  rewrite dget_promote by exact N. destruct (dget keqb k r) as [v|] eqn:E.
  - split; [reflexivity|]. apply P. apply (dget_in keqb keqb_spec). exact E.
  - split; reflexivity.
Qed.

Lemma lru_bounded : forall cb n ops, 0 <= n -> bounded (lru_has keqb) n (final (crun (lru_step keqb) (lru_new cb n) ops)).
Proof.
  intros cb n ops Hn ks N H. destruct (lru_reachable cb n ops Hn) as (r & A & (N1 & L & P) & _).
  eapply Z.le_trans; [apply (len_bound ks r N)|exact L]. intros k Hk. rewrite <- (lru_abs_has keqb keqb_spec _ r k A). auto.
Qed.
Lemma top_bounded : forall cb n ops, 0 <= n -> bounded (top_has keqb) n (final (crun (top_step keqb) (top_new cb n) ops)).
Proof.
  intros cb n ops Hn ks N H. destruct (top_reachable cb n ops Hn) as (s & A & [(N1 & L & P) _] & _).
  eapply Z.le_trans; [apply (len_bound ks (fst s) N)|exact L]. intros k Hk. rewrite <- (top_abs_has keqb keqb_spec _ s k A). auto.
Qed.

Lemma dropped_value : forall r r' k v, NoDup (map fst r) ->
  In (k, v) (dropped keqb r r') <-> dget keqb k r = Some v /\ dmem keqb k r' = false.
Proof.
  intros r r' k v N. rewrite dropped_in. cbn [fst]. rewrite dmem_false. split; intros [H1 H2]; (split; [|exact H2]).
  - apply (in_dget keqb keqb_spec); assumption.
  - apply (dget_in keqb keqb_spec). exact H1.
Qed.

Lemma lru_leave_exact : forall cb n ops op, 0 <= n ->
  leave_exact (lru_step keqb) (lru_has keqb) cb (final (crun (lru_step keqb) (lru_new cb n) ops)) op.
Proof.
  intros cb n ops op Hn. destruct (lru_reachable cb n ops Hn) as (r & A & (N & L & P) & C1 & C2 & _).
  set (c := final (crun (lru_step keqb) (lru_new cb n) ops)) in *.
  destruct (lru_refines keqb keqb_spec c r op A) as (c' & evs & ret & r' & E1 & S1 & A1 & _). rewrite C1, C2 in S1.
  unfold leave_exact. rewrite E1. cbn [o_leaves o_state fst snd].
  destruct (lru_spec_reports cb n r op r' evs ret N S1) as [H1 H2]. split; [exact H1|].
  destruct (cb && wants_leave op); [|exact H2]. intros k v. rewrite H2, (dropped_value r r' k v N).
  rewrite (lru_value c r k A), (lru_abs_has keqb keqb_spec c' r' k A1). reflexivity.
Qed.
Lemma top_leave_exact : forall cb n ops op, 0 <= n ->
  leave_exact (top_step keqb) (top_has keqb) cb (final (crun (top_step keqb) (top_new cb n) ops)) op.
Proof.
  intros cb n ops op Hn. destruct (top_reachable cb n ops Hn) as (s & A & [(N & L & P) _] & C1 & C2 & _).
  set (c := final (crun (top_step keqb) (top_new cb n) ops)) in *.
  destruct (top_refines keqb keqb_spec c s op A) as (c' & evs & ret & s' & E1 & S1 & A1 & _). rewrite C1, C2 in S1.
  unfold leave_exact. rewrite E1. cbn [o_leaves o_state fst snd].
  destruct (top_spec_reports cb n s op s' evs ret N S1) as [H1 H2]. split; [exact H1|].
  destruct (cb && wants_leave op); [|exact H2]. intros k v. rewrite H2, (dropped_value (fst s) (fst s') k v N).
  rewrite (top_value c s k A), (top_abs_has keqb keqb_spec c' s' k A1). reflexivity.
Qed.

(** A push that returns True leaves the pushed value cached. *)
Lemma dget_update : forall k v r, In k (map fst r) -> dget keqb k (update keqb k v r) = Some v.
Proof.
  intros k v r. unfold update. induction r as [|[a w] r IH]; intro H; [destruct H|]. cbn [map fst]. destruct (keqb k a) eqn:E; cbn [dget].
  - rewrite (krefl keqb keqb_spec). reflexivity.
  - rewrite E. apply IH. destruct H as [H|H]; [cbn in H; subst; rewrite (krefl keqb keqb_spec) in E; discriminate|exact H].
Qed.
Lemma lru_push_cached : forall cb n ops k v allow, 0 <= n ->
  let c := final (crun (lru_step keqb) (lru_new cb n) ops) in
  o_ret (lru_step keqb c (CPush k v allow)) = Ok (RBool true) ->
  value_of (lru_step keqb) (o_state (lru_step keqb c (CPush k v allow))) k = Some v.
Proof.
  intros cb n ops k v allow Hn c. destruct (lru_reachable cb n ops Hn) as (r & A & (N & L & P) & C1 & C2 & _). fold c in A, C1, C2.
  destruct (lru_refines keqb keqb_spec c r (CPush k v allow) A) as (c' & evs & ret & r' & E1 & S1 & A1 & _).
  rewrite E1. cbn [o_ret o_state fst snd]. intros ->. rewrite (lru_value c' r' k A1). cbn [lru_spec] in S1.
  destruct (dmem keqb k r); [injection S1 as <- <-; cbn; rewrite (krefl keqb keqb_spec); reflexivity|].
  destruct allow; cbn [negb] in S1; [|discriminate].
  destruct (zlen r <? l_max c); [injection S1 as <- <-; cbn; rewrite (krefl keqb keqb_spec); reflexivity|].
  destruct (rev r); [discriminate|injection S1 as <- <-; cbn; rewrite (krefl keqb keqb_spec); reflexivity].
Qed.
Lemma top_push_cached : forall cb n ops k v allow, 0 <= n ->
  let c := final (crun (top_step keqb) (top_new cb n) ops) in
  o_ret (top_step keqb c (CPush k v allow)) = Ok (RBool true) ->
  value_of (top_step keqb) (o_state (top_step keqb c (CPush k v allow))) k = Some v.
Proof.
  intros cb n ops k v allow Hn c. destruct (top_reachable cb n ops Hn) as (s & A & [(N & L & P) _] & C1 & C2 & _). fold c in A, C1, C2.
  destruct (top_refines keqb keqb_spec c s (CPush k v allow) A) as (c' & evs & ret & s' & E1 & S1 & A1 & _).
  rewrite E1. cbn [o_ret o_state fst snd]. intros ->. rewrite (top_value c' s' k A1). destruct s as [r acc]. cbn [top_spec] in S1.
  set (r1 := promote keqb (bump keqb acc k) k r) in *.
  destruct (dmem keqb k r1) eqn:E; [injection S1 as <- <-; cbn [fst]; apply dget_update; apply (dmem_iff keqb keqb_spec); exact E|].
  apply dmem_false in E.
  destruct (zlen r1 <? t_max c).
  { injection S1 as <- <-. cbn [fst]. rewrite dget_snoc, (krefl keqb keqb_spec).
    destruct (dget keqb k r1) eqn:G; [|reflexivity]. exfalso. apply E. apply (dget_some_iff keqb keqb_spec). eauto. }
  destruct (rev r1) as [|z q]; [discriminate|]. destruct (_ && allow); [|discriminate].
  injection S1 as <- <-. cbn [fst]. rewrite dget_snoc, (krefl keqb keqb_spec).
  destruct (dget keqb k (removelast r1)) eqn:G; [|reflexivity]. exfalso. apply E.
  apply (dget_in keqb keqb_spec) in G. apply removelast_in in G. apply in_map_iff. exists (k, v0). auto.
Qed.

(** ** what [push] returns *)
Lemma lru_push_tells : forall c r k (v : V) allow b, lru_abs c r -> o_ret (lru_step keqb c (CPush k v allow)) = Ok (RBool b) ->
  lru_has keqb (o_state (lru_step keqb c (CPush k v allow))) k = b /\ (b = true -> value_of (lru_step keqb) (o_state (lru_step keqb c (CPush k v allow))) k = Some v).
Proof.
  intros c r k v allow b A. destruct (lru_refines keqb keqb_spec c r (CPush k v allow) A) as (c' & evs & ret & r' & E1 & S1 & A1 & _).
  rewrite E1. cbn [o_ret o_state fst snd]. intros ->. rewrite (lru_value c' r' k A1), (lru_abs_has keqb keqb_spec _ r' k A1). cbn [lru_spec] in S1. unfold dmem in *.
  destruct (dget keqb k r) eqn:G; [injection S1 as <- <- <-; cbn; rewrite (krefl keqb keqb_spec); auto|].
  destruct allow; cbn [negb] in S1; [|injection S1 as <- <- <-; rewrite G; split; [reflexivity|discriminate]].
  destruct (zlen r <? l_max c); [injection S1 as <- <- <-; cbn; rewrite (krefl keqb keqb_spec); auto|].
  destruct (rev r); [discriminate|injection S1 as <- <- <-; cbn; rewrite (krefl keqb keqb_spec); auto].
Qed.
Lemma top_push_tells : forall c s k (v : V) allow b, top_abs keqb c s -> o_ret (top_step keqb c (CPush k v allow)) = Ok (RBool b) ->
  top_has keqb (o_state (top_step keqb c (CPush k v allow))) k = b /\ (b = true -> value_of (top_step keqb) (o_state (top_step keqb c (CPush k v allow))) k = Some v).
Proof.
  intros c s k v allow b A. destruct (top_refines keqb keqb_spec c s (CPush k v allow) A) as (c' & evs & ret & s' & E1 & S1 & A1 & _).
  rewrite E1. cbn [o_ret o_state fst snd]. intros ->. rewrite (top_value c' s' k A1), (top_abs_has keqb keqb_spec _ s' k A1). destruct s as [r acc]. cbn [top_spec] in S1.
  set (r1 := promote keqb (bump keqb acc k) k r) in *.
  assert (X : forall x, dget keqb k x = Some v -> dmem keqb k x = true) by (intros x Hx; unfold dmem; rewrite Hx; reflexivity).
  destruct (dmem keqb k r1) eqn:E.
  { injection S1 as <- <- <-. cbn [fst]. assert (G : dget keqb k (update keqb k v r1) = Some v) by (apply dget_update; apply (dmem_iff keqb keqb_spec); exact E). auto. }
  pose proof E as E0. apply dmem_false in E. destruct (zlen r1 <? t_max c).
  { injection S1 as <- <- <-. cbn [fst]. assert (G : dget keqb k (r1 ++ [(k, v)]) = Some v); [|auto]. rewrite dget_snoc, (krefl keqb keqb_spec).
    destruct (dget keqb k r1) eqn:G; [|reflexivity]. exfalso. apply E. apply (dget_some_iff keqb keqb_spec). eauto. }
  destruct (rev r1) as [|z q]; [discriminate|]. destruct (_ && allow).
  - injection S1 as <- <- <-. cbn [fst]. assert (G : dget keqb k (removelast r1 ++ [(k, v)]) = Some v); [|auto]. rewrite dget_snoc, (krefl keqb keqb_spec).
    destruct (dget keqb k (removelast r1)) eqn:G; [|reflexivity]. exfalso. apply E.
    apply (dget_in keqb keqb_spec) in G. apply removelast_in in G. apply in_map_iff. exists (k, v0). auto.
  - injection S1 as <- <- <-. cbn [fst]. split; [exact E0|discriminate].
Qed.

(** ** eviction policy of the frequency cache *)
Lemma top_evict : forall cb n ops k v allow e, 0 <= n ->
  let c := final (crun (top_step keqb) (top_new cb n) ops) in
  In e (o_leaves (top_step keqb c (CPush k v allow))) ->
  accesses keqb (lv_key e) ops < accesses keqb k (ops ++ [CPush k v allow]) /\ lv_key e <> k /\ allow = true /\
  exists l, dll_to_list (t_list c) = Ok (l ++ [(lv_key e, lv_val e)]).
Proof.
  intros cb n ops k v allow e Hn c Hi. destruct (top_reachable cb n ops Hn) as (s & A & [(N & L & P) HA] & C1 & C2 & _). fold c in A, C1, C2.
  destruct (top_refines keqb keqb_spec c s (CPush k v allow) A) as (c' & evs & ret & s' & E1 & S1 & A1 & _).
  rewrite E1 in Hi. cbn [o_leaves fst snd] in Hi. rewrite (top_abs_list keqb c s A). destruct s as [r acc]. cbn [fst snd] in *. cbn [top_spec] in S1.
  destruct (dmem keqb k (promote keqb (bump keqb acc k) k r)) eqn:E; [injection S1 as <- <- <-; destruct Hi|].
  apply dmem_false in E. rewrite promote_keys in E. rewrite (promote_absent keqb keqb_spec) in S1 by exact E.
  destruct (zlen r <? t_max c); [injection S1 as <- <- <-; destruct Hi|].
  destruct (rev r) as [|z q] eqn:Er; [injection S1 as <- <- <-; destruct Hi|].
  destruct ((bump keqb acc k (fst z) <? bump keqb acc k k) && allow) eqn:Ec; [|injection S1 as <- <- <-; destruct Hi].
  apply andb_prop in Ec as [Ec ->]. apply Z.ltb_lt in Ec.
  assert (He : e = mkLeave (fst z) (snd z) true). { injection S1 as <- <- <-. destruct (t_cb c); [destruct Hi as [<-|[]]; reflexivity|destruct Hi]. }
  subst e. cbn [lv_key lv_val]. apply rev_last in Er.
  assert (Hz : fst z <> k). { intro X. apply E. rewrite Er, map_app, in_app_iff. right. left. exact X. }
  split; [|split; [exact Hz|split; [reflexivity|exists (rev q); rewrite <- surjective_pairing; f_equal; exact Er]]].
  rewrite accesses_snoc. cbn [access_step]. rewrite (krefl keqb keqb_spec). unfold bump in Ec.
  rewrite (krefl keqb keqb_spec), (kneq keqb keqb_spec) in Ec by congruence. rewrite <- !HA. exact Ec.
Qed.

(** ** locking *)
Lemma lru_unlocked : forall (c : lru K V) op e, In e (o_leaves (lru_step keqb c op)) -> lv_locked e = false.
Proof.
  intros c op e H. destruct op as [k|k|k v allow|k call|call]; cbn [lru_step] in H.
  - destruct H.
  - unfold lru_get in H. destruct (dget keqb k (l_map c)); [|destruct H]. destruct (dll_remove_element (l_list c) n); [|destruct H].
    destruct (elem_value _ _) as [[? ?]|]; destruct H.
  - unfold lru_push in H. destruct (dget keqb k (l_map c)).
    { destruct (dll_remove_element (l_list c) n); destruct H. }
    destruct ((l_max c <=? d_len (l_list c)) && allow).
    { destruct (d_tail (l_list c)); [|destruct H]. destruct (elem_value _ _) as [[ok ov]|]; [|destruct H].
      destruct (dll_remove_last (l_list c)); [|destruct H]. cbn [o_leaves fst snd] in H. destruct (l_cb _); [|destruct H].
      destruct H as [<-|[]]. reflexivity. }
    destruct (negb allow); destruct H.
  - unfold lru_remove in H. destruct (dget keqb k (l_map c)); [|destruct H]. destruct (dll_remove_element (l_list c) n); [|destruct H].
    destruct call; [|destruct H]. destruct (elem_value _ _) as [[k' v']|]; [|destruct H]. cbn [l_cb] in H. destruct (l_cb c); [|destruct H].
    destruct H as [<-|[]]. reflexivity.
  - unfold lru_clear in H. destruct (call && l_cb c); [|destruct H]. destruct (dll_to_list (l_list c)); [|destruct H].
    cbn in H. apply in_map_iff in H as (? & <- & _). reflexivity.
Qed.
Lemma top_unlocked : forall (c : top K V) op e, (forall k v allow, op <> CPush k v allow) -> In e (o_leaves (top_step keqb c op)) -> lv_locked e = false.
Proof.
  intros c op e Hop H. destruct op as [k|k|k v allow|k call|call]; cbn [top_step] in H.
  - destruct H.
  - unfold top_get in H. destruct (top_increment keqb c k) as [c1|]; [|destruct H]. destruct (dget keqb k (t_map c1)); [|destruct H].
    destruct (elem_value _ _) as [[? ?]|]; destruct H.
  - exfalso. eapply Hop. reflexivity.
  - unfold top_remove in H. destruct (dget keqb k (t_map c)); [|destruct H]. destruct (dll_remove_element (t_list c) n); [|destruct H].
    destruct call; [|destruct H]. destruct (elem_value _ _) as [[k' v']|]; [|destruct H]. cbn [t_cb] in H. destruct (t_cb c); [|destruct H].
    destruct H as [<-|[]]. reflexivity.
  - unfold top_clear in H. destruct (call && t_cb c); [|destruct H]. destruct (dll_to_list (t_list c)); [|destruct H].
    cbn in H. apply in_map_iff in H as (? & <- & _). reflexivity.
Qed.

(** ** HybridCache: what still holds *)
Lemma lru_spec_origin : forall cb n r op r' evs ret kv, lru_spec keqb cb n r op = (r', evs, ret) -> In kv r' ->
  In kv r \/ exists k v allow, op = CPush k v allow /\ kv = (k, v).
Proof.
  intros cb n r op r' evs ret kv H I. destruct op as [k|k|k v allow|k call|call]; cbn [lru_spec] in H.
  - injection H as <- <- <-. auto.
  - destruct (dget keqb k r) as [v|] eqn:E; injection H as <- <- <-; [|auto].
    destruct I as [<-|I]; [left; apply (dget_in keqb keqb_spec); exact E|]. apply in_del in I. tauto.
  - destruct (dmem keqb k r); [injection H as <- <- <-; destruct I as [<-|I]; [eauto 8|apply in_del in I; tauto]|].
    destruct (negb allow); [injection H as <- <- <-; auto|].
    destruct (zlen r <? n); [injection H as <- <- <-; destruct I as [<-|I]; [eauto 8|auto]|].
    destruct (rev r); injection H as <- <- <-; [auto|]. destruct I as [<-|I]; [eauto 8|]. apply removelast_in in I. auto.
  - destruct (dget keqb k r); injection H as <- <- <-; [apply in_del in I; tauto|auto].
  - injection H as <- <- <-. destruct I.
Qed.
Lemma top_spec_origin : forall cb n (s : list (K * V) * (K -> Z)) op s' evs ret kv, top_spec keqb cb n s op = (s', evs, ret) -> In kv (fst s') ->
  In kv (fst s) \/ exists k v allow, op = CPush k v allow /\ kv = (k, v).
Proof.
  intros cb n [r acc] op s' evs ret kv H I. cbn [fst]. destruct op as [k|k|k v allow|k call|call]; cbn [top_spec] in H.
  - injection H as <- <- <-. auto.
  - injection H as <- <- <-. cbn in I. apply promote_in in I. auto.
  - destruct (dmem keqb k _).
    { injection H as <- <- <-. cbn [fst] in I. destruct kv as [x y]. apply update_in in I as [[-> ->]|[_ I]]; [eauto 8|]. apply promote_in in I. auto. }
    destruct (_ <? n).
    { injection H as <- <- <-. cbn [fst] in I. apply in_app_or in I as [I|[<-|[]]]; [apply promote_in in I; auto|eauto 8]. }
    destruct (rev _) as [|z q]; [injection H as <- <- <-; cbn in I; apply promote_in in I; auto|].
    destruct (_ && allow); injection H as <- <- <-; cbn [fst] in I.
    + apply in_app_or in I as [I|[<-|[]]]; [apply removelast_in in I; apply promote_in in I; auto|eauto 8].
    + apply promote_in in I. auto.
  - destruct (dget keqb k r); injection H as <- <- <-; cbn [fst] in I; [apply in_del in I; tauto|auto].
  - injection H as <- <- <-. destruct I.
Qed.
Lemma lru_spec_len : forall cb n r op, 0 <= n -> NoDup (map fst r) -> zlen r <= n -> zlen (o_state (lru_spec keqb cb n r op)) <= n.
Proof.
  intros cb n r op Hn N L.
  destruct op as [k|k|k v allow|k call|call]; cbn [lru_spec].
  - exact L.
  - destruct (dget keqb k r) as [v|] eqn:E; cbn [o_state fst]; [|exact L]. rewrite zlen_cons.
    assert (In k (map fst r)) by (apply (dget_some_iff keqb keqb_spec); eauto). pose proof (del_len_lt k r H). lia.
  - destruct (dmem keqb k r) eqn:E; cbn [o_state fst].
    { apply (dmem_iff keqb keqb_spec) in E. pose proof (del_len_lt k r E). rewrite zlen_cons. lia. }
    destruct (negb allow); [exact L|]. destruct (Z.ltb_spec (zlen r) n); cbn [o_state fst]; [rewrite zlen_cons; lia|].
    destruct (rev r) eqn:Er; cbn [o_state fst]; [exact L|]. rewrite zlen_cons, removelast_len; [lia|]. intros ->. discriminate.
  - destruct (dget keqb k r); cbn [o_state fst]; [pose proof (del_len_le k r); lia|exact L].
  - cbn. unfold zlen. cbn. lia.
Qed.
Lemma top_spec_len : forall cb n (s : list (K * V) * (K -> Z)) op, 0 <= n -> NoDup (map fst (fst s)) -> zlen (fst s) <= n -> zlen (fst (o_state (top_spec keqb cb n s op))) <= n.
Proof.
  intros cb n [r acc] op Hn N L. cbn [fst] in *. destruct op as [k|k|k v allow|k call|call]; cbn [top_spec].
  - exact L.
  - cbn [o_state fst]. rewrite promote_len. exact L.
  - pose proof (promote_len (bump keqb acc k) k r) as PL. set (r1 := promote keqb (bump keqb acc k) k r) in *.
    destruct (dmem keqb k r1); cbn [o_state fst]; [unfold update; rewrite zlen_map; lia|].
    destruct (Z.ltb_spec (zlen r1) n); cbn [o_state fst]; [rewrite zlen_app, zlen_cons, zlen_nil; lia|].
    destruct (rev r1) as [|z q] eqn:Er; cbn [o_state fst]; [lia|].
    destruct (_ && allow); cbn [o_state fst]; [|lia]. rewrite zlen_app, zlen_cons, zlen_nil, removelast_len; [lia|]. intros X. rewrite X in Er. discriminate.
  - destruct (dget keqb k r); cbn [o_state fst]; [pose proof (del_len_le k r); lia|exact L].
  - cbn. unfold zlen. cbn. lia.
Qed.

Definition hinv (n : Z) (Q : K * V -> Prop) (c : hybrid K V) : Prop :=
  exists r s, lru_abs (h_last c) r /\ top_abs keqb (h_top c) s /\
    l_max (h_last c) = n /\ t_max (h_top c) = n /\ zlen r <= n /\ zlen (fst s) <= n /\
    (forall kv, In kv r -> Q kv) /\ (forall kv, In kv (fst s) -> Q kv).

Lemma hybrid_inv : forall n (Q : K * V -> Prop) c op, 0 <= n -> (forall k v allow, op = CPush k v allow -> Q (k, v)) -> hinv n Q c ->
  hinv n Q (o_state (hybrid_step keqb c op)).
Proof.
  intros n Q c op Hn Hop (r & s & A & B & M1 & M2 & L1 & L2 & Q1 & Q2).
  assert (LS : forall o r0 l0, lru_abs l0 r0 -> l_max l0 = n -> zlen r0 <= n -> (forall kv, In kv r0 -> Q kv) -> (forall k v al, o = CPush k v al -> Q (k, v)) ->
    exists r', lru_abs (o_state (lru_step keqb l0 o)) r' /\ l_max (o_state (lru_step keqb l0 o)) = n /\ zlen r' <= n /\ (forall kv, In kv r' -> Q kv)).
  { intros o r0 l0 A0 M0 L0 Q0 Ho. destruct (lru_refines keqb keqb_spec l0 r0 o A0) as (c' & evs & ret & r' & E1 & S1 & A1 & [_ D]).
    rewrite E1. cbn [o_state fst]. exists r'. split; [exact A1|]. split; [congruence|].
    pose proof (lru_spec_len (l_cb l0) (l_max l0) r0 o) as LL. rewrite S1, M0 in LL. cbn [o_state fst] in LL.
    split; [apply LL; [lia|exact (lru_abs_nodup l0 r0 A0)|exact L0]|].
    intros kv I. destruct (lru_spec_origin _ _ _ _ _ _ _ _ S1 I) as [I'|(k & v & al & -> & ->)]; [auto|eapply Ho; reflexivity]. }
  assert (TS : forall o, (forall k v al, o = CPush k v al -> Q (k, v)) ->
    exists s', top_abs keqb (o_state (top_step keqb (h_top c) o)) s' /\ t_max (o_state (top_step keqb (h_top c) o)) = n /\ zlen (fst s') <= n /\ (forall kv, In kv (fst s') -> Q kv)).
  { intros o Ho. destruct (top_refines keqb keqb_spec (h_top c) s o B) as (c' & evs & ret & s' & E1 & S1 & A1 & [_ D]).
    rewrite E1. cbn [o_state fst]. exists s'. split; [exact A1|]. split; [congruence|].
    pose proof (top_spec_len (t_cb (h_top c)) (t_max (h_top c)) s o) as LL. rewrite S1, M2 in LL. cbn [o_state fst] in LL.
    split; [apply LL; [lia|exact (top_abs_nodup keqb _ s B)|exact L2]|].
    intros kv I. destruct (top_spec_origin _ _ _ _ _ _ _ _ S1 I) as [I'|(k & v & al & -> & ->)]; [auto|eapply Ho; reflexivity]. }
  assert (Mk : forall cb l t r' s', lru_abs l r' -> l_max l = n -> zlen r' <= n -> (forall kv, In kv r' -> Q kv) ->
     top_abs keqb t s' -> t_max t = n -> zlen (fst s') <= n -> (forall kv, In kv (fst s') -> Q kv) -> hinv n Q (mkHybrid cb l t)).
  { intros. exists r', s'. cbn [h_last h_top]. tauto. }
  destruct op as [k|k|k v allow|k call|call]; cbn [hybrid_step].
  - exists r, s. tauto.
  - unfold hybrid_get. destruct (top_has keqb (h_top c) k).
    { destruct (TS (CGet k)) as (s' & T1 & T2 & T3 & T4); [discriminate|]. cbn [top_step] in *.
      destruct (top_get keqb (h_top c) k) as [[t e] x]. cbn [o_state fst] in *. eapply Mk; eauto. }
    destruct (lru_has keqb (h_last c) k) eqn:Hh; [|exists r, s; tauto].
    destruct (LS (CGet k) r (h_last c) A M1 L1 Q1) as (r' & T1 & T2 & T3 & T4); [discriminate|].
    destruct (lru_refines keqb keqb_spec (h_last c) r (CGet k) A) as (c1 & evs & ret & r1 & E1 & S1 & A1 & _).
    cbn [lru_step lru_spec] in *. rewrite E1 in *. cbn [o_state fst] in *.
    destruct (dget keqb k r) as [v|] eqn:E; injection S1 as <- <- <-; [|eapply Mk; eauto].
    destruct (TS (CPush k v true)) as (s' & U1 & U2 & U3 & U4).
    { intros k0 v0 al X. injection X as <- <- _. apply Q1. apply (dget_in keqb keqb_spec). exact E. }
    cbn [top_step] in *. destruct (top_push keqb (h_top c) k v true) as [[t e] x]. cbn [o_state fst] in *.
    destruct x as [[[|]|?|]|?]; cbn [o_state fst]; try (solve [eapply (Mk _ _ _ r' s'); eauto]).
    destruct (LS (CRemove k true) r' c1 T1 T2 T3 T4) as (r2 & W1 & W2 & W3 & W4); [discriminate|]. cbn [lru_step] in *.
    destruct (lru_remove keqb c1 k true) as [[l2 e2] x2]. cbn [o_state fst] in *. eapply Mk; eauto.
  - unfold hybrid_push. destruct (TS (CPush k v allow) Hop) as (s' & T1 & T2 & T3 & T4). cbn [top_step] in *.
    destruct (top_push keqb (h_top c) k v allow) as [[t e] x]. cbn [o_state fst] in *.
    destruct (LS (CPush k v allow) r (h_last c) A M1 L1 Q1 Hop) as (r' & U1 & U2 & U3 & U4). cbn [lru_step] in *.
    destruct (lru_push keqb (h_last c) k v allow) as [[l2 e2] x2]. cbn [o_state fst] in *.
    destruct x as [[[|]|?|]|?]; cbn [o_state fst]; eapply Mk; eauto.
  - unfold hybrid_remove. destruct (TS (CRemove k call)) as (s' & T1 & T2 & T3 & T4); [discriminate|]. cbn [top_step] in *.
    destruct (top_remove keqb (h_top c) k call) as [[t e] x]. cbn [o_state fst] in *.
    destruct (LS (CRemove k call) r (h_last c) A M1 L1 Q1) as (r' & U1 & U2 & U3 & U4); [discriminate|]. cbn [lru_step] in *.
    destruct (lru_remove keqb (h_last c) k call) as [[l2 e2] x2]. cbn [o_state fst] in *.
    destruct x; cbn [o_state fst]; eapply Mk; eauto.
  - unfold hybrid_clear. destruct (TS (CClear call)) as (s' & T1 & T2 & T3 & T4); [discriminate|]. cbn [top_step] in *.
    destruct (top_clear (h_top c) call) as [[t e] x]. cbn [o_state fst] in *.
    destruct (LS (CClear call) r (h_last c) A M1 L1 Q1) as (r' & U1 & U2 & U3 & U4); [discriminate|]. cbn [lru_step] in *.
    destruct (lru_clear (h_last c) call) as [[l2 e2] x2]. cbn [o_state fst] in *.
    destruct x; cbn [o_state fst]; eapply Mk; eauto.
Qed.

Lemma hinv_weaken : forall n (Q Q' : K * V -> Prop) c, (forall kv, Q kv -> Q' kv) -> hinv n Q c -> hinv n Q' c.
Proof.
  intros n Q Q' c H (r & s & A & B & M1 & M2 & L1 & L2 & Q1 & Q2). exists r, s.
  split; [exact A|]. split; [exact B|]. split; [exact M1|]. split; [exact M2|]. split; [exact L1|]. split; [exact L2|]. split; auto.
Qed.
Lemma hybrid_reachable : forall cb ls ts ops, 0 <= ls ->
  hinv ls (fun kv => ever_pushed (fst kv) (snd kv) ops) (final (crun (hybrid_step keqb) (hybrid_new cb ls ts) ops)).
Proof.
  intros cb ls ts ops Hn. pattern ops. apply rev_ind; clear ops.
  - exists [], ([], fun _ => 0). cbn. split; [apply lru_new_abs|]. split; [apply top_new_abs|].
    split; [reflexivity|]. split; [reflexivity|]. split; [exact Hn|]. split; [exact Hn|]. split; intros kv [].
  - intros op ops IH. rewrite final_snoc. apply hybrid_inv; [exact Hn| |].
    + intros k v allow ->. exists allow. apply in_elt.
    + eapply hinv_weaken; [|exact IH]. intros kv [al H]. exists al. apply in_or_app. auto.
Qed.

Lemma hybrid_get_foreign : forall cb ls ts ops k v, 0 <= ls ->
  value_of (hybrid_step keqb) (final (crun (hybrid_step keqb) (hybrid_new cb ls ts) ops)) k = Some v -> ever_pushed k v ops.
Proof.
  intros cb ls ts ops k v Hn H. destruct (hybrid_reachable cb ls ts ops Hn) as (r & s & A & B & M1 & M2 & L1 & L2 & Q1 & Q2).
  set (c := final (crun (hybrid_step keqb) (hybrid_new cb ls ts) ops)) in *.
  unfold value_of in H. cbn [hybrid_step] in H. unfold hybrid_get in H.
  pose proof (top_value (h_top c) s k B) as TV. pose proof (lru_value (h_last c) r k A) as LV.
  unfold value_of in TV, LV. cbn [top_step lru_step] in TV, LV.
  destruct (top_has keqb (h_top c) k) eqn:Eh.
  - destruct (top_get keqb (h_top c) k) as [[t e] x]. cbn [o_ret snd] in *.
    assert (X : dget keqb k (fst s) = Some v) by (rewrite <- TV; exact H).
    apply (dget_in keqb keqb_spec) in X. apply (Q2 (k, v) X).
  - destruct (lru_has keqb (h_last c) k) eqn:El; [|discriminate H].
    destruct (lru_get keqb (h_last c) k) as [[l e] x]. cbn [o_ret snd] in *.
    destruct x as [[b|w|]|ex]; try discriminate H.
    assert (w = v).
    { destruct (top_push keqb (h_top c) k w true) as [[t e2] x2]. destruct x2 as [[[|]|?|]|?]; cbn [o_ret snd] in H; try congruence.
      destruct (lru_remove keqb l k true) as [[l3 e3] [x3|x3]]; cbn [o_ret snd] in H; congruence. }
    subst w. symmetry in LV. apply (dget_in keqb keqb_spec) in LV. apply (Q1 (k, v) LV).
Qed.

Lemma hybrid_bounded : forall cb ls ts ops, 0 <= ls ->
  bounded (hybrid_has keqb) (2 * ls) (final (crun (hybrid_step keqb) (hybrid_new cb ls ts) ops)).
Proof.
  intros cb ls ts ops Hn ks N H. destruct (hybrid_reachable cb ls ts ops Hn) as (r & s & A & B & M1 & M2 & L1 & L2 & _ & _).
  set (c := final (crun (hybrid_step keqb) (hybrid_new cb ls ts) ops)) in *.
  assert (X : zlen ks <= zlen (r ++ fst s)).
  { apply len_bound; [exact N|]. intros k Hk. specialize (H k Hk). unfold hybrid_has in H. apply orb_prop in H.
    apply (dmem_iff keqb keqb_spec). rewrite map_app, in_app_iff.
    destruct H as [H|H]; [right; rewrite (top_abs_has keqb keqb_spec _ s k B) in H|left; rewrite (lru_abs_has keqb keqb_spec _ r k A) in H];
      apply (dmem_iff keqb keqb_spec); exact H. }
  rewrite zlen_app in X. lia.
Qed.
Lemma hybrid_push_tells : forall cb ls ts ops k (v : V) allow b, 0 <= ls ->
  let c := final (crun (hybrid_step keqb) (hybrid_new cb ls ts) ops) in
  o_ret (hybrid_step keqb c (CPush k v allow)) = Ok (RBool b) ->
  hybrid_has keqb (o_state (hybrid_step keqb c (CPush k v allow))) k = b.
Proof.
  intros cb ls ts ops k v allow b Hn c. destruct (hybrid_reachable cb ls ts ops Hn) as (r & s & A & B & _). fold c in A, B.
  pose proof (top_push_tells (h_top c) s k v allow) as TP. pose proof (lru_push_tells (h_last c) r k v allow) as LP.
  assert (TF : forall t evs x, top_push keqb (h_top c) k v allow = (t, evs, Ok x) -> exists y, x = RBool y).
  { intros t evs x E. destruct (top_refines keqb keqb_spec _ s (CPush k v allow) B) as (c' & evs' & ret & s' & E1 & S1 & _). cbn [top_step] in E1. rewrite E in E1. injection E1 as <- <- <-. destruct s as [q acc]. cbn [top_spec] in S1.
    repeat match type of S1 with context [if ?g then _ else _] => destruct g | context [match rev ?g with _ => _ end] => destruct (rev g) end; try discriminate S1; injection S1 as <- <- <-; eauto. }
  cbn [hybrid_step top_step lru_step] in *. unfold hybrid_push. destruct (top_push keqb (h_top c) k v allow) as [[t evs] [x|e]] eqn:ET; [|discriminate].
  destruct (TF _ _ _ eq_refl) as (y & ->). cbn [o_ret o_state fst snd] in TP. destruct (TP y B eq_refl) as (T1 & T2). clear TF TP.
  destruct y.
  - cbn [o_ret o_state fst snd]. intro Q. injection Q as <-. unfold hybrid_has. cbn [h_top h_last]. rewrite T1. reflexivity.
  - destruct (lru_push keqb (h_last c) k v allow) as [[l evs2] r2] eqn:EL. cbn [o_ret o_state fst snd] in *. intros ->. destruct (LP b A eq_refl) as (L1 & L2). unfold hybrid_has. cbn [h_top h_last]. rewrite T1, L1. reflexivity.
Qed.

(** What leaves both parts of a hybrid cache is reported. *)
Definition hparts (cb : bool) (c : hybrid K V) (r : list (K * V)) (s : list (K * V) * (K -> Z)) : Prop :=
  h_cb c = cb /\ lru_abs (h_last c) r /\ l_cb (h_last c) = true /\ top_abs keqb (h_top c) s /\ t_cb (h_top c) = true.
Definition lost_reported (r r' : list (K * V)) (evs : list (leave K V)) : Prop :=
  forall k v, dget keqb k r = Some v -> dmem keqb k r' = false -> In (k, v) (leaves evs).

Lemma lru_part : forall c r op, lru_abs c r -> l_cb c = true ->
  exists r', lru_abs (o_state (lru_step keqb c op)) r' /\ l_cb (o_state (lru_step keqb c op)) = true /\
    o_leaves (lru_step keqb c op) = snd (fst (lru_spec keqb true (l_max c) r op)) /\ o_ret (lru_step keqb c op) = o_ret (lru_spec keqb true (l_max c) r op) /\ r' = fst (fst (lru_spec keqb true (l_max c) r op)) /\
    (wants_leave op = true -> lost_reported r r' (o_leaves (lru_step keqb c op))) /\
    (wants_leave op = false -> o_leaves (lru_step keqb c op) = []) /\
    (forall kv, In kv (leaves (o_leaves (lru_step keqb c op))) -> In kv r).
Proof.
  intros c r op A C. destruct (lru_refines keqb keqb_spec c r op A) as (c' & evs & ret & r' & E1 & S1 & A1 & [D1 D2]).
  rewrite C in S1. pose proof (lru_abs_nodup c r A) as N. destruct (lru_spec_reports true (l_max c) r op r' evs ret N S1) as [_ H2].
  rewrite E1, S1. cbn [o_state o_leaves o_ret fst snd]. exists r'. split; [exact A1|]. split; [congruence|]. split; [reflexivity|]. split; [reflexivity|]. split; [reflexivity|].
  cbn [andb] in H2. destruct (wants_leave op).
  - split; [|split; [discriminate|intros kv I; apply H2 in I; apply dropped_in in I; tauto]].
    intros _ k v G M. apply H2. apply (dropped_value r r' k v N). auto.
  - subst evs. split; [discriminate|]. split; [reflexivity|]. intros kv [].
Qed.
Lemma top_part : forall (c : top K V) s op, top_abs keqb c s -> t_cb c = true ->
  exists s', top_abs keqb (o_state (top_step keqb c op)) s' /\ t_cb (o_state (top_step keqb c op)) = true /\
    (wants_leave op = true -> lost_reported (fst s) (fst s') (o_leaves (top_step keqb c op))) /\
    (wants_leave op = false -> o_leaves (top_step keqb c op) = []) /\
    (forall kv, In kv (leaves (o_leaves (top_step keqb c op))) -> In kv (fst s)).
Proof.
  intros c s op A C. destruct (top_refines keqb keqb_spec c s op A) as (c' & evs & ret & s' & E1 & S1 & A1 & [D1 D2]).
  rewrite C in S1. pose proof (top_abs_nodup keqb c s A) as N. destruct (top_spec_reports true (t_max c) s op s' evs ret N S1) as [_ H2].
  rewrite E1. cbn [o_state o_leaves fst snd]. exists s'. split; [exact A1|]. split; [congruence|].
  cbn [andb] in H2. destruct (wants_leave op).
  - split; [|split; [discriminate|intros kv I; apply H2 in I; apply dropped_in in I; tauto]].
    intros _ k v G M. apply H2. apply (dropped_value (fst s) (fst s') k v N). auto.
  - subst evs. split; [discriminate|]. split; [reflexivity|]. intros kv [].
Qed.

Lemma leaves_app : forall a b : list (leave K V), leaves (a ++ b) = leaves a ++ leaves b.
Proof. intros a b. unfold leaves. apply map_app. Qed.

Lemma hybrid_part : forall cb c r s op, hparts cb c r s ->
  exists r' s', hparts cb (o_state (hybrid_step keqb c op)) r' s' /\
    (cb = true -> wants_leave op = true -> forall k v,
      (dget keqb k (fst s) = Some v \/ (dget keqb k (fst s) = None /\ dget keqb k r = Some v)) ->
      dmem keqb k r' = false -> dmem keqb k (fst s') = false -> In (k, v) (leaves (o_leaves (hybrid_step keqb c op)))) /\
    (cb && wants_leave op = false -> o_leaves (hybrid_step keqb c op) = []) /\
    (forall kv, In kv (leaves (o_leaves (hybrid_step keqb c op))) -> In kv (r ++ fst s)).
Proof.
  intros cb c r s op (H1 & A & C1 & B & C2).
  assert (FE : forall evs : list (leave K V), cb && wants_leave op = false -> (wants_leave op = false -> evs = []) -> forward (h_cb c) evs = []).
  { intros evs X Y. unfold forward. rewrite H1. destruct cb; [apply Y; exact X|reflexivity]. }
  assert (FI : forall (evs : list (leave K V)) (kv : K * V), In kv (leaves (forward (h_cb c) evs)) -> In kv (leaves evs)).
  { intros evs kv. unfold forward. destruct (h_cb c); [auto|intros []]. }
  assert (FO : forall evs : list (leave K V), cb = true -> forward (h_cb c) evs = evs). { intros evs X. unfold forward. rewrite H1, X. reflexivity. }
  assert (Keep : exists r' s', hparts cb c r' s' /\
    (cb = true -> wants_leave op = true -> forall k v,
      (dget keqb k (fst s) = Some v \/ (dget keqb k (fst s) = None /\ dget keqb k r = Some v)) ->
      dmem keqb k r' = false -> dmem keqb k (fst s') = false -> In (k, v) (leaves (@nil (leave K V)))) /\
    (cb && wants_leave op = false -> @nil (leave K V) = []) /\
    (forall kv, In kv (leaves (@nil (leave K V))) -> In kv (r ++ fst s))).
  { exists r, s. split; [repeat split; assumption|]. split; [|split; [reflexivity|intros kv []]].
    intros _ _ k v X R T. exfalso. unfold dmem in R, T. destruct X as [X|[_ X]]; [rewrite X in T; discriminate T|rewrite X in R; discriminate R]. }
  destruct op as [k0|k0|k0 v0 allow|k0 call|call]; cbn [hybrid_step].
  - exact Keep.
  - unfold hybrid_get. destruct (top_has keqb (h_top c) k0) eqn:Eh.
    { destruct (top_part (h_top c) s (CGet k0) B C2) as (s' & T1 & T2 & T3 & T4 & T5). cbn [top_step wants_leave] in *.
      destruct (top_get keqb (h_top c) k0) as [[t e] x]. cbn [o_state o_leaves fst snd] in *.
      exists r, s'. split; [repeat split; assumption|]. split; [|split].
      - intros X _ k v [Y|[_ Y]] R T; rewrite (FO e X); [exact (T3 eq_refl k v Y T)|]. unfold dmem in R. rewrite Y in R. discriminate R.
      - intros X. apply FE; [exact X|discriminate].
      - intros kv I. apply in_or_app. right. apply T5, FI, I. }
    destruct (lru_has keqb (h_last c) k0) eqn:El; [|exact Keep].
    destruct (lru_part (h_last c) r (CGet k0) A C1) as (r1 & L1 & L2 & L3 & L4 & L5 & L6 & L7 & L8). cbn [lru_step wants_leave] in *.
    rewrite (lru_abs_has keqb keqb_spec _ r k0 A) in El. apply dmem_value in El as (w & El).
    cbn [lru_spec] in L3, L4, L5. rewrite El in L3, L4, L5. cbn [fst snd o_ret] in L3, L4, L5.
    destruct (lru_get keqb (h_last c) k0) as [[l1 e1] x1]. cbn [o_state o_leaves o_ret fst snd] in *. subst e1 x1.
    destruct (top_part (h_top c) s (CPush k0 w true) B C2) as (s' & T1 & T2 & T3 & T4 & T5). cbn [top_step wants_leave] in *.
    assert (TP : forall b, o_ret (top_push keqb (h_top c) k0 w true) = Ok (RBool b) -> top_has keqb (o_state (top_push keqb (h_top c) k0 w true)) k0 = b).
    { intros b E. exact (proj1 (top_push_tells (h_top c) s k0 w true b B E)). }
    destruct (top_push keqb (h_top c) k0 w true) as [[t e2] x2]. cbn [o_state o_leaves o_ret fst snd] in *.
    assert (Common : exists r' s'0, hparts cb (mkHybrid (h_cb c) l1 t) r' s'0 /\
      (cb = true -> true = true -> forall k v,
        (dget keqb k (fst s) = Some v \/ (dget keqb k (fst s) = None /\ dget keqb k r = Some v)) ->
        dmem keqb k r' = false -> dmem keqb k (fst s'0) = false -> In (k, v) (leaves (forward (h_cb c) ([] ++ e2)))) /\
      (cb && true = false -> forward (h_cb c) ([] ++ e2) = []) /\
      (forall kv, In kv (leaves (forward (h_cb c) ([] ++ e2))) -> In kv (r ++ fst s))).
    { exists r1, s'. split; [repeat split; assumption|]. split; [|split].
      - intros X _ k v Y R T. rewrite (FO _ X). cbn [app]. destruct Y as [Y|[_ Y]]; [exact (T3 eq_refl k v Y T)|]. exact (match L6 eq_refl k v Y R with end).
      - intros X. apply FE; [exact X|discriminate].
      - intros kv I. apply in_or_app. right. apply T5. apply FI in I. exact I. }
    destruct x2 as [[[|]|?|]|?]; cbn [o_state o_leaves fst snd]; try exact Common. clear Common.
    destruct (lru_part l1 r1 (CRemove k0 true) L1 L2) as (r2 & W1 & W2 & W3 & W4 & W5 & W6 & W7 & W8). cbn [lru_step wants_leave] in *.
    destruct (lru_remove keqb l1 k0 true) as [[l2 e3] x3]. cbn [o_state o_leaves fst snd] in *.
    exists r2, s'. split; [repeat split; assumption|]. split; [|split].
    + intros X _ k v Y R T. rewrite (FO _ X). cbn [app]. rewrite leaves_app. apply in_or_app. destruct Y as [Y|[_ Y]]; [left; exact (T3 eq_refl k v Y T)|].
      right. apply W6; [reflexivity| |exact R]. destruct (keqb k k0) eqn:Ek.
      * apply keqb_spec in Ek. subst k. rewrite L5. cbn [dget]. rewrite (krefl keqb keqb_spec). congruence.
      * destruct (dmem keqb k r1) eqn:M; [|exact (match L6 eq_refl k v Y M with end)]. apply dmem_value in M as (w' & M). rewrite M. f_equal.
        pose proof (lru_abs_nodup _ _ A) as N. apply (dget_in keqb keqb_spec) in M. rewrite L5 in M. destruct M as [M|M]; [injection M as -> _; rewrite (krefl keqb keqb_spec) in Ek; discriminate Ek|].
        apply in_del in M as [M _]. apply (in_dget keqb keqb_spec) in M; [|exact N]. congruence.
    + intros X. apply FE; [exact X|discriminate].
    + intros kv I. apply FI in I. cbn [app] in I. rewrite leaves_app in I. apply in_or_app. apply in_app_or in I as [I|I]; [right; exact (T5 kv I)|left].
      apply W8 in I. rewrite L5 in I. destruct I as [<-|I]; [apply (dget_in keqb keqb_spec); exact El|]. apply in_del in I. tauto.
  - unfold hybrid_push.
    destruct (top_part (h_top c) s (CPush k0 v0 allow) B C2) as (s' & T1 & T2 & T3 & T4 & T5). cbn [top_step wants_leave] in *.
    destruct (lru_part (h_last c) r (CPush k0 v0 allow) A C1) as (r' & L1 & L2 & _ & _ & _ & L6 & L7 & L8). cbn [lru_step wants_leave] in *.
    destruct (top_push keqb (h_top c) k0 v0 allow) as [[t e] x]. cbn [o_state o_leaves fst snd] in *.
    destruct (lru_push keqb (h_last c) k0 v0 allow) as [[l2 e2] x2]. cbn [o_state o_leaves fst snd] in *.
    assert (One : exists r' s'0, hparts cb (mkHybrid (h_cb c) (h_last c) t) r' s'0 /\
      (cb = true -> true = true -> forall k v,
        (dget keqb k (fst s) = Some v \/ (dget keqb k (fst s) = None /\ dget keqb k r = Some v)) ->
        dmem keqb k r' = false -> dmem keqb k (fst s'0) = false -> In (k, v) (leaves (forward (h_cb c) e))) /\
      (cb && true = false -> forward (h_cb c) e = []) /\
      (forall kv, In kv (leaves (forward (h_cb c) e)) -> In kv (r ++ fst s))).
    { exists r, s'. split; [repeat split; assumption|]. split; [|split].
      - intros X _ k v [Y|[_ Y]] R T; rewrite (FO e X); [exact (T3 eq_refl k v Y T)|]. unfold dmem in R. rewrite Y in R. discriminate R.
      - intros X. apply FE; [exact X|discriminate].
      - intros kv I. apply in_or_app. right. apply T5, FI, I. }
    assert (Two : exists r' s'0, hparts cb (mkHybrid (h_cb c) l2 t) r' s'0 /\
      (cb = true -> true = true -> forall k v,
        (dget keqb k (fst s) = Some v \/ (dget keqb k (fst s) = None /\ dget keqb k r = Some v)) ->
        dmem keqb k r' = false -> dmem keqb k (fst s'0) = false -> In (k, v) (leaves (forward (h_cb c) (e ++ e2)))) /\
      (cb && true = false -> forward (h_cb c) (e ++ e2) = []) /\
      (forall kv, In kv (leaves (forward (h_cb c) (e ++ e2))) -> In kv (r ++ fst s))).
    { exists r', s'. split; [repeat split; assumption|]. split; [|split].
      - intros X _ k v [Y|[_ Y]] R T; rewrite (FO _ X), leaves_app; apply in_or_app; [left; exact (T3 eq_refl k v Y T)|right; exact (L6 eq_refl k v Y R)].
      - intros X. apply FE; [exact X|discriminate].
      - intros kv I. apply FI in I. rewrite leaves_app in I. apply in_or_app. apply in_app_or in I as [I|I]; [right; exact (T5 kv I)|left; exact (L8 kv I)]. }
    destruct x as [[[|]|?|]|?]; cbn [o_state o_leaves fst snd]; first [exact One|exact Two].
  - unfold hybrid_remove.
    destruct (top_part (h_top c) s (CRemove k0 call) B C2) as (s' & T1 & T2 & T3 & T4 & T5). cbn [top_step wants_leave] in *.
    destruct (lru_part (h_last c) r (CRemove k0 call) A C1) as (r' & L1 & L2 & _ & _ & _ & L6 & L7 & L8). cbn [lru_step wants_leave] in *.
    destruct (top_remove keqb (h_top c) k0 call) as [[t e] x]. cbn [o_state o_leaves fst snd] in *.
    destruct (lru_remove keqb (h_last c) k0 call) as [[l2 e2] x2]. cbn [o_state o_leaves fst snd] in *.
    destruct x; cbn [o_state o_leaves fst snd].
    + exists r', s'. split; [repeat split; assumption|]. split; [|split].
      * intros X Z k v [Y|[_ Y]] R T; rewrite (FO _ X), leaves_app; apply in_or_app; [left; exact (T3 Z k v Y T)|right; exact (L6 Z k v Y R)].
      * intros X. apply FE; [exact X|]. intro Z. rewrite (T4 Z), (L7 Z). reflexivity.
      * intros kv I. apply FI in I. rewrite leaves_app in I. apply in_or_app. apply in_app_or in I as [I|I]; [right; exact (T5 kv I)|left; exact (L8 kv I)].
    + exists r, s'. split; [repeat split; assumption|]. split; [|split].
      * intros X Z k v [Y|[_ Y]] R T; rewrite (FO e X); [exact (T3 Z k v Y T)|]. unfold dmem in R. rewrite Y in R. discriminate R.
      * intros X. apply FE; [exact X|exact T4].
      * intros kv I. apply in_or_app. right. apply T5, FI, I.
  - unfold hybrid_clear.
    destruct (top_part (h_top c) s (CClear call) B C2) as (s' & T1 & T2 & T3 & T4 & T5). cbn [top_step wants_leave] in *.
    destruct (lru_part (h_last c) r (CClear call) A C1) as (r' & L1 & L2 & _ & _ & _ & L6 & L7 & L8). cbn [lru_step wants_leave] in *.
    destruct (top_clear (h_top c) call) as [[t e] x]. cbn [o_state o_leaves fst snd] in *.
    destruct (lru_clear (h_last c) call) as [[l2 e2] x2]. cbn [o_state o_leaves fst snd] in *.
    destruct x; cbn [o_state o_leaves fst snd].
    + exists r', s'. split; [repeat split; assumption|]. split; [|split].
      * intros X Z k v [Y|[_ Y]] R T; rewrite (FO _ X), leaves_app; apply in_or_app; [left; exact (T3 Z k v Y T)|right; exact (L6 Z k v Y R)].
      * intros X. apply FE; [exact X|]. intro Z. rewrite (T4 Z), (L7 Z). reflexivity.
      * intros kv I. apply FI in I. rewrite leaves_app in I. apply in_or_app. apply in_app_or in I as [I|I]; [right; exact (T5 kv I)|left; exact (L8 kv I)].
    + exists r, s'. split; [repeat split; assumption|]. split; [|split].
      * intros X Z k v [Y|[_ Y]] R T; rewrite (FO e X); [exact (T3 Z k v Y T)|]. unfold dmem in R. rewrite Y in R. discriminate R.
      * intros X. apply FE; [exact X|exact T4].
      * intros kv I. apply in_or_app. right. apply T5, FI, I.
Qed.

Lemma hybrid_parts_reachable : forall cb ls ts ops, exists r s,
  hparts cb (final (crun (hybrid_step keqb) (hybrid_new cb ls ts) ops)) r s.
Proof.
  intros cb ls ts ops. pattern ops. apply rev_ind; clear ops.
  - exists [], ([], fun _ => 0). cbn. split; [reflexivity|]. split; [apply lru_new_abs|]. split; [reflexivity|]. split; [apply top_new_abs|reflexivity].
  - intros op ops (r & s & IH). rewrite final_snoc. destruct (hybrid_part _ _ _ _ op IH) as (r' & s' & X & _). eauto.
Qed.

Lemma hybrid_value : forall cb c r s k, hparts cb c r s -> (lru_has keqb (h_last c) k = true -> 0 < t_max (h_top c)) ->
  value_of (hybrid_step keqb) c k = match dget keqb k (fst s) with Some v => Some v | None => dget keqb k r end /\
  (hybrid_has keqb c k = false -> hybrid_step keqb c (CGet k) = (c, [], Err KeyError)) /\
  (hybrid_has keqb c k = true -> exists v, o_ret (hybrid_step keqb c (CGet k)) = Ok (RVal v)).
Proof.
  intros cb c r s k (H1 & A & C1 & B & C2) HM. rewrite (lru_abs_has keqb keqb_spec _ r k A) in HM. unfold value_of, hybrid_has. cbn [hybrid_step]. unfold hybrid_get.
  pose proof (top_value (h_top c) s k B) as TV. unfold value_of in TV. cbn [top_step] in TV.
  rewrite (top_abs_has keqb keqb_spec _ s k B), (lru_abs_has keqb keqb_spec _ r k A). unfold dmem.
  destruct (dget keqb k (fst s)) as [v|] eqn:E.
  { destruct (top_get keqb (h_top c) k) as [[t e] x]. cbn [o_ret snd orb] in *. split; [exact TV|]. split; [discriminate|]. intros _. destruct x as [[?|w|]|?]; try discriminate TV. eauto. }
  cbn [orb].
  destruct (lru_part (h_last c) r (CGet k) A C1) as (r1 & L1 & L2 & L3 & L4 & L5 & _). cbn [lru_step lru_spec] in *.
  destruct (dget keqb k r) as [v|] eqn:E2; [|split; [reflexivity|split; [reflexivity|discriminate]]].
  cbn [fst snd o_ret] in *. destruct (lru_get keqb (h_last c) k) as [[l1 e1] x1]. cbn [o_state o_leaves o_ret fst snd] in *. subst x1.
  assert (TK : exists b, o_ret (top_push keqb (h_top c) k v true) = Ok (RBool b)).
  { destruct (top_refines keqb keqb_spec _ s (CPush k v true) B) as (c' & evs' & ret & s' & E1 & S1 & _). cbn [top_step] in E1. rewrite E1. cbn [o_ret snd]. destruct s as [q acc]. cbn [top_spec] in S1.
    destruct (dmem keqb k (promote keqb (bump keqb acc k) k q)); [injection S1 as <- <- <-; eexists; reflexivity|].
    destruct (Z.ltb_spec (zlen (promote keqb (bump keqb acc k) k q)) (t_max (h_top c))) as [_|Lz]; [injection S1 as <- <- <-; eexists; reflexivity|].
    destruct (rev (promote keqb (bump keqb acc k) k q)) as [|z q'] eqn:Er.
    { exfalso. assert (X : promote keqb (bump keqb acc k) k q = []) by (destruct (promote keqb (bump keqb acc k) k q) as [|a b]; [reflexivity|cbn [rev] in Er; symmetry in Er; apply app_cons_not_nil in Er; destruct Er]).
      rewrite X, zlen_nil in Lz. assert (0 < t_max (h_top c)) by (apply HM; unfold dmem; rewrite E2; reflexivity). lia. }
    destruct (_ && _); injection S1 as <- <- <-; eexists; reflexivity. }
  destruct (top_push keqb (h_top c) k v true) as [[t e2] x2]. cbn [o_ret snd] in TK. destruct TK as (b & ->).
  destruct b; [|cbn [o_ret snd]; split; [reflexivity|split; [discriminate|intros _; eexists; reflexivity]]].
  destruct (lru_part l1 r1 (CRemove k true) L1 L2) as (r2 & W1 & W2 & W3 & W4 & W5 & _). cbn [lru_step lru_spec] in *.
  rewrite L5 in W4. cbn [dget] in W4. rewrite (krefl keqb keqb_spec) in W4. cbn [o_ret snd] in W4.
  destruct (lru_remove keqb l1 k true) as [[l2 e3] x3]. cbn [o_ret snd] in *. subst x3. split; [reflexivity|]. split; [discriminate|intros _; eexists; reflexivity].
Qed.

Lemma hybrid_room : forall cb ls ts ops k, 0 <= ls ->
  lru_has keqb (h_last (final (crun (hybrid_step keqb) (hybrid_new cb ls ts) ops))) k = true ->
  0 < t_max (h_top (final (crun (hybrid_step keqb) (hybrid_new cb ls ts) ops))).
Proof.
  intros cb ls ts ops k Hn H. destruct (hybrid_reachable cb ls ts ops Hn) as (r & s & A & B & M1 & M2 & L1 & _).
  rewrite (lru_abs_has keqb keqb_spec _ r k A) in H. rewrite M2. destruct r as [|x r]; [discriminate H|]. rewrite zlen_cons in L1. pose proof (zlen_nonneg r). lia.
Qed.

Lemma hybrid_leave : forall cb ls ts ops op, 0 <= ls ->
  let c := final (crun (hybrid_step keqb) (hybrid_new cb ls ts) ops) in
  let c' := o_state (hybrid_step keqb c op) in
  let evs := o_leaves (hybrid_step keqb c op) in
  (if cb && wants_leave op
   then (forall k v, value_of (hybrid_step keqb) c k = Some v -> hybrid_has keqb c' k = false -> In (k, v) (leaves evs)) /\
        (forall k v, In (k, v) (leaves evs) -> hybrid_has keqb c k = true)
   else evs = []).
Proof.
  intros cb ls ts ops op Hn c c' evs. pose proof (fun k => hybrid_room cb ls ts ops k Hn) as HR. fold c in HR. destruct (hybrid_parts_reachable cb ls ts ops) as (r & s & H). fold c in H.
  destruct (hybrid_part _ _ _ _ op H) as (r' & s' & H' & P1 & P2 & P3). fold c' in H'. fold evs in P1, P2, P3.
  destruct (cb && wants_leave op) eqn:E; [|exact (P2 eq_refl)]. apply andb_prop in E as [-> E]. split.
  - intros k v V1 V2. destruct (hybrid_value _ _ _ _ k H (HR k)) as [HV _]. rewrite HV in V1.
    destruct H' as (_ & A' & _ & B' & _). unfold hybrid_has in V2. rewrite (top_abs_has keqb keqb_spec _ s' k B'), (lru_abs_has keqb keqb_spec _ r' k A') in V2.
    apply orb_false_elim in V2 as [V2 V3]. apply (P1 eq_refl E); [|exact V3|exact V2]. destruct (dget keqb k (fst s)); [left; congruence|right; split; [reflexivity|exact V1]].
  - intros k v I. apply P3 in I. destruct H as (_ & A & _ & B & _). unfold hybrid_has. rewrite (top_abs_has keqb keqb_spec _ s k B), (lru_abs_has keqb keqb_spec _ r k A).
    apply in_app_or in I as [I|I]; apply orb_true_iff; [right|left]; apply (dmem_iff keqb keqb_spec); apply in_map_iff; exists (k, v); auto.
Qed.
End Facts.
