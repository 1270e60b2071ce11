From Coq Require Import List ZArith Bool Lia Sorted.
From Coq Require Import ZifyBool ZifyNat.
From Verif Require Import Base BaseProofs Dict Reader ReaderSpec Decompressors DecompressorsProofs Infobyte InfobyteProofs Blob BlobProofs Cluster ClusterSpec ClusterProofs ClusterWrapper ClusterWrapperSpec.
Import ListNotations.
Open Scope Z_scope.

(** ** Lists *)
Lemma znth_some : forall {A} (l : list A) i x, znth l i = Some x -> 0 <= i < zlen l.
Proof.
  intros A l i x H. unfold znth in H. destruct (Z.ltb_spec i 0); [discriminate|].
  assert (H' : nth_error l (Z.to_nat i) <> None) by congruence. apply nth_error_Some in H'. unfold zlen. lia.
Qed.
Lemma znth_in : forall {A} (l : list A) i, 0 <= i < zlen l -> exists x, znth l i = Some x.
Proof.
  intros A l i H. unfold znth. destruct (Z.ltb_spec i 0); [lia|]. destruct (nth_error l (Z.to_nat i)) eqn:E; [eauto|].
  apply nth_error_None in E. unfold zlen in H. lia.
Qed.
Lemma znth_none : forall {A} (l : list A) i, zlen l <= i -> znth l i = None.
Proof. intros A l i H. unfold znth. destruct (Z.ltb_spec i 0); [reflexivity|]. apply nth_error_None. unfold zlen in H. lia. Qed.
Lemma znth_ext : forall {A} (l r : list A), zlen l = zlen r -> (forall i, 0 <= i < zlen l -> znth l i = znth r i) -> l = r.
Proof.
  intros A l r HL H. apply nth_error_ext. intros i. destruct (Nat.lt_ge_cases i (length l)) as [L|L].
  - specialize (H (Z.of_nat i)). unfold znth, zlen in *. destruct (Z.ltb_spec (Z.of_nat i) 0); [lia|]. rewrite Nat2Z.id in H. apply H. lia.
  - unfold zlen in HL. rewrite (proj2 (nth_error_None l i)) by lia. symmetry. apply nth_error_None. lia.
Qed.
Lemma znth_app : forall {A} (l r : list A) i, znth (l ++ r) i = if i <? zlen l then znth l i else znth r (i - zlen l).
Proof.
  intros A l r i. unfold znth. pose proof (zlen_nonneg l). destruct (Z.ltb_spec i 0).
  - destruct (Z.ltb_spec i (zlen l)); [reflexivity|lia].
  - destruct (Z.ltb_spec i (zlen l)); unfold zlen in *.
    + apply nth_error_app1. lia.
    + destruct (Z.ltb_spec (i - Z.of_nat (length l)) 0); [lia|]. rewrite nth_error_app2 by lia. f_equal. lia.
Qed.
Lemma znth_cons : forall {A} (x : A) l i, znth (x :: l) i = if i =? 0 then Some x else znth l (i - 1).
Proof.
  intros A x l i. unfold znth. destruct (Z.ltb_spec i 0); [destruct (Z.eqb_spec i 0); [lia|]; destruct (Z.ltb_spec (i - 1) 0); [reflexivity|lia]|].
  destruct (Z.eqb_spec i 0); [subst; reflexivity|]. destruct (Z.ltb_spec (i - 1) 0); [lia|].
  replace (Z.to_nat i) with (S (Z.to_nat (i - 1))) by lia. reflexivity.
Qed.
Lemma znth_ztake : forall {A} (l : list A) k i, 0 <= k -> znth (ztake k l) i = if i <? k then znth l i else None.
Proof.
  intros A l k i Hk. unfold znth, ztake. destruct (Z.ltb_spec i 0); [destruct (i <? k); reflexivity|].
  rewrite nth_error_firstn. destruct (Z.ltb_spec i k); destruct (Nat.ltb_spec (Z.to_nat i) (Z.to_nat k)); try lia; reflexivity.
Qed.
Lemma znth_zskip : forall {A} (l : list A) k i, 0 <= k -> 0 <= i -> znth (zskip k l) i = znth l (i + k).
Proof.
  intros A l k i Hk Hi. unfold znth, zskip. destruct (Z.ltb_spec i 0); [lia|]. destruct (Z.ltb_spec (i + k) 0); [lia|].
  rewrite nth_error_skipn. f_equal. lia.
Qed.
Lemma replace_len : forall {A} i (x : A) l, 0 <= i <= zlen l -> zlen (replace_at i x l) = if i =? zlen l then zlen l + 1 else zlen l.
Proof.
  intros A i x l H. unfold replace_at. rewrite zlen_app, zlen_cons, ztake_len, zskip_len by lia. destruct (Z.eqb_spec i (zlen l)); lia.
Qed.
Lemma replace_nth : forall {A} i (x : A) l j, 0 <= i <= zlen l -> znth (replace_at i x l) j = if j =? i then Some x else znth l j.
Proof.
  intros A i x l j H. unfold replace_at. rewrite znth_app, ztake_len, Z.min_l by lia. destruct (Z.ltb_spec j i).
  - rewrite znth_ztake by lia. destruct (Z.ltb_spec j i); [|lia]. destruct (Z.eqb_spec j i); [lia|reflexivity].
  - rewrite znth_cons. destruct (Z.eqb_spec j i); destruct (Z.eqb_spec (j - i) 0); try lia; [reflexivity|].
    rewrite znth_zskip by lia. f_equal. lia.
Qed.
Lemma remove_len : forall {A} i (l : list A), 0 <= i < zlen l -> zlen (remove_at i l) = zlen l - 1.
Proof. intros A i l H. unfold remove_at. rewrite zlen_app, ztake_len, zskip_len by lia. lia. Qed.
Lemma remove_nth : forall {A} i (l : list A) j, 0 <= i < zlen l -> znth (remove_at i l) j = if j <? i then znth l j else znth l (j + 1).
Proof.
  intros A i l j H. unfold remove_at. rewrite znth_app, ztake_len, Z.min_l by lia. destruct (Z.ltb_spec j i).
  - rewrite znth_ztake by lia. destruct (Z.ltb_spec j i); [reflexivity|lia].
  - rewrite znth_zskip by lia. f_equal. lia.
Qed.
Lemma append_replace : forall {A} (x : A) l, replace_at (zlen l) x l = l ++ [x].
Proof. intros A x l. unfold replace_at. rewrite ztake_all by lia. rewrite zskip_all by lia. reflexivity. Qed.
Lemma zrange_len : forall n, 0 <= n -> zlen (zrange n) = n.
Proof. intros n H. unfold zrange, zlen. rewrite map_length, seq_length. lia. Qed.
Lemma zrange_nth : forall n i, 0 <= i < n -> znth (zrange n) i = Some i.
Proof.
  intros n i H. unfold znth, zrange. destruct (Z.ltb_spec i 0); [lia|].
  rewrite nth_error_map. rewrite (nth_error_nth' _ 0%nat) by (rewrite seq_length; lia). rewrite seq_nth by lia. cbn. f_equal. lia.
Qed.
Lemma zrange_in : forall n i, In i (zrange n) <-> 0 <= i < n.
Proof.
  intros n i. unfold zrange. rewrite in_map_iff. split.
  - intros (k & <- & H). apply in_seq in H. lia.
  - intros H. exists (Z.to_nat i). split; [lia|]. apply in_seq. lia.
Qed.

(** ** Adjusting indices *)
Definition rsorted (l : list Z) : Prop := StronglySorted Z.lt l.

Lemma adjust_cons : forall r R i, adjust (r :: R) i = adjust R (if r <=? i then i + 1 else i).
Proof. reflexivity. Qed.
Lemma adjust_ge : forall R i, i <= adjust R i.
Proof. induction R as [|r R IH]; intros i; [cbn; lia|]. rewrite adjust_cons. destruct (Z.leb_spec r i); [specialize (IH (i + 1))|specialize (IH i)]; lia. Qed.
Lemma adjust_below : forall R i, Forall (fun r => i < r) R -> adjust R i = i.
Proof.
  induction R as [|r R IH]; intros i H; [reflexivity|]. inversion H; subst. rewrite adjust_cons. destruct (Z.leb_spec r i); [lia|]. apply IH. assumption.
Qed.
Lemma adjust_mono : forall R i j, i < j -> adjust R i < adjust R j.
Proof.
  induction R as [|r R IH]; intros i j H; [exact H|]. rewrite !adjust_cons. apply IH. destruct (Z.leb_spec r i); destruct (Z.leb_spec r j); lia.
Qed.
Lemma rsorted_cons : forall r R, rsorted (r :: R) -> rsorted R /\ Forall (fun x => r < x) R.
Proof. intros r R H. inversion H; subst. auto. Qed.
Lemma Forall_lt_trans : forall (R : list Z) i j, i <= j -> Forall (fun r => j < r) R -> Forall (fun r => i < r) R.
Proof. intros R i j H F. eapply Forall_impl; [|exact F]. cbn. lia. Qed.
Lemma adjust_not_in : forall R i, rsorted R -> ~ In (adjust R i) R.
Proof.
  induction R as [|r R IH]; intros i S1 H; [inversion H|]. apply rsorted_cons in S1 as (S1 & F). rewrite adjust_cons in H.
  destruct (Z.leb_spec r i); destruct H as [H|H].
  - pose proof (adjust_ge R (i + 1)). lia.
  - exact (IH _ S1 H).
  - pose proof (adjust_below R i (Forall_lt_trans R i r ltac:(lia) F)). lia.
  - exact (IH _ S1 H).
Qed.
Lemma zinsert_in : forall x l y, In y (zinsert x l) <-> y = x \/ In y l.
Proof.
  induction l as [|z l IH]; intros y; cbn [zinsert]; [cbn; intuition|]. destruct (x <=? z); cbn; [intuition|]. rewrite IH. intuition.
Qed.
Lemma zinsert_sorted : forall x l, rsorted l -> ~ In x l -> rsorted (zinsert x l).
Proof.
  induction l as [|z l IH]; intros H N; cbn [zinsert]; [repeat constructor|]. apply rsorted_cons in H as (H & F).
  destruct (Z.leb_spec x z).
  - constructor; [constructor; assumption|]. constructor; [cbn in N; lia|]. eapply Forall_lt_trans; [|exact F]. lia.
  - constructor; [apply IH; cbn in N; auto|]. apply Forall_forall. intros y Hy. apply zinsert_in in Hy as [->|Hy]; [lia|].
    rewrite Forall_forall in F. exact (F y Hy).
Qed.
Lemma zinsert_len : forall x l, zlen (zinsert x l) = zlen l + 1.
Proof. induction l as [|z l IH]; cbn [zinsert]; [reflexivity|]. destruct (x <=? z); rewrite !zlen_cons in *; [|rewrite IH]; lia. Qed.
Lemma zinsert_comm : forall x y l, zinsert x (zinsert y l) = zinsert y (zinsert x l).
Proof.
  intros x y l. induction l as [|z l IH]; cbn [zinsert].
  - destruct (Z.leb_spec x y); destruct (Z.leb_spec y x); try reflexivity; try lia. replace y with x by lia. reflexivity.
  - destruct (Z.leb_spec y z); destruct (Z.leb_spec x z); cbn [zinsert].
    + destruct (Z.leb_spec x y); destruct (Z.leb_spec y x); try lia.
      * replace y with x by lia. reflexivity.
      * destruct (Z.leb_spec y z); [|lia]. reflexivity.
      * destruct (Z.leb_spec x z); [|lia]. reflexivity.
    + destruct (Z.leb_spec x y); [lia|]. destruct (Z.leb_spec y z); [|lia]. destruct (Z.leb_spec x z); [lia|]. reflexivity.
    + destruct (Z.leb_spec y x); [lia|]. destruct (Z.leb_spec x z); [|lia]. destruct (Z.leb_spec y z); [lia|]. reflexivity.
    + destruct (Z.leb_spec y z); [lia|]. destruct (Z.leb_spec x z); [lia|]. rewrite IH. reflexivity.
Qed.
Lemma zsort_sorted : forall l, rsorted l -> zsort l = l.
Proof.
  induction l as [|x l IH]; intros H; [reflexivity|]. apply rsorted_cons in H as (H & F). unfold zsort in *. cbn [fold_right]. rewrite IH by exact H.
  destruct l as [|y l]; [reflexivity|]. cbn [zinsert]. inversion F; subst. destruct (Z.leb_spec x y); [reflexivity|lia].
Qed.
Lemma zsort_app : forall l x, rsorted l -> zsort (l ++ [x]) = zinsert x l.
Proof.
  intros l x H. rewrite <- (zsort_sorted l H) at 2. clear H. unfold zsort. rewrite fold_right_app. cbn [fold_right zinsert].
  induction l as [|y l IH]; [reflexivity|]. cbn [fold_right]. rewrite IH. apply zinsert_comm.
Qed.
Lemma adjust_insert : forall R i j, rsorted R ->
  adjust (zinsert (adjust R i) R) j = if j <? i then adjust R j else adjust R (j + 1).
Proof.
  induction R as [|r R IH]; intros i j H.
  - cbn. destruct (Z.leb_spec i j); destruct (Z.ltb_spec j i); try lia; reflexivity.
  - apply rsorted_cons in H as (H & F). rewrite (adjust_cons r R i). destruct (Z.leb_spec r i) as [L|L].
    + cbn [zinsert]. pose proof (adjust_ge R (i + 1)). destruct (Z.leb_spec (adjust R (i + 1)) r); [lia|].
      rewrite !adjust_cons. destruct (Z.leb_spec r j) as [L2|L2].
      * rewrite IH by exact H. destruct (Z.leb_spec r (j + 1)); [|lia].
        destruct (Z.ltb_spec (j + 1) (i + 1)); destruct (Z.ltb_spec j i); try lia; reflexivity.
      * destruct (Z.ltb_spec j i); [|lia]. rewrite !adjust_below; [reflexivity| |].
        -- eapply Forall_lt_trans; [|exact F]. lia.
        -- apply Forall_forall. intros y Hy. apply zinsert_in in Hy as [->|Hy]; [lia|]. rewrite Forall_forall in F. specialize (F y Hy). lia.
    + assert (A : adjust R i = i) by (apply adjust_below; eapply Forall_lt_trans; [|exact F]; lia). rewrite A.
      cbn [zinsert]. destruct (Z.leb_spec i r); [|lia]. rewrite (adjust_cons i). destruct (Z.leb_spec i j); destruct (Z.ltb_spec j i); try lia; reflexivity.
Qed.
Lemma zremove_notin : forall x l, ~ In x l -> zremove x l = l.
Proof.
  induction l as [|y l IH]; intros H; [reflexivity|]. cbn [zremove]. destruct (Z.eqb_spec y x); [exfalso; apply H; left; assumption|].
  f_equal. apply IH. intro; apply H; right; assumption.
Qed.
Lemma zremove_len : forall x l, In x l -> zlen (zremove x l) = zlen l - 1.
Proof.
  induction l as [|y l IH]; intros H; [inversion H|]. cbn [zremove]. destruct (Z.eqb_spec y x); rewrite !zlen_cons; [lia|].
  rewrite IH; [lia|]. destruct H; [congruence|assumption].
Qed.
Lemma zremove_incl : forall x l y, In y (zremove x l) -> In y l.
Proof. induction l as [|z l IH]; intros y H; [exact H|]. cbn [zremove] in H. destruct (z =? x); [right; exact H|]. destruct H; [left; assumption|right; auto]. Qed.

(** ** Shifting the keys of replaced blobs *)
Lemma dget_shift : forall (B : list (Z * source)) i j, ~ In i (map fst B) ->
  dget Z.eqb j (map (fun p => (if i <? fst p then fst p - 1 else fst p, snd p)) B) =
  if j <? i then dget Z.eqb j B else dget Z.eqb (j + 1) B.
Proof.
  induction B as [|[k v] B IH]; intros i j N; [cbn; destruct (j <? i); reflexivity|].
  cbn [map fst snd dget] in *. rewrite IH by (intro; apply N; right; assumption). assert (k <> i) by (intros ->; apply N; left; reflexivity).
  destruct (Z.ltb_spec i k); destruct (Z.ltb_spec j i).
  - destruct (Z.eqb_spec j (k - 1)); [lia|]. destruct (Z.eqb_spec j k); [lia|]. reflexivity.
  - destruct (Z.eqb_spec j (k - 1)); destruct (Z.eqb_spec (j + 1) k); try lia; reflexivity.
  - reflexivity.
  - destruct (Z.eqb_spec j k); [lia|]. destruct (Z.eqb_spec (j + 1) k); [lia|]. reflexivity.
Qed.
Lemma shift_nodup : forall (B : list (Z * source)) i, NoDup (map fst B) -> ~ In i (map fst B) ->
  NoDup (map fst (map (fun p => (if i <? fst p then fst p - 1 else fst p, snd p)) B)).
Proof.
  induction B as [|[k v] B IH]; intros i H N; cbn [map fst snd] in *; [constructor|]. inversion H; subst. constructor; [|apply IH; [assumption|intro; apply N; right; assumption]].
  rewrite map_map, in_map_iff. intros ([k' v'] & E & Hin). cbn [fst snd] in E. assert (In k' (map fst B)) by (apply in_map_iff; exists (k', v'); auto).
  assert (k <> i) by (intros ->; apply N; left; reflexivity). assert (k' <> i) by (intros ->; apply N; right; assumption).
  assert (k' = k); [|subst; contradiction]. destruct (Z.ltb_spec i k); destruct (Z.ltb_spec i k'); lia.
Qed.

Lemma Forall2_len : forall A B (P : A -> B -> Prop) l r, Forall2 P l r -> length l = length r.
Proof. intros A B P l r F. induction F; cbn; congruence. Qed.

(** ** Removing elements of a list *)
(** [L] is [orig] without the elements at the indices [R]. *)
Definition sel {A} (orig : list A) (R : list Z) (L : list A) : Prop :=
  rsorted R /\ zlen L = zlen orig - zlen R /\ (forall j, 0 <= j -> znth L j = znth orig (adjust R j)) /\ Forall (fun r => 0 <= r < zlen orig) R.
Fixpoint removed_after (rs : list Z) (R : list Z) : list Z :=
  match rs with [] => R | i :: rs => removed_after rs (zinsert (adjust R i) R) end.

Lemma sel_nil : forall {A} (orig : list A), sel orig [] orig.
Proof. intros A orig. split; [constructor|]. change (zlen (@nil Z)) with 0. split; [lia|]. split; [reflexivity|constructor]. Qed.
Lemma sel_step : forall {A} (orig : list A) R L i, sel orig R L -> 0 <= i < zlen L -> sel orig (zinsert (adjust R i) R) (remove_at i L).
Proof.
  intros A orig R L i (S1 & LN & IT & RG) Hi. split; [apply zinsert_sorted; [exact S1|apply adjust_not_in; exact S1]|].
  split; [rewrite remove_len, zinsert_len by exact Hi; lia|]. split.
  - intros j Hj. rewrite remove_nth, adjust_insert by assumption. destruct (j <? i); apply IT; lia.
  - apply Forall_forall. intros x Hx. apply zinsert_in in Hx as [->|Hx]; [|rewrite Forall_forall in RG; exact (RG x Hx)].
    destruct (znth_in L i Hi) as (y & EY). rewrite IT in EY by lia. exact (znth_some _ _ _ EY).
Qed.
Lemma sel_high : forall {A} (orig : list A) R L, sel orig R L -> zlen orig <= adjust R (zlen L).
Proof.
  intros A orig R L (S1 & LN & IT & RG). pose proof (zlen_nonneg L). specialize (IT (zlen L) ltac:(lia)). rewrite znth_none in IT by lia.
  pose proof (adjust_ge R (zlen L)). destruct (Z.le_gt_cases (zlen orig) (adjust R (zlen L))) as [|H1]; [assumption|].
  destruct (znth_in orig (adjust R (zlen L))) as (x & E); [lia|]. congruence.
Qed.
Lemma sel_after : forall {A} (orig : list A) rs R L, sel orig R L -> in_range L rs ->
  sel orig (removed_after rs R) (fold_left (fun l i => remove_at i l) rs L).
Proof.
  intros A orig rs. induction rs as [|i rs IH]; intros R L H OK; cbn [removed_after fold_left in_range] in *; [exact H|].
  destruct OK as (Hi & OK). apply IH; [apply sel_step; assumption|exact OK].
Qed.
Lemma in_range_len : forall {A B} rs (l : list A) (r : list B), zlen l = zlen r -> in_range l rs -> in_range r rs.
Proof.
  induction rs as [|i rs IH]; intros l r H OK; cbn [in_range] in *; [exact Logic.I|]. destruct OK as (Hi & OK). split; [lia|].
  eapply IH; [|exact OK]. rewrite !remove_len by lia. lia.
Qed.
Lemma znth_In : forall {A} (l : list A) i x, znth l i = Some x -> In x l.
Proof. intros A l i x H. unfold znth in H. destruct (i <? 0); [discriminate|]. exact (nth_error_In _ _ H). Qed.
Lemma In_znth : forall {A} (l : list A) x, In x l -> exists i, 0 <= i /\ znth l i = Some x.
Proof.
  intros A l x H. apply In_nth_error in H as (k & E). exists (Z.of_nat k). split; [lia|]. unfold znth. destruct (Z.ltb_spec (Z.of_nat k) 0); [lia|].
  rewrite Nat2Z.id. exact E.
Qed.
Lemma removed_gone : forall {A} (orig : list A) rs x, in_range orig rs -> In x (removed_after rs []) -> In x (gone (zlen orig) rs).
Proof.
  intros A orig rs x OK Hx. pose proof (zlen_nonneg orig). pose proof (zrange_len (zlen orig) ltac:(lia)) as ZL.
  pose proof (in_range_len rs orig (zrange (zlen orig)) (eq_sym ZL) OK) as OK'.
  destruct (sel_after _ rs [] _ (sel_nil (zrange (zlen orig))) OK') as (S1 & _ & IT & RG). rewrite ZL in RG.
  unfold gone. apply filter_In. rewrite Forall_forall in RG. specialize (RG x Hx). split; [apply zrange_in; exact RG|].
  apply negb_true_iff. destruct (zmem _ _) eqn:M; [|reflexivity]. exfalso. apply zmem_In in M. apply In_znth in M as (j & Hj & EJ).
  rewrite IT in EJ by exact Hj. pose proof (znth_some _ _ _ EJ) as RJ. rewrite ZL in RJ. rewrite zrange_nth in EJ by exact RJ.
  injection EJ as EJ. apply (adjust_not_in _ j S1). rewrite EJ. exact Hx.
Qed.
Lemma skipn_nth : forall {A} (L : list A) k b, nth_error L k = Some b -> skipn k L = b :: skipn (S k) L.
Proof.
  induction L as [|x L IH]; intros [|k] b E; cbn in E; try discriminate; [injection E as <-; reflexivity|]. cbn [skipn]. rewrite (IH k b E). reflexivity.
Qed.

(** ** A wrapper over a cluster that holds [orig] *)
Lemma compresses_iff : forall {K} (comp : K -> bytes -> res (bytes * K)) flush k chunks out, compresses comp flush k chunks out <-> compress_all K comp flush k chunks = Ok out.
Proof.
  intros K comp flush k chunks out. split.
  - induction 1 as [k x E|k c x k' chunks out E C IH]; cbn [compress_all].
    + rewrite E. reflexivity.
    + rewrite E. cbn [bind fst snd]. rewrite IH. reflexivity.
  - revert k out. induction chunks as [|c r IH]; intros k out E; cbn [compress_all] in E.
    + destruct (flush k) as [x|] eqn:EF; [|discriminate E]. injection E as <-. constructor. exact EF.
    + destruct (comp k c) as [[x k']|] eqn:EC; cbn [bind fst snd] in E; [|discriminate E]. destruct (compress_all K comp flush k' r) as [xs|] eqn:ER; [|discriminate E].
      injection E as <-. econstructor; [exact EC|]. apply IH. exact ER.
Qed.

Section Wrapped.
Context {I : Type}.
Variable ic : inner I.
Variable fuel : nat.
Variable Inv : I -> Prop.
Variables (ct : ctype) (ext : bool) (orig : list bytes).
Hypothesis HO : holds ic Inv ct ext orig.
Notation n := (zlen orig).

(** The wrapper shows the blobs [L]. *)
Record view (w : wrapper I) (L : list bytes) : Prop := {
  vw_inv : Inv (w_in w);
  vw_len : zlen L = n - zlen (w_removed w) + zlen (w_added w);
  vw_item : forall i, 0 <= i < zlen L ->
    match dget Z.eqb i (w_blobs w) with
    | Some s => exists d, znth L i = Some d /\ delivers fuel s d
    | None => znth L i = znth orig (adjust (w_removed w) i)
    end;
}.
(** ... and nothing beyond, and can be edited further. *)
Record rep (w : wrapper I) (L : list bytes) : Prop := {
  rp_view :> view w L;
  rp_nodup : NoDup (map fst (w_blobs w));
  rp_keys : forall k, In k (map fst (w_blobs w)) -> 0 <= k < zlen L;
  rp_high : n <= adjust (w_removed w) (zlen L);
  rp_added : forall a, In a (w_added w) -> Forall (fun r => a < r) (w_removed w) -> n <= a;
  rp_sorted : rsorted (w_removed w);
}.
Definition rp_inv w L (R : rep w L) := vw_inv w L R.
Definition rp_len w L (R : rep w L) := vw_len w L R.
Definition rp_item w L (R : rep w L) := vw_item w L R.
Lemma mk_rep : forall w L, Inv (w_in w) -> NoDup (map fst (w_blobs w)) -> zlen L = n - zlen (w_removed w) + zlen (w_added w) ->
  (forall i, 0 <= i < zlen L ->
    match dget Z.eqb i (w_blobs w) with
    | Some s => exists d, znth L i = Some d /\ delivers fuel s d
    | None => znth L i = znth orig (adjust (w_removed w) i)
    end) -> (forall k, In k (map fst (w_blobs w)) -> 0 <= k < zlen L) -> n <= adjust (w_removed w) (zlen L) ->
  (forall a, In a (w_added w) -> Forall (fun r => a < r) (w_removed w) -> n <= a) -> rsorted (w_removed w) -> rep w L.
Proof. intros. constructor; [constructor|..]; assumption. Qed.

Lemma wrap_rep : forall c, Inv c -> rep (wrap ic c) orig.
Proof.
  intros c H. unfold wrap. apply mk_rep; cbn [w_in w_blobs w_added w_removed map].
  - destruct (in_empty ic); [exact H|apply (ho_reset _ _ _ _ _ HO); exact H].
  - constructor.
  - change (zlen (@nil Z)) with 0. lia.
  - intros i Hi. reflexivity.
  - intros k [].
  - cbn. lia.
  - intros a [].
  - constructor.
Qed.
Lemma reset_rep : forall w L, rep w L -> rep (wreset ic w) (if in_empty ic then L else orig).
Proof.
  intros w L R. unfold wreset. destruct (in_empty ic) eqn:E; [exact R|].
  pose proof (wrap_rep (w_in w) (rp_inv _ _ R)) as W. unfold wrap in W. rewrite E in W. exact W.
Qed.
(** Only the wrapped cluster's own state changes, or the forced attributes. *)
Lemma view_same : forall w w' L, view w L -> Inv (w_in w') -> w_blobs w' = w_blobs w -> w_added w' = w_added w -> w_removed w' = w_removed w -> view w' L.
Proof. intros w w' L [] H E1 E2 E3. constructor; rewrite ?E1, ?E2, ?E3; assumption. Qed.
Lemma rep_same : forall w w' L, rep w L -> Inv (w_in w') -> w_blobs w' = w_blobs w -> w_added w' = w_added w -> w_removed w' = w_removed w -> rep w' L.
Proof. intros w w' L [] H E1 E2 E3. constructor; rewrite ?E1, ?E2, ?E3; try assumption. eapply view_same; eassumption. Qed.

Definition knows (w : wrapper I) : Prop := in_attr ic (w_in w) = Some (ct, ext).
Definition same (w w' : wrapper I) : Prop :=
  w_blobs w' = w_blobs w /\ w_added w' = w_added w /\ w_removed w' = w_removed w /\ w_ext w' = w_ext w /\ w_comp w' = w_comp w /\
  (knows w -> knows w').
Lemma same_refl : forall w, same w w. Proof. intros w. unfold same. auto 10. Qed.
Lemma same_trans : forall a b c, same a b -> same b c -> same a c.
Proof. unfold same. intuition congruence. Qed.
Lemma keep : forall w w' L, rep w L -> view w' L -> same w w' -> rep w' L.
Proof. intros w w' L R V (A & B & C & _). eapply rep_same; [exact R|exact (vw_inv _ _ V)|assumption..]. Qed.

(** Calls of the wrapped cluster. *)
Lemma lift_ok : forall A (m : M I A) w L x c', view w L -> m (w_in w) = (x, c') -> Inv c' -> in_attr ic c' = Some (ct, ext) ->
  exists w', lift m w = (x, w') /\ view w' L /\ same w w' /\ knows w'.
Proof.
  intros A m w L x c' R E H K. unfold lift. rewrite E. eexists. split; [reflexivity|].
  split; [eapply view_same; [exact R|exact H|reflexivity..]|]. unfold same, knows. cbn. auto 10.
Qed.

Lemma count_offsets_ok : forall w L, view w L -> exists w', wnumber_of_offsets ic w = (Ok (zlen L + 1), w') /\ view w' L /\ same w w' /\ knows w'.
Proof.
  intros w L R. unfold wnumber_of_offsets, mbind.
  destruct (ho_blobs _ _ _ _ _ HO (w_in w) (vw_inv _ _ R)) as (c' & E & H & K).
  destruct (lift_ok _ _ _ _ _ _ R E H K) as (w' & E' & R' & S' & K'). rewrite E'. exists w'. split; [|auto].
  f_equal. f_equal. rewrite (vw_len _ _ R'). lia.
Qed.
Lemma count_ok : forall w L, view w L -> exists w', wnumber_of_blobs ic w = (Ok (zlen L), w') /\ view w' L /\ same w w' /\ knows w'.
Proof.
  intros w L R. unfold wnumber_of_blobs, mbind. destruct (count_offsets_ok w L R) as (w' & E & H). rewrite E. exists w'. split; [|exact H].
  unfold ret. f_equal. f_equal. lia.
Qed.

(** Item [i] beyond the end. *)
Lemma beyond : forall w L i, rep w L -> zlen L <= i -> dget Z.eqb i (w_blobs w) = None /\ znth orig (adjust (w_removed w) i) = None.
Proof.
  intros w L i R H. split.
  - apply (dget_none _ Z.eqb_eq). intro X. apply (rp_keys _ _ R) in X. lia.
  - apply znth_none. pose proof (rp_high _ _ R). destruct (Z.eq_dec i (zlen L)) as [->|N]; [assumption|].
    pose proof (adjust_mono (w_removed w) (zlen L) i). lia.
Qed.
Lemma item : forall w L i, rep w L -> 0 <= i ->
  (exists s d, dget Z.eqb i (w_blobs w) = Some s /\ znth L i = Some d /\ delivers fuel s d) \/
  (dget Z.eqb i (w_blobs w) = None /\ znth L i = znth orig (adjust (w_removed w) i)).
Proof.
  intros w L i R Hi. destruct (Z.lt_ge_cases i (zlen L)) as [H|H].
  - pose proof (rp_item _ _ R i ltac:(lia)) as X. destruct (dget Z.eqb i (w_blobs w)) as [s|]; [left|right; auto].
    destruct X as (d & A & B). exists s, d. auto.
  - destruct (beyond w L i R H) as (A & B). right. rewrite B, A. split; [reflexivity|]. apply znth_none. exact H.
Qed.

Lemma size_in : forall w L i b, view w L -> znth L i = Some b -> exists w', wblob_size ic i w = (Ok (zlen b), w') /\ view w' L /\ same w w'.
Proof.
  intros w L i b R EB. pose proof (znth_some _ _ _ EB) as Hi. unfold wblob_size. pose proof (vw_item _ _ R i Hi) as IT.
  destruct (dget Z.eqb i (w_blobs w)) as [s|].
  - destruct IT as (d & E & DS). exists w. destruct DS as (-> & _). rewrite E in EB. injection EB as ->. split; [reflexivity|]. split; [exact R|apply same_refl].
  - pose proof (adjust_ge (w_removed w) i).
    destruct (ho_size _ _ _ _ _ HO (w_in w) (adjust (w_removed w) i) (vw_inv _ _ R)) as (c' & E & H' & K); [lia|].
    destruct (lift_ok _ _ _ _ _ _ R E H' K) as (w' & E' & R' & S' & _). rewrite <- IT, EB in E'. exists w'. auto.
Qed.
Lemma size_ok : forall w L i, rep w L -> 0 <= i -> exists w',
  wblob_size ic i w = (match znth L i with Some b => Ok (zlen b) | None => Err BlobNotFound end, w') /\ view w' L /\ same w w'.
Proof.
  intros w L i R Hi. destruct (znth L i) as [b|] eqn:EB; [exact (size_in w L i b R EB)|].
  unfold wblob_size. destruct (item w L i R Hi) as [(s & d & _ & X & _)|(-> & EL)]; [congruence|].
  pose proof (adjust_ge (w_removed w) i).
  destruct (ho_size _ _ _ _ _ HO (w_in w) (adjust (w_removed w) i) (rp_inv _ _ R)) as (c' & E & H' & K); [lia|].
  destruct (lift_ok _ _ w L _ _ R E H' K) as (w' & E' & R' & S' & _). rewrite <- EL, EB in E'. exists w'. auto.
Qed.

(** Going through [range(k, k+m)]. *)
Lemma mmap_ok : forall B (g : Z -> M (wrapper I) B) (P : Z -> B -> Prop) L m k w,
  (forall i w, (k <= i < k + m)%nat -> view w L -> exists y w', g (Z.of_nat i) w = (Ok y, w') /\ P (Z.of_nat i) y /\ view w' L /\ same w w') ->
  view w L -> exists ys w', mmap g (map Z.of_nat (seq k m)) w = (Ok ys, w') /\ Forall2 P (map Z.of_nat (seq k m)) ys /\ view w' L /\ same w w'.
Proof.
  intros B g P L m. induction m as [|m IH]; intros k w HG R; cbn [seq map mmap].
  - exists [], w. split; [reflexivity|]. split; [constructor|]. split; [exact R|apply same_refl].
  - unfold mbind. destruct (HG k w) as (y & w1 & E1 & P1 & R1 & S1); [lia|exact R|]. rewrite E1.
    destruct (IH (S k) w1) as (ys & w2 & E2 & F2 & R2 & S2); [intros i w' Hi; apply HG; lia|exact R1|]. rewrite E2.
    exists (y :: ys), w2. split; [reflexivity|]. split; [constructor; assumption|]. split; [exact R2|eapply same_trans; eassumption].
Qed.

Lemma range_map : forall (L : list bytes) B (h : bytes -> B) ys,
  Forall2 (fun i y => forall b, znth L i = Some b -> y = h b) (zrange (zlen L)) ys -> ys = map h L.
Proof.
  intros L B h ys F. apply nth_error_ext. intros j. rewrite nth_error_map.
  assert (LY : length ys = length L). { apply Forall2_len in F. unfold zrange, zlen in F. rewrite map_length, seq_length in F. lia. }
  destruct (Nat.lt_ge_cases j (length L)) as [H|H].
  - destruct (nth_error L j) as [b|] eqn:EB; [|apply nth_error_None in EB; lia].
    destruct (nth_error ys j) as [y|] eqn:EY; [|apply nth_error_None in EY; lia]. cbn. f_equal.
    assert (G : forall A C (Q : A -> C -> Prop) l1 l2 k a c, Forall2 Q l1 l2 -> nth_error l1 k = Some a -> nth_error l2 k = Some c -> Q a c).
    { clear. intros A C Q l1 l2 k a c F. revert k. induction F; intros [|k] H1 H2; cbn in *; try discriminate; [congruence|eauto]. }
    pose proof (zrange_nth (zlen L) (Z.of_nat j)) as ZR. unfold znth in ZR. rewrite Nat2Z.id in ZR. unfold zlen in ZR at 1.
    destruct (Z.ltb_spec (Z.of_nat j) 0); [lia|]. specialize (ZR ltac:(lia)).
    apply (G _ _ _ _ _ _ _ _ F ZR EY). unfold znth. destruct (Z.ltb_spec (Z.of_nat j) 0); [lia|]. rewrite Nat2Z.id. exact EB.
  - rewrite (proj2 (nth_error_None L j)) by lia. cbn. apply nth_error_None. lia.
Qed.

Lemma sizes_ok : forall w L, view w L -> exists w', wsizes ic w = (Ok (map zlen L), w') /\ view w' L /\ same w w' /\ knows w'.
Proof.
  intros w L R. unfold wsizes, mbind. destruct (count_ok w L R) as (w1 & E1 & R1 & S1 & K1). rewrite E1.
  destruct (mmap_ok _ (wblob_size ic) (fun i y => forall b, znth L i = Some b -> y = zlen b) L (Z.to_nat (zlen L)) 0 w1) as (ys & w2 & E2 & F2 & R2 & S2); [|exact R1|].
  - intros i w0 Hi R0. destruct (znth_in L (Z.of_nat i)) as (b & EB); [lia|]. destruct (size_in w0 L (Z.of_nat i) b R0 EB) as (w' & E & R' & S').
    exists (zlen b), w'. split; [exact E|]. split; [|auto].
    intros b' EB'. congruence.
  - unfold zrange. rewrite E2. rewrite (range_map L _ zlen ys F2). exists w2. split; [reflexivity|]. split; [exact R2|].
    split; [eapply same_trans; eassumption|apply S2; exact K1].
Qed.

Lemma fold_sizes : forall L a, fold_left Z.add (map zlen L) a = a + zlen (@concat byte L).
Proof.
  induction L as [|b L IH]; intros a; cbn [map fold_left concat]; [change (zlen (@nil byte)) with 0; lia|]. rewrite IH, zlen_app. lia.
Qed.
Lemma content_ok : forall w L, view w L -> exists w', wcontent_size ic w = (Ok (zlen (concat L)), w') /\ view w' L /\ same w w' /\ knows w'.
Proof.
  intros w L R. unfold wcontent_size, mbind. destruct (sizes_ok w L R) as (w' & E & H). rewrite E. exists w'. split; [|exact H].
  unfold ret. rewrite fold_sizes. reflexivity.
Qed.

(** The width of pointers, and when it is known. *)
Definition wide (forced : option bool) (modified : bool) (before : bool) (blobs : list bytes) : bool :=
  match forced with
  | Some b => b
  | None => if modified then 2 ^ 32 <=? zlen (cluster_data false blobs) else before
  end.
Definition width_known (w : wrapper I) : Prop := w_ext w <> None \/ has_modifications w = true \/ knows w.
Definition wwide (w : wrapper I) (L : list bytes) : bool := wide (w_ext w) (has_modifications w) ext L.

Lemma same_mod : forall w w', same w w' -> has_modifications w' = has_modifications w.
Proof. intros w w' (A & B & C & _). unfold has_modifications. rewrite A, B, C. reflexivity. Qed.
Lemma same_wide : forall w w' L, same w w' -> wwide w' L = wwide w L.
Proof. intros w w' L H. unfold wwide. rewrite (same_mod _ _ H). destruct H as (_ & _ & _ & -> & _). reflexivity. Qed.
Lemma knows_width : forall w, knows w -> width_known w. Proof. unfold width_known. auto. Qed.

Lemma extended_ok : forall w L, view w L -> width_known w -> exists w', wis_extended ic w = (Ok (Some (wwide w L)), w') /\ view w' L /\ same w w'.
Proof.
  intros w L R K. unfold wis_extended, wwide, wide. destruct (w_ext w) as [b|] eqn:EX.
  - exists w. split; [reflexivity|]. split; [exact R|apply same_refl].
  - destruct (has_modifications w) eqn:EM; cbn [negb].
    + unfold mbind. destruct (ho_info _ _ _ _ _ HO (w_in w) (vw_inv _ _ R)) as (c' & E & H & KN).
      destruct (lift_ok _ _ _ _ _ _ R E H KN) as (w1 & E1 & R1 & S1 & _). rewrite E1.
      destruct (count_offsets_ok w1 L R1) as (w2 & E2 & R2 & S2 & _). rewrite E2.
      destruct (sizes_ok w2 L R2) as (w3 & E3 & R3 & S3 & _). rewrite E3. exists w3. unfold ret.
      split; [|split; [exact R3|eapply same_trans; [exact S1|eapply same_trans; eassumption]]].
      rewrite fold_sizes. rewrite cluster_data_len. unfold pointers_size. cbn [pointer_bytes]. change (Z.of_nat 4) with 4. reflexivity.
    + destruct K as [K|[K|K]]; [congruence|congruence|]. rewrite K. exists w. split; [reflexivity|]. split; [exact R|apply same_refl].
Qed.
Lemma pointer_ok : forall w L, view w L -> width_known w -> exists w', wpointer_size ic w = (Ok (ptr_size (wwide w L)), w') /\ view w' L /\ same w w'.
Proof.
  intros w L R K. unfold wpointer_size, mbind. destruct (extended_ok w L R K) as (w' & E & H). rewrite E. exists w'. auto.
Qed.
Lemma offset_size_ok : forall w L, view w L -> width_known w -> exists w',
  wtotal_offset_size ic w = (Ok (pointers_size (wwide w L) L), w') /\ view w' L /\ same w w'.
Proof.
  intros w L R K. unfold wtotal_offset_size, mbind. destruct (pointer_ok w L R K) as (w1 & E1 & R1 & S1). rewrite E1.
  destruct (count_offsets_ok w1 L R1) as (w2 & E2 & R2 & S2 & _). rewrite E2. exists w2.
  split; [|split; [exact R2|eapply same_trans; eassumption]]. unfold ret, pointers_size. rewrite ptr_size_bytes. reflexivity.
Qed.
Lemma total_ok : forall w L, view w L -> width_known w -> exists w',
  wtotal_decompressed_size ic w = (Ok (zlen (cluster_data (wwide w L) L)), w') /\ view w' L /\ same w w'.
Proof.
  intros w L R K. unfold wtotal_decompressed_size, mbind. destruct (offset_size_ok w L R K) as (w1 & E1 & R1 & S1). rewrite E1.
  destruct (content_ok w1 L R1) as (w2 & E2 & R2 & S2 & _). rewrite E2. exists w2.
  split; [|split; [exact R2|eapply same_trans; eassumption]]. unfold ret. rewrite cluster_data_len. reflexivity.
Qed.

(** Offsets.  [pos] is the list of positions from [k] on. *)
Lemma offsets_loop_wok : forall L numbers m k w cur, view w L -> (k <= length L)%nat ->
  (match numbers with None => (length L < k + m)%nat | Some ns => forall x, In x ns -> x < Z.of_nat (k + m) end) ->
  exists w', woffsets_loop ic (map Z.of_nat (seq k m)) numbers (zlen L + 1) cur w =
    (Ok (select_offsets (Z.of_nat k) numbers (positions_from cur (skipn k L))), w') /\ view w' L /\ same w w'.
Proof.
  intros L numbers m. induction m as [|m IH]; intros k w cur R Hk HN; cbn [seq map woffsets_loop].
  - exists w. split; [|split; [exact R|apply same_refl]]. unfold ret. f_equal. f_equal. symmetry.
    destruct numbers as [ns|]; [|lia]. apply select_none_after. intros x Hx. apply HN in Hx. lia.
  - destruct (Z.eqb_spec (Z.of_nat k) (zlen L + 1 - 1)) as [E|N].
    + assert (k = length L) by (unfold zlen in E; lia). subst k. rewrite skipn_all. cbn [positions_from select_offsets].
      exists w. split; [reflexivity|]. split; [exact R|apply same_refl].
    + assert (KL : (k < length L)%nat) by (unfold zlen in N; lia).
      unfold mbind. destruct (znth_in L (Z.of_nat k)) as (b & EB); [unfold zlen; lia|].
      destruct (size_in w L (Z.of_nat k) b R EB) as (w1 & E1 & R1 & S1). rewrite E1.
      destruct (IH (S k) w1 (cur + zlen b) R1) as (w2 & E2 & R2 & S2); [lia|destruct numbers; [intros x Hx; specialize (HN x Hx); lia|lia]|].
      rewrite E2. exists w2. split; [|split; [exact R2|eapply same_trans; eassumption]].
      assert (SK : skipn k L = b :: skipn (S k) L).
      { clear -EB. unfold znth in EB. destruct (Z.ltb_spec (Z.of_nat k) 0); [lia|]. rewrite Nat2Z.id in EB. revert k EB H.
        induction L as [|x L IH]; intros [|k] E _; cbn in E; try discriminate; [injection E as <-; reflexivity|].
        cbn [skipn]. rewrite (IH k E ltac:(lia)). reflexivity. }
      rewrite SK. cbn [positions_from select_offsets]. replace (Z.of_nat k + 1) with (Z.of_nat (S k)) by lia. reflexivity.
Qed.
Lemma offsets_ok : forall w L ns, view w L -> width_known w -> exists w',
  woffsets ic ns w = (Ok (select_offsets 0 ns (positions (wwide w L) L)), w') /\ view w' L /\ same w w'.
Proof.
  intros w L ns R K. unfold woffsets, mbind. destruct (offset_size_ok w L R K) as (w1 & E1 & R1 & S1). rewrite E1.
  destruct (count_offsets_ok w1 L R1) as (w2 & E2 & R2 & S2 & _). rewrite E2.
  match goal with |- context [zrange ?x] => set (hi := x) end.
  destruct (offsets_loop_wok L ns (Z.to_nat hi) 0 w2 (pointers_size (wwide w L) L) R2) as (w3 & E3 & R3 & S3); [lia| |].
  - unfold hi. destruct ns as [[|a l]|].
    + intros x [].
    + intros x Hx. pose proof (zmax_ge (a :: l) x Hx). lia.
    + unfold zlen. lia.
  - unfold zrange. rewrite E3. exists w3. split; [reflexivity|]. split; [exact R3|]. eapply same_trans; [exact S1|]. eapply same_trans; eassumption.
Qed.
Lemma get_offset_wok : forall w L i, view w L -> width_known w -> 0 <= i -> exists w',
  wget_offset ic i w = (match znth (positions (wwide w L) L) i with Some x => Ok x | None => Err IndexError end, w') /\ view w' L /\ same w w'.
Proof.
  intros w L i R K Hi. unfold wget_offset. destruct (Z.ltb_spec i 0); [lia|]. unfold mbind.
  destruct (offsets_ok w L (Some [i]) R K) as (w' & E & H'). rewrite E, select_one by lia.
  destruct (Z.ltb_spec i 0); [lia|]. rewrite Z.sub_0_r. exists w'. destruct (znth _ i); cbn; auto.
Qed.

(** Reading. *)
Lemma read_all_ok : forall s d m, delivers fuel s d -> m > 0 -> exists xs, read_all fuel m (s_blob s) = Ok xs /\ concat xs = d.
Proof.
  intros s d m (_ & _ & HB & HR & HL) Hm. destruct (read_all_spec fuel m (s_blob s) HB Hm) as (xs & E & C); [rewrite HR; unfold zlen in HL; lia|].
  exists xs. rewrite C. auto.
Qed.
Lemma part_slice : forall s e d, sensible_range s e ->
  py_slice (match s with Some a => a | None => 0 end) (match e with Some b => b | None => zlen d end) d = part s e d.
Proof.
  intros s e d (A & B & _). unfold part. apply py_slice_pos; [destruct s; lia|]. destruct e; [lia|apply zlen_nonneg].
Qed.
Lemma starts_inside_adj : forall w L i s, rep w L -> 0 <= i -> dget Z.eqb i (w_blobs w) = None -> znth L i = znth orig (adjust (w_removed w) i) ->
  starts_inside L i s -> starts_inside orig (adjust (w_removed w) i) s.
Proof. intros w L i s R Hi _ E H. unfold starts_inside in *. rewrite <- E. exact H. Qed.

Lemma wread_ok : forall w L i s e, rep w L -> 0 <= i -> sensible_range s e -> starts_inside L i s -> exists w',
  wread_blob ic fuel i s e w = (match znth L i with Some b => Ok (part s e b) | None => Err BlobNotFound end, w') /\ view w' L /\ same w w'.
Proof.
  intros w L i s e R Hi SR SI. unfold wread_blob. destruct (item w L i R Hi) as [(sc & d & -> & -> & DS)|(EN & EL)].
  - unfold mbind, pure. destruct (read_all_ok sc d 8192 DS) as (xs & E & C); [lia|]. rewrite E. unfold ret. rewrite C, (part_slice s e d SR).
    exists w. split; [reflexivity|]. split; [exact R|apply same_refl].
  - rewrite EN. rewrite EL. pose proof (adjust_ge (w_removed w) i).
    destruct (ho_read _ _ _ _ _ HO (w_in w) (adjust (w_removed w) i) s e (rp_inv _ _ R)) as (c' & E & H' & K); [lia|exact SR|eapply starts_inside_adj; eassumption|].
    destruct (lift_ok _ _ w L _ _ R E H' K) as (w' & E' & R' & S' & _). exists w'. auto.
Qed.

Lemma iter_chunks_concat : forall start stop l cur, 0 <= start -> 0 <= cur ->
  concat (witer_chunks start stop cur l) = zsub (Z.max 0 (start - cur)) (stop - Z.max cur start) (concat l).
Proof.
  intros start stop. induction l as [|x l IH]; intros cur Hs Hc; cbn [witer_chunks concat].
  - unfold zsub, zskip, ztake. rewrite skipn_nil, firstn_nil. reflexivity.
  - pose proof (zlen_nonneg x). pose proof (zlen_nonneg (concat l)).
    assert (G : concat (witer_chunks start stop (cur + zlen x) l) = zsub (Z.max 0 (start - (cur + zlen x))) (stop - Z.max (cur + zlen x) start) (concat l)) by (apply IH; lia).
    destruct (Z.ltb_spec (cur + zlen x) start).
    + rewrite G. unfold zsub. rewrite zskip_app_r by lia. f_equal; [lia|]. f_equal. lia.
    + destruct (Z.leb_spec stop cur).
      * rewrite G. unfold zsub. rewrite !ztake_neg by lia. reflexivity.
      * cbn [concat]. rewrite G. destruct (Z.le_gt_cases stop (Z.max cur start)) as [Q|Q].
        { unfold zsub. rewrite !ztake_neg by lia. rewrite app_nil_r. unfold py_slice.
          destruct (Z.ltb_spec (Z.max 0 (start - cur)) 0); [lia|]. destruct (Z.ltb_spec (Z.min (zlen x) (stop - cur)) 0); [lia|].
          unfold zsub. apply ztake_neg. lia. }
        rewrite py_slice_pos by lia. unfold zsub.
        rewrite (zskip_app_l (Z.max 0 (start - cur))) by lia.
        rewrite (zskip_neg (Z.max 0 (start - (cur + zlen x)))) by lia.
        destruct (Z.le_gt_cases (stop - cur) (zlen x)) as [Q2|Q2].
        { rewrite (ztake_neg (stop - _) (concat l)) by lia. rewrite app_nil_r, Z.min_r by lia.
          rewrite ztake_app_l by (rewrite zskip_len by lia; lia). f_equal. lia. }
        { rewrite Z.min_l by lia. rewrite (ztake_all (zlen x - _)) by (rewrite zskip_len by lia; lia).
          rewrite ztake_app_r by (rewrite zskip_len by lia; lia). f_equal. f_equal. rewrite zskip_len by lia. lia. }
Qed.

Lemma witer_ok : forall w L i m s e, rep w L -> 0 <= i -> 1 <= m -> sensible_range s e -> starts_inside L i s -> exists x w',
  witer_read_blob ic fuel i m s e w = (x, w') /\ view w' L /\ same w w' /\
  match znth L i with Some b => exists l, x = Ok l /\ concat l = part s e b | None => x = Err BlobNotFound end.
Proof.
  intros w L i m s e R Hi Hm SR SI. unfold witer_read_blob. destruct (item w L i R Hi) as [(sc & d & -> & -> & DS)|(EN & EL)].
  - unfold mbind, pure. destruct (read_all_ok sc d m DS) as (xs & E & C); [lia|]. rewrite E. unfold ret.
    eexists _, w. split; [reflexivity|]. split; [exact R|]. split; [apply same_refl|]. eexists. split; [reflexivity|].
    destruct SR as (A & B & _). rewrite iter_chunks_concat by (destruct s; lia). rewrite C. destruct DS as (_ & SZ & _). rewrite SZ.
    unfold part. destruct s as [s|], e as [e|]; f_equal; lia.
  - rewrite EN. rewrite EL. pose proof (adjust_ge (w_removed w) i).
    destruct (ho_iter _ _ _ _ _ HO (w_in w) (adjust (w_removed w) i) m s e (rp_inv _ _ R)) as (x & c' & E & H' & K & PX); [lia|exact Hm|exact SR|eapply starts_inside_adj; eassumption|].
    destruct (lift_ok _ _ w L _ _ R E H' K) as (w' & E' & R' & S' & _). exists x, w'. split; [exact E'|]. split; [exact R'|]. split; [exact S'|].
    destruct (znth orig _); [|exact PX]. destruct PX as (l & -> & X & _). eauto.
Qed.

(** All queries. *)
Lemma wask_ok : forall w L q, rep w L -> wrapper_query q -> sensible q -> inside L q ->
  view (snd (wask ic fuel q w)) L /\ same w (snd (wask ic fuel q w)) /\
  (width_free q = true \/ width_known w -> wanswer (wwide w L) L q (fst (wask ic fuel q w))).
Proof.
  intros w L q R WQ SE INS.
  assert (KN : width_known w \/ ~ width_known w).
  { unfold width_known, knows. destruct (w_ext w); [left; left; discriminate|]. destruct (has_modifications w); [left; auto|].
    destruct (ho_attr _ _ _ _ _ HO _ (rp_inv _ _ R)) as [E|E]; rewrite E; [right|left]; intuition congruence. }
  assert (UNK : ~ width_known w -> wpointer_size ic w = (Err RuntimeErr, w)).
  { intro N. unfold width_known, knows in N. unfold wpointer_size, mbind, wis_extended. destruct (w_ext w); [exfalso; apply N; left; discriminate|].
    destruct (has_modifications w); [exfalso; apply N; auto|]. cbn [negb].
    destruct (ho_attr _ _ _ _ _ HO _ (rp_inv _ _ R)) as [E|E]; rewrite E in *; [reflexivity|exfalso; apply N; auto]. }
  assert (UNK2 : ~ width_known w -> wtotal_offset_size ic w = (Err RuntimeErr, w)).
  { intro N. unfold wtotal_offset_size, mbind. rewrite UNK by exact N. reflexivity. }
  destruct q; cbn [wrapper_query sensible inside width_free wask wanswer answer] in *; try contradiction.
  - destruct KN as [K|K].
    + destruct (offsets_ok w L numbers R K) as (w' & E & R' & S'). rewrite E. cbn [fst snd]. rewrite select_picked. auto.
    + unfold woffsets, mbind. rewrite UNK2 by exact K. cbn [fst snd]. split; [exact R|]. split; [apply same_refl|]. intros [X|X]; [discriminate|contradiction].
  - destruct (Z.ltb_spec i 0) as [H|H].
    + unfold wget_offset, znth. destruct (Z.ltb_spec i 0); [|lia]. cbn. split; [exact R|]. split; [apply same_refl|]. auto.
    + destruct KN as [K|K].
      * destruct (get_offset_wok w L i R K H) as (w' & E & R' & S'). rewrite E. cbn [fst snd]. split; [exact R'|]. split; [exact S'|]. intros _. destruct (znth _ i); reflexivity.
      * unfold wget_offset, woffsets, mbind. destruct (Z.ltb_spec i 0); [lia|]. rewrite UNK2 by exact K. cbn [fst snd]. split; [exact R|]. split; [apply same_refl|]. intros [X|X]; [discriminate|contradiction].
  - destruct (count_offsets_ok w L R) as (w' & E & R' & S' & _). rewrite E. cbn. auto.
  - destruct (count_ok w L R) as (w' & E & R' & S' & _). rewrite E. cbn. auto.
  - destruct (content_ok w L R) as (w' & E & R' & S' & _). rewrite E. cbn. auto.
  - destruct KN as [K|K].
    + destruct (total_ok w L R K) as (w' & E & R' & S'). rewrite E. cbn. auto.
    + unfold wtotal_decompressed_size, mbind. rewrite UNK2 by exact K. cbn [fst snd]. split; [exact R|]. split; [apply same_refl|]. intros [X|X]; [discriminate|contradiction].
  - destruct KN as [K|K].
    + destruct (offset_size_ok w L R K) as (w' & E & R' & S'). rewrite E. cbn [fst snd num]. split; [exact R'|]. split; [exact S'|]. intros _. f_equal. rewrite cluster_data_len. lia.
    + rewrite UNK2 by exact K. cbn [fst snd]. split; [exact R|]. split; [apply same_refl|]. intros [X|X]; [discriminate|contradiction].
  - destruct (size_ok w L i R SE) as (w' & E & R' & S'). rewrite E. cbn [fst snd]. split; [exact R'|]. split; [exact S'|]. intros _. destruct (znth L i); reflexivity.
  - destruct SE as (Hi & SR). destruct (wread_ok w L i start stop R Hi SR INS) as (w' & E & R' & S'). rewrite E. cbn [fst snd].
    split; [exact R'|]. split; [exact S'|]. intros _. destruct (znth L i); reflexivity.
  - destruct SE as (Hi & Hm & SR). destruct (witer_ok w L i buffersize start stop R Hi Hm SR INS) as (x & w' & E & R' & S' & PX). rewrite E. cbn [fst snd].
    split; [exact R'|]. split; [exact S'|]. intros _. destruct (znth L i); [destruct PX as (l & -> & C); exists l; auto|rewrite PX; reflexivity].
Qed.

(** ** Edits *)
Lemma set_ok : forall w L i s d, rep w L -> 0 <= i <= zlen L -> ~ In i (w_removed w) -> delivers fuel s d ->
  exists w', set_blob ic i s w = (Ok tt, w') /\ rep w' (replace_at i d L) /\ w_removed w' = w_removed w /\ w_ext w' = w_ext w /\ w_comp w' = w_comp w.
Proof.
  intros w L i s d R Hi NI DS. unfold set_blob, mbind. destruct (count_ok w L R) as (w1 & E1 & V1 & S1 & K1). rewrite E1. pose proof (keep w w1 L R V1 S1) as R1.
  destruct (Z.ltb_spec (zlen L) i); [lia|]. eexists. split; [reflexivity|].
  pose proof S1 as (SB & SA & SR & SX & SC & _).
  assert (NI1 : ~ In i (w_removed w1)) by (rewrite SR; exact NI).
  rewrite (zremove_notin i (w_removed w1) NI1). cbn [w_removed w_ext w_comp]. split; [|auto].
  pose proof (replace_len i d L Hi) as LL.
  apply mk_rep; cbn [w_in w_blobs w_added w_removed].
  - exact (rp_inv _ _ R1).
  - apply (dset_nodup _ Z.eqb_eq). exact (rp_nodup _ _ R1).
  - rewrite LL. pose proof (rp_len _ _ R1). destruct (Z.eqb_spec i (zlen L)); [rewrite zlen_app; change (zlen [i]) with 1|]; lia.
  - intros j Hj. rewrite (dget_dset _ Z.eqb_eq), (replace_nth i d L j Hi). destruct (Z.eqb_spec j i) as [->|N]; [eauto|].
    assert (Hj' : 0 <= j < zlen L) by (destruct (Z.eqb_spec i (zlen L)); lia). exact (rp_item _ _ R1 j Hj').
  - intros k. rewrite dset_keys. intros H0.
    assert (H1 : In k (map fst (w_blobs w1)) \/ k = i).
    { destruct (dmem Z.eqb i (w_blobs w1)); [auto|]. apply in_app_or in H0 as [H0|[H0|[]]]; auto. }
    destruct H1 as [H1| ->]; [apply (rp_keys _ _ R1) in H1|]; destruct (Z.eqb_spec i (zlen L)); lia.
  - pose proof (rp_high _ _ R1). destruct (Z.eqb_spec i (zlen L)); rewrite LL; [pose proof (adjust_mono (w_removed w1) (zlen L) (zlen L + 1))|]; lia.
  - intros a Ha FA. destruct (Z.eqb_spec i (zlen L)) as [E|N]; [|exact (rp_added _ _ R1 a Ha FA)].
    apply in_app_or in Ha as [Ha|[<-|[]]]; [exact (rp_added _ _ R1 a Ha FA)|].
    pose proof (rp_high _ _ R1) as HH. rewrite E in FA. rewrite (adjust_below _ _ FA) in HH. lia.
  - exact (rp_sorted _ _ R1).
Qed.
Lemma append_ok : forall w L s d, rep w L -> ~ In (zlen L) (w_removed w) -> delivers fuel s d ->
  exists w', append_blob ic s w = (Ok (zlen L), w') /\ rep w' (L ++ [d]) /\ w_removed w' = w_removed w /\ w_ext w' = w_ext w /\ w_comp w' = w_comp w.
Proof.
  intros w L s d R NI DS. unfold append_blob, mbind. destruct (count_ok w L R) as (w1 & E1 & V1 & S1 & _). rewrite E1. pose proof (keep w w1 L R V1 S1) as R1.
  pose proof S1 as (_ & _ & SR & SX & SC & _).
  destruct (set_ok w1 L (zlen L) s d R1) as (w2 & E2 & R2 & A & B & C); [pose proof (zlen_nonneg L); lia|rewrite SR; exact NI|exact DS|].
  rewrite E2. exists w2. rewrite append_replace in R2. split; [reflexivity|]. split; [exact R2|]. repeat split; congruence.
Qed.
Lemma empty_delivers : (0 < fuel)%nat -> delivers fuel empty_source [].
Proof. intro H. unfold delivers. cbn. repeat split; try reflexivity; try lia; try constructor. Qed.
Lemma empty_ok : forall w L i, (0 < fuel)%nat -> rep w L -> 0 <= i <= zlen L -> ~ In i (w_removed w) ->
  exists w', empty_blob ic i w = (Ok tt, w') /\ rep w' (replace_at i [] L) /\ w_removed w' = w_removed w /\ w_ext w' = w_ext w /\ w_comp w' = w_comp w.
Proof.
  intros w L i HF R Hi NI. unfold empty_blob. destruct (Z.ltb_spec i 0); [lia|]. apply set_ok; auto. apply empty_delivers. exact HF.
Qed.

Lemma shift_keys : forall (B : list (Z * source)) i k, ~ In i (map fst B) ->
  In k (map fst (map (fun p => (if i <? fst p then fst p - 1 else fst p, snd p)) B)) -> exists k', In k' (map fst B) /\ (k' < i /\ k = k' \/ i < k' /\ k = k' - 1).
Proof.
  intros B i k N H. rewrite map_map in H. cbn [fst] in H. apply in_map_iff in H as ([k' v] & E & Hin). cbn [fst] in E.
  assert (In k' (map fst B)) by (apply in_map_iff; exists (k', v); auto). exists k'. split; [assumption|].
  assert (k' <> i) by (intros ->; contradiction). destruct (Z.ltb_spec i k'); lia.
Qed.
(** Removing below everything removed before. *)
Lemma remove_ok : forall w L i, rep w L -> 0 <= i < zlen L -> Forall (fun r => i < r) (w_removed w) ->
  exists w', remove_blob i w = (Ok tt, w') /\ rep w' (remove_at i L) /\ (forall r, In r (w_removed w') -> r = i \/ In r (w_removed w)) /\
    w_ext w' = w_ext w /\ w_comp w' = w_comp w.
Proof.
  intros w L i R Hi F. unfold remove_blob. destruct (Z.ltb_spec i 0); [lia|]. rewrite (adjust_below _ _ F).
  rewrite zsort_app by exact (rp_sorted _ _ R).
  assert (NR : ~ In i (w_removed w)) by (intro X; rewrite Forall_forall in F; specialize (F i X); lia).
  assert (ND : ~ In i (map fst (ddel Z.eqb i (w_blobs w)))).
  { rewrite (ddel_keys _ Z.eqb_eq) by exact (rp_nodup _ _ R). tauto. }
  assert (DG : forall j, dget Z.eqb j (map (fun p => (if i <? fst p then fst p - 1 else fst p, snd p)) (ddel Z.eqb i (w_blobs w))) =
     dget Z.eqb (if j <? i then j else j + 1) (w_blobs w)).
  { intro j. rewrite dget_shift by exact ND. rewrite !(dget_ddel _ Z.eqb_eq) by exact (rp_nodup _ _ R).
    destruct (Z.ltb_spec j i); [destruct (Z.eqb_spec j i)|destruct (Z.eqb_spec (j + 1) i)]; try lia; reflexivity. }
  eexists. split; [reflexivity|]. cbn [w_removed w_ext w_comp]. split; [|split; [|auto]].
  2:{ intros r. destruct (zmem i (w_added w)); [auto|]. rewrite zinsert_in. tauto. }
  pose proof (remove_len i L Hi) as LL. pose proof (rp_len _ _ R) as RL. pose proof (rp_high _ _ R) as RH.
  apply mk_rep; cbn [w_in w_blobs w_added w_removed].
  - exact (rp_inv _ _ R).
  - apply shift_nodup; [apply ddel_nodup; [exact Z.eqb_eq|exact (rp_nodup _ _ R)]|exact ND].
  - rewrite LL. destruct (zmem i (w_added w)) eqn:M.
    + apply zmem_In in M. rewrite zremove_len by exact M. lia.
    + rewrite zremove_notin by (rewrite <- zmem_In; congruence). rewrite zinsert_len. lia.
  - intros j Hj. rewrite DG, remove_nth by exact Hi.
    pose proof (rp_item _ _ R (if j <? i then j else j + 1)) as IT. specialize (IT ltac:(destruct (j <? i); lia)).
    replace (if j <? i then znth L j else znth L (j + 1)) with (znth L (if j <? i then j else j + 1)) by (destruct (j <? i); reflexivity).
    destruct (dget Z.eqb _ (w_blobs w)); [exact IT|]. rewrite IT.
    destruct (zmem i (w_added w)) eqn:M.
    + apply zmem_In in M. pose proof (rp_added _ _ R i M F) as NI. destruct (Z.ltb_spec j i); [reflexivity|].
      rewrite !znth_none; [reflexivity| |]; [pose proof (adjust_ge (w_removed w) j)|pose proof (adjust_ge (w_removed w) (j + 1))]; lia.
    + assert (AI : adjust (w_removed w) i = i) by (apply adjust_below; exact F).
      pose proof (adjust_insert (w_removed w) i j (rp_sorted _ _ R)) as AJ. rewrite AI in AJ. rewrite AJ. destruct (j <? i); reflexivity.
  - intros k Hk. apply shift_keys in Hk as (k' & Hk' & C); [|exact ND]. rewrite (ddel_keys _ Z.eqb_eq) in Hk' by exact (rp_nodup _ _ R).
    destruct Hk' as (Hk' & _). apply (rp_keys _ _ R) in Hk'. lia.
  - rewrite LL. destruct (zmem i (w_added w)) eqn:M.
    + apply zmem_In in M. pose proof (rp_added _ _ R i M F). pose proof (adjust_ge (w_removed w) (zlen L - 1)). lia.
    + assert (AI : adjust (w_removed w) i = i) by (apply adjust_below; exact F).
      pose proof (adjust_insert (w_removed w) i (zlen L - 1) (rp_sorted _ _ R)) as AJ. rewrite AI in AJ. rewrite AJ.
      destruct (Z.ltb_spec (zlen L - 1) i); [lia|]. replace (zlen L - 1 + 1) with (zlen L) by lia. exact RH.
  - intros a Ha FA. apply zremove_incl in Ha. apply (rp_added _ _ R a Ha).
    destruct (zmem i (w_added w)); [exact FA|]. rewrite Forall_forall in *. intros r Hr. apply FA. apply zinsert_in. auto.
  - destruct (zmem i (w_added w)); [exact (rp_sorted _ _ R)|]. apply zinsert_sorted; [exact (rp_sorted _ _ R)|exact NR].
Qed.

(** A history of edits. *)
Definition forced_ext1 keeps (f : option bool) (e : edit) := match e with EForceExtension x => x | EReset => if keeps : bool then f else None | _ => f end.
Definition forced_comp1 keeps (f : option ctype) (e : edit) := match e with EForceCompression x => x | EReset => if keeps : bool then f else None | _ => f end.

Lemma edit_rep : forall e w L marks, (0 < fuel)%nat -> rep w L -> incl (w_removed w) marks -> edit_ok fuel L e -> edit_safe L marks e ->
  exists w', perform_edit ic fuel e w = (Ok tt, w') /\ rep w' (edit_list (in_empty ic) orig L e) /\ incl (w_removed w') (mark (in_empty ic) marks e) /\
    w_ext w' = forced_ext1 (in_empty ic) (w_ext w) e /\ w_comp w' = forced_comp1 (in_empty ic) (w_comp w) e.
Proof.
  intros e w L marks HF R IM OK SF. destruct e; cbn [edit_ok edit_safe perform_edit edit_list mark forced_ext1 forced_comp1] in *.
  - destruct (append_ok w L s d R) as (w' & E & R' & A & B & C); [intro X; apply SF; apply IM; exact X|exact OK|]. rewrite E. exists w'. rewrite A. auto.
  - destruct OK as (DS & Hi). destruct (set_ok w L i s d R Hi) as (w' & E & R' & A & B & C); [intro X; apply SF; apply IM; exact X|exact DS|]. exists w'. rewrite A. auto.
  - destruct (empty_ok w L i HF R OK) as (w' & E & R' & A & B & C); [intro X; apply SF; apply IM; exact X|]. exists w'. rewrite A. auto.
  - destruct (remove_ok w L i R OK) as (w' & E & R' & A & B & C); [rewrite Forall_forall in *; auto|]. exists w'. split; [exact E|]. split; [exact R'|]. split; [|auto].
    intros r Hr. apply A in Hr as [->|Hr]; [left; reflexivity|right; auto].
  - eexists. split; [reflexivity|]. split; [apply reset_rep; exact R|]. unfold wreset. destruct (in_empty ic); cbn; [auto|]. split; [intros x []|auto].
  - eexists. split; [reflexivity|]. cbn. split; [eapply rep_same; [exact R|exact (rp_inv _ _ R)|reflexivity..]|auto].
  - eexists. split; [reflexivity|]. cbn. split; [eapply rep_same; [exact R|exact (rp_inv _ _ R)|reflexivity..]|auto].
  - destruct OK as (A & B & C). destruct (wask_ok w L q R A B C) as (R' & S' & _). eexists. split; [reflexivity|]. split; [exact (keep _ _ _ R R' S')|].
    destruct S' as (_ & _ & -> & -> & -> & _). auto.
Qed.
Lemma edits_rep : forall h w L marks, (0 < fuel)%nat -> rep w L -> incl (w_removed w) marks ->
  history_ok fuel (in_empty ic) orig L h -> history_safe (in_empty ic) orig L marks h ->
  exists w', perform_edits ic fuel h w = (Ok tt, w') /\ rep w' (edit_lists (in_empty ic) orig h L) /\
    w_ext w' = fold_left (forced_ext1 (in_empty ic)) h (w_ext w) /\ w_comp w' = fold_left (forced_comp1 (in_empty ic)) h (w_comp w).
Proof.
  induction h as [|e h IH]; intros w L marks HF R IM OK SF; cbn [perform_edits].
  - exists w. auto.
  - cbn [history_ok history_safe] in *. destruct OK as (O1 & O2), SF as (F1 & F2).
    destruct (edit_rep e w L marks HF R IM O1 F1) as (w1 & E1 & R1 & I1 & X1 & C1). rewrite E1.
    destruct (IH w1 _ _ HF R1 I1 O2 F2) as (w2 & E2 & R2 & X2 & C2). exists w2. split; [exact E2|]. split; [exact R2|]. cbn [fold_left]. rewrite X2, C2, X1, C1. auto.
Qed.

(** ** Removals before anything else, in any order *)
Lemma removals_rep : forall rs w L, rep w L -> w_blobs w = [] -> w_added w = [] -> sel orig (w_removed w) L ->
  in_range L rs ->
  exists w', perform_edits ic fuel (map ERemove rs) w = (Ok tt, w') /\ rep w' (fold_left (fun l i => remove_at i l) rs L) /\
    w_removed w' = removed_after rs (w_removed w) /\ w_ext w' = w_ext w /\ w_comp w' = w_comp w.
Proof.
  induction rs as [|i rs IH]; intros w L R EB EA SL OK; cbn [map perform_edits fold_left removed_after].
  - exists w. auto.
  - destruct OK as (Hi & OK). cbn [perform_edit]. unfold remove_blob. destruct (Z.ltb_spec i 0); [lia|]. rewrite EA, EB. cbn [zmem existsb zremove ddel map].
    rewrite zsort_app by exact (rp_sorted _ _ R).
    pose proof (sel_step _ _ _ _ SL Hi) as SL'.
    match goal with |- context [perform_edits ic fuel _ ?x] => set (w1 := x) end.
    assert (R1 : rep w1 (remove_at i L)).
    { subst w1. apply mk_rep; cbn [w_in w_blobs w_added w_removed].
      - exact (rp_inv _ _ R).
      - constructor.
      - destruct SL' as (_ & -> & _). change (zlen (@nil Z)) with 0. lia.
      - intros j Hj. cbn [dget]. destruct SL' as (_ & _ & X & _). apply X. lia.
      - intros k [].
      - apply (sel_high _ _ _ SL').
      - intros a [].
      - exact (proj1 SL'). }
    destruct (IH w1 _ R1) as (w2 & E2 & R2 & A2 & B2 & C2); [reflexivity|reflexivity|exact SL'|exact OK|].
    exists w2. split; [exact E2|]. split; [exact R2|]. split; [exact A2|]. auto.
Qed.

Lemma edits_app : forall h1 h2 w w1, perform_edits ic fuel h1 w = (Ok tt, w1) -> perform_edits ic fuel (h1 ++ h2) w = perform_edits ic fuel h2 w1.
Proof.
  induction h1 as [|e h1 IH]; intros h2 w w1 H; cbn [perform_edits app] in *; [congruence|].
  destruct (perform_edit ic fuel e w) as [[[]|x] w']; [eauto|discriminate].
Qed.

(** Everything about editing. *)
Lemma history_rep : forall rs h c, (0 < fuel)%nat -> Inv c -> in_range orig rs ->
  let L := fold_left (fun l i => remove_at i l) rs orig in
  history_ok fuel (in_empty ic) orig L h -> history_safe (in_empty ic) orig L (gone n rs) h ->
  exists w', perform_edits ic fuel (map ERemove rs ++ h) (wrap ic c) = (Ok tt, w') /\ rep w' (edit_lists (in_empty ic) orig h L) /\
    w_ext w' = forced_extension (in_empty ic) h /\ w_comp w' = forced_compression (in_empty ic) h.
Proof.
  intros rs h c HF IC IR L OK SF. pose proof (wrap_rep c IC) as R0.
  destruct (removals_rep rs (wrap ic c) orig R0 eq_refl eq_refl (sel_nil orig) IR) as (w1 & E1 & R1 & A1 & X1 & C1).
  destruct (edits_rep h w1 L (gone n rs) HF R1) as (w2 & E2 & R2 & X2 & C2); [|exact OK|exact SF|].
  - rewrite A1. cbn [wrap w_removed]. intros x Hx. eapply removed_gone; [exact IR|exact Hx].
  - exists w2. rewrite (edits_app _ _ _ _ E1). split; [exact E2|]. split; [exact R2|]. rewrite X2, C2, X1, C1. auto.
Qed.

(** The width is right. *)
Lemma unmodified : forall w L, view w L -> has_modifications w = false -> L = orig.
Proof.
  intros w L R H. unfold has_modifications in H. destruct (w_blobs w) eqn:B; [|discriminate]. destruct (w_added w) eqn:A; [|discriminate].
  destruct (w_removed w) eqn:RM; [|discriminate]. pose proof (vw_len _ _ R) as RL. rewrite A, RM in RL. change (zlen (@nil Z)) with 0 in RL.
  apply znth_ext; [lia|]. intros i Hi. pose proof (vw_item _ _ R i Hi) as IT. rewrite B, RM in IT. exact IT.
Qed.
Lemma wwide_ok : forall w L, view w L -> width_ok (w_ext w) ext orig L (wwide w L).
Proof.
  intros w L R. unfold width_ok, wwide, wide. destruct (w_ext w); [reflexivity|].
  destruct (has_modifications w) eqn:M; [left; apply Z.leb_le|right]. split; [exact (unmodified w L R M)|reflexivity].
Qed.
Lemma edited_known : forall w L, view w L -> L <> orig -> width_known w.
Proof.
  intros w L R N. right. left. destruct (has_modifications w) eqn:M; [reflexivity|]. exfalso. apply N. exact (unmodified w L R M).
Qed.

(** ** Writing *)
Definition chunks_at (B : list (Z * source)) (L : list bytes) (i : Z) : list bytes :=
  match dget Z.eqb i B with
  | Some s => match read_all fuel 8192 (s_blob s) with Ok l => l | Err _ => [] end
  | None => match znth L i with Some b => [b] | None => [] end
  end.
Lemma part_whole : forall b, part None None b = b.
Proof. intros b. unfold part, zsub. rewrite Z.sub_0_r, zskip_0. apply ztake_all. lia. Qed.
Lemma raw_blob_ok : forall w L i, view w L -> 0 <= i < zlen L ->
  exists w', raw_blob ic fuel i w = (Ok (chunks_at (w_blobs w) L i), w') /\ view w' L /\ same w w' /\
    (forall b, znth L i = Some b -> concat (chunks_at (w_blobs w) L i) = b).
Proof.
  intros w L i R Hi. unfold raw_blob, chunks_at. destruct (znth_in L i Hi) as (b & EB). rewrite EB.
  pose proof (vw_item _ _ R i Hi) as IT. destruct (dget Z.eqb i (w_blobs w)) as [sc|].
  - destruct IT as (d & EL & DS). destruct (read_all_ok sc d 8192 DS) as (xs & ER & C); [lia|]. rewrite ER. exists w. split; [reflexivity|]. split; [exact R|].
    split; [apply same_refl|]. intros b' H. rewrite C. congruence.
  - rename IT into EL. pose proof (adjust_ge (w_removed w) i).
    destruct (ho_read _ _ _ _ _ HO (w_in w) (adjust (w_removed w) i) None None (vw_inv _ _ R)) as (c' & E & H' & K); [lia|repeat split|exact Logic.I|].
    destruct (lift_ok _ _ _ _ _ _ R E H' K) as (w' & E' & R' & S' & _). unfold mbind. rewrite E'. rewrite <- EL, EB, part_whole. exists w'.
    split; [reflexivity|]. split; [exact R'|]. split; [exact S'|]. intros b' X. cbn. rewrite app_nil_r. congruence.
Qed.
Lemma raw_blobs_ok : forall L m k w0 w, view w L -> same w0 w -> (k + m <= length L)%nat ->
  exists w', mmap (raw_blob ic fuel) (map Z.of_nat (seq k m)) w = (Ok (map (chunks_at (w_blobs w0) L) (map Z.of_nat (seq k m))), w') /\ view w' L /\ same w0 w' /\
    concat (concat (map (chunks_at (w_blobs w0) L) (map Z.of_nat (seq k m)))) = concat (firstn m (skipn k L)).
Proof.
  intros L m. induction m as [|m IH]; intros k w0 w R S0 HL; cbn [seq map mmap].
  - exists w. auto.
  - unfold mbind. destruct (raw_blob_ok w L (Z.of_nat k) R) as (w1 & E1 & R1 & S1 & C1); [unfold zlen; lia|]. rewrite E1.
    destruct (IH (S k) w0 w1 R1) as (w2 & E2 & R2 & S2 & C2); [eapply same_trans; eassumption|lia|]. rewrite E2.
    pose proof S0 as (SB & _). rewrite SB in *. exists w2. split; [reflexivity|]. split; [exact R2|]. split; [exact S2|].
    cbn [concat]. rewrite concat_app, C2.
    destruct (nth_error L k) as [b|] eqn:EB; [|apply nth_error_None in EB; lia].
    rewrite (C1 b) by (unfold znth; destruct (Z.ltb_spec (Z.of_nat k) 0); [lia|]; rewrite Nat2Z.id; exact EB).
    rewrite (skipn_nth L k b EB). reflexivity.
Qed.

Variable K : Type.
Variable new_comp : ctype -> res K.
Variable comp : K -> bytes -> res (bytes * K).
Variable flush : K -> res bytes.

Definition compression_of (w : wrapper I) : ctype := match w_comp w with Some c => c | None => ct end.

Lemma iter_write_eq : forall w L b k, view w L -> new_comp (compression_of w) = Ok k -> generate_infobyte (compression_of w) (wwide w L) = Ok b ->
  exists w', view w' L /\ (same w w' /\ knows w') /\
  iter_write ic fuel K new_comp comp flush w =
    (do offs <- pack_offsets (pointer_bytes (wwide w L)) (pointers_size (wwide w L) L) (map zlen L) ;;
     do out <- compress_all K comp flush k (offs :: concat (map (chunks_at (w_blobs w) L) (zrange (zlen L)))) ;;
     Ok ([b] :: out), w').
Proof.
  intros w L b k R NC GI. unfold iter_write, mbind.
  destruct (ho_info _ _ _ _ _ HO (w_in w) (vw_inv _ _ R)) as (c' & E & H & KN).
  destruct (lift_ok _ _ _ _ _ _ R E H KN) as (w1 & E1 & R1 & S1 & K1). rewrite E1. clear E H KN.
  unfold winfobyte, mbind. destruct (extended_ok w1 L R1 (knows_width _ K1)) as (w2 & E2 & R2 & S2). rewrite E2.
  assert (CO : forall x, same w x -> knows x -> wcompression ic x = Some (compression_of w)).
  { intros x SX KX. unfold wcompression, compression_of. destruct SX as (_ & _ & _ & _ & -> & _). rewrite KX. destruct (w_comp w); reflexivity. }
  assert (S12 : same w w2) by (eapply same_trans; eassumption). assert (K2 : knows w2) by (apply S2; exact K1).
  rewrite (same_wide _ _ _ S1). rewrite (CO w2 S12 K2), GI. cbv beta iota. rewrite (CO w2 S12 K2), NC.
  unfold iter_write_raw, mbind. destruct (offset_size_ok w2 L R2 (knows_width _ K2)) as (w3 & E3 & R3 & S3). rewrite E3.
  rewrite (same_wide _ _ _ S12). assert (S13 : same w w3) by (eapply same_trans; eassumption).
  destruct (sizes_ok w3 L R3) as (w4 & E4 & R4 & S4 & K4). rewrite E4. assert (S14 : same w w4) by (eapply same_trans; eassumption).
  destruct (pointer_ok w4 L R4 (knows_width _ K4)) as (w5 & E5 & R5 & S5). rewrite E5. rewrite (same_wide _ _ _ S14). assert (S15 : same w w5) by (eapply same_trans; eassumption).
  rewrite ptr_size_bytes, Nat2Z.id. unfold pure at 1.
  destruct (pack_offsets _ _ _) as [offs|x]; [|exists w5; split; [exact R5|]; split; [split; [exact S15|apply S5; exact K4]|reflexivity]].
  destruct (count_ok w5 L R5) as (w6 & E6 & R6 & S6 & K6). rewrite E6. assert (S16 : same w w6) by (eapply same_trans; eassumption).
  destruct (raw_blobs_ok L (Z.to_nat (zlen L)) 0 w w6 R6 S16) as (w7 & E7 & R7 & S7 & _); [unfold zlen; lia|].
  destruct (raw_blobs_ok L (Z.to_nat (zlen L)) 0 w6 w6 R6 (same_refl w6)) as (w8 & E8 & _ & S8 & _); [unfold zlen; lia|].
  assert (w8 = w7) by (rewrite E7 in E8; apply (f_equal snd) in E8; symmetry; exact E8). subst w8.
  unfold zrange. rewrite E7. unfold ret, pure. exists w7. split; [exact R7|]. split; [split; [exact S7|apply S8; exact K6]|].
  cbn [bind]. destruct (compress_all _ _ _ _ _); reflexivity.
Qed.

Lemma pack_ok : forall p L cur, 0 <= cur -> cur + zlen (concat L) < 256 ^ Z.of_nat p ->
  pack_offsets p cur (map zlen L) = Ok (concat (map (le_bytes p) (positions_from cur L))).
Proof.
  intros p. induction L as [|b L IH]; intros cur Hc H; cbn [map pack_offsets positions_from concat] in *.
  - change (zlen (@nil byte)) with 0 in H. rewrite pack_le_ok by lia. rewrite app_nil_r. reflexivity.
  - rewrite zlen_app in H. pose proof (zlen_nonneg b). pose proof (zlen_nonneg (concat L)). rewrite pack_le_ok by lia. cbn [bind].
    rewrite IH by lia. reflexivity.
Qed.
Lemma pack_fails : forall p (L : list bytes) cur, 0 <= cur -> 256 ^ Z.of_nat p <= cur + zlen (concat L) -> pack_offsets p cur (map zlen L) = Err StructError.
Proof.
  intros p. induction L as [|b L IH]; intros cur Hc H; cbn [map pack_offsets concat] in *.
  - change (zlen (@nil byte)) with 0 in H. unfold pack_le. replace (cur <? 256 ^ Z.of_nat p) with false by (symmetry; apply Z.ltb_ge; lia).
    rewrite andb_false_r. reflexivity.
  - rewrite zlen_app in H. pose proof (zlen_nonneg b). unfold pack_le. destruct ((0 <=? cur) && (cur <? 256 ^ Z.of_nat p)); [|reflexivity].
    cbn [bind]. rewrite IH by lia. reflexivity.
Qed.

Variable Stream : ctype -> bytes -> bytes -> Prop.
Hypothesis CO : compressor_ok new_comp comp flush Stream.

Lemma iter_write_ok : forall w L k, view w L -> new_comp (compression_of w) = Ok k -> compression_of w <> UNKNOWN ->
  (fits (wwide w L) L -> exists l w' b C, iter_write ic fuel K new_comp comp flush w = (Ok l, w') /\ view w' L /\ same w w' /\
     concat l = b :: C /\ parse_infobyte b = Ok (compression_of w, wwide w L) /\ Stream (compression_of w) C (cluster_data (wwide w L) L)) /\
  (~ fits (wwide w L) L -> fst (iter_write ic fuel K new_comp comp flush w) = Err StructError).
Proof.
  intros w L k R NC NU. destruct (infobyte_roundtrip _ (wwide w L) NU) as (b & GI & PI & _).
  destruct (iter_write_eq w L b k R NC GI) as (w' & R' & (S' & _) & E). rewrite E. unfold fits.
  pose proof (zlen_nonneg L). assert (0 <= pointers_size (wwide w L) L) by (unfold pointers_size; lia).
  split; intro FI.
  - rewrite pack_ok by lia. cbn [bind].
    set (chunks := _ :: _). destruct (CO _ k chunks NC) as (out & EO & ST). apply compresses_iff in EO. rewrite EO. cbn [bind].
    exists ([b] :: out), w', b, (concat out). split; [reflexivity|]. split; [exact R'|]. split; [exact S'|]. split; [reflexivity|]. split; [exact PI|].
    replace (cluster_data (wwide w L) L) with (concat chunks); [exact ST|]. subst chunks. cbn [concat]. unfold cluster_data, positions. f_equal.
    destruct (raw_blobs_ok L (Z.to_nat (zlen L)) 0 w w R (same_refl w)) as (w7 & _ & _ & _ & C); [unfold zlen; lia|].
    unfold zrange. rewrite C. cbn [skipn]. unfold zlen. rewrite Nat2Z.id, firstn_all. reflexivity.
  - rewrite pack_fails by lia. reflexivity.
Qed.
(** Sizes on disk: as written, before and after. *)
Lemma disk_size_ok : forall w L k l w', view w L -> new_comp (compression_of w) = Ok k -> compression_of w <> UNKNOWN ->
  iter_write ic fuel K new_comp comp flush w = (Ok l, w') ->
  fst (wdisk_size ic fuel K new_comp comp flush w) = Ok (zlen (concat l)) /\ fst (wdisk_size ic fuel K new_comp comp flush w') = Ok (zlen (concat l)).
Proof.
  intros w L k l w' R NC NU E. destruct (infobyte_roundtrip _ (wwide w L) NU) as (b & GI & _).
  destruct (iter_write_eq w L b k R NC GI) as (w1 & R1 & (S1 & _) & E1). rewrite E in E1.
  pose proof (f_equal snd E1) as E0. apply (f_equal fst) in E1. cbn [fst snd] in E0, E1. subst w1.
  unfold wdisk_size, mbind. rewrite E. split; [reflexivity|].
  assert (CW : compression_of w' = compression_of w) by (unfold compression_of; destruct S1 as (_ & _ & _ & _ & -> & _); reflexivity).
  destruct (iter_write_eq w' L b k R1) as (w2 & R2 & S2 & E2); [rewrite CW; exact NC|rewrite CW, (same_wide _ _ _ S1); exact GI|].
  rewrite E2, (same_wide _ _ _ S1). pose proof S1 as (-> & _). rewrite <- E1. reflexivity.
Qed.

Lemma written_known : forall w L k l w', view w L -> new_comp (compression_of w) = Ok k -> compression_of w <> UNKNOWN ->
  iter_write ic fuel K new_comp comp flush w = (Ok l, w') -> width_known w'.
Proof.
  intros w L k l w' R NC NU E. destruct (infobyte_roundtrip _ (wwide w L) NU) as (b & GI & _).
  destruct (iter_write_eq w L b k R NC GI) as (w1 & _ & (_ & K1) & E1). rewrite E in E1.
  apply (f_equal snd) in E1. cbn [snd] in E1. subst w1. apply knows_width. exact K1.
Qed.

(** ** Any state *)
Definition sane (w : wrapper I) : Prop := Inv (w_in w) /\ forall k s, In (k, s) (w_blobs w) -> exists d, delivers fuel s d.
Definition pres {A} (m : M (wrapper I) A) : Prop := forall w, Inv (w_in w) -> Inv (w_in (snd (m w))) /\ same w (snd (m w)).

Lemma pres_ret : forall A (x : A), pres (ret x). Proof. intros A x w H. split; [exact H|apply same_refl]. Qed.
Lemma pres_pure : forall A (x : res A), pres (pure x). Proof. intros A x w H. split; [exact H|apply same_refl]. Qed.
Lemma pres_raise : forall A e, pres (@raise _ A e). Proof. intros A e w H. split; [exact H|apply same_refl]. Qed.
Lemma pres_bind : forall A B (m : M (wrapper I) A) (k : A -> M (wrapper I) B), pres m -> (forall x, pres (k x)) -> pres (mbind m k).
Proof.
  intros A B m k PM PK w H. unfold mbind. destruct (PM w H) as (I1 & S1). destruct (m w) as [[x|e] w1]; cbn [fst snd] in *; [|auto].
  destruct (PK x w1 I1) as (I2 & S2). split; [exact I2|eapply same_trans; eassumption].
Qed.
Lemma pres_lift : forall A (m : M I A), (forall c, Inv c -> Inv (snd (m c)) /\ in_attr ic (snd (m c)) = Some (ct, ext)) -> pres (lift m).
Proof. intros A m PM w H. unfold lift. destruct (PM _ H) as (I1 & K1). destruct (m (w_in w)) as [x c]. cbn in *. unfold same, knows. cbn. auto 10. Qed.
Lemma pres_info : pres (lift (in_info ic)).
Proof. apply pres_lift. intros c H. destruct (ho_info _ _ _ _ _ HO c H) as (c' & -> & A & B). auto. Qed.
Lemma pres_blobs : pres (lift (in_blobs ic)).
Proof. apply pres_lift. intros c H. destruct (ho_blobs _ _ _ _ _ HO c H) as (c' & -> & A & B). auto. Qed.
Lemma pres_size : forall i, 0 <= i -> pres (wblob_size ic i).
Proof.
  intros i Hi w H. unfold wblob_size. destruct (dget Z.eqb i (w_blobs w)); [split; [exact H|apply same_refl]|]. apply pres_lift; [|exact H].
  intros c Hc. destruct (ho_size _ _ _ _ _ HO c (adjust (w_removed w) i) Hc) as (c' & -> & A & B); [pose proof (adjust_ge (w_removed w) i); lia|auto].
Qed.
Lemma pres_mmap : forall A B (g : A -> M (wrapper I) B) l, (forall x, In x l -> pres (g x)) -> pres (mmap g l).
Proof.
  intros A B g l. induction l as [|x l IH]; intros H; cbn [mmap]; [apply pres_ret|]. apply pres_bind; [apply H; left; reflexivity|].
  intros y. apply pres_bind; [apply IH; intros z Hz; apply H; right; exact Hz|]. intros ys. apply pres_ret.
Qed.
Lemma pres_offsets_count : pres (wnumber_of_offsets ic).
Proof. apply pres_bind; [apply pres_blobs|]. intros x w H. split; [exact H|apply same_refl]. Qed.
Lemma pres_count : pres (wnumber_of_blobs ic). Proof. apply pres_bind; [apply pres_offsets_count|intros x; apply pres_ret]. Qed.
Lemma pres_sizes : pres (wsizes ic).
Proof. apply pres_bind; [apply pres_count|]. intros m. apply pres_mmap. intros x Hx. apply zrange_in in Hx. apply pres_size. lia. Qed.
Lemma pres_content : pres (wcontent_size ic). Proof. apply pres_bind; [apply pres_sizes|intros x; apply pres_ret]. Qed.
Lemma pres_extended : pres (wis_extended ic).
Proof.
  intros w H. unfold wis_extended. destruct (w_ext w); [split; [exact H|apply same_refl]|]. destruct (negb _); [split; [exact H|apply same_refl]|].
  revert w H. apply pres_bind; [apply pres_info|]. intros _. apply pres_bind; [apply pres_offsets_count|]. intros m. apply pres_bind; [apply pres_sizes|]. intros l. apply pres_ret.
Qed.
Lemma pres_pointer : pres (wpointer_size ic).
Proof. apply pres_bind; [apply pres_extended|]. intros [b|]; [apply pres_ret|apply pres_raise]. Qed.
Lemma pres_offset_size : pres (wtotal_offset_size ic).
Proof. apply pres_bind; [apply pres_pointer|]. intros p. apply pres_bind; [apply pres_offsets_count|]. intros m. apply pres_ret. Qed.
Lemma pres_total : pres (wtotal_decompressed_size ic).
Proof. apply pres_bind; [apply pres_offset_size|]. intros a. apply pres_bind; [apply pres_content|]. intros b. apply pres_ret. Qed.
Lemma pres_offsets_loop : forall ns m l cur, (forall x, In x l -> 0 <= x) -> pres (woffsets_loop ic l ns m cur).
Proof.
  intros ns m. induction l as [|i l IH]; intros cur H; cbn [woffsets_loop]; [apply pres_ret|].
  destruct (i =? m - 1); [apply pres_ret|]. apply pres_bind; [apply pres_size; apply H; left; reflexivity|]. intros sz.
  apply pres_bind; [apply IH; intros x Hx; apply H; right; exact Hx|]. intros xs. apply pres_ret.
Qed.
Lemma pres_offsets : forall ns, pres (woffsets ic ns).
Proof.
  intros ns. apply pres_bind; [apply pres_offset_size|]. intros st. apply pres_bind; [apply pres_offsets_count|]. intros m.
  apply pres_offsets_loop. intros x Hx. apply zrange_in in Hx. lia.
Qed.
Lemma pres_get_offset : forall i, pres (wget_offset ic i).
Proof. intros i. unfold wget_offset. destruct (i <? 0); [apply pres_raise|]. apply pres_bind; [apply pres_offsets|]. intros [|x l]; [apply pres_raise|apply pres_ret]. Qed.
Lemma pres_read : forall i e, 0 <= i -> sensible_range None e -> pres (wread_blob ic fuel i None e).
Proof.
  intros i e Hi SR w H. unfold wread_blob. destruct (dget Z.eqb i (w_blobs w)).
  - revert w H. apply pres_bind; [apply pres_pure|]. intros x. apply pres_ret.
  - apply pres_lift; [|exact H]. intros c Hc.
    destruct (ho_read _ _ _ _ _ HO c (adjust (w_removed w) i) None e Hc) as (c' & -> & A & B); [pose proof (adjust_ge (w_removed w) i); lia|exact SR|exact Logic.I|auto].
Qed.
Lemma pres_iter : forall i m e, 0 <= i -> 1 <= m -> sensible_range None e -> pres (witer_read_blob ic fuel i m None e).
Proof.
  intros i m e Hi Hm SR w H. unfold witer_read_blob. destruct (dget Z.eqb i (w_blobs w)).
  - revert w H. apply pres_bind; [apply pres_pure|]. intros x. apply pres_ret.
  - apply pres_lift; [|exact H]. intros c Hc.
    destruct (ho_iter _ _ _ _ _ HO c (adjust (w_removed w) i) m None e Hc) as (x & c' & -> & A & B & _); [pose proof (adjust_ge (w_removed w) i); lia|exact Hm|exact SR|exact Logic.I|auto].
Qed.

Lemma same_sane : forall w w', sane w -> Inv (w_in w') -> same w w' -> sane w'.
Proof. intros w w' (A & B) I1 (E & _). split; [exact I1|]. rewrite E. exact B. Qed.
Lemma dset_in : forall (B : list (Z * source)) i s k v, In (k, v) (dset Z.eqb i s B) -> (k = i /\ v = s) \/ In (k, v) B.
Proof.
  induction B as [|[a b] B IH]; intros i s k v H; cbn [dset] in H; [destruct H as [H|[]]; injection H as <- <-; auto|].
  destruct (Z.eqb_spec i a) as [->|N].
  - destruct H as [H|H]; [injection H as <- <-; auto|right; right; exact H].
  - destruct H as [H|H]; [right; left; exact H|]. apply IH in H as [H|H]; [auto|right; right; exact H].
Qed.
Lemma ddel_in : forall (B : list (Z * source)) i k v, In (k, v) (ddel Z.eqb i B) -> In (k, v) B.
Proof.
  induction B as [|[a b] B IH]; intros i k v H; cbn [ddel] in H; [exact H|]. destruct (i =? a); [right; exact H|].
  destruct H as [H|H]; [left; exact H|right; eapply IH; exact H].
Qed.
Lemma set_sane : forall i s d w, sane w -> delivers fuel s d -> sane (snd (set_blob ic i s w)).
Proof.
  intros i s d w SA DS. unfold set_blob, mbind. destruct (pres_count w (proj1 SA)) as (I1 & S1).
  destruct (wnumber_of_blobs ic w) as [[m|e] w1]; cbn [snd] in *; [|eapply same_sane; eassumption].
  pose proof (same_sane _ _ SA I1 S1) as SA1. destruct (m <? i); [exact SA1|]. cbn [snd]. split; [exact I1|]. cbn [w_blobs].
  intros k v H. apply dset_in in H as [(-> & ->)|H]; [eauto|exact (proj2 SA1 k v H)].
Qed.
Lemma edit_sane : forall e w, (0 < fuel)%nat -> sane w -> any_edit fuel e -> sane (snd (perform_edit ic fuel e w)).
Proof.
  intros e w HF SA OK. destruct e; cbn [any_edit perform_edit] in *.
  - unfold append_blob, mbind. destruct (pres_count w (proj1 SA)) as (I1 & S1).
    destruct (wnumber_of_blobs ic w) as [[m|e] w1]; cbn [snd] in *; [|eapply same_sane; eassumption].
    pose proof (set_sane m s d w1 (same_sane _ _ SA I1 S1) OK) as R. destruct (set_blob ic m s w1) as [[u|e] w2]; exact R.
  - exact (set_sane i s d w SA OK).
  - unfold empty_blob. destruct (i <? 0); [exact SA|]. exact (set_sane i empty_source [] w SA (empty_delivers HF)).
  - unfold remove_blob. destruct (i <? 0); [exact SA|]. cbn [snd]. split; [exact (proj1 SA)|]. cbn [w_blobs]. intros k v H.
    apply in_map_iff in H as ([k' v'] & E & H). cbn [fst snd] in E. injection E as _ ->. apply ddel_in in H. exact (proj2 SA _ _ H).
  - unfold wreset. destruct (in_empty ic); cbn [snd]; [exact SA|]. split; [apply (ho_reset _ _ _ _ _ HO); exact (proj1 SA)|intros k v []].
  - exact SA.
  - exact SA.
  - destruct OK as (SE & NS). assert (G : Inv (w_in (snd (wask ic fuel q w))) /\ same w (snd (wask ic fuel q w))).
    { destruct SA as (IW & _). clear -HO IW SE NS.
      assert (X : forall A (m : M (wrapper I) A) (h : res A -> cans), pres m -> Inv (w_in (snd (let '(r, w) := m w in (h r, w)))) /\ same w (snd (let '(r, w) := m w in (h r, w)))).
      { intros A m h PM. pose proof (PM w IW) as X. destruct (m w) as [r w1]. exact X. }
      destruct q; cbn [wask sensible] in *; try (split; [exact IW|apply same_refl]).
      - apply (X _ (woffsets ic numbers)), pres_offsets.
      - apply (X _ (wget_offset ic i)), pres_get_offset.
      - apply (X _ (wnumber_of_offsets ic)), pres_offsets_count.
      - apply (X _ (wnumber_of_blobs ic)), pres_count.
      - apply (X _ (wcontent_size ic)), pres_content.
      - apply (X _ (wtotal_decompressed_size ic)), pres_total.
      - apply (X _ (wtotal_offset_size ic)), pres_offset_size.
      - apply (X _ (wblob_size ic i)), pres_size; exact SE.
      - subst start. apply (X _ (wread_blob ic fuel i None stop)), pres_read; tauto.
      - subst start. apply (X _ (witer_read_blob ic fuel i buffersize None stop)), pres_iter; tauto. }
    cbn [snd]. destruct G as (I1 & S1). eapply same_sane; eassumption.
Qed.
Lemma run_sane : forall h w, (0 < fuel)%nat -> sane w -> Forall (any_edit fuel) h -> sane (run_edits ic fuel h w).
Proof.
  induction h as [|e h IH]; intros w HF SA F; [exact SA|]. inversion F; subst. unfold run_edits in *. cbn [fold_left]. apply IH; [exact HF|apply edit_sane; assumption|assumption].
Qed.
Lemma wrap_sane : forall c, Inv c -> sane (wrap ic c).
Proof. intros c H. split; [exact (rp_inv _ _ (wrap_rep c H))|intros k s []]. Qed.

Lemma edit_forced : forall e w, sane w -> any_edit fuel e ->
  w_ext (snd (perform_edit ic fuel e w)) = forced_ext1 (in_empty ic) (w_ext w) e /\
  w_comp (snd (perform_edit ic fuel e w)) = forced_comp1 (in_empty ic) (w_comp w) e.
Proof.
  intros e w SA OK.
  assert (SETF : forall i s x, sane x -> w_ext (snd (set_blob ic i s x)) = w_ext x /\ w_comp (snd (set_blob ic i s x)) = w_comp x).
  { intros i s x SX. unfold set_blob, mbind. destruct (pres_count x (proj1 SX)) as (_ & S1).
    destruct (wnumber_of_blobs ic x) as [[m|y] w1]; cbn [snd] in *; destruct S1 as (_ & _ & _ & A & B & _); [|auto]. destruct (m <? i); cbn; auto. }
  destruct e; cbn [any_edit perform_edit forced_ext1 forced_comp1] in *.
  - unfold append_blob, mbind. destruct (pres_count w (proj1 SA)) as (I1 & S1).
    destruct (wnumber_of_blobs ic w) as [[m|y] w1]; cbn [snd] in *; [|destruct S1 as (_ & _ & _ & A & B & _); auto].
    destruct (SETF m s w1 (same_sane _ _ SA I1 S1)) as (A1 & B1). destruct S1 as (_ & _ & _ & A & B & _).
    destruct (set_blob ic m s w1) as [[u|y] w2]; cbn in *; split; congruence.
  - apply SETF. exact SA.
  - unfold empty_blob. destruct (i <? 0); [auto|]. apply SETF. exact SA.
  - unfold remove_blob. destruct (i <? 0); auto.
  - unfold wreset. destruct (in_empty ic); auto.
  - auto.
  - auto.
  - cbn [snd]. assert (G : same w (snd (wask ic fuel q w))).
    { destruct OK as (SE & NS). destruct SA as (IW & _). clear -HO IW SE NS.
      assert (X : forall A (m : M (wrapper I) A) (h : res A -> cans), pres m -> same w (snd (let '(r, w) := m w in (h r, w)))).
      { intros A m h PM. pose proof (PM w IW) as X. destruct (m w) as [r w1]. exact (proj2 X). }
      destruct q; cbn [wask sensible] in *; try apply same_refl.
      - apply (X _ (woffsets ic numbers)), pres_offsets.
      - apply (X _ (wget_offset ic i)), pres_get_offset.
      - apply (X _ (wnumber_of_offsets ic)), pres_offsets_count.
      - apply (X _ (wnumber_of_blobs ic)), pres_count.
      - apply (X _ (wcontent_size ic)), pres_content.
      - apply (X _ (wtotal_decompressed_size ic)), pres_total.
      - apply (X _ (wtotal_offset_size ic)), pres_offset_size.
      - apply (X _ (wblob_size ic i)), pres_size; exact SE.
      - subst start. apply (X _ (wread_blob ic fuel i None stop)), pres_read; tauto.
      - subst start. apply (X _ (witer_read_blob ic fuel i buffersize None stop)), pres_iter; tauto. }
    destruct G as (_ & _ & _ & A & B & _). auto.
Qed.
Lemma run_forced : forall h w, (0 < fuel)%nat -> sane w -> Forall (any_edit fuel) h ->
  w_ext (run_edits ic fuel h w) = fold_left (forced_ext1 (in_empty ic)) h (w_ext w) /\
  w_comp (run_edits ic fuel h w) = fold_left (forced_comp1 (in_empty ic)) h (w_comp w).
Proof.
  induction h as [|e h IH]; intros w HF SA F; [auto|]. inversion F; subst. unfold run_edits in *. cbn [fold_left].
  destruct (edit_forced e w SA H1) as (A & B). rewrite <- A, <- B. apply IH; [exact HF|apply edit_sane; assumption|assumption].
Qed.

(** Which indices can be read. *)
Definition avail (w : wrapper I) (i : Z) : Prop := dget Z.eqb i (w_blobs w) <> None \/ adjust (w_removed w) i < n.
Lemma size_avail : forall w i y w', sane w -> 0 <= i -> wblob_size ic i w = (Ok y, w') -> avail w i.
Proof.
  intros w i y w' SA Hi E. unfold wblob_size in E. unfold avail. destruct (dget Z.eqb i (w_blobs w)); [left; discriminate|right].
  pose proof (adjust_ge (w_removed w) i).
  destruct (ho_size _ _ _ _ _ HO (w_in w) (adjust (w_removed w) i) (proj1 SA)) as (c' & EC & _); [lia|].
  unfold lift in E. rewrite EC in E. destruct (znth orig (adjust (w_removed w) i)) eqn:Z; [apply znth_some in Z; lia|discriminate].
Qed.
Lemma sizes_avail : forall l w ys w', sane w -> (forall x, In x l -> 0 <= x) -> mmap (wblob_size ic) l w = (Ok ys, w') -> Forall (avail w) l.
Proof.
  induction l as [|i l IH]; intros w ys w' SA HP E; [constructor|]. cbn [mmap] in E. unfold mbind in E.
  assert (Hi : 0 <= i) by (apply HP; left; reflexivity). destruct (pres_size i Hi w (proj1 SA)) as (I1 & S1).
  destruct (wblob_size ic i w) as [[y|e] w1] eqn:E1; [|discriminate]. cbn [snd] in *. pose proof (same_sane _ _ SA I1 S1) as SA1.
  destruct (mmap (wblob_size ic) l w1) as [[zs|e] w2] eqn:E2; [|discriminate].
  constructor; [eapply size_avail; eassumption|]. pose proof (IH w1 zs w2 SA1 (fun x Hx => HP x (or_intror Hx)) E2) as F.
  eapply Forall_impl; [|exact F]. intros x. unfold avail. destruct S1 as (-> & _ & -> & _). auto.
Qed.
Lemma build_view : forall w m, sane w -> (forall i, (i < m)%nat -> avail w (Z.of_nat i)) -> exists L, length L = m /\
  forall i, 0 <= i < Z.of_nat m -> match dget Z.eqb i (w_blobs w) with
    | Some s => exists d, znth L i = Some d /\ delivers fuel s d
    | None => znth L i = znth orig (adjust (w_removed w) i)
    end.
Proof.
  intros w m SA. induction m as [|m IH]; intros H; [exists []; split; [reflexivity|lia]|].
  destruct IH as (L & LL & IT); [intros i Hi; apply H; lia|].
  assert (G : exists b, match dget Z.eqb (Z.of_nat m) (w_blobs w) with Some s => delivers fuel s b | None => znth orig (adjust (w_removed w) (Z.of_nat m)) = Some b end).
  { specialize (H m ltac:(lia)). unfold avail in H. destruct (dget Z.eqb (Z.of_nat m) (w_blobs w)) as [s|] eqn:E.
    - apply dget_in in E; [|exact Z.eqb_eq]. exact (proj2 SA _ _ E).
    - destruct H as [H|H]; [congruence|]. pose proof (adjust_ge (w_removed w) (Z.of_nat m)). destruct (znth_in orig (adjust (w_removed w) (Z.of_nat m))) as (b & EB); [lia|eauto]. }
  destruct G as (b & G). exists (L ++ [b]). split; [rewrite app_length; cbn; lia|]. intros i Hi. rewrite znth_app. unfold zlen. rewrite LL.
  destruct (Z.ltb_spec i (Z.of_nat m)) as [Q|Q]; [apply IT; lia|]. replace i with (Z.of_nat m) by lia. rewrite Z.sub_diag. change (znth [b] 0) with (Some b).
  destruct (dget Z.eqb (Z.of_nat m) (w_blobs w)); [eauto|]. congruence.
Qed.
Lemma count_any : forall w, sane w -> exists w', wnumber_of_blobs ic w = (Ok (n - zlen (w_removed w) + zlen (w_added w)), w').
Proof.
  intros w SA. unfold wnumber_of_blobs, wnumber_of_offsets, mbind, lift. destruct (ho_blobs _ _ _ _ _ HO _ (proj1 SA)) as (c' & -> & _).
  eexists. unfold ret. cbn [w_removed w_added]. f_equal. f_equal. lia.
Qed.
Lemma sizes_view : forall w l w', sane w -> 0 <= n - zlen (w_removed w) + zlen (w_added w) -> wsizes ic w = (Ok l, w') -> exists L, view w L.
Proof.
  intros w l w' SA HN E. unfold wsizes, mbind in E. destruct (count_any w SA) as (w1 & E1). rewrite E1 in E.
  pose proof (pres_count w (proj1 SA)) as P. rewrite E1 in P. cbn [snd] in P. destruct P as (I1 & S1). pose proof (same_sane _ _ SA I1 S1) as SA1.
  set (m := n - zlen (w_removed w) + zlen (w_added w)) in *.
  apply sizes_avail in E; [|exact SA1|intros x Hx; apply zrange_in in Hx; lia].
  destruct (build_view w1 (Z.to_nat m) SA1) as (L & LL & IT).
  - intros i Hi. rewrite Forall_forall in E. apply E. apply zrange_in. lia.
  - assert (V : view w1 L).
    { constructor; [exact I1| |]; [|intros i Hi; apply IT; unfold zlen in Hi; lia]. destruct S1 as (_ & -> & -> & _). fold m. unfold zlen. lia. }
    exists L. eapply view_same; [exact V|exact (proj1 SA)|symmetry; apply S1..].
Qed.

Lemma bind_ok : forall A B (m : M (wrapper I) A) (k : A -> M (wrapper I) B) w y w', mbind m k w = (Ok y, w') -> exists x w1, m w = (Ok x, w1) /\ k x w1 = (Ok y, w').
Proof. intros A B m k w y w' H. unfold mbind in H. destruct (m w) as [[x|e] w1]; [eauto|discriminate]. Qed.

(** Whatever was written, it is the list of blobs that the wrapper shows. *)
Lemma written_view : forall w l w', sane w -> 0 <= n - zlen (w_removed w) + zlen (w_added w) -> (forall k, new_comp UNKNOWN <> Ok k) ->
  iter_write ic fuel K new_comp comp flush w = (Ok l, w') ->
  compression_of w <> UNKNOWN /\ exists L k, view w L /\ new_comp (compression_of w) = Ok k.
Proof.
  intros w l w' SA HN NU E. unfold iter_write in E.
  apply bind_ok in E as (i0 & w1 & E1 & E). destruct (ho_info _ _ _ _ _ HO _ (proj1 SA)) as (c' & EC & IC & KC).
  unfold lift in E1. rewrite EC in E1. injection E1 as <- <-. set (w1 := mkWrapper _ _ _ _ _ _) in E.
  assert (S1 : same w w1) by (unfold same, knows; cbn; auto 10). assert (K1 : knows w1) by exact KC.
  pose proof (same_sane w w1 SA IC S1) as SA1.
  apply bind_ok in E as (b & w2 & E2 & E). unfold winfobyte in E2. apply bind_ok in E2 as (x & w2' & E2 & E3).
  pose proof (pres_extended w1 (proj1 SA1)) as P. rewrite E2 in P. cbn [snd] in P. destruct P as (I2 & S2).
  assert (E4 : w2' = w2) by (destruct x, (wcompression ic w2'); injection E3; auto; discriminate). subst w2'.
  assert (S12 : same w w2) by (eapply same_trans; eassumption). assert (K2 : knows w2) by (apply S2; exact K1). pose proof (same_sane _ _ SA I2 S12) as SA2.
  apply bind_ok in E as (k & w3 & E4 & E).
  assert (CW : wcompression ic w2 = Some (compression_of w)).
  { unfold wcompression, compression_of. destruct S12 as (_ & _ & _ & _ & -> & _). rewrite K2. destruct (w_comp w); reflexivity. }
  rewrite CW in E4. assert (w3 = w2) by congruence. subst w3. assert (NC : new_comp (compression_of w) = Ok k) by congruence.
  split; [intro X; rewrite X in NC; exact (NU k NC)|].
  apply bind_ok in E as (ch & w4 & E5 & _). unfold iter_write_raw in E5. apply bind_ok in E5 as (st & w5 & E5 & E6).
  pose proof (pres_offset_size w2 (proj1 SA2)) as P. rewrite E5 in P. cbn [snd] in P. destruct P as (I5 & S5).
  assert (S15 : same w w5) by (eapply same_trans; eassumption). pose proof (same_sane _ _ SA I5 S15) as SA5.
  apply bind_ok in E6 as (sz & w6 & E6 & _).
  destruct (sizes_view w5 sz w6 SA5) as (L & V); [destruct S15 as (_ & -> & -> & _); exact HN|exact E6|].
  exists L, k. split; [|exact NC]. eapply view_same; [exact V|exact (proj1 SA)|symmetry; apply S15..].
Qed.

(** Queries that do not look at single blobs. *)
Lemma measure_ok : forall w L q, view w L -> width_known w -> measure q ->
  wanswer (wwide w L) L q (fst (wask ic fuel q w)) /\ view (snd (wask ic fuel q w)) L /\ same w (snd (wask ic fuel q w)).
Proof.
  intros w L q R KW ME. destruct q; cbn [measure wask wanswer answer] in *; try contradiction.
  - destruct (offsets_ok w L numbers R KW) as (w' & E & R' & S'). rewrite E. cbn [fst snd]. rewrite select_picked. auto.
  - destruct (Z.ltb_spec i 0) as [H|H].
    + unfold wget_offset, znth. destruct (Z.ltb_spec i 0); [|lia]. cbn. split; [auto|]. split; [exact R|apply same_refl].
    + destruct (get_offset_wok w L i R KW H) as (w' & E & R' & S'). rewrite E. cbn [fst snd]. split; [|auto]. destruct (znth _ i); reflexivity.
  - destruct (count_offsets_ok w L R) as (w' & E & R' & S' & _). rewrite E. cbn. auto.
  - destruct (count_ok w L R) as (w' & E & R' & S' & _). rewrite E. cbn. auto.
  - destruct (content_ok w L R) as (w' & E & R' & S' & _). rewrite E. cbn. auto.
  - destruct (total_ok w L R KW) as (w' & E & R' & S'). rewrite E. cbn. auto.
  - destruct (offset_size_ok w L R KW) as (w' & E & R' & S'). rewrite E. cbn [fst snd num]. split; [|auto]. f_equal. rewrite cluster_data_len. lia.
Qed.
End Wrapped.

(** ** What can be wrapped *)
Lemma holds_empty : forall A (P : A -> Prop), holds (@inner_empty A) P NONE false [].
Proof.
  intros A P. constructor; cbn [in_attr in_info in_reset in_blobs in_size in_read in_iter inner_empty]; auto.
  - intros c H. exists c. auto.
  - intros c H. exists c. auto.
  - intros c i H Hi. exists c. destruct (Z.ltb_spec i 0); [lia|]. rewrite znth_none by (change (zlen (@nil bytes)) with 0; lia). auto.
  - intros c i s e H Hi _ _. exists c. destruct (Z.ltb_spec i 0); [lia|]. rewrite znth_none by (change (zlen (@nil bytes)) with 0; lia). auto.
  - intros c i m s e H Hi Hm _ _. exists (Err BlobNotFound), c. destruct (Z.ltb_spec i 0); [lia|]. destruct (Z.ltb_spec m 0); [lia|].
    rewrite znth_none by (change (zlen (@nil bytes)) with 0; lia). auto.
Qed.
Lemma holds_cluster : forall D (dc : Reader.decomp D) new_decomp Rep f fuel off ct ext blobs C J tail kd strict,
  stored dc new_decomp Rep f off ct ext blobs C J tail -> zlen (cluster_data ext blobs ++ tail) + 2 <= Z.of_nat fuel ->
  holds (inner_cluster dc new_decomp f fuel) (cinv Rep off ct ext blobs C J tail kd strict) ct ext blobs.
Proof.
  intros D dc new_decomp Rep f fuel off ct ext blobs C J tail kd strict ST FU.
  assert (EN : false = true -> stored_ends dc Rep J tail) by discriminate.
  constructor; cbn [in_attr in_info in_reset in_blobs in_size in_read in_iter inner_cluster].
  - intros c (_ & _ & H & _). exact H.
  - intros c H. eapply info_ok; eassumption.
  - intros c H. eapply reset_inv. exact H.
  - intros c H. eapply number_of_blobs_ok; eassumption.
  - intros c i H Hi. eapply blob_size_ok; eassumption.
  - intros c i s e H Hi SR SI. unfold read_blob. rewrite (proj1 H). destruct kd.
    + eapply plain_read_ok; eauto.
    + eapply plain_read_ok; eauto.
    + eapply mem_read_ok; eauto.
  - intros c i m s e H Hi Hm SR SI. unfold iter_read_blob. rewrite (proj1 H). destruct kd.
    + eapply plain_iter_ok; eauto.
    + eapply plain_iter_ok; eauto.
    + eapply mem_iter_ok; eauto.
Qed.

(** A cluster that was written, in a file. *)
Lemma written_stored : forall D (dc : Reader.decomp D) new_decomp Rep (Stream : ctype -> bytes -> bytes -> Prop) pre post b C ct ext L,
  reads_back dc new_decomp Rep Stream post -> parse_infobyte b = Ok (ct, ext) -> Stream ct C (cluster_data ext L) -> fits ext L ->
  exists C' J tail, stored dc new_decomp Rep (pre ++ (b :: C) ++ post) (zlen pre) ct ext L C' J tail /\ (tail = [] \/ tail = post).
Proof.
  intros D dc new_decomp Rep Stream pre post b C ct ext L RB PI ST FI. destruct (RB _ _ _ ST) as (d0 & C' & J & tail & ND & CJ & RP & CT & TL).
  exists C', J, tail. split; [|exact TL]. constructor.
  - apply zlen_nonneg.
  - exists b. split; [|exact PI]. unfold zsub. rewrite zskip_app_exact by reflexivity. reflexivity.
  - rewrite CJ. replace (zlen pre + 1) with (1 + zlen pre) by lia. rewrite <- zskip_zskip by (pose proof (zlen_nonneg pre); lia).
    rewrite zskip_app_exact by reflexivity. reflexivity.
  - eauto.
  - exact CT.
  - exact FI.
Qed.

(** ** Uncompressed clusters *)
Definition plain_new (c : ctype) : res bytes := match c with NONE => Ok [] | _ => Err CompressionErr end.
Definition plain_new_comp (c : ctype) : res unit := match c with NONE => Ok tt | _ => Err CompressionErr end.
Definition plain_comp (k : unit) (x : bytes) : res (bytes * unit) := Ok (x, k).
Definition plain_flush (k : unit) : res bytes := Ok [].
Definition plain_stream (c : ctype) (C o : bytes) : Prop := c = NONE /\ C = o.

Lemma plain_compress_all : forall chunks, compress_all unit plain_comp plain_flush tt chunks = Ok (chunks ++ [[]]).
Proof. induction chunks as [|x r IH]; [reflexivity|]. cbn [compress_all plain_comp bind snd fst]. rewrite IH. reflexivity. Qed.
Lemma plain_compressor : compressor_ok plain_new_comp plain_comp plain_flush plain_stream.
Proof.
  intros c k chunks H. destruct c; try discriminate. destruct k. exists (chunks ++ [[]]). split; [apply compresses_iff; apply plain_compress_all|].
  split; [reflexivity|]. rewrite concat_app. apply app_nil_r.
Qed.
Lemma plain_reads_back : forall post, reads_back passthrough plain_new pt_rep plain_stream post.
Proof.
  intros post c C o (-> & ->). exists [], (o ++ post), [], post. split; [reflexivity|]. split; [apply app_nil_r|]. split; [split; reflexivity|].
  split; [apply passthrough_contract|auto].
Qed.
Lemma mem_delivers : forall fuel d, zlen d < Z.of_nat fuel -> delivers fuel (mem_source d) d.
Proof. intros fuel d H. unfold delivers, mem_source. cbn [s_size s_blob]. split; [reflexivity|]. split; [reflexivity|]. split; [unfold blob_mem; cbn; lia|]. split; [unfold blob_mem; cbn; apply zskip_0|exact H]. Qed.
Lemma appends_ok : forall fuel blobs cur, Forall (fun d => zlen d < Z.of_nat fuel) blobs ->
  history_ok fuel true [] cur (map (fun d => EAppend (mem_source d) d) blobs) /\ history_safe true [] cur [] (map (fun d => EAppend (mem_source d) d) blobs) /\
  edit_lists true [] (map (fun d => EAppend (mem_source d) d) blobs) cur = cur ++ blobs.
Proof.
  intros fuel. induction blobs as [|d blobs IH]; intros cur F; [cbn; rewrite app_nil_r; auto|]. inversion F; subst. cbn [map].
  destruct (IH (cur ++ [d]) H2) as (A & B & E). split; [cbn; split; [apply mem_delivers; assumption|exact A]|]. split; [cbn; split; [intros []|exact B]|].
  set (M := map (fun x : bytes => EAppend (mem_source x) x) blobs) in *. change (edit_lists true [] (EAppend (mem_source d) d :: M) cur) with (edit_lists true [] M (cur ++ [d])).
  rewrite E, <- app_assoc. reflexivity.
Qed.
