(** Proofs about mimetype lists. *)
From Coq Require Import List ZArith Bool Lia.
From Coq Require Import ZifyBool ZifyNat ZifyN.
From Verif Require Import Base BaseProofs Utf8 Utf8Proofs Entry EntryProofs MimeTypeList MimeTypeListSpec.
Import ListNotations.
Open Scope Z_scope.

Lemma join_zero_cons2 : forall a b r, join_zero (a :: b :: r) = a ++ x00 :: join_zero (b :: r).
Proof. reflexivity. Qed.

Lemma read_until_zero_nil : forall r, read_until_zero (x00 :: r) = Ok ([], r).
Proof. reflexivity. Qed.

(** For a non-empty list the serialised form is every mimetype followed by a
    zero byte, then one more zero byte. *)
Lemma to_bytes_flat : forall l, l <> [] ->
  mt_to_bytes l = concat (map (fun m => m ++ [x00]) l) ++ [x00].
Proof.
  intros l. unfold mt_to_bytes. induction l as [|a [|b r] IH]; intro H; [congruence| |].
  - cbn. rewrite app_nil_r, <- app_assoc. reflexivity.
  - rewrite join_zero_cons2. cbn [map concat]. rewrite <- !app_assoc. cbn [app]. rewrite IH by discriminate.
    cbn [map concat]. rewrite <- !app_assoc. reflexivity.
Qed.

Lemma mt_loop_flat : forall l fuel acc rest, Forall mt_storable l -> (length l < fuel)%nat ->
  mt_loop fuel (concat (map (fun m => m ++ [x00]) l) ++ x00 :: rest) acc = Ok (acc ++ l, rest).
Proof.
  induction l as [|m l IH]; intros fuel acc rest H L; destruct fuel as [|fuel]; try (cbn in L; lia); cbn [mt_loop].
  - cbn [map concat app]. rewrite read_until_zero_nil. cbn [bind]. rewrite app_nil_r. reflexivity.
  - inversion H as [|? ? [H1 H2] H3]; subst. cbn [map concat]. rewrite <- !app_assoc. cbn [app].
    rewrite read_until_zero_app by assumption. cbn [bind].
    destruct m as [|c m]; [congruence|]. rewrite IH by (try assumption; cbn in L; lia).
    rewrite <- app_assoc. reflexivity.
Qed.

Lemma concat_len_ge : forall l : list bytes, (length l <= length (concat (map (fun m => m ++ [x00]) l)))%nat.
Proof. induction l as [|m l IH]; [reflexivity|]. cbn [map concat length]. rewrite !app_length. cbn. lia. Qed.

Lemma mt_roundtrip : forall l rest, Forall mt_storable l ->
  exists rest', mt_from_file (mt_to_bytes l ++ rest) = Ok (l, rest') /\ (l <> [] -> rest' = rest).
Proof.
  intros l rest H. unfold mt_from_file. destruct l as [|m l].
  - exists (x00 :: rest). split; [reflexivity|congruence].
  - exists rest. split; [|reflexivity]. rewrite to_bytes_flat by discriminate.
    rewrite <- app_assoc. cbn [app]. rewrite mt_loop_flat; [reflexivity|assumption|].
    rewrite app_length. pose proof (concat_len_ge (m :: l)). lia.
Qed.



Lemma mt_size_fold : forall l a, fold_left (fun s m => s + (zlen (m : bytes) + 1)) l a = a + zlen (concat (map (fun m => m ++ [x00]) l)).
Proof.
  induction l as [|m l IH]; intro a; cbn [fold_left map concat].
  - rewrite zlen_nil. lia.
  - rewrite IH, !zlen_app, zlen_cons, zlen_nil. lia.
Qed.

Lemma mt_size_exact : forall l, l <> [] -> mt_disk_size l = zlen (mt_to_bytes l).
Proof.
  intros l H. unfold mt_disk_size. rewrite mt_size_fold, to_bytes_flat by assumption.
  rewrite zlen_app, zlen_cons, zlen_nil. lia.
Qed.

(** *** indices *)
Lemma mt_scan_spec : forall m l i0, match mt_scan m l i0 with
  | Some i => i0 <= i /\ nth_error l (Z.to_nat (i - i0)) = Some m /\ forall k, i0 <= k < i -> nth_error l (Z.to_nat (k - i0)) <> Some m
  | None => ~ In m l
  end.
Proof.
  induction l as [|x l IH]; intro i0; cbn [mt_scan]; [auto|]. destruct (beqb x m) eqn:E.
  - apply beqb_eq in E. subst. rewrite Z.sub_diag. split; [lia|]. split; [reflexivity|]. intros k Hk. lia.
  - apply beqb_neq in E. specialize (IH (i0 + 1)). destruct (mt_scan m l (i0 + 1)) as [i|].
    + destruct IH as (H1 & H2 & H3). split; [lia|].
      replace (Z.to_nat (i - i0)) with (S (Z.to_nat (i - (i0 + 1)))) by lia. split; [exact H2|].
      intros k Hk. destruct (Z.eq_dec k i0) as [->|].
      * rewrite Z.sub_diag. cbn. congruence.
      * replace (Z.to_nat (k - i0)) with (S (Z.to_nat (k - (i0 + 1)))) by lia. apply H3. lia.
    + cbn. intros [?|?]; auto.
Qed.

Lemma mt_has_iff : forall m l, mt_has m l = true <-> In m l.
Proof.
  intros m l. unfold mt_has. rewrite existsb_exists. split.
  - intros (x & Hx & E). apply beqb_eq in E. subst. exact Hx.
  - intro H. exists m. split; [exact H|apply beqb_refl].
Qed.

Lemma mt_scan_app : forall m l r i0 i, mt_scan m l i0 = Some i -> mt_scan m (l ++ r) i0 = Some i.
Proof.
  induction l as [|x l IH]; intros r i0 i H; cbn [mt_scan app] in *; [discriminate|].
  destruct (beqb x m); [exact H|]. apply IH. exact H.
Qed.

Lemma mt_scan_in : forall m l i0, In m l -> exists i, mt_scan m l i0 = Some i.
Proof.
  intros m l i0 H. pose proof (mt_scan_spec m l i0) as S. destruct (mt_scan m l i0); [eauto|tauto].
Qed.


Lemma NoDup_snoc : forall {A} (l : list A) x, NoDup l -> ~ In x l -> NoDup (l ++ [x]).
Proof.
  induction l as [|a l IH]; intros x Hn Hi; cbn; [constructor; [auto|constructor]|].
  inversion Hn; subst. constructor; [|apply IH; cbn in *; tauto].
  rewrite in_app_iff. cbn in *. intros [?|[?|[]]]; subst; tauto.
Qed.

(** one registering call *)
Lemma mt_register_spec : forall s o o', mt_register s o = Ok o' ->
  exists m, as_bytes s = Ok m /\ ml_mutable o = true /\ ml_mutable o' = true /\ ml_old_size o' = ml_old_size o /\
  ((In m (ml_types o) /\ o' = o) \/
   (~ In m (ml_types o) /\ ml_types o' = ml_types o ++ [m] /\ ml_dirty o' = true)).
Proof.
  intros s o o' H. unfold mt_register in H. destruct (ml_mutable o) eqn:M; [|discriminate]. cbn [negb] in H.
  destruct (as_bytes s) as [m|]; [|discriminate]. cbn [bind] in H. exists m. split; [reflexivity|]. split; [reflexivity|].
  destruct (mt_has m (ml_types o)) eqn:E.
  - injection H as <-. apply mt_has_iff in E. auto.
  - injection H as <-. cbn. split; [auto|]. split; [auto|]. right.
    split; [|auto]. rewrite <- mt_has_iff, E. discriminate.
Qed.

Lemma mt_get_index_spec : forall s reg o r o', mt_get_index s reg o = Ok (r, o') ->
  exists m, as_bytes s = Ok m /\
  ((o' = o /\ (r = None -> reg = false /\ ~ In m (ml_types o))) \/
   (reg = true /\ ~ In m (ml_types o) /\ ml_mutable o = true /\ ml_types o' = ml_types o ++ [m] /\ ml_dirty o' = true /\ r <> None)) /\
  (forall i, r = Some i -> mt_get i (ml_types o') = Ok m /\ mt_scan m (ml_types o') 0 = Some i).
Proof.
  intros s reg o r o' H. unfold mt_get_index in H. destruct (as_bytes s) as [m|]; [|discriminate]. cbn [bind] in H.
  exists m. split; [reflexivity|]. 
  assert (G : forall l i, mt_scan m l 0 = Some i -> mt_get i l = Ok m).
  { intros l i Hs. pose proof (mt_scan_spec m l 0) as S. rewrite Hs in S. destruct S as (S1 & S2 & _). rewrite Z.sub_0_r in S2.
    unfold mt_get. assert ((Z.to_nat i < length l)%nat) by (apply nth_error_Some; congruence).
    replace ((zlen l <=? i) || (i <? 0)) with false by (unfold zlen; lia). rewrite S2. reflexivity. }
  pose proof (mt_scan_spec m (ml_types o) 0) as S. destruct (mt_scan m (ml_types o) 0) as [i|] eqn:E.
  - injection H as <- <-. split; [left; split; [reflexivity|discriminate]|]. intros j Hj. injection Hj as <-. auto.
  - destruct reg.
    + destruct (mt_register (PyBytes m) o) as [o1|] eqn:R; [|discriminate]. cbn [bind] in H. injection H as <- <-.
      apply mt_register_spec in R as (m' & Hm & M1 & M2 & _ & [[Hi _]|(Hn & Ht & Hd)]); cbn in Hm; injection Hm as <-; [tauto|].
      split.
      * right. split; [reflexivity|]. split; [assumption|]. split; [assumption|]. split; [assumption|]. split; [assumption|].
        rewrite Ht. destruct (mt_scan_in m (ml_types o ++ [m]) 0) as [k ->]; [apply in_elt|discriminate].
      * intros i Hi. split; [apply G; exact Hi|exact Hi].
    + injection H as <- <-. split; [left; split; [reflexivity|auto]|]. discriminate.
Qed.

Definition ml_grows (o o' : mlist) : Prop := exists r, ml_types o' = ml_types o ++ r.

Lemma mop_step_inv : forall op o, NoDup (ml_types o) ->
  NoDup (ml_types (mop_step o op)) /\ ml_grows o (mop_step o op).
Proof.
  intros op o Hn. unfold ml_grows. destruct op as [s|s reg|]; cbn [mop_step].
  - destruct (mt_register s o) as [o'|] eqn:E; [|split; [exact Hn|exists []; rewrite app_nil_r; reflexivity]].
    apply mt_register_spec in E as (m & _ & _ & _ & _ & [[_ ->]|(Hi & -> & _)]).
    + split; [exact Hn|exists []; rewrite app_nil_r; reflexivity].
    + split; [apply NoDup_snoc; assumption|eauto].
  - destruct (mt_get_index s reg o) as [[r o']|] eqn:E; [|split; [exact Hn|exists []; rewrite app_nil_r; reflexivity]].
    apply mt_get_index_spec in E as (m & _ & [(-> & _)|(_ & Hi & _ & -> & _)] & _).
    + split; [exact Hn|exists []; rewrite app_nil_r; reflexivity].
    + split; [apply NoDup_snoc; assumption|eauto].
  - cbn. split; [exact Hn|exists []; rewrite app_nil_r; reflexivity].
Qed.

Lemma mops_inv : forall ops o, NoDup (ml_types o) ->
  NoDup (ml_types (fold_left mop_step ops o)) /\ ml_grows o (fold_left mop_step ops o).
Proof.
  induction ops as [|op ops IH]; intros o Hn; cbn [fold_left].
  - split; [exact Hn|exists []; rewrite app_nil_r; reflexivity].
  - destruct (mop_step_inv op o Hn) as [H1 [r1 H2]]. destruct (IH _ H1) as [H3 [r2 H4]].
    split; [exact H3|]. exists (r1 ++ r2). rewrite H4, H2, app_assoc. reflexivity.
Qed.

Lemma mt_get_app : forall i l r m, mt_get i l = Ok m -> mt_get i (l ++ r) = Ok m.
Proof.
  intros i l r m H. unfold mt_get in *. destruct ((zlen l <=? i) || (i <? 0)) eqn:E; [discriminate|].
  replace ((zlen (l ++ r) <=? i) || (i <? 0)) with false by (rewrite zlen_app; pose proof (zlen_nonneg r); lia).
  rewrite nth_error_app1 by (unfold zlen in E; lia). exact H.
Qed.

(** index stability over any history *)
Lemma mt_index_stable : forall ops s reg o i o' m, NoDup (ml_types o) ->
  mt_get_index s reg o = Ok (Some i, o') -> as_bytes s = Ok m ->
  mt_get i (ml_types (fold_left mop_step ops o')) = Ok m /\
  (forall reg', mt_get_index s reg' (fold_left mop_step ops o') = Ok (Some i, fold_left mop_step ops o')).
Proof.
  intros ops s reg o i o' m Hn H Hm. pose proof (mt_get_index_spec _ _ _ _ _ H) as (m' & Hm' & Hc & Hi).
  rewrite Hm in Hm'. injection Hm' as <-. destruct (Hi i eq_refl) as [Hg Hs].
  assert (Hn' : NoDup (ml_types o')).
  { destruct Hc as [(-> & _)|(_ & Hni & _ & -> & _)]; [exact Hn|apply NoDup_snoc; assumption]. }
  destruct (mops_inv ops o' Hn') as [_ [r Hr]]. rewrite Hr. split; [apply mt_get_app; exact Hg|].
  intro reg'. unfold mt_get_index. rewrite Hm. cbn [bind]. rewrite Hr, (mt_scan_app _ _ r _ _ Hs). reflexivity.
Qed.

(** clean means persisted *)
Definition mstep_saved (st : mlist * list bytes) (op : mop) : mlist * list bytes :=
  (mop_step (fst st) op, match op with MFlush => ml_types (fst st) | _ => snd st end).

Lemma mop_clean : forall op o saved, (ml_dirty o = false -> ml_types o = saved) ->
  ml_dirty (mop_step o op) = false ->
  ml_types (mop_step o op) = match op with MFlush => ml_types o | _ => saved end.
Proof.
  intros op o saved H Hd. destruct op as [s|s reg|]; cbn [mop_step] in *; [| |reflexivity].
  - destruct (mt_register s o) as [o'|] eqn:E; [|auto].
    apply mt_register_spec in E as (m & _ & _ & _ & _ & [[_ ->]|(Hi & _ & D)]); [auto|congruence].
  - destruct (mt_get_index s reg o) as [[r o']|] eqn:E; [|auto].
    apply mt_get_index_spec in E as (m & _ & [(-> & _)|(_ & Hi & _ & _ & D & _)] & _); [auto|congruence].
Qed.

Lemma mops_clean : forall ops st, (ml_dirty (fst st) = false -> ml_types (fst st) = snd st) ->
  ml_dirty (fst (fold_left mstep_saved ops st)) = false ->
  ml_types (fst (fold_left mstep_saved ops st)) = snd (fold_left mstep_saved ops st).
Proof.
  induction ops as [|op ops IH]; intros st H; cbn [fold_left]; [exact H|]. apply IH.
  cbn [mstep_saved fst snd]. intro Hd. rewrite (mop_clean op _ (snd st) H Hd). reflexivity.
Qed.

(** *** concurrency *)
Definition holds_lock (pc : mpc) : bool :=
  match pc with MCheck _ _ | MApp _ | MRel _ => true | _ => false end.

Definition pc_ok (types : list bytes) (pc : mpc) : Prop :=
  match pc with
  | MCheck m j => (j <= length types)%nat /\ forall k, (k < j)%nat -> nth_error types k <> Some m
  | MApp m => ~ In m types
  | MRel m => In m types
  | MScan2 m i => exists k, (i <= k)%nat /\ nth_error types k = Some m
  | _ => True
  end.

Definition done_ok (types : list bytes) (d : list (bytes * option nat)) : Prop :=
  forall m r, In (m, r) d -> exists i, r = Some i /\ nth_error types i = Some m.

Record minv (s0 : list bytes) (s : mconc) : Prop := {
  mi_nodup : NoDup (mc_types s);
  mi_prefix : exists r, mc_types s = s0 ++ r;
  mi_lock : forall t, holds_lock (th_pc (mc_threads s t)) = true <-> mc_lock s = Some t;
  mi_pc : forall t, pc_ok (mc_types s) (th_pc (mc_threads s t));
  mi_done : forall t, done_ok (mc_types s) (th_done (mc_threads s t)) }.

Lemma done_ok_app : forall l r d, done_ok l d -> done_ok (l ++ r) d.
Proof.
  intros l r d H m x Hi. destruct (H m x Hi) as (i & -> & Hn). exists i. split; [reflexivity|].
  rewrite nth_error_app1; [exact Hn|]. apply nth_error_Some. congruence.
Qed.
Lemma done_ok_snoc : forall l d m i, done_ok l d -> nth_error l i = Some m -> done_ok l (d ++ [(m, Some i)]).
Proof.
  intros l d m i H Hn m' r Hi. apply in_app_iff in Hi as [Hi|[Hi|[]]]; [exact (H m' r Hi)|].
  injection Hi as <- <-. eauto.
Qed.

(** a step that changes only the program counter (and lock-neutral), of thread t *)
Lemma minv_local : forall s0 s t th', minv s0 s ->
  holds_lock (th_pc th') = holds_lock (th_pc (mc_threads s t)) ->
  pc_ok (mc_types s) (th_pc th') -> done_ok (mc_types s) (th_done th') ->
  minv s0 (mkMconc (mc_types s) (mc_lock s) (set_thread t th' (mc_threads s))).
Proof.
  intros s0 s t th' [H1 H2 H3 H4 H5] Hl Hp Hd. constructor; cbn; auto; intro u; unfold set_thread.
  - destruct (Nat.eqb_spec u t) as [->|]; [rewrite Hl|]; apply H3.
  - destruct (Nat.eqb_spec u t) as [->|]; [exact Hp|apply H4].
  - destruct (Nat.eqb_spec u t) as [->|]; [exact Hd|apply H5].
Qed.

Lemma mstep_inv : forall s0 t s s', minv s0 s -> mstep t s = Some s' -> minv s0 s'.
Proof.
  intros s0 t s s' I H. pose proof I as [H1 H2 H3 H4 H5]. unfold mstep in H.
  pose proof (H4 t) as Hp. pose proof (H5 t) as Hd. pose proof (H3 t) as Hlk.
  destruct (th_pc (mc_threads s t)) as [|m i|m|m j|m|m|m i] eqn:PC.
  - destruct (th_todo (mc_threads s t)); [discriminate|]. injection H as <-.
    apply minv_local; cbn; rewrite ?PC; auto.
  - destruct (nth_error (mc_types s) i) as [x|] eqn:E.
    + destruct (beqb x m) eqn:B; injection H as <-; apply minv_local; cbn; rewrite ?PC; auto.
      apply beqb_eq in B. subst. apply done_ok_snoc; assumption.
    + injection H as <-. apply minv_local; cbn; rewrite ?PC; auto.
  - destruct (mc_lock s) eqn:L; [discriminate|]. injection H as <-. constructor; cbn; auto; intro u; unfold set_thread.
    + destruct (Nat.eqb_spec u t) as [->|Hne]; [cbn; tauto|]. rewrite H3. split; [discriminate|]. intro X. injection X as ->. congruence.
    + destruct (Nat.eqb_spec u t) as [->|Hne]; [cbn; split; [lia|intros; lia]|apply H4].
    + destruct (Nat.eqb_spec u t) as [->|Hne]; [exact Hd|apply H5].
  - destruct (nth_error (mc_types s) j) as [x|] eqn:E.
    + destruct (beqb x m) eqn:B; injection H as <-; apply minv_local; cbn; rewrite ?PC; auto.
      * apply beqb_eq in B. subst. eapply nth_error_In; exact E.
      * cbn in Hp. destruct Hp as [Hp1 Hp2]. split; [apply nth_error_Some; congruence|].
        intros k Hk. destruct (Nat.eq_dec k j) as [->|]; [|apply Hp2; lia].
        apply beqb_neq in B. congruence.
    + injection H as <-. apply minv_local; cbn; rewrite ?PC; auto.
      cbn in Hp. destruct Hp as [Hp1 Hp2]. apply nth_error_None in E.
      intro Hi. apply In_nth_error in Hi as [k Hk]. apply (Hp2 k); [|exact Hk].
      assert (k < length (mc_types s))%nat by (apply nth_error_Some; congruence). lia.
  - injection H as <-. cbn in Hp. assert (Hl : mc_lock s = Some t) by (apply Hlk; reflexivity).
    constructor; cbn; [apply NoDup_snoc; assumption| | | |]; [|intro u; unfold set_thread..].
    + destruct H2 as [r ->]. exists (r ++ [m]). rewrite app_assoc. reflexivity.
    + destruct (Nat.eqb_spec u t) as [->|Hne]; [cbn; tauto|apply H3].
    + destruct (Nat.eqb_spec u t) as [->|Hne]; [cbn; apply in_elt|].
      assert (Hh : holds_lock (th_pc (mc_threads s u)) = false).
      { destruct (holds_lock (th_pc (mc_threads s u))) eqn:E; [|reflexivity]. apply H3 in E. congruence. }
      specialize (H4 u). destruct (th_pc (mc_threads s u)); cbn in *; try discriminate; auto.
      destruct H4 as (k & Hk & Hn). exists k. split; [exact Hk|]. rewrite nth_error_app1; [exact Hn|].
      apply nth_error_Some. congruence.
    + destruct (Nat.eqb_spec u t) as [->|Hne]; apply done_ok_app; [exact Hd|apply H5].
  - injection H as <-. cbn in Hp. assert (Hl : mc_lock s = Some t) by (apply Hlk; reflexivity).
    constructor; cbn; auto; intro u; unfold set_thread.
    + destruct (Nat.eqb_spec u t) as [->|Hne]; [cbn; split; discriminate|]. rewrite H3, Hl.
      split; [intro X; congruence|discriminate].
    + destruct (Nat.eqb_spec u t) as [->|Hne]; [cbn|apply H4].
      apply In_nth_error in Hp as [k Hk]. exists k. split; [lia|exact Hk].
    + destruct (Nat.eqb_spec u t) as [->|Hne]; [exact Hd|apply H5].
  - cbn in Hp. destruct Hp as (k & Hk & Hn). destruct (nth_error (mc_types s) i) as [x|] eqn:E.
    + destruct (beqb x m) eqn:B; injection H as <-; apply minv_local; cbn; rewrite ?PC; auto.
      * apply beqb_eq in B. subst. apply done_ok_snoc; assumption.
      * exists k. split; [|exact Hn]. destruct (Nat.eq_dec k i) as [->|]; [|lia]. apply beqb_neq in B. congruence.
    + apply nth_error_None in E. assert (k < length (mc_types s))%nat by (apply nth_error_Some; congruence). lia.
Qed.

Lemma mstart_inv : forall types progs, NoDup types -> minv types (mstart types progs).
Proof.
  intros types progs H. constructor; cbn; auto.
  - exists []. rewrite app_nil_r. reflexivity.
  - intro t. split; discriminate.
  - intros t m r [].
Qed.

Lemma msched_inv : forall sched s0 s, minv s0 s -> minv s0 (msched sched s).
Proof.
  induction sched as [|t sched IH]; intros s0 s I; [exact I|]. unfold msched. cbn [fold_left].
  apply IH. destruct (mstep t s) eqn:E; [eapply mstep_inv; eauto|exact I].
Qed.

(** results only accumulate, in program order *)
Lemma mstep_prog : forall t s s', mstep t s = Some s' -> forall u,
  let cur th := match th_pc th with MIdle => [] | MScan1 m _ | MWant m | MCheck m _ | MApp m | MRel m | MScan2 m _ => [m] end in
  map fst (th_done (mc_threads s' u)) ++ cur (mc_threads s' u) ++ th_todo (mc_threads s' u) =
  map fst (th_done (mc_threads s u)) ++ cur (mc_threads s u) ++ th_todo (mc_threads s u).
Proof.
  intros t s s' H u. unfold mstep in H.
  destruct (th_pc (mc_threads s t)) as [|m i|m|m j|m|m|m i] eqn:PC;
    repeat match type of H with
    | match ?x with _ => _ end = _ => destruct x eqn:?; try discriminate
    | (if ?x then _ else _) = _ => destruct x eqn:?
    end; injection H as <-; cbn; unfold set_thread; destruct (Nat.eqb_spec u t) as [->|]; cbn; rewrite ?PC; try reflexivity;
    rewrite ?map_app, <- ?app_assoc; cbn; try reflexivity.
  match goal with H : th_todo _ = _ |- _ => rewrite H end. reflexivity.
Qed.

(** no deadlock: while some thread has work left, some thread can move *)
Definition th_finished (th : mthread) : Prop := th_pc th = MIdle /\ th_todo th = [].
Lemma mprogress : forall s0 s t, minv s0 s -> ~ th_finished (mc_threads s t) -> exists u s', mstep u s = Some s'.
Proof.
  intros s0 s t [H1 H2 H3 H4 H5] Hf.
  assert (G : forall u, (forall m, th_pc (mc_threads s u) <> MWant m) -> ~ th_finished (mc_threads s u) ->
            exists s', mstep u s = Some s').
  { intros u Hw Hn. unfold mstep. destruct (th_pc (mc_threads s u)) as [|m i|m|m j|m|m|m i] eqn:PC.
    - destruct (th_todo (mc_threads s u)) eqn:T; [exfalso; apply Hn; split; assumption|eauto].
    - destruct (nth_error (mc_types s) i); [destruct (beqb b m)|]; eauto.
    - exfalso. apply (Hw m). reflexivity.
    - destruct (nth_error (mc_types s) j); [destruct (beqb b m)|]; eauto.
    - eauto. - eauto.
    - destruct (nth_error (mc_types s) i); [destruct (beqb b m)|]; eauto. }
  destruct (th_pc (mc_threads s t)) as [|m i|m|m j|m|m|m i] eqn:PC;
    try (destruct (G t) as [s' Hs']; [rewrite PC; intros; discriminate|exact Hf|eauto]).
  destruct (mc_lock s) as [u|] eqn:L.
  - assert (Hu : holds_lock (th_pc (mc_threads s u)) = true) by (apply H3; reflexivity).
    destruct (G u) as [s' Hs'].
    + intros m' E. rewrite E in Hu. discriminate.
    + intros [E _]. rewrite E in Hu. discriminate.
    + eauto.
  - exists t. eexists. unfold mstep. rewrite PC, L. reflexivity.
Qed.

Lemma mconc_agree : forall types progs sched, NoDup types ->
  let s := msched sched (mstart types progs) in
  NoDup (mc_types s) /\ (exists r, mc_types s = types ++ r) /\
  (forall t m r, In (m, r) (th_done (mc_threads s t)) -> exists i, r = Some i /\ nth_error (mc_types s) i = Some m) /\
  (forall t u m n i j, In (m, Some i) (th_done (mc_threads s t)) -> In (n, Some j) (th_done (mc_threads s u)) ->
     (m = n <-> i = j)).
Proof.
  intros types progs sched H s. pose proof (msched_inv sched types _ (mstart_inv types progs H)) as [H1 H2 H3 H4 H5].
  fold s in H1, H2, H3, H4, H5. split; [exact H1|]. split; [exact H2|]. split; [exact H5|].
  intros t u m n i j Hm Hn. destruct (H5 _ _ _ Hm) as (i' & Ei & Ni). destruct (H5 _ _ _ Hn) as (j' & Ej & Nj).
  injection Ei as <-. injection Ej as <-. split.
  - intros <-. rewrite NoDup_nth_error in H1. apply H1; [apply nth_error_Some; congruence|congruence].
  - intros <-. congruence.
Qed.

Definition th_cur (th : mthread) : list bytes :=
  match th_pc th with MIdle => [] | MScan1 m _ | MWant m | MCheck m _ | MApp m | MRel m | MScan2 m _ => [m] end.

Lemma msched_prog : forall sched s u,
  map fst (th_done (mc_threads (msched sched s) u)) ++ th_cur (mc_threads (msched sched s) u) ++ th_todo (mc_threads (msched sched s) u) =
  map fst (th_done (mc_threads s u)) ++ th_cur (mc_threads s u) ++ th_todo (mc_threads s u).
Proof.
  induction sched as [|t sched IH]; intros s u; [reflexivity|]. unfold msched. cbn [fold_left].
  rewrite IH. destruct (mstep t s) eqn:E; [exact (mstep_prog t s m E u)|reflexivity].
Qed.

Lemma mconc_complete : forall types progs sched t,
  let s := msched sched (mstart types progs) in
  th_finished (mc_threads s t) -> map fst (th_done (mc_threads s t)) = progs t.
Proof.
  intros types progs sched t s [H1 H2]. pose proof (msched_prog sched (mstart types progs) t) as H. fold s in H.
  unfold th_cur in H. rewrite H1, H2 in H. cbn in H. rewrite app_nil_r in H. exact H.
Qed.
