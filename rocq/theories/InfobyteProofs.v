From Coq Require Import List ZArith Bool Lia.
From Coq Require Import ZifyBool.
From Verif Require Import Base BaseProofs Dict Infobyte InfobyteSpec.
Import ListNotations.
Open Scope Z_scope.

Lemma ctype_of_known : forall v, 0 <= v -> (known v <-> exists c, ctype_of v = Some c /\ ctype_value c = v).
Proof.
  intros v Hv. unfold known, ctype_of. split.
  - intro H. assert (v = 1 \/ v = 2 \/ v = 3 \/ v = 4 \/ v = 5) as [->|[->|[->|[->| ->]]]] by lia; cbn; eauto.
  - intros (c & E & <-). destruct c; cbn in *; lia.
Qed.
Lemma ctype_of_none : forall v, 0 <= v -> ~ known v -> ctype_of v = None.
Proof.
  intros v Hv H. unfold ctype_of, known in *.
  repeat match goal with |- context [?a =? ?b] => destruct (Z.eqb_spec a b); [lia|] end. reflexivity.
Qed.

Lemma land15 : forall z, Z.land z 15 = z mod 16.
Proof. intro z. change 15 with (Z.ones 4). rewrite Z.land_ones by lia. reflexivity. Qed.
Lemma land1 : forall z, (Z.land z 1 =? 1) = Z.odd z.
Proof. intro z. change 1 with (Z.ones 1) at 1. rewrite Z.land_ones by lia. change (2 ^ 1) with 2. rewrite Zmod_odd. destruct (Z.odd z); reflexivity. Qed.

Lemma parse_known : forall b, known (low_bits b) ->
  exists c, parse_infobyte b = Ok (c, bit4 b) /\ ctype_value c = low_bits b.
Proof.
  intros b K. unfold parse_infobyte, bit4. rewrite land15. change (Zb b mod 16) with (low_bits b).
  assert (0 <= low_bits b) by (apply Z.mod_pos_bound; lia).
  apply ctype_of_known in K; [|assumption]. destruct K as (c & E & V). rewrite E, land1, Z.shiftr_div_pow2 by lia. eauto.
Qed.
Lemma parse_unknown : forall b, ~ known (low_bits b) -> parse_infobyte b = Err CompressionErr.
Proof.
  intros b K. unfold parse_infobyte. rewrite land15. change (Zb b mod 16) with (low_bits b).
  rewrite ctype_of_none; [reflexivity|apply Z.mod_pos_bound; lia|exact K].
Qed.

Lemma infobyte_roundtrip : forall c x, c <> UNKNOWN ->
  exists b, generate_infobyte c x = Ok b /\ parse_infobyte b = Ok (c, x) /\
    low_bits b = ctype_value c /\ bit4 b = x.
Proof.
  intros c x H. destruct c; [congruence|..]; destruct x; eexists; (split; [reflexivity|]);
    (split; [vm_compute; reflexivity|]); split; vm_compute; reflexivity.
Qed.

(** * Registry *)
Lemma ctype_dec : forall a b : ctype, {a = b} + {a <> b}.
Proof. decide equality. Qed.
Lemma ctype_eqb_spec : forall a b, ctype_eqb a b = true <-> a = b.
Proof. intros a b. unfold ctype_eqb. rewrite Z.eqb_eq. destruct a, b; cbn; split; intro; try reflexivity; discriminate. Qed.
Lemma ctype_eqb_sym : forall a b, ctype_eqb a b = ctype_eqb b a.
Proof. intros. unfold ctype_eqb. apply Z.eqb_sym. Qed.

Lemma iter_register : forall t t' i r, iter_for t (register t' i r) = if ctype_eqb t' t then iter_for t r ++ [i] else iter_for t r.
Proof.
  intros t t' i r. unfold iter_for, register. rewrite (ctype_eqb_sym t' t).
  destruct (dget ctype_eqb t' r) as [l|] eqn:E; rewrite (dget_dset _ ctype_eqb_spec); destruct (ctype_eqb t t') eqn:T; try reflexivity;
    apply ctype_eqb_spec in T; subst; rewrite E; reflexivity.
Qed.

Lemma take_back_remove1 : forall i l, remove1 i l = take_back i l.
Proof.
  induction l as [|x l IH]; [reflexivity|]. cbn. destruct (Z.eq_dec x i) as [->|N].
  - rewrite Z.eqb_refl. reflexivity.
  - apply Z.eqb_neq in N. rewrite N, IH. reflexivity.
Qed.
Lemma take_back_absent : forall i l, existsb (fun y => y =? i) l = false -> take_back i l = l.
Proof.
  induction l as [|x l IH]; intro H; [reflexivity|]. cbn in *. apply orb_false_elim in H. destruct H as [H1 H2].
  destruct (Z.eq_dec x i); [lia|]. rewrite IH by exact H2. reflexivity.
Qed.

Lemma del_loop : forall ts i r t, NoDup ts -> NoDup (map fst r) ->
  (forall x, In x ts -> In x (map fst r)) ->
  NoDup (map fst (fst (unregister_loop ts i r))) /\
  snd (unregister_loop ts i r) = Ok tt /\
  iter_for t (fst (unregister_loop ts i r)) =
    (if existsb (fun x => ctype_eqb x t) ts then match i with None => [] | Some x => take_back x (iter_for t r) end else iter_for t r).
Proof.
  induction ts as [|ct ts IH]; intros i r t ND NR IN; cbn [unregister_loop existsb]; [auto|].
  inversion ND as [|? ? NI ND2]; subst.
  destruct (dget ctype_eqb ct r) as [l|] eqn:E.
  2:{ exfalso. apply (dget_none _ ctype_eqb_spec) in E. apply E, IN. left. reflexivity. }
  assert (NT : forall x, In x ts -> x <> ct) by (intros x Hx ->; contradiction).
  assert (EX : ctype_eqb ct t = true -> existsb (fun x => ctype_eqb x t) ts = false).
  { intro T. apply ctype_eqb_spec in T. subst t. destruct (existsb (fun x => ctype_eqb x ct) ts) eqn:X; [|reflexivity].
    apply existsb_exists in X. destruct X as (x & Hx & Y). apply ctype_eqb_spec in Y. subst. contradiction. }
  destruct i as [x|].
  - destruct (existsb (fun y => y =? x) l) eqn:X.
    + destruct (IH (Some x) (dset ctype_eqb ct (remove1 x l) r) t ND2) as (A & B & C).
      { apply dset_nodup; [apply ctype_eqb_spec|assumption]. }
      { intros y Hy. rewrite dset_keys. destruct (dmem ctype_eqb ct r); [|apply in_or_app; left]; apply IN; right; exact Hy. }
      split; [exact A|]. split; [exact B|]. rewrite C. unfold iter_for. rewrite (dget_dset _ ctype_eqb_spec).
      destruct (ctype_eqb t ct) eqn:T.
      * rewrite ctype_eqb_sym in T. rewrite (EX T), T. cbn [orb]. apply ctype_eqb_spec in T. subst t. rewrite E.
        apply take_back_remove1.
      * rewrite ctype_eqb_sym in T. rewrite T. reflexivity.
    + destruct (IH (Some x) r t ND2 NR) as (A & B & C). { intros y Hy. apply IN. right. exact Hy. }
      split; [exact A|]. split; [exact B|]. rewrite C. destruct (ctype_eqb ct t) eqn:T; [|reflexivity].
      rewrite (EX eq_refl). cbn [orb]. apply ctype_eqb_spec in T. subst t. unfold iter_for. rewrite E.
      symmetry. apply take_back_absent. exact X.
  - destruct (IH None (ddel ctype_eqb ct r) t ND2) as (A & B & C).
    { apply ddel_nodup; [apply ctype_eqb_spec|assumption]. }
    { intros y Hy. apply (ddel_keys _ ctype_eqb_spec _ _ NR). split; [apply IN; right; exact Hy|apply NT; exact Hy]. }
    split; [exact A|]. split; [exact B|]. rewrite C. unfold iter_for. rewrite (dget_ddel _ ctype_eqb_spec) by exact NR.
    destruct (ctype_eqb t ct) eqn:T.
    + rewrite ctype_eqb_sym in T. rewrite (EX T), T. reflexivity.
    + rewrite ctype_eqb_sym in T. rewrite T. reflexivity.
Qed.

Definition reg_run (h : list regop) : registry := fold_left reg_step h [].

Lemma iter_absent : forall t r, ~ In t (map fst r) -> iter_for t r = [].
Proof. intros t r H. unfold iter_for. apply (dget_none _ ctype_eqb_spec) in H. rewrite H. reflexivity. Qed.

Lemma step_live : forall o r t l, NoDup (map fst r) -> iter_for t r = l ->
  NoDup (map fst (reg_step r o)) /\ iter_for t (reg_step r o) = live_step t l o.
Proof.
  intros o r t l ND E. destruct o as [t' i|[t'|] i]; cbn [reg_step live_step].
  - split; [|rewrite iter_register, E; reflexivity]. unfold register.
    destruct (dget ctype_eqb t' r); apply dset_nodup; try assumption; apply ctype_eqb_spec.
  - unfold unregister. destruct (in_dec ctype_dec t' (map fst r)) as [I|I].
    + destruct (del_loop [t'] i r t) as (A & B & C); [repeat constructor; intros []|exact ND|intros x [<-|[]]; exact I|].
      split; [exact A|]. rewrite C. cbn [existsb]. rewrite orb_false_r, E. reflexivity.
    + cbn [unregister_loop]. pose proof I as I2. apply (dget_none _ ctype_eqb_spec) in I2. rewrite I2. cbn [fst].
      split; [exact ND|]. destruct (ctype_eqb t' t) eqn:T; [|exact E]. apply ctype_eqb_spec in T. subst t'.
      rewrite (iter_absent _ _ I) in E. subst l. rewrite (iter_absent _ _ I). destruct i; reflexivity.
  - unfold unregister. destruct (del_loop (map fst r) i r t ND ND (fun x Hx => Hx)) as (A & B & C).
    split; [exact A|]. rewrite C. destruct (existsb (fun x => ctype_eqb x t) (map fst r)) eqn:X; [rewrite E; reflexivity|].
    assert (NI : ~ In t (map fst r)).
    { intro H. assert (existsb (fun x => ctype_eqb x t) (map fst r) = true); [|congruence].
      apply existsb_exists. exists t. split; [exact H|apply ctype_eqb_spec; reflexivity]. }
    rewrite (iter_absent _ _ NI) in E |- *. subst l. destruct i; reflexivity.
Qed.

Lemma run_live : forall h r t, NoDup (map fst r) ->
  NoDup (map fst (fold_left reg_step h r)) /\ iter_for t (fold_left reg_step h r) = fold_left (live_step t) h (iter_for t r).
Proof.
  induction h as [|o h IH]; intros r t ND; cbn [fold_left]; [auto|].
  destruct (step_live o r t _ ND eq_refl) as [A B]. rewrite <- B. apply IH. exact A.
Qed.

Lemma iter_for_live : forall h t, iter_for t (reg_run h) = live t h.
Proof. intros h t. destruct (run_live h [] t (NoDup_nil _)) as [_ B]. exact B. Qed.

Lemma get_live : forall h t,
  reg_get t (reg_run h) = match live t h with
                          | i :: _ => Ok i
                          | [] => Err (if reg_has t (reg_run h) then IndexError else CompressionErr)
                          end.
Proof.
  intros h t. rewrite <- iter_for_live. unfold reg_get, iter_for, reg_has, dmem.
  destruct (dget ctype_eqb t (reg_run h)) as [[|i l]|]; reflexivity.
Qed.

(** Without taking single interfaces back, lists never become empty. *)
Definition no_single (o : regop) : Prop := match o with RegDel _ (Some _) => False | _ => True end.
Definition no_empty (r : registry) : Prop := forall t, dget ctype_eqb t r <> Some [].

Lemma unregister_all_get : forall ts r, NoDup (map fst r) -> no_empty r -> no_empty (fst (unregister_loop ts None r)).
Proof.
  induction ts as [|ct ts IH]; intros r ND NE; cbn [unregister_loop]; [exact NE|].
  destruct (dget ctype_eqb ct r); [|exact NE]. apply IH; [apply ddel_nodup; [apply ctype_eqb_spec|exact ND]|].
  intro x. rewrite (dget_ddel _ ctype_eqb_spec) by exact ND. destruct (ctype_eqb x ct); [discriminate|apply NE].
Qed.
Lemma step_no_empty : forall o r, no_single o -> NoDup (map fst r) -> no_empty r -> no_empty (reg_step r o).
Proof.
  intros [t i|t [x|]] r NS ND NE; cbn in NS; [|contradiction|].
  - intro y. cbn [reg_step]. unfold register. destruct (dget ctype_eqb t r) as [l|] eqn:E; rewrite (dget_dset _ ctype_eqb_spec);
      destruct (ctype_eqb y t); try apply NE; [destruct l; discriminate|discriminate].
  - cbn [reg_step]. unfold unregister. apply unregister_all_get; [exact ND|exact NE].
Qed.
Lemma run_no_empty : forall h r, Forall no_single h -> NoDup (map fst r) -> no_empty r -> no_empty (fold_left reg_step h r).
Proof.
  induction h as [|o h IH]; intros r F ND NE; cbn [fold_left]; [exact NE|]. inversion F; subst.
  apply IH; [assumption|apply (step_live o r UNKNOWN _ ND eq_refl)|apply step_no_empty; assumption].
Qed.
Lemma has_iff_live : forall h t, Forall no_single h -> (reg_has t (reg_run h) = true <-> live t h <> []).
Proof.
  intros h t F. rewrite <- iter_for_live.
  assert (NE : no_empty (reg_run h)) by (apply run_no_empty; [exact F|constructor|discriminate]).
  specialize (NE t). unfold reg_has, dmem, iter_for in *. destruct (dget ctype_eqb t (reg_run h)) as [[|i l]|]; [congruence| |];
    split; intro X; congruence.
Qed.
Lemma live_has : forall h t, live t h <> [] -> reg_has t (reg_run h) = true.
Proof.
  intros h t. rewrite <- iter_for_live. unfold reg_has, dmem, iter_for. destruct (dget ctype_eqb t (reg_run h)); congruence.
Qed.
