(** What the classes of caches guarantee to the archive, as invariants of
    their contents. *)
From Coq Require Import List ZArith Bool Lia ZifyBool ZifyNat.
From Verif Require Import Base Dict LinkedList Cache CacheSpec CacheProofs CacheFacts Archive EntryCache EntryCacheSpec.
Import ListNotations.
Open Scope Z_scope.

Definition lru_holds (Q : Z * nat -> Prop) (c : lru Z nat) : Prop :=
  exists r, lru_abs c r /\ 1 <= l_max c /\ forall kv, In kv r -> Q kv.
Definition top_holds (Q : Z * nat -> Prop) (c : top Z nat) : Prop :=
  exists s, top_abs Z.eqb c s /\ 1 <= t_max c /\ forall kv, In kv (fst s) -> Q kv.
Definition evs_hold (Q : Z * nat -> Prop) (evs : list (leave Z nat)) : Prop := Forall (fun e => Q (lv_key e, lv_val e)) evs.

Lemma zeqb : forall a b : Z, Z.eqb a b = true <-> a = b.
Proof. exact Z.eqb_eq. Qed.

Lemma lru_get_holds : forall Q c k, lru_holds Q c -> lru_has Z.eqb c k = true ->
  exists c' v, lru_get Z.eqb c k = (c', [], Ok (RVal v)) /\ lru_holds Q c' /\ Q (k, v).
Proof.
  intros Q c k (r & A & M & H) Hh. destruct (lru_refines Z.eqb zeqb c r (CGet k) A) as (c' & evs & ret & r' & E1 & S1 & A1 & [_ D]).
  cbn [lru_step lru_spec] in *. rewrite (lru_abs_has Z.eqb zeqb c r k A) in Hh. unfold dmem in Hh.
  destruct (dget Z.eqb k r) as [v|] eqn:E; [|discriminate]. injection S1 as <- <- <-. exists c', v.
  split; [exact E1|]. assert (Qv : Q (k, v)) by (apply H; apply (dget_in Z.eqb zeqb); exact E). split; [|exact Qv].
  eexists. split; [exact A1|]. split; [lia|]. intros kv [<-|I]; [exact Qv|]. apply H. unfold del in I. apply filter_In in I. apply I.
Qed.

Lemma removelast_in : forall {A} (l : list A) x, In x (removelast l) -> In x l.
Proof.
  induction l as [|a l IH]; intros x H; [exact H|]. destruct l as [|b l]; [destruct H|]. cbn [removelast] in H.
  destruct H as [->|H]; [left; reflexivity|right; apply IH; exact H].
Qed.

Lemma lru_push_holds : forall Q c k v allow, lru_holds Q c -> Q (k, v) ->
  exists c' evs b, lru_push Z.eqb c k v allow = (c', evs, Ok (RBool b)) /\
    lru_holds (fun kv => Q kv /\ (fst kv = k -> snd kv = v)) c' /\ evs_hold Q evs /\ (allow = false -> evs = []).
Proof.
  intros Q c k v allow (r & A & M & H) Qv. destruct (lru_refines Z.eqb zeqb c r (CPush k v allow) A) as (c' & evs & ret & r' & E1 & S1 & A1 & [_ D]).
  cbn [lru_step lru_spec] in *. rewrite E1. pose proof (lru_abs_nodup c r A) as ND.
  destruct (dmem Z.eqb k r) eqn:Em.
  - injection S1 as <- <- <-. exists c', [], true. split; [reflexivity|]. split; [|split; [constructor|reflexivity]].
    eexists. split; [exact A1|]. split; [lia|]. intros kv [<-|I]; [split; [exact Qv|reflexivity]|]. unfold del in I. apply filter_In in I. destruct I as [I1 I2].
    split; [apply H; exact I1|]. intro X. rewrite X, Z.eqb_refl in I2. discriminate.
  - assert (NK : forall kv, In kv r -> fst kv <> k).
    { intros [k0 v0] I X. cbn in X. subst k0. assert (dmem Z.eqb k r = true); [|congruence]. apply (dmem_iff Z.eqb zeqb). apply (in_map fst) in I. exact I. }
    destruct (negb allow) eqn:En.
    + injection S1 as <- <- <-. exists c', [], false. split; [reflexivity|]. split; [|split; [constructor|reflexivity]].
      eexists. split; [exact A1|]. split; [lia|]. intros kv I. split; [apply H; exact I|]. intro X. destruct (NK kv I X).
    + destruct (zlen r <? l_max c) eqn:El.
      * injection S1 as <- <- <-. exists c', [], true. split; [reflexivity|]. split; [|split; [constructor|reflexivity]].
        eexists. split; [exact A1|]. split; [lia|]. intros kv [<-|I]; [split; [exact Qv|reflexivity]|]. split; [apply H; exact I|]. intro X. destruct (NK kv I X).
      * destruct (rev r) as [|z q] eqn:Er.
        { assert (r = []) by (rewrite <- (rev_involutive r), Er; reflexivity). subst r. unfold zlen in El. cbn in El. lia. }
        injection S1 as <- <- <-. eexists c', _, true. split; [reflexivity|].
        assert (Iz : In z r) by (rewrite in_rev, Er; left; reflexivity).
        split; [|split; [destruct (l_cb c); constructor; [destruct z; apply H; exact Iz|constructor]|destruct allow; [discriminate|discriminate En]]].
        eexists. split; [exact A1|]. split; [lia|]. intros kv [<-|I]; [split; [exact Qv|reflexivity]|]. apply removelast_in in I.
        split; [apply H; exact I|]. intro X. destruct (NK kv I X).
Qed.

Lemma top_get_holds : forall Q c k, top_holds Q c -> top_has Z.eqb c k = true ->
  exists c' v, top_get Z.eqb c k = (c', [], Ok (RVal v)) /\ top_holds Q c' /\ Q (k, v).
Proof.
  intros Q c k (s & A & M & H) Hh. destruct (top_refines Z.eqb zeqb c s (CGet k) A) as (c' & evs & ret & s' & E1 & S1 & A1 & [_ D]).
  pose proof (top_abs_nodup Z.eqb c s A) as ND. rewrite (top_abs_has Z.eqb zeqb c s k A) in Hh. destruct s as [r acc]. cbn [top_step top_spec fst] in *.
  unfold dmem in Hh. destruct (dget Z.eqb k r) as [v|] eqn:E; [|discriminate].
  rewrite (dget_promote Z.eqb zeqb) in S1 by exact ND. rewrite E in S1. injection S1 as <- <- <-. exists c', v.
  assert (Qv : Q (k, v)) by (apply H; apply (dget_in Z.eqb zeqb); exact E). split; [exact E1|]. split; [|exact Qv].
  eexists. split; [exact A1|]. split; [lia|]. cbn [fst]. intros kv I. apply H. apply (promote_in Z.eqb) in I. exact I.
Qed.

Lemma top_push_holds : forall Q c k v allow, top_holds Q c -> Q (k, v) ->
  exists c' evs b, top_push Z.eqb c k v allow = (c', evs, Ok (RBool b)) /\
    top_holds (fun kv => Q kv /\ (fst kv = k -> snd kv = v)) c' /\ evs_hold Q evs /\ (allow = false -> evs = []).
Proof.
  intros Q c k v allow (s & A & M & H) Qv. destruct (top_refines Z.eqb zeqb c s (CPush k v allow) A) as (c' & evs & ret & s' & E1 & S1 & A1 & [_ D]).
  destruct s as [r acc]. cbn [top_step top_spec fst] in *. rewrite E1.
  set (r1 := promote Z.eqb (bump Z.eqb acc k) k r) in *.
  assert (H1 : forall kv, In kv r1 -> Q kv) by (intros kv I; apply H; apply (promote_in Z.eqb) in I; exact I).
  destruct (dmem Z.eqb k r1) eqn:Em.
  - injection S1 as <- <- <-. exists c', [], true. split; [reflexivity|]. split; [|split; [constructor|reflexivity]].
    eexists. split; [exact A1|]. split; [lia|]. cbn [fst]. intros kv I. unfold CacheSpec.update in I. apply in_map_iff in I. destruct I as ([k0 v0] & <- & I). cbn [fst].
    destruct (k =? k0) eqn:Ek; [split; [exact Qv|reflexivity]|]. split; [apply H1; exact I|]. cbn [fst]. lia.
  - assert (NK : forall kv, In kv r1 -> fst kv <> k).
    { intros [k0 v0] I X. cbn in X. subst k0. assert (dmem Z.eqb k r1 = true); [|congruence]. apply (dmem_iff Z.eqb zeqb). apply (in_map fst) in I. exact I. }
    destruct (zlen r1 <? t_max c) eqn:El.
    + injection S1 as <- <- <-. exists c', [], true. split; [reflexivity|]. split; [|split; [constructor|reflexivity]].
      eexists. split; [exact A1|]. split; [lia|]. cbn [fst]. intros kv I. apply in_app_iff in I. destruct I as [I|[<-|[]]]; [|split; [exact Qv|reflexivity]].
      split; [apply H1; exact I|]. intro X. destruct (NK kv I X).
    + destruct (rev r1) as [|z q] eqn:Er.
      { assert (r1 = []) as X by (rewrite <- (rev_involutive r1), Er; reflexivity). rewrite X in El. unfold zlen in El. cbn in El. lia. }
      assert (Iz : In z r1) by (rewrite in_rev, Er; left; reflexivity).
      destruct (_ && allow) eqn:Ea.
      * injection S1 as <- <- <-. eexists c', _, true. split; [reflexivity|].
        split; [|split; [destruct (t_cb c); constructor; [destruct z; apply H1; exact Iz|constructor]|destruct allow; [discriminate|lia]]].
        eexists. split; [exact A1|]. split; [lia|]. cbn [fst]. intros kv I. apply in_app_iff in I. destruct I as [I|[<-|[]]]; [|split; [exact Qv|reflexivity]].
        apply removelast_in in I. split; [apply H1; exact I|]. intro X. destruct (NK kv I X).
      * injection S1 as <- <- <-. exists c', [], false. split; [reflexivity|]. split; [|split; [constructor|reflexivity]].
        eexists. split; [exact A1|]. split; [lia|]. cbn [fst]. intros kv I. split; [apply H1; exact I|]. intro X. destruct (NK kv I X).
Qed.

Lemma lru_remove_holds : forall Q c k, lru_holds Q c -> l_cb c = true ->
  exists c' evs, lru_remove Z.eqb c k true = (c', evs, Ok RNone) /\ lru_holds (fun kv => Q kv /\ fst kv <> k) c' /\ l_cb c' = true /\ evs_hold Q evs.
Proof.
  intros Q c k (r & A & M & H) CB. pose proof (lru_abs_nodup c r A) as ND. destruct (lru_refines Z.eqb zeqb c r (CRemove k true) A) as (c' & evs & ret & r' & E1 & S1 & A1 & [D1 D]).
  cbn [lru_step lru_spec] in *. rewrite E1, CB in *. destruct (dget Z.eqb k r) as [v|] eqn:E; injection S1 as <- <- <-.
  - exists c', [unlocked (k, v)]. split; [reflexivity|]. split; [|split; [congruence|]].
    + eexists. split; [exact A1|]. split; [lia|]. intros kv I. unfold del in I. apply filter_In in I. destruct I as [I1 I2]. split; [apply H; exact I1|]. intro X. rewrite X, Z.eqb_refl in I2. discriminate.
    + constructor; [cbn; apply H; apply (dget_in Z.eqb zeqb); exact E|constructor].
  - exists c', []. split; [reflexivity|]. split; [|split; [congruence|constructor]].
    eexists. split; [exact A1|]. split; [lia|]. intros kv I. split; [apply H; exact I|]. intro X. destruct kv as [k0 v0]. cbn in X. subst k0.
    apply (in_dget Z.eqb zeqb) in I; [congruence|exact ND].
Qed.

(** ** The four classes *)
Definition hybrid_holds (Q : Z * nat -> Prop) (c : hybrid Z nat) : Prop :=
  lru_holds Q (h_last c) /\ top_holds Q (h_top c) /\ l_cb (h_last c) = true.
Definition holds (Q : Z * nat -> Prop) (c : ecache) : Prop :=
  match c with
  | ENone => True
  | ELast c => lru_holds Q c
  | ETop c => top_holds Q c
  | EHybrid c => hybrid_holds Q c
  end.

Lemma lru_weaken : forall (Q Q' : Z * nat -> Prop) c, (forall kv, Q kv -> Q' kv) -> lru_holds Q c -> lru_holds Q' c.
Proof. intros Q Q' c H (r & A & M & X). exists r. auto. Qed.
Lemma top_weaken : forall (Q Q' : Z * nat -> Prop) c, (forall kv, Q kv -> Q' kv) -> top_holds Q c -> top_holds Q' c.
Proof. intros Q Q' c H (r & A & M & X). exists r. auto. Qed.
Lemma holds_weaken : forall (Q Q' : Z * nat -> Prop) c, (forall kv, Q kv -> Q' kv) -> holds Q c -> holds Q' c.
Proof.
  intros Q Q' [|c|c|c] H X; cbn [holds] in *; [exact X|eapply lru_weaken; eassumption|eapply top_weaken; eassumption|].
  destruct X as (X1 & X2 & X3). split; [eapply lru_weaken; eassumption|split; [eapply top_weaken; eassumption|exact X3]].
Qed.
Lemma new_holds : forall Q cl, sizes_positive cl -> holds Q (ecache_new cl).
Proof.
  intros Q cl S.
  assert (L : forall n, 1 <= n -> lru_holds Q (lru_new true n)) by (intros n Hn; exists []; split; [apply lru_new_abs|split; [exact Hn|intros kv []]]).
  assert (T : forall n, 1 <= n -> top_holds Q (top_new true n)) by (intros n Hn; exists ([], fun _ => 0); split; [apply top_new_abs|split; [exact Hn|intros kv []]]).
  destruct cl as [|n|n|n m]; cbn [sizes_positive ecache_new holds] in *; [exact Logic.I|apply L; exact S|apply T; exact S|].
  split; [apply L; exact S|split; [apply T; exact S|reflexivity]].
Qed.

Definition ehas (c : ecache) (k : Z) : bool :=
  match c with ENone => false | ELast c => lru_has Z.eqb c k | ETop c => top_has Z.eqb c k | EHybrid c => hybrid_has Z.eqb c k end.
Lemma has_step : forall c k, estep c (CHas k) = (c, [], Ok (RBool (ehas c k))).
Proof. destruct c; reflexivity. Qed.

Lemma lru_get_cb : forall (c : lru Z nat) k, l_cb (o_state (lru_get Z.eqb c k)) = l_cb c.
Proof.
  intros c k. unfold lru_get. destruct (dget _ _ _); [|reflexivity]. destruct (dll_remove_element _ _); [|reflexivity].
  destruct (elem_value _ _) as [[? ?]|]; reflexivity.
Qed.
Lemma lru_push_cb : forall (c : lru Z nat) k v al, l_cb (o_state (lru_push Z.eqb c k v al)) = l_cb c.
Proof.
  intros c k v al. unfold lru_push, lru_add.
  repeat match goal with |- context [match ?x with _ => _ end] => destruct x; cbn [o_state fst l_cb] end; reflexivity.
Qed.

Lemma forward_hold : forall Q cb evs, evs_hold Q evs -> evs_hold Q (forward cb evs).
Proof. intros Q [|] evs H; [exact H|constructor]. Qed.
Lemma evs_app : forall Q a b, evs_hold Q a -> evs_hold Q b -> evs_hold Q (a ++ b).
Proof. intros Q a b Ha Hb. apply Forall_app. split; assumption. Qed.

Lemma get_step : forall Q c k, holds Q c -> ehas c k = true ->
  exists c' evs v, estep c (CGet k) = (c', evs, Ok (RVal v)) /\ holds Q c' /\ Q (k, v) /\ evs_hold Q evs /\
    match c with EHybrid _ => True | _ => evs = [] end.
Proof.
  intros Q c k H Hh. destruct c as [|c|c|c]; cbn [ehas holds estep] in *; [discriminate| | |].
  - destruct (lru_get_holds Q c k H Hh) as (c' & v & E & H' & Qv). cbn [lru_step]. rewrite E. exists (ELast c'), [], v.
    split; [reflexivity|]. split; [exact H'|]. split; [exact Qv|]. split; [constructor|reflexivity].
  - destruct (top_get_holds Q c k H Hh) as (c' & v & E & H' & Qv). cbn [top_step]. rewrite E. exists (ETop c'), [], v.
    split; [reflexivity|]. split; [exact H'|]. split; [exact Qv|]. split; [constructor|reflexivity].
  - destruct H as (HL & HT & CB). cbn [hybrid_step]. unfold hybrid_has in Hh. unfold hybrid_get. destruct (top_has Z.eqb (h_top c) k) eqn:Et.
    + destruct (top_get_holds Q _ k HT Et) as (c' & v & E & H' & Qv). rewrite E.
      eexists (EHybrid (mkHybrid (h_cb c) (h_last c) c')), _, v. split; [reflexivity|]. split; [split; [exact HL|split; [exact H'|exact CB]]|].
      split; [exact Qv|]. split; [apply forward_hold; constructor|exact Logic.I].
    + cbn [orb] in Hh. rewrite Hh. destruct (lru_get_holds Q _ k HL Hh) as (l & v & E & HL' & Qv). pose proof (lru_get_cb (h_last c) k) as CB'. rewrite E in *. cbn [o_state fst] in CB'.
      destruct (top_push_holds Q _ k v true HT Qv) as (t & evs2 & b & E2 & HT' & EV2 & _). rewrite E2. apply (top_weaken _ Q) in HT'; [|intros kv [X _]; exact X].
      destruct b.
      * destruct (lru_remove_holds Q l k HL' ltac:(congruence)) as (l2 & evs3 & E3 & HL2 & CB2 & EV3). rewrite E3.
        eexists (EHybrid (mkHybrid (h_cb c) l2 t)), _, v. split; [reflexivity|].
        split; [split; [eapply lru_weaken; [|exact HL2]; intros kv [X _]; exact X|split; [exact HT'|exact CB2]]|].
        split; [exact Qv|]. split; [apply forward_hold; cbn [app]; apply evs_app; assumption|exact Logic.I].
      * eexists (EHybrid (mkHybrid (h_cb c) l t)), _, v. split; [reflexivity|].
        split; [split; [exact HL'|split; [exact HT'|cbn [h_last]; congruence]]|].
        split; [exact Qv|]. split; [apply forward_hold; cbn [app]; assumption|exact Logic.I].
Qed.

(** What is known of the contents after a push. *)
Definition pushed (Q : Z * nat -> Prop) (k : Z) (v : nat) (c : ecache) (kv : Z * nat) : Prop :=
  Q kv /\ match c with EHybrid _ => True | _ => fst kv = k -> snd kv = v end.
Lemma push_step : forall Q c k v allow, holds Q c -> Q (k, v) ->
  exists c' evs b, estep c (CPush k v allow) = (c', evs, Ok (RBool b)) /\ holds (pushed Q k v c) c' /\ evs_hold Q evs /\ (allow = false -> evs = []).
Proof.
  intros Q c k v allow H Qv. destruct c as [|c|c|c]; cbn [holds estep] in *.
  - exists ENone, [], false. split; [reflexivity|]. split; [exact Logic.I|]. split; [constructor|reflexivity].
  - destruct (lru_push_holds Q c k v allow H Qv) as (c' & evs & b & E & H' & EV & NE). cbn [lru_step]. rewrite E. exists (ELast c'), evs, b. auto.
  - destruct (top_push_holds Q c k v allow H Qv) as (c' & evs & b & E & H' & EV & NE). cbn [top_step]. rewrite E. exists (ETop c'), evs, b. auto.
  - destruct H as (HL & HT & CB). cbn [hybrid_step]. unfold hybrid_push.
    destruct (top_push_holds Q _ k v allow HT Qv) as (t & evs1 & b & E1 & HT' & EV1 & NE1). rewrite E1.
    apply (top_weaken _ (pushed Q k v (EHybrid c))) in HT'; [|intros kv [X _]; split; [exact X|exact Logic.I]].
    assert (HLw : lru_holds (pushed Q k v (EHybrid c)) (h_last c)) by (eapply lru_weaken; [|exact HL]; intros kv X; split; [exact X|exact Logic.I]).
    destruct b.
    + eexists (EHybrid (mkHybrid (h_cb c) (h_last c) t)), _, true. split; [reflexivity|]. split; [split; [exact HLw|split; [exact HT'|exact CB]]|].
      split; [apply forward_hold; exact EV1|]. intro X. rewrite (NE1 X). destruct (h_cb c); reflexivity.
    + destruct (lru_push_holds Q _ k v allow HL Qv) as (l & evs2 & b & E2 & HL' & EV2 & NE2). pose proof (lru_push_cb (h_last c) k v allow) as CB'. rewrite E2 in *. cbn [o_state fst] in CB'.
      eexists (EHybrid (mkHybrid (h_cb c) l t)), _, b. split; [reflexivity|].
      split; [split; [eapply lru_weaken; [|exact HL']; intros kv [X _]; split; [exact X|exact Logic.I]|split; [exact HT'|cbn [h_last]; congruence]]|].
      split; [apply forward_hold; apply evs_app; assumption|]. intro X. rewrite (NE1 X), (NE2 X). destruct (h_cb c); reflexivity.
Qed.
