(** Property C99: processors are told of every redirect that is added. *)
From Coq Require Import List ZArith Bool Lia Sorting.Permutation.
From Coq Require Import ZifyBool ZifyNat.
From Verif Require Import Base BaseProofs Utf8 Utf8Proofs Entry EntrySpec EntryProofs PointerList PointerListSpec PointerListProofs SpaceAllocator SpaceAllocatorSpec Cluster
  Archive ArchiveSpec ArchiveProofs ArchiveWriteProofs ArchiveMoveProofs ArchiveRemoveProofs ArchiveFacts ArchiveObserve ArchiveLaws PropsArchive
  OperationBuffer OperationBufferSpec OperationBufferProofs PropsOperationBuffer RedirectWatch.
Import ListNotations.
Open Scope Z_scope.

(** ** What a notice says *)
(** Redirect [r] is told: the entry has its source as url, is not yet in the
    archive, and leads in the archive as it is at that time to its target; it has
    the wanted title, or that of the target. *)
Definition announces (r : rop) (n : rnotice) : Prop :=
  let '(z, e) := n in
  is_redirect e = true /\ full_url e = source r /\ ~ exists_at z (source r) /\ target_url z e = Some (target r) /\
  match wanted_title r with
  | Some t => e_title e = Some t
  | None => exists d, get_entry_by_full_url z (target r) = Ok d /\ e_title e = Some (title d)
  end.

(** ** Observers change nothing *)
Lemma add_t_same : forall fuel r o, fst (add_redirect_t fuel r o) = add_redirect fuel r o.
Proof.
  intros fuel [[s t] l] o. unfold add_redirect_t, add_redirect, lift, add_full_url_redirect, query, mbind.
  destruct (make_redirect (b_zim o) s t l) as [[e|]|x]; cbn.
  - destruct (write_entry fuel (fresh e) (b_zim o)) as [[[]|x] z]; reflexivity.
  - destruct o; reflexivity.
  - destruct o; reflexivity.
Qed.
Lemma adds_t_same : forall fuel l o, fst (add_redirects_t fuel l o) = add_redirects fuel l o.
Proof.
  intros fuel. induction l as [|r l IH]; intro o; [reflexivity|]. cbn [add_redirects_t add_redirects]. unfold mbind. rewrite <- add_t_same.
  destruct (add_redirect_t fuel r o) as [[[[]|x] o1] n]; cbn [fst]; [|reflexivity]. rewrite <- IH. destruct (add_redirects_t fuel l o1) as [st n']. reflexivity.
Qed.
Lemma loop_t_same : forall fuel rounds o, fst (apply_loop_t rounds fuel o) = apply_loop rounds fuel o.
Proof.
  intros fuel. induction rounds as [|rounds IH]; intro o; [reflexivity|]. cbn [apply_loop_t apply_loop]. unfold mbind. rewrite <- adds_t_same.
  destruct (add_redirects_t fuel (b_redirects o) (b_set_redirects [] o)) as [[[[]|x] o1] n]; cbn [fst]; [|reflexivity].
  destruct (rops_eqb (b_redirects o1) (b_redirects o)); [reflexivity|]. rewrite <- IH. destruct (apply_loop_t rounds fuel o1) as [st n']. reflexivity.
Qed.
Theorem C99_transparent : forall fuel o, (forall r, fst (add_redirect_t fuel r o) = add_redirect fuel r o) /\
  (forall rounds, fst (apply_redirects_t rounds fuel o) = apply_redirects rounds fuel o).
Proof.
  intros fuel o. split; [intro; apply add_t_same|]. intro rounds. unfold apply_redirects_t, apply_redirects, mbind. rewrite <- loop_t_same.
  destruct (apply_loop_t rounds fuel o) as [[[[]|x] o1] n]; cbn [fst]; [|reflexivity]. destruct (b_redirects o1); reflexivity.
Qed.

(** ** One call *)
(** A call tells at most once.  If it tells nothing, the archive is as before; if
    it then also succeeds, the redirect waits in the buffer. *)
Theorem C99_one_call : forall fuel r o x o' n, add_redirect_t fuel r o = (x, o', n) ->
  (exists e, n = [(b_zim o, e)] /\ b_redirects o' = b_redirects o) \/
  (n = [] /\ b_zim o' = b_zim o /\ (x = Ok tt -> b_redirects o' = b_redirects o ++ [r])).
Proof.
  intros fuel [[s t] l] o x o' n H. unfold add_redirect_t in H. destruct (make_redirect (b_zim o) s t l) as [[e|]|y].
  - left. destruct (write_entry fuel (fresh e) (b_zim o)) as [w z]. injection H as <- <- <-. exists e. split; reflexivity.
  - right. injection H as <- <- <-. repeat split; reflexivity.
  - right. injection H as <- <- <-. split; [reflexivity|]. split; [reflexivity|discriminate].
Qed.

Lemma make_present : forall s L r, consistent s L -> sound r -> absent L (source r) -> exists_at s (target r) ->
  exists e, make_redirect s (source r) (target r) (wanted_title r) = Ok (Some e) /\ announces r (s, e).
Proof.
  intros s L r C [(ns & u & x & Es & Hns & Hu) [Ht0 [tb Htb]] Hd Hti] A E. pose proof E as E0.
  apply (exists_at_iff _ _ _ C) in E as (d & Hd1 & Hd2). destruct (in_znth _ _ Hd1) as [i Hi].
  assert (Gd : get_entry_by_full_url s (target r) = Ok d) by (apply (lookup_iff _ _ _ _ C); auto).
  set (t := match wanted_title r with Some t => t | None => title d end).
  exists (mkEntry MIMETYPE_ID_REDIRECT [ns] u (Some t) (Redirect i)). split.
  - unfold make_redirect. replace (ueqb (source r) (target r)) with false by (symmetry; apply ueqb_neq; exact Hd).
    rewrite Es. destruct (target r) as [|t0 tr] eqn:Et; [contradiction|]. rewrite <- Et in *. rewrite <- Hd2 at 1. rewrite (url_index_in _ _ _ _ C Hi). rewrite Gd.
    unfold t. destruct (wanted_title r); reflexivity.
  - split; [reflexivity|]. split; [rewrite Es; reflexivity|]. split; [intro X; exact (not_both _ _ _ C X A)|]. split.
    + unfold target_url. cbn. rewrite (proj2 (index_iff _ _ _ _ C) Hi). congruence.
    + unfold t. cbn [e_title]. destruct (wanted_title r); [reflexivity|]. exists d. auto.
Qed.
Lemma add_t_present : forall n o L k r, consistent (b_zim o) L -> reserved (b_zim o) k -> zlen L <= k -> zlen L + 1 < 2 ^ 32 -> sound r -> absent L (source r) ->
  exists_at (b_zim o) (target r) ->
  exists s' L' e, add_redirect_t (S (S n)) r o = (Ok tt, b_set_zim s' o, [e]) /\ announces r e /\ grew (b_zim o) L k r s' L'.
Proof.
  intros n o L k r C R Hk Hc So A E. destruct (make_present _ _ _ C So A E) as (e & MR & AN).
  destruct (add_present n _ L k r C R Hk Hc So A E) as (s' & L' & W & G). exists s', L', (b_zim o, e). split; [|split; [exact AN|exact G]].
  unfold add_full_url_redirect, query, mbind in W. rewrite MR in W. rewrite (rop_eta r). unfold add_redirect_t. rewrite MR.
  destruct (write_entry (S (S n)) (fresh e) (b_zim o)) as [[[]|x] z]; [|discriminate W]. injection W as ->. reflexivity.
Qed.
Lemma add_t_missing : forall n o L r, consistent (b_zim o) L -> sound r -> absent L (target r) ->
  add_redirect_t n r o = (Ok tt, b_set_redirects (b_redirects o ++ [r]) o, []).
Proof.
  intros n o L r C [(ns & u & x & Es & Hns & Hu) [Ht0 [tb Htb]] Hd Hti] A. rewrite (rop_eta r). unfold add_redirect_t.
  replace (make_redirect (b_zim o) (source r) (target r) (wanted_title r)) with (@Ok (option entry) None); [reflexivity|].
  unfold make_redirect. replace (ueqb (source r) (target r)) with false by (symmetry; apply ueqb_neq; exact Hd).
  rewrite Es. destruct (target r) as [|t0 tr] eqn:Et; [contradiction|]. rewrite <- Et in *. rewrite (url_index_absent _ _ _ _ C Htb A). reflexivity.
Qed.

(** ** Rounds *)
Lemma round_t_ok : forall n s0 L0 k rs W o, consistent s0 L0 -> state s0 L0 k W (b_zim o) -> zlen L0 + zlen W + zlen rs <= k -> zlen L0 + zlen W + zlen rs < 2 ^ 32 ->
  (forall r, In r rs -> sound r /\ absent L0 (source r)) -> NoDup (map source (W ++ rs)) ->
  exists W' rest s' ns, add_redirects_t (S (S n)) rs o = (Ok tt, mkBuffered s' (b_redirects o ++ rest) (b_main o), ns) /\ parts rs W' rest /\ state s0 L0 k (W ++ W') s' /\
    Forall2 announces W' ns.
Proof.
  intros n s0 L0 k. induction rs as [|r rs IH]; intros W o C0 St Hk Hc Hs ND.
  - exists [], [], (b_zim o), []. rewrite app_nil_r, app_nil_r. split; [destruct o; reflexivity|]. split; [constructor|]. split; [exact St|constructor].
  - rewrite zlen_cons in Hk, Hc. pose proof (zlen_nonneg rs) as Hr0. destruct (Hs r (or_introl eq_refl)) as [So Ab]. destruct (st_ok _ _ _ _ _ St) as (L & C & Ln).
    destruct (exists_at_dec (b_zim o) L (target r) C) as [E|E].
    + assert (Ab' : absent L (source r)).
      { intros d Hd1 Hd2. assert (X : exists_at (b_zim o) (source r)) by (apply (exists_at_iff _ _ _ C); eauto). apply (st_only _ _ _ _ _ St) in X as [X|X].
        - exact (not_both _ _ _ C0 X Ab).
        - rewrite map_app in ND. cbn [map] in ND. apply NoDup_remove_2 in ND. apply ND. apply in_or_app. left. exact X. }
      destruct (add_t_present n o L k r C (st_reserved _ _ _ _ _ St) ltac:(lia) ltac:(lia) So Ab' E) as (s1 & L1 & e & W1 & AN & [G1 G2 G3 G4 G5 G6]).
      assert (St1 : state s0 L0 k (W ++ [r]) s1).
      { constructor.
        - exists L1. rewrite zlen_app1. split; [exact G1|lia].
        - exact G3.
        - intros q Hq. apply in_app_or in Hq as [Hq|[<-|[]]]; [|exact G4]. apply (has_redirect_extends (b_zim o)); [exact G5|]. apply (st_has _ _ _ _ _ St). exact Hq.
        - eapply extends_trans; [apply (st_ext _ _ _ _ _ St)|exact G5].
        - intro u. rewrite map_app, in_app_iff. cbn [map In]. split.
          + intro H. destruct (G6 u H) as [H1| ->]; [|auto]. apply (st_only _ _ _ _ _ St) in H1. tauto.
          + intros [H|[H|[<-|[]]]]; [apply (extends_exists (b_zim o)); [exact G5|apply (st_only _ _ _ _ _ St); auto]..|apply has_exists; exact G4]. }
      destruct (IH (W ++ [r]) (b_set_zim s1 o) C0 St1) as (W' & rest & s' & ns & R1 & R2 & R3 & R4).
      * rewrite zlen_app1. lia.
      * rewrite zlen_app1. lia.
      * intros q Hq. apply Hs. right. exact Hq.
      * rewrite <- app_assoc. exact ND.
      * exists (r :: W'), rest, s', (e :: ns). split; [cbn [add_redirects_t]; rewrite W1, R1; reflexivity|].
        split; [constructor; exact R2|]. split; [rewrite <- app_assoc in R3; exact R3|]. constructor; assumption.
    + pose proof (add_t_missing (S (S n)) o L r C So E) as W1.
      destruct (IH W (b_set_redirects (b_redirects o ++ [r]) o) C0) as (W' & rest & s' & ns & R1 & R2 & R3 & R4).
      * exact St.
      * lia.
      * lia.
      * intros q Hq. apply Hs. right. exact Hq.
      * rewrite map_app in *. cbn [map] in ND. apply NoDup_remove_1 in ND. exact ND.
      * exists W', (r :: rest), s', ns. split.
        { cbn [add_redirects_t]. rewrite W1, R1. cbn [b_redirects b_set_redirects b_main app]. rewrite <- app_assoc. reflexivity. }
        split; [constructor; exact R2|]. split; [exact R3|exact R4].
Qed.
Lemma loop_t_ok : forall n s0 L0 k m W o, consistent s0 L0 -> state s0 L0 k W (b_zim o) -> (length (b_redirects o) < m)%nat ->
  zlen L0 + zlen W + zlen (b_redirects o) <= k -> zlen L0 + zlen W + zlen (b_redirects o) < 2 ^ 32 ->
  (forall r, In r (b_redirects o) -> sound r /\ absent L0 (source r)) -> NoDup (map source (W ++ b_redirects o)) ->
  exists W' rest s' ns, apply_loop_t (S m) (S (S n)) o = (Ok tt, mkBuffered s' rest (b_main o), ns) /\ Permutation (b_redirects o) (W' ++ rest) /\
    Forall2 announces W' ns.
Proof.
  intros n s0 L0 k. induction m as [|m IH]; intros W o C0 St Hm Hk Hc Hs ND; [lia|].
  set (rs := b_redirects o) in *.
  destruct (round_t_ok n s0 L0 k rs W (b_set_redirects [] o) C0 St Hk Hc Hs ND) as (W1 & rest & s1 & ns & R1 & R2 & R3 & R4).
  cbn [b_redirects b_set_redirects app b_main] in R1.
  assert (Step : apply_loop_t (S (S m)) (S (S n)) o =
    if rops_eqb rest rs then (Ok tt, mkBuffered s1 rest (b_main o), ns)
    else let '(st, ns') := apply_loop_t (S m) (S (S n)) (mkBuffered s1 rest (b_main o)) in (st, ns ++ ns')).
  { remember (S m) as m1. cbn [apply_loop_t]. fold rs. change (b_set_redirects [] o) with (mkBuffered (b_zim o) [] (b_main o)) in R1. unfold b_set_redirects. rewrite R1. reflexivity. }
  pose proof (parts_perm _ _ _ R2) as Pm. rewrite Step. destruct (rops_eqb rest rs) eqn:Q.
  - exists W1, rest, s1, ns. split; [reflexivity|]. split; [exact Pm|exact R4].
  - assert (Hne : W1 <> []). { intros ->. apply parts_none in R2. subst rest. assert (rops_eqb rs rs = true) by (apply rops_eqb_eq; reflexivity). congruence. }
    pose proof (parts_length _ _ _ R2) as Hl. assert (Hz : zlen rs = zlen W1 + zlen rest) by (unfold zlen; lia).
    destruct (IH (W ++ W1) (mkBuffered s1 rest (b_main o)) C0 R3) as (W2 & rest2 & s2 & ns2 & S1 & S2 & S3); cbn [b_redirects] in *.
    + destruct W1; [contradiction|]. cbn in Hl. fold rs in Hm. lia.
    + rewrite zlen_app. lia.
    + rewrite zlen_app. lia.
    + intros r Hr. apply Hs. apply (parts_in _ _ _ r R2). auto.
    + rewrite <- app_assoc. eapply Permutation_NoDup; [|exact ND]. apply Permutation_map. apply Permutation_app_head. exact Pm.
    + exists (W1 ++ W2), rest2, s2, (ns ++ ns2). cbn [b_main] in S1. rewrite S1. split; [reflexivity|]. split.
      * rewrite Pm, S2, app_assoc. reflexivity.
      * apply Forall2_app; assumption.
Qed.

(** ** A flush *)
(** Exactly the redirects that can be resolved are told, each of them once, and
    each after its target is there; all of them are in the archive in the end.  Of
    those that stay in the buffer nothing is told. *)
Theorem C99_flush_partial : forall s L l m n rounds, consistent s L -> acceptable L l -> reserved s (zlen L + zlen l) -> (length l < rounds)%nat ->
  exists W s' l' ns, apply_redirects_t (S rounds) (S (S n)) (mkBuffered s l m) = (verdict l', mkBuffered s' l' m, ns) /\
    Forall2 announces W ns /\ NoDup W /\ (forall r, In r W <-> In r l /\ resolvable s l r) /\
    (forall r, In r W -> has_redirect s' r) /\ (forall r, In r l' -> In r l /\ ~ In r W).
Proof.
  intros s L l m n rounds C A R Hr. pose proof (ac_count _ _ A) as Hc.
  assert (Hs : forall r, In r l -> sound r /\ absent L (source r)) by (intros r H; split; [apply (ac_sound _ _ A); exact H|apply (ac_new _ _ A); exact H]).
  destruct (loop_t_ok n s L (zlen L + zlen l) rounds [] (mkBuffered s l m) C (state_start _ _ _ C R)) as (W & rest & s' & ns & E & P & AN); cbn [b_redirects b_zim b_main app] in *.
  { exact Hr. } { change (zlen (@nil rop)) with 0. lia. } { change (zlen (@nil rop)) with 0. lia. } { exact Hs. } { apply (ac_distinct _ _ A). }
  destruct (loop_ok n s L (zlen L + zlen l) rounds [] (mkBuffered s l m) C (state_start _ _ _ C R)) as (W2 & rest2 & s2 & E2 & P2 & St & Hno & Hres); cbn [b_redirects b_zim b_main app] in *.
  { exact Hr. } { change (zlen (@nil rop)) with 0. lia. } { change (zlen (@nil rop)) with 0. lia. } { exact Hs. } { apply (ac_distinct _ _ A). } { intros r []. }
  rewrite <- loop_t_same, E in E2. cbn [fst] in E2. injection E2 as <- <-.
  pose proof (finished _ _ _ _ _ _ _ C A P2 St Hno Hres) as [Q1 _ Q3 _ _ _]. apply parts_perm in P2.
  assert (PW : Permutation W W2) by (apply (Permutation_app_inv_r rest); rewrite <- P; exact P2).
  assert (NDl : NoDup (W ++ rest)) by (eapply Permutation_NoDup; [exact P|]; eapply NoDup_map_inv; apply (ac_distinct _ _ A)).
  assert (Apart : forall r, In r W -> ~ In r rest).
  { clear -NDl. induction W as [|w W IH]; intros r I; [contradiction|]. inversion NDl as [|y l N D]; subst. destruct I as [->|I].
    - intro X. apply N. apply in_or_app. right. exact X.
    - apply IH; assumption. }
  assert (IW : forall r, In r W <-> In r l /\ resolvable s l r).
  { intro r. split.
    - intro I. split; [apply (Permutation_in _ (Permutation_sym P)); apply in_or_app; left; exact I|]. apply Hres. apply (Permutation_in _ PW). exact I.
    - intros (I & RS). apply (Permutation_in _ P) in I. apply in_app_or in I as [I|I]; [exact I|]. exfalso. exact (proj2 (proj1 (Q1 r) I) RS). }
  exists W, s', rest, ns. split; [unfold apply_redirects_t; rewrite E; cbn [b_redirects]; destruct rest; reflexivity|].
  split; [exact AN|]. split; [clear -NDl; induction W as [|w W IH]; [constructor|]; inversion NDl as [|y l N D]; subst; constructor; [intro X; apply N, in_or_app; left; exact X|auto]|]. split; [exact IW|]. split; [intros r I; apply Q3, IW; exact I|].
  intros r I. split; [apply Q1; exact I|]. intro X. exact (Apart r X I).
Qed.
(** The same for one redirect that is added. *)
Theorem C99_add_partial : forall s L r l m n, consistent s L -> sound r -> absent L (source r) -> reserved s (zlen L) -> zlen L + 1 < 2 ^ 32 ->
  exists x o ns, add_redirect_t (S (S n)) r (mkBuffered s l m) = (x, o, ns) /\ x = Ok tt /\
    ((exists_at s (target r) /\ (exists e, ns = [(s, e)] /\ announces r (s, e)) /\ has_redirect (b_zim o) r /\ b_redirects o = l) \/
     (~ exists_at s (target r) /\ ns = [] /\ b_zim o = s /\ b_redirects o = l ++ [r])).
Proof.
  intros s L r l m n C So A R Hc. set (o := mkBuffered s l m). destruct (exists_at_dec s L (target r) C) as [E|E].
  - destruct (add_t_present n o L (zlen L) r C R (Z.le_refl _) Hc So A E) as (s' & L' & [z e] & W & AN & G).
    do 3 eexists. split; [exact W|]. split; [reflexivity|]. left. split; [exact E|]. destruct (C99_one_call _ _ _ _ _ _ W) as [(e1 & X & _)|(X & _)]; [|discriminate X].
    injection X as -> ->. split; [eauto|]. split; [exact (gr_has _ _ _ _ _ _ G)|reflexivity].
  - do 3 eexists. split; [exact (add_t_missing (S (S n)) o L r C So E)|]. split; [reflexivity|]. right. split; [intro X; exact (not_both _ _ _ C X E)|]. repeat split; reflexivity.
Qed.

(** ** Example: of the chain of C47, the three that are resolved are told, in the
    order in which they are written; of the cycle and the dangling redirect nothing
    is told *)
Example C99_example : acceptable (entries base) chain /\ reserved base (zlen (entries base) + zlen chain) /\ consistent base (entries base) /\
  map (fun n : rnotice => (full_url (snd n), target_url (fst n) (snd n), zlen (entries (fst n)))) (snd (apply_redirects_t 7 2 (mkBuffered base chain None))) =
    [([67; 99], Some [67; 97], 1); ([67; 100], Some [67; 99], 2); ([67; 101], Some [67; 100], 3)].
Proof. destruct C47_example as (A & B & _). split; [exact A|]. split; [exact B|]. split; [exact one_consistent|vm_compute; reflexivity].
Qed.

(** ** Refutation of C99 *)
(** Whatever a processor is told of is in the archive after the call. *)
Definition C99_full_statement : Prop := forall s L r l m n x o ns z e, consistent s L ->
  add_redirect_t (S (S n)) r (mkBuffered s l m) = (x, o, ns) -> In (z, e) ns -> exists_at (b_zim o) (full_url e).
(** An url that cannot be encoded: the call fails only after it was told. *)
Definition surrogate : rop := ([67; 55296], [67; 97], None).
Theorem C99_refuted : ~ C99_full_statement.
Proof.
  intro H. destruct (add_redirect_t 2 surrogate (mkBuffered base [] None)) as [[x o] ns] eqn:E.
  assert (F : exists z e, In (z, e) ns /\ full_url e = [67; 55296]).
  { replace ns with (snd (add_redirect_t 2 surrogate (mkBuffered base [] None))) by (rewrite E; reflexivity).
    vm_compute. do 2 eexists. split; [left; reflexivity|reflexivity]. }
  destruct F as (z & e & I & U). destruct (H _ _ _ _ _ 0%nat _ _ _ _ _ one_consistent E I) as (e' & G). rewrite U in G.
  rewrite (lookup_unencodable (b_zim o) [67; 55296] eq_refl) in G. discriminate G.
Qed.

Print Assumptions C99_transparent.
Print Assumptions C99_one_call.
Print Assumptions C99_flush_partial.
Print Assumptions C99_add_partial.
Print Assumptions C99_refuted.
