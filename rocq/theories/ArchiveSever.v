(** Proofs about removing entries together with the redirects to them. *)
From Coq Require Import List ZArith Bool Lia Sorting.Sorted Sorting.Permutation.
From Coq Require Import ZifyBool ZifyNat.
From Verif Require Import Base BaseProofs Utf8 Utf8Proofs Entry EntrySpec EntryProofs PointerList PointerListSpec PointerListProofs
  SpaceAllocator SpaceAllocatorSpec SpaceAllocatorProofs Cluster Archive ArchiveSpec ArchiveProofs ArchiveWriteProofs ArchiveMoveProofs
  ArchiveRemoveProofs ArchiveFacts ArchiveObserve ArchiveLaws ArchiveEdit.
Import ListNotations.
Open Scope Z_scope.

Lemma remove_all_from : forall rc T m s, fold_left (fun m u => let* _ := m in rc u) T m s =
  match m s with (Ok _, s1) => remove_all rc T s1 | (Err x, s1) => (Err x, s1) end.
Proof.
  intros rc. induction T as [|u T IH]; intros m s; cbn [fold_left].
  - destruct (m s) as [[[]|x] s1]; reflexivity.
  - rewrite IH. unfold mbind at 1. destruct (m s) as [[[]|x] s1]; [|reflexivity]. unfold remove_all. cbn [fold_left]. rewrite IH. unfold mbind, ret. reflexivity.
Qed.
Lemma remove_all_cons : forall rc u T s, remove_all rc (u :: T) s = match rc u s with (Ok _, s1) => remove_all rc T s1 | (Err x, s1) => (Err x, s1) end.
Proof. intros. unfold remove_all at 1. cbn [fold_left]. rewrite remove_all_from. unfold mbind, ret. reflexivity. Qed.

(** The redirects found by the scan. *)
Lemma scan_ok : forall s L i e0, consistent s L -> znth L i = Some e0 -> forall M, (forall e, In e M -> In e L) -> exists RS,
  removable_redirects s i M = Ok RS /\ (forall x, In x RS -> exists e, In e M /\ full_url e = x) /\ (NoDup (map full_url M) -> NoDup RS) /\
  forall e, In e M -> (In (full_url e) RS <-> full_url e <> full_url e0 /\ exists d, In d M /\ full_url d = full_url e /\ e_kind d = Redirect i).
Proof.
  intros s L i e0 C Hz. induction M as [|e M IH]; intro HM; [exists []; split; [reflexivity|]; split; [intros x []|]; split; [constructor|intros x []]|].
  destruct IH as (RS & E & Hsub & HN & HR); [intros; apply HM; right; assumption|]. cbn [removable_redirects].
  assert (G : get_entry_by_url_index s i = Ok e0) by (apply (index_iff _ _ _ _ C); exact Hz).
  pose proof (consistent_kind _ _ _ C (HM e (or_introl eq_refl))) as K. pose proof (consistent_sorted _ _ C) as So.
  assert (U : forall a b, In a L -> In b L -> full_url a = full_url b -> a = b).
  { intros a b Ha Hb Hu. apply in_znth in Ha as [k Hk], Hb as [j Hj]. assert (k = j) by (eapply url_unique; eauto). congruence. }
  assert (exists b, (if is_redirect e && match e_kind e with Redirect j => j =? i | Content _ _ => false end
                  then do t <- get_entry_by_url_index s i ;; Ok (negb (ueqb (full_url t) (full_url e))) else Ok false) = Ok b /\
                  (b = true <-> full_url e <> full_url e0 /\ e_kind e = Redirect i)) as (b & Eb & Hb).
  { destruct (e_kind e) as [c n|r] eqn:Ek.
    - exists false. rewrite andb_false_r. split; [reflexivity|]. split; [discriminate|intros [_ Q]; discriminate].
    - assert (R : is_redirect e = true) by exact (kind_redirect e r K Ek).
      rewrite R. cbn [andb]. destruct (Z.eqb_spec r i) as [->|Ne].
      + rewrite G. cbn [bind]. eexists. split; [reflexivity|]. rewrite negb_true_iff. split.
        * intro Q. split; [|reflexivity]. intro Q'. rewrite Q', (proj2 (ueqb_eq _ _) eq_refl) in Q. discriminate.
        * intros [Q _]. destruct (ueqb (full_url e0) (full_url e)) eqn:Q'; [|reflexivity]. apply ueqb_eq in Q'. congruence.
      + exists false. split; [reflexivity|]. split; [discriminate|]. intros [_ Q]. congruence. }
  rewrite Eb, E. cbn [bind]. exists (if b then full_url e :: RS else RS). split; [reflexivity|]. split.
  { intros x Hx. assert (Hx' : x = full_url e \/ In x RS) by (destruct b; [destruct Hx; auto|auto]). destruct Hx' as [->|Hx']; [exists e; split; [left|]; reflexivity|].
    destruct (Hsub x Hx') as (d & Hd & Hu). exists d. split; [right; exact Hd|exact Hu]. }
  split.
  { intro N. cbn [map] in N. inversion N as [|? ? N1 N2]; subst. specialize (HN N2). destruct b; [|exact HN]. constructor; [|exact HN].
    intro Hx. apply N1. destruct (Hsub _ Hx) as (d & Hd & Hu). rewrite <- Hu. apply in_map. exact Hd. }
  intros d Hd. split.
  - intro Hx. assert (Hx' : (b = true /\ full_url e = full_url d) \/ In (full_url d) RS) by (destruct b; [destruct Hx; auto|auto]).
    destruct Hx' as [[-> Hu]|Hx'].
    + apply proj1 in Hb. destruct (Hb eq_refl) as [H1 H2]. rewrite <- Hu. split; [exact H1|]. exists e. split; [left; reflexivity|auto].
    + destruct (Hsub _ Hx') as (d' & Hd' & Hu'). rewrite <- Hu' in Hx'. apply (HR d' Hd') in Hx' as [H1 (d2 & H2 & H3 & H4)]. rewrite <- Hu'. split; [exact H1|].
      exists d2. split; [right; exact H2|auto].
  - intros [H1 (d2 & H2 & H3 & H4)]. destruct H2 as [<-|H2].
    + rewrite <- H3 in *. assert (b = true) by (apply Hb; auto). subst b. left. reflexivity.
    + assert (In (full_url d2) RS). { apply (HR d2 H2). split; [congruence|]. exists d2. auto. } rewrite <- H3. destruct b; [right|]; assumption.
Qed.

Lemma no_kind : forall s e e', same_entry e e' -> (forall r, e_kind e <> Redirect r) -> target_url s e' = None.
Proof. intros s e e' (_ & _ & _ & _ & K) H. unfold target_url. destruct (e_kind e) as [c b|r]; [|exfalso; exact (H r eq_refl)]. destruct (e_kind e'); [reflexivity|contradiction]. Qed.

(** What is seen after everything but the removal of the redirects. *)
Record detached (s : zim) (u : ustr) (s' : zim) : Prop := mkDetached {
  dt_gone : get_entry_by_full_url s' u = Err EntryNotFound;
  dt_others : forall v d, v <> u -> get_entry_by_full_url s v = Ok d -> exists d', get_entry_by_full_url s' v = Ok d' /\ same_entry d d' /\
    (target_url s d <> Some u -> target_url s' d' = target_url s d) /\
    (target_url s d = Some u -> exists p, target_url s' d' = Some p /\ ultb p u = true /\
       forall x e, get_entry_by_full_url s x = Ok e -> ultb x u = true -> x = p \/ ultb x p = true);
  dt_missing : forall v, get_entry_by_full_url s v = Err EntryNotFound -> get_entry_by_full_url s' v = Err EntryNotFound;
  dt_main : main_url s' = (if match main_url s with Some m => ueqb m u | None => false end then None else main_url s);
  dt_articles : forall us, article_urls s = Some us -> exists us', article_urls s' = Some us' /\ NoDup us' /\ forall x, In x us' <-> In x us /\ x <> u }.

Lemma removed_observed : forall s L i s' L' p0 e0, consistent s L -> removed_as s L i s' L' p0 e0 ->
  (forall d, In d L -> d <> e0 -> e_kind d = Redirect i -> 0 < i) ->
  (forall k e, znth L k = Some e -> k <> i -> forall r, e_kind e = Redirect r -> exists e', znth L' (shift_ptr i (-1) k) = Some e' /\ e_kind e' = Redirect (shift_ptr i (-1) r)) ->
  detached s (full_url e0) s'.
Proof.
  intros s L i s' L' p0 e0 C D Hfirst Hre. pose proof D as (Hz & _ & _ & C' & Ln & R & Hfrom & Hat & Hmain & _).
  pose proof (consistent_sorted _ _ C) as So.
  assert (Hst : entry_storable e0) by (eapply consistent_storable; [exact C|eapply znth_in; eauto]).
  assert (Huniq : forall e, In e L -> e <> e0 -> full_url e <> full_url e0).
  { intros e He Hne Hu. apply Hne. apply in_znth in He as [k Hk]. assert (k = i) by (eapply url_unique; eauto). subst. congruence. }
  constructor.
  - apply (missing_iff s' L' _ _ C' (enc_full_url e0 Hst)). intros e' He' Hu. destruct (Hfrom e' He') as (e & He & Hne & Hs).
    apply (Huniq e He Hne). rewrite <- Hu. symmetry. apply same_url. exact Hs.
  - intros u e Hne H. pose proof (proj1 (lookup_iff _ _ _ _ C) H) as [Hin Hu]. apply in_znth in Hin as [k Hk].
    assert (Hki : k <> i). { intros ->. rewrite Hz in Hk. injection Hk as <-. apply Hne. symmetry. exact Hu. }
    assert (Hd0 : e <> e0) by (intros ->; apply Hne; symmetry; exact Hu).
    destruct (renumber_lookup s s' L L' _ _ C C' R u e k H Hk Hki) as (e' & G & Hs & Ht). exists e'. split; [exact G|]. split; [exact Hs|].
    destruct (e_kind e) as [c b|r] eqn:Ek.
    { assert (Q : target_url s' e' = None) by (apply (no_kind s' e e' Hs); intros r Q; congruence). assert (Q' : target_url s e = None) by (unfold target_url; rewrite Ek; reflexivity).
      rewrite Q, Q'. split; [reflexivity|discriminate]. }
    split.
    + intro N. apply (Ht r eq_refl). intros ->. apply N. apply (target_iff _ _ _ _ C). exists i, e0. auto.
    + intro Q. apply (target_iff _ _ _ _ C) in Q as (r1 & t & Q1 & Q2 & Q3). rewrite Ek in Q1. injection Q1 as <-.
      assert (r = i) by (eapply url_unique; eauto). subst r. pose proof (Hfirst e (znth_in _ _ _ Hk) Hd0 Ek) as Hpos.
      pose proof (znth_some _ _ _ Hz) as Hb. destruct (znth_ex L (i - 1) ltac:(lia)) as [p Hp].
      destruct (Hre k e Hk Hki i Ek) as (e2 & Z2 & K2).
      assert (e2 = e'). { destruct (R k e Hk Hki) as (e3 & Z3 & S3 & _). rewrite Z2 in Z3. injection Z3 as <-.
        assert (get_entry_by_full_url s' u = Ok e2) by (apply (lookup_iff _ _ _ _ C'); split; [eapply znth_in; eauto|rewrite (same_url _ _ S3); exact Hu]). congruence. }
      subst e2. destruct (R (i - 1) p Hp ltac:(cbv beta; lia)) as (p' & Zp & Sp & _). replace (shift_ptr i (-1) (i - 1)) with (i - 1) in Zp by (unfold shift_ptr; destruct (Z.leb_spec i (i - 1)); lia).
      exists (full_url p). split.
      { apply (target_iff _ _ _ _ C'). exists (i - 1), p'. split; [rewrite K2; f_equal; unfold shift_ptr; destruct (Z.leb_spec i i); lia|]. split; [exact Zp|apply same_url; exact Sp]. }
      split; [apply (ssorted_znth url_lt _ So (i - 1) i); auto; lia|].
      intros x d Gx Lx. apply (lookup_iff _ _ _ _ C) in Gx as [Dx <-]. apply in_znth in Dx as [j Hj].
      destruct (Z.lt_trichotomy j (i - 1)) as [Lj|[->|Gj]].
      * right. apply (ssorted_znth url_lt _ So j (i - 1)); auto.
      * left. congruence.
      * exfalso. destruct (Z.eq_dec j i) as [->|Nj].
        -- rewrite Hz in Hj. injection Hj as <-. exact (ultb_asym _ _ Lx Lx).
        -- assert (url_lt e0 d) by (apply (ssorted_znth url_lt _ So i j); auto; lia). exact (ultb_asym _ _ Lx H0).
  - intros u H. destruct (utf8_encode u) as [b|] eqn:Eb; [|rewrite (lookup_unencodable s u Eb) in H; discriminate].
    apply (missing_iff _ _ _ _ C' Eb). apply (missing_iff _ _ _ _ C Eb) in H. intros e' He'. destruct (Hfrom e' He') as (e & He & _ & Hs). rewrite (same_url _ _ Hs). apply H. exact He.
  - destruct (z_main s) as [m|] eqn:Em; cbn [opt_eqb] in *.
    + destruct (znth_ex L m (cs_main _ _ C m Em)) as [e He].
      assert (Q : main_url s = Some (full_url e)) by (unfold main_url; rewrite (proj2 (main_iff s L e C)) by eauto; reflexivity). rewrite Q.
      destruct (Z.eqb_spec m i) as [->|Hne].
      * assert (e = e0) by congruence. subst e. rewrite (proj2 (ueqb_eq _ _) eq_refl). unfold main_url, get_mainpage_entry. rewrite Hmain. reflexivity.
      * destruct (ueqb (full_url e) (full_url e0)) eqn:Eu; [exfalso; apply ueqb_eq in Eu; apply Hne; eapply url_unique; eauto|]. rewrite <- Q.
        apply (renumber_main s s' L L' _ _ C C' R m Em Hne). rewrite Hmain. unfold shift_main, shift_ptr. f_equal. destruct (Z.ltb_spec i m), (Z.leb_spec i m); lia.
    + unfold main_url, get_mainpage_entry. rewrite Hmain, Em. reflexivity.
  - intros us Hus. destruct (article_urls_ok s' L' C') as (us' & Hus' & Nd'). exists us'. split; [exact Hus'|]. split; [exact Nd'|].
    intro u. rewrite (article_urls_in s' L' us' C' Hus'), (article_urls_in s L us C Hus). split.
    + intros (k & e' & Hk & He' & <-). apply Hat in Hk as (k0 & Hk0 & Hne & ->). pose proof C as [(cells & EC & Co) _ _ _ _].
      destruct (lists_in _ _ _ _ (co_atpl _ _ Co) Hk0) as [e He]. rewrite EC in He. destruct (R k0 e He Hne) as (e1 & H1 & Hs & _). rewrite H1 in He'. injection He' as <-.
      rewrite (same_url _ _ Hs). split; [exists k0, e; auto|]. apply Huniq; [eapply znth_in; eauto|]. intros ->. apply Hne. eapply url_unique; eauto.
    + intros [(k & e & Hk & He & <-) Hne]. assert (Hki : k <> i) by (intros ->; congruence). destruct (R k e He Hki) as (e1 & H1 & Hs & _).
      exists (shift_ptr i (-1) k), e1. split; [apply Hat; eauto|]. split; [exact H1|apply same_url; exact Hs].
Qed.

(** Removing an entry nothing leads to, as seen. *)
Lemma deletable_found : forall s L x, consistent s L -> deletable s x -> exists i e0, znth L i = Some e0 /\ full_url e0 = x /\ removable s L i e0 /\
  (forall d, In d L -> d <> e0 -> e_kind d = Redirect i -> 0 < i).
Proof.
  intros s L x C D. destruct (delete_setup s L x C D) as (i & e0 & Hz & Hu & RM). exists i, e0. split; [exact Hz|]. split; [exact Hu|]. split; [exact RM|].
  intros d Hd Hne Hk. exfalso. exact (rm_in _ _ _ _ RM d Hd Hne Hk).
Qed.
Lemma delete_one : forall s L x n, consistent s L -> deletable s x -> roomy s L ->
  exists s' L', remove_entry keep_blob (S (S n)) x s = (Ok tt, s') /\ consistent s' L' /\ roomy s' L' /\ detached s x s'.
Proof.
  intros s L x n C D R. destruct (deletable_found s L x C D) as (i & e0 & Hz & <- & RM & Hf).
  assert (HRS : removable_redirects s i L = Ok []).
  { pose proof C as [(cells & EL & Co) _ _ _ _]. assert (exists c, znth cells i = Some c /\ snd c = e0) as (c & Hc & Es).
    { rewrite <- EL, znth_map in Hz. destruct (znth cells i) as [c|]; [|discriminate]. exists c. split; [reflexivity|]. cbn in Hz. congruence. }
    apply (no_removable s cells i c Co Hc); [rewrite EL; auto|]. intros e He Hr. rewrite Es.
    destruct (list_eq_dec Z.eq_dec (full_url e) (full_url e0)) as [E|N]; [exact E|]. exfalso. apply (rm_in _ _ _ _ RM e He); [intros ->; contradiction|exact Hr]. }
  destruct (detach_ok s L i e0 n [] C Hz Hf (rm_article _ _ _ _ RM) HRS) as [(s' & L' & p0 & W & RA & Hre)|(s' & p & Hp & Hl & _)].
  - exists s', L'. pose proof RA as (_ & _ & _ & C' & Ln & _ & _ & _ & _ & _ & _ & _ & _ & Hsub). split; [exact W|]. split; [exact C'|]. split.
    + intros q Hq. specialize (R q (Hsub q Hq)). lia.
    + exact (removed_observed s L i s' L' p0 e0 C RA Hf Hre).
  - exfalso. specialize (R p Hp). lia.
Qed.

(** Several entries gone, the others as before. *)
Record swept (s : zim) (D : ustr -> Prop) (s' : zim) : Prop := mkSwept {
  sw_gone : forall x, D x -> get_entry_by_full_url s' x = Err EntryNotFound;
  sw_others : forall v d, ~ D v -> get_entry_by_full_url s v = Ok d ->
    exists d', get_entry_by_full_url s' v = Ok d' /\ same_entry d d' /\ target_url s' d' = target_url s d;
  sw_missing : forall v, get_entry_by_full_url s v = Err EntryNotFound -> get_entry_by_full_url s' v = Err EntryNotFound;
  sw_main : forall m, main_url s' = Some m <-> main_url s = Some m /\ ~ D m;
  sw_articles : forall us, article_urls s = Some us -> exists us', article_urls s' = Some us' /\ NoDup us' /\ forall x, In x us' <-> In x us /\ ~ D x }.

Lemma main_kept : forall s u s', detached s u s' -> forall m, main_url s' = Some m <-> main_url s = Some m /\ m <> u.
Proof.
  intros s u s' D m. rewrite (dt_main _ _ _ D). destruct (main_url s) as [m0|]; [|split; [discriminate|intros [Q _]; discriminate]].
  destruct (ueqb m0 u) eqn:E.
  - apply ueqb_eq in E. split; [discriminate|]. intros [Q N]. congruence.
  - split; [|intros [Q _]; exact Q]. intro Q. split; [exact Q|]. intros ->. injection Q as ->. rewrite (proj2 (ueqb_eq _ _) eq_refl) in E. discriminate.
Qed.

Lemma found_before : forall s L s' u, consistent s L -> (forall v, get_entry_by_full_url s v = Err EntryNotFound -> get_entry_by_full_url s' v = Err EntryNotFound) ->
  forall v e', consistent s' u -> get_entry_by_full_url s' v = Ok e' -> exists e, get_entry_by_full_url s v = Ok e.
Proof.
  intros s L s' u C M v e' C' G. destruct (get_entry_by_full_url s v) as [e|x] eqn:E; [eauto|]. exfalso.
  apply (lookup_iff _ _ _ _ C') in G as [He <-]. assert (Hst : entry_storable e') by (eapply consistent_storable; eauto).
  assert (E' : get_entry_by_full_url s (full_url e') = Err EntryNotFound).
  { apply (missing_iff _ _ _ _ C (enc_full_url e' Hst)). intros d Hd Hu. assert (get_entry_by_full_url s (full_url e') = Ok d) by (apply (lookup_iff _ _ _ _ C); auto). congruence. }
  apply M in E'. assert (get_entry_by_full_url s' (full_url e') = Ok e') by (apply (lookup_iff _ _ _ _ C'); auto). congruence.
Qed.

Lemma still_deletable : forall s L s' L' x y, consistent s L -> consistent s' L' -> detached s x s' -> deletable s x -> deletable s y -> y <> x -> deletable s' y.
Proof.
  intros s L s' L' x y C C' D Dx Dy N. constructor.
  - destruct (de_found _ _ Dy) as (e & G). destruct (dt_others _ _ _ D y e N G) as (e' & G' & _). eauto.
  - intros z Nz (e' & G' & T'). assert (z <> x) by (intros ->; rewrite (dt_gone _ _ _ D) in G'; discriminate).
    destruct (found_before s L s' L' C (dt_missing _ _ _ D) z e' C' G') as (e & G). destruct (dt_others _ _ _ D z e H G) as (e1 & G1 & _ & T1 & _).
    assert (e1 = e') by congruence. subst e1. apply (de_unlinked _ _ Dy z Nz). exists e. split; [exact G|].
    rewrite T1 in T'; [exact T'|]. intro Q. apply (de_unlinked _ _ Dx z H). exists e. auto.
  - intros us' Hus'. destruct (article_urls_ok s L C) as (us & Hus & _). destruct (dt_articles _ _ _ D us Hus) as (us2 & Hus2 & _ & Hi). assert (us2 = us') by congruence. subst us2.
    destruct (de_article _ _ Dy us Hus) as [H|H]; [left; apply Hi; auto|right]. intros z Hz. apply H. apply Hi. exact Hz.
Qed.

Lemma sweep : forall n T s L, consistent s L -> roomy s L -> NoDup T -> (forall x, In x T -> deletable s x) ->
  exists s' L', remove_all (remove_entry keep_blob (S (S n))) T s = (Ok tt, s') /\ consistent s' L' /\ swept s (fun x => In x T) s'.
Proof.
  intro n. induction T as [|x T IH]; intros s L C R N HD.
  { exists s, L. split; [reflexivity|]. split; [exact C|]. constructor; auto.
    - intros x [].
    - intros v d _ G. exists d. split; [exact G|]. split; [apply same_refl|reflexivity].
    - intro m. cbn [In]. tauto.
    - intros us Hus. exists us. split; [exact Hus|]. destruct (article_urls_ok s L C) as (us1 & Hus1 & Nd). split; [congruence|]. intro x. cbn [In]. tauto. }
  inversion N as [|? ? N1 N2]; subst. destruct (delete_one s L x n C (HD x (or_introl eq_refl)) R) as (s1 & L1 & W1 & C1 & R1 & D1).
  destruct (IH s1 L1 C1 R1 N2) as (s' & L' & W & C' & [Q1 Q2 Q3 Q4 Q5]).
  { intros y Hy. apply (still_deletable s L s1 L1 x y C C1 D1); [apply HD; left; reflexivity|apply HD; right; exact Hy|]. intros ->. contradiction. }
  exists s', L'. split; [rewrite remove_all_cons, W1; exact W|]. split; [exact C'|]. constructor.
  - intros y [<-|Hy]; [|apply Q1; exact Hy]. apply Q3. exact (dt_gone _ _ _ D1).
  - intros v d Nv G. assert (v <> x) by (intros ->; apply Nv; left; reflexivity). destruct (dt_others _ _ _ D1 v d H G) as (d1 & G1 & S1 & T1 & _).
    destruct (Q2 v d1) as (d2 & G2 & S2 & T2); [intro Q; apply Nv; right; exact Q|exact G1|]. exists d2. split; [exact G2|]. split; [eapply same_trans; eauto|].
    rewrite T2. apply T1. intro Q. apply (de_unlinked _ _ (HD x (or_introl eq_refl)) v H). exists d. auto.
  - intros v G. apply Q3. apply (dt_missing _ _ _ D1). exact G.
  - intro m. rewrite Q4, (main_kept _ _ _ D1). cbn [In]. split; [intros [[H1 H2] H3]|intros [H1 H2]]; [split; [exact H1|intros [<-|H]; auto]|].
    split; [split; [exact H1|]|]; [intros ->; apply H2; left; reflexivity|]. intro H. apply H2. right. exact H.
  - intros us Hus. destruct (dt_articles _ _ _ D1 us Hus) as (us1 & Hus1 & _ & I1). destruct (Q5 us1 Hus1) as (us' & Hus' & Nd & I2). exists us'. split; [exact Hus'|]. split; [exact Nd|].
    intro y. rewrite I2, I1. cbn [In]. split; [intros [[H1 H2] H3]|intros [H1 H2]]; [split; [exact H1|intros [<-|H]; auto]|].
    split; [split; [exact H1|]|]; [intros ->; apply H2; left; reflexivity|]. intro H. apply H2. right. exact H.
Qed.

(** Without chains, what leads to [u] points to it. *)
Lemma leads_points : forall s u, severable s u -> forall x, doomed s u x -> x = u \/ points s x u.
Proof.
  intros s u SV x [->|H]; [left; reflexivity|]. induction H as [x H|x y H1 H2 IH]; [right; exact H|]. destruct IH as [->|IH]; [right; exact H1|].
  destruct (list_eq_dec Z.eq_dec y u) as [->|Ny]; [right; exact H1|]. destruct (list_eq_dec Z.eq_dec x y) as [->|Nx]; [right; exact IH|].
  exfalso. exact (sv_direct _ _ SV x y IH Ny Nx H1).
Qed.

(** What is left of the redirects to [u] when the entry itself is gone. *)
Lemma sever_facts : forall s L u, consistent s L -> severable s u -> exists i e0 RS, znth L i = Some e0 /\ full_url e0 = u /\
  (forall d, In d L -> d <> e0 -> e_kind d = Redirect i -> 0 < i) /\
  (In i (pl_ptrs (z_atpl s)) \/ forall j, In j (pl_ptrs (z_atpl s)) -> j < i) /\ removable_redirects s i L = Ok RS /\ NoDup RS /\
  (forall x, In x RS <-> x <> u /\ points s x u) /\
  (forall s1 L1 p0, removed_as s L i s1 L1 p0 e0 ->
     (forall k e, znth L k = Some e -> k <> i -> forall r, e_kind e = Redirect r -> exists e', znth L1 (shift_ptr i (-1) k) = Some e' /\ e_kind e' = Redirect (shift_ptr i (-1) r)) ->
     detached s u s1 /\ forall x, In x RS -> deletable s1 x).
Proof.
  intros s L u C SV. destruct (sv_found _ _ SV) as (e0 & G). pose proof (proj1 (lookup_iff _ _ _ _ C) G) as [He Hu]. subst u. set (u := full_url e0) in *.
  pose proof (consistent_sorted _ _ C) as So. apply in_znth in He as [i Hz].
  assert (U : forall a b, In a L -> In b L -> full_url a = full_url b -> a = b).
  { intros a b Ha Hb Hu. apply in_znth in Ha as [k Hk], Hb as [j Hj]. assert (k = j) by (eapply url_unique; eauto). congruence. }
  assert (PI : forall d, In d L -> e_kind d = Redirect i -> points s (full_url d) u).
  { intros d Hd Hk. exists d. split; [apply (lookup_iff _ _ _ _ C); auto|]. apply (target_iff _ _ _ _ C). exists i, e0. auto. }
  destruct (scan_ok s L i e0 C Hz L ltac:(auto)) as (RS & HRS & Hsub & HN & HR).
  assert (Nd : NoDup (map full_url L)).
  { clear - So. induction So as [|a l _ IH F]; [constructor|]. cbn [map]. constructor; [|exact IH]. intro Q. apply in_map_iff in Q as (b & Q1 & Q2).
    rewrite Forall_forall in F. specialize (F b Q2). unfold url_lt in F. rewrite Q1 in F. exact (ultb_asym _ _ F F). }
  specialize (HN Nd).
  assert (RI : forall x, In x RS <-> x <> u /\ points s x u).
  { intro x. split.
    - intro Hx. destruct (Hsub x Hx) as (e & He & <-). apply (HR e He) in Hx as [H1 (d & Hd & Hd1 & Hd2)]. split; [exact H1|]. rewrite <- Hd1. apply PI; assumption.
    - intros [H1 (e & Ge & Te)]. pose proof (proj1 (lookup_iff _ _ _ _ C) Ge) as [He <-]. apply (HR e He). split; [exact H1|].
      apply (target_iff _ _ _ _ C) in Te as (r & t & T1 & T2 & T3). assert (r = i) by (eapply url_unique; eauto). subst r. exists e. auto. }
  assert (Hf : forall d, In d L -> d <> e0 -> e_kind d = Redirect i -> 0 < i).
  { intros d Hd Hne Hk. assert (Nu : full_url d <> u) by (intro Q; apply Hne; apply U; auto; eapply znth_in; eauto).
    destruct (sv_first _ _ SV (full_url d) (PI d Hd Hk) Nu) as (v & e & Gv & Lv). apply (lookup_iff _ _ _ _ C) in Gv as [Hv <-]. apply in_znth in Hv as [j Hj].
    pose proof (znth_some _ _ _ Hj). destruct (Z.lt_ge_cases j i); [lia|]. exfalso. destruct (Z.eq_dec j i) as [->|Nj].
    - assert (e = e0) by congruence. subst e. exact (ultb_asym _ _ Lv Lv).
    - assert (url_lt e0 e) by (apply (ssorted_znth url_lt _ So i j); auto; lia). exact (ultb_asym _ _ Lv H1). }
  destruct (article_urls_ok s L C) as (us & Hus & _).
  assert (Hart : In i (pl_ptrs (z_atpl s)) \/ forall j, In j (pl_ptrs (z_atpl s)) -> j < i).
  { destruct (sv_articles _ _ SV us u Hus (or_introl eq_refl)) as [H|H].
    - left. apply (article_urls_in s L us C Hus) in H as (k & e & Hk & He & E). assert (k = i) by (eapply url_unique; [exact So|exact He|exact Hz|exact E]). subst k. exact Hk.
    - right. intros j Hj. pose proof C as [(cells & EC & Co) _ _ _ _]. destruct (lists_in _ _ _ _ (co_atpl _ _ Co) Hj) as [e He]. rewrite EC in He.
      assert (Hl : ultb (full_url e) u = true). { apply H. apply (article_urls_in s L us C Hus). eauto. }
      destruct (Z.lt_trichotomy j i) as [Hlt|[->|Hgt]]; [exact Hlt| |]; exfalso.
      + assert (e = e0) by congruence. subst e. exact (ultb_asym _ _ Hl Hl).
      + assert (url_lt e0 e) by (eapply (ssorted_znth url_lt _ So i j); eauto). exact (ultb_asym _ _ Hl H0). }
  exists i, e0, RS. split; [exact Hz|]. split; [reflexivity|]. split; [exact Hf|]. split; [exact Hart|]. split; [exact HRS|]. split; [exact HN|]. split; [exact RI|].
  intros s1 L1 p0 RA Hre. pose proof (removed_observed s L i s1 L1 p0 e0 C RA Hf Hre) as D1. fold u in D1. pose proof RA as (_ & _ & _ & C1 & _). split; [exact D1|].
  assert (PB : forall z x, x <> u -> points s1 z x -> (z <> u /\ points s z x) \/ (In z RS /\ ultb x u = true /\ forall y e, get_entry_by_full_url s y = Ok e -> ultb y u = true -> y = x \/ ultb y x = true)).
  { intros z x Nx (e' & G' & T'). assert (Nz : z <> u) by (intros ->; rewrite (dt_gone _ _ _ D1) in G'; discriminate).
    destruct (found_before s L s1 L1 C (dt_missing _ _ _ D1) z e' C1 G') as (e & Ge). destruct (dt_others _ _ _ D1 z e Nz Ge) as (e1 & G1 & _ & T1 & T2).
    assert (e1 = e') by congruence. subst e1. destruct (target_url s e) as [t|] eqn:Et.
    - destruct (list_eq_dec Z.eq_dec t u) as [->|Nt].
      + destruct (T2 eq_refl) as (q & Tq & Lq & Pq). rewrite Tq in T'. injection T' as ->. right. split; [apply RI; split; [exact Nz|exists e; auto]|auto].
      + left. split; [exact Nz|]. exists e. split; [exact Ge|]. rewrite Et. rewrite T1 in T'; congruence.
    - left. split; [exact Nz|]. rewrite T1 in T'; congruence. }
  intros x Hx. pose proof (proj1 (RI x) Hx) as [Nx Px]. constructor.
    - destruct Px as (e & Ge & _). destruct (dt_others _ _ _ D1 x e Nx Ge) as (e' & G' & _). eauto.
    - intros z Nz Pz. destruct (PB z x Nx Pz) as [[_ Pz']|(Hz' & Lx & Nr)]; [exact (sv_direct _ _ SV z x Px Nx Nz Pz')|].
      destruct (sv_alone _ _ SV x Px Nx) as [H|[(v & e & Gv & L1' & L2')|H]].
      + exact (ultb_asym _ _ Lx H).
      + destruct (Nr v e Gv L2') as [->|H]; [exact (ultb_asym _ _ L1' L1')|exact (ultb_asym _ _ L1' H)].
      + pose proof (proj1 (RI z) Hz') as [Nzu Pzu]. destruct (H z Pzu); contradiction.
    - intros us1 Hus1. destruct (dt_articles _ _ _ D1 us Hus) as (us2 & Hus2 & _ & Hi). assert (us2 = us1) by congruence. subst us2.
      destruct (sv_articles _ _ SV us x Hus (or_intror (leads_one s u x Px))) as [H|H]; [left; apply Hi; auto|right]. intros z Hz'. apply H. apply Hi. exact Hz'.
Qed.

Theorem sever_law : forall s L u n, consistent s L -> severable s u -> roomy s L ->
  exists s' L', remove_entry keep_blob (S (S (S n))) u s = (Ok tt, s') /\ consistent s' L' /\ swept s (doomed s u) s'.
Proof.
  intros s L u n C SV R. destruct (sever_facts s L u C SV) as (i & e0 & RS & Hz & Eu & Hf & Hart & HRS & HN & RI & Haf). subst u. set (u := full_url e0) in *.
  destruct (detach_ok s L i e0 (S n) RS C Hz Hf Hart HRS) as [(s1 & L1 & p0 & W1 & RA & Hre)|(s1 & p & Hp & Hl & _)]; [|exfalso; specialize (R p Hp); lia].
  destruct (Haf s1 L1 p0 RA Hre) as [D1 HD]. pose proof RA as (_ & _ & _ & C1 & Ln & _ & _ & _ & _ & _ & _ & _ & _ & Hsp).
  assert (R1 : roomy s1 L1) by (intros q Hq; specialize (R q (Hsp q Hq)); lia).
  destruct (sweep n RS s1 L1 C1 R1 HN HD) as (s' & L' & W & C' & [Q1 Q2 Q3 Q4 Q5]).
  assert (DI : forall x, doomed s u x <-> x = u \/ In x RS).
  { intro x. split.
    - intro H. destruct (leads_points s u SV x H) as [->|H']; [left; reflexivity|]. destruct (list_eq_dec Z.eq_dec x u) as [->|N]; [left; reflexivity|]. right. apply RI. auto.
    - intros [->|H]; [left; reflexivity|]. right. apply leads_one. apply RI. exact H. }
  exists s', L'. split; [change u with (full_url e0); rewrite W1; exact W|]. split; [exact C'|]. constructor.
  - intros x Hx. apply DI in Hx as [->|Hx]; [|apply Q1; exact Hx]. apply Q3. exact (dt_gone _ _ _ D1).
  - intros v d Nv Gv. assert (Nu : v <> u) by (intros ->; apply Nv; left; reflexivity). destruct (dt_others _ _ _ D1 v d Nu Gv) as (d1 & G1 & S1 & T1 & _).
    destruct (Q2 v d1) as (d2 & G2 & S2 & T2); [intro Q; apply Nv; apply DI; right; exact Q|exact G1|]. exists d2. split; [exact G2|]. split; [eapply same_trans; eauto|].
    rewrite T2. apply T1. intro Q. apply Nv. right. apply leads_one. exists d. auto.
  - intros v Gv. apply Q3. apply (dt_missing _ _ _ D1). exact Gv.
  - intro m. rewrite Q4, (main_kept _ _ _ D1), DI. tauto.
  - intros us0 Hus0. destruct (dt_articles _ _ _ D1 us0 Hus0) as (us1 & Hus1 & _ & I1). destruct (Q5 us1 Hus1) as (us' & Hus' & Nd' & I2). exists us'. split; [exact Hus'|]. split; [exact Nd'|].
    intro y. rewrite I2, I1, DI. tauto.
Qed.
