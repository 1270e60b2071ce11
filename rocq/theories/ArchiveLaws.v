(** What a user of an archive observes after adding, rewriting and removing entries. *)
From Coq Require Import List ZArith Bool Lia Sorting.Sorted Sorting.Permutation.
From Coq Require Import ZifyBool ZifyNat.
From Verif Require Import Base BaseProofs Utf8 Utf8Proofs Entry EntrySpec EntryProofs PointerList PointerListSpec PointerListProofs
  SpaceAllocator SpaceAllocatorSpec SpaceAllocatorProofs Cluster Archive ArchiveSpec ArchiveProofs ArchiveWriteProofs ArchiveMoveProofs ArchiveRemoveProofs
  ArchiveFacts ArchiveObserve.
Import ListNotations.
Open Scope Z_scope.

Lemma add_cases : forall s L w n r s', consistent s L -> addable L w -> write_entry (S (S n)) w s = (r, s') ->
  (r = Ok tt /\ exists LA LB a, L = LA ++ LB /\ (forall e, In e LA -> url_lt e (w_entry w)) /\ (forall e, In e LB -> url_lt (w_entry w) e) /\
     (a = true <-> w_force w = Some true) /\ added s L w (zlen LA) a s') \/
  (r = Err AssertionError /\ exists p, In p (pl_ptrs (z_upl s)) /\ p <= zlen L).
Proof.
  intros s L w n r s' C A W. destruct (add_ok s L w n C A) as (LA & LB & EL & H1 & H2 & a & _ & Ha & [(s1 & W1 & D)|(s1 & p & Hp & Hl & W1)]);
    rewrite W in W1; injection W1 as -> ->.
  - left. split; [reflexivity|]. exists LA, LB, a. auto.
  - right. eauto.
Qed.

Lemma added_new : forall s L w p a s', consistent s L -> addable L w -> added s L w p a s' ->
  exists e', get_entry_by_full_url s' (full_url (w_entry w)) = Ok e' /\ same_entry (w_entry w) e' /\ target_url s' e' = target_url s (w_entry w).
Proof.
  intros s L w p a s' C A (L' & off & C' & Ln & R & Hp & _). exists (bumped p (w_entry w)). split; [|split].
  - apply (lookup_iff _ _ _ _ C'). split; [eapply znth_in; eauto|]. apply same_url. apply same_bumped.
  - apply same_bumped.
  - destruct (e_kind (w_entry w)) as [c b|r] eqn:Ek.
    + unfold target_url, bumped. rewrite Ek, Ek. reflexivity.
    + pose proof (ad_target _ _ A r Ek) as Hr. destruct (znth_ex L r Hr) as [t Ht]. destruct (R r t Ht I) as (t' & Ht' & Hs & _).
      rewrite (proj2 (target_iff s L _ (full_url t) C)) by (exists r, t; auto).
      apply (target_iff _ _ _ _ C'). exists (shift_ptr p 1 r), t'. split; [|split; [exact Ht'|apply same_url; exact Hs]].
      unfold bumped, shift_ptr. rewrite Ek. destruct (p <=? r); [reflexivity|exact Ek].
Qed.

Lemma added_others : forall s L w p a s' u e, consistent s L -> added s L w p a s' -> get_entry_by_full_url s u = Ok e ->
  exists e', get_entry_by_full_url s' u = Ok e' /\ same_entry e e' /\ target_url s' e' = target_url s e.
Proof.
  intros s L w p a s' u e C (L' & off & C' & Ln & R & Hp & _) H. pose proof (proj1 (lookup_iff _ _ _ _ C) H) as [Hin _].
  apply in_znth in Hin as [i Hi]. destruct (renumber_lookup s s' L L' (shift_ptr p 1) (fun _ => True) C C' R u e i H Hi I) as (e' & G & Hs & Ht).
  exists e'. split; [exact G|]. split; [exact Hs|]. destruct (e_kind e) as [c b|r] eqn:Ek; [|apply (Ht r eq_refl I)].
  unfold target_url. rewrite Ek. destruct Hs as (_ & _ & _ & _ & K). rewrite Ek in K. destruct (e_kind e'); [reflexivity|contradiction].
Qed.

(** every index of the new list is the new entry or comes from the old list *)
Lemma added_origin : forall s L w p a s' L' k e', zlen L' = zlen L + 1 -> 0 <= p <= zlen L -> renumbers (shift_ptr p 1) (fun _ => True) L L' ->
  znth L' p = Some (bumped p (w_entry w)) -> added s L w p a s' -> znth L' k = Some e' ->
  (k = p /\ e' = bumped p (w_entry w)) \/ exists i e, znth L i = Some e /\ k = shift_ptr p 1 i /\ same_entry e e'.
Proof.
  intros s L w p a s' L' k e' Ln Hp R Hz _ Hk. destruct (Z.eq_dec k p) as [->|Hne]; [left; split; congruence|]. right.
  pose proof (znth_some _ _ _ Hk) as Hb. destruct (znth_ex L (shift_ptr p (-1) k)) as [e He].
  { unfold shift_ptr. destruct (Z.leb_spec p k); lia. }
  exists (shift_ptr p (-1) k), e. split; [exact He|]. split; [symmetry; apply shift_up_down; exact Hne|].
  destruct (R _ _ He I) as (e1 & H1 & Hs & _). rewrite shift_up_down in H1 by exact Hne. congruence.
Qed.

Lemma added_missing : forall s L w p a s' u, consistent s L -> 0 <= p <= zlen L -> added s L w p a s' -> u <> full_url (w_entry w) ->
  get_entry_by_full_url s u = Err EntryNotFound -> get_entry_by_full_url s' u = Err EntryNotFound.
Proof.
  intros s L w p a s' u C Hp AD Hne H. pose proof AD as (L' & off & C' & Ln & R & Hz & _).
  destruct (utf8_encode u) as [b|] eqn:Eb; [|rewrite (lookup_unencodable s u Eb) in H; discriminate].
  apply (missing_iff s' L' u b C' Eb). intros e' He' Hu. apply in_znth in He' as [k Hk].
  destruct (added_origin s L w p a s' L' k e' Ln Hp R Hz AD Hk) as [[-> ->]|(i & e & Hi & -> & Hs)].
  - apply Hne. rewrite <- Hu. apply same_url. apply same_bumped.
  - apply (proj1 (missing_iff s L u b C Eb) H e); [eapply znth_in; eauto|]. rewrite <- Hu. symmetry. apply same_url. exact Hs.
Qed.

Lemma split_bounds : forall (L LA LB : list entry), L = LA ++ LB -> 0 <= zlen LA <= zlen L.
Proof. intros L LA LB ->. rewrite zlen_app. pose proof (zlen_nonneg LA). pose proof (zlen_nonneg LB). lia. Qed.

Theorem add_lookup : forall s L w n s', consistent s L -> addable L w -> write_entry (S (S n)) w s = (Ok tt, s') ->
  (exists e', get_entry_by_full_url s' (full_url (w_entry w)) = Ok e' /\ same_entry (w_entry w) e' /\ target_url s' e' = target_url s (w_entry w)) /\
  (forall u e, get_entry_by_full_url s u = Ok e ->
     exists e', get_entry_by_full_url s' u = Ok e' /\ same_entry e e' /\ target_url s' e' = target_url s e) /\
  (forall u, u <> full_url (w_entry w) -> get_entry_by_full_url s u = Err EntryNotFound -> get_entry_by_full_url s' u = Err EntryNotFound).
Proof.
  intros s L w n s' C A W. destruct (add_cases _ _ _ _ _ _ C A W) as [(_ & LA & LB & a & EL & _ & _ & _ & D)|[H _]]; [|discriminate].
  split; [eapply added_new; eauto|]. split; [intros u e; eapply added_others; eauto|].
  intros u. apply (added_missing s L w (zlen LA) a s' u C (split_bounds _ _ _ EL) D).
Qed.

Theorem add_outcome : forall s L w n, consistent s L -> addable L w ->
  (exists s' L', write_entry (S (S n)) w s = (Ok tt, s') /\ consistent s' L' /\ zlen L' = zlen L + 1) \/
  (~ roomy s L /\ exists s', write_entry (S (S n)) w s = (Err AssertionError, s')).
Proof.
  intros s L w n C A. destruct (write_entry (S (S n)) w s) as [r s'] eqn:W.
  destruct (add_cases _ _ _ _ _ _ C A W) as [(-> & LA & LB & a & _ & _ & _ & _ & (L' & off & C' & Ln & _))|(-> & p & Hp & Hl)].
  - left. exists s', L'. auto.
  - right. split; [|eauto]. intro R. specialize (R p Hp). lia.
Qed.

(** *** title lists *)
Lemma perm_by_in : forall (a b : list ustr), NoDup a -> NoDup b -> (forall u, In u a <-> In u b) -> Permutation a b.
Proof. intros a b Ha Hb H. apply NoDup_Permutation; assumption. Qed.

Theorem add_articles : forall s L w n s' us, consistent s L -> addable L w -> write_entry (S (S n)) w s = (Ok tt, s') -> article_urls s = Some us ->
  exists us', article_urls s' = Some us' /\
    (w_force w = Some true -> Permutation us' (full_url (w_entry w) :: us)) /\ (w_force w <> Some true -> Permutation us' us).
Proof.
  intros s L w n s' us C A W Hus. destruct (add_cases _ _ _ _ _ _ C A W) as [(_ & LA & LB & a & EL & _ & _ & Haf & D)|[H _]]; [|discriminate].
  pose proof (split_bounds _ _ _ EL) as Hp. set (p := zlen LA) in *.
  pose proof D as (L' & off & C' & Ln & R & Hz & Hat & _). destruct (article_urls_ok s' L' C') as (us' & Hus' & Nd'). exists us'. split; [exact Hus'|].
  destruct (article_urls_ok s L C) as (us0 & H0 & Nd). rewrite Hus in H0. injection H0 as <-.
  pose proof (article_urls_in s L us C Hus) as I1. pose proof (article_urls_in s' L' us' C' Hus') as I2.
  assert (Hnew : ~ In (full_url (w_entry w)) us).
  { intro Hin. apply I1 in Hin as (i & e & _ & He & Hu). apply (ad_url _ _ A e); [eapply znth_in; eauto|exact Hu]. }
  assert (Hmem : forall u, In u us' <-> (u = full_url (w_entry w) /\ a = true) \/ In u us).
  { intro u. rewrite I2. split.
    - intros (k & e' & Hk & He' & <-). apply Hat in Hk as [[-> ->]|(i & Hi & ->)].
      + left. split; [|reflexivity]. rewrite Hz in He'. injection He' as <-. apply same_url. apply same_bumped.
      + right. apply I1. pose proof C as [(cells & EC & Co) _ _ _ _]. destruct (lists_in _ _ _ _ (co_atpl _ _ Co) Hi) as [e He]. rewrite EC in He.
        destruct (R i e He I) as (e1 & H1 & Hs & _). rewrite H1 in He'. injection He' as <-. exists i, e. split; [exact Hi|]. split; [exact He|]. symmetry. apply same_url. exact Hs.
    - intros [[-> Ha]|Hin].
      + exists p, (bumped p (w_entry w)). split; [apply Hat; left; auto|]. split; [exact Hz|]. apply same_url. apply same_bumped.
      + apply I1 in Hin as (i & e & Hi & He & <-). destruct (R i e He I) as (e1 & H1 & Hs & _). exists (shift_ptr p 1 i), e1.
        split; [apply Hat; right; eauto|]. split; [exact H1|]. apply same_url. exact Hs. }
  split; intro Hf; apply perm_by_in; auto.
  - constructor; assumption.
  - intro u. rewrite Hmem. cbn [In]. assert (a = true) by (apply Haf; exact Hf). subst a. split; [intros [[-> _]|H]|intros [<-|H]]; auto.
  - intro u. rewrite Hmem. split; [intros [[_ Ha]|H]; [apply Haf in Ha; contradiction|exact H]|auto].
Qed.

Theorem articles_sorted : forall s L es, consistent s L -> iter_articles s None None = Ok es -> StronglySorted title_le es.
Proof. intros s L es C H. destruct (articles_ok s L C) as (es' & E & _ & _ & So). congruence. Qed.


Theorem add_entry_titles : forall s L w n s' es, consistent s L -> addable L w -> write_entry (S (S n)) w s = (Ok tt, s') -> entry_titles s es ->
  exists es', entry_titles s' es' /\ Permutation (map full_url es') (full_url (w_entry w) :: map full_url es) /\ StronglySorted nstitle_le es'.
Proof.
  intros s L w n s' es C A W (t & Ht & F). destruct (add_cases _ _ _ _ _ _ C A W) as [(_ & LA & LB & a & EL & _ & _ & Haf & D)|[H _]]; [|discriminate].
  pose proof (split_bounds _ _ _ EL) as Hp. set (p := zlen LA) in *.
  pose proof D as (L' & off & C' & Ln & R & Hz & _ & _ & _ & _ & _ & _ & Hnone & _).
  destruct (z_etpl s') as [t'|] eqn:Et'; [|exfalso; assert (z_etpl s = None) by (apply Hnone; reflexivity); congruence].
  destruct (entry_titles_ok s' L' t' C' Et') as (es' & H1 & P' & So). exists es'. split; [exact H1|]. split; [|exact So].
  destruct (entry_titles_ok s L t C Ht) as (es0 & (t0 & Ht0 & F0) & P & _).
  assert (es0 = es). { rewrite Ht in Ht0. injection Ht0 as <-. clear - F F0. revert es0 F0. induction F as [|i e l m H F IH]; intros es0 F0; inversion F0; subst; [reflexivity|].
    rewrite H in H2. injection H2 as <-. f_equal. auto. } subst es0.
  eapply Permutation_trans; [apply Permutation_map; exact P'|]. eapply Permutation_trans; [|apply perm_skip; apply Permutation_map; apply Permutation_sym; exact P].
  assert (N1 : forall s L, consistent s L -> NoDup (map full_url L)).
  { clear. intros s L C. pose proof (consistent_sorted _ _ C) as So. clear C. induction So as [|e L So IH H]; cbn [map]; constructor; [|exact IH].
    intro Hin. apply in_map_iff in Hin as (x & Hx & Hin). rewrite Forall_forall in H. specialize (H x Hin). unfold url_lt in H. rewrite Hx, ultb_irrefl in H. discriminate. }
  apply perm_by_in; [eapply N1; eauto| |].
  - constructor; [|eapply N1; eauto]. intro Hin. apply in_map_iff in Hin as (x & Hx & Hin). exact (ad_url _ _ A x Hin Hx).
  - intro u. cbn [In]. split.
    + intro Hin. apply in_map_iff in Hin as (e' & <- & He'). apply in_znth in He' as [k Hk].
      destruct (added_origin s L w p a s' L' k e' Ln Hp R Hz D Hk) as [[-> ->]|(i & e & Hi & -> & Hs)].
      * left. symmetry. apply same_url. apply same_bumped.
      * right. rewrite (same_url _ _ Hs). apply in_map. eapply znth_in; eauto.
    + intros [<-|Hin].
      * rewrite <- (same_url _ _ (same_bumped p (w_entry w))). apply in_map. eapply znth_in; eauto.
      * apply in_map_iff in Hin as (e & <- & He). apply in_znth in He as [i Hi]. destruct (R i e Hi I) as (e' & He' & Hs & _).
        rewrite <- (same_url _ _ Hs). apply in_map. eapply znth_in; eauto.
Qed.

(** *** main page *)
Lemma main_index : forall s L e, consistent s L -> get_mainpage_entry s = Ok e -> exists m, z_main s = Some m /\ znth L m = Some e.
Proof. intros s L e C H. apply (main_iff _ _ _ C). exact H. Qed.

Lemma split_position : forall (LA LB : list entry) i x, znth (LA ++ LB) i = Some x -> (i < zlen LA /\ In x LA) \/ (zlen LA <= i /\ In x LB).
Proof.
  intros LA LB i x H. pose proof (znth_some _ _ _ H). destruct (Z.lt_ge_cases i (zlen LA)) as [Hlt|Hge].
  - left. split; [exact Hlt|]. rewrite znth_app_l in H by lia. eapply znth_in; eauto.
  - right. split; [exact Hge|]. rewrite znth_app_r in H by lia. eapply znth_in; eauto.
Qed.

Theorem add_main : forall s L w n s' e, consistent s L -> addable L w -> write_entry (S (S n)) w s = (Ok tt, s') ->
  get_mainpage_entry s = Ok e ->
  (url_lt e (w_entry w) \/ exists x, In x L /\ url_lt (w_entry w) x /\ url_lt x e) -> main_url s' = main_url s.
Proof.
  intros s L w n s' e C A W Hm Hpos. destruct (add_cases _ _ _ _ _ _ C A W) as [(_ & LA & LB & a & EL & H1 & H2 & _ & D)|[H _]]; [|discriminate].
  destruct (main_index _ _ _ C Hm) as (m & Em & Hz). pose proof D as (L' & off & C' & Ln & R & _ & _ & Hmain & _).
  apply (renumber_main s s' L L' (shift_ptr (zlen LA) 1) (fun _ => True) C C' R m Em I). rewrite Hmain, Em. unfold shift_main, shift_ptr. f_equal.
  pose proof (consistent_sorted _ _ C) as So. rewrite EL in Hz.
  destruct (split_position _ _ _ _ Hz) as [[Hlt Hin]|[Hge Hin]].
  - replace (zlen LA <? m) with false by lia. replace (zlen LA <=? m) with false by lia. reflexivity.
  - specialize (H2 e Hin). destruct Hpos as [Hpos|(x & Hx & Hx1 & Hx2)]; [exfalso; exact (ultb_asym _ _ Hpos H2)|].
    assert (m <> zlen LA).
    { intros ->. rewrite EL in Hx. apply in_znth in Hx as [k Hk]. destruct (split_position _ _ _ _ Hk) as [[Hkl Hi]|[Hkg Hi]].
      - specialize (H1 x Hi). exact (ultb_asym _ _ H1 Hx1).
      - rewrite EL in So. destruct (Z.eq_dec k (zlen LA)) as [->|].
        + rewrite Hz in Hk. injection Hk as ->. exact (url_lt_irrefl _ Hx2).
        + assert (url_lt e x) by (eapply (ssorted_znth url_lt _ So (zlen LA) k); [exact Hz|exact Hk|lia]). exact (ultb_asym _ _ H Hx2). }
    replace (zlen LA <? m) with true by lia. replace (zlen LA <=? m) with true by lia. reflexivity.
Qed.

(** the defect: a new entry directly before the main page becomes the main page *)
Theorem add_before_main : forall s L w n s' e, consistent s L -> addable L w -> write_entry (S (S n)) w s = (Ok tt, s') ->
  get_mainpage_entry s = Ok e -> url_lt (w_entry w) e -> (forall x, In x L -> url_lt (w_entry w) x -> url_lt x e -> False) ->
  main_url s' = Some (full_url (w_entry w)).
Proof.
  intros s L w n s' e C A W Hm Hlt Hno. destruct (add_cases _ _ _ _ _ _ C A W) as [(_ & LA & LB & a & EL & H1 & H2 & _ & D)|[H _]]; [|discriminate].
  destruct (main_index _ _ _ C Hm) as (m & Em & Hz). pose proof D as (L' & off & C' & Ln & R & Hp & _ & Hmain & _).
  pose proof (consistent_sorted _ _ C) as So. pose proof Hz as HzL. rewrite EL in Hz, So.
  destruct (split_position _ _ _ _ Hz) as [[Hl Hin]|[Hge Hin]]; [exfalso; exact (ultb_asym _ _ (H1 e Hin) Hlt)|].
  assert (m = zlen LA).
  { destruct (Z.eq_dec m (zlen LA)) as [|Hne]; [assumption|]. exfalso. pose proof (znth_some _ _ _ Hz) as Hb. pose proof (zlen_nonneg LA).
    destruct (znth_ex (LA ++ LB) (zlen LA)) as [x Hx]; [lia|]. destruct (split_position _ _ _ _ Hx) as [[Hl _]|[_ Hi]]; [lia|].
    apply (Hno x); [rewrite EL; apply in_or_app; right; exact Hi|apply H2; exact Hi|]. eapply (ssorted_znth url_lt _ So (zlen LA) m); [exact Hx|exact Hz|lia]. }
  subst m. unfold main_url. rewrite (proj2 (main_iff s' L' (bumped (zlen LA) (w_entry w)) C')).
  - f_equal. apply same_url. apply same_bumped.
  - exists (zlen LA). split; [|exact Hp]. rewrite Hmain, Em. unfold shift_main. rewrite Z.ltb_irrefl. reflexivity.
Qed.

(** ** Rewriting *)
Lemma rewritten_nth : forall (LA LB : list entry) e0 e k x, znth (LA ++ e0 :: LB) k = Some x -> k <> zlen LA -> znth (LA ++ e :: LB) k = Some x.
Proof. intros LA LB e0 e k x H Hk. rewrite <- H. apply znth_mid_other. exact Hk. Qed.

Theorem edit_in_place : forall s L i e0 w n, consistent s L -> rewritable s L i e0 w -> stays e0 (w_entry w) ->
  exists s', write_entry (S n) w s = (Ok tt, s') /\ (exists L', consistent s' L') /\
    get_entry_by_full_url s' (full_url e0) = Ok (w_entry w) /\ target_url s' (w_entry w) = target_url s (w_entry w) /\
    (forall u e, u <> full_url e0 -> get_entry_by_full_url s u = Ok e ->
       get_entry_by_full_url s' u = Ok e /\ target_url s' e = target_url s e) /\
    (forall u, get_entry_by_full_url s u = Err EntryNotFound -> get_entry_by_full_url s' u = Err EntryNotFound) /\
    main_url s' = main_url s.
Proof.
  intros s L i e0 w n C RW ST. destruct (rewrite_ok s L i e0 w n C RW ST) as (a & s' & _ & W & (LA & e1 & LB & EL & Hi & C' & _ & Em & _)).
  exists s'. split; [exact W|]. split; [eauto|]. destruct ST as [Hu _].
  assert (e1 = e0). { pose proof (rw_at _ _ _ _ _ RW) as Hz. rewrite EL, <- Hi, znth_mid in Hz. congruence. } subst e1.
  assert (Htar : forall e r, e_kind e = Redirect r -> 0 <= r < zlen L -> target_url s' e = target_url s e).
  { intros e r Hk Hr. destruct (znth_ex L r Hr) as [t Ht]. rewrite (proj2 (target_iff s L e (full_url t) C)) by (exists r, t; auto).
    apply (target_iff _ _ _ _ C'). destruct (Z.eq_dec r i) as [->|Hne].
    - exists i, (w_entry w). split; [exact Hk|]. split; [rewrite <- Hi; apply znth_mid|]. pose proof (rw_at _ _ _ _ _ RW) as Hz. rewrite Ht in Hz. injection Hz as ->. exact Hu.
    - exists r, t. split; [exact Hk|]. split; [|reflexivity]. rewrite EL in Ht. eapply rewritten_nth; [exact Ht|lia]. }
  split. { rewrite <- Hu. apply (lookup_iff _ _ _ _ C'). split; [apply in_or_app; right; left; reflexivity|reflexivity]. }
  split. { destruct (e_kind (w_entry w)) as [c b|r] eqn:Ek; [unfold target_url; rewrite Ek; reflexivity|]. apply (Htar _ r Ek). apply (rw_target _ _ _ _ _ RW r Ek). }
  split.
  { intros u e Hne H. apply (lookup_iff _ _ _ _ C) in H as [Hin Hue]. split.
    - apply (lookup_iff _ _ _ _ C'). split; [|exact Hue]. rewrite EL in Hin. apply in_app_or in Hin. apply in_or_app. destruct Hin as [|[<-|]]; [auto| |right; right; assumption].
      exfalso. apply Hne. symmetry. exact Hue.
    - destruct (e_kind e) as [c b|r] eqn:Ek; [unfold target_url; rewrite Ek; reflexivity|]. apply (Htar _ r Ek). apply (cs_targets _ _ C e r Hin Ek). }
  split.
  { intros u H. destruct (utf8_encode u) as [b|] eqn:Eb; [|rewrite (lookup_unencodable s u Eb) in H; discriminate].
    apply (missing_iff _ _ _ _ C' Eb). apply (missing_iff _ _ _ _ C Eb) in H. intros e He. rewrite EL in H. apply in_app_or in He. destruct He as [He|[<-|He]].
    - apply H. apply in_or_app. left. exact He.
    - rewrite Hu. apply H. apply in_or_app. right. left. reflexivity.
    - apply H. apply in_or_app. right. right. exact He. }
  unfold main_url. destruct (z_main s) as [m|] eqn:Ez.
  - pose proof (cs_main _ _ C m Ez) as Hb. destruct (znth_ex L m Hb) as [t Ht]. rewrite (proj2 (main_iff s L t C)) by eauto.
    destruct (Z.eq_dec m i) as [->|Hne].
    + rewrite (proj2 (main_iff s' _ (w_entry w) C')) by (exists i; split; [exact Em|rewrite <- Hi; apply znth_mid]).
      pose proof (rw_at _ _ _ _ _ RW) as Hz. rewrite Ht in Hz. injection Hz as ->. rewrite Hu. reflexivity.
    + rewrite (proj2 (main_iff s' _ t C')); [reflexivity|]. exists m. split; [exact Em|]. rewrite EL in Ht. eapply rewritten_nth; [exact Ht|lia].
  - unfold get_mainpage_entry. rewrite Em, Ez. reflexivity.
Qed.

Lemma move_cases : forall s L i e0 w n r s', consistent s L -> rewritable s L i e0 w -> ~ stays e0 (w_entry w) -> movable s L i e0 (w_entry w) ->
  write_entry (S (S n)) w s = (r, s') ->
  (r = Ok tt /\ exists LA LB a, (exists MA MB, L = MA ++ e0 :: MB /\ zlen MA = i /\ MA ++ MB = LA ++ LB) /\
     (forall e, In e LA -> url_lt e (w_entry w)) /\ (forall e, In e LB -> url_lt (w_entry w) e) /\ moved s L w i (zlen LA) a s') \/
  (r = Err AssertionError /\ exists p, In p (pl_ptrs (z_upl s)) /\ p <= zlen L).
Proof.
  intros s L i e0 w n r s' C RW NS MV W. destruct (move_ok s L i e0 w n C RW NS MV) as (LA & LB & HM & H1 & H2 & a & _ & [(s1 & W1 & D)|(s1 & p & Hp & Hl & W1)]);
    rewrite W in W1; injection W1 as -> ->.
  - left. split; [reflexivity|]. exists LA, LB, a. auto.
  - right. eauto.
Qed.

Lemma moved_targets : forall s L i j e0 w L' s', consistent s L -> consistent s' L' -> znth L i = Some e0 ->
  (forall k e, znth L k = Some e -> k <> i -> exists e', znth L' (move_ptr i j k) = Some e' /\ same_entry e e' /\
       (forall r, e_kind e = Redirect r -> e_kind e' = Redirect (move_ptr i j r))) ->
  (exists e', znth L' j = Some e' /\ same_entry (w_entry w) e' /\
       (forall r, e_kind (w_entry w) = Redirect r -> e_kind e' = Redirect (move_ptr i j r))) ->
  forall e e', same_entry e e' -> (forall r, e_kind e = Redirect r -> 0 <= r < zlen L /\ e_kind e' = Redirect (move_ptr i j r)) ->
  target_url s' e' = option_map (renamed (full_url e0) (full_url (w_entry w))) (target_url s e).
Proof.
  intros s L i j e0 w L' s' C C' Hz Hoth (ej & Hj & Hsj & _) e e' Hs Hk. destruct (e_kind e) as [c b|r] eqn:Ek.
  - destruct Hs as (_ & _ & _ & _ & K). unfold target_url. rewrite Ek in *. destruct (e_kind e'); [reflexivity|contradiction].
  - destruct (Hk r eq_refl) as [Hr Hk']. destruct (znth_ex L r Hr) as [t Ht]. rewrite (proj2 (target_iff s L e (full_url t) C)) by (exists r, t; auto). cbn [option_map].
    apply (target_iff _ _ _ _ C'). unfold renamed. destruct (Z.eq_dec r i) as [->|Hne].
    + rewrite Hz in Ht. injection Ht as <-. replace (ueqb (full_url e0) (full_url e0)) with true by (symmetry; apply ueqb_eq; reflexivity).
      exists j, ej. split; [rewrite Hk'; unfold move_ptr; rewrite Z.eqb_refl; reflexivity|]. split; [exact Hj|apply same_url; exact Hsj].
    + destruct (Hoth r t Ht Hne) as (t' & Ht' & Hst & _). exists (move_ptr i j r), t'. split; [exact Hk'|]. split; [exact Ht'|].
      destruct (ueqb (full_url t) (full_url e0)) eqn:Eu; [|apply same_url; exact Hst]. apply ueqb_eq in Eu. exfalso. apply Hne.
      eapply url_unique; [eapply consistent_sorted; exact C|exact Ht|exact Hz|exact Eu].
Qed.

Theorem edit_moved : forall s L i e0 w n s', consistent s L -> rewritable s L i e0 w -> ~ stays e0 (w_entry w) -> movable s L i e0 (w_entry w) ->
  write_entry (S (S n)) w s = (Ok tt, s') ->
  (exists L', consistent s' L') /\
  (exists e', get_entry_by_full_url s' (full_url (w_entry w)) = Ok e' /\ same_entry (w_entry w) e' /\
     target_url s' e' = option_map (renamed (full_url e0) (full_url (w_entry w))) (target_url s (w_entry w))) /\
  (forall u d, u <> full_url e0 -> get_entry_by_full_url s u = Ok d ->
     exists d', get_entry_by_full_url s' u = Ok d' /\ same_entry d d' /\
       target_url s' d' = option_map (renamed (full_url e0) (full_url (w_entry w))) (target_url s d)).
Proof.
  intros s L i e0 w n s' C RW NS MV W. destruct (move_cases _ _ _ _ _ _ _ _ C RW NS MV W) as [(_ & LA & LB & a & _ & _ & _ & D)|[H _]]; [|discriminate].
  destruct D as (L' & p0 & e00 & off & Hz & _ & _ & C' & Ln & Hoth & Hmid & _). rewrite (rw_at _ _ _ _ _ RW) in Hz. injection Hz as <-.
  pose proof (rw_at _ _ _ _ _ RW) as Hz. split; [eauto|]. split.
  - pose proof Hmid as (e' & Hj & Hs & Hk). exists e'. split; [|split; [exact Hs|]].
    + apply (lookup_iff _ _ _ _ C'). split; [eapply znth_in; eauto|apply same_url; exact Hs].
    + apply (moved_targets s L i (zlen LA) e0 w L' s' C C' Hz Hoth Hmid (w_entry w) e' Hs). intros r Hr. split; [apply (rw_target _ _ _ _ _ RW r Hr)|exact (Hk r Hr)].
  - intros u d Hne H. pose proof (proj1 (lookup_iff _ _ _ _ C) H) as [Hin Hu]. apply in_znth in Hin as [k Hk].
    assert (Hki : k <> i). { intros ->. rewrite Hz in Hk. injection Hk as <-. apply Hne. symmetry. exact Hu. }
    destruct (Hoth k d Hk Hki) as (d' & Hd' & Hs & Hkd). exists d'. split; [|split; [exact Hs|]].
    + apply (lookup_iff _ _ _ _ C'). split; [eapply znth_in; eauto|rewrite (same_url _ _ Hs); exact Hu].
    + apply (moved_targets s L i (zlen LA) e0 w L' s' C C' Hz Hoth Hmid d d' Hs). intros r Hr. split; [apply (cs_targets _ _ C d r); [eapply znth_in; eauto|exact Hr]|exact (Hkd r Hr)].
Qed.

Theorem edit_outcome : forall s L i e0 w n, consistent s L -> rewritable s L i e0 w -> movable s L i e0 (w_entry w) ->
  (exists s', write_entry (S (S n)) w s = (Ok tt, s')) \/ (~ roomy s L /\ exists s', write_entry (S (S n)) w s = (Err AssertionError, s')).
Proof.
  intros s L i e0 w n C RW MV. destruct (Z.eq_dec (span (w_entry w)) (span e0)) as [Hsp|Hsp], (list_eq_dec Z.eq_dec (full_url (w_entry w)) (full_url e0)) as [Hu|Hu].
  1: { left. destruct (edit_in_place s L i e0 w (S n) C RW) as (s' & W & _); [split; assumption|]. eauto. }
  all: destruct (write_entry (S (S n)) w s) as [r s'] eqn:W; assert (NS : ~ stays e0 (w_entry w)) by (intros [H1 H2]; contradiction).
  all: destruct (move_cases _ _ _ _ _ _ _ _ C RW NS MV W) as [(-> & _)|(-> & p & Hp & Hl)]; [left; eauto|right; split; [|eauto]]; intro R; specialize (R p Hp); lia.
Qed.

Theorem edit_main : forall s L i e0 w n s' e, consistent s L -> rewritable s L i e0 w -> ~ stays e0 (w_entry w) -> movable s L i e0 (w_entry w) ->
  write_entry (S (S n)) w s = (Ok tt, s') -> get_mainpage_entry s = Ok e -> e <> e0 ->
  (url_lt e (w_entry w) \/ exists x, In x L /\ x <> e0 /\ url_lt (w_entry w) x /\ url_lt x e) -> main_url s' = main_url s.
Proof.
  intros s L i e0 w n s' e C RW NS MV W Hm Hne Hpos.
  destruct (move_cases _ _ _ _ _ _ _ _ C RW NS MV W) as [(_ & LA & LB & a & (MA & MB & EL & Hi & EM) & H1 & H2 & D)|[H _]]; [|discriminate].
  destruct D as (L' & p0 & e00 & off & Hz & _ & _ & C' & Ln & Hoth & _ & _ & Hmain & _). rewrite (rw_at _ _ _ _ _ RW) in Hz. injection Hz as <-.
  pose proof (rw_at _ _ _ _ _ RW) as Hz. destruct (main_index _ _ _ C Hm) as (m & Em & Hzm).
  assert (Hmi : m <> i) by (intros ->; congruence). destruct (Hoth m e Hzm Hmi) as (e' & He' & Hs & _).
  unfold main_url. rewrite Hm. rewrite (proj2 (main_iff s' L' e' C')); [rewrite (same_url _ _ Hs); reflexivity|].
  exists (move_ptr i (zlen LA) m). split; [|exact He']. rewrite Hmain, Em. unfold move_ptr. replace (m =? i) with false by lia. cbn [shift_main]. f_equal.
  set (m1 := shift_ptr i (-1) m). replace (if i <? m then m + -1 else m) with m1 by (unfold m1, shift_ptr; destruct (Z.leb_spec i m), (Z.ltb_spec i m); lia).
  unfold shift_ptr at 1. pose proof (consistent_sorted _ _ C) as So. rewrite EL in So.
  assert (Hz1 : znth (LA ++ LB) m1 = Some e).
  { rewrite <- EM. unfold m1. rewrite <- Hi, (znth_delete MA MB e0) by lia. rewrite <- EL. exact Hzm. }
  destruct (split_position _ _ _ _ Hz1) as [[Hlt Hin]|[Hge Hin]].
  - replace (zlen LA <? m1) with false by lia. replace (zlen LA <=? m1) with false by lia. reflexivity.
  - specialize (H2 e Hin) as H2e. destruct Hpos as [Hpos|(x & Hx & Hx0 & Hx1 & Hx2)]; [exfalso; exact (ultb_asym _ _ Hpos H2e)|].
    assert (m1 <> zlen LA).
    { intro E1. assert (HxAB : In x (LA ++ LB)).
      { rewrite <- EM. rewrite EL in Hx. apply in_app_or in Hx. apply in_or_app. destruct Hx as [|[<-|]]; auto. contradiction. }
      assert (So2 : StronglySorted url_lt (LA ++ LB)) by (rewrite <- EM; eapply ssorted_delete_gen; exact So).
      apply in_znth in HxAB as [k Hk]. destruct (split_position _ _ _ _ Hk) as [[Hkl Hi']|[Hkg Hi']].
      - specialize (H1 x Hi'). exact (ultb_asym _ _ H1 Hx1).
      - destruct (Z.eq_dec k m1) as [->|].
        + rewrite Hz1 in Hk. injection Hk as ->. exact (url_lt_irrefl _ Hx2).
        + assert (url_lt e x) by (eapply (ssorted_znth url_lt _ So2 m1 k); [exact Hz1|exact Hk|lia]). exact (ultb_asym _ _ H Hx2). }
    replace (zlen LA <? m1) with true by lia. replace (zlen LA <=? m1) with true by lia. reflexivity.
Qed.

(** ** Removing *)
Lemma remove_cases : forall s L i e0 n r s', consistent s L -> removable s L i e0 -> remove_entry keep_blob (S (S n)) (full_url e0) s = (r, s') ->
  (r = Ok tt /\ removed s L i s') \/ (r = Err AssertionError /\ exists p, In p (pl_ptrs (z_upl s)) /\ p <= zlen L).
Proof.
  intros s L i e0 n r s' C RM W. destruct (remove_ok s L i e0 n C RM) as [(s1 & W1 & D)|(s1 & p & Hp & Hl & W1)]; rewrite W in W1; injection W1 as -> ->; eauto 6.
Qed.

Theorem remove_observed : forall s L i e0 n s', consistent s L -> removable s L i e0 -> remove_entry keep_blob (S (S n)) (full_url e0) s = (Ok tt, s') ->
  (exists L', consistent s' L') /\
  get_entry_by_full_url s' (full_url e0) = Err EntryNotFound /\
  (forall u e, u <> full_url e0 -> get_entry_by_full_url s u = Ok e ->
     exists e', get_entry_by_full_url s' u = Ok e' /\ same_entry e e' /\ target_url s' e' = target_url s e) /\
  (forall u, get_entry_by_full_url s u = Err EntryNotFound -> get_entry_by_full_url s' u = Err EntryNotFound) /\
  main_url s' = (if opt_eqb (z_main s) (Some i) then None else main_url s) /\
  (forall us, article_urls s = Some us -> exists us', article_urls s' = Some us' /\ NoDup us' /\ forall u, In u us' <-> In u us /\ u <> full_url e0).
Proof.
  intros s L i e0 n s' C RM W. destruct (remove_cases _ _ _ _ _ _ _ C RM W) as [[_ D]|[H _]]; [|discriminate].
  destruct D as (L' & p0 & e00 & Hz & _ & _ & C' & Ln & R & Hfrom & Hat & Hmain & _). rewrite (rm_at _ _ _ _ RM) in Hz. injection Hz as <-.
  pose proof (rm_at _ _ _ _ RM) as Hz. pose proof (consistent_sorted _ _ C) as So.
  destruct (consistent_storable s L e0 C (znth_in _ _ _ Hz)) as (S1 & S2 & S3 & S4).
  assert (Hst : entry_storable e0) by (eapply consistent_storable; [exact C|eapply znth_in; eauto]).
  assert (Huniq : forall e, In e L -> e <> e0 -> full_url e <> full_url e0).
  { intros e He Hne Hu. apply Hne. apply in_znth in He as [k Hk]. assert (k = i) by (eapply url_unique; eauto). subst. congruence. }
  split; [eauto|]. split.
  { apply (missing_iff s' L' _ _ C' (enc_full_url e0 Hst)). intros e' He' Hu. destruct (Hfrom e' He') as (e & He & Hne & Hs).
    apply (Huniq e He Hne). rewrite <- Hu. symmetry. apply same_url. exact Hs. }
  split.
  { intros u e Hne H. pose proof (proj1 (lookup_iff _ _ _ _ C) H) as [Hin Hu]. apply in_znth in Hin as [k Hk].
    assert (Hki : k <> i). { intros ->. rewrite Hz in Hk. injection Hk as <-. apply Hne. symmetry. exact Hu. }
    destruct (renumber_lookup s s' L L' _ _ C C' R u e k H Hk Hki) as (e' & G & Hs & Ht). exists e'. split; [exact G|]. split; [exact Hs|].
    destruct (e_kind e) as [c b|r] eqn:Ek.
    - unfold target_url. rewrite Ek. destruct Hs as (_ & _ & _ & _ & K). rewrite Ek in K. destruct (e_kind e'); [reflexivity|contradiction].
    - apply (Ht r eq_refl). intros ->. apply (rm_in _ _ _ _ RM e); [eapply znth_in; eauto| |exact Ek]. intros ->. apply Hne. symmetry. exact Hu. }
  split.
  { intros u H. destruct (utf8_encode u) as [b|] eqn:Eb; [|rewrite (lookup_unencodable s u Eb) in H; discriminate].
    apply (missing_iff _ _ _ _ C' Eb). apply (missing_iff _ _ _ _ C Eb) in H. intros e' He'. destruct (Hfrom e' He') as (e & He & _ & Hs). rewrite (same_url _ _ Hs). apply H. exact He. }
  split.
  { destruct (z_main s) as [m|] eqn:Em; cbn [opt_eqb] in *.
    - destruct (Z.eqb_spec m i) as [->|Hne].
      + unfold main_url, get_mainpage_entry. rewrite Hmain. reflexivity.
      + apply (renumber_main s s' L L' _ _ C C' R m Em Hne). rewrite Hmain. unfold shift_main, shift_ptr. f_equal. destruct (Z.ltb_spec i m), (Z.leb_spec i m); lia.
    - unfold main_url, get_mainpage_entry. rewrite Hmain, Em. reflexivity. }
  intros us Hus. destruct (article_urls_ok s' L' C') as (us' & Hus' & Nd'). exists us'. split; [exact Hus'|]. split; [exact Nd'|].
  intro u. rewrite (article_urls_in s' L' us' C' Hus'), (article_urls_in s L us C Hus). split.
  - intros (k & e' & Hk & He' & <-). apply Hat in Hk as (k0 & Hk0 & Hne & ->). pose proof C as [(cells & EC & Co) _ _ _ _].
    destruct (lists_in _ _ _ _ (co_atpl _ _ Co) Hk0) as [e He]. rewrite EC in He. destruct (R k0 e He Hne) as (e1 & H1 & Hs & _). rewrite H1 in He'. injection He' as <-.
    rewrite (same_url _ _ Hs). split; [exists k0, e; auto|]. apply Huniq; [eapply znth_in; eauto|]. intros ->. apply Hne. eapply url_unique; eauto.
  - intros [(k & e & Hk & He & <-) Hne]. assert (Hki : k <> i) by (intros ->; congruence). destruct (R k e He Hki) as (e1 & H1 & Hs & _).
    exists (shift_ptr i (-1) k), e1. split; [apply Hat; eauto|]. split; [exact H1|apply same_url; exact Hs].
Qed.

Theorem remove_outcome : forall s L i e0 n, consistent s L -> removable s L i e0 ->
  (exists s', remove_entry keep_blob (S (S n)) (full_url e0) s = (Ok tt, s')) \/
  (~ roomy s L /\ exists s', remove_entry keep_blob (S (S n)) (full_url e0) s = (Err AssertionError, s')).
Proof.
  intros s L i e0 n C RM. destruct (remove_entry keep_blob (S (S n)) (full_url e0) s) as [r s'] eqn:W.
  destruct (remove_cases _ _ _ _ _ _ _ C RM W) as [(-> & _)|(-> & p & Hp & Hl)]; [left; eauto|right; split; [|eauto]]. intro R. specialize (R p Hp). lia.
Qed.

(** ** Redirect resolution *)
(** [n] steps along redirects *)
Fixpoint chain (s : zim) (n : nat) (e : entry) : res entry :=
  match n with O => Ok e | S n' => do e' <- follow s e ;; chain s n' e' end.

Theorem resolve_result : forall fuel s e c, resolve fuel s e = Ok c -> is_redirect c = false /\ exists n, (n < fuel)%nat /\ chain s n e = Ok c.
Proof.
  induction fuel as [|fuel IH]; intros s e c H; [discriminate|]. cbn [resolve] in H. destruct (is_redirect e) eqn:Er.
  - destruct (follow s e) as [e'|x] eqn:Ef; [|discriminate]. cbn [bind] in H. destruct (IH s e' c H) as [Hc (n & Hn & Hch)].
    split; [exact Hc|]. exists (S n). split; [lia|]. cbn [chain]. rewrite Ef. exact Hch.
  - injection H as <-. split; [exact Er|]. exists O. split; [lia|reflexivity].
Qed.

Lemma redirect_follow : forall s L e, consistent s L -> In e L -> is_redirect e = true ->
  exists r t, e_kind e = Redirect r /\ znth L r = Some t /\ follow s e = Ok t.
Proof.
  intros s L e C He Hr. pose proof (consistent_kind _ _ _ C He) as K. unfold follow. destruct (e_kind e) as [c b|r] eqn:Ek.
  - rewrite (kind_content _ _ _ K Ek) in Hr. discriminate.
  - destruct (znth_ex L r (cs_targets _ _ C e r He Ek)) as [t Ht]. exists r, t. split; [reflexivity|]. split; [exact Ht|]. apply (index_iff _ _ _ _ C). exact Ht.
Qed.

Lemma chain_add : forall n m s e a, chain s n e = Ok a -> chain s (n + m) e = chain s m a.
Proof.
  induction n as [|n IH]; intros m s e a H; cbn [chain Nat.add] in *; [congruence|].
  destruct (follow s e) as [e'|x]; [|discriminate]. cbn [bind] in *. apply IH. exact H.
Qed.

Lemma resolve_chain : forall n fuel s e c, chain s n e = Ok c -> is_redirect c = false ->
  (forall k a, (k < n)%nat -> chain s k e = Ok a -> is_redirect a = true) -> (n < fuel)%nat -> resolve fuel s e = Ok c.
Proof.
  induction n as [|n IH]; intros fuel s e c H Hc Hk Hf; (destruct fuel as [|fuel]; [lia|]); cbn [resolve chain] in *.
  - injection H as ->. rewrite Hc. reflexivity.
  - rewrite (Hk O e ltac:(lia) eq_refl). destruct (follow s e) as [e'|x] eqn:Ef; [|discriminate]. cbn [bind] in *.
    apply (IH fuel s e' c H Hc); [|lia]. intros k a Hlt Ha. apply (Hk (S k) a); [lia|]. cbn [chain]. rewrite Ef. exact Ha.
Qed.

Lemma resolve_never : forall fuel s e, (forall k, exists a, chain s k e = Ok a /\ is_redirect a = true) -> resolve fuel s e = Err Diverge.
Proof.
  induction fuel as [|fuel IH]; intros s e H; [reflexivity|]. cbn [resolve]. destruct (H O) as (a & E & Hr). cbn in E. injection E as <-. rewrite Hr.
  destruct (H 1%nat) as (a & E & _). cbn [chain] in E. destruct (follow s e) as [e'|x] eqn:Ef; [|discriminate]. cbn [bind]. apply IH.
  intro k. destruct (H (S k)) as (b & E' & Hb). cbn [chain] in E'. rewrite Ef in E'. eauto.
Qed.

(** the chain starting at [e]: as long as it meets redirects only, it stays in the archive *)
Lemma chain_stays : forall s L e, consistent s L -> In e L -> forall n,
  (forall k a, (k < n)%nat -> chain s k e = Ok a -> is_redirect a = true) -> exists a, chain s n e = Ok a /\ In a L.
Proof.
  intros s L e C He. induction n as [|n IH]; intro H; [exists e; auto|].
  destruct IH as (a & Ha & Hin); [intros k b Hk; apply H; lia|].
  destruct (redirect_follow s L a C Hin (H n a ltac:(lia) Ha)) as (r & t & _ & Ht & Hf).
  exists t. split; [|eapply znth_in; eauto]. rewrite <- Nat.add_1_r, (chain_add n 1 s e a Ha). cbn [chain]. rewrite Hf. reflexivity.
Qed.

Lemma entry_eq_dec : forall a b : entry, {a = b} + {a <> b}.
Proof. repeat decide equality. Qed.

Lemma not_nodup : forall (f : nat -> entry) n, ~ NoDup (map f (seq 0 n)) -> exists i j, (i < j < n)%nat /\ f i = f j.
Proof.
  intros f n. induction n as [|n IH]; intro H; [exfalso; apply H; constructor|].
  destruct (ListDec.NoDup_dec entry_eq_dec (map f (seq 0 n))) as [Hn|Hn].
  - destruct (in_dec entry_eq_dec (f n) (map f (seq 0 n))) as [Hin|Hin].
    + apply in_map_iff in Hin as (i & Hi & Hs). apply in_seq in Hs. exists i, n. split; [lia|exact Hi].
    + exfalso. apply H. rewrite seq_S, map_app. cbn [map Nat.add]. apply (Permutation_NoDup (l := f n :: map f (seq 0 n))); [apply Permutation_cons_append|].
      constructor; assumption.
  - destruct (IH Hn) as (i & j & Hij & E). exists i, j. split; [lia|exact E].
Qed.

(** [resolve] ends after at most as many steps as there are entries, or never. *)
Theorem resolve_dichotomy : forall s L e, consistent s L -> In e L ->
  (exists n c, Z.of_nat n < zlen L /\ chain s n e = Ok c /\ In c L /\ is_redirect c = false /\ forall fuel, (n < fuel)%nat -> resolve fuel s e = Ok c) \/
  (forall k, exists a, chain s k e = Ok a /\ In a L /\ is_redirect a = true) /\ (forall fuel, resolve fuel s e = Err Diverge).
Proof.
  intros s L e C He. set (N := length L).
  (* look for the first content entry among the first N steps *)
  assert (Hsearch : forall m, (exists n c, (n < m)%nat /\ chain s n e = Ok c /\ is_redirect c = false /\ forall k a, (k < n)%nat -> chain s k e = Ok a -> is_redirect a = true) \/
                     (forall k a, (k < m)%nat -> chain s k e = Ok a -> is_redirect a = true)).
  { induction m as [|m [(n & c & Hn & H)|Hall]].
    - right. intros k a Hk. lia.
    - left. exists n, c. split; [lia|exact H].
    - destruct (chain_stays s L e C He m Hall) as (a & Ha & _). destruct (is_redirect a) eqn:Er.
      + right. intros k b Hk Hb. destruct (Nat.eq_dec k m) as [->|]; [congruence|]. apply (Hall k b); [lia|exact Hb].
      + left. exists m, a. split; [lia|]. auto. }
  destruct (Hsearch N) as [(n & c & Hn & Hc & Hcr & Hk)|Hall].
  - left. exists n, c. split; [unfold zlen; lia|]. split; [exact Hc|]. split.
    { destruct (chain_stays s L e C He n Hk) as (a & Ha & Hin). congruence. }
    split; [exact Hcr|]. intros fuel Hf. eapply resolve_chain; eauto.
  - right.
    (* N + 1 entries of the chain lie in L, so two coincide *)
    set (f := fun k => match chain s k e with Ok a => a | Err _ => e end).
    assert (Hf : forall k, (k <= N)%nat -> chain s k e = Ok (f k) /\ In (f k) L).
    { intros k Hk. destruct (chain_stays s L e C He k) as (a & Ha & Hin); [intros k' b Hk'; apply Hall; lia|]. unfold f. rewrite Ha. auto. }
    destruct (not_nodup f (S N)) as (i & j & Hij & Eij).
    { intro Hnd. assert (HI : incl (map f (seq 0 (S N))) L).
      { intros x Hx. apply in_map_iff in Hx as (k & <- & Hk). apply in_seq in Hk. apply Hf. lia. }
      pose proof (NoDup_incl_length Hnd HI) as Hl. rewrite map_length, seq_length in Hl. unfold N in Hl. lia. }
    assert (Hper : forall k, exists a, chain s k e = Ok a /\ In a L /\ is_redirect a = true).
    { intro k. induction k as [k IH] using (well_founded_induction Nat.lt_wf_0).
      destruct (Nat.lt_ge_cases k N) as [Hlt|Hge].
      - destruct (Hf k ltac:(lia)) as [Ha Hin]. exists (f k). split; [exact Ha|]. split; [exact Hin|]. apply (Hall k); assumption.
      - (* k = j + m, same as i + m *)
        destruct (IH (i + (k - j))%nat ltac:(lia)) as (a & Ha & Hin & Hr). exists a. split; [|auto].
        destruct (Hf i ltac:(lia)) as [Hi _]. destruct (Hf j ltac:(lia)) as [Hj _].
        replace k with (j + (k - j))%nat by lia. rewrite (chain_add j (k - j) s e (f j) Hj), <- Eij, <- (chain_add i (k - j) s e (f i) Hi). exact Ha. }
    split; [exact Hper|]. intro fuel. apply resolve_never. intro k. destruct (Hper k) as (a & Ha & _ & Hr). eauto.
Qed.

(** ** Metadata keys *)
Lemma metadata_take : forall s LB i, (forall k e, znth LB k = Some e -> (do p <- get_by_index (pl_ptrs (z_upl s)) (i + k) ;; get_entry_at s p) = Ok e) ->
  (* once the namespace has changed it does not come back *)
  (forall A e B, LB = A ++ e :: B -> e_ns e <> NS_M -> forall d, In d B -> e_ns d <> NS_M) ->
  metadata_loop s (length LB) i = Ok (map e_url (filter (fun e => ueqb (e_ns e) NS_M) LB)).
Proof.
  intros s LB. induction LB as [|e LB IH]; intros i H Hs; [reflexivity|]. cbn [length metadata_loop filter].
  pose proof (H 0 e eq_refl) as H0. rewrite Z.add_0_r in H0. destruct (get_by_index (pl_ptrs (z_upl s)) i) as [p|x]; [|discriminate]. cbn [bind] in *. rewrite H0. cbn [bind].
  destruct (ueqb (e_ns e) NS_M) eqn:En.
  - rewrite (IH (i + 1)); [reflexivity| |].
    + intros k d Hk. replace (i + 1 + k) with (i + (k + 1)) by lia. apply H. pose proof (znth_some _ _ _ Hk).
      change (e :: LB) with ([e] ++ LB). rewrite znth_app_r by (change (zlen [e]) with 1; lia). change (zlen [e]) with 1. replace (k + 1 - 1) with k by lia. exact Hk.
    + intros A x B E. apply (Hs (e :: A) x B). rewrite E. reflexivity.
  - apply ueqb_neq in En. replace (filter (fun e => ueqb (e_ns e) NS_M) LB) with (@nil entry); [reflexivity|].
    symmetry. pose proof (Hs [] e LB eq_refl En) as HB. clear - HB. induction LB as [|d LB IH]; [reflexivity|]. cbn [filter].
    replace (ueqb (e_ns d) NS_M) with false by (symmetry; apply ueqb_neq; apply HB; left; reflexivity). apply IH. intros x Hx. apply HB. right. exact Hx.
Qed.

Lemma ns_char : forall e, entry_storable e -> exists c, e_ns e = [c].
Proof.
  intros e (_ & (x & Hx) & _). destruct (e_ns e) as [|c [|d r]]; cbn in Hx; [discriminate|eauto|]. exfalso.
  destruct (enc1 c) as [b1|] eqn:E1; [|discriminate]. destruct (enc1 d) as [b2|] eqn:E2; [|discriminate]. destruct (utf8_encode r) as [b3|]; [|discriminate].
  injection Hx as Hx. assert (Hl : length (b1 ++ b2 ++ b3) = 1%nat) by (rewrite Hx; reflexivity). rewrite !app_length in Hl.
  assert (H1 : forall c b, enc1 c = Some b -> (1 <= length b)%nat).
  { clear. intros c b H. unfold enc1 in H. repeat (match type of H with (if ?x then _ else _) = _ => destruct x end); try discriminate; injection H as <-; cbn; lia. }
  pose proof (H1 _ _ E1). pose proof (H1 _ _ E2). lia.
Qed.

Theorem metadata_keys_ok : forall s L, consistent s L -> get_metadata_keys s = Ok (map e_url (filter (fun e => ueqb (e_ns e) NS_M) L)).
Proof.
  intros s L C. pose proof C as [(cells & EL & Co) _ _ _ _]. unfold get_metadata_keys.
  destruct (utf8_encode NS_M) as [kM|] eqn:EM; [|discriminate]. rewrite (encode_some _ _ EM). cbn [bind].
  destruct (find_first_ge_spec (url_key s) (pl_ptrs (z_upl s)) kM (map (fun c => enc (full_url (snd c))) cells)) as (r & Hr & Hsp).
  { rewrite (co_locs _ _ Co). apply stored_cells_url_keys. apply (co_stored _ _ Co). }
  { apply url_sorted_keys; [eapply stored_storable; apply (co_stored _ _ Co)|apply (co_sorted _ _ Co)]. }
  rewrite Hr. cbn [bind]. destruct Hsp as (Hrb & Hlo & Hhi). rewrite zlen_map in Hrb.
  assert (Hcmp : forall k e, znth L k = Some e -> exists c, e_ns e = [c] /\ (k < r -> c < 77) /\ (r <= k -> 77 <= c)).
  { intros k e Hk. pose proof (consistent_storable _ _ _ C (znth_in _ _ _ Hk)) as Hs. destruct (ns_char e Hs) as [c Hc]. exists c. split; [exact Hc|].
    assert (Hz : znth (map (fun c => enc (full_url (snd c))) cells) k = Some (enc (full_url e))).
    { rewrite <- EL, znth_map in Hk. rewrite znth_map. destruct (znth cells k) as [d|]; [|discriminate]. cbn in *. injection Hk as ->. reflexivity. }
    assert (Hb : bltb (enc (full_url e)) kM = (c <? 77)).
    { rewrite (utf8_order _ _ _ _ (enc_full_url _ Hs) EM). unfold full_url. rewrite Hc. cbn [app NS_M ultb]. destruct (e_url e); cbn [ultb]; rewrite andb_false_r, orb_false_r; reflexivity. }
    split; intro Hkr.
    - specialize (Hlo k _ Hkr Hz). rewrite Hb in Hlo. lia.
    - specialize (Hhi k _ Hkr Hz). rewrite Hb in Hhi. lia. }
  assert (LnL : zlen (pl_ptrs (z_upl s)) = zlen L) by (rewrite (co_locs _ _ Co), <- EL, !zlen_map; reflexivity).
  assert (Lc : zlen cells = zlen L) by (rewrite <- EL, zlen_map; reflexivity).
  set (LA := firstn (Z.to_nat r) L). set (LB := skipn (Z.to_nat r) L).
  assert (ES : L = LA ++ LB) by (symmetry; apply firstn_skipn).
  assert (LenA : zlen LA = r). { unfold zlen, LA. rewrite firstn_length. unfold zlen in *. lia. }
  assert (LenB : length LB = Z.to_nat (zlen L - r)). { unfold LB. rewrite skipn_length. unfold zlen in *. lia. }
  assert (HB : forall k e, znth LB k = Some e -> znth L (r + k) = Some e).
  { intros k e Hk. pose proof (znth_some _ _ _ Hk). rewrite ES, znth_app_r by lia. rewrite LenA. replace (r + k - r) with k by lia. exact Hk. }
  assert (HA : forall e, In e LA -> ueqb (e_ns e) NS_M = false).
  { intros e He. apply in_znth in He as [k Hk]. pose proof (znth_some _ _ _ Hk). destruct (Hcmp k e) as (c & Hc & Hl & _).
    { rewrite ES, znth_app_l by lia. exact Hk. } rewrite Hc. apply ueqb_neq. unfold NS_M. intro E. injection E as ->. specialize (Hl ltac:(lia)). lia. }
  rewrite LnL, <- LenB. rewrite metadata_take.
  - f_equal. f_equal. rewrite ES at 1. rewrite filter_app. replace (filter (fun e => ueqb (e_ns e) NS_M) LA) with (@nil entry); [reflexivity|].
    symmetry. clear - HA. induction LA as [|x l IH]; [reflexivity|]. cbn [filter]. rewrite (HA x (or_introl eq_refl)). apply IH. intros e He. apply HA. right. exact He.
  - intros k e Hk. apply HB in Hk. rewrite <- EL, znth_map in Hk. destruct (znth cells (r + k)) as [d|] eqn:Ed; [|discriminate]. injection Hk as <-.
    rewrite (by_index_ok _ _ _ _ Co Ed). cbn [bind]. apply stored_read. eapply core_nth; eauto.
  - intros A e B E Hne d Hd. pose proof (consistent_sorted _ _ C) as So.
    assert (Hze : znth L (r + zlen A) = Some e). { apply HB. rewrite E. apply znth_mid. }
    apply in_znth in Hd as [k Hk]. pose proof (znth_some _ _ _ Hk). pose proof (zlen_nonneg A).
    assert (Hzd : znth L (r + (zlen A + (k + 1))) = Some d).
    { apply HB. rewrite E, znth_app_r by lia. replace (zlen A + (k + 1) - zlen A) with (k + 1) by lia.
      change (e :: B) with ([e] ++ B). rewrite znth_app_r by (change (zlen [e]) with 1; lia). change (zlen [e]) with 1. replace (k + 1 - 1) with k by lia. exact Hk. }
    assert (Hlt : url_lt e d) by (eapply (ssorted_znth url_lt _ So); [exact Hze|exact Hzd|lia]).
    destruct (Hcmp _ _ Hze) as (c & Hc & _ & Hge). destruct (Hcmp _ _ Hzd) as (c' & Hc' & _ & _). specialize (Hge ltac:(lia)).
    unfold url_lt, full_url in Hlt. rewrite Hc, Hc' in Hlt. cbn [app ultb] in Hlt. rewrite Hc in Hne. rewrite Hc'. unfold NS_M in *. intro E'. injection E' as ->.
    assert (c <> 77) by congruence. lia.
Qed.

(** ** Bytes *)
Theorem add_bytes : forall s L w n s', consistent s L -> addable L w -> write_entry (S (S n)) w s = (Ok tt, s') ->
  exists off, 
    (forall x, off <= x < off + span (w_entry w) -> ~ in_use (z_alloc s) x /\ in_use (z_alloc s') x) /\
    (forall x, in_use (z_alloc s) x -> in_use (z_alloc s') x) /\
    (forall x, 0 <= x < zlen (z_file s) -> in_use (z_alloc s) x -> outside s (full_url (w_entry w)) x ->
       nth_error (z_file s') (Z.to_nat x) = nth_error (z_file s) (Z.to_nat x)).
Proof.
  intros s L w n s' C A W. destruct (add_cases _ _ _ _ _ _ C A W) as [(_ & LA & LB & a & EL & _ & _ & _ & D)|[H _]]; [|discriminate].
  destruct D as (L' & off & C' & Ln & R & Hp & _ & _ & Hu & Hn & K & _). exists off. split; [|split].
  - intros x Hx. split; [apply Hn; exact Hx|apply Hu; right; exact Hx].
  - intros x Hx. apply Hu. left. exact Hx.
  - intros x Hb Hx Ho. apply K; auto.
Qed.

Theorem edit_bytes : forall s L i e0 w n s', consistent s L -> rewritable s L i e0 w -> stays e0 (w_entry w) \/ movable s L i e0 (w_entry w) ->
  write_entry (S (S n)) w s = (Ok tt, s') ->
  forall x, 0 <= x < zlen (z_file s) -> in_use (z_alloc s) x -> outside s (full_url e0) x ->
    in_use (z_alloc s') x /\ nth_error (z_file s') (Z.to_nat x) = nth_error (z_file s) (Z.to_nat x).
Proof.
  intros s L i e0 w n s' C RW Hc W x Hb Hx Ho.
  assert (ST : stays e0 (w_entry w) \/ (~ stays e0 (w_entry w) /\ movable s L i e0 (w_entry w))).
  { destruct Hc as [Hc|Hc]; [left; exact Hc|]. destruct (Z.eq_dec (span (w_entry w)) (span e0)), (list_eq_dec Z.eq_dec (full_url (w_entry w)) (full_url e0)).
    - left. split; assumption.
    - right. split; [|exact Hc]. intros []. contradiction.
    - right. split; [|exact Hc]. intros []. contradiction.
    - right. split; [|exact Hc]. intros []. contradiction. }
  destruct ST as [ST|[NS MV]].
  - destruct (rewrite_ok s L i e0 w (S n) C RW ST) as (a & s1 & _ & W1 & (LA & e1 & LB & _ & _ & _ & _ & _ & Eal & _ & K & _)).
    rewrite W in W1. injection W1 as <-. split; [rewrite Eal; exact Hx|]. apply K; [exact Hb|]. destruct ST as [-> _]. exact Ho.
  - destruct (move_cases _ _ _ _ _ _ _ _ C RW NS MV W) as [(_ & LA & LB & a & _ & _ & _ & D)|[H _]]; [|discriminate].
    destruct D as (L' & p0 & e1 & off & Hz & Hp0 & Hg & _ & _ & _ & _ & _ & _ & Hu & _ & K & _).
    rewrite (rw_at _ _ _ _ _ RW) in Hz. injection Hz as <-. split; [|apply K; auto]. apply Hu. left. split; [exact Hx|].
    apply (Ho p0 e0 Hp0 Hg). left. reflexivity.
Qed.

Theorem remove_bytes : forall s L i e0 n s', consistent s L -> removable s L i e0 -> remove_entry keep_blob (S (S n)) (full_url e0) s = (Ok tt, s') ->
  forall x, 0 <= x < zlen (z_file s) -> outside s (full_url e0) x ->
    (in_use (z_alloc s) x -> in_use (z_alloc s') x) /\ nth_error (z_file s') (Z.to_nat x) = nth_error (z_file s) (Z.to_nat x).
Proof.
  intros s L i e0 n s' C RM W x Hb Ho. destruct (remove_cases _ _ _ _ _ _ _ C RM W) as [[_ D]|[H _]]; [|discriminate].
  destruct D as (L' & p0 & e1 & Hz & Hp0 & Hg & _ & _ & _ & _ & _ & _ & Hu & K & _). rewrite (rm_at _ _ _ _ RM) in Hz. injection Hz as <-.
  split; [|apply K; assumption]. intro Hx. apply Hu. split; [exact Hx|]. apply (Ho p0 e0 Hp0 Hg). left. reflexivity.
Qed.

(** ** The entries of an archive are determined by iteration *)
Definition entries (s : zim) : list entry := match iter_entries s None None with Ok l => l | Err _ => [] end.
Lemma consistent_entries : forall s L, consistent s L -> L = entries s.
Proof. intros s L C. unfold entries. rewrite (entries_ok s L C). reflexivity. Qed.

Lemma add_step : forall s w s', consistent s (entries s) -> addable (entries s) w -> write_entry 2 w s = (Ok tt, s') -> consistent s' (entries s').
Proof.
  intros s w s' C A W. destruct (add_outcome s _ w 0 C A) as [(s1 & L' & W1 & C' & _)|(_ & s1 & W1)]; rewrite W in W1; [|discriminate].
  injection W1 as <-. rewrite <- (consistent_entries s' L' C'). exact C'.
Qed.
Lemma main_step : forall s m, consistent s (entries s) -> 0 <= m < zlen (entries s) -> consistent (set_main (Some m) s) (entries s).
Proof.
  intros s m [(cells & E & C) H1 H2 H3 H4] Hm. constructor; auto.
  - exists cells. split; [exact E|]. apply core_set_main. exact C.
  - intros m' E'. injection E' as <-. exact Hm.
Qed.
