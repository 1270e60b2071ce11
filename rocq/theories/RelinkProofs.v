(** A redirect is written over another one; the operation buffer with several redirects for the main page. *)
From Coq Require Import List ZArith Bool Lia Permutation Strings.Byte.
From Coq Require Import ZifyBool ZifyNat.
From Verif Require Import Base BaseProofs Utf8 Utf8Proofs Dict Infobyte Header HeaderSpec HeaderProofs MimeTypeList MimeTypeListSpec MimeTypeListProofs PointerList PointerListProofs
  SpaceAllocator SpaceAllocatorSpec SpaceAllocatorProofs Entry EntrySpec EntryProofs Reader ReaderSpec Blob Cluster ClusterSpec ClusterProofs ClusterWrapper ClusterWrapperSpec ClusterWrapperProofs
  Archive ArchiveSpec ArchiveProofs ArchiveWriteProofs ArchiveMoveProofs ArchiveRemoveProofs ArchiveObserve ArchiveFacts ArchiveLaws ArchiveEdit ArchiveCluster ArchiveClusterSpec ArchiveClusterProofs ArchiveFrame ArchiveEntryCluster ArchiveEditCluster
  CompressionStrategy CompressionStrategySpec CompressionStrategyProofs OperationBuffer OperationBufferSpec OperationBufferProofs EntryObject EntryObjectSpec EntryObjectProofs
  Flush FlushSpec FlushProofs FlushTailProofs FlushOpenProofs FlushHistorySpec FlushHistoryProofs ViewSpec ViewProofs ViewEditProofs ViewStepProofs ViewWaitProofs.
Import ListNotations.
Open Scope Z_scope.

(** What the archive is after the redirect at [u] was replaced by [e]. *)
Record relinked (s : zim) (u : ustr) (e : entry) (s' : zim) : Prop := mkRelinked {
  rl_new : exists e', get_entry_by_full_url s' u = Ok e' /\ e_title e' = e_title e /\ target_url s' e' = target_url s e;
  rl_others : forall v d, v <> u -> get_entry_by_full_url s v = Ok d -> exists d', get_entry_by_full_url s' v = Ok d' /\ same_entry d d' /\ target_url s' d' = target_url s d;
  rl_missing : forall v, v <> u -> get_entry_by_full_url s v = Err EntryNotFound -> get_entry_by_full_url s' v = Err EntryNotFound;
  rl_articles : forall us, article_urls s = Some us -> exists us', article_urls s' = Some us' /\ forall x, In x us' <-> x <> u /\ In x us }.

Lemma relink_setup : forall s L u e e0 i r, consistent s L -> znth L i = Some e0 -> full_url e0 = u -> full_url e = u -> entry_storable e -> e_mimetype e = MIMETYPE_ID_REDIRECT -> e_kind e = Redirect r -> 0 <= r < i -> e_ns e <> NS_C ->
  (forall x, ~ points s x u) -> rewritable s L i e0 (fresh e) /\ movable s L i e0 e /\ is_article s (fresh e) = Ok false.
Proof.
  intros s L u e e0 i r C Hi Hu Hue ST MI EK RI NC NP.
  assert (IA : is_article s (fresh e) = Ok false) by (unfold is_article; cbn [fresh w_force w_entry]; destruct (ueqb (e_ns e) NS_C) eqn:Q; [apply ueqb_eq in Q; contradiction|reflexivity]).
  pose proof (znth_some _ _ _ Hi) as Hb.
  assert (NR : forall d, In d L -> e_kind d <> Redirect i).
  { intros d Hd Hk. apply (NP (full_url d)). exists d. split; [apply (lookup_iff _ _ _ _ C); auto|]. apply (target_iff _ _ _ _ C). exists i, e0. auto. }
  split; [|split; [|exact IA]].
  - constructor; cbn [fresh w_entry w_old_url]; auto.
    + congruence.
    + unfold kind_consistent. rewrite EK. exact MI.
    + left. congruence.
    + intros q Q. rewrite EK in Q. injection Q as <-. lia.
    + exists false. split; [exact IA|discriminate].
  - constructor.
    + apply NR. eapply PointerListProofs.znth_in. exact Hi.
    + intros q Q. rewrite EK in Q. injection Q as <-. lia.
    + intros d Hd _ Q. exfalso. exact (NR d Hd Q).
    + intros _. congruence.
Qed.
Lemma relink_law : forall s L u e e0 i r n s', consistent s L -> znth L i = Some e0 -> full_url e0 = u -> full_url e = u -> entry_storable e -> e_mimetype e = MIMETYPE_ID_REDIRECT -> e_kind e = Redirect r -> 0 <= r < i -> e_ns e <> NS_C ->
  (forall x, ~ points s x u) -> write_entry (S (S n)) (fresh e) s = (Ok tt, s') -> relinked s u e s'.
Proof.
  intros s L u e e0 i r n s' C Hz Hu Hue ST MI EK RI NC NP W. destruct (relink_setup s L u e e0 i r C Hz Hu Hue ST MI EK RI NC NP) as (RW & MV & Ha).
  pose proof (consistent_sorted _ _ C) as So. assert (Huu : full_url e = full_url e0) by congruence. pose proof (znth_some _ _ _ Hz) as Hib.
  assert (TG : forall d, target_url s d = Some u -> In d L -> False).
  { intros d Hd Hi. apply (NP (full_url d)). exists d. split; [apply (lookup_iff _ _ _ _ C); auto|exact Hd]. }
  assert (TE : target_url s e <> Some u).
  { intro Q. apply (target_iff _ _ _ _ C) in Q as (k & t & Q1 & Q2 & Q3). rewrite EK in Q1. injection Q1 as <-. assert (r = i) by (eapply url_unique; [exact So|exact Q2|exact Hz|congruence]). lia. }
  destruct (Z.eq_dec (span e) (span e0)) as [Hsp|Hsp].
  - destruct (rewrite_ok s L i e0 (fresh e) (S n) C RW (conj Huu Hsp)) as (a' & s1 & Ha' & W1 & D). rewrite W in W1. injection W1 as <-. rewrite Ha in Ha'. injection Ha' as <-.
    destruct (edit_in_place s L i e0 (fresh e) (S n) C RW (conj Huu Hsp)) as (s1 & W1 & CC & G & TT & O & MS & _). rewrite W in W1. injection W1 as <-. cbn [fresh w_entry] in *.
    destruct D as (LA & e1 & LB & EL & Hi & C' & _ & _ & _ & Hat & _). pose proof Hz as Hz'. rewrite EL, <- Hi, znth_mid in Hz'. injection Hz' as ->.
    constructor.
    + exists e. rewrite <- Hu. auto.
    + intros v d Hv Hd. destruct (O v d) as (O1 & O2); [congruence|exact Hd|]. exists d. split; [exact O1|]. split; [apply same_refl|exact O2].
    + auto.
    + intros us Hus. destruct (article_urls_ok s' _ C') as (us' & Hus' & Nd'). exists us'. split; [exact Hus'|].
      intro x. rewrite (article_urls_in s' _ us' C' Hus'), (article_urls_in s L us C Hus). split.
      * intros (k & y & Hk & He & <-). apply Hat in Hk as [[_ Ht]|[Hne Hk]]; [discriminate Ht|].
        rewrite <- Hi in Hne. assert (Hk' : znth L k = Some y) by (rewrite EL; rewrite <- He; apply znth_mid_other; exact Hne).
        split; [|exists k, y; auto]. intro Hx. apply Hne. rewrite Hi. eapply url_unique; [exact So|exact Hk'|exact Hz|congruence].
      * intros [Hne (k & y & Hk & He & <-)]. exists k, y. assert (k <> i) by (intros ->; rewrite Hz in He; injection He as <-; congruence). split; [apply Hat; right; auto|]. split; [|reflexivity].
        rewrite EL in He. eapply rewritten_nth; [exact He|congruence].
  - assert (NS : ~ stays e0 (w_entry (fresh e))) by (intros [H1 H2]; contradiction).
    destruct (edit_moved s L i e0 (fresh e) n s' C RW NS MV W) as ((L1 & C1) & (e' & G & Hs & T') & O). cbn [fresh w_entry] in *.
    destruct (move_ok s L i e0 (fresh e) n C RW NS MV) as (LA & LB & (MA & MB & EM & Hi & EML) & _ & _ & a' & Ha' & [(s1 & W1 & D)|(s1 & p & Hp & Hl & W1)]); rewrite W in W1; [|discriminate W1].
    injection W1 as <-. rewrite Ha in Ha'. injection Ha' as <-. cbn [fresh w_entry] in *.
    destruct D as (L' & p0 & e00 & off & Hz2 & _ & _ & C' & Ln & Hoth & Hmid & Hat & _). rewrite Hz in Hz2. injection Hz2 as <-. cbn [fresh w_entry] in *.
    set (j := zlen LA) in *. assert (Hjb : 0 <= j < zlen L).
    { assert (zlen L = zlen (LA ++ LB) + 1) by (rewrite EM, <- EML, !zlen_app, zlen_cons; lia). unfold j. rewrite zlen_app in *. pose proof (zlen_nonneg LA). pose proof (zlen_nonneg LB). lia. }
    assert (ONTO : forall e1, In e1 L' -> full_url e1 = u \/ exists k y, k <> i /\ znth L k = Some y /\ full_url y = full_url e1).
    { intros e1 H1. apply in_znth in H1 as [k Hk]. destruct (Z.eq_dec k j) as [->|Hkj].
      - left. destruct Hmid as (e2 & H2 & Hs2 & _). rewrite Hk in H2. injection H2 as <-. rewrite <- Hue. apply same_url. exact Hs2.
      - right. pose proof (znth_some _ _ _ Hk) as Hb. rewrite Ln in Hb. destruct (move_ptr_onto (zlen L) i j k Hib Hjb Hb Hkj) as (k0 & B0 & N0 & E0).
        destruct (znth_ex L k0 B0) as [y He]. destruct (Hoth k0 y He N0) as (e2 & H2 & Hs2 & _). rewrite E0, Hk in H2. injection H2 as <-.
        exists k0, y. split; [exact N0|]. split; [exact He|]. symmetry. apply same_url. exact Hs2. }
    assert (REN : forall d, In d L \/ d = e -> option_map (renamed (full_url e0) (full_url e)) (target_url s d) = target_url s d).
    { intros d Hd. destruct (target_url s d) as [t|] eqn:Et; [|reflexivity]. cbn [option_map]. f_equal. unfold renamed. destruct (ueqb t (full_url e0)) eqn:Eq; [|reflexivity].
      apply ueqb_eq in Eq. exfalso. destruct Hd as [Hd| ->]; [eapply TG; [|exact Hd]; congruence|apply TE; congruence]. }
    constructor.
    + exists e'. rewrite <- Hue. split; [exact G|]. split; [destruct Hs as (_ & _ & _ & Q & _); congruence|]. rewrite T'. apply REN. auto.
    + intros v d Hv Hd. destruct (O v d) as (d' & O1 & O2 & O3); [congruence|exact Hd|]. exists d'. split; [exact O1|]. split; [exact O2|]. rewrite O3. apply REN. left. exact (proj1 (proj1 (lookup_iff _ _ _ _ C) Hd)).
    + intros v Hv H. destruct (utf8_encode v) as [b|] eqn:Eb; [|rewrite (lookup_unencodable s v Eb) in H; discriminate].
      apply (missing_iff _ _ _ _ C' Eb). intros e1 H1 Hq. destruct (ONTO e1 H1) as [E|(k & y & Hne & He & E)]; [congruence|]. apply (missing_iff _ _ _ _ C Eb) in H. apply (H y); [eapply PointerListProofs.znth_in; exact He|congruence].
    + intros us Hus. destruct (article_urls_ok s' _ C') as (us' & Hus' & Nd'). exists us'. split; [exact Hus'|].
      intro x. rewrite (article_urls_in s' _ us' C' Hus'), (article_urls_in s L us C Hus). split.
      * intros (k & y & Hk & He & <-). apply Hat in Hk as [[_ Ht]|(k0 & Hk0 & Hne & ->)]; [discriminate Ht|].
        pose proof C as [(cells & EC & Co) _ _ _ _]. destruct (lists_in _ _ _ _ (co_atpl _ _ Co) Hk0) as [e1 He1]. rewrite EC in He1.
        destruct (Hoth k0 e1 He1 Hne) as (e2 & H2 & Hs2 & _). rewrite H2 in He. injection He as <-. rewrite (same_url _ _ Hs2). split;
          [intro Hx; apply Hne; eapply url_unique; [exact So|exact He1|exact Hz|congruence]|exists k0, e1; auto].
      * intros [Hne (k & y & Hk & He & <-)]. assert (Hki : k <> i) by (intros ->; rewrite Hz in He; injection He as <-; congruence). destruct (Hoth k y He Hki) as (e2 & H2 & Hs2 & _).
        exists (move_ptr i j k), e2. split; [apply Hat; right; exists k; auto|]. split; [exact H2|apply same_url; exact Hs2].
Qed.

Section Pages.
Variables (s : zim) (E : list entry) (X : list (option (list bytes))) (types : list bytes) (W : list (item * bytes)) (R : list rop) (V : view).
Hypothesis C : consistent s E.
Hypothesis AN : anchored s.
Hypothesis T : table s E X types W R V.

Lemma relink_table : forall s' E' u e p q t, consistent s' E' -> steady s s' -> relinked s u e s' -> exists_at s u -> ~ listing s u -> V u = Some p -> (forall x y, V x = Some y -> pg_body y <> Link u) ->
  e_title e = Some (pg_title q) -> pg_body q = Link t -> target_url s e = Some t -> pg_article q = false -> table s' E' X types W R (vput u (Some q) V).
Proof.
  intros s' E' u e p q t C' SD [(e' & G' & T1 & T2) EOth EMis EArt] EXu NLu Vu NK TI BQ TE AQ. set (V' := vput u (Some q) V). destruct (article_urls_ok _ _ C) as (us & U0 & _).
  destruct (EArt us U0) as (us' & U1 & AR). pose proof (sd_listing _ _ SD) as LI. pose proof (fun c b => steady_blob s s' c b AN SD) as LB.
  assert (VO : forall x, x <> u -> V' x = V x) by (intros x N; apply vput_other; exact N). assert (VV : V' u = Some q) by apply vput_same.
  assert (ABU : forall x, absent E x -> x <> u) by (intros x Ha Q; subst x; exact (not_both s E u C EXu Ha)).
  assert (AB : forall x, absent E x -> absent E' x).
  { intros x Ha. apply (absent_exists _ _ _ C'). intro Q. apply (taken_before s E s' x C (EMis x (ABU x Ha))) in Q. exact (not_both s E x C Q Ha). }
  constructor.
  - intros x y Hy NL. rewrite LI in NL. destruct (list_eq_dec Z.eq_dec x u) as [->|Nu].
    + left. rewrite VV in Hy. injection Hy as <-. exists e'. split; [exact G'|]. split; [congruence|]. split.
      * intros us2 Q. rewrite U1 in Q. injection Q as <-. rewrite AR, AQ. split; [tauto|discriminate].
      * rewrite BQ. congruence.
    + rewrite VO in Hy by assumption. destruct (tb_page _ _ _ _ _ _ _ T x y Hy NL) as [S|[S|S]]; [left|auto|auto].
      eapply shown_kept; [exact S|exact U0|exact U1|intros y0 He; exact (EOth x y0 Nu He)| |exists []; symmetry; apply app_nil_r|intros; eauto|exact LB]. rewrite AR. tauto.
  - intros x y G. rewrite LI. destruct (list_eq_dec Z.eq_dec x u) as [->|Nu]; [right; rewrite VV; discriminate|].
    destruct (taken_before s E s' x C (EMis x Nu)) as (e1 & G1); [exists y; exact G|]. rewrite VO by assumption. exact (tb_only _ _ _ _ _ _ _ T x e1 G1).
  - intros it dd Hi. destruct (tb_waiting _ _ _ _ _ _ _ T it dd Hi) as (V1 & V2 & V3 & V4). pose proof (ABU _ V2) as N1. rewrite VO, LI by assumption. auto.
  - intros r Hr. destruct (tb_buffer _ _ _ _ _ _ _ T r Hr) as (V1 & V2 & V3 & V4 & V5 & V6). pose proof (ABU _ V2) as N1.
    assert (N3 : rtarget r <> u) by (intro Q; apply (NK _ _ V1); cbn [link_page pg_body]; congruence).
    destruct (link_kept V V' r V4) as (LP & V4'); [intros _; apply VO; exact N3|].
    rewrite (VO (rsource r)) by assumption. rewrite LP, !LI. split; [exact V1|]. split; [auto|]. split; [exact V3|]. split; [exact V4'|]. auto.
  - exact (tb_distinct _ _ _ _ _ _ _ T).
Qed.
End Pages.

Lemma main_rewritten : forall n s cells X types W R V r b s' p x, core s cells -> consistent s (map snd cells) -> anchored s -> table s (map snd cells) X types W R V -> zlen cells < 2 ^ 32 ->
  exists_at s URL_MAINPAGE_REDIRECT -> V URL_MAINPAGE_REDIRECT = Some p -> (forall y q, V y = Some q -> pg_body q <> Link URL_MAINPAGE_REDIRECT) ->
  rsource r = URL_MAINPAGE_REDIRECT -> rtarget r = NS_C ++ x -> sound r -> V (rtarget r) <> None -> exists_at s (rtarget r) ->
  add_full_url_redirect (S (S n)) (rsource r) (rtarget r) (wanted_title r) s = (Ok b, s') ->
  b = true /\ exists cells', entry_step s cells s' cells' /\ table s' (map snd cells') X types W R (vput URL_MAINPAGE_REDIRECT (Some (link_page V (rtarget r) (wanted_title r))) V) /\ steady s s' /\ zlen cells' <= zlen cells.
Proof.
  intros n s cells X types W R V r b s' p x CO C AN T HN EXm Vm NK RS RT [(ns & u & x0 & Es & Hns & Hu) [Ht0 [tb Htb]] Hd Hti] VT EXt EA. set (L := map snd cells) in *.
  change (source r) with (rsource r) in *. change (target r) with (rtarget r) in *.
  destruct EXt as (d & Gd). pose proof Gd as Gd0. apply (lookup_iff _ _ _ _ C) in Gd0 as (Hd1 & Hd2). destruct (in_znth _ _ Hd1) as [i Hi].
  set (t := match wanted_title r with Some t => t | None => title d end).
  assert (Hst : storable t).
  { unfold t. destruct (wanted_title r) as [t0|]; [auto|]. apply title_storable. eapply consistent_storable; eauto. }
  set (e := mkEntry MIMETYPE_ID_REDIRECT [ns] u (Some t) (Redirect i)).
  assert (MR : make_redirect s (rsource r) (rtarget r) (wanted_title r) = Ok (Some e)).
  { unfold make_redirect. replace (ueqb (rsource r) (rtarget r)) with false by (symmetry; apply ueqb_neq; exact Hd).
    rewrite Es. destruct (rtarget r) as [|t0 tr] eqn:Et; [contradiction|]. rewrite <- Et in *. rewrite <- Hd2 at 1. rewrite (url_index_in _ _ _ _ C Hi). rewrite Gd.
    unfold e, t. destruct (wanted_title r); reflexivity. }
  pose proof (znth_some _ _ _ Hi) as Hib.
  unfold add_full_url_redirect, query, mbind in EA. rewrite MR in EA. cbv beta iota in EA. destruct (write_entry (S (S n)) (fresh e) s) as [[[]|] s1] eqn:EW; [|discriminate EA]. injection EA as <- <-.
  split; [reflexivity|].
  destruct EXm as (e0 & G0). pose proof G0 as G0'. apply (lookup_iff _ _ _ _ C) in G0' as (HI0 & HU0). destruct (in_znth _ _ HI0) as [k Hk].
  assert (FE : full_url e = URL_MAINPAGE_REDIRECT) by (rewrite <- RS, Es; reflexivity).
  assert (NP : forall y, ~ points s y URL_MAINPAGE_REDIRECT).
  { intros y Q. destruct (list_eq_dec Z.eq_dec y URL_MAINPAGE_REDIRECT) as [->|Ny].
    - destruct (page_in_archive _ _ _ _ _ _ _ C T _ p Vm (main_not_listing s) ltac:(exists e0; exact G0)) as (e1 & G1 & _ & _ & B1). destruct Q as (d1 & G2 & TG). rewrite G1 in G2. injection G2 as <-.
      destruct (pg_body p) as [m dd|v] eqn:EB; [destruct B1 as (c & b1 & bl & EK & _); unfold target_url in TG; rewrite EK in TG; discriminate TG|]. rewrite TG in B1. injection B1 as <-. exact (NK _ _ Vm EB).
    - apply (no_links _ _ _ _ _ _ _ C AN T URL_MAINPAGE_REDIRECT y); [intros z q Hz Hq; destruct (NK z q Hz Hq)|exact Ny|exact Q]. }
  assert (LT : i < k).
  { pose proof (before_main (rtarget r) ltac:(rewrite RT; reflexivity)) as BM. destruct (Z_lt_le_dec i k) as [Q|Q]; [exact Q|]. exfalso. destruct (Z.eq_dec i k) as [->|N].
    - rewrite Hi in Hk. injection Hk as <-. apply Hd. congruence.
    - pose proof (ssorted_znth url_lt _ (consistent_sorted _ _ C) k i e0 d Hk Hi ltac:(lia)) as Q2. unfold url_lt in Q2. rewrite HU0, Hd2 in Q2. exact (ultb_asym _ _ BM Q2). }
  assert (ST : entry_storable e).
  { split; [cbn; unfold MIMETYPE_ID_REDIRECT; lia|]. cbn. split; [eauto|]. split; [exact Hu|]. split; [eauto|]. unfold L in Hib. rewrite zlen_map in Hib. lia. }
  assert (NC : e_ns e <> NS_C) by (cbn; rewrite RS in Es; injection Es as <- _; discriminate).
  pose proof (relink_law s L URL_MAINPAGE_REDIRECT e e0 k i n s1 C Hk HU0 FE ST eq_refl eq_refl ltac:(lia) NC NP EW) as RL.
  destruct (relink_setup s L URL_MAINPAGE_REDIRECT e e0 k i C Hk HU0 FE ST eq_refl eq_refl ltac:(lia) NC NP) as (RW & MV & _).
  destruct (rewrite_step s cells k e0 (fresh e) n s1 CO C RW MV EW) as (cells' & ES). exists cells'. pose proof (es_consistent _ _ _ _ ES) as C'.
  assert (SD : steady s s1).
  { constructor; [intro; apply tracks_listing; exact (es_tracks _ _ _ _ ES)|]. intros y e1 HL G1. destruct (rl_others _ _ _ _ RL y e1) as (e2 & G2 & S2 & _); [intros ->; exact (main_not_listing _ HL)|exact G1|]. eauto. }
  split; [exact ES|]. split; [|split; [exact SD|]].
  - eapply (relink_table s L X types W R V C AN T s1 _ _ e p _ (rtarget r) C' SD RL); [exists e0; exact G0|apply main_not_listing|exact Vm|exact NK| |reflexivity| |reflexivity].
    + unfold link_page. cbn [pg_title e e_title]. f_equal. unfold t. destruct (wanted_title r); [reflexivity|]. destruct (V (rtarget r)) as [pt|] eqn:EV; [|congruence].
      assert (NLT : ~ listing s (rtarget r)) by (rewrite RT; intro Q; apply listing_not_C in Q; discriminate Q).
      destruct (page_in_archive s L X types W R V C T _ pt EV NLT ltac:(exists d; exact Gd)) as (d' & Gd' & Td & _). rewrite Gd in Gd'. injection Gd' as <-. unfold title, shown_as. rewrite Td.
      destruct (pg_title pt); [|reflexivity]. rewrite <- Hd2. destruct (ns_char d (consistent_storable _ _ _ C Hd1)) as (c0 & En). unfold full_url. rewrite En. reflexivity.
    + unfold target_url. cbn. rewrite (proj2 (index_iff _ _ _ _ C) Hi). congruence.
  - assert (Q : (length (map full_url (map snd cells')) <= length (map full_url L))%nat).
    { apply NoDup_incl_length; [exact (consistent_nodup _ _ C')|]. intros v Hv. apply in_map_iff in Hv as (y & Q & Hy).
      assert (EV : exists_at s v). { destruct (list_eq_dec Z.eq_dec v URL_MAINPAGE_REDIRECT) as [->|Nv]; [exists e0; exact G0|].
        eapply (taken_before s L s1 v C (rl_missing _ _ _ _ RL v Nv)). exists y. apply (lookup_iff _ _ _ _ C'). auto. }
      destruct EV as (y1 & G1). apply (lookup_iff _ _ _ _ C) in G1 as (G1 & <-). apply in_map. exact G1. }
    unfold L in Q. rewrite !map_length in Q. unfold zlen. lia.
Qed.

(** ** Several redirects for the main page *)
Notation MP := URL_MAINPAGE_REDIRECT.
Definition others (R : list rop) : list rop := filter (fun r => negb (ueqb (rsource r) MP)) R.
Lemma others_in : forall r R, In r (others R) <-> In r R /\ rsource r <> MP.
Proof. intros r R. unfold others. rewrite filter_In. rewrite negb_true_iff, ueqb_neq. tauto. Qed.
Lemma others_main : forall r R, rsource r = MP -> others (r :: R) = others R.
Proof. intros r R Q. unfold others. cbn [filter]. rewrite Q. reflexivity. Qed.
Lemma others_other : forall r R, rsource r <> MP -> others (r :: R) = r :: others R.
Proof. intros r R Q. unfold others. cbn [filter]. apply ueqb_neq in Q. rewrite Q. reflexivity. Qed.

Lemma drop_main : forall s E X types W R V, consistent s E -> table s E X types W R V -> In MP (map rsource R) -> (forall x q, V x = Some q -> pg_body q <> Link MP) ->
  table s E X types W (others R) (vput MP None V).
Proof.
  intros s E X types W R V C T IM NK. apply in_map_iff in IM as (r0 & Q0 & H0). destruct (tb_buffer _ _ _ _ _ _ _ T r0 H0) as (_ & AB & _). rewrite Q0 in AB. constructor.
  - intros u p Hp NL. destruct (list_eq_dec Z.eq_dec u MP) as [->|Nu]; [rewrite vput_same in Hp; discriminate Hp|]. rewrite vput_other in Hp by exact Nu.
    destruct (tb_page _ _ _ _ _ _ _ T u p Hp NL) as [S|[S|S]]; auto. right. right. apply in_map_iff in S as (r & <- & Hr). apply in_map. apply others_in. auto.
  - intros u e G. destruct (list_eq_dec Z.eq_dec u MP) as [->|Nu]; [exfalso; apply (not_both s E MP C); [exists e; exact G|exact AB]|]. rewrite vput_other by exact Nu. exact (tb_only _ _ _ _ _ _ _ T u e G).
  - intros it d Hi. destruct (tb_waiting _ _ _ _ _ _ _ T it d Hi) as (V1 & V2 & V3 & V4). split; [|auto]. rewrite vput_other; [exact V1|]. intro Q.
    eapply NoDup_app_disjoint; [exact (tb_distinct _ _ _ _ _ _ _ T)|unfold urls_of; apply in_map_iff; exists (it, d); split; [reflexivity|exact Hi]|]. cbn [fst]. rewrite Q, <- Q0. apply in_map. exact H0.
  - intros r Hr. apply others_in in Hr as (Hr & Nr). destruct (tb_buffer _ _ _ _ _ _ _ T r Hr) as (V1 & V2 & V3 & V4 & V5 & V6).
    assert (N3 : rtarget r <> MP) by (intro Q; apply (NK _ _ V1); cbn [link_page pg_body]; congruence). destruct (link_kept V (vput MP None V) r V4) as (LP & V4'); [intros _; apply vput_other; exact N3|].
    rewrite LP. split; [rewrite vput_other by exact Nr; exact V1|auto 8].
  - pose proof (tb_distinct _ _ _ _ _ _ _ T) as ND. clear - ND. induction R as [|r R IH]; [exact ND|]. cbn [map] in ND. assert (ND2 : NoDup (urls_of W ++ map rsource R)) by (eapply NoDup_remove_1; exact ND). specialize (IH ND2).
    destruct (list_eq_dec Z.eq_dec (rsource r) MP) as [Q|Q]; [rewrite others_main by exact Q; exact IH|]. rewrite others_other by exact Q. cbn [map]. apply NoDup_remove_2 in ND.
    eapply Permutation_NoDup; [apply Permutation_middle|]. constructor; [|exact IH]. intro I. apply ND. apply in_app_or in I. apply in_or_app. destruct I as [I|I]; [auto|right]. apply in_map_iff in I as (r1 & Q1 & H1). rewrite <- Q1. apply in_map. apply others_in in H1. tauto.
Qed.

Section Buffer.
Variable process_blob : entry -> M zim unit.
Variable rounds : nat.
Variables (s0 : zim) (cells0 : list (Z * entry)) (X : list (option (list bytes))) (types : list bytes) (V : view) (nn : Z).
Hypothesis AN0 : anchored s0.
Hypothesis NN : nn + 1 < 2 ^ 32.
Hypothesis NK : forall x q, V x = Some q -> x <> MP -> pg_body q <> Link MP.
Definition mstate (o : buffered) (T : list rop) : Prop := exists cells Vm, entry_step s0 cells0 (b_zim o) cells /\ steady s0 (b_zim o) /\
  table (b_zim o) (map snd cells) X types [] (others (T ++ b_redirects o)) Vm /\ (forall x, x <> MP -> Vm x = V x) /\
  (Vm MP = None \/ exists_at (b_zim o) MP /\ exists p x, Vm MP = Some p /\ pg_body p = Link (NS_C ++ x)) /\
  (forall r, In r (T ++ b_redirects o) -> rsource r = MP -> sound r /\ (exists x, rtarget r = NS_C ++ x) /\ V (rtarget r) <> None) /\
  zlen cells + zlen (T ++ b_redirects o) <= nn.

Lemma mstate_links : forall Vm, (forall x, x <> MP -> Vm x = V x) -> (Vm MP = None \/ exists p x, Vm MP = Some p /\ pg_body p = Link (NS_C ++ x)) -> forall y q, Vm y = Some q -> pg_body q <> Link MP.
Proof.
  intros Vm VO VM y q Hq. destruct (list_eq_dec Z.eq_dec y MP) as [->|Ny].
  - destruct VM as [Q|(p & x & Q & B)]; [congruence|]. rewrite Q in Hq. injection Hq as <-. rewrite B. discriminate.
  - rewrite VO in Hq by exact Ny. exact (NK y q Hq Ny).
Qed.
Lemma mbuffer_one : forall n r T o o', mstate o (r :: T) -> add_redirect (S (S n)) r o = (Ok tt, o') -> mstate o' T /\ b_main o' = b_main o.
Proof.
  intros n r T o o' (cells & Vm & ES & SD & TB & VO & VM & RM & Z) E. pose proof (es_consistent _ _ _ _ ES) as C. pose proof (es_core _ _ _ _ ES) as CO. pose proof (steady_anchored _ _ AN0 SD) as AN.
  rewrite add_redirect_eq in E. cbn [app] in TB, Z, RM. rewrite zlen_cons in Z. pose proof (zlen_nonneg (T ++ b_redirects o)) as ZN.
  pose proof (mstate_links Vm VO ltac:(destruct VM as [Q|(_ & Q)]; auto)) as NKm.
  assert (SO : sound r) by (destruct (list_eq_dec Z.eq_dec (rsource r) MP) as [Q|Q]; [exact (proj1 (RM r (or_introl eq_refl) Q))|rewrite others_other in TB by exact Q; apply (tb_buffer _ _ _ _ _ _ _ TB r (or_introl eq_refl))]).
  destruct (exists_at_dec (b_zim o) _ (rtarget r) C) as [EX|AB].
  - destruct (add_full_url_redirect (S (S n)) (rsource r) (rtarget r) (wanted_title r) (b_zim o)) as [[b|] s'] eqn:EA; [|discriminate E].
    destruct (list_eq_dec Z.eq_dec (rsource r) MP) as [QM|QM].
    + rewrite others_main in TB by exact QM. destruct (RM r (or_introl eq_refl) QM) as (_ & (x & RT) & VT).
      assert (NT : rtarget r <> MP) by (rewrite RT; discriminate). assert (VT' : Vm (rtarget r) <> None) by (rewrite VO by exact NT; exact VT).
      assert (NLT : ~ listing (b_zim o) (rtarget r)) by (rewrite RT; intro Q; apply listing_not_C in Q; discriminate Q).
      assert (GO : forall cells', entry_step (b_zim o) cells s' cells' -> table s' (map snd cells') X types [] (others (T ++ b_redirects o)) (vput MP (Some (link_page Vm (rtarget r) (wanted_title r))) Vm) -> steady (b_zim o) s' -> zlen cells' <= zlen cells + 1 -> mstate (b_set_zim s' o) T).
      { intros cells' ES2 TB2 SD2 Z2. exists cells', (vput MP (Some (link_page Vm (rtarget r) (wanted_title r))) Vm). cbn [b_zim b_set_zim b_redirects].
        split; [eapply step_trans; eassumption|]. split; [eapply steady_trans; eassumption|]. split; [exact TB2|]. split; [intros y Ny; rewrite vput_other by exact Ny; apply VO; exact Ny|]. split; [|split; [|lia]].
        - right. rewrite vput_same. split; [|exists (link_page Vm (rtarget r) (wanted_title r)), x; split; [reflexivity|cbn [link_page pg_body]; congruence]].
          destruct (tb_page _ _ _ _ _ _ _ TB2 MP _ (vput_same _ _ _) (main_not_listing _)) as [(e & G & _)|[[]|S]]; [exists e; exact G|]. exfalso. apply in_map_iff in S as (r1 & Q1 & H1). apply others_in in H1. tauto.
        - intros r1 H1. apply RM. right. exact H1. }
      destruct VM as [VN|(EM & p & y & VP & _)].
      * pose proof (extend_link _ _ _ _ _ _ _ C TB r ltac:(rewrite QM; exact VN) ltac:(rewrite QM; apply main_not_listing) (or_introl VT') NLT SO) as T2.
        destruct (link_written process_blob _ _ _ _ _ _ _ _ _ _ _ CO C AN T2 ltac:(lia) EX EA) as (-> & cells' & ES2 & TB2 & SD2 & Z2). injection E as <-. split; [|reflexivity]. rewrite QM in TB2. eapply GO; [exact ES2|exact TB2|exact SD2|lia].
      * destruct (main_rewritten _ _ _ _ _ _ _ _ _ _ _ p x CO C AN TB ltac:(lia) EM VP NKm QM RT SO VT' EX EA) as (-> & cells' & ES2 & TB2 & SD2 & Z2). injection E as <-. split; [|reflexivity]. eapply GO; [exact ES2|exact TB2|exact SD2|lia].
    + rewrite others_other in TB by exact QM.
      destruct (link_written process_blob _ _ _ _ _ _ _ _ _ _ _ CO C AN TB ltac:(lia) EX EA) as (-> & cells' & ES2 & TB2 & SD2 & Z2). injection E as <-. split; [|reflexivity].
      exists cells', Vm. cbn [b_zim b_set_zim b_redirects]. split; [eapply step_trans; eassumption|]. split; [eapply steady_trans; eassumption|]. split; [exact TB2|]. split; [exact VO|]. split; [|split; [intros r1 H1; apply RM; right; exact H1|lia]].
      destruct VM as [VN|(EM & p & y & VP & B)]; [left; exact VN|right]. split; [|eauto].
      destruct (tb_page _ _ _ _ _ _ _ TB2 MP _ VP (main_not_listing _)) as [(e & G & _)|[[]|S]]; [exists e; exact G|]. exfalso. apply in_map_iff in S as (r1 & Q1 & H1). apply others_in in H1. tauto.
  - rewrite (add_missing _ _ _ r C SO AB) in E. injection E as <-. split; [|reflexivity].
    assert (PE : Permutation (r :: T ++ b_redirects o) (T ++ b_redirects o ++ [r])) by (rewrite app_assoc; apply Permutation_cons_append).
    exists cells, Vm. cbn [b_zim b_set_zim b_redirects b_set_redirects]. split; [exact ES|]. split; [exact SD|]. split; [|split; [exact VO|split; [exact VM|split; [|rewrite !zlen_app in *; change (zlen [r]) with 1; lia]]]].
    + eapply table_perm; [|exact TB]. unfold others. rewrite app_assoc, filter_app. cbn [filter]. destruct (negb _); [apply Permutation_cons_append|rewrite app_nil_r; apply Permutation_refl].
    + intros r1 H1. apply RM. eapply Permutation_in; [apply Permutation_sym; exact PE|exact H1].
Qed.
Lemma mbuffer_round : forall n l o o', mstate o l -> add_redirects (S (S n)) l o = (Ok tt, o') -> mstate o' [] /\ b_main o' = b_main o.
Proof.
  intros n. induction l as [|r l IH]; intros o o' B E; cbn [add_redirects] in E; [injection E as <-; auto|]. unfold mbind in E.
  destruct (add_redirect (S (S n)) r o) as [[[]|] o1] eqn:E1; [|discriminate E]. destruct (mbuffer_one _ _ _ _ _ B E1) as (B1 & M1). destruct (IH _ _ B1 E) as (B2 & M2). split; [exact B2|congruence].
Qed.
Lemma mbuffer_loop : forall n k o o', mstate o [] -> apply_loop k (S (S n)) o = (Ok tt, o') -> mstate o' [] /\ b_main o' = b_main o.
Proof.
  intros n. induction k as [|k IH]; intros o o' B E; cbn [apply_loop] in E; [discriminate E|]. cbv zeta in E. unfold mbind in E.
  destruct (add_redirects (S (S n)) (b_redirects o) (b_set_redirects [] o)) as [[[]|] o1] eqn:E1; [|discriminate E].
  assert (B0 : mstate (b_set_redirects [] o) (b_redirects o)).
  { destruct B as (cells & Vm & B). exists cells, Vm. cbn [b_zim b_set_redirects b_redirects app] in *. rewrite app_nil_r. exact B. }
  destruct (mbuffer_round _ _ _ _ B0 E1) as (B1 & M1). cbn [b_main b_set_redirects] in M1. destruct (rops_eqb _ _); [injection E as <-; auto|]. destruct (IH _ _ B1 E) as (B2 & M2). split; [exact B2|congruence].
Qed.
Lemma mbuffer_done : forall n o o' v, mstate o [] -> b_main o = Some (Some v) -> V (NS_C ++ v) <> None -> OperationBuffer.finalize process_blob rounds (S (S n)) o = (Ok tt, o') ->
  exists cells, entry_step s0 cells0 (b_zim o') cells /\ steady s0 (b_zim o') /\ table (b_zim o') (map snd cells) X types [] [] (vput MP (Some (link_page V (NS_C ++ v) None)) V) /\
    b_redirects o' = [] /\ b_main o' = None /\ main_url (b_zim o') = Some MP.
Proof.
  intros n o o' v B M VT E. unfold OperationBuffer.finalize, apply_redirects, mbind in E. destruct (apply_loop rounds (S (S n)) o) as [[[]|] o1] eqn:E1; [|discriminate E].
  destruct (mbuffer_loop _ _ _ _ B E1) as (B1 & M1). destruct (b_redirects o1) eqn:ER; [|discriminate E]. unfold apply_set_mainpage_url in E. rewrite M1, M in E.
  destruct B1 as (cells1 & Vm & ES1 & SD1 & TB1 & VO & VM & _ & Z1). cbn [app] in TB1, Z1. rewrite ER in *. pose proof (es_consistent _ _ _ _ ES1) as C1. change (zlen (@nil rop)) with 0 in Z1. unfold mbind in E.
  assert (NV : NS_C ++ v <> MP) by discriminate.
  destruct (set_mainpage process_blob (S (S n)) (Some v) (b_set_main None o1)) as [[[]|] o2] eqn:E2; [|discriminate E].
  destruct (main_applied process_blob n X types [] Vm v cells1 (b_set_main None o1) o2) as (cells2 & ES2 & SD2 & TB2 & _ & Z2 & FIN); try assumption.
  - exact (es_core _ _ _ _ ES1).
  - exact (steady_anchored _ _ AN0 SD1).
  - cbn [b_set_main b_redirects]. rewrite ER. exact TB1.
  - lia.
  - reflexivity.
  - cbn [b_zim b_set_main]. destruct VM as [VM|(EX & p & x & VP & VB)]; [left; exact VM|right; eauto 6].
  - exact (mstate_links Vm VO ltac:(destruct VM as [Q|(_ & Q)]; auto)).
  - rewrite VO by exact NV. exact VT.
  - cbn [b_set_main b_zim b_redirects] in *. rewrite ER in *. destruct FIN as [(_ & R2 & M2 & U2)|(_ & R2 & M2)]; rewrite M2 in E; [|discriminate E]. injection E as <-.
    exists cells2. split; [eapply step_trans; eassumption|]. split; [eapply steady_trans; eassumption|]. rewrite R2 in TB2. split; [|auto]. eapply table_ext; [|exact TB2].
    intro y. unfold vput. destruct (ueqb y MP) eqn:EY; [|apply VO; apply ueqb_neq; exact EY]. f_equal. unfold link_page. rewrite VO by exact NV. reflexivity.
Qed.
End Buffer.
