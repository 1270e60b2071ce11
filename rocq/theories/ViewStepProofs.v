(** Archives behave like tables from urls to pages: the operations. *)
From Coq Require Import List ZArith Bool Lia Permutation Strings.Byte.
From Coq Require Import ZifyBool ZifyNat.
From Verif Require Import Base BaseProofs Utf8 Utf8Proofs Dict Infobyte Header HeaderSpec HeaderProofs MimeTypeList MimeTypeListSpec MimeTypeListProofs PointerList PointerListProofs
  SpaceAllocator SpaceAllocatorSpec SpaceAllocatorProofs Entry EntrySpec EntryProofs Reader ReaderSpec Blob Cluster ClusterSpec ClusterProofs ClusterWrapper ClusterWrapperSpec ClusterWrapperProofs
  Archive ArchiveSpec ArchiveProofs ArchiveWriteProofs ArchiveMoveProofs ArchiveRemoveProofs ArchiveObserve ArchiveFacts ArchiveLaws ArchiveEdit ArchiveCluster ArchiveClusterSpec ArchiveClusterProofs ArchiveFrame ArchiveEntryCluster ArchiveEditCluster
  CompressionStrategy CompressionStrategySpec CompressionStrategyProofs OperationBuffer OperationBufferSpec OperationBufferProofs EntryObject EntryObjectSpec EntryObjectProofs
  Flush FlushSpec FlushProofs FlushTailProofs FlushOpenProofs FlushHistorySpec FlushHistoryProofs ViewSpec ViewProofs ViewEditProofs.
Import ListNotations.
Open Scope Z_scope.

(** ** The table, again *)
Lemma table_perm : forall s E X types W R R' V, Permutation R R' -> table s E X types W R V -> table s E X types W R' V.
Proof.
  intros s E X types W R R' V P [T1 T2 T3 T4 T5]. constructor; try assumption.
  - intros u p Hp NL. destruct (T1 u p Hp NL) as [S|[S|S]]; auto. right. right. eapply Permutation_in; [apply Permutation_map; exact P|exact S].
  - intros r Hr. apply T4. eapply Permutation_in; [apply Permutation_sym; exact P|exact Hr].
  - eapply Permutation_NoDup; [|exact T5]. apply Permutation_app_head. apply Permutation_map. exact P.
Qed.
Lemma item_nameable : forall fuel it d, item_ok fuel it d -> nameable (item_url it).
Proof.
  intros fuel it d OK. destruct (item_storable fuel it d OK) as ((x & N) & ((b & U) & _) & _). unfold item_url. split.
  - destruct (it_ns it); [discriminate N|discriminate].
  - exists ([x] ++ b). apply utf8_encode_app; assumption.
Qed.
Section Extend.
Variables (s : zim) (E : list entry) (X : list (option (list bytes))) (types : list bytes) (W : list (item * bytes)) (R : list rop) (V : view).
Hypothesis C : consistent s E.
Hypothesis T : table s E X types W R V.
Lemma unused : forall u, V u = None -> ~ listing s u -> absent E u /\ ~ In u (urls_of W) /\ ~ In u (map rsource R).
Proof.
  intros u N NL. split; [|split].
  - apply (absent_exists _ _ _ C). intros (e & G). destruct (tb_only _ _ _ _ _ _ _ T u e G); [contradiction|congruence].
  - intro Q. apply in_map_iff in Q as ([it d] & <- & Hi). destruct (tb_waiting _ _ _ _ _ _ _ T it d Hi) as (Q & _). cbn [fst] in N. congruence.
  - intro Q. apply in_map_iff in Q as (r & <- & Hr). destruct (tb_buffer _ _ _ _ _ _ _ T r Hr) as (Q & _). congruence.
Qed.
Lemma extend_item : forall fuel it d, item_ok fuel it d -> V (item_url it) = None -> ~ listing s (item_url it) -> table s E X types (W ++ [(it, d)]) R (vput (item_url it) (Some (page_of it d)) V).
Proof.
  intros fuel it d OK N NL. destruct (unused _ N NL) as (AB & NW & NR). set (u := item_url it) in *. set (V' := vput u (Some (page_of it d)) V).
  assert (VO : forall x, V x <> None -> V' x = V x) by (intros x Hx; apply vput_other; congruence). assert (VU : V' u = Some (page_of it d)) by apply vput_same.
  assert (EU : urls_of (W ++ [(it, d)]) = urls_of W ++ [u]) by (unfold urls_of; rewrite map_app; reflexivity). constructor.
  - intros x p Hp NLx. rewrite EU. destruct (list_eq_dec Z.eq_dec x u) as [->|Nx]; [right; left; apply in_or_app; right; left; reflexivity|]. unfold V' in Hp. rewrite vput_other in Hp by exact Nx.
    destruct (tb_page _ _ _ _ _ _ _ T x p Hp NLx) as [S|[S|S]]; auto. right. left. apply in_or_app. auto.
  - intros x e G. destruct (tb_only _ _ _ _ _ _ _ T x e G) as [L|L]; [auto|]. right. rewrite VO by exact L. exact L.
  - intros it1 d1 Hi. apply in_app_or in Hi as [Hi|[Hi|[]]].
    + destruct (tb_waiting _ _ _ _ _ _ _ T it1 d1 Hi) as (V1 & V2 & V3 & V4). rewrite VO by congruence. auto.
    + injection Hi as <- <-. split; [exact VU|]. split; [exact AB|]. split; [exact NL|]. eapply item_nameable. exact OK.
  - intros r Hr. destruct (tb_buffer _ _ _ _ _ _ _ T r Hr) as (V1 & V2 & V3 & V4 & V5 & V6). rewrite (VO (rsource r)) by congruence. destruct (link_kept V V' _ V4 (VO _)) as (LP & V4'). rewrite LP. auto 8.
  - rewrite EU. rewrite <- app_assoc. eapply Permutation_NoDup; [apply Permutation_middle|]. constructor; [|exact (tb_distinct _ _ _ _ _ _ _ T)]. intro Q. apply in_app_or in Q as [Q|Q]; contradiction.
Qed.
Lemma extend_link : forall r, V (rsource r) = None -> ~ listing s (rsource r) -> V (rtarget r) <> None \/ wanted_title r <> None -> ~ listing s (rtarget r) -> sound r ->
  table s E X types W (r :: R) (vput (rsource r) (Some (link_page V (rtarget r) (wanted_title r))) V).
Proof.
  intros r N NL NT NLT SO. destruct (unused _ N NL) as (AB & NW & NR). set (u := rsource r) in *. set (V' := vput u _ V).
  assert (VO : forall x, V x <> None -> V' x = V x) by (intros x Hx; apply vput_other; congruence). assert (VU : V' u = Some (link_page V (rtarget r) (wanted_title r))) by apply vput_same. constructor.
  - intros x p Hp NLx. cbn [map]. destruct (list_eq_dec Z.eq_dec x u) as [->|Nx]; [right; right; left; reflexivity|]. unfold V' in Hp. rewrite vput_other in Hp by exact Nx.
    destruct (tb_page _ _ _ _ _ _ _ T x p Hp NLx) as [S|[S|S]]; auto. right. right. right. exact S.
  - intros x e G. destruct (tb_only _ _ _ _ _ _ _ T x e G) as [L|L]; [auto|]. right. rewrite VO by exact L. exact L.
  - intros it1 d1 Hi. destruct (tb_waiting _ _ _ _ _ _ _ T it1 d1 Hi) as (V1 & V2 & V3 & V4). rewrite VO by congruence. auto.
  - intros r1 [<-|Hr].
    + fold u. destruct (link_kept V V' _ NT (VO _)) as (LP & V4'). rewrite VU, LP. auto 8.
    + destruct (tb_buffer _ _ _ _ _ _ _ T r1 Hr) as (V1 & V2 & V3 & V4 & V5 & V6). rewrite (VO (rsource r1)) by congruence. destruct (link_kept V V' _ V4 (VO _)) as (LP & V4'). rewrite LP. auto 8.
  - cbn [map]. eapply Permutation_NoDup; [apply Permutation_middle|]. constructor; [|exact (tb_distinct _ _ _ _ _ _ _ T)]. intro Q. apply in_app_or in Q as [Q|Q]; contradiction.
Qed.
End Extend.

Lemma add_redirect_eq : forall n r o, add_redirect n r o = match add_full_url_redirect n (rsource r) (rtarget r) (wanted_title r) (b_zim o) with
  | (Ok true, z) => (Ok tt, b_set_zim z o) | (Ok false, z) => (Ok tt, b_set_redirects (b_redirects o ++ [r]) (b_set_zim z o)) | (Err e, z) => (Err e, b_set_zim z o) end.
Proof.
  intros n [[a t] ttl] o. unfold add_redirect, mbind, lift. change (rsource (a, t, ttl)) with a. change (rtarget (a, t, ttl)) with t. change (wanted_title (a, t, ttl)) with ttl.
  destruct (add_full_url_redirect n a t ttl (b_zim o)) as [[[|]|] z]; reflexivity.
Qed.
Lemma step_refl : forall s cells, core s cells -> consistent s (map snd cells) -> entry_step s cells s cells.
Proof. intros s cells C CS. constructor; auto; [intros c x Hc Hx; left; eauto|apply keeps_refl|lia|apply ztracks_refl]. Qed.
Lemma steady_refl : forall s, steady s s.
Proof. intro s. constructor; [tauto|]. intros u e _ G. exists e. split; [exact G|]. unfold same_entry. destruct (e_kind e); auto 10. Qed.
Lemma steady_trans : forall s1 s2 s3, steady s1 s2 -> steady s2 s3 -> steady s1 s3.
Proof.
  intros s1 s2 s3 [A1 A2] [B1 B2]. constructor; [intro u; rewrite B1; apply A1|]. intros u e HL G. destruct (A2 u e HL G) as (e1 & G1 & S1). destruct (B2 u e1 (proj2 (A1 u) HL) G1) as (e2 & G2 & S2).
  exists e2. split; [exact G2|]. destruct S1 as (X1 & X2 & X3 & X4 & X5), S2 as (Y1 & Y2 & Y3 & Y4 & Y5). unfold same_entry. repeat (split; [congruence|]).
  destruct (e_kind e), (e_kind e1), (e_kind e2); try contradiction; auto. destruct X5, Y5. split; congruence.
Qed.

Lemma table_ext : forall s E X types W R V V', (forall x, V x = V' x) -> table s E X types W R V -> table s E X types W R V'.
Proof.
  intros s E X types W R V V' Q [T1 T2 T3 T4 T5]. assert (LP : forall t ttl, link_page V t ttl = link_page V' t ttl) by (intros; unfold link_page; rewrite Q; reflexivity). constructor; try assumption.
  - intros u p. rewrite <- Q. apply T1.
  - intros u e. rewrite <- Q. apply T2.
  - intros it d. rewrite <- Q. apply T3.
  - intros r. rewrite <- !Q, <- LP. apply T4.
Qed.

(** ** The main page *)
Notation main_redirect u := ((URL_MAINPAGE_REDIRECT, NS_C ++ u, None) : rop).
Lemma listing_not_C : forall s u, listing s u -> in_C u = false.
Proof. intros s u [->|(-> & _)]; reflexivity. Qed.
Lemma main_not_listing : forall s, ~ listing s URL_MAINPAGE_REDIRECT.
Proof. intros s [Q|(Q & _)]; discriminate Q. Qed.
Lemma article_in_C : forall s cells u us, core s cells -> consistent s (map snd cells) -> article_urls s = Some us -> In u us -> in_C u = true /\ exists_at s u.
Proof.
  intros s cells u us CO C U Hu. apply (article_urls_in _ _ _ C U) in Hu as (i & e & Hi & Z1 & Z2).
  pose proof (co_articles _ _ CO i e Hi Z1) as NS. subst u. split; [apply ns_C_full_url; exact NS|]. exists e. apply (lookup_iff _ _ _ _ C). split; [|reflexivity].
  eapply PointerListProofs.znth_in. exact Z1.
Qed.
Lemma before_main : forall u, in_C u = true -> ultb u URL_MAINPAGE_REDIRECT = true.
Proof. intros [|x u] Q; [reflexivity|]. cbn [in_C] in Q. unfold in_C in Q. cbn in Q. apply Z.eqb_eq in Q. subst x. reflexivity. Qed.
Lemma remove_redirect_eq : forall pb wr rc1 rc2 s cells i c, core s cells -> consistent s (map snd cells) -> znth cells i = Some c -> is_redirect (snd c) = true ->
  (forall e, In e (map snd cells) -> e_kind e = Redirect i -> full_url e = full_url (snd c)) -> remove_body pb wr rc1 (full_url (snd c)) s = remove_body keep_blob wr rc2 (full_url (snd c)) s.
Proof.
  intros pb wr rc1 rc2 s cells i c CO C Hi HR HN. unfold remove_body.
  assert (Hz : znth (map snd cells) i = Some (snd c)) by (rewrite znth_map, Hi; reflexivity). pose proof (core_nth _ _ _ _ CO Hi) as St. pose proof St as (_ & SS & _). destruct (storable_span _ SS) as (SP & _).
  unfold mbind, query, ret. rewrite !(url_index_in _ _ _ _ C Hz). cbv beta iota. rewrite !(by_index_ok _ _ _ _ CO Hi). cbv beta iota. rewrite !(stored_read _ _ _ St). cbv beta iota. rewrite !SP. cbv beta iota.
  rewrite HR. cbv beta iota. rewrite !(iter_entries_ok _ _ CO). cbn [bind]. rewrite !(no_removable s cells i c CO Hi (map snd cells) (fun e He => He) HN). cbv beta iota. cbn [fold_left]. reflexivity.
Qed.
Lemma main_set_step : forall s cells s' cells' i, entry_step s cells s' cells' -> pl_dirty (z_upl s') = true -> 0 <= i < zlen cells' -> entry_step s cells (set_main (Some i) s') cells'.
Proof.
  intros s cells s' cells' i [E1 E2 E3 E4 E5 E6 E7 E8] D Hi. constructor; try assumption.
  - apply core_set_main. exact E1.
  - destruct E2 as [_ H1 H2 H3 H4]. constructor; auto; [|intros m Q; injection Q as <-; rewrite zlen_map; exact Hi]. exists cells'. split; [reflexivity|]. apply core_set_main. exact E1.
  - destruct E7. constructor; assumption.
  - intro Q. change (pl_dirty (z_upl s') = false) in Q. congruence.
Qed.
Lemma main_set_steady : forall s s' m, steady s s' -> steady s (set_main m s').
Proof. intros s s' m [S1 S2]. constructor; [exact S1|exact S2]. Qed.
Lemma main_set_table : forall s E X types W R V m, table s E X types W R V -> table (set_main m s) E X types W R V.
Proof. intros s E X types W R V m [T1 T2 T3 T4 T5]. constructor; [exact T1|exact T2|exact T3|exact T4|exact T5]. Qed.

(** The old redirect is taken away. *)
Lemma main_removed : forall pb n s cells X types W R V s', core s cells -> consistent s (map snd cells) -> anchored s -> table s (map snd cells) X types W R V ->
  (V URL_MAINPAGE_REDIRECT = None \/ exists_at s URL_MAINPAGE_REDIRECT /\ exists p v, V URL_MAINPAGE_REDIRECT = Some p /\ pg_body p = Link v) ->
  (forall x q, V x = Some q -> pg_body q <> Link URL_MAINPAGE_REDIRECT) ->
  (match remove_entry pb (S (S n)) URL_MAINPAGE_REDIRECT s with (Err EntryNotFound, s1) => (Ok tt, s1) | r => r end) = (Ok tt, s') ->
  exists cells', entry_step s cells s' cells' /\ steady s s' /\ table s' (map snd cells') X types W R (vput URL_MAINPAGE_REDIRECT None V) /\ zlen cells' <= zlen cells /\
    (V URL_MAINPAGE_REDIRECT <> None -> zlen cells' = zlen cells - 1).
Proof.
  intros pb n s cells X types W R V s' CO C AN T HM HN E. set (u := URL_MAINPAGE_REDIRECT) in *. pose proof (main_not_listing s) as NL. destruct HM as [HM|(EX & p & v & Vu & Bu)].
  - destruct (unused _ _ _ _ _ _ _ C T u HM NL) as (AB & _).
    assert (EQ : remove_entry pb (S (S n)) u s = (Err EntryNotFound, s)).
    { cbn [remove_entry]. unfold remove_body. apply mbind_err. unfold query. rewrite (url_index_absent s _ u [x57; x6d; x61; x69; x6e; x50; x61; x67; x65] C); [reflexivity|reflexivity|exact AB]. }
    rewrite EQ in E. injection E as <-. exists cells. split; [apply step_refl; assumption|]. split; [apply steady_refl|]. split; [|split; [lia|congruence]].
    eapply table_ext; [|exact T]. intro x. unfold vput. destruct (ueqb x u) eqn:Q; [|reflexivity]. apply ueqb_eq in Q. congruence.
  - destruct (page_in_archive _ _ _ _ _ _ _ C T u p Vu NL EX) as (e0 & G0 & _ & A0 & B0). rewrite Bu in B0.
    assert (NK : forall x y, V x = Some y -> pg_body y = Link u -> x = u) by (intros x y Hx Hy; destruct (HN x y Hx Hy)).
    assert (DE : deletable s u).
    { constructor; [exact EX|intros x Nx Q; exact (no_links _ _ _ _ _ _ _ C AN T u x NK Nx Q)|]. intros us U. right. intros x Hx. apply before_main. exact (proj1 (article_in_C _ _ _ _ CO C U Hx)). }
    destruct (delete_setup s _ u C DE) as (i & e1 & Hz & HU & RM). pose proof G0 as G0'. apply (lookup_iff _ _ _ _ C) in G0' as (HI & HU0).
    assert (e1 = e0). { destruct (in_znth _ _ HI) as (j & Hj). assert (i = j) by (eapply (url_unique (map snd cells)); [eapply consistent_sorted; exact C|exact Hz|exact Hj|congruence]). congruence. } subst e1.
    rewrite znth_map in Hz. destruct (znth cells i) as [c|] eqn:Hc; [|discriminate Hz]. cbn in Hz. injection Hz as Hz.
    assert (KR : is_redirect e0 = true). { unfold target_url in B0. destruct (e_kind e0) as [|j] eqn:EK; [discriminate B0|]. pose proof (consistent_kind _ _ _ C HI) as KK. unfold kind_consistent in KK. rewrite EK in KK. unfold is_redirect. apply Z.eqb_eq. exact KK. }
    assert (EQ : remove_entry pb (S (S n)) u s = remove_entry keep_blob (S (S n)) u s).
    { cbn [remove_entry]. rewrite <- HU, <- Hz. eapply remove_redirect_eq; [exact CO|exact C|exact Hc|rewrite Hz; exact KR|]. intros e He Hr. rewrite Hz.
      destruct (list_eq_dec Z.eq_dec (full_url e) (full_url e0)) as [Q|Nq]; [exact Q|]. exfalso. apply (rm_in _ _ _ _ RM e He); [intros ->; contradiction|exact Hr]. }
    rewrite EQ in E. rewrite <- HU in E. pose proof (remove_ok s (map snd cells) i e0 n C RM) as RO.
    assert (EW : remove_entry keep_blob (S (S n)) (full_url e0) s = (Ok tt, s')) by (destruct RO as [(s1 & W1 & _)|(s1 & q & _ & _ & W1)]; rewrite W1 in E |- *; [exact E|discriminate E]).
    destruct RO as [(s1 & W1 & D)|(s1 & q & _ & _ & W1)]; rewrite EW in W1; [|discriminate W1]. injection W1 as <-. rewrite HU in EW.
    destruct (delete_step _ _ _ _ _ CO C DE EW) as (cells' & ES). pose proof (delete_law _ _ _ _ _ C DE EW) as DL.
    assert (SD : steady s s').
    { constructor; [intro; apply tracks_listing; exact (es_tracks _ _ _ _ ES)|]. intros y e2 HL G2. destruct (dl_others _ _ _ DL y e2) as (e3 & G3 & S3 & _); [intro Q; rewrite Q in HL; exact (NL HL)|exact G2|]. eauto. }
    assert (ZL : zlen cells' = zlen cells - 1).
    { destruct D as (L' & p0 & e1 & _ & _ & _ & C2 & Ln & _). pose proof C2 as [(cells2 & E2 & Co2) _ _ _ _]. rewrite (core_unique _ _ _ Co2 (es_core _ _ _ _ ES)) in E2. rewrite <- E2 in Ln. rewrite !zlen_map in Ln. exact Ln. }
    exists cells'. split; [exact ES|]. split; [exact SD|]. split; [|lia]. exact (remove_table _ _ _ _ _ _ _ C AN T s' (map snd cells') u (es_consistent _ _ _ _ ES) SD DL EX NK).
Qed.
Lemma main_applied : forall pb n X types W V u cells o o', core (b_zim o) cells -> consistent (b_zim o) (map snd cells) -> anchored (b_zim o) -> table (b_zim o) (map snd cells) X types W (b_redirects o) V ->
  zlen cells + 1 < 2 ^ 32 -> b_main o = None ->
  (V URL_MAINPAGE_REDIRECT = None \/ exists_at (b_zim o) URL_MAINPAGE_REDIRECT /\ exists p v, V URL_MAINPAGE_REDIRECT = Some p /\ pg_body p = Link v) ->
  (forall x q, V x = Some q -> pg_body q <> Link URL_MAINPAGE_REDIRECT) -> V (NS_C ++ u) <> None -> set_mainpage pb (S (S n)) (Some u) o = (Ok tt, o') ->
  exists cells', entry_step (b_zim o) cells (b_zim o') cells' /\ steady (b_zim o) (b_zim o') /\
    table (b_zim o') (map snd cells') X types W (b_redirects o') (vput URL_MAINPAGE_REDIRECT (Some (link_page V (NS_C ++ u) None)) V) /\
    zlen cells' <= zlen cells + 1 /\ (V URL_MAINPAGE_REDIRECT <> None -> zlen cells' <= zlen cells) /\
    (exists_at (b_zim o) (NS_C ++ u) /\ b_redirects o' = b_redirects o /\ b_main o' = None /\ main_url (b_zim o') = Some URL_MAINPAGE_REDIRECT \/
     ~ exists_at (b_zim o) (NS_C ++ u) /\ b_redirects o' = b_redirects o ++ [main_redirect u] /\ b_main o' = Some (Some u)).
Proof.
  intros pb n X types W V u cells o o' CO C AN T HZ BM HM HN HT E. unfold set_mainpage, mbind, lift in E. set (w := URL_MAINPAGE_REDIRECT) in *.
  destruct (match remove_entry pb (S (S n)) w (b_zim o) with (Err EntryNotFound, s1) => (Ok tt, s1) | r => r end) as [[[]|] s1] eqn:E1; [|discriminate E].
  destruct (main_removed pb n _ _ _ _ _ _ _ s1 CO C AN T HM HN E1) as (cells1 & ES1 & SD1 & T1 & Z1 & Z1').
  pose proof (es_core _ _ _ _ ES1) as CO1. pose proof (es_consistent _ _ _ _ ES1) as C1. pose proof (steady_anchored _ _ AN SD1) as AN1. set (V1 := vput w None V) in *.
  set (V' := vput w (Some (link_page V (NS_C ++ u) None)) V).
  assert (NW : NS_C ++ u <> w) by discriminate. assert (VT : V1 (NS_C ++ u) = V (NS_C ++ u)) by (apply vput_other; exact NW).
  assert (NLT : forall s, ~ listing s (NS_C ++ u)) by (intros s Q; apply listing_not_C in Q; discriminate Q).
  assert (EXT : exists_at s1 (NS_C ++ u) <-> exists_at (b_zim o) (NS_C ++ u)).
  { split; intro Q.
    - destruct (V (NS_C ++ u)) as [p|] eqn:EP; [|congruence]. destruct (exists_at_dec (b_zim o) _ (NS_C ++ u) C) as [Y|Y]; [exact Y|]. exfalso.
      destruct (tb_page _ _ _ _ _ _ _ T _ p EP (NLT _)) as [(e & G & _)|[S|S]]; [apply (not_both _ _ _ C ltac:(exists e; exact G) Y)| |].
      + unfold urls_of in S. apply in_map_iff in S as ([it d] & Q1 & Hi). destruct (tb_waiting _ _ _ _ _ _ _ T1 it d Hi) as (_ & Q2 & _). cbn [fst] in Q1. rewrite Q1 in Q2. exact (not_both _ _ _ C1 Q Q2).
      + apply in_map_iff in S as (r & Q1 & Hr). destruct (tb_buffer _ _ _ _ _ _ _ T1 r Hr) as (_ & Q2 & _). rewrite Q1 in Q2. exact (not_both _ _ _ C1 Q Q2).
    - destruct Q as (e & G). destruct (V (NS_C ++ u)) as [p|] eqn:EP; [|congruence]. assert (VP : V1 (NS_C ++ u) = Some p) by congruence.
      destruct (tb_page _ _ _ _ _ _ _ T1 _ p VP (NLT _)) as [(e1 & G1 & _)|[S|S]]; [exists e1; exact G1| |]; exfalso.
      + unfold urls_of in S. apply in_map_iff in S as ([it d] & Q1 & Hi). destruct (tb_waiting _ _ _ _ _ _ _ T it d Hi) as (_ & Q2 & _). cbn [fst] in Q1. rewrite Q1 in Q2. exact (not_both _ _ _ C ltac:(exists e; exact G) Q2).
      + apply in_map_iff in S as (r & Q1 & Hr). destruct (tb_buffer _ _ _ _ _ _ _ T r Hr) as (_ & Q2 & _). rewrite Q1 in Q2. exact (not_both _ _ _ C ltac:(exists e; exact G) Q2). }
  assert (SO : sound (main_redirect u)).
  { destruct (V (NS_C ++ u)) as [p|] eqn:EP; [|congruence]. destruct (nameable_page _ _ _ _ _ _ _ C T _ p EP (NLT _)) as (_ & b & EB). constructor.
    - exists 87, [109; 97; 105; 110; 80; 97; 103; 101], x57. split; [reflexivity|]. split; [reflexivity|]. split; [exists [x6d; x61; x69; x6e; x50; x61; x67; x65]; reflexivity|]. cbn. intuition discriminate.
    - split; [discriminate|]. exists b. exact EB.
    - discriminate.
    - discriminate. }
  pose proof (extend_link _ _ _ _ _ _ _ C1 T1 (main_redirect u) (vput_same _ _ _) (main_not_listing _) (or_introl (fun Q => HT (eq_trans (eq_sym VT) Q))) (NLT _) SO) as T2.
  assert (T3 : table s1 (map snd cells1) X types W (main_redirect u :: b_redirects o) V').
  { eapply table_ext; [|exact T2]. intro x. unfold V', vput. change (rsource (main_redirect u)) with URL_MAINPAGE_REDIRECT. unfold w. destruct (ueqb x URL_MAINPAGE_REDIRECT); reflexivity. }
  rewrite add_redirect_eq in E. cbn [b_zim b_set_zim b_redirects] in E. unfold rsource, rtarget, wanted_title in E. cbn [fst snd] in E.
  destruct (exists_at_dec s1 _ (NS_C ++ u) C1) as [EX|AB].
  - destruct (add_full_url_redirect (S (S n)) w (NS_C ++ u) None s1) as [[b|] s2] eqn:EA; [|discriminate E].
    destruct (link_written pb _ _ _ _ _ _ _ _ (main_redirect u) _ _ CO1 C1 AN1 T3 ltac:(lia) EX EA) as (-> & cells2 & ES2 & T4 & SD2 & Z2). cbn [b_zim b_set_zim] in E.
    pose proof (es_consistent _ _ _ _ ES2) as C2. destruct (page_in_archive _ _ _ _ _ _ _ C2 T4 w _ (vput_same _ _ _) (main_not_listing _)) as (e2 & G2 & _).
    { destruct (tb_page _ _ _ _ _ _ _ T4 w _ (vput_same _ _ _) (main_not_listing _)) as [(e2 & G2 & _)|[S|S]]; [exists e2; exact G2| |]; exfalso.
      - pose proof (tb_distinct _ _ _ _ _ _ _ T3) as ND. cbn [map] in ND. apply NoDup_remove_2 in ND. apply ND. apply in_or_app. left. exact S.
      - pose proof (tb_distinct _ _ _ _ _ _ _ T3) as ND. cbn [map] in ND. apply NoDup_remove_2 in ND. apply ND. apply in_or_app. right. exact S. }
    pose proof G2 as G2'. apply (lookup_iff _ _ _ _ C2) in G2' as (HI & HU). destruct (in_znth _ _ HI) as (i & Hi). rewrite <- HU in E at 1. rewrite (url_index_in _ _ _ _ C2 Hi) in E. injection E as <-. cbn [b_zim b_set_zim b_redirects b_main].
    pose proof (znth_some _ _ _ Hi) as Hib. rewrite zlen_map in Hib.
    assert (DI : pl_dirty (z_upl s2) = true).
    { destruct (pl_dirty (z_upl s2)) eqn:Q; [reflexivity|]. exfalso. pose proof (es_tracks _ _ _ _ ES2) as [(_ & _ & TU) _ _]. specialize (TU Q). pose proof (co_locs _ _ (es_core _ _ _ _ ES2)) as Y2. pose proof (co_locs _ _ CO1) as Y1.
      rewrite TU, Y1 in Y2. apply (f_equal zlen) in Y2. rewrite !zlen_map in Y2. lia. }
    exists cells2. split; [apply main_set_step; [eapply step_trans; eassumption|exact DI|lia]|]. split; [apply main_set_steady; eapply steady_trans; eassumption|]. split; [apply main_set_table; exact T4|]. split; [lia|].
    split; [intro Q; specialize (Z1' Q); lia|]. left. split; [apply EXT; exact EX|]. split; [reflexivity|]. split; [exact BM|].
    pose proof (main_set_step _ _ _ _ i ES2 DI ltac:(lia)) as ES3. unfold main_url. rewrite (proj2 (main_iff _ _ e2 (es_consistent _ _ _ _ ES3))); [rewrite HU; reflexivity|]. exists i. split; [reflexivity|exact Hi].
  - pose proof (add_missing (S (S n)) _ _ (main_redirect u) C1 SO AB) as AM. change (add_full_url_redirect (S (S n)) w (NS_C ++ u) None s1 = (Ok false, s1)) in AM. rewrite AM in E. cbn [b_zim b_set_zim b_set_redirects] in E.
    destruct (tb_buffer _ _ _ _ _ _ _ T3 _ (or_introl eq_refl)) as (_ & ABW & _). change (absent (map snd cells1) w) in ABW.
    rewrite (url_index_absent s1 _ w [x57; x6d; x61; x69; x6e; x50; x61; x67; x65] C1) in E by (reflexivity || exact ABW). unfold buffer_set_mainpage_url in E. injection E as <-. cbn [b_zim b_set_zim b_set_redirects b_set_main b_redirects b_main].
    exists cells1. split; [exact ES1|]. split; [exact SD1|]. split; [eapply table_perm; [apply Permutation_cons_append|exact T3]|]. split; [lia|]. split; [intro Q; specialize (Z1' Q); lia|]. right.
    split; [intro Q; apply EXT in Q; exact (not_both _ _ _ C1 Q AB)|]. split; reflexivity.
Qed.

(** The main page waits: its redirect is in the buffer, and no redirect leads to that one. *)
Definition mains (m : option (option ustr)) (R : list rop) (V : view) : Prop :=
  m = None \/ exists u, m = Some (Some u) /\ In (main_redirect u) R /\ forall x q, V x = Some q -> pg_body q <> Link URL_MAINPAGE_REDIRECT.
Lemma mains_step : forall m R V R' V', mains m R V -> (forall r, In r R -> In r R') ->
  (forall x q, m <> None -> V' x = Some q -> pg_body q = Link URL_MAINPAGE_REDIRECT -> exists y p, V y = Some p /\ pg_body p = Link URL_MAINPAGE_REDIRECT) -> mains m R' V'.
Proof.
  intros m R V R' V' [->|(u & -> & HI & NK)] HR HV; [left; reflexivity|]. right. exists u. split; [reflexivity|]. split; [apply HR; exact HI|].
  intros x q Hq B. destruct (HV x q ltac:(discriminate) Hq B) as (y & p & Hp & B2). exact (NK y p Hp B2).
Qed.
Lemma mains_none : forall m V, mains m [] V -> m = None.
Proof. intros m V [->|(u & _ & [] & _)]. reflexivity. Qed.

Lemma main_again : forall s s' E, consistent s E -> consistent s' E -> z_main s' = z_main s -> main_url s' = main_url s.
Proof.
  intros s s' E C C' EM. destruct (z_main s') as [m|] eqn:Q.
  - destruct (znth_ex E m (cs_main _ _ C' m Q)) as (e & Hm). unfold main_url. rewrite (proj2 (main_iff _ _ e C')), (proj2 (main_iff _ _ e C)); eauto.
  - unfold main_url, get_mainpage_entry. rewrite <- EM, Q. reflexivity.
Qed.

Section View.
Variable fuel : nat.
Context {D : Type}.
Variable dc : decomp D.
Variable new_decomp : ctype -> res D.
Context {K : Type}.
Variable new_comp : ctype -> res K.
Variable comp : K -> bytes -> res (bytes * K).
Variable flush : K -> res bytes.
Variable depth : nat.
Variable kd : ckind.
Variable Stream : ctype -> bytes -> bytes -> Prop.
Variable reserve : option Z.
Context {H : Type}.
Variable md5 : H.
Variable feed : H -> bytes -> H.
Variable digest : H -> bytes.
Variable truncate : bool.
Variable process_blob : entry -> M zim unit.
Variable rounds : nat.
Hypothesis CD : codec_ok dc new_decomp new_comp comp flush Stream.
Hypothesis HO : hash_ok feed digest.
Variable mx : Z.
Notation laid := (laid_out Stream reserve).
Notation hcoreh := (hcore fuel Stream reserve mx).
Notation pending := (pendany fuel mx).
Notation table_of A cells L W V := (table (fa_zim A) (map snd cells) (blobs_of L) (ml_types (fa_mimes A)) W (fa_redirects A) V).

(** ** Changes of entries, seen from the archive *)
Record entries_only (A : farchive) (cells : list (Z * entry)) (A' : farchive) (cells' : list (Z * entry)) : Prop := mkEntriesOnly {
  en_step : entry_step (fa_zim A) cells (fa_zim A') cells';
  en_arch : fa_arch A' = mkCa (fa_zim A') (ca_ptrs (fa_arch A)) (ca_next (fa_arch A));
  en_header : fa_header A' = fa_header A;
  en_dirty : fa_dirty A' = fa_dirty A;
  en_comp : zs_comp (fa_state A') = zs_comp (fa_state A);
  en_plain : zs_plain (fa_state A') = zs_plain (fa_state A);
  en_types : mgood (fa_mimes A) (fa_mimes A') /\ mextends (fa_mimes A) (fa_mimes A');
  en_steady : steady (fa_zim A) (fa_zim A') }.

Lemma laid_anchored : forall A cells L, laid A cells L -> anchored (fa_zim A).
Proof.
  intros A cells L LO u. destruct (lo_listings _ _ _ _ _ LO) as (c & b & (e & bl & G & EK & _) & KE). intros [->|(-> & N)]; [eauto|]. destruct (z_etpl (fa_zim A)) as [t|]; [|congruence].
  destruct (KE t eq_refl) as (c' & b' & (e' & bl' & G' & EK' & _) & _). eauto.
Qed.
Lemma entries_kept : forall s s' X url l l' c b, steady s s' -> listing s url -> tracks l l' -> kept_at s X url l c b -> kept_at s' X url l' c b.
Proof.
  intros s s' X url l l' c b SD HL (_ & _ & TR) (e & bl & G & EK & Z1 & Z2 & DI). destruct (sd_entry _ _ SD url e HL G) as (e1 & G1 & S1). rewrite (same_content e e1 c b EK S1) in G1.
  exists e, bl. split; [exact G1|]. split; [exact EK|]. split; [exact Z1|]. split; [exact Z2|]. intro Q. pose proof (TR Q) as ->. auto.
Qed.
Lemma entries_laid : forall A cells L A' cells', laid A cells L -> entries_only A cells A' cells' -> laid A' cells' L.
Proof.
  intros A cells L A' cells' LO []. destruct en_types0 as ((MT & MS) & (t & MX)). destruct (step_frame _ _ _ _ _ _ (lo_arch _ _ _ _ _ LO) en_step0) as (AO & FR). rewrite <- en_arch0 in AO, FR.
  eapply laid_content; [exact LO|exact en_header0|exact MT| |exact AO|exact (lo_present _ _ _ _ _ LO)|exact FR|].
  - destruct (lo_types _ _ _ _ _ LO) as (T1 & T2). split; [|auto]. rewrite MX. destruct (ml_types (fa_mimes A)); [congruence|discriminate].
  - pose proof (es_tracks _ _ _ _ en_step0) as [_ T2 T3]. destruct (lo_listings _ _ _ _ _ LO) as (c & b & K0 & KE). exists c, b. split.
    + eapply entries_kept; [exact en_steady0|left; reflexivity|exact T2|exact K0].
    + intros t' Ht'. rewrite Ht' in T3. unfold otracks in T3. destruct (z_etpl (fa_zim A)) as [t0|] eqn:ET; [|contradiction]. destruct (KE t0 eq_refl) as (c1 & b1 & K1 & N1). exists c1, b1. split; [|exact N1].
      eapply entries_kept; [exact en_steady0|right; split; [reflexivity|congruence]|exact T3|exact K1].
Qed.
Lemma entries_clean : forall A cells A' cells', entries_only A cells A' cells' -> is_dirty A' = false -> is_dirty A = false /\ (settled A -> settled A').
Proof.
  intros A cells A' cells' [] ND. pose proof (es_tracks _ _ _ _ en_step0) as [(_ & _ & T1) (_ & _ & T2) T3]. destruct en_types0 as (((_ & _ & MT) & _) & _). pose proof ND as ND0.
  unfold is_dirty in ND. apply orb_false_iff in ND as (ND & D7). apply orb_false_iff in ND as (ND & D6). apply orb_false_iff in ND as (ND & D5). apply orb_false_iff in ND as (ND & D4). apply orb_false_iff in ND as (ND & D3).
  apply orb_false_iff in ND as (D1 & D2). destruct (es_clean _ _ _ _ en_step0 D4) as (EA & EM).
  assert (DA : is_dirty A = false).
  { unfold is_dirty. rewrite <- en_dirty0, <- en_header0, <- (MT D3), <- (T1 D4), <- (T2 D7), D1, D2, D3, D4, D7, orb_false_r. cbn [orb]. rewrite en_arch0 in D5. cbn [ca_ptrs] in D5. rewrite D5. cbn [orb].
    unfold otracks in T3. destruct (z_etpl (fa_zim A)), (z_etpl (fa_zim A')); try contradiction; [|reflexivity]. destruct T3 as (_ & _ & T3). rewrite <- (T3 D6). exact D6. }
  split; [exact DA|]. intros (_ & S2 & S3). split; [exact ND0|]. unfold fa_hdr, fa_alloc in *. rewrite en_header0. change (ca_alloc (fa_arch A')) with (z_alloc (fa_zim A')). change (ca_alloc (fa_arch A)) with (z_alloc (fa_zim A)) in S2.
  split; congruence.
Qed.

(** ** The invariant *)
Record vcore (A : farchive) (cells : list (Z * entry)) (L : list (option (Z * ccell))) (Pc Pp : list pitem) (V : view) : Prop := mkVcore {
  vc_laid : laid A cells L;
  vc_comp : pending (zs_comp (fa_state A)) Pc;
  vc_plain : pending (zs_plain (fa_state A)) Pp;
  vc_typed : Forall (typed fuel (fa_mimes A)) (Pc ++ Pp);
  vc_main : mains (fa_main A) (fa_redirects A) V;
  vc_table : table_of A cells L (map pair_of (Pc ++ Pp)) V }.
Definition vclean (A : farchive) (Pc Pp : list pitem) : Prop := is_dirty A = false -> settled A /\ Pc = [] /\ Pp = [].

Lemma vcore_begin : forall A cells L Pc Pp V, vcore A cells L Pc Pp V -> hcoreh A cells L A (map pair_of (Pc ++ Pp)) cells L [] Pc Pp.
Proof. intros A cells L Pc Pp V []. apply hcore_begin; assumption. Qed.
Lemma vcore_after : forall A cells L V A' done cells' L' Pd Pc' Pp', laid A cells L -> mains (fa_main A) (fa_redirects A) V -> table_of A cells L done V ->
  hcoreh A cells L A' done cells' L' Pd Pc' Pp' -> vcore A' cells' L' Pc' Pp' V.
Proof.
  intros A cells L V A' done cells' L' Pd Pc' Pp' LO MN T HV. constructor.
  - exact (hv_laid _ _ _ _ _ _ _ _ _ _ _ _ _ _ HV).
  - exact (hv_comp _ _ _ _ _ _ _ _ _ _ _ _ _ _ HV).
  - exact (hv_plain _ _ _ _ _ _ _ _ _ _ _ _ _ _ HV).
  - pose proof (hv_typed _ _ _ _ _ _ _ _ _ _ _ _ _ _ HV) as TY. apply Forall_app in TY as (_ & TY). exact TY.
  - destruct (hv_buffer _ _ _ _ _ _ _ _ _ _ _ _ _ _ HV) as (-> & ->). exact MN.
  - eapply table_content; eassumption.
Qed.
Lemma entries_vcore : forall A cells L Pc Pp V A' cells' V', vcore A cells L Pc Pp V -> entries_only A cells A' cells' -> mains (fa_main A') (fa_redirects A') V' -> table_of A' cells' L (map pair_of (Pc ++ Pp)) V' ->
  vcore A' cells' L Pc Pp V'.
Proof.
  intros A cells L Pc Pp V A' cells' V' [] EN MN T. constructor.
  - eapply entries_laid; eassumption.
  - rewrite (en_comp _ _ _ _ EN). assumption.
  - rewrite (en_plain _ _ _ _ EN). assumption.
  - eapply typed_later; [exact (proj2 (en_types _ _ _ _ EN))|assumption].
  - exact MN.
  - exact T.
Qed.
Lemma entries_vclean : forall A cells A' cells' Pc Pp, entries_only A cells A' cells' -> vclean A Pc Pp -> vclean A' Pc Pp.
Proof. intros A cells A' cells' Pc Pp EN CL ND. destruct (entries_clean _ _ _ _ EN ND) as (D0 & S). destruct (CL D0) as (S0 & E1 & E2). auto. Qed.

Lemma vcore_count : forall A cells L Pc Pp V, vcore A cells L Pc Pp V -> zlen (pl_ptrs (z_upl (fa_zim A))) = zlen cells /\ zlen (pl_ptrs (ca_ptrs (fa_arch A))) = zlen L.
Proof.
  intros A cells L Pc Pp V []. pose proof (lo_arch _ _ _ _ _ vc_laid0) as AO. split.
  - change (fa_zim A) with (ca_zim (fa_arch A)). rewrite (co_locs _ _ (ao_core _ _ _ _ AO)). apply zlen_map.
  - exact (present_count Stream md5 feed digest _ _ _ AO (lo_present _ _ _ _ _ vc_laid0)).
Qed.

Lemma vcore_room : forall A cells L Pc Pp V n, vcore A cells L Pc Pp V -> counts n A -> zlen (Pc ++ Pp) + zlen (fa_redirects A) <= n -> room 0 cells L (map pair_of (Pc ++ Pp)).
Proof.
  intros A cells L Pc Pp V n VC (C1 & C2) Z. destruct (vcore_count _ _ _ _ _ _ VC) as (E1 & E2). rewrite E1 in C1. rewrite E2 in C2. pose proof (vc_table _ _ _ _ _ _ VC) as T. pose proof (zlen_nonneg (fa_redirects A)). pose proof (zlen_nonneg L).
  split; [eapply NoDup_app_remove_r; exact (tb_distinct _ _ _ _ _ _ _ T)|]. split; [|rewrite zlen_map; lia].
  intros u Hu. unfold urls_of in Hu. apply in_map_iff in Hu as ([it d] & <- & Hi). apply (tb_waiting _ _ _ _ _ _ _ T it d Hi).
Qed.

(** ** Adding *)
Notation performz := (perform_zop fuel dc new_decomp new_comp comp flush depth kd md5 feed digest reserve truncate process_blob rounds).
Lemma vadd_step : forall A cells L Pc Pp V n it d un A', vcore A cells L Pc Pp V -> counts n A -> zlen (Pc ++ Pp) + zlen (fa_redirects A) + 1 <= n ->
  item_ok fuel it d -> V (item_url it) = None -> ~ listing (fa_zim A) (item_url it) -> zlen (ml_types (fa_mimes A')) <= 65535 -> performz A (ZAdd it d un) = (Ok tt, A') ->
  exists cells' L' Pc' Pp', vcore A' cells' L' Pc' Pp' (vput (item_url it) (Some (page_of it d)) V) /\ vclean A' Pc' Pp' /\ fa_redirects A' = fa_redirects A /\ zlen (Pc' ++ Pp') <= zlen (Pc ++ Pp) + 1.
Proof.
  intros A cells L Pc Pp V n it d un A' VC CT Z OK N NL B2 E. pose proof (vc_laid _ _ _ _ _ _ VC) as LO. pose proof (laid_consistent _ _ _ _ _ LO) as C. pose proof (vc_table _ _ _ _ _ _ VC) as T.
  pose proof (extend_item _ _ _ _ _ _ _ C T fuel it d OK N NL) as T2.
  cbn [perform_zop] in E. unfold fa_add_item in E. destruct (zim_add_item fuel new_comp comp flush depth it un (fa_state A)) as [[[]|x] z1] eqn:EZ; [|discriminate E]. injection E as <-.
  assert (RO : room 0 cells L (map pair_of (Pc ++ Pp) ++ added_by [AddItem it d un])).
  { destruct (vcore_count _ _ _ _ _ _ VC) as (E1 & E2). destruct CT as (C1 & C2). rewrite E1 in C1. rewrite E2 in C2. pose proof (zlen_nonneg (fa_redirects A)). pose proof (zlen_nonneg L).
    change (added_by [AddItem it d un]) with [(it, d)]. split; [eapply NoDup_app_remove_r; exact (tb_distinct _ _ _ _ _ _ _ T2)|]. split; [|rewrite zlen_app, zlen_map; change (zlen [(it, d)]) with 1; lia].
    intros u Hu. unfold urls_of in Hu. apply in_map_iff in Hu as ([it1 d1] & <- & Hi). apply (tb_waiting _ _ _ _ _ _ _ T2 it1 d1 Hi). }
  destruct (content_step fuel dc new_decomp new_comp comp flush depth Stream reserve process_blob CD mx A cells L A _ cells L [] Pc Pp (AddItem it d un) z1 (vcore_begin _ _ _ _ _ _ VC) RO)
    as (cells1 & L1 & Pd1 & Pc1 & Pp1 & HV1 & _); [constructor; [exact OK|constructor]|exact B2|exact EZ|].
  exists cells1, L1, Pc1, Pp1. set (A' := fa_set_dirty true (fa_set_state z1 A)) in *.
  assert (HV2 : hcoreh A cells L A' (map pair_of (Pc ++ Pp) ++ [(it, d)]) cells1 L1 Pd1 Pc1 Pp1).
  { destruct HV1. constructor; try assumption. eapply laid_same; [| |exact hv_laid]; reflexivity. }
  assert (MN : mains (fa_main A) (fa_redirects A) (vput (item_url it) (Some (page_of it d)) V)).
  { eapply mains_step; [exact (vc_main _ _ _ _ _ _ VC)|auto|]. intros x q _ Hq B. destruct (list_eq_dec Z.eq_dec x (item_url it)) as [->|Nx]; [rewrite vput_same in Hq; injection Hq as <-; discriminate B|].
    rewrite vput_other in Hq by exact Nx. eauto. }
  split; [exact (vcore_after A cells L _ A' _ cells1 L1 Pd1 Pc1 Pp1 LO MN T2 HV2)|]. split; [intro Q; discriminate Q|]. split; [reflexivity|].
  pose proof (Permutation_length (hv_all _ _ _ _ _ _ _ _ _ _ _ _ _ _ HV2)) as LN. rewrite map_length, !app_length, map_length, app_length in LN. cbn [length] in LN. unfold zlen. rewrite !app_length. lia.
Qed.

(** ** Redirects *)
Lemma vlink_step : forall A cells L Pc Pp V n r A', vcore A cells L Pc Pp V -> vclean A Pc Pp -> counts n A -> 
  V (rsource r) = None -> ~ listing (fa_zim A) (rsource r) -> V (rtarget r) <> None \/ wanted_title r <> None -> ~ listing (fa_zim A) (rtarget r) -> sound r -> (fa_main A = None \/ rtarget r <> URL_MAINPAGE_REDIRECT) -> 0 <= n ->
  on_buffered (add_redirect (S (S depth)) r) A = (Ok tt, A') ->
  exists cells', vcore A' cells' L Pc Pp (vput (rsource r) (Some (link_page V (rtarget r) (wanted_title r))) V) /\ vclean A' Pc Pp /\ zlen (fa_redirects A') <= zlen (fa_redirects A) + 1.
Proof.
  intros A cells L Pc Pp V n r A' VC CL (C1 & C2) N NL NT NLT SO NM N0 E. pose proof (vc_laid _ _ _ _ _ _ VC) as LO. pose proof (laid_consistent _ _ _ _ _ LO) as C. pose proof (vc_table _ _ _ _ _ _ VC) as T.
  destruct (vcore_count _ _ _ _ _ _ VC) as (E1 & E2). rewrite E1 in C1. clear C2.
  pose proof (extend_link _ _ _ _ _ _ _ C T r N NL NT NLT SO) as T2. set (V' := vput _ _ V) in *. pose proof (laid_anchored _ _ _ LO) as AN.
  assert (MN : forall R', (forall x, In x (fa_redirects A) -> In x R') -> mains (fa_main A) R' V').
  { intros R' HR. eapply mains_step; [exact (vc_main _ _ _ _ _ _ VC)|exact HR|]. intros x q ME Hq B. destruct (list_eq_dec Z.eq_dec x (rsource r)) as [->|Nx].
    - unfold V' in Hq. rewrite vput_same in Hq. injection Hq as <-. injection B as B. destruct NM; congruence.
    - unfold V' in Hq. rewrite vput_other in Hq by exact Nx. eauto. }
  unfold on_buffered in E. rewrite add_redirect_eq in E. cbn [b_zim] in E.
  destruct (exists_at_dec (fa_zim A) _ (rtarget r) C) as [EX|AB].
  - destruct (add_full_url_redirect (S (S depth)) (rsource r) (rtarget r) (wanted_title r) (fa_zim A)) as [[b|] s'] eqn:EA; [|discriminate E].
    destruct (link_written process_blob _ _ _ _ _ _ _ _ _ _ _ (ao_core _ _ _ _ (lo_arch _ _ _ _ _ LO)) C AN T2 ltac:(lia) EX EA) as (-> & cells' & ES & T3 & SD & _). injection E as <-.
    exists cells'. set (A' := mkFa _ _ _ _ _).
    assert (EN : entries_only A cells A' cells').
    { constructor; try reflexivity; [exact ES|split; [apply mgood_refl|apply mextends_refl]|exact SD]. }
    split; [exact (entries_vcore _ _ _ _ _ _ _ _ _ VC EN (MN _ (fun _ H => H)) T3)|]. split; [exact (entries_vclean _ _ _ _ _ _ EN CL)|]. cbn. lia.
  - rewrite (add_missing _ _ _ r C SO AB) in E. injection E as <-. exists cells. cbn [b_zim b_set_zim b_redirects b_set_redirects b_main]. set (A' := mkFa _ _ _ _ _).
    assert (ES : fa_state A' = fa_state A) by (destruct A as [[[[z p q] m] sc sp] h dd rr mm]; reflexivity). assert (EM : fa_mimes A' = fa_mimes A) by (destruct A as [[[[z p q] m] sc sp] h dd rr mm]; reflexivity).
    split; [|split].
    + destruct VC. constructor; rewrite ?EM, ?ES; try assumption; [eapply laid_same; [exact ES|reflexivity|assumption]|apply MN; intros x Hx; apply in_or_app; left; exact Hx|]. change (fa_zim A') with (fa_zim A). change (fa_redirects A') with (fa_redirects A ++ [r]).
      eapply table_perm; [|exact T2]. apply Permutation_cons_append.
    + intro ND. change (is_dirty A = false) in ND. destruct (CL ND) as ((S1 & S2 & S3) & Q1 & Q2). split; [|auto]. split; [exact ND|]. unfold fa_hdr, fa_alloc, fa_arch, fa_header in *. split; assumption.
    + change (fa_redirects A') with (fa_redirects A ++ [r]). rewrite zlen_app. reflexivity.
Qed.

(** ** Choosing the main page *)
Lemma vmain_step : forall A cells L Pc Pp V n u A', vcore A cells L Pc Pp V -> vclean A Pc Pp -> counts n A -> allowed fuel A V (VMain u) -> 0 <= n ->
  on_buffered (set_mainpage process_blob (S (S depth)) (Some u)) A = (Ok tt, A') ->
  exists cells', vcore A' cells' L Pc Pp (vstep V (VMain u)) /\ vclean A' Pc Pp /\ zlen (fa_redirects A') <= zlen (fa_redirects A) + 1 /\
    (exists_at (fa_zim A) (NS_C ++ u) /\ fa_redirects A' = fa_redirects A /\ fa_main A' = None /\ main_url (fa_zim A') = Some URL_MAINPAGE_REDIRECT \/
     ~ exists_at (fa_zim A) (NS_C ++ u) /\ fa_main A' = Some (Some u)).
Proof.
  intros A cells L Pc Pp V n u A' VC CL (C1 & _) (MN & VT & NK & HM) N0 E. pose proof (vc_laid _ _ _ _ _ _ VC) as LO. pose proof (laid_consistent _ _ _ _ _ LO) as C. pose proof (vc_table _ _ _ _ _ _ VC) as T.
  destruct (vcore_count _ _ _ _ _ _ VC) as (E1 & _). rewrite E1 in C1. unfold on_buffered in E.
  destruct (set_mainpage process_blob (S (S depth)) (Some u) (mkBuffered (fa_zim A) (fa_redirects A) (fa_main A))) as [r o'] eqn:EM. cbv zeta in E. injection E as -> <-.
  destruct (main_applied process_blob depth (blobs_of L) (ml_types (fa_mimes A)) (map pair_of (Pc ++ Pp)) V u cells (mkBuffered (fa_zim A) (fa_redirects A) (fa_main A)) o' (ao_core _ _ _ _ (lo_arch _ _ _ _ _ LO)) C (laid_anchored _ _ _ LO) T ltac:(lia) MN HM NK VT EM)
    as (cells' & ES & SD & T' & _ & _ & FIN). cbn [b_zim b_redirects] in *. exists cells'. cbn [vstep]. set (V' := vput _ _ V) in *. set (A' := mkFa _ _ _ _ _).
  assert (EN : entries_only A cells A' cells') by (constructor; try reflexivity; [exact ES|split; [apply mgood_refl|apply mextends_refl]|exact SD]).
  split; [|split; [exact (entries_vclean _ _ _ _ _ _ EN CL)|]].
  - apply (entries_vcore _ _ _ _ _ _ _ _ _ VC EN); [|exact T']. change (fa_main A') with (b_main o'). change (fa_redirects A') with (b_redirects o').
    destruct FIN as [(_ & _ & FM & _)|(_ & FR & FM)]; [left; exact FM|]. right. exists u. split; [exact FM|]. split; [rewrite FR; apply in_or_app; right; left; reflexivity|].
    intros x q Hq. unfold V' in Hq. destruct (list_eq_dec Z.eq_dec x URL_MAINPAGE_REDIRECT) as [->|Nx].
    + rewrite vput_same in Hq. injection Hq as <-. discriminate.
    + rewrite vput_other in Hq by exact Nx. exact (NK x q Hq).
  - change (fa_redirects A') with (b_redirects o'). change (fa_main A') with (b_main o'). change (fa_zim A') with (b_zim o'). destruct FIN as [(F1 & F2 & F3 & F4)|(F1 & F2 & F3)].
    + split; [rewrite F2; lia|auto 8].
    + split; [rewrite F2, zlen_app; reflexivity|auto].
Qed.

(** The operation buffer is applied: [T] are the redirects of this round that are still to be tried. *)
Section Buffer.
Variables (s0 : zim) (cells0 : list (Z * entry)) (X : list (option (list bytes))) (types : list bytes) (W : list (item * bytes)) (V : view) (nn : Z).
Hypothesis AN0 : anchored s0.
Hypothesis NN : nn + 1 < 2 ^ 32.
Definition bstate (o : buffered) (T : list rop) : Prop := exists cells, entry_step s0 cells0 (b_zim o) cells /\ steady s0 (b_zim o) /\
  table (b_zim o) (map snd cells) X types W (T ++ b_redirects o) V /\ zlen cells + zlen (T ++ b_redirects o) <= nn.
Lemma buffer_one : forall n r T o o', bstate o (r :: T) -> add_redirect (S (S n)) r o = (Ok tt, o') -> bstate o' T /\ b_main o' = b_main o.
Proof.
  intros n r T o o' (cells & ES & SD & TB & Z) E. pose proof (es_consistent _ _ _ _ ES) as C. pose proof (es_core _ _ _ _ ES) as CO. pose proof (steady_anchored _ _ AN0 SD) as AN.
  rewrite add_redirect_eq in E. cbn [app] in TB, Z. rewrite zlen_cons in Z. pose proof (zlen_nonneg (T ++ b_redirects o)) as ZN.
  destruct (exists_at_dec (b_zim o) _ (rtarget r) C) as [EX|AB].
  - destruct (add_full_url_redirect (S (S n)) (rsource r) (rtarget r) (wanted_title r) (b_zim o)) as [[b|] s'] eqn:EA; [|discriminate E].
    destruct (link_written process_blob _ _ _ _ _ _ _ _ _ _ _ CO C AN TB ltac:(lia) EX EA) as (-> & cells' & ES2 & TB2 & SD2 & Z2). injection E as <-. split; [|reflexivity].
    exists cells'. cbn [b_zim b_set_zim b_redirects]. split; [eapply step_trans; eassumption|]. split; [eapply steady_trans; eassumption|]. split; [exact TB2|lia].
  - destruct (tb_buffer _ _ _ _ _ _ _ TB r (or_introl eq_refl)) as (_ & _ & _ & _ & _ & SO). rewrite (add_missing _ _ _ r C SO AB) in E. injection E as <-. split; [|reflexivity].
    exists cells. cbn [b_zim b_set_zim b_redirects b_set_redirects]. split; [exact ES|]. split; [exact SD|]. split; [|rewrite !zlen_app in *; change (zlen [r]) with 1; lia].
    eapply table_perm; [|exact TB]. rewrite app_assoc. apply Permutation_cons_append.
Qed.
Lemma buffer_round : forall n l o o', bstate o l -> add_redirects (S (S n)) l o = (Ok tt, o') -> bstate o' [] /\ b_main o' = b_main o.
Proof.
  intros n. induction l as [|r l IH]; intros o o' B E; cbn [add_redirects] in E; [injection E as <-; auto|]. unfold mbind in E.
  destruct (add_redirect (S (S n)) r o) as [[[]|] o1] eqn:E1; [|discriminate E]. destruct (buffer_one _ _ _ _ _ B E1) as (B1 & M1). destruct (IH _ _ B1 E) as (B2 & M2). split; [exact B2|congruence].
Qed.
Lemma buffer_loop : forall n k o o', bstate o [] -> apply_loop k (S (S n)) o = (Ok tt, o') -> bstate o' [] /\ b_main o' = b_main o.
Proof.
  intros n. induction k as [|k IH]; intros o o' B E; cbn [apply_loop] in E; [discriminate E|]. cbv zeta in E. unfold mbind in E.
  destruct (add_redirects (S (S n)) (b_redirects o) (b_set_redirects [] o)) as [[[]|] o1] eqn:E1; [|discriminate E].
  assert (B0 : bstate (b_set_redirects [] o) (b_redirects o)).
  { destruct B as (cells & ES & SD & TB & Z). exists cells. cbn [b_zim b_set_redirects b_redirects app] in *. rewrite app_nil_r. auto. }
  destruct (buffer_round _ _ _ _ B0 E1) as (B1 & M1). cbn [b_main b_set_redirects] in M1. destruct (rops_eqb _ _); [injection E as <-; auto|]. destruct (IH _ _ B1 E) as (B2 & M2). split; [exact B2|congruence].
Qed.
Lemma buffer_done : forall n o o', bstate o [] -> mains (b_main o) (b_redirects o) V -> OperationBuffer.finalize process_blob rounds (S (S n)) o = (Ok tt, o') ->
  bstate o' [] /\ b_redirects o' = [] /\ b_main o' = None /\ (b_main o <> None -> main_url (b_zim o') = Some URL_MAINPAGE_REDIRECT).
Proof.
  intros n o o' B M E. unfold OperationBuffer.finalize, apply_redirects, mbind in E. destruct (apply_loop rounds (S (S n)) o) as [[[]|] o1] eqn:E1; [|discriminate E].
  destruct (buffer_loop _ _ _ _ B E1) as (B1 & M1). destruct (b_redirects o1) eqn:ER; [|discriminate E]. unfold apply_set_mainpage_url in E. rewrite M1 in E.
  destruct M as [M|(u & M & HR & NK)]; rewrite M in E; [injection E as <-; split; [exact B1|]; split; [exact ER|]; split; congruence|].
  destruct B as (cells & ES & SD & TB & Z). destruct (tb_buffer _ _ _ _ _ _ _ TB _ HR) as (VW & _ & _ & VT & _). change (rsource (main_redirect u)) with URL_MAINPAGE_REDIRECT in VW. change (rtarget (main_redirect u)) with (NS_C ++ u) in *.
  change (wanted_title (main_redirect u)) with (@None ustr) in *.
  assert (VT' : V (NS_C ++ u) <> None) by (destruct VT; congruence).
  destruct B1 as (cells1 & ES1 & SD1 & TB1 & Z1). cbn [app] in TB1, Z1. rewrite ER in *. pose proof (es_consistent _ _ _ _ ES1) as C1. change (zlen (@nil rop)) with 0 in Z1. unfold mbind in E.
  destruct (set_mainpage process_blob (S (S n)) (Some u) (b_set_main None o1)) as [[[]|] o2] eqn:E2; [|discriminate E].
  destruct (main_applied process_blob n X types W V u cells1 (b_set_main None o1) o2) as (cells2 & ES2 & SD2 & TB2 & _ & Z2 & FIN); try assumption.
  - exact (es_core _ _ _ _ ES1).
  - exact (steady_anchored _ _ AN0 SD1).
  - cbn [b_set_main b_redirects]. rewrite ER. exact TB1.
  - lia.
  - reflexivity.
  - right. split; [|exists (link_page V (NS_C ++ u) None), (NS_C ++ u); auto]. cbn [b_zim b_set_main].
    destruct (tb_page _ _ _ _ _ _ _ TB1 _ _ VW (main_not_listing _)) as [(e & G & _)|[S|[]]]; [exists e; exact G|]. exfalso.
    eapply NoDup_app_disjoint; [exact (tb_distinct _ _ _ _ _ _ _ TB)|exact S|]. apply (in_map rsource) in HR. exact HR.
  - cbn [b_set_main b_zim b_redirects] in *. rewrite ER in *. destruct FIN as [(_ & R2 & M2 & U2)|(_ & R2 & M2)]; rewrite M2 in E; [|discriminate E]. injection E as <-.
    split; [|split; [exact R2|]; split; [exact M2|intros _; exact U2]]. exists cells2. split; [eapply step_trans; eassumption|]. split; [eapply steady_trans; eassumption|]. cbn [app]. rewrite R2 in *.
    split; [|change (zlen (@nil rop)) with 0; specialize (Z2 ltac:(congruence)); lia]. eapply table_ext; [|exact TB2]. intro x. unfold vput. destruct (ueqb x URL_MAINPAGE_REDIRECT) eqn:EX; [|reflexivity].
    apply ueqb_eq in EX. subst x. symmetry. exact VW.
Qed.
End Buffer.

Lemma vbuffer_step : forall A cells L V A', vcore A cells L [] [] V -> zlen cells + zlen (fa_redirects A) + 1 < 2 ^ 32 -> flush_buffer depth process_blob rounds A = (Ok tt, A') ->
  exists cells', vcore A' cells' L [] [] V /\ fa_redirects A' = [] /\ (fa_main A <> None -> main_url (fa_zim A') = Some URL_MAINPAGE_REDIRECT).
Proof.
  intros A cells L V A' VC Z E. pose proof (vc_laid _ _ _ _ _ _ VC) as LO. pose proof (laid_consistent _ _ _ _ _ LO) as C. pose proof (laid_anchored _ _ _ LO) as AN. unfold flush_buffer in E.
  destruct (OperationBuffer.finalize process_blob rounds (S (S depth)) (mkBuffered (fa_zim A) (fa_redirects A) (fa_main A))) as [r o'] eqn:EF. injection E as -> <-.
  assert (B0 : bstate (fa_zim A) cells (blobs_of L) (ml_types (fa_mimes A)) [] V (zlen cells + zlen (fa_redirects A)) (mkBuffered (fa_zim A) (fa_redirects A) (fa_main A)) []).
  { exists cells. cbn [b_zim b_redirects app]. split; [apply step_refl; [exact (ao_core _ _ _ _ (lo_arch _ _ _ _ _ LO))|exact C]|]. split; [apply steady_refl|]. split; [exact (vc_table _ _ _ _ _ _ VC)|lia]. }
  destruct (buffer_done (fa_zim A) cells (blobs_of L) (ml_types (fa_mimes A)) [] V (zlen cells + zlen (fa_redirects A)) AN Z depth _ o' B0 (vc_main _ _ _ _ _ _ VC) EF) as ((cells' & ES & SD & TB & _) & ER & EM & EU).
  exists cells'. cbn [app] in TB. set (A' := mkFa _ _ _ _ _). split; [|split; [exact ER|exact EU]].
  assert (EN : entries_only A cells A' cells').
  { constructor; try reflexivity; [exact ES|split; [apply mgood_refl|apply mextends_refl]|exact SD]. }
  exact (entries_vcore _ _ _ _ _ _ _ _ _ VC EN (or_introl EM) TB).
Qed.

(** ** Flushing and opening again *)
Notation suff := (suffices fuel Stream reserve).
Notation flushesh := (flushes fuel dc new_decomp new_comp comp flush depth kd md5 feed digest reserve truncate process_blob rounds).
Notation fsuff := (flush_suffices fuel dc new_decomp new_comp comp flush depth kd Stream md5 feed digest reserve truncate process_blob rounds).
(** The last phases of a flush keep the main page. *)
Lemma tail_main : forall A done cells L A', hcoreh A cells L A done cells L [] [] [] -> suff A ->
  (forall A2, (let* _ := sync_main in flush_articles fuel dc new_decomp new_comp comp flush kd) A = (Ok tt, A2) -> suff A2 /\ forall A3, flush_titles fuel dc new_decomp new_comp comp flush depth kd A2 = (Ok tt, A3) -> suff A3) ->
  flush_tail fuel dc new_decomp new_comp comp flush depth kd md5 feed digest reserve truncate A = (Ok tt, A') -> main_url (fa_zim A') = main_url (fa_zim A).
Proof.
  intros A done cells L A' HV (F0 & FA & FT & FE) SA E. pose proof (hv_laid _ _ _ _ _ _ _ _ _ _ _ _ _ _ HV) as LO.
  destruct (tail_ok fuel dc new_decomp new_comp comp flush depth kd Stream reserve CD md5 feed digest HO truncate A cells L A' LO) as (L' & A4 & ES4 & LO' & SV & VW); [| | |exact E|].
  - split; [exact F0|]. split; [exact (FA _ _ LO)|]. split; [exact FT|]. intros t Ht. split; [exact (FE t Ht)|]. intros B0 B1 L2 HB0 HB1 HL.
    destruct (SA B1) as ((_ & G & _) & G2); [unfold mbind; rewrite HB0; exact HB1|]. split; [exact (G _ _ HL)|]. intros B2 L3 HB2 HL2. destruct (G2 B2 HB2) as (_ & G3 & _). exact (G3 _ _ HL2).
  - eapply pending_idle. exact (hv_comp _ _ _ _ _ _ _ _ _ _ _ _ _ _ HV).
  - eapply pending_idle. exact (hv_plain _ _ _ _ _ _ _ _ _ _ _ _ _ _ HV).
  - pose proof (laid_consistent _ _ _ _ _ LO) as C. pose proof (laid_consistent _ _ _ _ _ LO') as C'. pose proof (sv_main _ _ _ _ VW) as EM. unfold sync_main in ES4. destruct (assign_inv _ _ _ _ _ ES4) as (h4 & _ & ->).
    change (fa_zim (fa_set_header h4 A)) with (fa_zim A) in EM. exact (main_again _ _ _ C C' EM).
Qed.
Lemma vflush_step : forall A cells L Pc Pp V n A', vcore A cells L Pc Pp V -> vclean A Pc Pp -> allowed fuel A V VFlush -> counts n A -> zlen (Pc ++ Pp) + zlen (fa_redirects A) <= n ->
  zlen (ml_types (fa_mimes A)) <= 65535 -> fsuff A -> flushesh A = (Ok tt, A') -> exists cells' L', vcore A' cells' L' [] [] V /\ settled A' /\ fa_redirects A' = [] /\
  (fa_main A <> None -> main_url (fa_zim A') = Some URL_MAINPAGE_REDIRECT).
Proof.
  intros A cells L Pc Pp V n A' VC CL OK CT ZQ B3 (FS & _) E. unfold flushes, zim_flush, mbind in E. pose proof (vcore_begin _ _ _ _ _ _ VC) as HV. pose proof (vc_laid _ _ _ _ _ _ VC) as LO.
  destruct (sync_main A) as [[[]|] A1] eqn:E1; [|discriminate E]. destruct (header_step _ _ _ _ _ _ _ _ _ _ _ _ _ _ _ HV E1) as (HV1 & ES & DI).
  destruct (is_dirty A1) eqn:ED; cbn [negb] in E.
  2:{ injection E as <-. rewrite (DI eq_refl) in *. destruct (CL ED) as (S & -> & ->). exists cells, L. split; [exact VC|]. split; [exact S|]. destruct OK as [OK|OK]; [congruence|].
      destruct (fa_redirects A) as [|r R] eqn:ER; [split; [reflexivity|]; intro Q; elim Q; eapply mains_none; rewrite <- ER; exact (vc_main _ _ _ _ _ _ VC)|]. exfalso. pose proof (vc_table _ _ _ _ _ _ VC) as T. rewrite ER in T. destruct (tb_buffer _ _ _ _ _ _ _ T r (or_introl eq_refl)) as (V1 & V2 & V3 & _).
      apply (not_both _ _ (rsource r) (laid_consistent _ _ _ _ _ LO)); [apply OK; [congruence|exact V3]|exact V2]. }
  destruct (flush_content _ _ _ _ _ _ _ A1) as [[[]|] A2] eqn:E2; [|discriminate E].
  destruct (FS A2) as (SU & SA); [unfold mbind; rewrite E1; exact E2|]. unfold flush_content, mbind in E2.
  destruct (flush_strategies _ _ _ _ _ A1) as [[[]|] A3] eqn:E3; [|discriminate E2].
  destruct (strategies_step fuel dc new_decomp new_comp comp flush depth Stream reserve process_blob CD mx A cells L A1 _ cells L [] Pc Pp A3 HV1 (vcore_room _ _ _ _ _ _ _ VC CT ZQ)) as (cells1 & L1 & Pd1 & HV2);
    [change (fa_mimes A1) with (sa_mimes (zs_arch (fa_state A1))); rewrite ES; exact B3|exact E3|].
  pose proof (vcore_after A cells L V A3 _ cells1 L1 Pd1 [] [] LO (vc_main _ _ _ _ _ _ VC) (vc_table _ _ _ _ _ _ VC) HV2) as VC3.
  assert (ZC : zlen cells1 + zlen (fa_redirects A3) + 1 < 2 ^ 32).
  { pose proof (Permutation_length (hv_urls _ _ _ _ _ _ _ _ _ _ _ _ _ _ HV2)) as LN. rewrite app_length, !map_length in LN. pose proof (Permutation_length (hv_all _ _ _ _ _ _ _ _ _ _ _ _ _ _ HV2)) as LN2.
    rewrite !map_length, !app_length in LN2. cbn [length] in LN2. destruct (hv_buffer _ _ _ _ _ _ _ _ _ _ _ _ _ _ HV2) as (-> & _). destruct (vcore_count _ _ _ _ _ _ VC) as (Q1 & _). destruct CT as (C1 & _). rewrite Q1 in C1.
    unfold zlen in *. rewrite app_length in ZQ. lia. }
  destruct (vbuffer_step A3 cells1 L1 V A2 VC3 ZC E2) as (cells2 & VC2 & ER & EU).
  destruct (tail_step fuel dc new_decomp new_comp comp flush depth kd Stream reserve md5 feed digest truncate CD HO mx A2 cells2 L1 A2 [] cells2 L1 [] A' (vcore_begin _ _ _ _ _ _ VC2) SU SA E) as (L' & HV3 & S1 & S2).
  exists cells2, L'. split; [exact (vcore_after A2 cells2 L1 V A' _ cells2 L' [] [] [] (vc_laid _ _ _ _ _ _ VC2) (vc_main _ _ _ _ _ _ VC2) (vc_table _ _ _ _ _ _ VC2) HV3)|]. split; [exact S1|].
  destruct (hv_buffer _ _ _ _ _ _ _ _ _ _ _ _ _ _ HV3) as (-> & _). split; [exact ER|]. intro MN. rewrite (tail_main _ _ _ _ _ (vcore_begin _ _ _ _ _ _ VC2) SU SA E). apply EU.
  rewrite (proj2 (hv_buffer _ _ _ _ _ _ _ _ _ _ _ _ _ _ HV2)). exact MN.
Qed.
Lemma vopen_step : forall A cells L V sc sp, vcore A cells L [] [] V -> settled A -> fa_redirects A = [] -> suff A -> fresh_strategy sc -> fresh_strategy sp -> limit_of sc <= mx -> limit_of sp <= mx ->
  exists B, open_zim fuel dc new_decomp new_comp comp flush depth kd (fa_file A) true sc sp = Ok B /\ same_archive A B /\ vcore B cells L [] [] V /\ settled B /\ fa_redirects B = [].
Proof.
  intros A cells L V sc sp VC SE ER SU F1 F2 M1 M2. assert (NB : no_buffer A) by (split; [exact ER|eapply mains_none; rewrite <- ER; exact (vc_main _ _ _ _ _ _ VC)]).
  destruct (reopen_step fuel dc new_decomp new_comp comp flush depth kd Stream reserve md5 feed digest CD mx A cells L A [] cells L [] sc sp NB (vcore_begin _ _ _ _ _ _ VC) SE SU F1 F2 M1 M2)
    as (B & EO & SA & HV & SB & _). exists B. split; [exact EO|]. split; [exact SA|].
  split; [exact (vcore_after A cells L V B _ cells L [] [] [] (vc_laid _ _ _ _ _ _ VC) (vc_main _ _ _ _ _ _ VC) (vc_table _ _ _ _ _ _ VC) HV)|]. split; [exact SB|].
  destruct (hv_buffer _ _ _ _ _ _ _ _ _ _ _ _ _ _ HV) as (-> & _). exact ER.
Qed.

(** ** Editing and removing *)
Lemma article_found : forall A cells L u us, laid A cells L -> article_urls (fa_zim A) = Some us -> In u us -> in_C u = true /\ exists_at (fa_zim A) u.
Proof.
  intros A cells L u us LO U Hu. pose proof (laid_consistent _ _ _ _ _ LO) as C. apply (article_urls_in _ _ _ C U) in Hu as (i & e & Hi & Z1 & Z2).
  pose proof (co_articles _ _ (ao_core _ _ _ _ (lo_arch _ _ _ _ _ LO)) i e Hi Z1) as NS. subst u. split; [apply ns_C_full_url; exact NS|]. exists e. apply (lookup_iff _ _ _ _ C). split; [|reflexivity].
  eapply PointerListProofs.znth_in. exact Z1.
Qed.
Lemma vedit_step : forall A cells L Pc Pp V u l A', vcore A cells L Pc Pp V -> vclean A Pc Pp -> allowed fuel A V (VEdit u l) -> edit_entry depth u l A = (Ok tt, A') ->
  exists cells', vcore A' cells' L Pc Pp (vstep V (VEdit u l)) /\ vclean A' Pc Pp /\ fa_redirects A' = fa_redirects A.
Proof.
  intros A cells L Pc Pp V u l A' VC CL (p & m & d & Vu & Bu & NL & NK & FR & NC & ZL) E. cbn [vstep]. rewrite Vu. unfold edit_entry in E.
  pose proof (vc_laid _ _ _ _ _ _ VC) as LO. pose proof (laid_consistent _ _ _ _ _ LO) as C. pose proof (vc_table _ _ _ _ _ _ VC) as T. pose proof (laid_anchored _ _ _ LO) as AN.
  destruct (get_entry_by_full_url (fa_zim A) u) as [e0|] eqn:G0; [|discriminate E]. assert (EX : exists_at (fa_zim A) u) by (exists e0; exact G0).
  destruct (page_in_archive _ _ _ _ _ _ _ C T u p Vu NL EX) as (e1 & G1 & T1 & A1 & B1). rewrite G0 in G1. injection G1 as <-. rewrite Bu in B1. destruct B1 as (c & b & bl & K0 & M0 & Z1 & Z2 & NLB).
  pose proof G0 as G0'. apply (lookup_iff _ _ _ _ C) in G0' as (HI & HU). pose proof (consistent_storable _ _ _ C HI) as ST0.
  destruct (article_urls_ok _ _ C) as (us & U0 & ND0). specialize (A1 us U0).
  destruct (assign_all l (eobj_read e0, fa_mimes A)) as [r [o ml]] eqn:EAS. destruct r as [[]|]; [|discriminate E].
  assert (P0 : pairs e0 u p d (fa_mimes A) [] (eobj_read e0) (fa_mimes A) u p).
  { constructor; cbn [eobj_read eo_went attrs fresh w_entry w_old_url w_force eo_mutable eo_dirty]; try assumption; try reflexivity; try discriminate; auto.
    - split; [exact ST0|exact (consistent_kind _ _ _ C HI)].
    - exists m. auto.
    - intro Q. apply A1 in Q. exact (proj1 (article_found _ _ _ _ _ LO U0 Q)).
    - split; [apply mgood_refl|apply mextends_refl].
    - change (zlen (@nil field)) with 0. lia. }
  pose proof (pairs_all e0 u p d (fa_mimes A) l [] _ _ u p o ml ltac:(eauto) P0 ltac:(change (zlen (@nil field)) with 0; lia) EAS) as PR. unfold set_fields in *. destruct (fold_left set_field l (u, p)) as [v q]. cbn [app fst] in *.
  destruct PR. destruct pr_body as (m' & BQ & MQ). destruct pr_types as (MG & MX).
  assert (SA : stays_article (fa_zim A) u (eo_went o) <-> pg_article q = true).
  { unfold stays_article. destruct (w_force (eo_went o)) as [fb|] eqn:EF; [rewrite (pr_forced fb eq_refl); reflexivity|]. rewrite (pr_kept eq_refl) in *. split.
    - intros (_ & us2 & U2 & Hin). rewrite U0 in U2. injection U2 as <-. apply A1. exact Hin.
    - intro Q. split; [|exists us; split; [exact U0|apply A1; exact Q]]. apply full_url_in_C; [exact (proj1 pr_ok)|]. change (w_entry (eo_went o)) with (attrs o). rewrite pr_url. auto. }
  set (A1' := fa_set_mimes ml A) in *.
  assert (KEY : forall s' cells', entry_step (fa_zim A) cells s' cells' -> ArchiveEdit.edited (fa_zim A) u (eo_went o) s' -> 
     exists cells', vcore (fa_set_zim s' A1') cells' L Pc Pp (vput v (Some q) (vput u None V)) /\ vclean (fa_set_zim s' A1') Pc Pp /\ fa_redirects (fa_set_zim s' A1') = fa_redirects A).
  { intros s' cells' ES EDI. assert (SD : steady (fa_zim A) s').
    { constructor; [intro; apply tracks_listing; exact (es_tracks _ _ _ _ ES)|]. intros y e2 HL G2. destruct (ei_others _ _ _ _ EDI y e2) as (e3 & G3 & S3 & _); [congruence|exact G2|]. eauto. }
    exists cells'. assert (EN : entries_only A cells (fa_set_zim s' A1') cells') by (constructor; try reflexivity; [exact ES|split; assumption|exact SD]).
    split; [|split; [exact (entries_vclean _ _ _ _ _ _ EN CL)|reflexivity]]. eapply entries_vcore; [exact VC|exact EN| |].
    { eapply mains_step; [exact (vc_main _ _ _ _ _ _ VC)|auto|]. intros x q1 _ Hq B. destruct (list_eq_dec Z.eq_dec x v) as [->|Nx]; [rewrite vput_same in Hq; injection Hq as <-; congruence|].
      rewrite vput_other in Hq by exact Nx. destruct (list_eq_dec Z.eq_dec x u) as [->|Nu]; [rewrite vput_same in Hq; discriminate Hq|]. rewrite vput_other in Hq by exact Nu. eauto. }
    change (fa_zim (fa_set_zim s' A1')) with s'. change (fa_redirects (fa_set_zim s' A1')) with (fa_redirects A). change (fa_mimes (fa_set_zim s' A1')) with ml.
    rewrite <- pr_url. change (attrs o) with (w_entry (eo_went o)).
    eapply (edit_table _ _ _ _ _ _ _ C AN T s' (map snd cells') (ml_types ml) u p q m d (eo_went o) (es_consistent _ _ _ _ ES) SD EDI EX NL Vu Bu); try assumption.
    - change (w_entry (eo_went o)) with (attrs o). rewrite pr_url. tauto.
    - intros e2 G2. rewrite G0 in G2. injection G2 as <-. split; [exact pr_kind|]. eauto. }
  unfold on_zim, mbind, eobj_flush in E. rewrite pr_mutable in E. cbn [negb] in E. change (fa_zim A1') with (fa_zim A) in E. destruct (eo_dirty o) eqn:ED.
  - unfold mbind in E. destruct (write_entry (S (S depth)) (eo_went o) (fa_zim A)) as [[[]|] s'] eqn:EW; [|discriminate E]. injection E as <-.
    assert (EDI : editable (fa_zim A) u (eo_went o)).
    { constructor; try assumption; change (w_entry (eo_went o)) with (attrs o).
      - exact (proj1 pr_ok).
      - exact (proj2 pr_ok).
      - rewrite pr_kind. eauto.
      - destruct FR as [F|(F & FL & _)]; [left; congruence|right]. destruct (unused _ _ _ _ _ _ _ C T v F FL) as (AB & _). rewrite <- pr_url in AB. 
        destruct pr_ok as ((_ & (x & EN) & ((b1 & EU) & _) & _) & _). apply (missing_iff _ _ _ ([x] ++ b1) C); [|exact AB]. unfold full_url. apply utf8_encode_app; assumption.
      - intros x Q. destruct (list_eq_dec Z.eq_dec x u) as [->|Nx]; [|exact (no_links _ _ _ _ _ _ _ C AN T u x (fun y q0 Hy HB => False_ind _ (NK y q0 Hy HB)) Nx Q)].
        destruct Q as (d0 & Q1 & Q2). rewrite G0 in Q1. injection Q1 as <-. unfold target_url in Q2. rewrite K0 in Q2. discriminate Q2.
      - rewrite pr_url. tauto.
      - intro Q. apply full_url_in_C; [exact (proj1 pr_ok)|]. rewrite pr_url. apply pr_in_C. exact (pr_forced true Q).
      - intros Q1 Q2. apply ns_C_full_url in Q2. rewrite pr_url in Q2. destruct (NC Q2) as [Q3|(b1 & Q3)]; [exact Q3|]. exfalso. exact (pr_seen b1 Q3 Q1). }
    destruct (edit_step _ _ _ _ _ _ (ao_core _ _ _ _ (lo_arch _ _ _ _ _ LO)) C EDI EW) as (cells' & ES). exact (KEY s' cells' ES (edit_law _ _ _ _ _ _ C EDI EW)).
  - injection E as <-. destruct pr_clean as [->|Q]; [|congruence]. apply (KEY (fa_zim A) cells).
    + apply step_refl; [exact (ao_core _ _ _ _ (lo_arch _ _ _ _ _ LO))|exact C].
    + cbn [eobj_read eo_went]. constructor; cbn [fresh w_entry w_force]; rewrite ?HU.
      * eauto.
      * exact G0.
      * congruence.
      * intros x e2 _ G2. exists e2. split; [exact G2|]. split; [|reflexivity]. unfold same_entry. destruct (e_kind e2); auto 10.
      * auto.
      * intros us2 Q. rewrite U0 in Q. injection Q as <-. exists us. split; [exact U0|]. split; [assumption|]. change (fresh e0) with (eo_went (eobj_read e0)). rewrite (pr_kept eq_refl) in SA. rewrite <- A1 in SA.
        intro x. rewrite SA. destruct (list_eq_dec Z.eq_dec x u) as [->|Nx]; tauto.
Qed.

Lemma vremove_step : forall A cells L Pc Pp V u A', vcore A cells L Pc Pp V -> vclean A Pc Pp -> allowed fuel A V (VRemove u) -> remove_entry_at depth u A = (Ok tt, A') ->
  exists cells', vcore A' cells' L Pc Pp (vput u None V) /\ vclean A' Pc Pp /\ fa_redirects A' = fa_redirects A.
Proof.
  intros A cells L Pc Pp V u A' VC CL (p & Vu & NL & NK & AR) E. unfold remove_entry_at in E.
  pose proof (vc_laid _ _ _ _ _ _ VC) as LO. pose proof (laid_consistent _ _ _ _ _ LO) as C. pose proof (vc_table _ _ _ _ _ _ VC) as T. pose proof (laid_anchored _ _ _ LO) as AN.
  destruct (get_entry_by_full_url (fa_zim A) u) as [e0|] eqn:G0; [|discriminate E]. assert (EX : exists_at (fa_zim A) u) by (exists e0; exact G0).
  destruct (page_in_archive _ _ _ _ _ _ _ C T u p Vu NL EX) as (e1 & G1 & _ & A1 & _). pose proof G0 as G0'. apply (lookup_iff _ _ _ _ C) in G0' as (_ & HU).
  unfold on_zim, eobj_remove in E. cbn [eobj_read eo_mutable negb attrs eo_went fresh w_entry] in E. rewrite HU in E. destruct (remove_entry keep_blob (S (S depth)) u (fa_zim A)) as [[[]|] s'] eqn:EW; [|discriminate E]. injection E as <-.
  assert (DE : deletable (fa_zim A) u).
  { constructor; [exact EX| |].
    - intros x Nx Q. exact (no_links _ _ _ _ _ _ _ C AN T u x NK Nx Q).
    - intros us U. specialize (A1 us U). destruct AR as [AR|AR]; [left; apply A1; exact AR|right]. intros x Hx. destruct (article_found _ _ _ _ _ LO U Hx) as (HC & EXx).
      destruct EXx as (ex & Gx). destruct (tb_only _ _ _ _ _ _ _ T x ex Gx) as [HL|HV]; [rewrite (listing_not_C _ _ HL) in HC; discriminate HC|]. destruct (V x) as [q|] eqn:EQ; [|congruence].
      apply (AR x q EQ). assert (NLx : ~ listing (fa_zim A) x) by (intro HL; rewrite (listing_not_C _ _ HL) in HC; discriminate HC).
      destruct (page_in_archive _ _ _ _ _ _ _ C T x q EQ NLx) as (e2 & _ & _ & A2 & _); [exists ex; exact Gx|]. apply (A2 us U). exact Hx. }
  destruct (delete_step _ _ _ _ _ (ao_core _ _ _ _ (lo_arch _ _ _ _ _ LO)) C DE EW) as (cells' & ES). pose proof (delete_law _ _ _ _ _ C DE EW) as DL. exists cells'.
  assert (SD : steady (fa_zim A) s').
  { constructor; [intro; apply tracks_listing; exact (es_tracks _ _ _ _ ES)|]. intros y e2 HL G2. destruct (dl_others _ _ _ DL y e2) as (e3 & G3 & S3 & _); [congruence|exact G2|]. eauto. }
  assert (EN : entries_only A cells (fa_set_zim s' A) cells') by (constructor; try reflexivity; [exact ES|split; [apply mgood_refl|apply mextends_refl]|exact SD]).
  split; [|split; [exact (entries_vclean _ _ _ _ _ _ EN CL)|reflexivity]]. eapply entries_vcore; [exact VC|exact EN| |].
  { eapply mains_step; [exact (vc_main _ _ _ _ _ _ VC)|auto|]. intros x q1 _ Hq B. destruct (list_eq_dec Z.eq_dec x u) as [->|Nu]; [rewrite vput_same in Hq; discriminate Hq|]. rewrite vput_other in Hq by exact Nu. eauto. }
  exact (remove_table _ _ _ _ _ _ _ C AN T s' (map snd cells') u (es_consistent _ _ _ _ ES) SD DL EX NK).
Qed.

(** ** Setting the content *)
Lemma vcontent_step : forall A cells L Pc Pp V u d A', vcore A cells L Pc Pp V -> suff A -> allowed fuel A V (VContent u d) ->
  content_of fuel dc new_decomp new_comp comp flush kd u d A = (Ok tt, A') ->
  exists L', vcore A' cells L' Pc Pp (vstep V (VContent u d)) /\ vclean A' Pc Pp /\ fa_redirects A' = fa_redirects A.
Proof.
  intros A cells L Pc Pp V u d A' VC (HF & AM & _) (p & m & d0 & Vu & Bu & NL & ZD & OW) E. cbn [vstep]. rewrite Vu, Bu. unfold content_of, mbind in E.
  pose proof (vc_laid _ _ _ _ _ _ VC) as LO. pose proof (laid_consistent _ _ _ _ _ LO) as C. pose proof (vc_table _ _ _ _ _ _ VC) as T. pose proof (laid_anchored _ _ _ LO) as AN.
  destruct (set_listing fuel dc new_decomp new_comp comp flush kd u d A) as [[x|] A1] eqn:SL; [|discriminate E]. injection E as <-.
  assert (EX : exists_at (fa_zim A) u) by (unfold set_listing in SL; destruct (get_entry_by_full_url (fa_zim A) u) as [e0|] eqn:G0; [exists e0; exact G0|discriminate SL]).
  destruct (page_in_archive _ _ _ _ _ _ _ C T u p Vu NL EX) as (e & G & T1 & A1' & B1). rewrite Bu in B1. destruct B1 as (c & b & bl & K0 & M0 & Z1 & Z2 & NLB).
  pose proof (znth_some _ _ _ Z2) as RB.
  destruct (set_content_ok fuel dc new_decomp new_comp comp flush kd Stream reserve CD A cells L u e c b bl d x A1 LO (AM _ _ LO) HF ZD G K0 Z1 RB SL) as (L' & a & o & _ & -> & AO' & NN & EBL & FR & (f & al & EZ) & PD & _).
  set (A1 := fa_set_arch a A) in *. set (V' := vput u _ V).
  assert (LK : forall v, get_entry_by_full_url (fa_zim A1) v = get_entry_by_full_url (fa_zim A) v).
  { intro v. eapply arch_lookup; [exact (lo_arch _ _ _ _ _ LO)|exact AO']. }
  assert (AT : z_atpl (fa_zim A1) = z_atpl (fa_zim A)) by (unfold fa_zim at 1; change (fa_arch A1) with a; rewrite EZ; reflexivity).
  assert (ET : z_etpl (fa_zim A1) = z_etpl (fa_zim A)) by (unfold fa_zim at 1; change (fa_arch A1) with a; rewrite EZ; reflexivity).
  assert (LI : forall v, listing (fa_zim A1) v <-> listing (fa_zim A) v) by (intro v; unfold listing; rewrite ET; reflexivity).
  assert (NB : forall url l c' b', listing (fa_zim A) url -> kept_at (fa_zim A) (blobs_of L) url l c' b' -> (c', b') <> (c, b)).
  { intros url l c' b' HL (e' & _ & G' & K' & _) Q. injection Q as -> ->. apply NLB. exists url, e'. auto. }
  assert (LO' : laid A1 cells L').
  { eapply laid_content; [exact LO|reflexivity|apply mtracks_refl|exact (lo_types _ _ _ _ _ LO)|exact AO'|exact NN|exact FR|].
    destruct (lo_listings _ _ _ _ _ LO) as (c0 & b0 & K1 & KE). unfold listings_ok. rewrite AT, ET, EBL. exists c0, b0. split.
    - eapply kept_moves; [exact LK|exact Z1|exact RB|exact K1|]. left. eapply NB; [left; reflexivity|exact K1].
    - intros t Ht. destruct (KE t Ht) as (c1 & b1 & K2 & N1). exists c1, b1. split; [|exact N1]. eapply kept_moves; [exact LK|exact Z1|exact RB|exact K2|].
      left. eapply NB; [right; split; [reflexivity|congruence]|exact K2]. }
  pose proof (laid_consistent _ _ _ _ _ LO') as C'. destruct (article_urls_ok _ _ C) as (us & U0 & _). destruct (listed_again _ _ _ us C C' (f_equal pl_ptrs AT) U0) as (us' & U1 & PU).
  assert (AR : forall v, In v us <-> In v us') by (intro v; split; intro Q; [eapply Permutation_in; [apply Permutation_sym; exact PU|exact Q]|eapply Permutation_in; [exact PU|exact Q]]).
  assert (TG : forall w, In w (map snd cells) -> target_url (fa_zim A1) w = target_url (fa_zim A) w).
  { intros w Hw. destruct (target_url (fa_zim A) w) as [v|] eqn:TV.
    - apply (target_iff _ _ _ _ C) in TV. apply (target_iff _ _ _ _ C'). exact TV.
    - destruct (target_url (fa_zim A1) w) as [v|] eqn:TV'; [|reflexivity]. apply (target_iff _ _ _ _ C') in TV'. apply (target_iff _ _ _ _ C) in TV'. congruence. }
  assert (LB : forall c' b', listing_blob (fa_zim A1) c' b' -> listing_blob (fa_zim A) c' b').
  { intros c' b' (url & e' & HU & G' & K'). exists url, e'. rewrite LK in G'. split; [exact (proj1 (LI url) HU)|auto]. }
  exists L'. split; [|split].
  - destruct VC. constructor; try assumption.
    { eapply mains_step; [exact vc_main0|auto|]. intros x0 q1 _ Hq B. destruct (list_eq_dec Z.eq_dec x0 u) as [->|Nu]; [unfold V' in Hq; rewrite vput_same in Hq; injection Hq as <-; discriminate B|].
      unfold V' in Hq. rewrite vput_other in Hq by exact Nu. eauto. }
    change (fa_redirects A1) with (fa_redirects A). change (fa_mimes A1) with (fa_mimes A). rewrite EBL. destruct T as [P1 P2 P3 P4 P5].
    assert (VO : forall v, v <> u -> V' v = V v) by (intros v N; apply vput_other; exact N).
    assert (VN : forall v, V v <> None -> V' v <> None) by (intros v N; destruct (list_eq_dec Z.eq_dec v u) as [->|N2]; [unfold V'; rewrite vput_same; discriminate|rewrite VO; assumption]).
    assert (ABU : forall v, absent (map snd cells) v -> v <> u) by (intros v Ha Q; subst v; exact (not_both _ _ u C EX Ha)).
    constructor.
    + intros v q Hq NLv. rewrite LI in NLv. destruct (list_eq_dec Z.eq_dec v u) as [->|N].
      * left. unfold V' in Hq. rewrite vput_same in Hq. injection Hq as <-. exists e. rewrite LK. split; [exact G|]. split; [exact T1|]. split; [intros us2 Q; rewrite U1 in Q; injection Q as <-; rewrite <- AR; exact (A1' us U0)|].
        cbn [pg_body]. destruct (replaced_blob (blobs_of L) c b bl d c bl Z1 RB Z1) as (bl2 & H1 & _ & _ & H4). exists c, b, bl2. split; [exact K0|]. split; [exact M0|]. split; [exact H1|]. split; [exact (H4 eq_refl)|].
        intro Q. apply NLB. auto.
      * rewrite VO in Hq by exact N. destruct (P1 v q Hq NLv) as [S|[S|S]]; [left|auto|auto]. destruct S as (e1 & G1 & S1 & S2 & S3). exists e1. rewrite LK. split; [exact G1|]. split; [exact S1|].
        split; [intros us2 Q; rewrite U1 in Q; injection Q as <-; rewrite <- AR; exact (S2 us U0)|]. destruct (pg_body q) as [m1 d1|t1].
        -- destruct S3 as (c1 & b1 & bl1 & K1 & M1 & Y1 & Y2 & NLB1). destruct (replaced_blob (blobs_of L) c b bl d c1 bl1 Z1 RB Y1) as (bl2 & H1 & _ & H3 & _). exists c1, b1, bl2.
           split; [exact K1|]. split; [exact M1|]. split; [exact H1|]. split; [|intro Q; apply NLB1; auto]. rewrite H3; [exact Y2|]. intro Q. injection Q as -> ->. apply N. apply (OW v e e1 ltac:(congruence) G G1). congruence.
        -- rewrite TG; [exact S3|]. apply (lookup_iff _ _ _ _ C) in G1 as (G1 & _). exact G1.
    + intros v e1 G1. rewrite LI. rewrite LK in G1. destruct (P2 v e1 G1) as [HL|HV]; auto.
    + intros it dd Hi. destruct (P3 it dd Hi) as (W1 & W2 & W3 & W4). rewrite LI, VO by (apply ABU; exact W2). auto.
    + intros r Hr. destruct (P4 r Hr) as (W1 & W2 & W3 & W4 & W5 & W6). rewrite !LI, (VO (rsource r)) by (apply ABU; exact W2). split; [|destruct W4; auto 8]. rewrite W1. f_equal. unfold link_page. f_equal.
      destruct (wanted_title r); [reflexivity|]. destruct (list_eq_dec Z.eq_dec (rtarget r) u) as [->|N]; [|rewrite VO by exact N; reflexivity]. unfold V'. rewrite vput_same, Vu. reflexivity.
    + exact P5.
  - intro Q. exfalso. unfold is_dirty in Q. change (fa_arch A1) with a in Q. rewrite PD in Q. rewrite !orb_true_r in Q. discriminate Q.
  - reflexivity.
Qed.

(** ** What is seen from outside *)
Lemma same_shows : forall A B V, same_archive A B -> shows fuel dc new_decomp kd A V -> shows fuel dc new_decomp kd B V.
Proof.
  intros A B V [S1 S2 S3 S4 S5 S6 S7 S8] SH u NL.
  assert (LI : forall x, listing (fa_zim B) x <-> listing (fa_zim A) x) by (intro x; unfold listing; unfold same_lists in S7; destruct (z_etpl (fa_zim B)), (z_etpl (fa_zim A)); try discriminate; try contradiction; intuition (try congruence; discriminate)).
  assert (EL : forall x, get_entry_by_full_url (fa_zim B) x = get_entry_by_full_url (fa_zim A) x) by (intro x; apply lookup_ext; assumption).
  rewrite LI in NL. specialize (SH u NL). destruct (V u) as [p|]; [|intro e; rewrite EL; apply SH]. destruct SH as (e & us & G & T & U & AR & BD). exists e, us. rewrite EL. split; [exact G|]. split; [exact T|].
  split; [rewrite <- U; apply articles_ext; assumption|]. split; [exact AR|]. destruct (pg_body p) as [m d|v].
  - destruct BD as (c & b & K1 & M1 & R1 & NB). exists c, b. split; [exact K1|]. split; [rewrite S3; exact M1|]. split; [rewrite <- R1; apply read_ext; assumption|].
    intros (url & e2 & HL & G2 & K2). apply NB. exists url, e2. rewrite EL in G2. split; [exact (proj1 (LI url) HL)|auto].
  - rewrite <- BD. apply target_ext; assumption.
Qed.
Lemma table_shows : forall A cells L V, laid A cells L -> ample fuel (fa_arch A) (blobs_of L) -> table (fa_zim A) (map snd cells) (blobs_of L) (ml_types (fa_mimes A)) [] [] V -> shows fuel dc new_decomp kd A V.
Proof.
  intros A cells L V LO AM T u NL. pose proof (laid_consistent _ _ _ _ _ LO) as C. pose proof (lo_arch _ _ _ _ _ LO) as AO. destruct (article_urls_ok _ _ C) as (us & U0 & _). destruct (V u) as [p|] eqn:EV.
  - destruct (tb_page _ _ _ _ _ _ _ T u p EV NL) as [S|[[]|[]]]. destruct S as (e & G & TI & A1 & B). exists e, us. split; [exact G|]. split; [exact TI|]. split; [exact U0|]. split; [exact (A1 us U0)|].
    destruct (pg_body p) as [m d|v]; [|exact B]. destruct B as (c & b & bl & K1 & M1 & Z1 & Z2 & NB). exists c, b. split; [exact K1|]. split; [exact M1|]. split; [|exact NB].
    destruct (shown_all fuel dc new_decomp new_comp comp flush kd Stream CD (fa_arch A) cells L c bl AO AM Z1) as (_ & R0). pose proof (znth_some _ _ _ Z2). rewrite (R0 b ltac:(lia)), Z2. reflexivity.
  - intros e G. destruct (tb_only _ _ _ _ _ _ _ T u e G); congruence.
Qed.
Lemma shows_table : forall A cells L V, laid A cells L -> ample fuel (fa_arch A) (blobs_of L) -> shows fuel dc new_decomp kd A V -> table (fa_zim A) (map snd cells) (blobs_of L) (ml_types (fa_mimes A)) [] [] V.
Proof.
  intros A cells L V LO AM SH. pose proof (laid_consistent _ _ _ _ _ LO) as C. pose proof (lo_arch _ _ _ _ _ LO) as AO. constructor; [| |intros ? ? []|intros ? []|constructor].
  - intros u p EV NL. left. specialize (SH u NL). rewrite EV in SH. destruct SH as (e & us & G & TI & U & A1 & B). exists e. split; [exact G|]. split; [exact TI|]. split; [intros us2 Q; rewrite U in Q; injection Q as <-; exact A1|].
    destruct (pg_body p) as [m d|v]; [|exact B]. destruct B as (c & b & K1 & M1 & R1 & NB).
    assert (X : exists bl, znth (blobs_of L) c = Some (Some bl)).
    { destruct (znth (blobs_of L) c) as [[bl|]|] eqn:EX; [eauto| |].
      - exfalso. apply (lo_present _ _ _ _ _ LO). unfold blobs_of, znth in EX. destruct (c <? 0); [discriminate EX|]. rewrite nth_error_map in EX.
        destruct (nth_error L (Z.to_nat c)) as [[[o cc]|]|] eqn:EN; try discriminate EX. eapply nth_error_In. exact EN.
      - exfalso. pose proof (present_count Stream md5 feed digest (fa_arch A) cells L AO (lo_present _ _ _ _ _ LO)) as PC. unfold read_blob_of, get_cluster_by_index in R1. destruct (c <? 0) eqn:EC; [discriminate R1|].
        assert (ZL : zlen L <= c). { assert (Q : zlen (blobs_of L) = zlen L) by (unfold blobs_of, zlen; rewrite map_length; reflexivity). apply PointerListProofs.znth_none in EX; lia. }
        unfold get_by_index in R1. destruct (py_index (zlen (pl_ptrs (ca_ptrs (fa_arch A)))) c) as [j|] eqn:EJ; [|discriminate R1]. unfold py_index in EJ. revert EJ. rewrite PC.
        repeat match goal with |- context [if ?x then _ else _] => destruct x eqn:? end; intro EJ; try discriminate EJ; lia. }
    destruct X as (bl & EX). destruct (shown_all fuel dc new_decomp new_comp comp flush kd Stream CD (fa_arch A) cells L c bl AO AM EX) as (_ & R0).
    assert (Hb : 0 <= b). { apply (lookup_iff _ _ _ _ C) in G as (G1 & _). destruct (consistent_storable _ _ _ C G1) as (_ & _ & _ & _ & Q). rewrite K1 in Q. lia. }
    rewrite (R0 b Hb) in R1. exists c, b, bl. destruct (znth bl b) as [d0|]; [|discriminate R1]. injection R1 as ->. auto.
  - intros u e G. destruct (listing_dec (fa_zim A) u) as [HL|NL]; [auto|]. right. specialize (SH u NL). destruct (V u); [discriminate|]. exfalso. exact (SH e G).
Qed.
End View.
