(** C77: all ways to find an entry agree.  C78: iteration over the clusters. *)
From Coq Require Import List ZArith Bool Lia Permutation Sorting.Sorted Strings.Byte.
From Coq Require Import ZifyBool ZifyNat.
From Verif Require Import Base BaseProofs Utf8 Utf8Proofs Infobyte Reader Blob Header HeaderSpec MimeTypeList Entry EntrySpec PointerList PointerListProofs SpaceAllocator Decompressors DecompressorsProofs Cluster ClusterSpec ClusterProofs ClusterWrapper ClusterWrapperSpec ClusterWrapperProofs
  Archive ArchiveSpec ArchiveProofs ArchiveMoveProofs ArchiveLaws ArchiveFacts ArchiveRemoveProofs ArchiveCluster ArchiveClusterSpec ArchiveClusterProofs CompressionStrategy CompressionStrategySpec Flush FlushSpec FlushHistorySpec FlushHistoryProofs FlushCreateProofs
  PropsArchive PropsArchiveCluster PropsFlush Iteration.
Import ListNotations.
Open Scope Z_scope.

(** ** C77 *)
Lemma range_slice : forall {A} (g : Z -> res A) (l : list A), (forall k x, znth l k = Some x -> g k = Ok x) ->
  forall c s, 0 <= s -> s + Z.of_nat c <= zlen l -> iter_range g s c = Ok (firstn c (skipn (Z.to_nat s) l)).
Proof.
  intros A g l G. induction c as [|c IH]; intros s H1 H2; [reflexivity|]. cbn [iter_range].
  destruct (znth l s) as [x|] eqn:E; [|exfalso; unfold znth in E; replace (s <? 0) with false in E by lia; apply nth_error_None in E; unfold zlen in H2; lia].
  rewrite (G _ _ E). cbn [bind]. rewrite IH by lia. cbn [bind]. f_equal. unfold znth in E. replace (s <? 0) with false in E by lia.
  replace (Z.to_nat (s + 1)) with (S (Z.to_nat s)) by lia. clear IH H1 H2 G. revert E. generalize (Z.to_nat s) as n. intro n. revert l.
  induction n as [|n IHn]; intros [|y l] E; cbn in *; try discriminate; [injection E as ->; reflexivity|exact (IHn l E)].
Qed.

(** There is one list of entries, sorted by url without duplicates, and
    iteration, sub-ranges, access by index and access by url all show it. *)
Theorem C77_one_list : forall s L, consistent s L -> exists es,
  iter_entries s None None = Ok es /\ StronglySorted (fun a b => ultb (full_url a) (full_url b) = true) es /\
  (forall a b, 0 <= a <= b -> b <= zlen es -> iter_entries s (Some a) (Some b) = Ok (firstn (Z.to_nat (b - a)) (skipn (Z.to_nat a) es))) /\
  (forall a b, ~ (0 <= a <= b /\ b <= zlen es) -> iter_entries s (Some a) (Some b) = Err AssertionError) /\
  (forall i, get_entry_by_url_index s i = match (if i <? 0 then None else nth_error es (Z.to_nat i)) with Some e => Ok e | None => Err EntryNotFound end) /\
  (forall u e, get_entry_by_full_url s u = Ok e <-> In e es /\ full_url e = u) /\
  (forall u b, utf8_encode u = Some b -> ~ In u (map full_url es) -> get_entry_by_full_url s u = Err EntryNotFound) /\
  (forall u b, utf8_encode u = Some b -> exists r, has_entry_for_full_url s u = Ok r /\ (r = true <-> In u (map full_url es))) /\
  (forall u e, get_content_entry_by_url s u = Ok e <-> In e es /\ full_url e = 67 :: u).
Proof.
  intros s L C. exists L. pose proof C as [(cells & EL & CO) _ _ _ _]. split; [exact (entries_ok s L C)|]. split; [exact (consistent_sorted s L C)|].
  assert (ZL : zlen (pl_ptrs (z_upl s)) = zlen L) by (rewrite (co_locs _ _ CO), <- EL, !zlen_map; reflexivity).
  assert (NI : forall i, get_entry_by_url_index s i = match znth L i with Some e => Ok e | None => Err EntryNotFound end).
  { intro i. destruct (znth L i) as [e|] eqn:E; [apply (index_iff s L i e C); exact E|]. unfold get_entry_by_url_index. destruct (Z.ltb_spec i 0) as [I|I]; [reflexivity|].
    rewrite get_by_index_znth by exact I. rewrite (co_locs _ _ CO), znth_map. rewrite <- EL, znth_map in E. destruct (znth cells i); [discriminate E|reflexivity]. }
  split; [|split; [|split; [|split; [|split; [|split]]]]].
  - intros a b H1 H2. unfold iter_entries, iter_bounds. rewrite ZL. replace (a <? 0) with false by lia. replace (zlen L <? b) with false by lia. replace (b <? a) with false by lia.
    apply range_slice; [|lia|lia]. intros k x E. rewrite <- EL, znth_map in E. destruct (znth cells k) as [c|] eqn:EC; [|discriminate E]. injection E as <-.
    pose proof (entry_by_index_L s cells k (snd c) CO ltac:(rewrite znth_map, EC; reflexivity)) as G. unfold get_entry_by_url_index in G. destruct (k <? 0); [discriminate G|].
    destruct (get_by_index (pl_ptrs (z_upl s)) k) as [p|[]]; try discriminate G. exact G.
  - intros a b N. unfold iter_entries, iter_bounds. rewrite ZL. destruct (Z.ltb_spec a 0); [reflexivity|]. destruct (Z.ltb_spec (zlen L) b); [reflexivity|]. destruct (Z.ltb_spec b a); [reflexivity|]. exfalso. apply N. lia.
  - exact NI.
  - intros u e. apply lookup_iff. exact C.
  - intros u b E N. apply (missing_iff s L u b C E). intros e He Q. apply N. rewrite <- Q. apply in_map. exact He.
  - intros u b E. unfold has_entry_for_full_url, encode. rewrite E. cbn [bind]. unfold has, has_gen.
    assert (UP : url_pointer s u = get (url_key s) (pl_ptrs (z_upl s)) b) by (unfold url_pointer, encode; rewrite E; reflexivity). unfold get in UP.
    destruct (in_dec (list_eq_dec Z.eq_dec) u (map full_url L)) as [I|I].
    + apply in_map_iff in I as (e & EU & He). assert (G : get_entry_by_full_url s u = Ok e) by (apply (lookup_iff s L u e C); auto). unfold get_entry_by_full_url in G. rewrite UP in G.
      destruct (get_gen _ _ _ b) as [p|x]; [|destruct x; discriminate G]. exists true. split; [reflexivity|]. split; [intros _|reflexivity]. rewrite <- EU. apply in_map. exact He.
    + assert (M : url_index s u = Err KeyError). { apply (url_index_missing s cells u b CO E). intros c Hc Q. apply I. rewrite <- EL, <- Q, map_map. apply (in_map (fun x : Z * entry => full_url (snd x))). exact Hc. }
      rewrite url_pointer_index, M in UP. cbn [bind] in UP. rewrite <- UP. exists false. split; [reflexivity|]. split; [discriminate|contradiction].
  - intros u e. apply (lookup_iff s L (67 :: u) e C).
Qed.

(** The articles: sorted by title, none twice, and [entry_at_url_is_article]
    tells which entries of namespace C are among them. *)
Theorem C77_articles : forall s L, consistent s L -> exists es,
  iter_articles s None None = Ok es /\ StronglySorted (fun a b => ultb (title b) (title a) = false) es /\ NoDup (map full_url es) /\
  (forall e, In e es -> get_entry_by_full_url s (full_url e) = Ok e) /\
  (forall a b, 0 <= a <= b -> b <= zlen es -> iter_articles s (Some a) (Some b) = Ok (firstn (Z.to_nat (b - a)) (skipn (Z.to_nat a) es))) /\
  (forall u b, utf8_encode (67 :: u) = Some b -> exists r, entry_at_url_is_article s (67 :: u) = Ok r /\ (r = true <-> In (67 :: u) (map full_url es))) /\
  (forall u, hd 0 u <> 67 -> entry_at_url_is_article s u = Err ValueError).
Proof.
  intros s L C. destruct (articles_ok s L C) as (es & E & F & ND & SO). exists es. split; [exact E|]. split; [exact SO|].
  pose proof C as [(cells & EL & CO) _ _ _ _]. assert (ZE : zlen (pl_ptrs (z_atpl s)) = zlen es) by (exact (forall2_len _ _ _ F)).
  assert (UR : article_urls s = Some (map full_url es)) by (unfold article_urls; rewrite E; reflexivity).
  split. { destruct (article_urls_ok s L C) as (us & E1 & N1). rewrite UR in E1. injection E1 as <-. exact N1. }
  split. { intros e He. apply (lookup_iff s L _ e C). split; [|reflexivity]. destruct (forall2_in_r _ _ _ F _ He) as (i & _ & Hz). eapply znth_In. exact Hz. }
  split.
  - intros a b H1 H2. unfold iter_articles, iter_bounds. rewrite ZE. replace (a <? 0) with false by lia. replace (zlen es <? b) with false by lia. replace (b <? a) with false by lia.
    apply range_slice; [|lia|lia]. intros k x EK. destruct (forall2_znth_r _ _ _ F k x EK) as (p & EP & EI). pose proof (znth_some _ _ _ EP). rewrite get_by_index_znth by lia. rewrite EP. cbn [bind]. apply (index_iff s L p x C). exact EI.
  - split; [|intros [|c u] N; [reflexivity|]; unfold entry_at_url_is_article, in_C; cbn in N; replace (c =? 67) with false by lia; reflexivity].
    intros u b EB. destruct (in_dec (list_eq_dec Z.eq_dec) (67 :: u) (map full_url L)) as [I|I].
    + rewrite <- EL, map_map in I. apply in_map_iff in I as (c & EU & Hc). destruct (in_znth _ _ Hc) as [i Hi].
      assert (ZI : znth L i = Some (snd c)) by (rewrite <- EL, znth_map, Hi; reflexivity).
      unfold entry_at_url_is_article. change (in_C (67 :: u)) with true. cbn [negb]. cbn beta in EU. pose proof (url_index_found _ _ _ _ CO Hi) as UI. rewrite EU in UI. rewrite UI.
      pose proof (get_by_pointer_spec (pl_ptrs (z_atpl s)) i) as G. pose proof (article_urls_in s L _ C UR (67 :: u)) as AI.
      assert (X : In (67 :: u) (map full_url es) <-> In i (pl_ptrs (z_atpl s))).
      { rewrite AI. split; [intros (j & e & H1 & H2 & H3)|intro H; exists i, (snd c); auto]. assert (j = i); [|subst; exact H1].
        assert (G1 : get_entry_by_full_url s (67 :: u) = Ok e). { apply (lookup_iff s L _ e C). split; [eapply znth_In; exact H2|exact H3]. }
        rewrite <- EL, znth_map in H2. destruct (znth cells j) as [c'|] eqn:EC; [|discriminate H2]. injection H2 as <-. pose proof (url_index_found _ _ _ _ CO EC) as UJ. rewrite H3, UI in UJ. congruence. }
      destruct (get_by_pointer (pl_ptrs (z_atpl s)) i) as [r|x].
      * exists true. split; [reflexivity|]. split; [intros _|reflexivity]. apply X. eapply znth_In. exact (proj1 G).
      * destruct G as (-> & G). exists false. split; [reflexivity|]. split; [discriminate|]. rewrite X. contradiction.
    + exists false. unfold entry_at_url_is_article. change (in_C (67 :: u)) with true. cbn [negb]. rewrite (url_index_missing s cells _ b CO EB).
      * split; [reflexivity|]. split; [discriminate|]. intro Q. exfalso. apply I. apply (article_urls_in s L _ C UR) in Q as (j & e & _ & H2 & <-). apply in_map. eapply znth_In. exact H2.
      * intros c Hc Q. apply I. rewrite <- EL, <- Q, map_map. apply (in_map (fun x : Z * entry => full_url (snd x))). exact Hc.
Qed.
Example C77_example : consistent two (entries two) /\ iter_entries two (Some 1) (Some 2) = Ok (tl (entries two)) /\
  map full_url (entries two) = [Ca; Cb] /\ entry_at_url_is_article two Ca = Ok true /\ entry_at_url_is_article two Cb = Ok false.
Proof. split; [exact two_consistent|]. vm_compute. auto. Qed.
Print Assumptions C77_one_list.
Print Assumptions C77_articles.

(** ** C78 *)
Section Clusters.
Variable fuel : nat.
Context {D : Type}.
Variable dc : decomp D.
Variable new_decomp : ctype -> res D.
Variable kd : ckind.
(** A cluster object has exactly these blobs. *)
Definition cluster_shows (A : farchive) (c : cobj (cluster D)) (blobs : list bytes) : Prop :=
  fst (wnumber_of_blobs (inner_cluster dc new_decomp (fa_file A) fuel) (co_wrap c)) = Ok (zlen blobs) /\
  forall j, 0 <= j -> fst (wread_blob (inner_cluster dc new_decomp (fa_file A) fuel) fuel j None None (co_wrap c)) = match znth blobs j with Some b => Ok b | None => Err BlobNotFound end.
End Clusters.
(** All clusters of an archive, in the order of their numbers. *)
Definition C78_full_statement : Prop :=
  forall fuel D (dc : decomp D) new_decomp K new_comp comp flush kd Stream reserve,
  codec_ok (K:=K) dc new_decomp new_comp comp flush Stream ->
  forall A cells L, laid_out Stream reserve A cells L -> suffices fuel Stream reserve A ->
  exists cs blobs, iter_clusters fuel dc new_decomp kd A None None = Ok cs /\ map Some blobs = blobs_of L /\ Forall2 (cluster_shows fuel dc new_decomp A) cs blobs.
(** False: the number of clusters in the header is only written by a flush, so
    clusters are left out until then.  A new archive has the cluster with the
    listing of articles, the iteration shows none. *)
Definition none_listed (r : res farchive) : bool :=
  match r with
  | Ok A => small A && match iter_clusters sample_fuel passthrough plain_new KRemembering A None None with Ok [] => true | _ => false end
  | Err _ => false
  end.
Lemma none_listed_ok : forall r, none_listed r = true -> exists A, r = Ok A /\ small A = true /\ iter_clusters sample_fuel passthrough plain_new KRemembering A None None = Ok [].
Proof.
  intros [A|e] H; cbn [none_listed] in H; [|discriminate H]. apply andb_true_iff in H as (H1 & H). destruct (iter_clusters _ _ _ _ A None None) as [[|c cs]|e] eqn:E; try discriminate H. exists A. auto.
Qed.
Lemma sample_none_listed : none_listed sample_created = true.
Proof. vm_compute. reflexivity. Qed.
Theorem C78_refuted : ~ C78_full_statement.
Proof.
  intro F. destruct (none_listed_ok sample_created sample_none_listed) as (A & E & SM & IT). destruct sample_zops_ok as (_ & _ & _ & FS & FM).
  destruct (created sample_fuel passthrough plain_new plain_new_comp plain_comp plain_flush 6 plain_stream plain_codec 10 50 ltac:(lia) ltac:(unfold sample_fuel; lia) sample_uuid sample_simple sample_mime A eq_refl FS FM)
    as (cells & L & LO & _); [cbn; lia|cbn; lia|exact E|].
  destruct (F sample_fuel _ _ _ _ _ _ _ KRemembering plain_stream (Some 50) plain_codec A cells L LO (small_suffices A SM)) as (cs & blobs & H1 & H2 & H3). rewrite IT in H1. injection H1 as <-. inversion H3; subst.
  destruct (lo_listings _ _ _ _ _ LO) as (c & b & (e & bl & _ & _ & EX & _) & _). rewrite <- H2 in EX. unfold znth in EX. destruct (c <? 0); [discriminate EX|]. destruct (Z.to_nat c); discriminate EX.
Qed.

Section Partial.
Variable fuel : nat.
Context {D : Type}.
Variable dc : decomp D.
Variable new_decomp : ctype -> res D.
Context {K : Type}.
Variable new_comp : ctype -> res K.
Variable comp : K -> bytes -> res (bytes * K).
Variable flush : K -> res bytes.
Variable kd : ckind.
Variable Stream : ctype -> bytes -> bytes -> Prop.
Variable reserve : option Z.
Hypothesis CD : codec_ok dc new_decomp new_comp comp flush Stream.

(** *** C78: partial, no cluster was written, moved or removed since the last
    flush. *)
Theorem C78_iter_clusters_partial : forall A cells L, laid_out Stream reserve A cells L -> suffices fuel Stream reserve A -> pl_dirty (ca_ptrs (fa_arch A)) = false ->
  exists cs blobs, iter_clusters fuel dc new_decomp kd A None None = Ok cs /\ zlen cs = h_cluster_count (fa_hdr A) /\ map Some blobs = blobs_of L /\ Forall2 (cluster_shows fuel dc new_decomp A) cs blobs /\
    (forall i c, znth cs i = Some c -> get_cluster_by_index fuel dc new_decomp kd (fa_arch A) i = Ok c) /\
    (forall a b, 0 <= a <= b -> b <= zlen cs -> iter_clusters fuel dc new_decomp kd A (Some a) (Some b) = Ok (firstn (Z.to_nat (b - a)) (skipn (Z.to_nat a) cs))) /\
    (forall a b, ~ (0 <= a <= b /\ b <= zlen cs) -> iter_clusters fuel dc new_decomp kd A (Some a) (Some b) = Err IndexError).
Proof.
  intros A cells L LO (F0 & FA & _) CL. pose proof (lo_arch _ _ _ _ _ LO) as AO. destruct (lo_clusters _ _ _ _ _ LO CL) as (HC & _).
  assert (ALL : exists cs blobs, map Some blobs = blobs_of L /\ Forall2 (cluster_shows fuel dc new_decomp A) cs blobs /\ forall i c, znth cs i = Some c -> get_cluster_by_index fuel dc new_decomp kd (fa_arch A) i = Ok c).
  { assert (G : forall M N, L = N ++ M -> exists cs blobs, map Some blobs = blobs_of M /\ Forall2 (cluster_shows fuel dc new_decomp A) cs blobs /\ forall i c, znth cs i = Some c -> get_cluster_by_index fuel dc new_decomp kd (fa_arch A) (zlen N + i) = Ok c).
    { induction M as [|o M IH]; intros N EN; [exists [], []; split; [reflexivity|]; split; [constructor|]; intros i c Q; unfold znth in Q; destruct (i <? 0); [|destruct (Z.to_nat i)]; discriminate Q|].
      destruct (IH (N ++ [o])) as (cs & blobs & H1 & H2 & H3); [rewrite <- app_assoc; exact EN|]. destruct o as [(off, c)|]; [|exfalso; apply (lo_present _ _ _ _ _ LO); rewrite EN; apply in_or_app; right; left; reflexivity].
      assert (AT : at_number L (zlen N) (off, c)). { unfold at_number, znth, zlen. rewrite EN. replace (Z.of_nat (length N) <? 0) with false by lia. rewrite Nat2Z.id, nth_error_app2 by lia. rewrite Nat.sub_diag. reflexivity. }
      assert (ENO : enough fuel (ca_file (fa_arch A)) c) by (eapply ample_enough; [exact (FA _ _ LO)|reflexivity|exact AT]).
      destruct (opened_index fuel dc new_decomp new_comp comp flush kd Stream CD _ _ _ _ _ _ AO AT ENO) as (o & Inv & E & OP).
      pose proof (shown fuel dc new_decomp new_comp comp flush kd Stream CD _ _ _ _ _ _ AO AT ENO) as (S1 & S2). unfold blobs_in in S1. rewrite E in S1. cbn [bind] in S1.
      exists (o :: cs), (cc_blobs c :: blobs). split; [cbn; rewrite H1; reflexivity|]. split.
      - constructor; [|exact H2]. split; [exact S1|]. intros j Hj. specialize (S2 j Hj). unfold read_blob_of in S2. rewrite E in S2. exact S2.
      - intros i c' Hi. pose proof (znth_some _ _ _ Hi) as RI. destruct (Z.eq_dec i 0) as [->|NZ].
        + cbn in Hi. injection Hi as <-. rewrite Z.add_0_r. exact E.
        + replace (zlen N + i) with (zlen (N ++ [Some (off, c)]) + (i - 1)) by (rewrite zlen_app; change (zlen [Some (off, c)]) with 1; lia). apply H3. unfold znth in *. replace (i <? 0) with false in Hi by lia. replace (i - 1 <? 0) with false by lia.
          replace (Z.to_nat i) with (S (Z.to_nat (i - 1))) in Hi by lia. exact Hi. }
    destruct (G L [] eq_refl) as (cs & blobs & H1 & H2 & H3). exists cs, blobs. split; [exact H1|]. split; [exact H2|]. exact H3. }
  destruct ALL as (cs & blobs & H1 & H2 & H3). exists cs, blobs.
  assert (ZC : zlen cs = h_cluster_count (fa_hdr A)).
  { rewrite (forall2_len _ _ _ H2). assert (Q : zlen blobs = zlen L) by (apply (f_equal (@length _)) in H1; unfold blobs_of in H1; rewrite !map_length in H1; unfold zlen; lia). rewrite Q, HC.
    pose proof (ao_count _ _ _ _ AO) as LE. destruct (Z.eq_dec (zlen L) (zlen (pl_ptrs (ca_ptrs (fa_arch A))))) as [->|NE]; [reflexivity|]. exfalso.
    destruct (znth L (zlen L - 1)) as [[(off, c)|]|] eqn:EZ.
    - pose proof (znth_some _ _ _ (ao_ptrs _ _ _ _ AO _ _ EZ)). lia.
    - apply (lo_present _ _ _ _ _ LO). eapply znth_In. exact EZ.
    - pose proof (zlen_nonneg (pl_ptrs (ca_ptrs (fa_arch A)))). unfold znth in EZ. replace (zlen L - 1 <? 0) with false in EZ by lia. apply nth_error_None in EZ. unfold zlen in *. lia. }
  pose proof (zlen_nonneg cs) as Z0.
  assert (SL : forall a b, 0 <= a <= b -> b <= zlen cs -> iter_clusters fuel dc new_decomp kd A (Some a) (Some b) = Ok (firstn (Z.to_nat (b - a)) (skipn (Z.to_nat a) cs))).
  { intros a b Q1 Q2. unfold iter_clusters. rewrite <- ZC. replace (a <? 0) with false by lia. replace (zlen cs <? b) with false by lia. replace (b <? a) with false by lia. cbn [orb]. apply range_slice; [exact H3|lia|lia]. }
  split. { change (iter_clusters fuel dc new_decomp kd A None None) with (iter_clusters fuel dc new_decomp kd A (Some 0) (Some (h_cluster_count (fa_hdr A)))). rewrite <- ZC, SL by lia. cbn [skipn Z.to_nat]. rewrite Z.sub_0_r. unfold zlen. rewrite Nat2Z.id, firstn_all. reflexivity. }
  split; [exact ZC|]. split; [exact H1|]. split; [exact H2|]. split; [exact H3|]. split; [exact SL|]. intros a b N. unfold iter_clusters. rewrite <- ZC. destruct (Z.ltb_spec a 0); [reflexivity|]. destruct (Z.ltb_spec (zlen cs) b); [reflexivity|]. cbn [orb]. destruct (Z.ltb_spec b a); [reflexivity|]. exfalso. apply N. lia.
Qed.
End Partial.
(** The archive of [sample_end] meets the hypotheses; it has 4 clusters. *)
Lemma sample_end_clusters : match sample_end with Ok A => h_cluster_count (fa_hdr A) =? 4 | Err _ => false end = true.
Proof. vm_compute. reflexivity. Qed.
Lemma cluster_count_of : forall (r : res farchive) A n, r = Ok A -> match r with Ok A => h_cluster_count (fa_hdr A) =? n | Err _ => false end = true -> h_cluster_count (fa_hdr A) = n.
Proof. intros r A n -> H. lia. Qed.
Example C78_example : exists A cells L cs, sample_end = Ok A /\ laid_out plain_stream (Some 50) A cells L /\ iter_clusters sample_fuel passthrough plain_new KRemembering A None None = Ok cs /\ zlen cs = 4.
Proof.
  destruct sample_end_ok as (_ & A & _ & EA & _). destruct (sample_end_laid A EA) as (cells & L & LO & SA & _ & SU). exists A, cells, L.
  destruct (C78_iter_clusters_partial sample_fuel passthrough plain_new plain_new_comp plain_comp plain_flush KRemembering plain_stream (Some 50) plain_codec A cells L LO SU) as (cs & _ & IT & ZC & _).
  - destruct SA as (DI & _). unfold is_dirty in DI. repeat (apply orb_false_iff in DI; destruct DI as (DI & ?)). assumption.
  - exists cs. do 3 (split; [assumption|]). rewrite ZC. exact (cluster_count_of _ _ 4 EA sample_end_clusters).
Qed.
Print Assumptions C78_refuted.
Print Assumptions C78_iter_clusters_partial.
