(** Archives behave like tables from urls to pages: proofs. *)
From Coq Require Import List ZArith Bool Lia Permutation.
From Coq Require Import ZifyBool ZifyNat.
From Verif Require Import Base BaseProofs Utf8 Utf8Proofs Dict Infobyte Header HeaderSpec HeaderProofs MimeTypeList MimeTypeListSpec MimeTypeListProofs PointerList PointerListProofs
  SpaceAllocator SpaceAllocatorSpec SpaceAllocatorProofs Entry EntrySpec EntryProofs Reader ReaderSpec Blob Cluster ClusterSpec ClusterProofs ClusterWrapper ClusterWrapperSpec ClusterWrapperProofs
  Archive ArchiveSpec ArchiveProofs ArchiveWriteProofs ArchiveMoveProofs ArchiveFacts ArchiveLaws ArchiveEdit ArchiveCluster ArchiveClusterSpec ArchiveClusterProofs ArchiveFrame ArchiveEntryCluster ArchiveEditCluster
  CompressionStrategy CompressionStrategySpec CompressionStrategyProofs OperationBuffer OperationBufferSpec OperationBufferProofs EntryObject EntryObjectSpec EntryObjectProofs
  Flush FlushSpec FlushProofs FlushTailProofs FlushOpenProofs FlushHistorySpec FlushHistoryProofs ViewSpec.
Import ListNotations.
Open Scope Z_scope.

Notation rsource := OperationBufferSpec.source.
Notation rtarget := OperationBufferSpec.target.

(** ** The table of an archive, from the inside: [X] are the blobs of its
    clusters, [W] the items that wait in the strategies, [R] the redirects that
    wait in the operation buffer. *)
Definition shown (s : zim) (X : list (option (list bytes))) (types : list bytes) (u : ustr) (p : page) : Prop :=
  exists e, get_entry_by_full_url s u = Ok e /\ e_title e = Some (pg_title p) /\ (forall us, article_urls s = Some us -> (In u us <-> pg_article p = true)) /\
    match pg_body p with
    | Data m d => exists c b bl, e_kind e = Content c b /\ mt_get (e_mimetype e) types = Ok m /\ znth X c = Some (Some bl) /\ znth bl b = Some d /\ ~ listing_blob s c b
    | Link v => target_url s e = Some v
    end.
Definition nameable (u : ustr) : Prop := u <> [] /\ exists b, utf8_encode u = Some b.
Record table (s : zim) (E : list entry) (X : list (option (list bytes))) (types : list bytes) (W : list (item * bytes)) (R : list rop) (V : view) : Prop := mkTable {
  tb_page : forall u p, V u = Some p -> ~ listing s u -> shown s X types u p \/ In u (urls_of W) \/ In u (map rsource R);
  tb_only : forall u e, get_entry_by_full_url s u = Ok e -> listing s u \/ V u <> None;
  tb_waiting : forall it d, In (it, d) W -> V (item_url it) = Some (page_of it d) /\ absent E (item_url it) /\ ~ listing s (item_url it) /\ nameable (item_url it);
  tb_buffer : forall r, In r R -> V (rsource r) = Some (link_page V (rtarget r) (wanted_title r)) /\ absent E (rsource r) /\ ~ listing s (rsource r) /\
    (V (rtarget r) <> None \/ wanted_title r <> None) /\ ~ listing s (rtarget r) /\ sound r;
  tb_distinct : NoDup (urls_of W ++ map rsource R) }.

Lemma listing_dec : forall s u, listing s u \/ ~ listing s u.
Proof.
  intros s u. unfold listing. destruct (list_eq_dec Z.eq_dec u URL_ARTICLE_TITLE_INDEX) as [->|N1]; [auto|]. destruct (list_eq_dec Z.eq_dec u URL_ENTRY_TITLE_INDEX) as [->|N2].
  - destruct (z_etpl s) eqn:E; [left; right; split; congruence|]. right. intros [Q|(_ & Q)]; congruence.
  - right. intros [Q|(Q & _)]; congruence.
Qed.

(** A page that is shown stays shown if its entry, article status, mimetype and
    content are kept. *)
Lemma shown_kept : forall s X types s' X' types' us us' u p, shown s X types u p -> article_urls s = Some us -> article_urls s' = Some us' ->
  (forall e, get_entry_by_full_url s u = Ok e -> exists e', get_entry_by_full_url s' u = Ok e' /\ same_entry e e' /\ target_url s' e' = target_url s e) ->
  (In u us <-> In u us') -> (exists t, types' = types ++ t) ->
  (forall c b bl, znth X c = Some (Some bl) -> ~ listing_blob s c b -> exists bl', znth X' c = Some (Some bl') /\ znth bl' b = znth bl b) ->
  (forall c b, listing_blob s' c b -> listing_blob s c b) -> shown s' X' types' u p.
Proof.
  intros s X types s' X' types' us us' u p (e & G & T & A & B) U U' HE HA (t & ->) HX HL. destruct (HE e G) as (e' & G' & S & TG). exists e'. split; [exact G'|].
  pose proof S as (S1 & S2 & S3 & S4 & S5). split; [congruence|]. split.
  - intros us2 Q. rewrite U' in Q. injection Q as <-. rewrite <- HA. exact (A us U).
  - destruct (pg_body p) as [m d|v]; [|congruence]. destruct B as (c & b & bl & K & M & Z1 & Z2 & NL). destruct (HX c b bl Z1 NL) as (bl' & Y1 & Y2).
    exists c, b, bl'. rewrite K in S5. destruct (e_kind e') as [c' b'|]; [|contradiction]. destruct S5 as (-> & ->). split; [reflexivity|]. split; [rewrite <- S1; apply mt_get_app; exact M|].
    split; [exact Y1|]. split; [congruence|]. intro Q. apply NL. auto.
Qed.

Section View.
Variable fuel : nat.
Context {D : Type}.
Variable dc : decomp D.
Variable new_decomp : ctype -> res D.
Context {K : Type}.
Variable new_comp : ctype -> res K.
Variable comp : K -> bytes -> res (bytes * K).
Variable flush : K -> res bytes.
Variable depth : nat.
Variable kd : ckind.
Variable Stream : ctype -> bytes -> bytes -> Prop.
Variable reserve : option Z.
Context {H : Type}.
Variable md5 : H.
Variable feed : H -> bytes -> H.
Variable digest : H -> bytes.
Variable truncate : bool.
Variable process_blob : entry -> M zim unit.
Variable rounds : nat.
Hypothesis CD : codec_ok dc new_decomp new_comp comp flush Stream.
Hypothesis HO : hash_ok feed digest.
Variable mx : Z.
Notation laid := (laid_out Stream reserve).
Notation hcoreh := (hcore fuel Stream reserve mx).
Notation pending := (pendany fuel mx).
Notation table_of A cells L W V := (table (fa_zim A) (map snd cells) (blobs_of L) (ml_types (fa_mimes A)) W (fa_redirects A) V).

Lemma laid_consistent : forall A cells L, laid A cells L -> consistent (fa_zim A) (map snd cells).
Proof. intros A cells L LO. exact (ao_entries _ _ _ _ (lo_arch _ _ _ _ _ LO)). Qed.
Lemma hcore_listing : forall A0 cells0 L0 A done cells L Pd Pc Pp u, laid A0 cells0 L0 -> hcoreh A0 cells0 L0 A done cells L Pd Pc Pp -> (listing (fa_zim A) u <-> listing (fa_zim A0) u).
Proof.
  intros A0 cells0 L0 A done cells L Pd Pc Pp u LO HV. pose proof (lo_titles _ _ _ _ _ LO) as T0. pose proof (lo_titles _ _ _ _ _ (hv_laid _ _ _ _ _ _ _ _ _ _ _ _ _ _ HV)) as T1.
  pose proof (hv_header _ _ _ _ _ _ _ _ _ _ _ _ _ _ HV FMajor ltac:(cbn; auto)) as E1. pose proof (hv_header _ _ _ _ _ _ _ _ _ _ _ _ _ _ HV FMinor ltac:(cbn; auto)) as E2. cbn [hget] in E1, E2.
  injection E1 as E1. injection E2 as E2. unfold without_titles in *. rewrite E1, E2 in T1. unfold listing. rewrite T0, T1. reflexivity.
Qed.

(** Adding items and flushing the strategies, flushing and opening again: the
    pages stay the same. *)
Lemma table_content : forall A0 cells0 L0 A done cells L Pd Pc Pp V, laid A0 cells0 L0 -> hcoreh A0 cells0 L0 A done cells L Pd Pc Pp -> table_of A0 cells0 L0 done V ->
  table_of A cells L (map pair_of (Pc ++ Pp)) V.
Proof.
  intros A0 cells0 L0 A done cells L Pd Pc Pp V LO HV [T1 T2 T3 T4 T5]. pose proof (fun u => hcore_listing A0 cells0 L0 A done cells L Pd Pc Pp u LO HV) as LI. pose proof HV as [].
  pose proof (laid_consistent _ _ _ LO) as C0. pose proof (laid_consistent _ _ _ hv_laid) as C1. destruct hv_buffer as (BR & _).
  assert (PU : Permutation (map p_url (Pd ++ Pc ++ Pp)) (urls_of done)) by (rewrite <- urls_pairs; unfold urls_of; apply Permutation_map; exact hv_all).
  assert (ND : NoDup (map p_url Pd ++ map p_url (Pc ++ Pp) ++ map rsource (fa_redirects A0))).
  { eapply Permutation_NoDup; [|exact T5]. rewrite app_assoc, <- map_app. apply Permutation_app_tail. apply Permutation_sym. exact PU. }
  assert (IN : forall p, In p (Pd ++ Pc ++ Pp) -> In (p_item p, p_data p) done).
  { intros p Hp. eapply Permutation_in; [exact hv_all|]. apply in_map_iff. exists p. auto. }
  assert (AB : forall p, In p Pd -> absent (map snd cells0) (p_url p)) by (intros p Hp; apply (T3 (p_item p) (p_data p)); apply IN; apply in_or_app; auto).
  destruct (article_urls_ok _ _ C0) as (us & U0 & N0). destruct (hv_articles us U0) as (us' & U1 & PA).
  assert (AU : forall u, absent (map snd cells0) u -> ~ In u us).
  { intros u Ha Hu. apply (article_urls_in _ _ _ C0 U0) in Hu as (i & e & _ & Z1 & Z2). apply PointerListProofs.znth_in in Z1. exact (Ha e Z1 Z2). }
  rewrite BR. constructor.
  - intros u p Hp NL. rewrite LI in NL. destruct (T1 u p Hp NL) as [S|[S|S]]; [|destruct (in_dec (list_eq_dec Z.eq_dec) u (map p_url (Pc ++ Pp))) as [Hw|Hw]|].
    + left. eapply shown_kept; [exact S|exact U0|exact U1|exact (hv_old u)| |destruct hv_types as (t & ->); eauto|exact hv_content|exact hv_listing].
      assert (NP : ~ In u (p_articles Pd)).
      { destruct S as (e & G & _). apply (lookup_iff _ _ _ _ C0) in G as (G1 & G2). intro Q. unfold p_articles in Q. apply in_map_iff in Q as (q & Q1 & Q2). apply filter_In in Q2 as (Q2 & _).
        apply (AB q Q2 e G1). congruence. }
      split; intro Q; [eapply Permutation_in; [apply Permutation_sym; exact PA|apply in_or_app; auto]|]. apply (Permutation_in _ PA) in Q. apply in_app_or in Q as [Q|Q]; [contradiction|exact Q].
    + right. left. rewrite urls_pairs. exact Hw.
    + left. apply (Permutation_in _ (Permutation_sym PU)) in S. rewrite map_app in S. apply in_app_or in S as [S|S]; [|contradiction]. apply in_map_iff in S as (q & <- & Hq).
      destruct (T3 (p_item q) (p_data q) (IN q ltac:(apply in_or_app; auto))) as (VQ & _). change (item_url (p_item q)) with (p_url q) in VQ. rewrite Hp in VQ. injection VQ as ->.
      rewrite Forall_forall in hv_shelved, hv_typed. destruct (hv_shelved q Hq) as (n & k & bl & H1 & H2 & H3 & H4 & H5).
      destruct (hv_typed q ltac:(apply in_or_app; auto)) as (_ & m & M1 & M2). exists (p_entry n k q). split; [exact H1|]. split; [reflexivity|]. split.
      * intros us2 Q. rewrite U1 in Q. injection Q as <-. cbn [page_of pg_article]. split; intro Q.
        -- apply (Permutation_in _ PA) in Q. apply in_app_or in Q as [Q|Q]; [|exfalso; exact (AU _ (AB q Hq) Q)]. unfold p_articles in Q. apply in_map_iff in Q as (q2 & Q1 & Q2). apply filter_In in Q2 as (Q2 & Q3).
           assert (q2 = q); [|subst q2; exact Q3]. apply NoDup_app_remove_r in ND. clear - ND Q1 Q2 Hq. induction Pd as [|x P IH]; [destruct Hq|]. cbn [map] in ND. inversion ND as [|? ? N1 N2]; subst.
           destruct Hq as [->|Hq], Q2 as [->|Q2]; auto; exfalso; apply N1; [rewrite <- Q1|rewrite Q1]; apply in_map; assumption.
        -- eapply Permutation_in; [apply Permutation_sym; exact PA|]. apply in_or_app. left. unfold p_articles. apply in_map_iff. exists q. split; [reflexivity|]. apply filter_In. auto.
      * cbn [page_of pg_body]. exists n, k, bl. split; [reflexivity|]. split; [|auto]. cbn [p_entry e_mimetype]. rewrite M1. f_equal. unfold encode in M2. unfold encoded. destruct (utf8_encode _); [|discriminate M2].
        injection M2 as ->. reflexivity.
    + right. right. exact S.
  - intros u e G. rewrite LI. apply (lookup_iff _ _ _ _ C1) in G as (G1 & G2). apply (in_map full_url) in G1. rewrite G2 in G1. apply (Permutation_in _ hv_urls) in G1. apply in_app_or in G1 as [G1|G1].
    + right. apply in_map_iff in G1 as (q & <- & Hq). destruct (T3 (p_item q) (p_data q) (IN q ltac:(apply in_or_app; auto))) as (VQ & _). unfold p_url. congruence.
    + apply in_map_iff in G1 as (e0 & <- & He0). apply (T2 _ e0). apply (lookup_iff _ _ _ _ C0). auto.
  - intros it d Hi. apply in_map_iff in Hi as (q & EQ & Hq). injection EQ as <- <-. destruct (T3 (p_item q) (p_data q) (IN q ltac:(apply in_or_app; auto))) as (V1 & V2 & V3 & V4).
    split; [exact V1|]. split; [|rewrite LI; auto]. apply hv_absent; [|exact V2]. intro Q. eapply NoDup_app_disjoint; [exact ND|exact Q|]. apply in_or_app. left. apply in_map_iff. exists q. auto.
  - intros r Hr. destruct (T4 r Hr) as (V1 & V2 & V3 & V4 & V5 & V6). split; [exact V1|]. rewrite !LI. split; [|auto]. apply hv_absent; [|exact V2]. intro Q.
    eapply NoDup_app_disjoint; [exact ND|exact Q|]. apply in_or_app. right. apply in_map. exact Hr.
  - rewrite urls_pairs. eapply NoDup_app_remove_l. exact ND.
Qed.

(** ** Changes of entries *)
Definition anchored (s : zim) : Prop := forall u, listing s u -> exists e c b, get_entry_by_full_url s u = Ok e /\ e_kind e = Content c b.
Record steady (s s' : zim) : Prop := mkSteady {
  sd_listing : forall u, listing s' u <-> listing s u;
  sd_entry : forall u e, listing s u -> get_entry_by_full_url s u = Ok e -> exists e', get_entry_by_full_url s' u = Ok e' /\ same_entry e e' }.
Lemma steady_blob : forall s s' c b, anchored s -> steady s s' -> listing_blob s' c b -> listing_blob s c b.
Proof.
  intros s s' c b AN [S1 S2] (u & e & HU & G & EK). change (listing s' u) in HU. apply S1 in HU. destruct (AN u HU) as (e0 & c0 & b0 & G0 & EK0). destruct (S2 u e0 HU G0) as (e1 & G1 & SE).
  rewrite (same_content e0 e1 c0 b0 EK0 SE) in G1. rewrite G in G1. injection G1 as ->. exists u, e0. auto.
Qed.
Lemma steady_anchored : forall s s', anchored s -> steady s s' -> anchored s'.
Proof.
  intros s s' AN [S1 S2] u HU. apply S1 in HU. destruct (AN u HU) as (e0 & c0 & b0 & G0 & EK0). destruct (S2 u e0 HU G0) as (e1 & G1 & SE).
  rewrite (same_content e0 e1 c0 b0 EK0 SE) in G1. eauto.
Qed.
Lemma tracks_listing : forall s s' u, ztracks s s' -> (listing s' u <-> listing s u).
Proof. intros s s' u [_ _ T]. unfold listing. unfold otracks in T. destruct (z_etpl s), (z_etpl s'); try contradiction; intuition congruence. Qed.

Lemma absent_exists : forall s E u, consistent s E -> (absent E u <-> ~ exists_at s u).
Proof.
  intros s E u C. split.
  - intros A X. exact (not_both s E u C X A).
  - intros N e He Hu. apply N. exists e. apply (lookup_iff _ _ _ _ C). auto.
Qed.
(** Which urls are taken can be traced back. *)
Lemma taken_before : forall s E s' u, consistent s E -> (get_entry_by_full_url s u = Err EntryNotFound -> get_entry_by_full_url s' u = Err EntryNotFound) -> exists_at s' u -> exists_at s u.
Proof.
  intros s E s' u C HM (e & G). destruct (exists_at_dec s E u C) as [X|X]; [exact X|]. exfalso. destruct (utf8_encode u) as [b|] eqn:EB.
  - rewrite HM in G; [discriminate G|]. apply (missing_iff _ _ _ _ C EB). exact X.
  - rewrite (lookup_unencodable s' u EB) in G. discriminate G.
Qed.

Section Pages.
Variables (s : zim) (E : list entry) (X : list (option (list bytes))) (types : list bytes) (W : list (item * bytes)) (R : list rop) (V : view).
Hypothesis C : consistent s E.
Hypothesis AN : anchored s.
Hypothesis T : table s E X types W R V.

Lemma page_in_archive : forall u p, V u = Some p -> ~ listing s u -> exists_at s u -> shown s X types u p.
Proof.
  intros u p Hp NL EX. destruct (tb_page _ _ _ _ _ _ _ T u p Hp NL) as [S|[S|S]]; [exact S| |]; exfalso; apply (not_both s E u C EX).
  - unfold urls_of in S. apply in_map_iff in S as ([it d] & <- & Hi). apply (tb_waiting _ _ _ _ _ _ _ T it d Hi).
  - apply in_map_iff in S as (r & <- & Hr). apply (tb_buffer _ _ _ _ _ _ _ T r Hr).
Qed.
Lemma nameable_page : forall u p, V u = Some p -> ~ listing s u -> nameable u.
Proof.
  intros u p Hp NL. destruct (tb_page _ _ _ _ _ _ _ T u p Hp NL) as [(e & G & _)|[S|S]].
  - apply (lookup_iff _ _ _ _ C) in G as (G1 & G2). pose proof (consistent_storable _ _ _ C G1) as ST. pose proof ST as (_ & (x & EX) & ((b & EB) & _) & _). destruct (ns_char e ST) as (c & EN). subst u. unfold full_url.
    split; [rewrite EN; discriminate|]. exists ([x] ++ b). apply utf8_encode_app; assumption.
  - unfold urls_of in S. apply in_map_iff in S as ([it d] & <- & Hi). apply (tb_waiting _ _ _ _ _ _ _ T it d Hi).
  - apply in_map_iff in S as (r & <- & Hr). destruct (tb_buffer _ _ _ _ _ _ _ T r Hr) as (_ & _ & _ & _ & _ & [(ns & v & x & E1 & E2 & (E3 & _)) _ _ _]). destruct E3 as (b & E3). rewrite E1.
    split; [discriminate|]. exists ([x] ++ b). change (ns :: v) with ([ns] ++ v). apply utf8_encode_app; assumption.
Qed.
(** No redirect of the archive leads to a page without links. *)
Lemma no_links : forall u x, (forall y q, V y = Some q -> pg_body q = Link u -> y = u) -> x <> u -> points s x u -> False.
Proof.
  intros u x HN NX (d & G & TG). destruct (tb_only _ _ _ _ _ _ _ T x d G) as [HL|HV].
  - destruct (AN x HL) as (e & c & b & G1 & EK). rewrite G in G1. injection G1 as ->. unfold target_url in TG. rewrite EK in TG. discriminate TG.
  - destruct (V x) as [q|] eqn:EQ; [|congruence]. destruct (listing_dec s x) as [HL|NL].
    + destruct (AN x HL) as (e & c & b & G1 & EK). rewrite G in G1. injection G1 as ->. unfold target_url in TG. rewrite EK in TG. discriminate TG.
    + destruct (page_in_archive x q EQ NL) as (e & G1 & _ & _ & B); [exists d; exact G|]. rewrite G in G1. injection G1 as <-. destruct (pg_body q) as [m dd|v] eqn:EB.
      * destruct B as (c & b & bl & EK & _). unfold target_url in TG. rewrite EK in TG. discriminate TG.
      * rewrite TG in B. injection B as <-. exact (NX (HN x q EQ EB)).
Qed.
Lemma vput_same : forall u p (U : view), vput u p U u = p.
Proof. intros u p U. unfold vput. rewrite (proj2 (ueqb_eq u u) eq_refl). reflexivity. Qed.
Lemma vput_other : forall u p (U : view) x, x <> u -> vput u p U x = U x.
Proof. intros u p U x N. unfold vput. destruct (ueqb x u) eqn:Q; [apply ueqb_eq in Q; contradiction|reflexivity]. Qed.
Lemma link_same : forall (U : view) t ttl, U t = V t -> link_page U t ttl = link_page V t ttl.
Proof. intros U t ttl Q. unfold link_page. rewrite Q. reflexivity. Qed.

Lemma link_kept : forall (U : view) r, V (rtarget r) <> None \/ wanted_title r <> None -> (V (rtarget r) <> None -> U (rtarget r) = V (rtarget r)) ->
  link_page U (rtarget r) (wanted_title r) = link_page V (rtarget r) (wanted_title r) /\ (U (rtarget r) <> None \/ wanted_title r <> None).
Proof.
  intros U r N Q. destruct (wanted_title r) as [t|] eqn:EW; [split; [reflexivity|right; discriminate]|]. destruct N as [N|N]; [|congruence]. specialize (Q N). split; [apply link_same; exact Q|left; congruence].
Qed.

(** *** Editing *)
Lemma edit_table : forall s' E' types' u p q m d w, consistent s' E' -> steady s s' -> ArchiveEdit.edited s u w s' -> exists_at s u -> ~ listing s u -> V u = Some p -> pg_body p = Data m d ->
  (forall x y, V x = Some y -> pg_body y <> Link u) -> let v := full_url (w_entry w) in (v = u \/ V v = None /\ ~ listing s v) ->
  e_title (w_entry w) = Some (pg_title q) -> (stays_article s u w <-> pg_article q = true) -> (exists t, types' = types ++ t) ->
  (forall e, get_entry_by_full_url s u = Ok e -> e_kind (w_entry w) = e_kind e /\ exists m', pg_body q = Data m' d /\ mt_get (e_mimetype (w_entry w)) types' = Ok m') ->
  table s' E' X types' W R (vput v (Some q) (vput u None V)).
Proof.
  intros s' E' types' u p q m d w C' SD [_ ENew EOld EOth EMis EArt] EXu NLu Vu Bu NK v FR TI SA TY KD. set (V' := vput v (Some q) (vput u None V)). destruct (article_urls_ok _ _ C) as (us & U0 & _).
  destruct (EArt us U0) as (us' & U1 & _ & AR). fold v in ENew, EOld, EMis, AR. pose proof (sd_listing _ _ SD) as LI. pose proof (fun c b => steady_blob s s' c b AN SD) as LB.
  pose proof (page_in_archive u p Vu NLu EXu) as (e0 & G0 & _ & _ & B0). rewrite Bu in B0. destruct B0 as (c & b & bl & K0 & M0 & Z1 & Z2 & NLB).
  assert (VO : forall x, x <> v -> x <> u -> V' x = V x) by (intros x N1 N2; unfold V'; rewrite vput_other by exact N1; apply vput_other; exact N2).
  assert (VV : V' v = Some q) by apply vput_same.
  assert (VU : v <> u -> V' u = None) by (intro N; unfold V'; rewrite vput_other by congruence; apply vput_same).
  assert (OTH : forall x y, V x = Some y -> x <> u -> x <> v) by (intros x y Hx N Q; subst x; destruct FR as [F|(F & _)]; congruence).
  assert (ABU : forall x, absent E x -> x <> u) by (intros x Ha Q; subst x; exact (not_both s E u C EXu Ha)).
  assert (AB : forall x, absent E x -> x <> v -> absent E' x).
  { intros x Ha N. apply (absent_exists _ _ _ C'). intro Q. apply (taken_before s E s' x C (EMis x N)) in Q. exact (not_both s E x C Q Ha). }
  constructor.
  - intros x y Hy NL. rewrite LI in NL. destruct (list_eq_dec Z.eq_dec x v) as [->|Nv]; [|destruct (list_eq_dec Z.eq_dec x u) as [->|Nu]].
    + left. rewrite VV in Hy. injection Hy as <-. exists (w_entry w). split; [exact ENew|]. split; [exact TI|]. destruct (KD e0 G0) as (K1 & m' & BQ & M1). split.
      * intros us2 Q. rewrite U1 in Q. injection Q as <-. rewrite AR, <- SA. split; [|auto]. intros [(_ & Q)|(Q1 & Q2)]; [exact Q|]. exfalso.
        apply (article_urls_in _ _ _ C U0) in Q2 as (i & e & _ & Y1 & Y2). apply PointerListProofs.znth_in in Y1. destruct FR as [F|(F1 & F2)]; [congruence|].
        assert (G : get_entry_by_full_url s v = Ok e) by (apply (lookup_iff _ _ _ _ C); auto). destruct (tb_only _ _ _ _ _ _ _ T v e G) as [HL|HV]; congruence.
      * rewrite BQ. exists c, b, bl. rewrite K1, K0. split; [reflexivity|]. split; [exact M1|]. split; [exact Z1|]. split; [exact Z2|]. intro Q. apply NLB. auto.
    + rewrite VU in Hy by congruence. discriminate Hy.
    + rewrite VO in Hy by assumption. destruct (tb_page _ _ _ _ _ _ _ T x y Hy NL) as [S|[S|S]]; [left|auto|auto].
      eapply shown_kept; [exact S|exact U0|exact U1|intros e He; exact (EOth x e Nu He)| |exact TY|intros; eauto|exact LB]. rewrite AR. split; [auto|]. intros [(Q & _)|(_ & Q)]; [contradiction|exact Q].
  - intros x e G. rewrite LI. destruct (list_eq_dec Z.eq_dec x v) as [->|Nv]; [right; rewrite VV; discriminate|]. destruct (list_eq_dec Z.eq_dec x u) as [->|Nu].
    + rewrite (EOld ltac:(congruence)) in G. discriminate G.
    + destruct (taken_before s E s' x C (EMis x Nv)) as (e1 & G1); [exists e; exact G|]. rewrite VO by assumption. exact (tb_only _ _ _ _ _ _ _ T x e1 G1).
  - intros it dd Hi. destruct (tb_waiting _ _ _ _ _ _ _ T it dd Hi) as (V1 & V2 & V3 & V4). pose proof (ABU _ V2) as N1. pose proof (OTH _ _ V1 N1) as N2. rewrite VO, LI by assumption. auto.
  - intros r Hr. destruct (tb_buffer _ _ _ _ _ _ _ T r Hr) as (V1 & V2 & V3 & V4 & V5 & V6). pose proof (ABU _ V2) as N1. pose proof (OTH _ _ V1 N1) as N2.
    assert (N3 : rtarget r <> u) by (intro Q; apply (NK _ _ V1); cbn [link_page pg_body]; congruence).
    destruct (link_kept V' r V4) as (LP & V4').
    { intro NV. destruct (V (rtarget r)) as [y|] eqn:EY; [|congruence]. pose proof (OTH _ _ EY N3) as N4. rewrite <- EY. apply VO; assumption. }
    rewrite (VO (rsource r)) by assumption. rewrite LP, !LI. split; [exact V1|]. split; [auto|]. split; [exact V3|]. split; [exact V4'|]. auto.
  - exact (tb_distinct _ _ _ _ _ _ _ T).
Qed.

(** *** Removing *)
Lemma remove_table : forall s' E' u, consistent s' E' -> steady s s' -> deleted s u s' -> exists_at s u ->
  (forall x y, V x = Some y -> pg_body y = Link u -> x = u) -> table s' E' X types W R (vput u None V).
Proof.
  intros s' E' u C' SD [_ DG DO DM DA] EXu NK. set (V' := vput u None V). destruct (article_urls_ok _ _ C) as (us & U0 & _). destruct (DA us U0) as (us' & U1 & _ & AR).
  pose proof (sd_listing _ _ SD) as LI. pose proof (fun c b => steady_blob s s' c b AN SD) as LB.
  assert (VO : forall x, x <> u -> V' x = V x) by (intros x N; apply vput_other; exact N).
  assert (ABU : forall x, absent E x -> x <> u) by (intros x Ha Q; subst x; exact (not_both s E u C EXu Ha)).
  assert (AB : forall x, absent E x -> absent E' x).
  { intros x Ha. apply (absent_exists _ _ _ C'). intro Q. apply (taken_before s E s' x C (DM x)) in Q. exact (not_both s E x C Q Ha). }
  constructor.
  - intros x y Hy NL. rewrite LI in NL. destruct (list_eq_dec Z.eq_dec x u) as [->|Nu]; [unfold V' in Hy; rewrite vput_same in Hy; discriminate Hy|]. rewrite VO in Hy by exact Nu.
    destruct (tb_page _ _ _ _ _ _ _ T x y Hy NL) as [S|[S|S]]; [left|auto|auto].
    eapply shown_kept; [exact S|exact U0|exact U1|intros e He; exact (DO x e Nu He)| |exists []; symmetry; apply app_nil_r|intros; eauto|exact LB]. rewrite AR. tauto.
  - intros x e G. rewrite LI. destruct (list_eq_dec Z.eq_dec x u) as [->|Nu]; [rewrite DG in G; discriminate G|]. destruct (taken_before s E s' x C (DM x)) as (e1 & G1); [exists e; exact G|].
    rewrite VO by exact Nu. exact (tb_only _ _ _ _ _ _ _ T x e1 G1).
  - intros it dd Hi. destruct (tb_waiting _ _ _ _ _ _ _ T it dd Hi) as (V1 & V2 & V3 & V4). pose proof (ABU _ V2) as N1. rewrite VO, LI by assumption. auto.
  - intros r Hr. destruct (tb_buffer _ _ _ _ _ _ _ T r Hr) as (V1 & V2 & V3 & V4 & V5 & V6). pose proof (ABU _ V2) as N1.
    assert (N3 : rtarget r <> u) by (intro Q; apply N1; apply (NK _ _ V1); cbn [link_page pg_body]; congruence).
    assert (VT : V' (rtarget r) = V (rtarget r)) by (apply VO; assumption). destruct (link_kept V' r V4 (fun _ => VT)) as (LP & V4'). rewrite (VO (rsource r)) by assumption. rewrite LP, !LI. auto 8.
  - exact (tb_distinct _ _ _ _ _ _ _ T).
Qed.
End Pages.

(** *** Redirects *)
Lemma link_written : forall n s cells X types W R V r b s', core s cells -> consistent s (map snd cells) -> anchored s -> table s (map snd cells) X types W (r :: R) V -> zlen cells + 1 < 2 ^ 32 ->
  exists_at s (rtarget r) -> add_full_url_redirect (S (S n)) (rsource r) (rtarget r) (wanted_title r) s = (Ok b, s') ->
  b = true /\ exists cells', entry_step s cells s' cells' /\ table s' (map snd cells') X types W R V /\ steady s s' /\ zlen cells' = zlen cells + 1.
Proof.
  intros n s cells X types W R V r b s' CO C AN T HN EXt EA. set (L := map snd cells) in *.
  destruct (tb_buffer _ _ _ _ _ _ _ T r (or_introl eq_refl)) as (V1 & V2 & V3 & V4 & V5 & [(ns & u & x & Es & Hns & Hu) [Ht0 [tb Htb]] Hd Hti]).
  destruct EXt as (d & Gd). pose proof Gd as Gd0. apply (lookup_iff _ _ _ _ C) in Gd0 as (Hd1 & Hd2). destruct (in_znth _ _ Hd1) as [i Hi].
  set (t := match wanted_title r with Some t => t | None => title d end).
  assert (Hst : storable t).
  { unfold t. destruct (wanted_title r) as [t0|]; [auto|]. apply title_storable. eapply consistent_storable; eauto. }
  set (e := mkEntry MIMETYPE_ID_REDIRECT [ns] u (Some t) (Redirect i)).
  assert (MR : make_redirect s (rsource r) (rtarget r) (wanted_title r) = Ok (Some e)).
  { unfold make_redirect. replace (ueqb (rsource r) (rtarget r)) with false by (symmetry; apply ueqb_neq; exact Hd).
    rewrite Es. destruct (rtarget r) as [|t0 tr] eqn:Et; [contradiction|]. rewrite <- Et in *. rewrite <- Hd2 at 1. rewrite (url_index_in _ _ _ _ C Hi). rewrite Gd.
    unfold e, t. destruct (wanted_title r); reflexivity. }
  pose proof (znth_some _ _ _ Hi) as Hib.
  assert (EF : full_url (w_entry (fresh e)) = rsource r) by (rewrite Es; reflexivity).
  assert (AD : addable L (fresh e)).
  { constructor; cbn [fresh w_entry w_old_url w_force e].
    - split; [cbn; unfold MIMETYPE_ID_REDIRECT; lia|]. cbn. split; [eauto|]. split; [exact Hu|]. split; [eauto|]. unfold L in Hib. rewrite zlen_map in Hib. lia.
    - reflexivity.
    - unfold full_url. cbn. rewrite <- Es. exact V2.
    - unfold full_url. cbn. rewrite <- Es. exact V2.
    - unfold full_url. cbn [e_ns e_url app]. eapply encode_storable_app; eauto.
    - cbn. intros r0 Q. injection Q as <-. exact Hib.
    - discriminate.
    - intros _ Q. cbn in Q. injection Q as ->. reflexivity.
    - unfold L. rewrite zlen_map. exact HN. }
  unfold add_full_url_redirect, query, mbind in EA. rewrite MR in EA. cbv beta iota in EA. destruct (write_entry (S (S n)) (fresh e) s) as [[[]|] s1] eqn:EW; [|discriminate EA]. injection EA as <- <-.
  split; [reflexivity|]. destruct (add_step s cells (fresh e) n s1 CO C AD EW) as (cells' & ES). exists cells'. pose proof (es_consistent _ _ _ _ ES) as C'.
  destruct (add_lookup _ _ _ _ _ C AD EW) as ((e' & Ge' & Se' & Te') & Lo & Lm). rewrite EF in Ge', Lm.
  assert (SD : steady s s1).
  { constructor; [intro; apply tracks_listing; exact (es_tracks _ _ _ _ ES)|]. intros y e0 _ G. destruct (Lo y e0 G) as (e1 & G1 & S1 & _). eauto. }
  pose proof (sd_listing _ _ SD) as LI. pose proof (fun c b => steady_blob s s1 c b AN SD) as LB.
  destruct (article_urls_ok _ _ C) as (us & U0 & _). destruct (add_articles _ _ _ _ _ us C AD EW U0) as (us' & U1 & _ & PA). specialize (PA ltac:(discriminate)).
  assert (ABE : forall y, absent L y -> y <> rsource r -> absent (map snd cells') y).
  { intros y Ha N. apply (absent_exists _ _ _ C'). intro Q. apply (taken_before s L s1 y C (Lm y N)) in Q. exact (not_both s L y C Q Ha). }
  pose proof (tb_distinct _ _ _ _ _ _ _ T) as ND. cbn [map] in ND.
  assert (ND2 : NoDup (rsource r :: urls_of W ++ map rsource R)) by (eapply Permutation_NoDup; [apply Permutation_sym; apply Permutation_middle|exact ND]). inversion ND2 as [|? ? NI ND3]; subst.
  split; [exact ES|]. split; [|split; [exact SD|]].
  - constructor.
    + intros y p Hp NL. rewrite LI in NL. destruct (list_eq_dec Z.eq_dec y (rsource r)) as [->|Ny].
      * left. rewrite V1 in Hp. injection Hp as <-. exists e'. split; [exact Ge'|]. assert (Et : e_title e' = Some t) by (destruct Se' as (_ & _ & _ & Q & _); rewrite <- Q; reflexivity). split.
        { rewrite Et. f_equal. unfold t, link_page. cbn [pg_title]. destruct (wanted_title r); [reflexivity|]. destruct (V (rtarget r)) as [pt|] eqn:EV; [|destruct V4; congruence].
          destruct (page_in_archive s L X types W (r :: R) V C T _ pt EV V5 ltac:(exists d; exact Gd)) as (d' & Gd' & Td & _). rewrite Gd in Gd'. injection Gd' as <-. unfold title, shown_as. rewrite Td.
          destruct (pg_title pt); [|reflexivity]. rewrite <- Hd2. destruct (ns_char d (consistent_storable _ _ _ C Hd1)) as (c0 & En). unfold full_url. rewrite En. reflexivity. }
        split; [|cbn [link_page pg_body]; rewrite Te'; unfold target_url; cbn; rewrite (proj2 (index_iff _ _ _ _ C) Hi); congruence].
        intros us2 Q. rewrite U1 in Q. injection Q as <-. cbn [link_page pg_article]. split; [|discriminate]. intro Q. exfalso. apply (Permutation_in _ PA) in Q.
        apply (article_urls_in _ _ _ C U0) in Q as (j & e0 & _ & Y1 & Y2). apply PointerListProofs.znth_in in Y1. exact (V2 e0 Y1 Y2).
      * destruct (tb_page _ _ _ _ _ _ _ T y p Hp NL) as [S|[S|S]]; [left|auto|].
        -- eapply shown_kept; [exact S|exact U0|exact U1|exact (Lo y)| |exists []; symmetry; apply app_nil_r|intros; eauto|exact LB].
           split; intro Q; [eapply Permutation_in; [apply Permutation_sym; exact PA|exact Q]|exact (Permutation_in _ PA Q)].
        -- cbn [map] in S. destruct S as [S|S]; [congruence|auto].
    + intros y e0 G. rewrite LI. destruct (list_eq_dec Z.eq_dec y (rsource r)) as [->|Ny]; [right; rewrite V1; discriminate|].
      destruct (taken_before s L s1 y C (Lm y Ny)) as (e1 & G1); [exists e0; exact G|]. exact (tb_only _ _ _ _ _ _ _ T y e1 G1).
    + intros it dd Hi2. destruct (tb_waiting _ _ _ _ _ _ _ T it dd Hi2) as (W1 & W2 & W3 & W4). rewrite LI. split; [exact W1|]. split; [|auto]. apply ABE; [exact W2|]. intro Q. apply NI. apply in_or_app. left.
      rewrite <- Q. apply in_map_iff. exists (it, dd). auto.
    + intros r' Hr'. destruct (tb_buffer _ _ _ _ _ _ _ T r' (or_intror Hr')) as (W1 & W2 & W3 & W4 & W5 & W6). rewrite !LI. split; [exact W1|]. split; [|auto]. apply ABE; [exact W2|]. intro Q. apply NI. apply in_or_app. right.
      rewrite <- Q. apply in_map. exact Hr'.
    + exact ND3.
  - destruct (add_cases _ _ _ _ _ _ C AD EW) as [(_ & LA & LB2 & a & _ & _ & _ & _ & D0)|(Q & _)]; [|discriminate Q]. destruct D0 as (L' & off & CL' & Ln & _).
    pose proof CL' as [(cells2 & E2 & Co2) _ _ _ _]. rewrite (core_unique _ _ _ Co2 (es_core _ _ _ _ ES)) in E2. rewrite <- E2 in Ln. unfold L in Ln. rewrite !zlen_map in Ln. exact Ln.
Qed.
End View.
