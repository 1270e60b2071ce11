(** Items that wait for urls that are taken: when they are written, they replace
    what is there. *)
From Coq Require Import List ZArith Bool Lia Permutation.
From Coq Require Import ZifyBool ZifyNat.
From Verif Require Import Base BaseProofs Utf8 Utf8Proofs Dict Infobyte Header HeaderSpec HeaderProofs MimeTypeList MimeTypeListSpec MimeTypeListProofs PointerList PointerListProofs
  SpaceAllocator SpaceAllocatorSpec SpaceAllocatorProofs Entry EntrySpec EntryProofs Reader ReaderSpec Blob Cluster ClusterSpec ClusterProofs ClusterWrapper ClusterWrapperSpec ClusterWrapperProofs
  Archive ArchiveSpec ArchiveProofs ArchiveWriteProofs ArchiveMoveProofs ArchiveRemoveProofs ArchiveObserve ArchiveFacts ArchiveLaws ArchiveEdit ArchiveCluster ArchiveClusterSpec ArchiveClusterProofs ArchiveFrame ArchiveEntryCluster ArchiveEditCluster
  CompressionStrategy CompressionStrategySpec CompressionStrategyProofs OperationBuffer OperationBufferSpec OperationBufferProofs EntryObject EntryObjectSpec EntryObjectProofs
  Flush FlushSpec FlushProofs FlushTailProofs FlushOpenProofs FlushHistorySpec FlushHistoryProofs ViewSpec ViewProofs ViewEditProofs ViewStepProofs.
Import ListNotations.
Open Scope Z_scope.

(** ** The table *)

(** Like [table], but the url of a waiting item may be taken by content that no
    page links to. *)
Definition taken (s : zim) (V : view) (u : ustr) : Prop :=
  (exists e c b, get_entry_by_full_url s u = Ok e /\ e_kind e = Content c b) /\ forall x q, V x = Some q -> pg_body q <> Link u.
Record wtable (s : zim) (E : list entry) (X : list (option (list bytes))) (types : list bytes) (W : list (item * bytes)) (R : list rop) (V : view) : Prop := mkWtable {
  wt_page : forall u p, V u = Some p -> ~ listing s u -> shown s X types u p \/ In u (urls_of W) \/ In u (map rsource R);
  wt_only : forall u e, get_entry_by_full_url s u = Ok e -> listing s u \/ V u <> None;
  wt_waiting : forall it d, In (it, d) W -> V (item_url it) = Some (page_of it d) /\ (absent E (item_url it) \/ taken s V (item_url it)) /\ ~ listing s (item_url it) /\ nameable (item_url it);
  wt_buffer : forall r, In r R -> V (rsource r) = Some (link_page V (rtarget r) (wanted_title r)) /\ absent E (rsource r) /\ ~ listing s (rsource r) /\
    (V (rtarget r) <> None \/ wanted_title r <> None) /\ ~ listing s (rtarget r) /\ sound r;
  wt_distinct : NoDup (urls_of W ++ map rsource R) }.

Lemma table_wtable : forall s E X types W R V, table s E X types W R V -> wtable s E X types W R V.
Proof. intros s E X types W R V [T1 T2 T3 T4 T5]. constructor; try assumption. intros it d Hi. destruct (T3 it d Hi) as (A & B & C). auto. Qed.
Lemma wtable_table : forall s E X types W R V, consistent s E -> (forall it d, In (it, d) W -> ~ exists_at s (item_url it)) -> wtable s E X types W R V -> table s E X types W R V.
Proof.
  intros s E X types W R V C F [T1 T2 T3 T4 T5]. constructor; try assumption. intros it d Hi. destruct (T3 it d Hi) as (A & B & Q). split; [exact A|]. split; [|exact Q].
  apply (absent_exists _ _ _ C). exact (F it d Hi).
Qed.
Lemma wtable_perm : forall s E X types W W' R V, Permutation W W' -> wtable s E X types W R V -> wtable s E X types W' R V.
Proof.
  intros s E X types W W' R V P [T1 T2 T3 T4 T5]. assert (PU : Permutation (urls_of W) (urls_of W')) by (unfold urls_of; apply Permutation_map; exact P). constructor; try assumption.
  - intros u p Hp NL. destruct (T1 u p Hp NL) as [S|[S|S]]; auto. right. left. eapply Permutation_in; [exact PU|exact S].
  - intros it d Hi. apply T3. eapply Permutation_in; [apply Permutation_sym; exact P|exact Hi].
  - eapply Permutation_NoDup; [|exact T5]. apply Permutation_app_tail. exact PU.
Qed.

Section Waiting.
Variables (s : zim) (E : list entry) (X : list (option (list bytes))) (types : list bytes) (W : list (item * bytes)) (R : list rop) (V : view).
Hypothesis C : consistent s E.
Hypothesis AN : anchored s.
Hypothesis T : wtable s E X types W R V.
Lemma wt_unlinked : forall u, (forall x q, V x = Some q -> pg_body q <> Link u) -> forall x, ~ points s x u.
Proof.
  intros u NK x (d & G & TG).
  assert (NC : forall e c b, get_entry_by_full_url s x = Ok e -> e_kind e = Content c b -> False).
  { intros e c b G1 EK. rewrite G in G1. injection G1 as <-. unfold target_url in TG. rewrite EK in TG. discriminate TG. }
  destruct (listing_dec s x) as [HL|NL]; [destruct (AN x HL) as (e & c & b & G1 & EK); exact (NC e c b G1 EK)|].
  destruct (wt_only _ _ _ _ _ _ _ T x d G) as [HL|HV]; [contradiction|]. destruct (V x) as [q|] eqn:EQ; [|congruence].
  destruct (wt_page _ _ _ _ _ _ _ T x q EQ NL) as [S|[S|S]].
  - destruct S as (e & G1 & _ & _ & B). pose proof G1 as G2. rewrite G in G2. injection G2 as <-. destruct (pg_body q) as [m dd|v] eqn:EB; [destruct B as (c & b & bl & EK & _); exact (NC d c b G EK)|].
    rewrite TG in B. injection B as <-. exact (NK x q EQ EB).
  - unfold urls_of in S. apply in_map_iff in S as ([it dd] & Q & Hi). cbn [fst] in Q. destruct (wt_waiting _ _ _ _ _ _ _ T it dd Hi) as (_ & [AB|((e & c & b & G1 & EK) & _)] & _); rewrite Q in *.
    + apply (not_both s E x C); [exists d; exact G|exact AB].
    + exact (NC e c b G1 EK).
  - apply in_map_iff in S as (r & Q & Hr). destruct (wt_buffer _ _ _ _ _ _ _ T r Hr) as (_ & AB & _). rewrite Q in AB. apply (not_both s E x C); [exists d; exact G|exact AB].
Qed.
End Waiting.

Lemma consistent_nodup : forall s L, consistent s L -> NoDup (map full_url L).
Proof.
  intros s L C. pose proof (consistent_sorted _ _ C) as S. clear C. induction S as [|e L S IH F]; cbn [map]; constructor; [|exact IH].
  intro Q. apply in_map_iff in Q as (x & Q & Hx). rewrite Forall_forall in F. specialize (F x Hx). unfold url_lt in F. rewrite Q, ultb_irrefl in F. discriminate F.
Qed.
Lemma count_grows : forall s L s' L' u, consistent s L -> consistent s' L' -> (forall v, v <> u -> exists_at s' v -> exists_at s v) -> zlen L' <= zlen L + 1.
Proof.
  intros s L s' L' u C C' HI.
  assert (Q : (length (map full_url L') <= length (u :: map full_url L))%nat).
  { apply NoDup_incl_length; [exact (consistent_nodup _ _ C')|]. intros v Hv. destruct (list_eq_dec Z.eq_dec v u) as [->|N]; [left; reflexivity|right]. apply in_map_iff in Hv as (e & Q & He).
    destruct (HI v N) as (e1 & G1); [exists e; apply (lookup_iff _ _ _ _ C'); auto|]. apply (lookup_iff _ _ _ _ C) in G1 as (G1 & <-). apply in_map. exact G1. }
  cbn [length] in Q. rewrite !map_length in Q. unfold zlen. lia.
Qed.

(** The entry at [u] becomes [e], the others stay. *)
Definition only_changes (s : zim) (u : ustr) (e : entry) (s' : zim) : Prop :=
  get_entry_by_full_url s' u = Ok e /\
  (forall v d, v <> u -> get_entry_by_full_url s v = Ok d -> exists d', get_entry_by_full_url s' v = Ok d' /\ same_entry d d') /\
  forall v, v <> u -> exists_at s' v -> exists_at s v.

(** ** Writing one item *)
Lemma item_written : forall fuel n s cells X ml W R V p c k bl s', core s cells -> consistent s (map snd cells) -> anchored s ->
  wtable s (map snd cells) X (ml_types ml) (pair_of p :: W) R V -> typed fuel ml p -> zlen (ml_types ml) <= 65535 -> 0 <= c < 2 ^ 32 -> 0 <= k < 2 ^ 32 -> zlen cells + 1 < 2 ^ 32 ->
  znth X c = Some (Some bl) -> znth bl k = Some (p_data p) -> ~ listing_blob s c k -> write_entry (S (S n)) (p_went c k p) s = (Ok tt, s') ->
  exists cells', entry_step s cells s' cells' /\ steady s s' /\ wtable s' (map snd cells') X (ml_types ml) W R V /\ zlen cells' <= zlen cells + 1 /\ only_changes s (p_url p) (p_entry c k p) s'.
Proof.
  intros fuel n s cells X ml W R V p c k bl s' CO C AN T (OK & m & M1 & M2) MZ HC HK HZ Z1 Z2 NLB WE. set (E := map snd cells) in *. set (u := p_url p) in *.
  destruct (wt_waiting _ _ _ _ _ _ _ T (p_item p) (p_data p) (or_introl eq_refl)) as (VU & TK & NLU & NMU). change (item_url (p_item p)) with u in *.
  assert (HM : 0 <= p_mime p < 65535) by (apply mt_get_range in M1; lia).
  assert (ADD : forall AB : absent E u, addable E (p_went c k p)) by (intro AB; eapply p_addable; try eassumption; unfold E; rewrite zlen_map; exact HZ).
  assert (STO : entry_storable (p_entry c k p) /\ kind_consistent (p_entry c k p)).
  { destruct (item_storable _ _ _ OK) as ((x & N1) & N2 & _ & N4). split; [|unfold kind_consistent; cbn; lia]. unfold entry_storable. cbn. split; [lia|]. split; [eauto|]. split; [exact N2|]. split; [eauto|]. change (2 ^ 32) with 4294967296 in *. lia. }
  pose proof OK as (_ & _ & ARC). destruct (article_urls_ok _ _ C) as (us & U0 & N0).
  assert (KEY : exists cells' us', entry_step s cells s' cells' /\ article_urls s' = Some us' /\ get_entry_by_full_url s' u = Ok (p_entry c k p) /\
    (forall v d, v <> u -> get_entry_by_full_url s v = Ok d -> exists d', get_entry_by_full_url s' v = Ok d' /\ same_entry d d' /\ target_url s' d' = target_url s d) /\
    (forall v, v <> u -> get_entry_by_full_url s v = Err EntryNotFound -> get_entry_by_full_url s' v = Err EntryNotFound) /\
    (forall x, In x us' <-> (x = u /\ it_article (p_item p) = true) \/ (x <> u /\ In x us))).
  { destruct TK as [AB|((e0 & c0 & b0 & G0 & K0) & NK)].
    - specialize (ADD AB). destruct (add_step s cells _ n s' CO C ADD WE) as (cells' & ES). destruct (add_lookup _ _ _ _ _ C ADD WE) as ((e' & F1 & F2 & _) & F3 & F4).
      destruct (add_articles _ _ _ _ _ us C ADD WE U0) as (us' & U1 & U2 & U3). cbn [w_entry p_went w_force] in *. rewrite p_full_url in *. fold u in F1, F4, U2.
      rewrite (same_content (p_entry c k p) _ c k eq_refl F2) in F1. exists cells', us'. split; [exact ES|]. split; [exact U1|]. split; [exact F1|]. split; [intros v d _; apply F3|]. split; [exact F4|].
      assert (NU : ~ In u us).
      { intro Q. apply (article_urls_in _ _ _ C U0) in Q as (i & e & _ & Y1 & Y2). apply PointerListProofs.znth_in in Y1. exact (AB e Y1 Y2). }
      intro x. destruct (it_article (p_item p)).
      + specialize (U2 eq_refl). split; intro Q.
        * apply (Permutation_in _ U2) in Q. destruct Q as [<-|Q]; [auto|]. right. split; [|exact Q]. intros ->. contradiction.
        * apply (Permutation_in _ (Permutation_sym U2)). destruct Q as [(-> & _)|(_ & Q)]; [left; reflexivity|right; exact Q].
      + specialize (U3 ltac:(discriminate)). split; intro Q.
        * apply (Permutation_in _ U3) in Q. right. split; [|exact Q]. intros ->. contradiction.
        * apply (Permutation_in _ (Permutation_sym U3)). destruct Q as [(_ & Q)|(_ & Q)]; [discriminate Q|exact Q].
    - assert (ED : editable s u (p_went c k p)).
      { constructor; cbn [p_went w_entry w_old_url w_force].
        - reflexivity.
        - exact (proj1 STO).
        - exact (proj2 STO).
        - exists c, k. reflexivity.
        - eauto.
        - left. apply p_full_url.
        - exact (wt_unlinked _ _ _ _ _ _ _ C AN T u NK).
        - left. apply p_full_url.
        - intro Q. apply ARC. congruence.
        - discriminate. }
      destruct (edit_step _ _ _ _ _ _ CO C ED WE) as (cells' & ES). destruct (edit_law _ _ _ _ _ _ C ED WE) as [_ ENew _ EOth EMis EArt]. destruct (EArt us U0) as (us' & U1 & _ & AR).
      cbn [w_entry p_went] in *. rewrite p_full_url in *. fold u in ENew, EMis, AR. exists cells', us'. split; [exact ES|]. split; [exact U1|]. split; [exact ENew|]. split; [exact EOth|]. split; [exact EMis|]. exact AR. }
  destruct KEY as (cells' & us' & ES & U1 & GN & GO & GM & AR). exists cells'. pose proof (es_consistent _ _ _ _ ES) as C'.
  assert (SD : steady s s').
  { constructor; [intro; apply tracks_listing; exact (es_tracks _ _ _ _ ES)|]. intros y e0 HL G. destruct (GO y e0) as (e1 & G1 & S1 & _); [intros ->; contradiction|exact G|]. eauto. }
  pose proof (sd_listing _ _ SD) as LI. pose proof (fun c b => steady_blob s s' c b AN SD) as LB.
  assert (TB : forall v, v <> u -> exists_at s' v -> exists_at s v) by (intros v N Q; exact (taken_before s E s' v C (GM v N) Q)).
  assert (ABE : forall y, absent E y -> y <> u -> absent (map snd cells') y).
  { intros y Ha N. apply (absent_exists _ _ _ C'). intro Q. apply (TB y N) in Q. exact (not_both s E y C Q Ha). }
  pose proof (wt_distinct _ _ _ _ _ _ _ T) as ND. cbn [urls_of map app fst pair_of] in ND. change (item_url (p_item p)) with u in ND. inversion ND as [|? ? NI ND3]; subst. fold (urls_of W) in NI, ND3.
  split; [exact ES|]. split; [exact SD|]. split.
  - constructor.
    + intros y q Hq NL. rewrite LI in NL. destruct (list_eq_dec Z.eq_dec y u) as [->|Ny].
      * left. rewrite VU in Hq. injection Hq as <-. exists (p_entry c k p). split; [exact GN|]. split; [reflexivity|]. split.
        { intros us2 Q. rewrite U1 in Q. injection Q as <-. rewrite AR. cbn [page_of pg_article]. tauto. }
        cbn [page_of pg_body]. exists c, k, bl. split; [reflexivity|]. split; [|split; [exact Z1|split; [exact Z2|intro Q; apply NLB; auto]]].
        cbn [p_entry e_mimetype]. rewrite M1. f_equal. unfold encode in M2. unfold encoded. destruct (utf8_encode _); [|discriminate M2]. injection M2 as ->. reflexivity.
      * destruct (wt_page _ _ _ _ _ _ _ T y q Hq NL) as [S|[S|S]].
        -- left. eapply shown_kept; [exact S|exact U0|exact U1|intros e He; exact (GO y e Ny He)| |exists []; symmetry; apply app_nil_r|intros; eauto|exact LB]. rewrite AR. tauto.
        -- destruct S as [S|S]; [exfalso; apply Ny; symmetry; exact S|auto].
        -- auto.
    + intros y e0 G. rewrite LI. destruct (list_eq_dec Z.eq_dec y u) as [->|Ny]; [right; rewrite VU; discriminate|].
      destruct (TB y Ny) as (e1 & G1); [exists e0; exact G|]. exact (wt_only _ _ _ _ _ _ _ T y e1 G1).
    + intros it dd Hi. destruct (wt_waiting _ _ _ _ _ _ _ T it dd (or_intror Hi)) as (W1 & W2 & W3 & W4). rewrite LI. split; [exact W1|]. split; [|auto].
      assert (NU : item_url it <> u). { intro Q. apply NI. apply in_or_app. left. rewrite <- Q. unfold urls_of. apply in_map_iff. exists (it, dd). auto. }
      destruct W2 as [W2|((e1 & c1 & b1 & G1 & K1) & W2)]; [left; auto|right]. split; [|exact W2]. destruct (GO _ e1 NU G1) as (e2 & G2 & S2 & _). rewrite (same_content e1 e2 c1 b1 K1 S2) in G2. eauto.
    + intros r Hr. destruct (wt_buffer _ _ _ _ _ _ _ T r Hr) as (W1 & W2 & W3 & W4 & W5 & W6). rewrite !LI. split; [exact W1|]. split; [|auto]. apply ABE; [exact W2|]. intro Q. apply NI. apply in_or_app. right.
      rewrite <- Q. apply in_map. exact Hr.
    + exact ND3.
  - split; [pose proof (count_grows _ _ _ _ u C C' TB) as Q; unfold E in Q; rewrite !zlen_map in Q; exact Q|]. split; [exact GN|]. split; [|exact TB].
    intros v d Nv Hv. destruct (GO v d Nv Hv) as (d' & Y1 & Y2 & _). eauto.
Qed.

(** ** Writing several items *)
Lemma items_written : forall fuel n X ml W R V c bl P k c0 s cells l' s', core s cells -> consistent s (map snd cells) -> anchored s ->
  wtable s (map snd cells) X (ml_types ml) (map pair_of P ++ W) R V -> Forall (typed fuel ml) P -> zlen (ml_types ml) <= 65535 -> 0 <= c < 2 ^ 32 -> 0 <= k -> k + zlen P < 2 ^ 32 -> zlen cells + zlen P < 2 ^ 32 ->
  znth X c = Some (Some bl) -> (forall j p, znth P j = Some p -> znth bl (k + j) = Some (p_data p)) -> (forall b, ~ listing_blob s c b) ->
  write_entries n c (entries_of c0 k P) s = (Ok tt, (l', s')) ->
  exists cells', entry_step s cells s' cells' /\ steady s s' /\ wtable s' (map snd cells') X (ml_types ml) W R V /\ zlen cells' <= zlen cells + zlen P.
Proof.
  intros fuel n X ml W R V c bl. induction P as [|p P IH]; intros k c0 s cells l' s' CO C AN T TY MZ HC HK HKP HZ Z1 Z2 NLB WE; cbn [entries_of write_entries] in WE.
  - injection WE as <- <-. exists cells. split; [apply step_refl; assumption|]. split; [apply steady_refl|]. split; [exact T|]. change (zlen (@nil pitem)) with 0. lia.
  - rewrite zlen_cons in *. pose proof (zlen_nonneg P). unfold set_cluster_number in WE. replace (c <? 0) with false in WE by lia. cbn [w_entry p_went e_kind p_entry] in WE.
    change (set_kind (Content c k) (p_went c0 k p)) with (p_went c k p) in WE.
    destruct (write_entry (S (S n)) (p_went c k p) s) as [[[]|e] s1] eqn:W1; [|discriminate WE].
    destruct (write_entries n c (entries_of c0 (k + 1) P) s1) as [r [l2 s2]] eqn:W2. injection WE as -> <- <-. inversion TY as [|? ? TY1 TY2]; subst.
    cbn [map app] in T. destruct (item_written fuel n s cells X ml _ R V p c k bl s1 CO C AN T TY1 MZ HC ltac:(lia) ltac:(lia) Z1) as (cells1 & ES & SD & T1 & ZC & _);
      [replace k with (k + 0) by lia; apply Z2; reflexivity|apply NLB|exact W1|].
    destruct (IH (k + 1) c0 s1 cells1 l2 s2) as (cells2 & ES2 & SD2 & T2 & ZC2).
    + exact (es_core _ _ _ _ ES).
    + exact (es_consistent _ _ _ _ ES).
    + eapply steady_anchored; eassumption.
    + exact T1.
    + exact TY2.
    + exact MZ.
    + exact HC.
    + lia.
    + lia.
    + lia.
    + exact Z1.
    + intros j q Hj. pose proof (znth_some _ _ _ Hj). replace (k + 1 + j) with (k + (1 + j)) by lia. apply Z2.
      unfold znth in *. replace (1 + j <? 0) with false by lia. replace (j <? 0) with false in Hj by lia. replace (Z.to_nat (1 + j)) with (S (Z.to_nat j)) by lia. exact Hj.
    + intros b Q. exact (NLB b (steady_blob _ _ _ _ AN SD Q)).
    + exact W2.
    + exists cells2. split; [eapply step_trans; eassumption|]. split; [eapply steady_trans; eassumption|]. split; [exact T2|lia].
Qed.

(** The entries are the same; only blobs and types are added. *)
Lemma wtable_same : forall s s2 E X X2 types types2 W R V, consistent s E -> consistent s2 E -> z_atpl s2 = z_atpl s -> z_etpl s2 = z_etpl s -> (exists t, X2 = X ++ t) -> (exists t, types2 = types ++ t) ->
  wtable s E X types W R V -> wtable s2 E X2 types2 W R V.
Proof.
  intros s s2 E X X2 types types2 W R V C C2 EA EE (tx & ->) TY [T1 T2 T3 T4 T5]. pose proof (same_lookup _ _ _ C C2) as LK.
  assert (LI : forall u, listing s2 u <-> listing s u) by (intro u; unfold listing; rewrite EE; reflexivity).
  destruct (article_urls_ok _ _ C) as (us & U0 & _). destruct (same_articles _ _ _ us C C2 EA U0) as (us2 & U1 & U2).
  constructor.
  - intros u p Hp NL. rewrite LI in NL. destruct (T1 u p Hp NL) as [S|S]; [left|auto]. eapply shown_kept; [exact S|exact U0|exact U1| | |exact TY| |].
    + intros e G. exists e. rewrite LK. split; [exact G|]. split; [unfold same_entry; destruct (e_kind e); auto 10|]. apply (same_target _ _ _ _ C C2).
    + split; intro Q; [eapply Permutation_in; [apply Permutation_sym; exact U2|exact Q]|eapply Permutation_in; [exact U2|exact Q]].
    + intros c b bl Hc _. exists bl. split; [apply znth_app_some; exact Hc|reflexivity].
    + intros c b (u0 & e & HU & G & K). exists u0, e. rewrite LK in G. split; [exact (proj1 (LI u0) HU)|auto].
  - intros u e G. rewrite LK in G. rewrite LI. eauto.
  - intros it d Hi. destruct (T3 it d Hi) as (W1 & W2 & W3 & W4). rewrite LI. split; [exact W1|]. split; [|auto]. destruct W2 as [W2|(W2 & W5)]; [auto|]. right. split; [|exact W5]. rewrite LK. exact W2.
  - intros r Hr. destruct (T4 r Hr) as (W1 & W2 & W3 & W4 & W5 & W6). rewrite !LI. auto 8.
  - exact T5.
Qed.

Section Store.
Variable fuel : nat.
Context {D : Type}.
Variable dc : decomp D.
Variable new_decomp : ctype -> res D.
Context {K : Type}.
Variable new_comp : ctype -> res K.
Variable comp : K -> bytes -> res (bytes * K).
Variable flush : K -> res bytes.
Variable depth : nat.
Variable Stream : ctype -> bytes -> bytes -> Prop.
Variable reserve : option Z.
Hypothesis CD : codec_ok dc new_decomp new_comp comp flush Stream.
Variable mx : Z.
Notation laid := (laid_out Stream reserve).
Notation pending := (pendany fuel mx).
Notation pendh := (pend fuel mx).

Lemma laid_alike : forall A A' cells L, fa_arch A' = fa_arch A -> fa_mimes A' = fa_mimes A -> fa_header A' = fa_header A -> laid A cells L -> laid A' cells L.
Proof.
  intros [[[a m] sc sp] h d r mm] [[[a' m'] sc' sp'] h' d' r' mm'] cells L E1 E2 E3 LO. cbn in E1, E2, E3. subst a' m' h'. destruct LO. constructor; assumption.
Qed.

(** ** What the strategies keep: an archive of which [A0] gives the header *)
Variable A0 : farchive.
Variable R : list rop.
Variable V : view.
Variables N1 N2 : Z.
Hypothesis B1 : N1 < 2 ^ 32.
Hypothesis B2 : N2 < 2 ^ 32.
Definition wst (s : sarchive) : farchive := mkFa (mkZs s (zs_comp (fa_state A0)) (zs_plain (fa_state A0))) (fa_header A0) (fa_dirty A0) (fa_redirects A0) (fa_main A0).
Definition stored (s : sarchive) (W : list (item * bytes)) : Prop := exists cells L, laid (wst s) cells L /\
  wtable (ca_zim (sa_arch s)) (map snd cells) (blobs_of L) (ml_types (sa_mimes s)) W R V /\ zlen cells + zlen W <= N1 /\ zlen L + zlen W <= N2.
Lemma stored_perm : forall s W W', Permutation W W' -> stored s W -> stored s W'.
Proof.
  intros s W W' P (cells & L & H1 & H2 & H3 & H4). exists cells, L. assert (Q : zlen W' = zlen W) by (unfold zlen; rewrite (Permutation_length P); reflexivity). rewrite Q.
  split; [exact H1|]. split; [eapply wtable_perm; eassumption|auto].
Qed.
Lemma stored_entry : forall it d s en s' W, item_ok fuel it d -> CompressionStrategy.to_entry it s = (Ok en, s') -> stored s W -> stored s' W.
Proof.
  intros it d s en s' W OK E (cells & L & H1 & H2 & H3 & H4). destruct (to_entry_mimes _ _ _ _ E) as (MX & EA). destruct (to_entry_good fuel it d s _ s' OK E) as (MT & MS). exists cells, L.
  split; [|split; [|auto]].
  - pose proof H1 as LO. eapply (laid_content _ _ (wst s) cells L (wst s')); [exact LO|reflexivity|exact MT| | | | |].
    + destruct (lo_types _ _ _ _ _ LO) as (T1 & T2). split; [|exact (MS T2)]. change (fa_mimes (wst s')) with (sa_mimes s'). destruct MX as (t & ->). change (fa_mimes (wst s)) with (sa_mimes s) in T1. destruct (ml_types (sa_mimes s)); [congruence|discriminate].
    + change (fa_arch (wst s')) with (sa_arch s'). rewrite EA. exact (lo_arch _ _ _ _ _ LO).
    + exact (lo_present _ _ _ _ _ LO).
    + change (fa_arch (wst s')) with (sa_arch s'). rewrite EA. apply framed_refl.
    + unfold listings_ok. change (fa_zim (wst s')) with (ca_zim (sa_arch s')). rewrite EA. exact (lo_listings _ _ _ _ _ LO).
  - rewrite EA. pose proof (laid_consistent _ _ _ _ _ H1) as C. eapply wtable_same; [exact C|exact C|reflexivity|reflexivity|exists []; symmetry; apply app_nil_r|exact MX|exact H2].
Qed.

(** The cluster of a strategy is written; its items still wait. *)
Lemma cluster_stored : forall a ml st P W cells L n a2 c2, laid (wst (mkSa a ml)) cells L ->
  wtable (ca_zim a) (map snd cells) (blobs_of L) (ml_types ml) (map pair_of P ++ W) R V -> pendh st P ->
  write_cluster fuel new_comp comp flush new_ops None a (st_cluster st) = (Ok n, (a2, c2)) ->
  n = zlen L /\ exists x, let L2 := L ++ [Some x] in
    laid (wst (mkSa a2 ml)) cells L2 /\ wtable (ca_zim a2) (map snd cells) (blobs_of L2) (ml_types ml) (map pair_of P ++ W) R V /\
    znth (blobs_of L2) (zlen L) = Some (Some (map p_data P)) /\ (forall b, ~ listing_blob (ca_zim a2) (zlen L) b) /\
    forall u, get_entry_by_full_url (ca_zim a2) u = get_entry_by_full_url (ca_zim a) u.
Proof.
  intros a ml st P W cells L n a2 c2 LO T PD WC. destruct PD as [PM PE (w & EC & RP & RM & RX & RC) PS].
  rewrite EC in WC. pose proof (lo_arch _ _ _ _ _ LO) as AO. change (fa_arch (wst (mkSa a ml))) with a in AO.
  destruct (written fuel dc new_decomp new_comp comp flush Stream CD new_ops a (co_set w new_cluster) None (fun o => o = None) NONE false [] (map p_data P) None
      (holds_empty (option Z) _) (rep_sane fuel _ _ _ _ _ RP) RP (fun x Hx => Hx) cells L (zlen L) AO (or_introl (conj eq_refl eq_refl)) n a2 c2 WC) as (-> & off & len & AO2 & UU & NW & KK & LE & PD1 & PD2 & f0 & al0 & EZ0).
  rewrite append_replace in AO2. set (cell := mkCcell _ _ _ _) in AO2. set (L2 := L ++ [Some (off, cell)]) in *.
  assert (EB : znth (blobs_of L2) (zlen L) = Some (Some (map p_data P))).
  { unfold blobs_of, L2. rewrite map_app. rewrite <- (zlen_map (option_map (fun c : Z * ccell => cc_blobs (snd c))) L). cbn [map option_map snd cc_blobs cell]. apply znth_mid. }
  destruct (write_cluster_zim _ _ _ _ _ _ _ _ _ _ _ _ WC) as (f & al & EZ).
  assert (CS : consistent (ca_zim a) (map snd cells)) by exact (ao_entries _ _ _ _ AO). assert (CS2 : consistent (ca_zim a2) (map snd cells)) by exact (ao_entries _ _ _ _ AO2).
  assert (BX : exists t, blobs_of L2 = blobs_of L ++ t) by (unfold L2, blobs_of; rewrite map_app; eauto).
  assert (LO2 : laid (wst (mkSa a2 ml)) cells L2).
  { eapply (laid_content _ _ (wst (mkSa a ml)) cells L (wst (mkSa a2 ml))); [exact LO|reflexivity|apply mtracks_refl|exact (lo_types _ _ _ _ _ LO)|exact AO2| | |].
    - unfold L2. intro Q. apply in_app_or in Q as [Q|[Q|[]]]; [exact (lo_present _ _ _ _ _ LO Q)|discriminate Q].
    - change (fa_arch (wst (mkSa a ml))) with a. change (fa_arch (wst (mkSa a2 ml))) with a2. constructor.
      + intros x (S1 & S2 & S3). split; [apply UU; [exact S1|intros d; apply S3]|]. split; [exact S2|]. intros i d Hd Cv. apply znth_snoc_inv in Hd as [Hd|Hd]; [exact (S3 i d Hd Cv)|].
        injection Hd as ->. apply (NW x); [exact Cv|exact S1].
      + eapply keeps_weaken; [exact KK|]. intros x (S1 & _). exact S1.
      + exact LE.
      + rewrite EZ0. constructor; [apply tracks_refl..|apply otracks_refl].
      + split; [exact PD2|]. split; [rewrite (ao_mutable _ _ _ _ AO), (ao_mutable _ _ _ _ AO2); reflexivity|]. rewrite PD1. intro Q. discriminate Q.
    - destruct (lo_listings _ _ _ _ _ LO) as (c & b & K0 & KE). change (fa_zim (wst (mkSa a ml))) with (ca_zim a) in *.
      assert (KP : forall url l0 c0 b0, kept_at (ca_zim a) (blobs_of L) url l0 c0 b0 -> kept_at (ca_zim a2) (blobs_of L2) url l0 c0 b0).
      { intros url l0 c0 b0 (e & bl & G & EK & Y1 & Y2). exists e, bl. rewrite (same_lookup _ _ _ CS CS2). split; [exact G|]. split; [exact EK|]. split; [destruct BX as (t & ->); apply znth_app_some; exact Y1|exact Y2]. }
      exists c, b. change (fa_zim (wst (mkSa a2 ml))) with (ca_zim a2). replace (z_atpl (ca_zim a2)) with (z_atpl (ca_zim a)) by (rewrite EZ; reflexivity). replace (z_etpl (ca_zim a2)) with (z_etpl (ca_zim a)) by (rewrite EZ; reflexivity).
      split; [apply KP; exact K0|]. intros t Ht. destruct (KE t Ht) as (c1 & b1 & K1 & NQ). exists c1, b1. split; [apply KP; exact K1|exact NQ]. }
  assert (T2 : wtable (ca_zim a2) (map snd cells) (blobs_of L2) (ml_types ml) (map pair_of P ++ W) R V).
  { eapply wtable_same; [exact CS|exact CS2|rewrite EZ; reflexivity|rewrite EZ; reflexivity|exact BX|exists []; symmetry; apply app_nil_r|exact T]. }
  assert (NLB : forall b, ~ listing_blob (ca_zim a2) (zlen L) b).
  { intros b (u & e & HU & G & EK). rewrite (same_lookup _ _ _ CS CS2) in G.
    assert (KQ : exists l0 c0 b0, kept_at (ca_zim a) (blobs_of L) u l0 c0 b0).
    { destruct (lo_listings _ _ _ _ _ LO) as (c & b0 & K0 & KE). change (fa_zim (wst (mkSa a ml))) with (ca_zim a) in *. destruct HU as [->|(-> & HN)]; [eauto|].
      replace (z_etpl (ca_zim a2)) with (z_etpl (ca_zim a)) in HN by (rewrite EZ; reflexivity). destruct (z_etpl (ca_zim a)) as [t|]; [|congruence]. destruct (KE t eq_refl) as (c1 & b1 & K1 & _). eauto. }
    destruct KQ as (l0 & c0 & b0 & (e0 & bl & G0 & EK0 & Y1 & _)). rewrite G in G0. injection G0 as <-. rewrite EK in EK0. injection EK0 as <- <-. apply znth_some in Y1. unfold blobs_of in Y1. rewrite zlen_map in Y1. lia. }
  split; [reflexivity|]. exists (off, cell). cbv zeta. fold L2. split; [exact LO2|]. split; [exact T2|]. split; [exact EB|]. split; [exact NLB|]. intro u. apply (same_lookup _ _ _ CS CS2).
Qed.
Lemma finalize_stored : forall s st P W s' st', stored s (map pair_of P ++ W) -> pendh st P -> P <> [] -> Forall (typed fuel (sa_mimes s)) P -> zlen (ml_types (sa_mimes s)) <= 65535 ->
  CompressionStrategy.finalize fuel new_comp comp flush depth (s, st) = (Ok tt, (s', st')) -> stored s' W /\ pendh st' [] /\ sa_mimes s' = sa_mimes s.
Proof.
  intros s st P W s' st' (cells & L & LO & T & Z1 & Z2) PD NE TY MZ H. pose proof (finalize_mimes _ _ _ _ _ _ _ _ _ _ H) as EM. destruct s as [a ml]. cbn [sa_arch sa_mimes] in *. unfold CompressionStrategy.finalize in H. cbn [sa_arch sa_mimes] in H.
  destruct (write_cluster fuel new_comp comp flush new_ops None a (st_cluster st)) as [[n|e] [a2 c2]] eqn:WC; [|discriminate H].
  destruct (write_entries depth n (st_entries st) (ca_zim a2)) as [x [l z]] eqn:WE. destruct x as [[]|e]; [|discriminate H]. injection H as <- <-.
  split; [|split; [apply pend_empty; exact (pd_max _ _ _ _ PD)|exact EM]].
  destruct (cluster_stored a ml st P W cells L n a2 c2 LO T PD WC) as (-> & cl & LO2 & T2 & EB & NLB & _). set (L2 := L ++ [Some cl]) in *. rewrite (pd_entries _ _ _ _ PD) in WE.
  pose proof (lo_arch _ _ _ _ _ LO2) as AO2. assert (CS2 : consistent (ca_zim a2) (map snd cells)) by exact (ao_entries _ _ _ _ AO2).
  rewrite zlen_app, zlen_map in Z1, Z2. pose proof (zlen_nonneg L). pose proof (zlen_nonneg W). pose proof (zlen_nonneg P). pose proof (zlen_nonneg cells).
  assert (NP : 1 <= zlen P) by (destruct P; [congruence|rewrite zlen_cons in *; pose proof (zlen_nonneg P); lia]).
  destruct (items_written fuel depth (blobs_of L2) ml W R V (zlen L) (map p_data P) P 0 0 (ca_zim a2) cells l z (ao_core _ _ _ _ AO2) CS2 (laid_anchored _ _ _ _ _ LO2) T2 TY MZ) as (cells' & ES & SD & T3 & ZC);
    [lia|lia|lia|lia|exact EB|intros j p Hj; rewrite Z.add_0_l, znth_map, Hj; reflexivity|exact NLB|exact WE|].
  exists cells', L2. split; [|split; [exact T3|]].
  - eapply (entries_laid Stream reserve (wst (mkSa a2 ml))); [exact LO2|]. constructor; try reflexivity; [exact ES|split; [apply mgood_refl|apply mextends_refl]|exact SD].
  - unfold L2. rewrite zlen_app. change (zlen [Some cl]) with 1. lia.
Qed.

Lemma add_stored : forall s st P W it d s' st', stored s (map pair_of P ++ W) -> pendh st P -> Forall (typed fuel (sa_mimes s)) P -> item_ok fuel it d -> zlen (ml_types (sa_mimes s')) <= 65535 ->
  CompressionStrategy.add_item fuel new_comp comp flush depth it (s, st) = (Ok tt, (s', st')) ->
  exists mid P', pendh st' (P' ++ [mkP it d mid]) /\ (P' = P \/ P' = []) /\ stored s' (map pair_of P' ++ W) /\ typed fuel (sa_mimes s') (mkP it d mid).
Proof.
  intros s st P W it d s' st' SO PD TY OK MZ H. pose proof (mextends_len _ _ (add_mimes _ _ _ _ _ _ _ _ _ _ _ H)) as MX. unfold CompressionStrategy.add_item in H.
  assert (END : forall s1 st1 P1, pendh st1 P1 -> (mx + 4 < 2 ^ 32 -> P1 <> [] -> zlen (cluster_data false (map p_data P1)) + zlen d <= mx) -> stored s1 (map pair_of P1 ++ W) -> (P1 = P \/ P1 = []) ->
    (match CompressionStrategy.to_entry it s1 with
     | (Err e, s) => (Err e, (s, st1))
     | (Ok entry, s) =>
         match append_blob inner_empty (it_source it) (co_wrap (st_cluster st1)) with
         | (Err e, w) => (Err e, (s, mkStrat (st_comp st1) (st_max st1) (st_entries st1) (co_set w (st_cluster st1))))
         | (Ok num, w) =>
             let c := co_set w (st_cluster st1) in
             match set_blob_number num entry with
             | Err e => (Err e, (s, mkStrat (st_comp st1) (st_max st1) (st_entries st1) c))
             | Ok entry => (Ok tt, (s, mkStrat (st_comp st1) (st_max st1) (st_entries st1 ++ [entry]) c))
             end
         end
     end) = (Ok tt, (s', st')) ->
    exists mid P', pendh st' (P' ++ [mkP it d mid]) /\ (P' = P \/ P' = []) /\ stored s' (map pair_of P' ++ W) /\ typed fuel (sa_mimes s') (mkP it d mid)).
  { intros s1 st1 P1 PD1 SZ SO1 HP E. destruct (CompressionStrategy.to_entry it s1) as [[en|e] s2] eqn:ET; [|discriminate E].
    destruct (append_blob _ _ _) as [[num|e] w] eqn:EA; [|discriminate E]. cbv zeta in E. destruct (set_blob_number num en) as [en'|e] eqn:ES; [|discriminate E].
    injection E as <- <-. destruct (app_item fuel mx s1 st1 P1 it d s2 en w num en' (sa_mimes s2) _ PD1 OK SZ ET EA ES eq_refl eq_refl) as (mid & m & PD2 & M1 & M2). exists mid, P1. split; [exact PD2|]. split; [exact HP|].
    split; [exact (stored_entry _ _ _ _ _ _ OK ET SO1)|]. split; [exact OK|]. exists m. split; [exact M1|exact M2]. }
  destruct P as [|p P].
  - assert (EN : new_cluster_needed it st = (Ok false, st)). { unfold new_cluster_needed. rewrite (pd_entries _ _ _ _ PD). reflexivity. }
    rewrite EN in H. apply (END s st [] PD); auto. intros _ Q. congruence.
  - destruct (new_cluster_needed it st) as [[nd|e] st1] eqn:EN; [|discriminate H].
    destruct (total_pend fuel mx st (p :: P) it nd st1 PD) as (PD1 & EC & EM & NF); [intro Q; discriminate Q|exact EN|]. destruct nd.
    + destruct (CompressionStrategy.finalize fuel new_comp comp flush depth (s, st1)) as [[[]|e] [s2 st2]] eqn:EF; [|discriminate H].
      destruct (finalize_stored s st1 (p :: P) W s2 st2 SO PD1) as (SO2 & PD2 & E1); [intro Q; discriminate Q|exact TY|lia|exact EF|].
      apply (END s2 st2 [] PD2); auto. intros _ Q. congruence.
    + apply (END s st1 (p :: P) PD1); auto.
      intros HM _. destruct (NF eq_refl) as (wd & W1 & W2). destruct OK as (_ & (DS & _) & _). rewrite DS in W1. pose proof (pd_max _ _ _ _ PD).
      pose proof (zlen_nonneg d). destruct wd; [|lia]. pose proof (W2 eq_refl). rewrite cluster_data_len in *. unfold pointers_size in *.
      pose proof (zlen_nonneg (map p_data (p :: P))). change (Z.of_nat (pointer_bytes false)) with 4 in *. change (Z.of_nat (pointer_bytes true)) with 8 in *. lia.
Qed.
Lemma flush_stored : forall s st P W s' st', stored s (map pair_of P ++ W) -> pendh st P -> Forall (typed fuel (sa_mimes s)) P -> zlen (ml_types (sa_mimes s)) <= 65535 ->
  flush_items fuel new_comp comp flush depth (s, st) = (Ok tt, (s', st')) -> stored s' W /\ pendh st' [].
Proof.
  intros s st P W s' st' SO PD TY MZ H. unfold flush_items in H. rewrite (pend_has _ _ _ _ PD) in H. destruct P as [|p P].
  - injection H as <- <-. auto.
  - destruct (finalize_stored s st (p :: P) W s' st' SO PD) as (SO2 & PD2 & _); [intro Q; discriminate Q|exact TY|exact MZ|exact H|]. auto.
Qed.
Lemma flush_all_stored : forall l Ps W s s' l', stored s (map pair_of (concat Ps) ++ W) -> pends fuel mx l Ps -> Forall (typed fuel (sa_mimes s)) (concat Ps) -> zlen (ml_types (sa_mimes s)) <= 65535 ->
  flush_all fuel new_comp comp flush depth l s = (Ok tt, (s', l')) -> stored s' W /\ exists Qs, pends fuel mx l' Qs /\ concat Qs = [].
Proof.
  induction l as [|[k st] l IH]; intros Ps W s s' l' SO PD TY MZ H; inversion PD as [|? P ? Ps' PD1 PD2 E1 E2]; subst Ps.
  - injection H as <- <-. split; [exact SO|]. exists []. split; [constructor|reflexivity].
  - cbn [flush_all] in H. cbn [concat] in *. cbn [snd] in PD1.
    destruct (flush_items fuel new_comp comp flush depth (s, st)) as [[[]|e] [s1 st1]] eqn:EF; [|discriminate H].
    destruct (flush_all fuel new_comp comp flush depth l s1) as [rr [s2 l2]] eqn:ER. injection H as -> <- <-. pose proof (CompressionStrategyProofs.flush_mimes _ _ _ _ _ _ _ _ _ _ EF) as EM.
    apply Forall_app in TY as (TY1 & TY2). rewrite map_app, <- app_assoc in SO. destruct (flush_stored s st P _ s1 st1 SO PD1 TY1 MZ EF) as (SO1 & Q1). rewrite <- EM in TY2, MZ.
    destruct (IH Ps' W s1 s2 l2 SO1 PD2 TY2 MZ ER) as (SO2 & Qs & PQ & CQ). split; [exact SO2|]. exists ([] :: Qs). split; [constructor; assumption|exact CQ].
Qed.
Lemma any_add_stored : forall s y P W it d s' y', stored s (map pair_of P ++ W) -> pending y P -> Forall (typed fuel (sa_mimes s)) P -> item_ok fuel it d -> zlen (ml_types (sa_mimes s')) <= 65535 ->
  any_add fuel new_comp comp flush depth it (s, y) = (Ok tt, (s', y')) ->
  exists mid P' P2, pending y' P2 /\ Permutation P2 (P' ++ [mkP it d mid]) /\ incl P' P /\ (length P' <= length P)%nat /\ stored s' (map pair_of P' ++ W) /\ typed fuel (sa_mimes s') (mkP it d mid).
Proof.
  intros s y P W it d s' y' SO PA TY OK MZ H. destruct PA as [st P PD|ms Ps MM PD]; cbn [any_add] in H.
  - destruct (CompressionStrategy.add_item _ _ _ _ _ _ _) as [r [s1 st1]] eqn:E. injection H as -> <- <-.
    destruct (add_stored s st P W it d s1 st1 SO PD TY OK MZ E) as (mid & P' & PD' & HP & SO' & TN). exists mid, P', (P' ++ [mkP it d mid]). split; [constructor; exact PD'|]. split; [apply Permutation_refl|].
    split; [destruct HP as [-> | ->]; [apply incl_refl|intros x []]|]. split; [destruct HP as [-> | ->]; cbn; lia|]. auto.
  - unfold add_item_m in H. destruct (CompressionStrategy.add_item _ _ _ _ _ _ _) as [r [s1 st1]] eqn:E. injection H as -> <- <-.
    unfold get_cs in E. destruct (get_pend fuel mx (it_mime it) _ _ PD) as [(A & B & k & st & P & As & Bs & EL & -> & G & PD1 & PA & PB & DS)|(G & DS)]; rewrite G in E.
    + rewrite concat_app in *. cbn [concat] in *. rewrite !Forall_app in TY. destruct TY as (TA & TP & TB).
      assert (SO1 : stored s (map pair_of P ++ (map pair_of (concat As ++ concat Bs) ++ W))).
      { eapply stored_perm; [|exact SO]. rewrite !map_app, !app_assoc. apply Permutation_app_tail. rewrite <- !app_assoc. apply Permutation_app_swap_app. }
      destruct (add_stored s st P _ it d s1 st1 SO1 PD1 TP OK MZ E) as (mid & P' & PD' & HP & SO' & TN).
      exists mid, (concat As ++ P' ++ concat Bs), (concat As ++ (P' ++ [mkP it d mid]) ++ concat Bs). split; [|split; [|split; [|split; [|split; [|exact TN]]]]].
      * replace (concat As ++ (P' ++ [mkP it d mid]) ++ concat Bs) with (concat (As ++ (P' ++ [mkP it d mid]) :: Bs)) by (rewrite concat_app; reflexivity). constructor; [exact MM|]. cbn [ms_map]. rewrite DS.
        apply Forall2_app; [exact PA|constructor; [exact PD'|exact PB]].
      * rewrite <- !app_assoc. apply Permutation_app_head, Permutation_app_head. apply Permutation_app_comm.
      * destruct HP as [ -> | -> ]; [apply incl_refl|]. intros x Hx. cbn [app] in Hx. rewrite !in_app_iff in *. tauto.
      * destruct HP as [ -> | -> ]; rewrite !app_length; cbn; lia.
      * eapply stored_perm; [|exact SO']. rewrite !map_app, !app_assoc. apply Permutation_app_tail. rewrite <- !app_assoc. apply Permutation_app_swap_app.
    + destruct (add_stored s (strat_new (ms_comp ms) (ms_max ms)) [] (map pair_of (concat Ps) ++ W) it d s1 st1 SO (pend_empty _ _ _ _ MM)) as (mid & P' & PD' & HP & SO' & TN); [constructor|exact OK|exact MZ|exact E|].
      assert (P' = []) by (destruct HP; assumption). subst P'. cbn [app map] in *.
      exists mid, (concat Ps), (concat Ps ++ [mkP it d mid]). split; [|split; [apply Permutation_refl|split; [apply incl_refl|split; [lia|split; [exact SO'|exact TN]]]]].
      replace (concat Ps ++ [mkP it d mid]) with (concat (Ps ++ [[mkP it d mid]])) by (rewrite concat_app; reflexivity). constructor; [exact MM|]. cbn [ms_map]. rewrite DS.
      apply Forall2_app; [exact PD|constructor; [exact PD'|constructor]].
Qed.
Lemma any_flush_stored : forall s y P W s' y', stored s (map pair_of P ++ W) -> pending y P -> Forall (typed fuel (sa_mimes s)) P -> zlen (ml_types (sa_mimes s)) <= 65535 ->
  any_flush fuel new_comp comp flush depth (s, y) = (Ok tt, (s', y')) -> stored s' W /\ pending y' [].
Proof.
  intros s y P W s' y' SO PA TY MZ H. destruct PA as [st P PD|ms Ps MM PD]; cbn [any_flush] in H.
  - destruct (flush_items _ _ _ _ _ _) as [r [s1 st1]] eqn:E. injection H as -> <- <-. destruct (flush_stored s st P W s1 st1 SO PD TY MZ E) as (SO1 & Q). split; [exact SO1|constructor; exact Q].
  - unfold flush_items_m in H. destruct (flush_all _ _ _ _ _ _ _) as [r [s1 l1]] eqn:E. injection H as -> <- <-.
    destruct (flush_all_stored _ Ps W s s1 l1 SO PD TY MZ E) as (SO1 & Qs & Q & CQ). split; [exact SO1|]. rewrite <- CQ. constructor; assumption.
Qed.
End Store.
