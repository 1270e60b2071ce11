(** Proofs about archives with a counter (C73): flushing, opening and histories. *)
From Coq Require Import List ZArith Bool Lia Permutation.
From Coq Require Import ZifyBool ZifyNat.
From Verif Require Import Base BaseProofs Utf8 Utf8Proofs Dict Infobyte Header HeaderSpec HeaderProofs MimeTypeList MimeTypeListSpec MimeTypeListProofs PointerList PointerListProofs
  SpaceAllocator SpaceAllocatorSpec SpaceAllocatorProofs Entry EntrySpec EntryProofs Reader ReaderSpec Blob Cluster ClusterSpec ClusterProofs ClusterWrapper ClusterWrapperSpec ClusterWrapperProofs
  Archive ArchiveSpec ArchiveProofs ArchiveWriteProofs ArchiveMoveProofs ArchiveRemoveProofs ArchiveObserve ArchiveFacts ArchiveLaws ArchiveEdit ArchiveCluster ArchiveClusterSpec ArchiveClusterProofs ArchiveFrame ArchiveEntryCluster ArchiveEditCluster
  CompressionStrategy CompressionStrategySpec CompressionStrategyProofs OperationBuffer OperationBufferSpec OperationBufferProofs EntryObject EntryObjectSpec EntryObjectProofs
  Flush FlushSpec FlushProofs FlushTailProofs FlushOpenProofs FlushHistorySpec FlushHistoryProofs ViewSpec ViewProofs ViewEditProofs ViewStepProofs ViewWaitProofs ViewHistoryProofs
  Counter CounterSpec CounterProofs CountedArchive CountedSpec CountedProofs CountedStrategyProofs CountedStepProofs.
Import ListNotations.
Open Scope Z_scope.

(** ** Tables that agree *)
Lemma link_page_ext : forall V V' t ttl, (forall u, V' u = V u) -> link_page V' t ttl = link_page V t ttl.
Proof. intros V V' t ttl EQ. unfold link_page. destruct ttl; [reflexivity|]. rewrite EQ. reflexivity. Qed.
Lemma table_ext : forall s E X types W R V V', (forall u, V' u = V u) -> table s E X types W R V -> table s E X types W R V'.
Proof.
  intros s E X types W R V V' EQ [T1 T2 T3 T4 T5]. constructor.
  - intros u p. rewrite EQ. apply T1.
  - intros u e. rewrite EQ. apply T2.
  - intros it d. rewrite EQ. apply T3.
  - intros r. rewrite !EQ, (link_page_ext V V' _ _ EQ). apply T4.
  - exact T5.
Qed.
Lemma mains_ext : forall m R V V', (forall u, V' u = V u) -> mains m R V -> mains m R V'.
Proof. intros m R V V' EQ M. eapply mains_step; [exact M|auto|]. intros x q _ Q B. rewrite EQ in Q. eauto. Qed.

(** ** What MCounter holds *)
Definition counter_page (c : counter) (V : view) : Prop :=
  exists p t d, V URL_COUNTER = Some p /\ pg_body p = Data t d /\ (ct_dirty c = false -> encode (to_string (ct_counts c)) = Ok d).
Lemma text_is : forall c d, encode (to_string (ct_counts c)) = Ok d -> d = text c.
Proof. intros c d E. unfold text, encoded. unfold encode in E. destruct (utf8_encode _); [injection E as <-; reflexivity|discriminate E]. Qed.
Lemma filed_at : forall c V, counter_page c V -> exists p t, filed c V URL_COUNTER = Some p /\ pg_body p = Data t (text c).
Proof.
  intros c V (p & t & d & E & B & _). unfold filed. cbn [vstep]. rewrite E, B, vput_same. eexists. exists t. split; reflexivity.
Qed.
Lemma filed_other : forall c V u, u <> URL_COUNTER -> filed c V u = V u.
Proof. intros c V u N. unfold filed. cbn [vstep]. destruct (V URL_COUNTER); [|reflexivity]. apply vput_other. exact N. Qed.
Lemma filed_same : forall c V, counter_page c V -> ct_dirty c = false -> forall u, filed c V u = V u.
Proof.
  intros c V (p & t & d & E & B & Q) ND u. destruct (list_eq_dec Z.eq_dec u URL_COUNTER) as [ -> |N]; [|apply filed_other; exact N]. unfold filed. cbn [vstep]. rewrite E, B, vput_same, <- (text_is _ _ (Q ND)). destruct p as [ti ar bo]. cbn in *. rewrite B. reflexivity.
Qed.
Lemma filed_page : forall c c2 V, counter_page c V -> encode (to_string (ct_counts c2)) = Ok (text c) -> counter_page c2 (filed c V).
Proof. intros c c2 V CP ET. destruct (filed_at c V CP) as (p & t & E & B). exists p, t, (text c). auto. Qed.
Lemma filed_pages : forall c V m u, pages_of (filed c V) m u <-> pages_of V m u.
Proof. intros c V m u. apply pages_content. Qed.
Lemma noticed_page : forall c c' V V', noticed c c' -> V' URL_COUNTER = V URL_COUNTER -> counter_page c V -> counter_page c' V'.
Proof. intros c c' V V' NT EQ (p & t & d & E & B & Q). exists p, t, d. rewrite EQ. split; [exact E|]. split; [exact B|]. intro ND. pose proof (NT ND). subst c'. auto. Qed.

(** ** Reading the text back *)
Lemma dget_in : forall (n : Counter.counts) m k, dget ueqb m n = Some k -> In (m, k) n.
Proof.
  induction n as [|[a b] n IH]; cbn [dget]; intros m k Q; [discriminate Q|]. destruct (ueqb m a) eqn:E; [apply ueqb_eq in E; subst a; injection Q as <-; left; reflexivity|right; auto].
Qed.
Lemma dget_nodup : forall (n : Counter.counts) m k, NoDup (map fst n) -> In (m, k) n -> dget ueqb m n = Some k.
Proof.
  induction n as [|[a b] n IH]; cbn [dget map fst]; intros m k ND Q; [destruct Q|]. inversion ND as [|? ? NI ND2]; subst. destruct Q as [Q|Q]; [injection Q as <- <-; rewrite ueqb_refl; reflexivity|].
  destruct (ueqb m a) eqn:E; [|auto]. apply ueqb_eq in E. subst a. exfalso. apply NI. apply in_map_iff. exists (m, k). auto.
Qed.
Lemma nonzero_wf : forall n, counter_wf n -> counter_wf (nonzero n).
Proof.
  unfold counter_wf, nonzero. induction n as [|[a b] n IH]; cbn [filter map fst]; intro ND; [exact ND|]. inversion ND as [|? ? NI ND2]; subst. destruct (negb _); [|auto]. cbn [map fst]. constructor; [|auto].
  intro Q. apply NI. apply in_map_iff in Q as (x & <- & Hx). apply filter_In in Hx as (Hx & _). apply in_map. exact Hx.
Qed.
Lemma nonzero_get : forall n m, counter_wf n -> get_count m (nonzero n) = get_count m n.
Proof.
  intros n m W. pose proof (nonzero_wf n W) as W2. unfold get_count. destruct (dget ueqb m (nonzero n)) as [k|] eqn:E1.
  - apply dget_in in E1. apply filter_In in E1 as (Q & _). rewrite (dget_nodup _ _ _ W Q). reflexivity.
  - destruct (dget ueqb m n) as [k|] eqn:E2; [|reflexivity]. destruct (Z.eq_dec k 0) as [ -> |N]; [reflexivity|]. apply dget_in in E2. assert (Q : In (m, k) (nonzero n)) by (apply filter_In; split; [exact E2|cbn; lia]).
    rewrite (dget_nodup _ _ _ W2 Q) in E1. discriminate E1.
Qed.
Lemma nonzero_text : forall n, to_string (nonzero n) = to_string n.
Proof.
  intro n. unfold to_string, nonzero. assert (Q : forall (f : ustr * Z -> bool) l, filter f (filter f l) = filter f l).
  { intros f. induction l as [|x l IH]; [reflexivity|]. cbn. destruct (f x) eqn:E; cbn; rewrite ?E, IH; reflexivity. }
  first [rewrite Q; reflexivity | idtac].
Qed.
Lemma text_read : forall P c d, tally P (ct_counts c) -> (forall m u, P m u -> safe_mime m) -> encode (to_string (ct_counts c)) = Ok d -> from_bytes d = Ok (nonzero (ct_counts c)).
Proof.
  intros P c d (W & T) SM E. apply counter_roundtrip_bytes; [exact W| |exact E]. intros m k Hi. apply filter_In in Hi as (Hi & NZ). cbn [snd] in NZ.
  pose proof (T m) as N. unfold get_count in N. rewrite (dget_nodup _ _ _ W Hi) in N. destruct N as (l & ND & HL & ZL). destruct l as [|u l]; [change (zlen (@nil ustr)) with 0 in ZL; lia|].
  apply (SM m u). apply HL. left. reflexivity.
Qed.

Section History.
Variable fuel : nat.
Context {D : Type}.
Variable dc : decomp D.
Variable new_decomp : ctype -> res D.
Context {K : Type}.
Variable new_comp : ctype -> res K.
Variable comp : K -> bytes -> res (bytes * K).
Variable flush : K -> res bytes.
Variable depth : nat.
Variable kd : ckind.
Variable Stream : ctype -> bytes -> bytes -> Prop.
Variable reserve : option Z.
Context {H : Type}.
Variable md5 : H.
Variable feed : H -> bytes -> H.
Variable digest : H -> bytes.
Variable truncate : bool.
Variable process_blob : entry -> M zim unit.
Variable rounds : nat.
Hypothesis CD : codec_ok dc new_decomp new_comp comp flush Stream.
Hypothesis HO : hash_ok feed digest.
Variable mx : Z.
Notation wcoreh := (wcore fuel Stream reserve mx).
Notation vcoreh := (vcore fuel Stream reserve mx).
Notation suff := (suffices fuel Stream reserve).
Notation csuff := (count_suffices fuel dc new_decomp new_comp comp flush depth kd Stream md5 feed digest reserve truncate process_blob rounds).
Notation flushc := (count_flush fuel dc new_decomp new_comp comp flush depth kd md5 feed digest reserve truncate process_blob rounds).

Lemma vcore_ext : forall A cells L Pc Pp V V', (forall u, V' u = V u) -> vcoreh A cells L Pc Pp V -> vcoreh A cells L Pc Pp V'.
Proof. intros A cells L Pc Pp V V' EQ []. constructor; try assumption; [eapply mains_ext; eassumption|eapply table_ext; eassumption]. Qed.

(** ** Flushing *)
Lemma flush_counted : forall A cells L Pc Pp V n c A' c', wcoreh A cells L Pc Pp V -> vclean A Pc Pp -> allowed fuel A V VFlush -> ViewSpec.counts n A -> zlen (Pc ++ Pp) + zlen (fa_redirects A) <= n ->
  zlen (ml_types (fa_mimes A)) <= 65535 -> accd A c -> counter_page c V -> (is_dirty A = true \/ ct_dirty c = false) -> csuff A c V -> flushc (A, c) = (Ok tt, (A', c')) ->
  exists cells' L', vcoreh A' cells' L' [] [] (filed c' V) /\ settled A' /\ fa_redirects A' = [] /\ accd A' c' /\ ct_dirty c' = false /\ counter_page c' (filed c' V).
Proof.
  intros A cells L Pc Pp V n c A' c' VC CL OK CT ZQ B3 AC CP DC (FS & _) E. unfold count_flush, mbind, uncounted in E. pose proof VC as [LO PC PP TY MN T].
  pose proof (hcore_begin fuel Stream reserve mx A cells L Pc Pp LO PC PP TY) as HV.
  destruct (sync_main A) as [[[]|] A1] eqn:E1; [|discriminate E]. destruct (header_step fuel Stream reserve mx _ _ _ _ _ _ _ _ _ _ _ HV E1) as (HV1 & ES & DI).
  destruct (is_dirty A1) eqn:ED; cbn [negb] in E.
  2:{ injection E as <- <-. rewrite (DI eq_refl) in *. destruct (CL ED) as (S & -> & ->). exists cells, L. pose proof (wcore_none _ _ _ _ _ _ _ _ VC) as VN. assert (ND : ct_dirty c = false) by (destruct DC; congruence).
      split; [eapply vcore_ext; [exact (filed_same c V CP ND)|exact VN]|]. split; [exact S|]. split.
      - destruct OK as [OK|OK]; [congruence|]. destruct (fa_redirects A) as [|r R] eqn:ER; [reflexivity|]. exfalso. destruct (wt_buffer _ _ _ _ _ _ _ T r (or_introl eq_refl)) as (V1 & V2 & V3 & _).
        apply (not_both _ _ (rsource r) (laid_consistent _ _ _ _ _ LO)); [apply OK; [congruence|exact V3]|exact V2].
      - split; [exact AC|]. split; [exact ND|]. destruct CP as (p & t & d & Q1 & Q2 & Q3). pose proof (text_is _ _ (Q3 ND)) as TX. eapply filed_page; [exists p, t, d; auto|]. rewrite <- TX. auto. }
  destruct (count_content _ _ _ _ _ _ _ (A1, c)) as [[[]|] [A2 c2]] eqn:E2; [|discriminate E].
  destruct (FS A2 c2) as (SU & AL & FS3); [unfold mbind, uncounted; rewrite E1; exact E2|]. unfold count_content, mbind, uncounted in E2.
  destruct (count_flush_strategies _ _ _ _ _ (A1, c)) as [[[]|] [A3 c3]] eqn:E3; [|discriminate E2]. destruct (flush_buffer _ _ _ A3) as [r A4] eqn:E4. injection E2 as -> -> ->.
  destruct (hv_buffer _ _ _ _ _ _ _ _ _ _ _ _ _ _ HV1) as (ER1 & EM1).
  assert (EMM : fa_mimes A1 = fa_mimes A) by (change (fa_mimes A1) with (sa_mimes (zs_arch (fa_state A1))); rewrite ES; reflexivity).
  assert (EZ1 : fa_zim A1 = fa_zim A) by (change (fa_zim A1) with (ca_zim (sa_arch (zs_arch (fa_state A1)))); rewrite ES; reflexivity).
  assert (VC1 : wcoreh A1 cells L Pc Pp V).
  { constructor; [exact (hv_laid _ _ _ _ _ _ _ _ _ _ _ _ _ _ HV1)|rewrite ES; exact PC|rewrite ES; exact PP|rewrite EMM; exact TY|rewrite ER1, EM1; exact MN|rewrite EZ1, EMM, ER1; exact T]. }
  destruct (wcore_count fuel Stream reserve md5 feed digest mx _ _ _ _ _ _ VC) as (Q1 & Q2). destruct CT as (C1 & C2). rewrite Q1 in C1. rewrite Q2 in C2. pose proof (zlen_nonneg (fa_redirects A)) as ZR.
  destruct (strategies_counted fuel dc new_decomp new_comp comp flush depth Stream reserve CD mx A1 cells L Pc Pp V c A3 c2 VC1 ltac:(lia) ltac:(lia)) as (E3' & AC3 & NT); [rewrite EMM; exact B3|unfold accd; rewrite EZ1, EMM; exact AC|exact E3|].
  destruct (wstrategies_step fuel dc new_decomp new_comp comp flush depth Stream reserve CD mx A1 cells L Pc Pp V A3 VC1 ltac:(lia) ltac:(lia)) as (cells1 & L1 & VC3 & ZC1 & ER3 & EM3); [rewrite EMM; exact B3|exact E3'|].
  assert (ZC : zlen cells1 + zlen (fa_redirects A3) + 1 < 2 ^ 32) by (rewrite ER3, ER1; lia).
  destruct (vbuffer_step fuel depth Stream reserve process_blob rounds mx A3 cells1 L1 V A2 VC3 ZC E4) as (cells2 & VC2 & ER & EU).
  pose proof (same_accd fuel Stream reserve mx _ _ _ _ _ _ _ _ _ _ c2 VC3 VC2 (fun _ _ => iff_refl _) AC3) as AC2.
  pose proof (noticed_page c c2 V V NT eq_refl CP) as CP2.
  destruct (store_counter _ _ _ _ _ _ _ (A2, c2)) as [[[]|] [A5 c5]] eqn:E5; [|discriminate E]. destruct (FS3 A5 c5 eq_refl) as (SU5 & SA5). destruct (flush_tail _ _ _ _ _ _ _ _ _ _ _ _ _ A5) as [r A6] eqn:E6. injection E as -> -> ->.
  assert (MID : exists L5, vcoreh A5 cells2 L5 [] [] (filed c' V) /\ fa_redirects A5 = [] /\ accd A5 c' /\ ct_dirty c' = false /\ counter_page c' (filed c' V)).
  { unfold store_counter in E5. destruct (ct_dirty c2) eqn:ED2.
    - destruct (encode (to_string (ct_counts c2))) as [d|] eqn:EN; [|discriminate E5]. destruct (ViewSpec.content_of _ _ _ _ _ _ _ _ _ A2) as [[[]|] A7] eqn:E7; [|discriminate E5]. injection E5 as -> <-.
      rewrite (text_is _ _ EN) in E7. destruct (vcontent_step fuel dc new_decomp new_comp comp flush kd Stream reserve CD mx A2 cells2 L1 [] [] V URL_COUNTER (text c2) A5 VC2 SU AL E7) as (L5 & VC5 & _ & ER5).
      exists L5. change (filed (mkCounter (ct_counts c2) false) V) with (vstep V (VContent URL_COUNTER (text c2))). split; [exact VC5|]. split; [congruence|]. split.
      + eapply (same_accd fuel Stream reserve mx _ _ _ _ _ _ _ _ _ _ (mkCounter (ct_counts c2) false) VC2 VC5); [intros m u; apply pages_content|exact AC2].
      + split; [reflexivity|]. change (vstep V (VContent URL_COUNTER (text c2))) with (filed c2 V). eapply filed_page; [exact CP2|]. cbn [ct_counts]. rewrite EN. f_equal. apply text_is. exact EN.
    - injection E5 as <- <-. exists L1. split; [eapply vcore_ext; [exact (filed_same c2 V CP2 ED2)|exact VC2]|]. split; [exact ER|]. split; [exact AC2|]. split; [exact ED2|].
      destruct CP2 as (p & t & d & P1 & P2 & P3). pose proof (text_is _ _ (P3 ED2)) as TX. eapply filed_page; [exists p, t, d; auto|]. rewrite <- TX. auto. }
  destruct MID as (L5 & VC5 & ER5 & AC5 & ND5 & CP5). set (V5 := filed c' V) in *.
  destruct (tail_step fuel dc new_decomp new_comp comp flush depth kd Stream reserve md5 feed digest truncate CD HO mx A5 cells2 L5 A5 [] cells2 L5 [] A' (vcore_begin _ _ _ _ _ _ _ _ _ _ VC5) SU5 SA5 E6) as (L' & HV3 & S1 & S2).
  pose proof (vcore_after fuel Stream reserve mx A5 cells2 L5 V5 A' _ cells2 L' [] [] [] (vc_laid _ _ _ _ _ _ _ _ _ _ VC5) (vc_main _ _ _ _ _ _ _ _ _ _ VC5) (vc_table _ _ _ _ _ _ _ _ _ _ VC5) HV3) as VC6.
  exists cells2, L'. split; [exact VC6|]. split; [exact S1|]. destruct (hv_buffer _ _ _ _ _ _ _ _ _ _ _ _ _ _ HV3) as (ER6 & _). split; [congruence|]. split; [|auto].
  exact (same_accd fuel Stream reserve mx _ _ _ _ _ _ _ _ _ _ c' VC5 VC6 (fun _ _ => iff_refl _) AC5).
Qed.

(** ** Closing and opening *)
Notation openc := (count_open fuel dc new_decomp new_comp comp flush depth kd).
Lemma open_counted : forall A cells L V c sc sp, vcoreh A cells L [] [] V -> settled A -> fa_redirects A = [] -> suff A -> fresh_strategy sc -> fresh_strategy sp -> limit_of sc <= mx -> limit_of sp <= mx ->
  accd A c -> ct_dirty c = false -> counter_page c V -> readable_mimes V ->
  exists B, openc (fa_file A) sc sp = Ok (B, mkCounter (nonzero (ct_counts c)) false) /\ vcoreh B cells L [] [] V /\ settled B /\ fa_redirects B = [] /\
    accd B (mkCounter (nonzero (ct_counts c)) false) /\ counter_page (mkCounter (nonzero (ct_counts c)) false) V /\ text (mkCounter (nonzero (ct_counts c)) false) = text c.
Proof.
  intros A cells L V c sc sp VC SE ER SU F1 F2 M1 M2 AC ND CP RM.
  destruct (vopen_step fuel dc new_decomp new_comp comp flush depth kd Stream reserve md5 feed digest CD mx A cells L V sc sp VC SE ER SU F1 F2 M1 M2) as (B & EO & SA & VB & SB & RB).
  pose proof (vc_laid _ _ _ _ _ _ _ _ _ _ VC) as LO. pose proof (vc_table _ _ _ _ _ _ _ _ _ _ VC) as T. rewrite ER in T. destruct SU as (F0 & FA & _).
  pose proof (same_shows fuel dc new_decomp kd A B _ SA (table_shows fuel dc new_decomp new_comp comp flush kd Stream reserve process_blob CD A cells L V LO (FA _ _ LO) T)) as SH.
  destruct CP as (p & t & d & EV & BV & ET). specialize (ET ND). assert (NL : ~ listing (fa_zim B) URL_COUNTER) by (intros [Q|(Q & _)]; discriminate Q).
  specialize (SH URL_COUNTER NL). rewrite EV in SH. destruct SH as (e & us & G & _ & _ & _ & SB2). rewrite BV in SB2. destruct SB2 as (cn & b & KE & _ & RD & _).
  apply (core_accd fuel Stream reserve mx _ _ _ _ _ _ c VC) in AC. cbn [app map] in AC.
  assert (TL : tally (pages_of V) (ct_counts c)) by (eapply tally_ext; [|exact AC]; intros m u; unfold written; cbn; tauto).
  pose proof (text_read (pages_of V) c d TL RM ET) as FB. pose proof (proj1 TL) as W.
  exists B. split.
  - unfold count_open. rewrite EO. cbn [bind]. unfold load_counter, load_counts. rewrite G. cbn [bind]. rewrite KE, RD. cbn [bind]. rewrite FB. cbn [bind]. unfold with_counter, install.
    rewrite (has_ext (fa_zim B) (fa_zim B) URL_COUNTER e eq_refl eq_refl G). cbn [bind]. do 2 f_equal. destruct SB as (Q & _). clear - Q. destruct B as [z h db r mm]. unfold is_dirty in Q. cbn [fa_dirty] in Q.
    destruct db; [discriminate Q|reflexivity].
  - split; [exact VB|]. split; [exact SB|]. split; [exact RB|]. split.
    + apply (core_accd fuel Stream reserve mx _ _ _ _ _ _ _ VB). cbn [ct_counts app map]. destruct AC as (W1 & N1). split; [apply nonzero_wf; exact W|]. intro m. rewrite nonzero_get by exact W. apply N1.
    + split; [|unfold text; cbn [ct_counts]; rewrite nonzero_text; reflexivity]. exists p, t, d. split; [exact EV|]. split; [exact BV|]. intros _. cbn [ct_counts]. rewrite nonzero_text. exact ET.
Qed.

(** ** All operations *)
Notation opc := (count_op fuel dc new_decomp new_comp comp flush depth kd md5 feed digest reserve truncate process_blob rounds).
Notation cokh := (cok fuel dc new_decomp new_comp comp flush depth kd Stream md5 feed digest reserve truncate process_blob rounds).
Notation crunsh := (cruns fuel dc new_decomp new_comp comp flush depth kd Stream md5 feed digest reserve truncate process_blob rounds).
Record ccore (A : farchive) (c : counter) (cells : list (Z * entry)) (L : list (option (Z * ccell))) (Pc Pp : list pitem) (V : view) : Prop := mkCcore {
  cc_core : wcoreh A cells L Pc Pp V;
  cc_clean : vclean A Pc Pp;
  cc_accd : accd A c;
  cc_page : counter_page c V }.
Lemma cop_step : forall A c cells L Pc Pp V n o A' c', ccore A c cells L Pc Pp V -> ViewSpec.counts n A -> waiting A Pc Pp + vadds [o] <= n -> vlimited mx o -> suff A ->
  zlen (ml_types (fa_mimes A)) <= 65535 -> zlen (ml_types (fa_mimes A')) <= 65535 -> cokh A c V o -> opc (A, c) o = (Ok tt, (A', c')) ->
  exists cells' L' Pc' Pp', ccore A' c' cells' L' Pc' Pp' (cstep V o c') /\ waiting A' Pc' Pp' <= waiting A Pc Pp + vadds [o] /\
    (vends o -> settled A' /\ Pc' = [] /\ Pp' = [] /\ fa_redirects A' = [] /\ ct_dirty c' = false).
Proof.
  intros A c cells L Pc Pp V n o A' c' [VC CL AC CP] CT ZW LM SU B1 B2 ((OK & NR) & UT & EX) E. unfold waiting in *. pose proof (zlen_nonneg (Pc ++ Pp)) as ZP. pose proof (zlen_nonneg (fa_redirects A)) as ZR.
  destruct o as [it d un|src tgt ttl|u l|u d|u|u| |sc sp]; cbn [count_op vends cstep] in *; try (pose proof (wcore_vcore _ _ _ _ _ _ _ _ _ _ NR VC) as VN).
  - change (vadds [VAdd it d un]) with 1 in *.
    destruct (add_counted fuel dc new_decomp new_comp comp flush depth kd Stream reserve md5 feed digest truncate process_blob rounds CD mx A cells L Pc Pp V n it d un c A' c' VC CT ltac:(lia) B2 AC E) as (E2 & AC' & NT).
    cbn [perform_vop] in E2.
    destruct (wadd_step fuel dc new_decomp new_comp comp flush depth kd Stream reserve md5 feed digest truncate process_blob rounds CD mx A cells L Pc Pp V n it d un A' VC CT ltac:(lia) OK B2 E2) as (cells' & L' & Pc' & Pp' & VC' & CL' & ER & Z).
    exists cells', L', Pc', Pp'. rewrite ER. split; [|split; [lia|intros []]]. constructor; try assumption. eapply noticed_page; [exact NT| |exact CP]. apply vput_other. cbn [untouched] in UT. congruence.
  - destruct OK as (O1 & O2 & O3 & O4 & O9 & O10 & O11 & (ch & r & O5 & (x & O6) & O7) & O8 & O12). change (vadds [VLink src tgt ttl]) with 1 in *.
    assert (SO : sound (src, tgt, ttl)).
    { constructor; cbn.
      - exists ch, r, x. auto.
      - split; assumption.
      - exact O9.
      - exact O8. }
    unfold uncounted in E. cbn [perform_vop] in E. destruct (on_buffered _ A) as [r0 A1] eqn:E1. injection E as -> -> ->.
    destruct (vlink_step fuel depth Stream reserve md5 feed digest process_blob mx A cells L Pc Pp V n (src, tgt, ttl) A' VN CL CT O1 O2 O3 O4 SO O12 ltac:(lia) E1) as (cells' & VC' & CL' & Z).
    exists cells', L, Pc, Pp. split; [|split; [lia|intros []]]. constructor; [exact (vcore_wcore _ _ _ _ _ _ _ _ _ _ VC')|exact CL'| |].
    + eapply same_accd; [exact VN|exact VC'|exact (pages_link_step V src tgt ttl O1)|exact AC].
    + eapply noticed_page; [intros _; reflexivity| |exact CP]. apply vput_other. cbn [untouched] in UT. congruence.
  - change (vadds [VEdit u l]) with 0 in *. destruct (edit_counted fuel depth Stream reserve truncate process_blob mx A cells L Pc Pp V u l c A' c' VN CL OK UT AC E) as (E2 & AC' & NT).
    destruct (vedit_step fuel depth Stream reserve process_blob mx A cells L Pc Pp V u l A' VN CL OK E2) as (cells' & VC' & CL' & ER). exists cells', L, Pc, Pp. rewrite ER. split; [|split; [lia|intros []]].
    constructor; [exact (vcore_wcore _ _ _ _ _ _ _ _ _ _ VC')|exact CL'|exact AC'|]. eapply noticed_page; [exact NT| |exact CP]. cbn [vstep]. destruct UT as (NU & UT). destruct (V u) as [p|] eqn:EV; [|reflexivity]. specialize (UT p eq_refl). cbv zeta in UT.
    destruct (set_fields l u p) as [v q]. cbn [fst] in UT. destruct UT as (NV & _). rewrite !vput_other by congruence. reflexivity.
  - change (vadds [VContent u d]) with 0 in *. unfold uncounted in E. cbn [perform_vop] in E. destruct (ViewSpec.content_of _ _ _ _ _ _ _ _ _ A) as [r0 A1] eqn:E1. injection E as -> -> ->.
    destruct (vcontent_step fuel dc new_decomp new_comp comp flush kd Stream reserve CD mx A cells L Pc Pp V u d A' VN SU OK E1) as (L' & VC' & CL' & ER). exists cells, L', Pc, Pp. rewrite ER. split; [|split; [lia|intros []]].
    constructor; [exact (vcore_wcore _ _ _ _ _ _ _ _ _ _ VC')|exact CL'| |].
    + eapply same_accd; [exact VN|exact VC'|exact (pages_content V u d)|exact AC].
    + eapply noticed_page; [intros _; reflexivity| |exact CP]. cbn [vstep untouched] in *. destruct (V u); [|reflexivity]. apply vput_other. congruence.
  - change (vadds [VRemove u]) with 0 in *. destruct (remove_counted fuel depth Stream reserve process_blob mx A cells L Pc Pp V u c A' c' VN CL OK AC E) as (E2 & AC' & NT).
    destruct (vremove_step fuel depth Stream reserve mx A cells L Pc Pp V u A' VN CL OK E2) as (cells' & VC' & CL' & ER). exists cells', L, Pc, Pp. rewrite ER. split; [|split; [lia|intros []]].
    constructor; [exact (vcore_wcore _ _ _ _ _ _ _ _ _ _ VC')|exact CL'|exact AC'|]. eapply noticed_page; [exact NT| |exact CP]. cbn [vstep untouched] in *. apply vput_other. congruence.
  - change (vadds [VMain u]) with 1 in *. unfold uncounted in E. cbn [perform_vop] in E. destruct (on_buffered _ A) as [r0 A1] eqn:E1. injection E as -> -> ->.
    destruct (vmain_step fuel depth Stream reserve md5 feed digest process_blob mx A cells L Pc Pp V n u A' VN CL CT OK ltac:(lia) E1) as (cells' & VC' & CL' & Z & _). exists cells', L, Pc, Pp. split; [|split; [lia|intros []]].
    constructor; [exact (vcore_wcore _ _ _ _ _ _ _ _ _ _ VC')|exact CL'| |].
    + eapply same_accd; [exact VN|exact VC'|exact (pages_main_step V u)|exact AC].
    + eapply noticed_page; [intros _; reflexivity| |exact CP]. cbn [vstep]. apply vput_other. discriminate.
  - change (vadds [VFlush]) with 0 in *. destruct EX as (DC & FS). destruct (flush_counted A cells L Pc Pp V n c A' c' VC CL OK CT ltac:(lia) B1 AC CP DC FS E) as (cells' & L' & VC' & SE & ER & AC' & ND & CP').
    exists cells', L', [], []. rewrite ER. split; [|split; [change (zlen (@nil pitem ++ [])) with 0; change (zlen (@nil rop)) with 0; lia|auto]].
    constructor; [exact (vcore_wcore _ _ _ _ _ _ _ _ _ _ VC')|unfold vclean; auto|exact AC'|exact CP'].
  - change (vadds [VReopen sc sp]) with 0 in *. destruct OK as (OF & F1 & F2). destruct LM as (M1 & M2). destruct EX as (DC & FS & RM). destruct (flushc (A, c)) as [[[]|x] [A1 c1]] eqn:EF; [|discriminate E].
    destruct (flush_counted A cells L Pc Pp V n c A1 c1 VC CL OF CT ltac:(lia) B1 AC CP DC FS EF) as (cells' & L' & VC' & SE & ER & AC' & ND & CP').
    destruct (open_counted A1 cells' L' (filed c1 V) c1 sc sp VC' SE ER (proj2 FS A1 c1 EF) F1 F2 M1 M2 AC' ND CP') as (B & EO & VB & SB & RB & AB & CB & TB).
    { intros m u Q. exact (RM m u (proj1 (filed_pages c1 V m u) Q)). }
    rewrite EO in E. injection E as <- <-. set (c2 := mkCounter (nonzero (ct_counts c1)) false) in *. assert (FE : filed c2 V = filed c1 V) by (unfold filed; rewrite TB; reflexivity). rewrite FE.
    exists cells', L', [], []. rewrite RB. split; [|split; [change (zlen (@nil pitem ++ [])) with 0; change (zlen (@nil rop)) with 0; lia|auto]].
    constructor; [exact (vcore_wcore _ _ _ _ _ _ _ _ _ _ VB)|unfold vclean; auto|exact AB|exact CB].
Qed.
Lemma cruns_begin : forall n A c V ops A' c' V', crunsh n A c V ops A' c' V' -> within_limits fuel Stream reserve A.
Proof. destruct 1; assumption. Qed.
Lemma cruns_step : forall n A c V ops A' c' V', crunsh n A c V ops A' c' V' -> forall cells L Pc Pp, ccore A c cells L Pc Pp V -> waiting A Pc Pp + vadds ops <= n -> Forall (vlimited mx) ops ->
  exists cells' L' Pc' Pp', ccore A' c' cells' L' Pc' Pp' V' /\ waiting A' Pc' Pp' <= waiting A Pc Pp + vadds ops.
Proof.
  induction 1 as [A c V W CT|A c V o A1 c1 ops A' c' V' W CT OK E R IH]; intros cells L Pc Pp CC ZW LM.
  - exists cells, L, Pc, Pp. split; [exact CC|]. change (vadds []) with 0. lia.
  - rewrite vadds_cons in *. inversion LM as [|? ? LM1 LM2]; subst. pose proof (vadds_pos ops) as VP.
    destruct (cop_step A c cells L Pc Pp V n o A1 c1 CC CT ltac:(lia) LM1 (proj1 W) (proj2 W) (proj2 (cruns_begin _ _ _ _ _ _ _ _ R)) OK E) as (cells1 & L1 & Pc1 & Pp1 & CC1 & Z1 & _).
    destruct (IH cells1 L1 Pc1 Pp1 CC1 ltac:(lia) LM2) as (cells' & L' & Pc' & Pp' & CC' & Z'). exists cells', L', Pc', Pp'. split; [exact CC'|]. lia.
Qed.
Lemma cruns_last : forall n ops A c V o A' c' V', crunsh n A c V (ops ++ [o]) A' c' V' -> exists A1 c1 V1, crunsh n A c V ops A1 c1 V1 /\ within_limits fuel Stream reserve A1 /\ ViewSpec.counts n A1 /\ cokh A1 c1 V1 o /\
  opc (A1, c1) o = (Ok tt, (A', c')) /\ within_limits fuel Stream reserve A' /\ V' = cstep V1 o c'.
Proof.
  intros n. induction ops as [|p ops IH]; intros A c V o A' c' V' R; cbn [app] in R; inversion R as [|? ? ? ? A1 c1 ? ? ? ? W CT OK E R1]; subst.
  - inversion R1 as [? ? ? W1 CT1|]; subst. exists A, c, V. split; [constructor; assumption|]. auto 8.
  - destruct (IH _ _ _ _ _ _ _ R1) as (A2 & c2 & V2 & R2 & Q). exists A2, c2, V2. split; [econstructor; eassumption|exact Q].
Qed.
(** A history that ends with a flush, or with closing and opening. *)
Lemma counted_history : forall n A c V ops o A' c' V' cells L Pc Pp, crunsh n A c V (ops ++ [o]) A' c' V' -> vends o -> ccore A c cells L Pc Pp V -> waiting A Pc Pp + vadds ops <= n -> Forall (vlimited mx) (ops ++ [o]) ->
  exists cells' L', vcoreh A' cells' L' [] [] V' /\ settled A' /\ fa_redirects A' = [] /\ tally (pages_of V') (ct_counts c') /\ ct_dirty c' = false /\ counter_page c' V'.
Proof.
  intros n A c V ops o A' c' V' cells L Pc Pp R VE CC Z LM. destruct (cruns_last _ _ _ _ _ _ _ _ _ R) as (A1 & c1 & V1 & R1 & W1 & CT & OK & E & W2 & ->). apply Forall_app in LM as (LM1 & LM2). inversion LM2 as [|? ? LM3 _]; subst.
  assert (ZE : vadds [o] = 0) by (destruct o; [destruct VE..|reflexivity|reflexivity]).
  destruct (cruns_step _ _ _ _ _ _ _ _ R1 cells L Pc Pp CC Z LM1) as (cells1 & L1 & Pc1 & Pp1 & CC1 & Z1).
  destruct (cop_step A1 c1 cells1 L1 Pc1 Pp1 V1 n o A' c' CC1 CT ltac:(lia) LM3 (proj1 W1) (proj2 W1) (proj2 W2) OK E) as (cells2 & L2 & Pc2 & Pp2 & [VC2 _ AC2 CP2] & _ & EN).
  destruct (EN VE) as (SE & -> & -> & RE & ND). exists cells2, L2. pose proof (wcore_none _ _ _ _ _ _ _ _ VC2) as VN. split; [exact VN|]. split; [exact SE|]. split; [exact RE|]. split; [|auto].
  apply (core_accd fuel Stream reserve mx _ _ _ _ _ _ _ VN) in AC2. eapply tally_ext; [|exact AC2]. intros m u. unfold written. cbn. tauto.
Qed.
End History.
