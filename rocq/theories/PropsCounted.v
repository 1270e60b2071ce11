(** C73: the counter stored in an archive (metadata "Counter") tells how many
    content entries of each mimetype there are. *)
From Coq Require Import List ZArith Bool Lia Permutation.
From Coq Require Import ZifyBool ZifyNat.
From Coq Require Import Strings.Byte.
From Verif Require Import Base BaseProofs Utf8 Utf8Proofs Dict Infobyte Header HeaderSpec HeaderProofs MimeTypeList MimeTypeListSpec MimeTypeListProofs PointerList PointerListProofs
  SpaceAllocator SpaceAllocatorSpec SpaceAllocatorProofs Entry EntrySpec EntryProofs Reader ReaderSpec Blob Cluster ClusterSpec ClusterProofs ClusterWrapper ClusterWrapperSpec ClusterWrapperProofs
  Archive ArchiveSpec ArchiveProofs ArchiveWriteProofs ArchiveMoveProofs ArchiveRemoveProofs ArchiveObserve ArchiveFacts ArchiveLaws ArchiveEdit ArchiveCluster ArchiveClusterSpec ArchiveClusterProofs ArchiveFrame ArchiveEntryCluster ArchiveEditCluster
  CompressionStrategy CompressionStrategySpec CompressionStrategyProofs OperationBuffer OperationBufferSpec OperationBufferProofs EntryObject EntryObjectSpec EntryObjectProofs
  Flush FlushSpec FlushProofs FlushTailProofs FlushOpenProofs FlushCreateProofs FlushHistorySpec FlushHistoryProofs ViewSpec ViewProofs ViewEditProofs ViewStepProofs ViewWaitProofs ViewHistoryProofs
  Counter CounterSpec CounterProofs CountedArchive CountedSpec CountedProofs CountedStrategyProofs CountedStepProofs CountedHistoryProofs PropsArchiveCluster PropsCompressionStrategy PropsFlush PropsView.
Import ListNotations.
Open Scope Z_scope.

(** ** The pages other than MCounter are those of the table of C65 *)
Lemma beside_refl : forall V, beside_counter V V.
Proof. intro V. split; [reflexivity|]. destruct (V URL_COUNTER) as [p|]; [|exact I]. split; [reflexivity|]. split; [reflexivity|]. destruct (pg_body p); reflexivity. Qed.
Lemma beside_trans : forall V1 V2 V3, beside_counter V1 V2 -> beside_counter V2 V3 -> beside_counter V1 V3.
Proof.
  intros V1 V2 V3 (A1 & A2) (B1 & B2). split; [intros u N; rewrite (B1 u N); apply A1; exact N|].
  destruct (V1 URL_COUNTER) as [p1|], (V2 URL_COUNTER) as [p2|], (V3 URL_COUNTER) as [p3|]; try contradiction; [|exact I]. destruct A2 as (a1 & a2 & a3), B2 as (b1 & b2 & b3).
  split; [congruence|]. split; [congruence|]. destruct (pg_body p1), (pg_body p2), (pg_body p3); try contradiction; congruence.
Qed.
Lemma beside_filed : forall c V, beside_counter V (filed c V).
Proof.
  intros c V. split; [intros u N; apply filed_other; exact N|]. unfold filed. cbn [vstep]. destruct (V URL_COUNTER) as [p|] eqn:E; [|rewrite E; exact I]. rewrite vput_same. cbn [pg_title pg_article pg_body].
  split; [reflexivity|]. split; [reflexivity|]. destruct (pg_body p); reflexivity.
Qed.
Lemma beside_link : forall V V' t ttl, beside_counter V V' -> link_page V' t ttl = link_page V t ttl.
Proof.
  intros V V' t ttl (B1 & B2). unfold link_page. destruct ttl as [x|]; [reflexivity|]. destruct (list_eq_dec Z.eq_dec t URL_COUNTER) as [ -> |N]; [|rewrite (B1 t N); reflexivity].
  destruct (V URL_COUNTER) as [p|], (V' URL_COUNTER) as [p'|]; try contradiction; [|reflexivity]. destruct B2 as (b1 & b2 & b3). unfold shown_as. rewrite b1. reflexivity.
Qed.
Lemma beside_put : forall V V' u q, u <> URL_COUNTER -> beside_counter V V' -> beside_counter (vput u q V) (vput u q V').
Proof.
  intros V V' u q N (B1 & B2). split.
  - intros x Nx. destruct (list_eq_dec Z.eq_dec x u) as [ -> |Nu]; [rewrite !vput_same; reflexivity|rewrite !vput_other by exact Nu; apply B1; exact Nx].
  - rewrite !vput_other by congruence. exact B2.
Qed.
Lemma beside_step : forall o V V' W, untouched o V' -> beside_counter V V' -> W = vstep V' o -> beside_counter (vstep V o) W.
Proof.
  intros o V V' W UT B ->. pose proof B as (B1 & _). destruct o as [it d un|src tgt ttl|u l|u d|u|u| |sc sp]; cbn [vstep untouched] in *.
  - apply beside_put; assumption.
  - rewrite (beside_link V V' _ _ B). apply beside_put; assumption.
  - destruct UT as (NU & UT). rewrite (B1 u NU) in *. destruct (V u) as [p|]; [|exact B]. specialize (UT p eq_refl). cbv zeta in UT. destruct (set_fields l u p) as [v q]. cbn [fst] in UT. apply beside_put; [tauto|]. apply beside_put; assumption.
  - rewrite (B1 u UT). destruct (V u); [|exact B]. apply beside_put; assumption.
  - apply beside_put; assumption.
  - rewrite (beside_link V V' _ _ B). apply beside_put; [discriminate|exact B].
  - exact B.
  - exact B.
Qed.

Section Counted.
Variable fuel : nat.
Context {D : Type}.
Variable dc : decomp D.
Variable new_decomp : ctype -> res D.
Context {K : Type}.
Variable new_comp : ctype -> res K.
Variable comp : K -> bytes -> res (bytes * K).
Variable flush : K -> res bytes.
Variable depth : nat.
Variable kd : ckind.
Variable Stream : ctype -> bytes -> bytes -> Prop.
Context {H : Type}.
Variable md5 : H.
Variable feed : H -> bytes -> H.
Variable digest : H -> bytes.
Variable truncate : bool.
Variable process_blob : entry -> M zim unit.
Variable rounds : nat.
Hypothesis CD : codec_ok dc new_decomp new_comp comp flush Stream.
Hypothesis HO : hash_ok feed digest.
Notation runs reserve := (cruns fuel dc new_decomp new_comp comp flush depth kd Stream md5 feed digest reserve truncate process_blob rounds).
Notation opens := (open_zim fuel dc new_decomp new_comp comp flush depth kd).
Notation shows := (shows fuel dc new_decomp kd).
Notation stored_counts := (load_counts fuel dc new_decomp kd).

Lemma beside_runs : forall reserve n A c V ops A' c' V', runs reserve n A c V ops A' c' V' -> forall V0, beside_counter V0 V -> beside_counter (vsteps V0 ops) V'.
Proof.
  intros reserve. induction 1 as [A c V W CT|A c V o A1 c1 ops A' c' V' W CT OK E R IH]; intros V0 B; [exact B|]. cbn [vsteps fold_left]. apply IH. destruct OK as (_ & UT & _).
  destruct o; cbn [cstep] in *; try (eapply beside_step; [exact UT|exact B|reflexivity]); cbn [vstep]; (eapply beside_trans; [exact B|apply beside_filed]).
Qed.

(** The number of content entries of each mimetype, read from the archive,
    is what the text of MCounter says. *)
Definition counter_right (A : farchive) : Prop := exists n, stored_counts A = Ok n /\ forall m, number (content_entry A m) (get_count m n).
(** A counter that is loaded together with an archive that shows [V]. *)
Definition counter_loaded (c : counter) (V : view) : Prop :=
  counter_wf (ct_counts c) /\ (forall m, number (pages_of V m) (get_count m (ct_counts c))) /\
  exists p t d, V URL_COUNTER = Some p /\ pg_body p = Data t d /\ (ct_dirty c = false -> encode (to_string (ct_counts c)) = Ok d).

Lemma shown_right : forall A V c, shows A V -> tally (pages_of V) (ct_counts c) -> ct_dirty c = false -> counter_page c V -> readable_mimes V -> counter_right A.
Proof.
  intros A V c SH TL ND (p & t & d & EV & BV & ET) RM. specialize (ET ND). pose proof (text_read (pages_of V) c d TL RM ET) as FB. exists (nonzero (ct_counts c)). split.
  - assert (NL : ~ listing (fa_zim A) URL_COUNTER) by (intros [Q|(Q & _)]; discriminate Q). specialize (SH URL_COUNTER NL). rewrite EV in SH. destruct SH as (e & us & G & _ & _ & _ & SB). rewrite BV in SB. destruct SB as (cn & b & KE & _ & RD & _).
    unfold load_counts. rewrite G. cbn [bind]. rewrite KE, RD. cbn [bind]. exact FB.
  - intro m. destruct TL as (W & N). rewrite nonzero_get by exact W. eapply number_ext; [|exact (N m)]. intro u. split.
    + intros (IC & q & t1 & d1 & E1 & B1 & D1). split; [exact IC|]. assert (NL : ~ listing (fa_zim A) u) by (intro Q; rewrite (listing_not_C _ _ Q) in IC; discriminate IC). specialize (SH u NL). rewrite E1 in SH.
      destruct SH as (e & us & G & _ & _ & _ & SB). rewrite B1 in SB. destruct SB as (cn & b & KE & M & _). exists e, cn, b, t1. auto.
    + intros (IC & e & cn & b & t1 & G & KE & M & D1). split; [exact IC|]. assert (NL : ~ listing (fa_zim A) u) by (intro Q; rewrite (listing_not_C _ _ Q) in IC; discriminate IC). specialize (SH u NL).
      destruct (V u) as [q|]; [|elim (SH e G)]. destruct SH as (e1 & us & G1 & _ & _ & _ & SB). rewrite G in G1. injection G1 as <-. exists q. destruct (pg_body q) as [m1 d1|v].
      * destruct SB as (c1 & b1 & _ & M1 & _). rewrite M in M1. injection M1 as <-. exists t1, d1. auto.
      * unfold target_url in SB. rewrite KE in SB. discriminate SB.
Qed.
Lemma counted_ends : forall reserve mx n A c V ops A' c' V' cells L Pc Pp w sc sp, runs reserve n A c V (ops ++ [VFlush]) A' c' V' -> ccore fuel Stream reserve mx A c cells L Pc Pp V ->
  waiting A Pc Pp + vadds ops <= n -> Forall (vlimited mx) (ops ++ [VFlush]) -> readable_mimes V' ->
  beside_counter (vsteps V ops) V' /\ (forall m, number (pages_of V' m) (get_count m (ct_counts c'))) /\ shows A' V' /\ counter_right A' /\
  exists B, opens (fa_file A') w sc sp = Ok B /\ same_archive A' B /\ shows B V' /\ counter_right B.
Proof.
  intros reserve mx n A c V ops A' c' V' cells L Pc Pp w sc sp R CC Z LM RM.
  pose proof R as R0. apply cruns_last in R0 as (A2 & c2 & V2 & _ & _ & _ & _ & _ & ((F1 & FA1 & _) & _) & _).
  destruct (counted_history fuel dc new_decomp new_comp comp flush depth kd Stream reserve md5 feed digest truncate process_blob rounds CD HO mx n A c V ops VFlush A' c' V' cells L Pc Pp R I CC Z LM) as (cells1 & L1 & VC & SE & RE & TL & ND & CP).
  pose proof (vc_laid _ _ _ _ _ _ _ _ _ _ VC) as LO1. pose proof (vc_table _ _ _ _ _ _ _ _ _ _ VC) as T1. rewrite RE in T1.
  assert (SH1 : shows A' V') by (exact (table_shows fuel dc new_decomp new_comp comp flush kd Stream reserve process_blob CD A' cells1 L1 _ LO1 (FA1 _ _ LO1) T1)).
  split; [|split; [exact (proj2 TL)|]].
  - pose proof (beside_runs _ _ _ _ _ _ _ _ _ R V (beside_refl V)) as B. unfold vsteps in B. rewrite fold_left_app in B. exact B.
  - split; [exact SH1|]. split; [eapply shown_right; eassumption|].
    destruct (open_settled fuel dc new_decomp new_comp comp flush depth kd Stream reserve md5 feed digest CD w sc sp A' cells1 L1 LO1 SE (FA1 _ _ LO1) F1) as (B & E & SA & _).
    exists B. split; [exact E|]. split; [exact SA|]. pose proof (same_shows fuel dc new_decomp kd A' B _ SA SH1) as SB. split; [exact SB|eapply shown_right; eassumption].
Qed.

(** *** C73.  An archive with its counter: after the changes and a flush, the
    text in MCounter gives the number of content entries of every mimetype, in
    this archive and in the one that is opened from the file; the other pages
    are those of the table of C65. *)
Theorem C73_counter_partial : forall reserve n A c cells L V ops A' c' V' w sc sp,
  laid_out Stream reserve A cells L -> fresh_strategy (zs_comp (fa_state A)) -> fresh_strategy (zs_plain (fa_state A)) ->
  fa_redirects A = [] -> fa_main A = None -> (is_dirty A = false -> settled A) ->
  shows A V -> counter_loaded c V -> runs reserve n A c V (ops ++ [VFlush]) A' c' V' -> vadds ops <= n -> readable_mimes V' ->
  beside_counter (vsteps V ops) V' /\ (forall m, number (pages_of V' m) (get_count m (ct_counts c'))) /\ shows A' V' /\ counter_right A' /\
  exists B, opens (fa_file A') w sc sp = Ok B /\ same_archive A' B /\ shows B V' /\ counter_right B.
Proof.
  intros reserve n A c cells L V ops A' c' V' w sc sp LO F1 F2 N1 N2 SE SH (WF & NU & CP) R Z RM. set (mx := Z.max (Z.max (limit_of (zs_comp (fa_state A))) (limit_of (zs_plain (fa_state A)))) (vhighest (ops ++ [VFlush]))).
  pose proof R as R0. apply cruns_begin in R0 as ((F0 & FA & _) & _).
  assert (T : table (fa_zim A) (map snd cells) (blobs_of L) (ml_types (fa_mimes A)) [] (fa_redirects A) V).
  { rewrite N1. exact (shows_table fuel dc new_decomp new_comp comp flush kd Stream reserve md5 feed digest process_blob CD A cells L V LO (FA _ _ LO) SH). }
  assert (VC : wcore fuel Stream reserve mx A cells L [] [] V).
  { constructor; [exact LO|apply fresh_pendany; [exact F1|lia]|apply fresh_pendany; [exact F2|lia]|constructor|left; exact N2|apply table_wtable; exact T]. }
  eapply (counted_ends reserve mx n A c V ops A' c' V' cells L [] [] w sc sp R); [|unfold waiting; rewrite N1; change (zlen (@nil pitem ++ [])) with 0; change (zlen (@nil rop)) with 0; lia| |exact RM].
  - constructor; [exact VC|unfold vclean; auto| |exact CP]. apply (core_accd fuel Stream reserve mx _ _ _ _ _ _ _ (wcore_none _ _ _ _ _ _ _ _ VC)). split; [exact WF|]. intro m. eapply number_ext; [|exact (NU m)]. intro u. unfold written. cbn. tauto.
  - eapply vlimited_more; [|apply vhighest_limits]. lia.
Qed.
Lemma new_header : forall r u sc sp A, (0 < fuel)%nat -> fresh_strategy sc -> init_new fuel new_comp comp flush depth r u sc sp = Ok A -> fa_header A = header_placeholder u.
Proof.
  intros r u sc sp A F0 F E0. unfold init_new in E0. destruct (init_state r u sc sp) as [A0|e] eqn:EI; cbn [bind] in E0; [|discriminate E0].
  destruct (add_placeholder fuel new_comp comp flush depth A0) as [[[]|e] A1] eqn:EP; cbn [bind] in E0; [|discriminate E0]. injection E0 as <-.
  unfold init_state in EI. cbv zeta in EI. destruct (header_to_bytes _) as [data|e]; cbn [bind] in EI; [|discriminate EI]. injection EI as <-.
  eapply placeholder_runs in EP; [|exact F0|exact (fresh_idle _ F)]. destruct EP as (_ & _ & _ & _ & EH & _). exact EH.
Qed.
(** A new archive: its counter waits to be written. *)
Definition new_view : view := vput URL_COUNTER (Some (page_of counter_item [])) empty_view.
Lemma new_core : forall r u sc0 sp0 mx A c, 0 <= r -> zlen u = 16 -> fresh_strategy sc0 -> fresh_strategy sp0 -> limit_of sc0 <= mx -> limit_of sp0 <= mx ->
  count_new fuel new_comp comp flush depth (Some r) u sc0 sp0 = Ok (A, c) -> within_limits fuel Stream (Some r) A ->
  exists cells L Pc Pp, ccore fuel Stream (Some r) mx A c cells L Pc Pp new_view /\ waiting A Pc Pp <= 1.
Proof.
  intros r u sc0 sp0 mx A c Hr HU F1 F2 M1 M2 IN ((F0 & _) & MZ).
  unfold count_new in IN. destruct (init_new fuel new_comp comp flush depth (Some r) u sc0 sp0) as [A0|] eqn:IN0; [|discriminate IN]. cbn [bind] in IN.
  destruct (created fuel dc new_decomp new_comp comp flush depth Stream CD mx r Hr F0 u sc0 sp0 A0 HU F1 F2) as (cells & L & LO & P1 & P2 & B1 & B2 & DI & EU & EA & ZL & UU); [exact M1|exact M2|exact IN0|].
  pose proof (ao_entries _ _ _ _ (lo_arch _ _ _ _ _ LO)) as CS.
  assert (ON : forall x e, get_entry_by_full_url (fa_zim A0) x = Ok e -> x = URL_ARTICLE_TITLE_INDEX).
  { intros x e G. apply (lookup_iff _ _ _ _ CS) in G as (G1 & G2). apply (in_map full_url) in G1. rewrite EU, G2 in G1. destruct G1 as [G1|[]]. congruence. }
  assert (T : wtable (fa_zim A0) (map snd cells) (blobs_of L) (ml_types (fa_mimes A0)) [] (fa_redirects A0) empty_view).
  { rewrite B1. constructor; [intros x p Q; discriminate Q|intros x e G; left; left; exact (ON x e G)|intros it d []|intros r0 []|constructor]. }
  assert (VC0 : wcore fuel Stream (Some r) mx A0 cells L [] [] empty_view) by (constructor; [exact LO|exact P1|exact P2|constructor|left; exact B2|exact T]).
  unfold with_counter, install in IN. destruct (has_entry_for_full_url (fa_zim A0) URL_COUNTER) as [th|] eqn:HE; [|discriminate IN]. cbn [bind] in IN. destruct th.
  { exfalso. assert (CO : core (fa_zim A0) cells) by (apply (ao_core _ _ _ _ (lo_arch _ _ _ _ _ LO))).
    assert (MS : url_pointer (fa_zim A0) URL_COUNTER = Err KeyError).
    { rewrite url_pointer_index, (url_index_missing _ _ URL_COUNTER (enc URL_COUNTER) CO eq_refl); [reflexivity|]. intros k Hk Q. apply (in_map snd) in Hk. apply (in_map full_url) in Hk. rewrite EU, Q in Hk. destruct Hk as [Hk|[]]. discriminate Hk. }
    unfold has_entry_for_full_url, has, has_gen in HE. unfold url_pointer, get in MS. destruct (encode URL_COUNTER) as [k|] eqn:EE; [|vm_compute in EE; discriminate EE]. cbn [bind] in *. rewrite MS in HE. discriminate HE. }
  destruct (fa_add_item fuel new_comp comp flush depth counter_item false A0) as [[[]|] A1] eqn:EA1; [|discriminate IN]. cbn [bind] in IN. injection IN as <- <-.
  assert (CN : ViewSpec.counts 1 A0).
  { destruct (wcore_count fuel Stream (Some r) md5 feed digest mx _ _ _ _ _ _ VC0) as (Q1 & Q2). unfold ViewSpec.counts. rewrite Q1, Q2. apply (f_equal (@zlen _)) in EU. rewrite !zlen_map in EU. change (zlen [URL_ARTICLE_TITLE_INDEX]) with 1 in EU. lia. }
  assert (IO : item_ok fuel counter_item []) by (split; [reflexivity|]; split; [apply mem_delivers; change (zlen (@nil byte)) with 0; lia|intro Q; discriminate Q]).
  destruct (wadd_step fuel dc new_decomp new_comp comp flush depth kd Stream (Some r) md5 feed digest truncate process_blob rounds CD mx A0 cells L [] [] empty_view 1 counter_item [] false A1 VC0 CN) as (cells1 & L1 & Pc1 & Pp1 & VC1 & _ & RE & ZP).
  { rewrite B1. cbn. lia. } { split; [exact IO|]. split; [intros [Q|(Q & _)]; discriminate Q|left; reflexivity]. } { exact MZ. } { exact EA1. }
  assert (FR : fa_redirects A1 = []) by congruence.
  assert (VC : wcore fuel Stream (Some r) mx (fa_set_dirty false A1) cells1 L1 Pc1 Pp1 new_view).
  { destruct VC1 as [LO1 PC PP TY MN T1]. constructor; try assumption. eapply laid_alike; [| | |exact LO1]; reflexivity. }
  exists cells1, L1, Pc1, Pp1. split; [constructor; [exact VC| | |]|unfold waiting; cbn [fa_redirects fa_set_dirty]; rewrite FR; change (zlen (@nil rop)) with 0; change (zlen (@nil pitem ++ [])) with 0 in ZP; lia].
  - intro Q. exfalso. unfold is_dirty in Q. change (fa_header (fa_set_dirty false A1)) with (fa_header A1) in Q. replace (fa_header A1) with (fa_header A0) in Q. 2:{ unfold fa_add_item in EA1. destruct (zim_add_item _ _ _ _ _ _ _ _) as [[?|?] z] in EA1; injection EA1; intros <-; reflexivity. }
    rewrite (new_header _ _ _ _ _ F0 F1 IN0) in Q. destruct (fa_dirty (fa_set_dirty false A1)); discriminate Q.
  - pose proof (wc_table _ _ _ _ _ _ _ _ _ _ VC) as T2. assert (NO : forall x e, in_C x = true -> get_entry_by_full_url (fa_zim (fa_set_dirty false A1)) x = Ok e -> False).
    { intros x e IC G. destruct (wt_only _ _ _ _ _ _ _ T2 x e G) as [Q|Q]; [rewrite (listing_not_C _ _ Q) in IC; discriminate IC|]. apply Q. unfold new_view. apply vput_other. intros ->. discriminate IC. }
    split; [split; [constructor|]|].
    + intro m. exists []. split; [constructor|]. split; [|reflexivity]. intro x. split; [intros []|intros (IC & e & _ & _ & _ & G & _); exact (NO x e IC G)].
    + intros x e cn b IC G. elim (NO x e IC G).
  - exists (page_of counter_item []), (encoded TEXT_PLAIN), []. split; [reflexivity|]. split; [reflexivity|intro Q; discriminate Q].
Qed.
Theorem C73_new_archive_partial : forall r u sc0 sp0 n A c ops A' c' V' w sc sp, 0 <= r -> zlen u = 16 -> fresh_strategy sc0 -> fresh_strategy sp0 ->
  count_new fuel new_comp comp flush depth (Some r) u sc0 sp0 = Ok (A, c) -> runs (Some r) n A c new_view (ops ++ [VFlush]) A' c' V' -> 1 + vadds ops <= n -> readable_mimes V' ->
  beside_counter (vsteps new_view ops) V' /\ (forall m, number (pages_of V' m) (get_count m (ct_counts c'))) /\ shows A' V' /\ counter_right A' /\
  exists B, opens (fa_file A') w sc sp = Ok B /\ same_archive A' B /\ shows B V' /\ counter_right B.
Proof.
  intros r u sc0 sp0 n A c ops A' c' V' w sc sp Hr HU F1 F2 IN R Z RM. set (mx := Z.max (Z.max (limit_of sc0) (limit_of sp0)) (vhighest (ops ++ [VFlush]))).
  pose proof R as R0. apply cruns_begin in R0. destruct (new_core r u sc0 sp0 mx A c Hr HU F1 F2 ltac:(lia) ltac:(lia) IN R0) as (cells & L & Pc & Pp & CC & W).
  eapply (counted_ends (Some r) mx n A c _ ops A' c' V' cells L Pc Pp w sc sp R CC); [lia| |exact RM]. eapply vlimited_more; [|apply vhighest_limits]. lia.
Qed.
(** What such a history leaves meets the hypotheses of C73_counter_partial. *)
Lemma new_archive_again : forall r u sc0 sp0 n A c ops A' c' V' sc sp, 0 <= r -> zlen u = 16 -> fresh_strategy sc0 -> fresh_strategy sp0 ->
  count_new fuel new_comp comp flush depth (Some r) u sc0 sp0 = Ok (A, c) -> runs (Some r) n A c new_view (ops ++ [VFlush]) A' c' V' -> 1 + vadds ops <= n ->
  fresh_strategy sc -> fresh_strategy sp ->
  exists B cells L, opens (fa_file A') true sc sp = Ok B /\ laid_out Stream (Some r) B cells L /\ fresh_strategy (zs_comp (fa_state B)) /\ fresh_strategy (zs_plain (fa_state B)) /\
    fa_redirects B = [] /\ fa_main B = None /\ (is_dirty B = false -> settled B) /\ shows B V' /\ counter_loaded c' V'.
Proof.
  intros r u sc0 sp0 n A c ops A' c' V' sc sp Hr HU F1 F2 IN R Z S1 S2. set (mx := Z.max (Z.max (limit_of sc0) (limit_of sp0)) (vhighest (ops ++ [VFlush]))).
  pose proof R as R0. apply cruns_begin in R0. destruct (new_core r u sc0 sp0 mx A c Hr HU F1 F2 ltac:(lia) ltac:(lia) IN R0) as (cells & L & Pc & Pp & CC & W).
  pose proof R as R1. apply cruns_last in R1 as (A2 & c2 & V2 & _ & _ & _ & _ & _ & ((G0 & FA1 & _) & _) & _).
  destruct (counted_history fuel dc new_decomp new_comp comp flush depth kd Stream (Some r) md5 feed digest truncate process_blob rounds CD HO mx n A c _ ops VFlush A' c' V' cells L Pc Pp R I CC ltac:(lia)) as (cells1 & L1 & VC & SE & RE & TL & ND & CP).
  { eapply vlimited_more; [|apply vhighest_limits]. lia. }
  pose proof (vc_laid _ _ _ _ _ _ _ _ _ _ VC) as LO1. pose proof (vc_table _ _ _ _ _ _ _ _ _ _ VC) as T1. rewrite RE in T1.
  pose proof (table_shows fuel dc new_decomp new_comp comp flush kd Stream (Some r) process_blob CD A' cells1 L1 _ LO1 (FA1 _ _ LO1) T1) as SH1.
  destruct (open_settled fuel dc new_decomp new_comp comp flush depth kd Stream (Some r) md5 feed digest CD true sc sp A' cells1 L1 LO1 SE (FA1 _ _ LO1) G0) as (B & E & SA & E1 & E2 & E3 & E4 & E5 & WR).
  destruct (WR eq_refl) as (LB & SB & _). exists B, cells1, L1. rewrite E1, E2. split; [exact E|]. split; [exact LB|]. split; [exact S1|]. split; [exact S2|]. split; [exact E3|]. split; [exact E4|]. split; [intros _; exact SB|].
  split; [exact (same_shows fuel dc new_decomp kd A' B _ SA SH1)|]. destruct TL as (T2 & T3). split; [exact T2|]. split; [exact T3|exact CP].
Qed.
End Counted.

(** ** What is false *)

(** Operations are performed one after the other, all of them return. *)
Inductive counted_ops fuel {D} (dc : decomp D) new_decomp {K} (new_comp : ctype -> res K) comp flush depth kd Stream {H} (md5 : H) feed digest reserve truncate process_blob rounds :
  farchive -> counter -> list vop -> farchive -> counter -> Prop :=
| counted_nil A c : within_limits fuel Stream reserve A -> counted_ops fuel dc new_decomp new_comp comp flush depth kd Stream md5 feed digest reserve truncate process_blob rounds A c [] A c
| counted_cons A c o A1 c1 ops A' c' : within_limits fuel Stream reserve A ->
    count_op fuel dc new_decomp new_comp comp flush depth kd md5 feed digest reserve truncate process_blob rounds (A, c) o = (Ok tt, (A1, c1)) ->
    counted_ops fuel dc new_decomp new_comp comp flush depth kd Stream md5 feed digest reserve truncate process_blob rounds A1 c1 ops A' c' ->
    counted_ops fuel dc new_decomp new_comp comp flush depth kd Stream md5 feed digest reserve truncate process_blob rounds A c (o :: ops) A' c'.
(** The counter is right after every history that ends with a flush. *)
Definition C73_full_statement : Prop :=
  forall fuel D (dc : decomp D) new_decomp K new_comp comp flush depth kd Stream H (md5 : H) feed digest reserve truncate process_blob rounds,
  codec_ok (K:=K) dc new_decomp new_comp comp flush Stream -> hash_ok feed digest ->
  forall u sc sp A c ops A' c', zlen u = 16 -> fresh_strategy sc -> fresh_strategy sp -> count_new fuel new_comp comp flush depth reserve u sc sp = Ok (A, c) ->
  counted_ops fuel dc new_decomp new_comp comp flush depth kd Stream md5 feed digest reserve truncate process_blob rounds A c (ops ++ [VFlush]) A' c' ->
  counter_right fuel dc new_decomp kd A'.

Notation sample_count := (count_op sample_fuel passthrough plain_new plain_new_comp plain_comp plain_flush 6 KRemembering 0 sample_feed sample_digest (Some 50) true (fun _ => ret tt) 3).
Notation sample_count_flush := (count_flush sample_fuel passthrough plain_new plain_new_comp plain_comp plain_flush 6 KRemembering 0 sample_feed sample_digest (Some 50) true (fun _ => ret tt) 3).
Notation sample_counted := (counted_ops sample_fuel passthrough plain_new plain_new_comp plain_comp plain_flush 6 KRemembering plain_stream 0 sample_feed sample_digest (Some 50) true (fun _ => ret tt) 3).
Notation sample_cruns := (cruns sample_fuel passthrough plain_new plain_new_comp plain_comp plain_flush 6 KRemembering plain_stream 0 sample_feed sample_digest (Some 50) true (fun _ => ret tt) 3).
Notation sample_right := (counter_right sample_fuel passthrough plain_new KRemembering).
Notation sample_stored := (load_counts sample_fuel passthrough plain_new KRemembering).
Definition counted_created : res (farchive * counter) := count_new sample_fuel plain_new_comp plain_comp plain_flush 6 (Some 50) sample_uuid sample_simple sample_mime.
Fixpoint counted_run (X : farchive * counter) (ops : list vop) : option (farchive * counter) :=
  if few (fst X) then match ops with [] => Some X | o :: r => match sample_count X o with (Ok _, Y) => counted_run Y r | (Err _, _) => None end end else None.
Lemma counted_run_ok : forall ops X Y, counted_run X ops = Some Y -> sample_counted (fst X) (snd X) ops (fst Y) (snd Y).
Proof.
  induction ops as [|o ops IH]; intros [A c] Y E; cbn [counted_run fst] in E; (destruct (few A) eqn:F; [|discriminate E]).
  - injection E as <-. constructor. apply few_ok. exact F.
  - destruct (sample_count (A, c) o) as [[[]|] [A1 c1]] eqn:E1; [|discriminate E]. econstructor; [apply few_ok; exact F|exact E1|]. exact (IH _ _ E).
Qed.
(** No entry of the archive is in namespace C, and the stored counter counts one
    entry of mimetype "m". *)
Definition no_C (A : farchive) : bool := forallb (fun p => match get_entry_at (fa_zim A) p with Ok e => negb (in_C (full_url e)) | Err _ => true end) (pl_ptrs (z_upl (fa_zim A))).
Definition one_m (A : farchive) : bool := match sample_stored A with Ok n => get_count [109] n =? 1 | Err _ => false end.
Lemma found_at : forall s u e, get_entry_by_full_url s u = Ok e -> exists p, In p (pl_ptrs (z_upl s)) /\ get_entry_at s p = Ok e /\ full_url e = u.
Proof.
  intros s u e G. unfold get_entry_by_full_url, url_pointer in G. destruct (encode u) as [k|x] eqn:EK; cbn [bind] in G; [|destruct x; discriminate G].
  unfold get, get_gen, get_index_gen in G. destruct (binarysearch _ _ _) as [i|x]; cbn [bind] in G; [|destruct x; discriminate G]. destruct (i =? _); [discriminate G|].
  destruct (get_by_index _ i) as [p|x] eqn:EG; cbn [bind] in G; [|destruct x; discriminate G]. destruct (url_key s p) as [k'|x] eqn:EU; cbn [bind] in G; [|destruct x; discriminate G]. destruct (beqb k' k) eqn:EB; cbn [bind] in G; [|discriminate G].
  rewrite EG in G. exists p. split; [|split; [exact G|]].
  - unfold get_by_index in EG. destruct (py_index _ i) as [j|]; [|discriminate EG]. destruct (nth_error _ j) as [q|] eqn:EN; [|discriminate EG]. injection EG as <-. eapply nth_error_In. exact EN.
  - unfold url_key in EU. rewrite G in EU. cbn [bind] in EU. apply beqb_eq in EB. subst k'. unfold encode in EU, EK. destruct (utf8_encode (full_url e)) eqn:E1; [|discriminate EU]. destruct (utf8_encode u) eqn:E2; [|discriminate EK]. eapply utf8_encode_inj; [exact E1|]. congruence.
Qed.
Lemma wrong_counter : forall A, no_C A = true -> one_m A = true -> ~ sample_right A.
Proof.
  intros A NC OM (n & EL & NU). unfold one_m in OM. rewrite EL in OM. destruct (NU [109]) as (us & ND & IN & ZL). destruct us as [|u us]; [change (zlen (@nil ustr)) with 0 in ZL; lia|].
  destruct (proj1 (IN u) (or_introl eq_refl)) as (IC & e & _ & _ & _ & G & _). apply found_at in G as (p & HP & GE & FU). unfold no_C in NC. rewrite forallb_forall in NC. specialize (NC p HP). rewrite GE, FU, IC in NC. discriminate NC.
Qed.
(** [Cb] is written and then moved to [Mx]. *)
Definition moved_away : list vop := [VAdd item_b [x42] false; VFlush; VEdit (item_url item_b) [SetUrl [77; 120]]].
Definition moved_result (r : res (farchive * counter)) : bool :=
  match r with Ok X => match counted_run X (moved_away ++ [VFlush]) with Some (A, _) => no_C A && one_m A | None => false end | Err _ => false end.
Lemma moved_result_ok : forall r, moved_result r = true -> exists A c A' c', r = Ok (A, c) /\ sample_counted A c (moved_away ++ [VFlush]) A' c' /\ ~ sample_right A'.
Proof.
  intros [[A c]|] Q; [|discriminate Q]. unfold moved_result in Q. destruct (counted_run (A, c) (moved_away ++ [VFlush])) as [[A' c']|] eqn:E; [|discriminate Q]. apply andb_true_iff in Q as (Q1 & Q2).
  exists A, c, A', c'. split; [reflexivity|]. split; [exact (counted_run_ok _ _ _ E)|apply wrong_counter; assumption].
Qed.
Lemma moved_works : moved_result counted_created = true.
Proof. vm_compute. reflexivity. Qed.
Theorem C73_refuted : ~ C73_full_statement.
Proof.
  intro F. destruct (moved_result_ok _ moved_works) as (A & c & A' & c' & E & R & N). destruct sample_zops_ok as (_ & _ & _ & FS & FM).
  exact (N (F sample_fuel _ _ _ _ _ _ _ 6%nat KRemembering plain_stream _ 0 sample_feed sample_digest (Some 50) true (fun _ => ret tt) 3%nat plain_codec sample_hash sample_uuid sample_simple sample_mime A c moved_away A' c' eq_refl FS FM E R)).
Qed.

(** ** A concrete history: an item is added and flushed, it gets another
    mimetype, another item is added, the archive is closed and opened; that
    one gets the new mimetype too, a redirect is added, the archive is flushed and
    the second item is removed. *)
Definition counted_ops_sample : list vop :=
  [VAdd item_b [x42] false; VFlush; VEdit (item_url item_b) [SetMimetype TEXT_PLAIN]; VAdd item_a [x41] false; VReopen sample_mime sample_simple;
   VEdit (item_url item_a) [SetMimetype TEXT_PLAIN]; VLink [67; 122] (item_url item_b) None; VFlush; VRemove (item_url item_a)].
Definition untouched_b (o : vop) (V : view) : bool :=
  match o with
  | VAdd it _ _ => negb (ueqb (item_url it) URL_COUNTER)
  | VLink source _ _ => negb (ueqb source URL_COUNTER)
  | VEdit u l => negb (ueqb u URL_COUNTER) && match V u with Some p => let v := fst (set_fields l u p) in negb (ueqb v URL_COUNTER) && Bool.eqb (in_C v) (in_C u) | None => true end
  | VContent u _ | VRemove u => negb (ueqb u URL_COUNTER)
  | VMain _ | VFlush | VReopen _ _ => true
  end.
Definition readable_b (V : view) (dom : list ustr) : bool :=
  forallb (fun u => match V u with
                    | Some p => match pg_body p with Data t _ => match decode t with Ok m => forallb (fun c => negb (c =? 59)) m && match m with c :: _ => negb (c =? 32) | [] => true end | Err _ => true end | Link _ => true end
                    | None => true end) dom.
Definition count_small (A : farchive) (c : counter) (V : view) (dom : list ustr) : bool :=
  match (let* _ := uncounted sync_main in count_content sample_fuel plain_new_comp plain_comp plain_flush 6 (fun _ => ret tt) 3) (A, c) with
  | (Ok _, (A2, c2)) => small A2 && allowed_b A2 V dom (VContent URL_COUNTER (text c2)) &&
      match store_counter sample_fuel passthrough plain_new plain_new_comp plain_comp plain_flush KRemembering (A2, c2) with
      | (Ok _, (A3, _)) => small A3 && match sample_articles A3 with (Ok _, A4) => small A4 && match sample_titles A4 with (Ok _, A5) => small A5 | _ => true end | _ => true end
      | _ => true
      end
  | _ => true
  end && match sample_count_flush (A, c) with (Ok _, (A', _)) => small A' | _ => true end.
Definition cok_b (A : farchive) (c : counter) (V : view) (dom : list ustr) (o : vop) : bool :=
  vok_b A V dom o && untouched_b o V &&
  match o with
  | VFlush => (is_dirty A || negb (ct_dirty c)) && count_small A c V dom
  | VReopen _ _ => (is_dirty A || negb (ct_dirty c)) && count_small A c V dom && readable_b V dom
  | _ => true
  end.
Fixpoint sample_crun (n : Z) (dom : list ustr) (A : farchive) (c : counter) (V : view) (ops : list vop) : option (farchive * counter * view) :=
  if few A && counts_b n A then
    match ops with
    | [] => Some (A, c, V)
    | o :: r => if cok_b A c V dom o then match sample_count (A, c) o with (Ok _, (A1, c1)) => sample_crun n dom A1 c1 (cstep V o c1) r | (Err _, _) => None end else None
    end
  else None.
Lemma not_eq_ok : forall u v, negb (ueqb u v) = true -> u <> v.
Proof. intros u v Q ->. rewrite (proj2 (ueqb_eq _ _) eq_refl) in Q. discriminate Q. Qed.
Lemma untouched_ok : forall o V, untouched_b o V = true -> untouched o V.
Proof.
  intros o V Q. destruct o; cbn [untouched_b untouched] in *; try exact I; try (apply not_eq_ok; exact Q).
  apply andb_true_iff in Q as (Q1 & Q2). split; [apply not_eq_ok; exact Q1|]. intros p E. rewrite E in Q2. cbv zeta in *. apply andb_true_iff in Q2 as (Q2 & Q3). split; [apply not_eq_ok; exact Q2|apply Bool.eqb_prop; exact Q3].
Qed.
Lemma semis_b : forall m, forallb (fun c => negb (c =? 59)) m = true -> semis_ok m.
Proof. induction m as [|c m IH]; intro Q; [exact I|]. cbn [forallb] in Q. apply andb_true_iff in Q as (Q1 & Q2). split; [intro E; lia|auto]. Qed.
Lemma readable_ok : forall V dom, (forall x, V x <> None -> In x dom) -> readable_b V dom = true -> readable_mimes V.
Proof.
  intros V dom HD Q m u (_ & p & t & d & E & B & DE). unfold readable_b in Q. rewrite forallb_forall in Q. specialize (Q u (HD u ltac:(congruence))). rewrite E, B, DE in Q. apply andb_true_iff in Q as (Q1 & Q2). split; [apply semis_b; exact Q1|]. intros r ->. discriminate Q2.
Qed.
Lemma count_small_ok : forall A c V dom, (forall x, V x <> None -> In x dom) -> count_small A c V dom = true ->
  count_suffices sample_fuel passthrough plain_new plain_new_comp plain_comp plain_flush 6 KRemembering plain_stream 0 sample_feed sample_digest (Some 50) true (fun _ => ret tt) 3 A c V.
Proof.
  intros A c V dom HD Q. unfold count_small in Q. apply andb_true_iff in Q as (Q1 & Q2). split.
  - intros A2 c2 E. rewrite E in Q1. apply andb_true_iff in Q1 as (Q1 & Q3). apply andb_true_iff in Q1 as (Q1 & Q4). split; [apply small_suffices; exact Q1|]. split; [exact (allowed_b_ok A2 V dom (VContent URL_COUNTER (text c2)) HD I Q4)|].
    intros A3 c3 E3. rewrite E3 in Q3. apply andb_true_iff in Q3 as (Q3 & Q5). split; [apply small_suffices; exact Q3|]. intros A4 E4. rewrite E4 in Q5. apply andb_true_iff in Q5 as (Q5 & Q6). split; [apply small_suffices; exact Q5|]. intros A5 E5. rewrite E5 in Q6. apply small_suffices. exact Q6.
  - intros A' c' E. rewrite E in Q2. apply small_suffices. exact Q2.
Qed.
Lemma cok_ok : forall A c V dom o, (forall x, V x <> None -> In x dom) -> side_ok o -> cok_b A c V dom o = true ->
  cok sample_fuel passthrough plain_new plain_new_comp plain_comp plain_flush 6 KRemembering plain_stream 0 sample_feed sample_digest (Some 50) true (fun _ => ret tt) 3 A c V o.
Proof.
  intros A c V dom o HD SO Q. unfold cok_b in Q. apply andb_true_iff in Q as (Q & Q3). apply andb_true_iff in Q as (Q1 & Q2). split; [exact (vok_b_ok A V dom o HD SO Q1)|]. split; [apply untouched_ok; exact Q2|].
  assert (DI : forall b b', b || negb b' = true -> b = true \/ b' = false) by (intros [] []; auto).
  destruct o; try exact I; repeat match goal with Q : _ && _ = true |- _ => apply andb_true_iff in Q as (? & ?) end.
  - split; [apply DI; assumption|eapply count_small_ok; eassumption].
  - split; [apply DI; assumption|]. split; [eapply count_small_ok; eassumption|eapply readable_ok; eassumption].
Qed.
Fixpoint ctouches (V : view) (ops : list vop) : list ustr := match ops with [] => [] | o :: r => touched V o ++ ctouches (vstep V o) r end.
Lemma filed_some : forall c V x, filed c V x <> None -> V x <> None.
Proof. intros c V x Q. destruct (list_eq_dec Z.eq_dec x URL_COUNTER) as [ -> |N]; [|rewrite filed_other in Q by exact N; exact Q]. intro E. apply Q. unfold filed. cbn [vstep]. rewrite E. exact E. Qed.
(** The urls of the pages and of the operations are in [dom]. *)
Definition within (dom : list ustr) (o : vop) : Prop :=
  match o with VAdd it _ _ => In (item_url it) dom | VLink s _ _ => In s dom | VMain _ => In URL_MAINPAGE_REDIRECT dom
  | VEdit u l => In u dom /\ forall p, In (fst (set_fields l u p)) dom | _ => True end.
Lemma sample_crun_ok : forall n dom ops A c V A' c' V', (forall x, V x <> None -> In x dom) -> Forall (within dom) ops -> Forall side_ok ops -> sample_crun n dom A c V ops = Some (A', c', V') ->
  sample_cruns n A c V ops A' c' V' /\ (forall x, V' x <> None -> In x dom).
Proof.
  intros n dom. induction ops as [|o ops IH]; intros A c V A' c' V' HD HW SO E; cbn [sample_crun] in E; (destruct (few A && counts_b n A) eqn:FC; [|discriminate E]); apply andb_true_iff in FC as (F & C);
    (assert (CT : ViewSpec.counts n A) by (unfold counts_b in C; apply andb_true_iff in C as (C1 & C2); split; lia)).
  - injection E as <- <- <-. split; [constructor; [apply few_ok; exact F|exact CT]|exact HD].
  - destruct (cok_b A c V dom o) eqn:VB; [|discriminate E]. destruct (sample_count (A, c) o) as [[[]|] [A1 c1]] eqn:ES; [|discriminate E].
    inversion SO as [|? ? S1 S2]; subst. inversion HW as [|? ? W1 W2]; subst.
    assert (HD1 : forall x, cstep V o c1 x <> None -> In x dom).
    { intros x Q. assert (Q1 : vstep V o x <> None \/ V x <> None) by (destruct o; cbn [cstep] in Q; auto; right; eapply filed_some; exact Q). destruct Q1 as [Q1|Q1]; [|auto]. apply touched_ok in Q1 as [Q1|Q1]; [|auto].
      destruct o; cbn [touched within] in *; try (destruct Q1 as [<-|[]]; exact W1); try destruct Q1. destruct (V u) as [p|]; [|destruct Q1]. destruct Q1 as [<-|[]]. apply W1. }
    destruct (IH _ _ _ _ _ _ HD1 W2 S2 E) as (R & HD2). split; [|exact HD2]. econstructor; [apply few_ok; exact F|exact CT|eapply cok_ok; eassumption|exact ES|exact R].
Qed.
Definition counted_dom : list ustr := [item_url item_a; item_url item_b; [67; 122]; URL_COUNTER].
Definition counted_end (r : res (farchive * counter)) : option (farchive * counter * view) :=
  match r with Ok (A, c) => sample_crun 100 counted_dom A c new_view (counted_ops_sample ++ [VFlush]) | Err _ => None end.
(** [Cb] has mimetype "text/plain"; nothing has mimetype "m" any more. *)
Definition counted_works (r : res (farchive * counter)) : bool :=
  match counted_end r with
  | Some (A, c, V) => readable_b V counted_dom && (get_count TEXT_PLAIN (ct_counts c) =? 1) && (get_count [109] (ct_counts c) =? 0) &&
      match V URL_COUNTER with Some p => match pg_body p with Data _ d => if list_eq_dec Byte.byte_eq_dec d ([x74; x65; x78; x74; x2f; x70; x6c; x61; x69; x6e] ++ [x3d; x31]) then true else false | Link _ => false end | None => false end
  | None => false
  end.
Lemma counted_sample_works : counted_works counted_created = true.
Proof. vm_compute. reflexivity. Qed.

Lemma counted_end_ok : forall r, counted_works r = true -> exists A c A' c' V', r = Ok (A, c) /\ sample_cruns 100 A c new_view (counted_ops_sample ++ [VFlush]) A' c' V' /\ readable_mimes V' /\
  get_count TEXT_PLAIN (ct_counts c') = 1 /\ get_count [109] (ct_counts c') = 0.
Proof.
  intros [[A c]|] Q; [|discriminate Q]. unfold counted_works, counted_end in Q. destruct (sample_crun 100 counted_dom A c new_view (counted_ops_sample ++ [VFlush])) as [[[A' c'] V']|] eqn:E; [|discriminate Q].
  repeat match goal with Q : _ && _ = true |- _ => apply andb_true_iff in Q as (? & ?) end. exists A, c, A', c', V'. split; [reflexivity|].
  destruct (sample_crun_ok 100 counted_dom (counted_ops_sample ++ [VFlush]) A c new_view A' c' V') as (R & HD); [| | |exact E|].
  - intros x N. unfold new_view in N. apply vput_some in N as [ -> |N]; [cbn; auto|elim N; reflexivity].
  - repeat (constructor; [cbn [within]; try exact I; try (split; [|intro p; cbn [set_fields fst]]); vm_compute; auto 8|]). constructor.
  - destruct sample_zops_ok as (_ & _ & _ & FS & FM). assert (LE : (200 <= sample_fuel)%nat) by (unfold sample_fuel; lia).
    repeat (constructor; [cbn [side_ok]; first [exact I|split; assumption|eapply larger_ok; [first [exact item_a_ok|exact item_b_ok]|exact LE]]|]). constructor.
  - split; [exact R|]. split; [eapply readable_ok; eassumption|]. lia.
Qed.
Example C73_example : exists A c A' c' V', counted_created = Ok (A, c) /\ sample_cruns 100 A c new_view (counted_ops_sample ++ [VFlush]) A' c' V' /\ sample_right A' /\
  get_count TEXT_PLAIN (ct_counts c') = 1 /\ get_count [109] (ct_counts c') = 0 /\ number (pages_of V' TEXT_PLAIN) 1 /\
  exists B, sample_open (fa_file A') false sample_simple sample_simple = Ok B /\ sample_right B.
Proof.
  destruct (counted_end_ok _ counted_sample_works) as (A & c & A' & c' & V' & E & R & RM & G1 & G2). destruct sample_zops_ok as (_ & _ & _ & FS & FM).
  destruct (C73_new_archive_partial sample_fuel passthrough plain_new plain_new_comp plain_comp plain_flush 6 KRemembering plain_stream 0 sample_feed sample_digest true (fun _ => ret tt) 3 plain_codec sample_hash
    50 sample_uuid sample_simple sample_mime 100 A c counted_ops_sample A' c' V' false sample_simple sample_simple ltac:(lia) eq_refl FS FM E R ltac:(vm_compute; discriminate) RM) as (_ & N & _ & CR & B & EB & _ & _ & CB).
  exists A, c, A', c', V'. split; [exact E|]. split; [exact R|]. split; [exact CR|]. split; [exact G1|]. split; [exact G2|]. split; [rewrite <- G1; apply N|]. exists B. auto.
Qed.
(** The archive that is opened from that file, with its counter. *)
Example C73_again_example : exists A' c' V' B cells L, laid_out plain_stream (Some 50) B cells L /\ sample_open (fa_file A') true sample_simple sample_simple = Ok B /\
  fresh_strategy (zs_comp (fa_state B)) /\ fresh_strategy (zs_plain (fa_state B)) /\ fa_redirects B = [] /\ fa_main B = None /\ (is_dirty B = false -> settled B) /\
  shows sample_fuel passthrough plain_new KRemembering B V' /\ counter_loaded c' V' /\ get_count TEXT_PLAIN (ct_counts c') = 1.
Proof.
  destruct (counted_end_ok _ counted_sample_works) as (A & c & A' & c' & V' & E & R & RM & G1 & G2). destruct sample_zops_ok as (_ & _ & _ & FS & FM).
  destruct (new_archive_again sample_fuel passthrough plain_new plain_new_comp plain_comp plain_flush 6 KRemembering plain_stream 0 sample_feed sample_digest true (fun _ => ret tt) 3 plain_codec sample_hash
    50 sample_uuid sample_simple sample_mime 100 A c counted_ops_sample A' c' V' sample_simple sample_simple ltac:(lia) eq_refl FS FM E R ltac:(vm_compute; discriminate) FS FS) as (B & cells & L & EB & LB & Q).
  exists A', c', V', B, cells, L. split; [exact LB|]. split; [exact EB|]. intuition.
Qed.

Print Assumptions C73_counter_partial.
Print Assumptions C73_new_archive_partial.
Print Assumptions C73_refuted.
Print Assumptions C73_example.
Print Assumptions C73_again_example.
