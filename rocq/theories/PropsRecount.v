(** C73, continued: archives whose counter is missing or cannot be read.  The
    entries are counted again when the archive is opened. *)
From Coq Require Import List ZArith Bool Lia Permutation.
From Coq Require Import ZifyBool ZifyNat.
From Coq Require Import Strings.Byte.
From Verif Require Import Base BaseProofs Utf8 Utf8Proofs Dict Infobyte Header HeaderSpec HeaderProofs MimeTypeList MimeTypeListSpec MimeTypeListProofs PointerList PointerListProofs
  SpaceAllocator SpaceAllocatorSpec SpaceAllocatorProofs Entry EntrySpec EntryProofs Reader ReaderSpec Blob Cluster ClusterSpec ClusterProofs ClusterWrapper ClusterWrapperSpec ClusterWrapperProofs
  Archive ArchiveSpec ArchiveProofs ArchiveWriteProofs ArchiveMoveProofs ArchiveRemoveProofs ArchiveObserve ArchiveFacts ArchiveLaws ArchiveEdit ArchiveCluster ArchiveClusterSpec ArchiveClusterProofs ArchiveFrame ArchiveEntryCluster ArchiveEditCluster
  CompressionStrategy CompressionStrategySpec CompressionStrategyProofs OperationBuffer OperationBufferSpec OperationBufferProofs EntryObject EntryObjectSpec EntryObjectProofs
  Flush FlushSpec FlushProofs FlushTailProofs FlushOpenProofs FlushCreateProofs FlushHistorySpec FlushHistoryProofs ViewSpec ViewProofs ViewEditProofs ViewStepProofs ViewWaitProofs ViewHistoryProofs
  Counter CounterSpec CounterProofs CountedArchive CountedSpec CountedProofs CountedStrategyProofs CountedStepProofs CountedHistoryProofs PropsArchiveCluster PropsCompressionStrategy PropsFlush PropsView PropsCounted.
Import ListNotations.
Open Scope Z_scope.

(** ** Counting the entries *)
Definition counted_in (ml : mlist) (l : list entry) (m u : ustr) : Prop := exists e, In e l /\ full_url e = u /\ counts_entry e = true /\ mime_of ml e = Ok m.
Lemma count_all_tally : forall ml l P n n', NoDup (map full_url l) -> (forall e m, In e l -> ~ P m (full_url e)) -> tally P n -> count_all ml l n = Ok n' ->
  tally (fun m u => P m u \/ counted_in ml l m u) n' /\ (forall e, In e l -> counts_entry e = true -> exists m, mime_of ml e = Ok m).
Proof.
  intros ml. induction l as [|e l IH]; intros P n n' ND FR T E; cbn [count_all] in E.
  - injection E as <-. split; [|intros e []]. eapply tally_ext; [|exact T]. intros m u. split; [auto|intros [Q|(e & [] & _)]; exact Q].
  - cbn [map] in ND. inversion ND as [|? ? NI ND1]; subst.
    assert (NU : forall e1, In e1 l -> full_url e1 <> full_url e) by (intros e1 H1 Q; apply NI; rewrite <- Q; apply in_map; exact H1).
    destruct (counts_entry e) eqn:EC.
    + destruct (mime_of ml e) as [m0|x] eqn:EM; cbn [bind] in E; [|discriminate E].
      pose proof (tally_new P n T (full_url e) m0 (fun m => FR e m (or_introl eq_refl))) as T1.
      destruct (fun F => IH _ _ _ ND1 F T1 E) as (T2 & MI).
      { intros e1 m H1 [(Q & _)|(Q & _)]; [exact (FR e1 m (or_intror H1) Q)|exact (NU e1 H1 Q)]. }
      split.
      * eapply tally_ext; [|exact T2]. intros m u. cbn. split.
        -- intros [[(Q & _)|(-> & ->)]|(e1 & H1 & Q)]; [auto| |].
           ++ right. exists e. cbn. auto.
           ++ right. exists e1. cbn. auto.
        -- intros [Q|(e1 & [<-|H1] & <- & C1 & M1)].
           ++ left. left. split; [exact Q|]. intros ->. exact (FR e m (or_introl eq_refl) Q).
           ++ left. right. split; [reflexivity|congruence].
           ++ right. exists e1. auto.
      * intros e1 [<-|H1] C1; [eauto|auto].
    + destruct (IH P n n' ND1) as (T2 & MI); [intros e1 m H1; apply FR; right; exact H1|exact T|exact E|]. split.
      * eapply tally_ext; [|exact T2]. intros m u. cbn. split.
        -- intros [Q|(e1 & H1 & Q)]; [auto|]. right. exists e1. cbn. auto.
        -- intros [Q|(e1 & [<-|H1] & Q1 & C1 & M1)]; [auto|congruence|]. right. exists e1. auto.
      * intros e1 [<-|H1] C1; [congruence|auto].
Qed.
Lemma empty_tally : tally (fun _ _ => False) [].
Proof. split; [constructor|]. intro m. exists []. split; [constructor|]. split; [intro u; reflexivity|reflexivity]. Qed.
Lemma recount : forall s E ml n, consistent s E -> count_all ml E [] = Ok n -> accounted s (ml_types ml) n.
Proof.
  intros s E ml n C H. destruct (count_all_tally ml E (fun _ _ => False) [] n (consistent_nodup _ _ C) (fun _ _ _ Q => Q) empty_tally H) as (T & MI).
  assert (KE : forall e c b, In e E -> e_kind e = Content c b -> mime_of ml e = (do t <- mt_get (e_mimetype e) (ml_types ml) ;; decode t)) by (intros e c b He K; exact (mime_of_content ml e c b (consistent_kind _ _ _ C He) K)).
  assert (CE : forall e, In e E -> (counts_entry e = true <-> in_C (full_url e) = true /\ exists c b, e_kind e = Content c b)).
  { intros e He. apply counts_entry_iff; [exact (ArchiveFacts.consistent_storable _ _ _ C He)|exact (consistent_kind _ _ _ C He)]. }
  split.
  - eapply tally_ext; [|exact T]. intros m u. split.
    + intros [[]|(e & He & <- & Ce & Me)]. apply CE in Ce as (IC & c & b & K); [|exact He]. rewrite (KE e c b He K) in Me. split; [exact IC|].
      destruct (mt_get (e_mimetype e) (ml_types ml)) as [t|] eqn:EM; [|discriminate Me]. exists e, c, b, t. split; [apply (lookup_iff _ _ _ _ C); auto|]. auto.
    + intros (IC & e & c & b & t & G & K & M & DE). apply (lookup_iff _ _ _ _ C) in G as (He & <-). right. exists e. split; [exact He|]. split; [reflexivity|]. split; [apply CE; [exact He|]; eauto|].
      rewrite (KE e c b He K), M. exact DE.
  - intros u e c b IC G K. apply (lookup_iff _ _ _ _ C) in G as (He & <-). destruct (MI e He) as (m & Me); [apply CE; [exact He|]; eauto|]. rewrite (KE e c b He K) in Me.
    destruct (mt_get (e_mimetype e) (ml_types ml)) as [t|]; [eauto|discriminate Me].
Qed.

Section Recount.
Variable fuel : nat.
Context {D : Type}.
Variable dc : decomp D.
Variable new_decomp : ctype -> res D.
Context {K : Type}.
Variable new_comp : ctype -> res K.
Variable comp : K -> bytes -> res (bytes * K).
Variable flush : K -> res bytes.
Variable depth : nat.
Variable kd : ckind.
Variable Stream : ctype -> bytes -> bytes -> Prop.
Context {H : Type}.
Variable md5 : H.
Variable feed : H -> bytes -> H.
Variable digest : H -> bytes.
Variable truncate : bool.
Variable process_blob : entry -> M zim unit.
Variable rounds : nat.
Hypothesis CD : codec_ok dc new_decomp new_comp comp flush Stream.
Hypothesis HO : hash_ok feed digest.
Notation runs reserve := (cruns fuel dc new_decomp new_comp comp flush depth kd Stream md5 feed digest reserve truncate process_blob rounds).
Notation opens := (open_zim fuel dc new_decomp new_comp comp flush depth kd).
Notation shows := (shows fuel dc new_decomp kd).
Notation stored_counts := (load_counts fuel dc new_decomp kd).
Notation counter_right := (counter_right fuel dc new_decomp kd).

Lemma load_cases : forall A c, load_counter fuel dc new_decomp kd A = Ok c ->
  (stored_counts A = Ok (ct_counts c) /\ ct_dirty c = false) \/
  (ct_dirty c = true /\ (exists x, stored_counts A = Err x) /\ exists l, iter_entries (fa_zim A) None None = Ok l /\ count_all (fa_mimes A) l [] = Ok (ct_counts c)).
Proof.
  intros A c E. unfold load_counter in E. destruct (stored_counts A) as [n|x]; [injection E as <-; auto|].
  assert (Q : (do l <- iter_entries (fa_zim A) None None ;; do n <- count_all (fa_mimes A) l [] ;; Ok (mkCounter n true)) = Ok c) by (destruct x; first [exact E|discriminate E]). clear E.
  destruct (iter_entries _ _ _) as [l|]; [|discriminate Q]. cbn [bind] in Q. destruct (count_all _ _ _) as [n|] eqn:E; [|discriminate Q]. injection Q as <-. right. cbn. eauto 8.
Qed.

(** *** The counter that an archive is opened with is the stored one; if that is
    missing or cannot be read, it is the number of content entries of every
    mimetype, and it is to be stored. *)
Theorem C73_load_counter : forall reserve A cells L c, laid_out Stream reserve A cells L -> load_counter fuel dc new_decomp kd A = Ok c ->
  (ct_dirty c = false -> stored_counts A = Ok (ct_counts c)) /\
  (ct_dirty c = true -> (exists x, stored_counts A = Err x) /\ forall m, number (content_entry A m) (get_count m (ct_counts c))).
Proof.
  intros reserve A cells L c LO E. destruct (load_cases A c E) as [(E1 & E2)|(E1 & E2 & l & E3 & E4)]; (split; intro Q; [congruence || exact E1|]); [congruence|].
  split; [exact E2|]. intro m. pose proof (laid_consistent _ _ _ _ _ LO) as C. rewrite (entries_ok _ _ C) in E3. injection E3 as <-. destruct (recount _ _ _ _ C E4) as ((_ & T) & _). exact (T m).
Qed.

(** ** The placeholder *)
Lemma fresh_add_keeps : forall it s x s' y, fresh_strategy x -> any_add fuel new_comp comp flush depth it (s, x) = (Ok tt, (s', y)) -> sa_arch s' = sa_arch s.
Proof.
  assert (TE : forall it s e s', CompressionStrategy.to_entry it s = (Ok e, s') -> sa_arch s' = sa_arch s).
  { intros it s e s' Q. unfold CompressionStrategy.to_entry in Q. repeat match type of Q with context [match ?x with _ => _ end] => destruct x; try discriminate Q end; injection Q as _ <-; reflexivity. }
  assert (AK : forall it s c max s' st', add_item fuel new_comp comp flush depth it (s, strat_new c max) = (Ok tt, (s', st')) -> sa_arch s' = sa_arch s).
  { intros it s c max s' st' Q. unfold add_item, new_cluster_needed in Q. cbn [strat_new st_entries st_comp st_max st_cluster] in Q.
    destruct (CompressionStrategy.to_entry it s) as [[e|] s1] eqn:ET; [|discriminate Q]. destruct (append_blob _ _ _) as [[num|] w]; [|discriminate Q]. destruct (set_blob_number num e); [|discriminate Q]. injection Q as <- _. exact (TE _ _ _ _ ET). }
  intros it s x s' y (c & max & [ -> | -> ]) E; cbn [any_add] in E.
  - destruct (add_item _ _ _ _ _ _ _) as [r [s1 st1]] eqn:EA. injection E as -> <- _. exact (AK _ _ _ _ _ _ EA).
  - unfold add_item_m in E. change (get_cs (it_mime it) (mkMstrat c max [])) with (strat_new c max) in E. destruct (add_item _ _ _ _ _ _ _) as [r [s1 st1]] eqn:EA. injection E as -> <- _. exact (AK _ _ _ _ _ _ EA).
Qed.

(** The table after opening: an empty MCounter waits to be written if there is none. *)
Definition opened_view (V : view) : view := match V URL_COUNTER with Some _ => V | None => vput URL_COUNTER (Some (page_of counter_item [])) V end.

(** What is known of the archive, whether or not it has to be flushed. *)
Record occore (reserve : option Z) (mx : Z) (A : farchive) (c : counter) cells L Pc Pp (V : view) : Prop := mkOccore {
  oc_core : wcore fuel Stream reserve mx A cells L Pc Pp V; oc_accd : accd A c; oc_page : counter_page c V; oc_few : waiting A Pc Pp <= 1 }.

Lemma recount_core : forall reserve mx n A0 cells L V0 sc0 sp0 A c, laid_out Stream reserve A0 cells L -> settled A0 -> within_limits fuel Stream reserve A0 -> shows A0 V0 ->
  fresh_strategy sc0 -> fresh_strategy sp0 -> limit_of sc0 <= mx -> limit_of sp0 <= mx ->
  (V0 URL_COUNTER = None \/ exists p t d x, V0 URL_COUNTER = Some p /\ pg_body p = Data t d /\ from_bytes d = Err x) ->
  count_open fuel dc new_decomp new_comp comp flush depth kd (fa_file A0) sc0 sp0 = Ok (A, c) -> 1 <= n -> ViewSpec.counts n A -> zlen (ml_types (fa_mimes A)) <= 65535 ->
  exists cells1 L1 Pc Pp, occore reserve mx A c cells1 L1 Pc Pp (opened_view V0) /\ (V0 URL_COUNTER <> None -> vclean A Pc Pp).
Proof.
  intros reserve mx n A0 cells L V0 sc0 sp0 A c LO SE ((F0 & FA & _) & MZ) SH F1 F2 M1 M2 BAD E HN CT MZ2. unfold count_open in E.
  destruct (open_settled fuel dc new_decomp new_comp comp flush depth kd Stream reserve md5 feed digest CD true sc0 sp0 A0 cells L LO SE (FA _ _ LO) F0) as (B & EO & SA & E1 & E2 & E3 & E4 & E5 & WR).
  destruct (WR eq_refl) as (LB & SB & _). rewrite EO in E. cbn [bind] in E. pose proof (same_shows fuel dc new_decomp kd A0 B _ SA SH) as SHB. pose proof (laid_consistent _ _ _ _ _ LB) as CB.
  destruct (load_counter fuel dc new_decomp kd B) as [c0|] eqn:EL; [|discriminate E]. cbn [bind] in E.
  assert (NLC : ~ listing (fa_zim B) URL_COUNTER) by (intros [Q|(Q & _)]; discriminate Q).
  assert (ER : exists x, stored_counts B = Err x).
  { pose proof (SHB URL_COUNTER NLC) as SC. destruct BAD as [BAD|(p & t & d & x & EV & BV & FB)].
    - rewrite BAD in SC. unfold load_counts. destruct (get_entry_by_full_url (fa_zim B) URL_COUNTER) as [e|x]; [elim (SC e eq_refl)|eexists; reflexivity].
    - rewrite EV in SC. destruct SC as (e & us & G & _ & _ & _ & BD). rewrite BV in BD. destruct BD as (cn & b & KE & _ & RD & _). unfold load_counts. rewrite G. cbn [bind]. rewrite KE, RD. cbn [bind]. rewrite FB. eauto. }
  destruct ER as (x & ER). destruct (load_cases B c0 EL) as [(Q & _)|(DI & _ & l & EI & EC)]; [congruence|]. rewrite (entries_ok _ _ CB) in EI. injection EI as <-. pose proof (recount _ _ _ _ CB EC) as AC.
  assert (T : table (fa_zim B) (map snd cells) (blobs_of L) (ml_types (fa_mimes B)) [] (fa_redirects B) V0).
  { rewrite E3. apply (shows_table fuel dc new_decomp new_comp comp flush kd Stream reserve md5 feed digest process_blob CD B cells L V0 LB); [|exact SHB].
    intros b Hb. change (ca_file (fa_arch B)) with (fa_file B). rewrite (sm_file _ _ SA). exact (FA _ _ LO b Hb). }
  assert (VC : wcore fuel Stream reserve mx B cells L [] [] V0).
  { constructor; [exact LB|rewrite E1; apply fresh_pendany; [exact F1|lia]|rewrite E2; apply fresh_pendany; [exact F2|lia]|constructor|left; exact E4|apply table_wtable; exact T]. }
  unfold with_counter in E. destruct (install fuel new_comp comp flush depth B) as [A1|] eqn:EN; [|discriminate E]. cbn [bind] in E. injection E as <- <-.
  unfold install in EN. unfold opened_view. destruct BAD as [BAD|(p & t & d & y & EV & BV & FB)].
  - rewrite BAD. destruct (has_entry_for_full_url (fa_zim B) URL_COUNTER) as [th|] eqn:HE; [|discriminate EN]. cbn [bind] in EN. destruct th.
    { exfalso. assert (CO : core (fa_zim B) cells) by (apply (ao_core _ _ _ _ (lo_arch _ _ _ _ _ LB))).
      assert (MS : url_pointer (fa_zim B) URL_COUNTER = Err KeyError).
      { rewrite url_pointer_index, (url_index_missing _ _ URL_COUNTER (enc URL_COUNTER) CO eq_refl); [reflexivity|]. intros k Hk Q. apply (in_map snd) in Hk. specialize (SHB URL_COUNTER NLC). rewrite BAD in SHB. apply (SHB (snd k)). apply (lookup_iff _ _ _ _ CB). auto. }
      unfold has_entry_for_full_url, has, has_gen in HE. unfold url_pointer, get in MS. destruct (encode URL_COUNTER) as [k|] eqn:EE; [|vm_compute in EE; discriminate EE]. cbn [bind] in *. rewrite MS in HE. discriminate HE. }
    destruct (fa_add_item fuel new_comp comp flush depth counter_item false B) as [[[]|] A2] eqn:EA1; [|discriminate EN]. cbn [bind] in EN. injection EN as ->.
    assert (KP : fa_arch A1 = fa_arch B /\ mextends (fa_mimes B) (fa_mimes A1) /\ fa_header A1 = fa_header B).
    { unfold fa_add_item in EA1. destruct (zim_add_item _ _ _ _ _ _ _ _) as [[[]|] z] eqn:EZ; [|discriminate EA1]. injection EA1 as <-. unfold zim_add_item in EZ. cbn [negb] in EZ. destruct (any_add _ _ _ _ _ _ _) as [r [s y]] eqn:EY. injection EZ as -> <-.
      rewrite E1 in EY. split; [exact (fresh_add_keeps _ _ _ _ _ F1 EY)|]. split; [exact (any_add_mimes _ _ _ _ _ _ _ _ _ _ _ EY)|reflexivity]. }
    destruct KP as (KA & (tt' & KM) & KH).
    assert (CN : ViewSpec.counts 1 B).
    { unfold ViewSpec.counts in *. change (fa_zim (fa_set_dirty false A1)) with (ca_zim (fa_arch A1)) in CT. change (fa_arch (fa_set_dirty false A1)) with (fa_arch A1) in CT. rewrite KA in CT. change (ca_zim (fa_arch B)) with (fa_zim B) in CT. lia. }
    assert (IO : item_ok fuel counter_item []) by (split; [reflexivity|]; split; [apply mem_delivers; change (zlen (@nil byte)) with 0; lia|intro Q; discriminate Q]).
    destruct (wadd_step fuel dc new_decomp new_comp comp flush depth kd Stream reserve md5 feed digest truncate process_blob rounds CD mx B cells L [] [] V0 1 counter_item [] false A1 VC CN) as (cells1 & L1 & Pc1 & Pp1 & VC1 & _ & RE & ZP).
    { rewrite E3. cbn. lia. } { split; [exact IO|]. split; [exact NLC|left; exact BAD]. } { exact MZ2. } { exact EA1. }
    change (item_url counter_item) with URL_COUNTER in VC1. assert (FR : fa_redirects A1 = []) by congruence.
    exists cells1, L1, Pc1, Pp1. split; [|intro Q; elim Q; reflexivity]. constructor.
    + destruct VC1 as [LO1 PC PP TY MN T1]. constructor; try assumption. eapply laid_alike; [| | |exact LO1]; reflexivity.
    + unfold accd. change (fa_zim (fa_set_dirty false A1)) with (ca_zim (fa_arch A1)). rewrite KA. change (fa_mimes (fa_set_dirty false A1)) with (fa_mimes A1). rewrite KM. apply accounted_more. exact AC.
    + exists (page_of counter_item []), (encoded TEXT_PLAIN), []. split; [apply vput_same|]. split; [reflexivity|]. intro Q. congruence.
    + unfold waiting. cbn [fa_redirects fa_set_dirty]. rewrite FR. change (zlen (@nil rop)) with 0. change (zlen (@nil pitem ++ [])) with 0 in ZP. lia.
  - rewrite EV. assert (HE : has_entry_for_full_url (fa_zim B) URL_COUNTER = Ok true).
    { specialize (SHB URL_COUNTER NLC). rewrite EV in SHB. destruct SHB as (e & us & G & _). exact (has_ext _ _ _ e eq_refl eq_refl G). }
    rewrite HE in EN. cbn [bind] in EN. injection EN as <-.
    assert (EB : fa_set_dirty false B = B) by (destruct B as [z h db r mm]; unfold is_dirty in E5; cbn [fa_dirty] in E5; destruct db; [discriminate E5|reflexivity]). rewrite EB in *.
    exists cells, L, [], []. split; [|intros _ _; auto]. constructor.
    + exact VC.
    + exact AC.
    + exists p, t, d. split; [exact EV|]. split; [exact BV|]. intro Q. congruence.
    + unfold waiting. cbn [fa_redirects fa_set_dirty]. rewrite E3. cbn. lia.
Qed.

(** *** C73 for an archive whose counter is missing or cannot be read: it is
    opened, changed and flushed; the text in MCounter is right then. *)
Theorem C73_recounted_partial : forall reserve n A0 cells L V0 sc0 sp0 A c ops A' c' V' w sc sp,
  laid_out Stream reserve A0 cells L -> settled A0 -> within_limits fuel Stream reserve A0 -> shows A0 V0 -> fresh_strategy sc0 -> fresh_strategy sp0 ->
  (V0 URL_COUNTER = None \/ exists p t d x, V0 URL_COUNTER = Some p /\ pg_body p = Data t d /\ from_bytes d = Err x) ->
  count_open fuel dc new_decomp new_comp comp flush depth kd (fa_file A0) sc0 sp0 = Ok (A, c) ->
  (V0 URL_COUNTER = None -> is_dirty A = false -> exists it d u ops', ops = VAdd it d u :: ops') ->
  runs reserve n A c (opened_view V0) (ops ++ [VFlush]) A' c' V' -> 1 + vadds ops <= n -> readable_mimes V' ->
  beside_counter (vsteps (opened_view V0) ops) V' /\ (forall m, number (pages_of V' m) (get_count m (ct_counts c'))) /\ shows A' V' /\ counter_right A' /\
  exists B, opens (fa_file A') w sc sp = Ok B /\ same_archive A' B /\ shows B V' /\ counter_right B.
Proof.
  intros reserve n A0 cells L V0 sc0 sp0 A c ops A' c' V' w sc sp LO SE WL SH F1 F2 BAD EO FST R Z RM. set (mx := Z.max (Z.max (limit_of sc0) (limit_of sp0)) (vhighest (ops ++ [VFlush]))).
  assert (LM : Forall (vlimited mx) (ops ++ [VFlush])) by (eapply vlimited_more; [|apply vhighest_limits]; lia).
  pose proof vadds_pos as ZV.
  pose proof R as R0. apply cruns_begin in R0 as (SU & MZ2).
  assert (CT : ViewSpec.counts n A) by (inversion R; assumption).
  destruct (recount_core reserve mx n A0 cells L V0 sc0 sp0 A c LO SE WL SH F1 F2 ltac:(lia) ltac:(lia) BAD EO) as (cells1 & L1 & Pc & Pp & [VC AC CP FW] & CL); [pose proof (ZV ops); lia|exact CT|exact MZ2|].
  assert (CS : vclean A Pc Pp \/ exists it d u ops', ops = VAdd it d u :: ops').
  { destruct (V0 URL_COUNTER) as [p|]; [left; apply CL; discriminate|]. destruct (is_dirty A) eqn:ED; [left; intro Q; congruence|right; exact (FST eq_refl eq_refl)]. }
  destruct CS as [CV|(it & d & un & ops' & ->)].
  - eapply (counted_ends fuel dc new_decomp new_comp comp flush depth kd Stream md5 feed digest truncate process_blob rounds CD HO reserve mx n A c _ ops A' c' V' cells1 L1 Pc Pp w sc sp R); [constructor; assumption|lia|exact LM|exact RM].
  - cbn [app] in R, LM. inversion R as [|? ? ? ? A1 c1 ? ? ? ? W _ OK E R1]; subst. inversion LM as [|? ? _ LM1]; subst. destruct OK as ((OK & NR) & UT & _). rewrite vadds_cons in Z. change (vadds [VAdd it d un]) with 1 in Z. pose proof (ZV ops'). unfold waiting in FW.
    pose proof R1 as R2. apply cruns_begin in R2 as (_ & B2). cbn [count_op] in E.
    pose proof (zlen_nonneg (Pc ++ Pp)) as ZP. pose proof (zlen_nonneg (fa_redirects A)) as ZR.
    destruct (add_counted fuel dc new_decomp new_comp comp flush depth kd Stream reserve md5 feed digest truncate process_blob rounds CD mx A cells1 L1 Pc Pp _ n it d un c A1 c1 VC CT ltac:(lia) B2 AC E) as (E2 & AC' & NT).
    cbn [perform_vop] in E2.
    destruct (wadd_step fuel dc new_decomp new_comp comp flush depth kd Stream reserve md5 feed digest truncate process_blob rounds CD mx A cells1 L1 Pc Pp _ n it d un A1 VC CT ltac:(lia) OK B2 E2) as (cells2 & L2 & Pc2 & Pp2 & VC2 & CL2 & ER & Z2).
    eapply (counted_ends fuel dc new_decomp new_comp comp flush depth kd Stream md5 feed digest truncate process_blob rounds CD HO reserve mx n A1 c1 _ ops' A' c' V' cells2 L2 Pc2 Pp2 w sc sp R1); [|unfold waiting; rewrite ER; lia|exact LM1|exact RM].
    constructor; try assumption. eapply noticed_page; [exact NT| |exact CP]. apply vput_other. cbn [untouched] in UT. congruence.
Qed.
End Recount.

(** ** Two concrete archives: one has no counter, the text in the counter of the
    other one cannot be read; then an item is added. *)
Definition bad_counter : item := mkItem NS_M (skipn 1 URL_COUNTER) TEXT_PLAIN (mem_source [x78]) None false.
Lemma bad_counter_ok : item_ok 200 bad_counter [x78].
Proof. split; [reflexivity|]. split; [apply mem_delivers; reflexivity|intro Q; discriminate Q]. Qed.
Definition without_counter : list vop := [VAdd item_b [x42] false].
Definition with_bad_counter : list vop := [VAdd item_b [x42] false; VAdd bad_counter [x78] false].
Definition later_ops : list vop := [VAdd item_a [x41] false].
Lemma created_laid : forall ops A A', sample_created = Ok A -> sample_vruns 100 A empty_view (ops ++ [VFlush]) A' -> vadds ops <= 100 ->
  exists cells L, laid_out plain_stream (Some 50) A' cells L /\ settled A' /\ within_limits sample_fuel plain_stream (Some 50) A' /\ shows sample_fuel passthrough plain_new KRemembering A' (vsteps empty_view ops).
Proof.
  intros ops A A' E R Z. destruct sample_zops_ok as (_ & _ & _ & FS & FM). destruct (vruns_ends _ _ _ _ _ _ _ _ _ _ _ _ _ _ _ _ _ _ _ _ _ R) as (((F0 & FA & _) & _) & W').
  set (mx := Z.max 10 (vhighest (ops ++ [VFlush]))).
  destruct (created sample_fuel passthrough plain_new plain_new_comp plain_comp plain_flush 6 plain_stream plain_codec mx 50 ltac:(lia) F0 sample_uuid sample_simple sample_mime A eq_refl FS FM) as (cells & L & LO & P1 & P2 & B1 & B2 & DI & EU & EA & ZL & UU); [unfold mx; cbn; lia|unfold mx; cbn; lia|exact E|].
  pose proof (ao_entries _ _ _ _ (lo_arch _ _ _ _ _ LO)) as CS.
  assert (SH : shows sample_fuel passthrough plain_new KRemembering A empty_view).
  { intros x NL e G. apply (lookup_iff _ _ _ _ CS) in G as (G1 & G2). apply (in_map full_url) in G1. rewrite EU, G2 in G1. destruct G1 as [G1|[]]. apply NL. left. congruence. }
  assert (T : table (fa_zim A) (map snd cells) (blobs_of L) (ml_types (fa_mimes A)) [] (fa_redirects A) empty_view).
  { rewrite B1. exact (shows_table sample_fuel passthrough plain_new plain_new_comp plain_comp plain_flush KRemembering plain_stream (Some 50) 0 sample_feed sample_digest (fun _ => ret tt) plain_codec A cells L empty_view LO (FA _ _ LO) SH). }
  destruct (view_history sample_fuel passthrough plain_new plain_new_comp plain_comp plain_flush 6 KRemembering plain_stream (Some 50) 0 sample_feed sample_digest true (fun _ => ret tt) 3 plain_codec sample_hash mx 100 A empty_view ops VFlush A' cells L R I LO P1 P2) as (cells1 & L1 & VC & S1 & R1).
  { split; assumption. } { intro Q. congruence. } { exact T. } { exact Z. } { eapply vlimited_more; [|apply vhighest_limits]. unfold mx. lia. }
  pose proof (vc_laid _ _ _ _ _ _ _ _ _ _ VC) as LO1. pose proof (vc_table _ _ _ _ _ _ _ _ _ _ VC) as T1. rewrite R1 in T1. exists cells1, L1. split; [exact LO1|]. split; [exact S1|]. split; [exact W'|].
  exact (table_shows sample_fuel passthrough plain_new plain_new_comp plain_comp plain_flush KRemembering plain_stream (Some 50) (fun _ => ret tt) plain_codec A' cells1 L1 _ LO1 (proj1 (proj2 (proj1 W')) _ _ LO1) T1).
Qed.
Notation sample_count_open := (count_open sample_fuel passthrough plain_new plain_new_comp plain_comp plain_flush 6 KRemembering).
(** Two entries of mimetype "m" are counted at the end; before that, the counter
    that is loaded counts one and is to be stored. *)
Definition recounted_works (pre : list vop) (r : res farchive) : bool :=
  match r with
  | Ok A => match sample_vrun 100 counted_dom A empty_view (pre ++ [VFlush]) with
            | Some A1 => match sample_count_open (fa_file A1) sample_simple sample_simple with
                         | Ok (A2, c) => ct_dirty c && (get_count [109] (ct_counts c) =? 1) &&
                             match sample_crun 100 counted_dom A2 c (opened_view (vsteps empty_view pre)) (later_ops ++ [VFlush]) with
                             | Some (_, c', V') => readable_b V' counted_dom && (get_count [109] (ct_counts c') =? 2)
                             | None => false
                             end
                         | Err _ => false
                         end
            | None => false
            end
  | Err _ => false
  end.
Lemma recounted_ok : forall pre r, r = sample_created -> recounted_works pre r = true -> incl (touches empty_view (pre ++ [VFlush])) counted_dom -> Forall side_ok (pre ++ [VFlush]) -> vadds pre <= 100 ->
  let V0 := vsteps empty_view pre in
  (V0 URL_COUNTER = None \/ exists p t d x, V0 URL_COUNTER = Some p /\ pg_body p = Data t d /\ from_bytes d = Err x) ->
  exists A0 A c A' c' V', sample_count_open (fa_file A0) sample_simple sample_simple = Ok (A, c) /\ ct_dirty c = true /\ get_count [109] (ct_counts c) = 1 /\
    sample_cruns 100 A c (opened_view V0) (later_ops ++ [VFlush]) A' c' V' /\ sample_right A' /\ get_count [109] (ct_counts c') = 2 /\ number (pages_of V' [109]) 2 /\
    exists B, sample_open (fa_file A') false sample_simple sample_simple = Ok B /\ sample_right B.
Proof.
  intros pre r ER Q HT SO ZP V0 BAD. unfold recounted_works in Q. destruct r as [A|] eqn:EA; [|discriminate Q]. destruct (sample_vrun 100 counted_dom A empty_view (pre ++ [VFlush])) as [A0|] eqn:E0; [|discriminate Q].
  destruct (sample_count_open (fa_file A0) sample_simple sample_simple) as [[A1 c]|] eqn:E1; [|discriminate Q]. apply andb_true_iff in Q as (Q & Q3). apply andb_true_iff in Q as (Q1 & Q2). fold V0 in Q3.
  destruct (sample_crun 100 counted_dom A1 c (opened_view V0) (later_ops ++ [VFlush])) as [[[A' c'] V']|] eqn:E2; [|discriminate Q3]. apply andb_true_iff in Q3 as (Q3 & Q4).
  assert (R0 : sample_vruns 100 A empty_view (pre ++ [VFlush]) A0) by (eapply (sample_vrun_ok 100 counted_dom); [intros x N; elim N; reflexivity|exact HT|exact SO|exact E0]).
  destruct (created_laid pre A A0 (eq_sym ER) R0 ZP) as (cells & L & LO & SE & WL & SH). fold V0 in SH. destruct sample_zops_ok as (_ & _ & _ & FS & FM).
  assert (HD0 : forall x, V0 x <> None -> In x counted_dom).
  { intros x N. apply HT. assert (EV : vsteps empty_view (pre ++ [VFlush]) x = V0 x) by (unfold V0, vsteps; rewrite fold_left_app; reflexivity). destruct (touches_ok (pre ++ [VFlush]) empty_view x) as [T|T]; [congruence|exact T|elim T; reflexivity]. }
  destruct (sample_crun_ok 100 counted_dom (later_ops ++ [VFlush]) A1 c (opened_view V0) A' c' V') as (R & HD); [| | |exact E2|].
  - intros x N. unfold opened_view in N. destruct (V0 URL_COUNTER); [auto|]. apply vput_some in N as [ -> |N]; [cbn; auto|auto].
  - repeat (constructor; [cbn [within]; try exact I; vm_compute; auto 8|]). constructor.
  - assert (LE : (200 <= sample_fuel)%nat) by (unfold sample_fuel; lia). repeat (constructor; [cbn [side_ok]; first [exact I|eapply larger_ok; [exact item_a_ok|exact LE]]|]). constructor.
  - destruct (C73_recounted_partial sample_fuel passthrough plain_new plain_new_comp plain_comp plain_flush 6 KRemembering plain_stream 0 sample_feed sample_digest true (fun _ => ret tt) 3 plain_codec sample_hash
      (Some 50) 100 A0 cells L V0 sample_simple sample_simple A1 c later_ops A' c' V' false sample_simple sample_simple LO SE WL SH FS FS BAD E1) as (_ & N & _ & CR & B & EB & _ & _ & CB); [|exact R|vm_compute; discriminate|eapply readable_ok; eassumption|].
    + intros _ _. unfold later_ops. eauto.
    + apply Z.eqb_eq in Q2, Q4. exists A0, A1, c, A', c', V'. split; [exact E1|]. split; [exact Q1|]. split; [exact Q2|]. split; [exact R|]. split; [exact CR|]. split; [exact Q4|]. split; [rewrite <- Q4; apply N|]. exists B. auto.
Qed.
Lemma without_works : recounted_works without_counter sample_created = true.
Proof. vm_compute. reflexivity. Qed.
Lemma bad_works : recounted_works with_bad_counter sample_created = true.
Proof. vm_compute. reflexivity. Qed.
Example C73_without_counter_example : exists A0 A c A' c' V', sample_count_open (fa_file A0) sample_simple sample_simple = Ok (A, c) /\ ct_dirty c = true /\ get_count [109] (ct_counts c) = 1 /\
  sample_cruns 100 A c (opened_view (vsteps empty_view without_counter)) (later_ops ++ [VFlush]) A' c' V' /\ sample_right A' /\ get_count [109] (ct_counts c') = 2 /\ number (pages_of V' [109]) 2 /\
  exists B, sample_open (fa_file A') false sample_simple sample_simple = Ok B /\ sample_right B.
Proof.
  apply (recounted_ok without_counter sample_created eq_refl without_works).
  - intros x Q. vm_compute in Q. vm_compute. tauto.
  - assert (LE : (200 <= sample_fuel)%nat) by (unfold sample_fuel; lia). repeat (constructor; [cbn [side_ok]; first [exact I|eapply larger_ok; [exact item_b_ok|exact LE]]|]). constructor.
  - vm_compute. discriminate.
  - left. reflexivity.
Qed.
Example C73_bad_counter_example : exists A0 A c A' c' V', sample_count_open (fa_file A0) sample_simple sample_simple = Ok (A, c) /\ ct_dirty c = true /\ get_count [109] (ct_counts c) = 1 /\
  sample_cruns 100 A c (opened_view (vsteps empty_view with_bad_counter)) (later_ops ++ [VFlush]) A' c' V' /\ sample_right A' /\ get_count [109] (ct_counts c') = 2 /\ number (pages_of V' [109]) 2 /\
  exists B, sample_open (fa_file A') false sample_simple sample_simple = Ok B /\ sample_right B.
Proof.
  apply (recounted_ok with_bad_counter sample_created eq_refl bad_works).
  - intros x Q. vm_compute in Q. vm_compute. tauto.
  - assert (LE : (200 <= sample_fuel)%nat) by (unfold sample_fuel; lia). repeat (constructor; [cbn [side_ok]; first [exact I|eapply larger_ok; [first [exact item_b_ok|exact bad_counter_ok]|exact LE]]|]). constructor.
  - vm_compute. discriminate.
  - right. exists (page_of bad_counter [x78]), (encoded TEXT_PLAIN), [x78], ValueError. split; [reflexivity|]. split; reflexivity.
Qed.

Print Assumptions C73_load_counter.
Print Assumptions C73_recounted_partial.
Print Assumptions C73_without_counter_example.
Print Assumptions C73_bad_counter_example.
