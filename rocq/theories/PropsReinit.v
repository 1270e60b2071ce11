(** C89: a counter that is built by going through the archive counts right. *)
From Coq Require Import List ZArith Bool Lia Sorting.Sorted.
From Coq Require Import ZifyBool ZifyNat.
From Coq Require Import Strings.Byte.
From Verif Require Import Base BaseProofs Utf8 Utf8Proofs Dict Infobyte Header MimeTypeList PointerList SpaceAllocator Entry EntrySpec Reader Cluster ClusterWrapper ClusterSpec ClusterWrapperSpec ClusterWrapperProofs
  Archive ArchiveSpec ArchiveProofs ArchiveFacts ArchiveCluster ArchiveClusterSpec CompressionStrategy CompressionStrategySpec OperationBuffer EntryObject Flush FlushSpec FlushTailProofs FlushOpenProofs FlushCreateProofs
  FlushHistorySpec FlushHistoryProofs ViewSpec ViewProofs ViewStepProofs ViewHistoryProofs
  Counter CounterSpec CounterProofs CountedArchive CountedSpec CountedProofs CountedHistoryProofs ReadOnly PropsArchiveCluster PropsCompressionStrategy PropsFlush PropsView PropsCounted PropsIteration PropsReadOnly.
Import ListNotations.
Open Scope Z_scope.

(** ** The loop *)
Definition counted_as (ml : mlist) (m : ustr) (e : entry) : Prop := counts_entry e = true /\ mime_of ml e = Ok m.
Lemma count_all_numbers : forall ml l c, NoDup (map full_url l) -> (forall e, In e l -> counts_entry e = true -> exists m, mime_of ml e = Ok m) ->
  exists n, count_all ml l c = Ok n /\ forall m, exists us, NoDup us /\ (forall u, In u us <-> exists e, In e l /\ full_url e = u /\ counted_as ml m e) /\ get_count m n = get_count m c + zlen us.
Proof.
  intros ml l. induction l as [|e l IH]; intros c ND RD; cbn [count_all].
  - exists c. split; [reflexivity|]. intro m. exists []. split; [constructor|]. split; [|cbn; lia]. intro u. split; [intros []|intros (e & [] & _)].
  - cbn [map] in ND. inversion ND as [|x y NI ND']; subst. destruct (counts_entry e) eqn:CE.
    + destruct (RD e (or_introl eq_refl) CE) as (m0 & M0). rewrite M0. cbn [bind]. destruct (IH (increment m0 c) ND' (fun e' I => RD e' (or_intror I))) as (n & E & N). exists n. split; [exact E|]. intro m.
      destruct (N m) as (us & NU & HU & GC). rewrite get_increment in GC. destruct (ueqb m0 m) eqn:EM.
      * apply ueqb_eq in EM. subst m0. exists (full_url e :: us). split; [|split].
        -- constructor; [|exact NU]. intro Q. apply HU in Q as (e' & I & U & _). apply NI. rewrite <- U. apply in_map. exact I.
        -- intro u. cbn [In]. rewrite HU. split.
           ++ intros [ <- |(e' & I & U & Q)]; [exists e; split; [left; reflexivity|]; split; [reflexivity|]; split; assumption|exists e'; auto].
           ++ intros (e' & [ <- |I] & U & Q); [left; exact U|right; exists e'; auto].
        -- rewrite zlen_cons. lia.
      * exists us. split; [exact NU|]. split; [|lia]. intro u. rewrite HU. split.
        -- intros (e' & I & Q). exists e'. split; [right; exact I|exact Q].
        -- intros (e' & [ <- |I] & U & Q); [|exists e'; auto]. destruct Q as (_ & Q). rewrite M0 in Q. injection Q as ->. rewrite ueqb_refl in EM. discriminate EM.
    + destruct (IH c ND' (fun e' I => RD e' (or_intror I))) as (n & E & N). exists n. split; [exact E|]. intro m. destruct (N m) as (us & NU & HU & GC). exists us. split; [exact NU|]. split; [|exact GC]. intro u. rewrite HU. split.
      * intros (e' & I & Q). exists e'. split; [right; exact I|exact Q].
      * intros (e' & [ <- |I] & U & Q); [destruct Q as (Q & _); congruence|exists e'; auto].
Qed.

(** *** Whatever the archive: each content entry in namespace C is counted once,
    by its mimetype, and nothing else is. *)
Theorem C89_recount : forall A L, consistent (fa_zim A) L ->
  (forall u e c b, in_C u = true -> get_entry_by_full_url (fa_zim A) u = Ok e -> e_kind e = Content c b -> exists t m, mt_get (e_mimetype e) (ml_types (fa_mimes A)) = Ok t /\ decode t = Ok m) ->
  exists n, recount A = Ok (Some (mkCounter n true)) /\ forall m, number (content_entry A m) (get_count m n).
Proof.
  intros A L CS RD. assert (CI : forall e, In e L -> (counts_entry e = true <-> in_C (full_url e) = true /\ exists c b, e_kind e = Content c b)).
  { intros e I. apply counts_entry_iff; [exact (consistent_storable _ _ _ CS I)|exact (consistent_kind _ _ _ CS I)]. }
  assert (MO : forall e c b, In e L -> e_kind e = Content c b -> mime_of (fa_mimes A) e = (do t <- mt_get (e_mimetype e) (ml_types (fa_mimes A)) ;; decode t)).
  { intros e c b I K. exact (mime_of_content _ _ _ _ (consistent_kind _ _ _ CS I) K). }
  assert (NDU : NoDup (map full_url L)).
  { pose proof (consistent_sorted _ _ CS) as SO. clear - SO. induction SO as [|e l SO IH F]; cbn [map]; constructor; [|exact IH]. intro Q. apply in_map_iff in Q as (e' & U & I). rewrite Forall_forall in F. specialize (F e' I).
    unfold url_lt in F. rewrite U in F. rewrite ultb_irrefl in F. discriminate F. }
  destruct (count_all_numbers (fa_mimes A) L [] NDU) as (n & E & N).
  { intros e I CE. apply (CI e I) in CE as (IC & c & b & K). destruct (RD (full_url e) e c b IC) as (t & m & T & M); [apply (lookup_iff _ _ _ _ CS); auto|exact K|]. exists m. rewrite (MO e c b I K), T. exact M. }
  exists n. split; [unfold recount; rewrite (entries_ok _ _ CS); cbn [bind]; rewrite E; reflexivity|]. intro m. destruct (N m) as (us & NU & HU & GC). exists us. split; [exact NU|]. split; [|cbn in GC; lia].
  intro u. rewrite HU. split.
  - intros (e & I & U & CE & M). apply (CI e I) in CE as (IC & c & b & K). rewrite U in IC. split; [exact IC|]. rewrite (MO e c b I K) in M. destruct (mt_get (e_mimetype e) (ml_types (fa_mimes A))) as [t|] eqn:T; [|discriminate M].
    exists e, c, b, t. split; [apply (lookup_iff _ _ _ _ CS); auto|]. auto.
  - intros (IC & e & c & b & t & G & K & T & DE). apply (lookup_iff _ _ _ _ CS) in G as (I & U). exists e. split; [exact I|]. split; [exact U|]. split; [apply (CI e I); rewrite U; eauto|]. rewrite (MO e c b I K), T. exact DE.
Qed.

(** ** Histories *)
(** The mimetypes of the pages that a user writes are texts. *)
Definition legible (V : view) : Prop := forall u p t d, V u = Some p -> pg_body p = Data t d -> exists m, decode t = Ok m.
Lemma legible_encoded : forall m, exists m', decode (encoded m) = Ok m'.
Proof. intro m. unfold encoded, decode. destruct (utf8_encode m) as [b|] eqn:E; [rewrite (decode_encode _ _ E); eauto|]. exists []. reflexivity. Qed.
Lemma legible_put : forall V u q, legible V -> (forall p t d, q = Some p -> pg_body p = Data t d -> exists m, decode t = Ok m) -> legible (vput u q V).
Proof. intros V u q LV Q x p t d E B. unfold vput in E. destruct (ueqb x u); eauto. Qed.
Lemma legible_fields : forall l u p, (forall t d, pg_body p = Data t d -> exists m, decode t = Ok m) -> forall t d, pg_body (snd (set_fields l u p)) = Data t d -> exists m, decode t = Ok m.
Proof.
  unfold set_fields. induction l as [|f l IH]; intros u p LP t d E; [exact (LP t d E)|]. cbn [fold_left] in E. destruct f as [x|x|x|x]; cbn [set_field] in E; (eapply IH; [|exact E]); cbn [pg_body]; try exact LP.
  intros t' d' Q. destruct (pg_body p); [injection Q as <- _; apply legible_encoded|discriminate Q].
Qed.
Lemma legible_step : forall o V, legible V -> legible (vstep V o).
Proof.
  intros o V LV. destruct o as [it d un|src tgt ttl|u l|u d|u|u| |sc sp]; cbn [vstep]; try exact LV.
  - apply legible_put; [exact LV|]. intros p t x Q B. injection Q as <-. cbn in B. injection B as <- _. apply legible_encoded.
  - apply legible_put; [exact LV|]. intros p t x Q B. injection Q as <-. discriminate B.
  - destruct (V u) as [p|] eqn:E; [|exact LV]. pose proof (legible_fields l u p (fun t d B => LV u p t d E B)) as LF. destruct (set_fields l u p) as [v q]. cbn [snd] in LF.
    apply legible_put; [apply legible_put; [exact LV|discriminate]|]. intros p' t x Q B. injection Q as <-. eauto.
  - destruct (V u) as [p|] eqn:E; [|exact LV]. apply legible_put; [exact LV|]. intros p' t x Q B. injection Q as <-. cbn in B. destruct (pg_body p) as [m d0|] eqn:EB; [|discriminate B]. injection B as <- _. eauto.
  - apply legible_put; [exact LV|discriminate].
  - apply legible_put; [exact LV|]. intros p t x Q B. injection Q as <-. discriminate B.
Qed.
Lemma legible_steps : forall ops V, legible V -> legible (vsteps V ops).
Proof. unfold vsteps. induction ops as [|o ops IH]; intros V LV; [exact LV|]. cbn [fold_left]. apply IH. apply legible_step. exact LV. Qed.
Lemma legible_empty : legible empty_view.
Proof. intros u p t d E. discriminate E. Qed.

Section Histories.
Variable fuel : nat.
Context {D : Type}.
Variable dc : decomp D.
Variable new_decomp : ctype -> res D.
Context {K : Type}.
Variable new_comp : ctype -> res K.
Variable comp : K -> bytes -> res (bytes * K).
Variable flush : K -> res bytes.
Variable depth : nat.
Variable kd : ckind.
Variable Stream : ctype -> bytes -> bytes -> Prop.
Context {H : Type}.
Variable md5 : H.
Variable feed : H -> bytes -> H.
Variable digest : H -> bytes.
Variable truncate : bool.
Variable process_blob : entry -> M zim unit.
Variable rounds : nat.
Hypothesis CD : codec_ok dc new_decomp new_comp comp flush Stream.
Hypothesis HO : hash_ok feed digest.
Notation opens := (open_zim fuel dc new_decomp new_comp comp flush depth kd).
Notation shows := (shows fuel dc new_decomp kd).
Notation vruns reserve := (vruns fuel dc new_decomp new_comp comp flush depth kd Stream md5 feed digest reserve truncate process_blob rounds).

Lemma content_pages : forall A V m u, shows A V -> (content_entry A m u <-> pages_of V m u).
Proof.
  intros A V m u SH. split.
  - intros (IC & e & cn & b & t1 & G & KE & M & D1). split; [exact IC|]. assert (NL : ~ listing (fa_zim A) u) by (intro Q; rewrite (listing_not_C _ _ Q) in IC; discriminate IC). specialize (SH u NL).
    destruct (V u) as [q|]; [|elim (SH e G)]. destruct SH as (e1 & us & G1 & _ & _ & _ & SB). rewrite G in G1. injection G1 as <-. exists q. destruct (pg_body q) as [m1 d1|v].
    + destruct SB as (c1 & b1 & _ & M1 & _). rewrite M in M1. injection M1 as <-. exists t1, d1. auto.
    + unfold target_url in SB. rewrite KE in SB. discriminate SB.
  - intros (IC & q & t1 & d1 & E1 & B1 & D1). split; [exact IC|]. assert (NL : ~ listing (fa_zim A) u) by (intro Q; rewrite (listing_not_C _ _ Q) in IC; discriminate IC). specialize (SH u NL). rewrite E1 in SH.
    destruct SH as (e & us & G & _ & _ & _ & SB). rewrite B1 in SB. destruct SB as (cn & b & KE & M & _). exists e, cn, b, t1. auto.
Qed.
Lemma recount_ext : forall A B, same_archive A B -> recount B = recount A.
Proof.
  intros A B [S1 S2 S3 S4 S5 S6 S7 S8]. unfold recount. assert (EI : iter_entries (fa_zim B) None None = iter_entries (fa_zim A) None None).
  { unfold iter_entries, get_entry_at. rewrite S4. unfold fa_file in S1. rewrite S1. reflexivity. }
  rewrite EI. destruct (iter_entries (fa_zim A) None None) as [l|]; [|reflexivity]. cbn [bind].
  assert (EC : forall c, count_all (fa_mimes B) l c = count_all (fa_mimes A) l c).
  { clear EI. induction l as [|e l IH]; intro c; [reflexivity|]. cbn [count_all]. unfold mime_of. rewrite S3. destruct (counts_entry e); [|apply IH]. match goal with |- bind ?x _ = _ => destruct x end; [cbn [bind]; apply IH|reflexivity]. }
  rewrite EC. reflexivity.
Qed.
Lemma recount_shown : forall reserve A cells L V, laid_out Stream reserve A cells L -> shows A V -> legible V ->
  exists n, recount A = Ok (Some (mkCounter n true)) /\ forall m, number (pages_of V m) (get_count m n).
Proof.
  intros reserve A cells L V LO SH LV. destruct (C89_recount A _ (ao_entries _ _ _ _ (lo_arch _ _ _ _ _ LO))) as (n & E & N).
  - intros u e c b IC G KE. assert (NL : ~ listing (fa_zim A) u) by (intro Q; rewrite (listing_not_C _ _ Q) in IC; discriminate IC). specialize (SH u NL). destruct (V u) as [p|] eqn:EV; [|elim (SH e G)].
    destruct SH as (e1 & us & G1 & _ & _ & _ & SB). rewrite G in G1. injection G1 as <-. destruct (pg_body p) as [t d|v] eqn:EB.
    + destruct SB as (c1 & b1 & _ & M1 & _). destruct (LV u p t d EV EB) as (m & DE). eauto.
    + unfold target_url in SB. rewrite KE in SB. discriminate SB.
  - exists n. split; [exact E|]. intro m. eapply number_ext; [|exact (N m)]. intro u. apply content_pages. exact SH.
Qed.

Lemma reinit_new : forall r u sc0 sp0 n A ops A' w sc sp, 0 <= r -> zlen u = 16 -> fresh_strategy sc0 -> fresh_strategy sp0 ->
  init_new fuel new_comp comp flush depth (Some r) u sc0 sp0 = Ok A -> vruns (Some r) n A empty_view (ops ++ [VFlush]) A' -> vadds ops <= n ->
  exists B k, opens (fa_file A') w sc sp = Ok B /\ shows B (vsteps empty_view ops) /\
    load_from_archive fuel dc new_decomp kd Reinit B = Ok (Some k) /\
    (vsteps empty_view ops URL_COUNTER = None -> load_from_archive fuel dc new_decomp kd LoadOrReinit B = Ok (Some k) /\ has_entry_for_full_url (fa_zim B) URL_COUNTER = Ok false) /\
    forall m, number (pages_of (vsteps empty_view ops) m) (get_count m (ct_counts k)).
Proof.
  intros r u sc0 sp0 n A ops A' w sc sp Hr HU F1 F2 IN R Z. set (mx := Z.max (Z.max (limit_of sc0) (limit_of sp0)) (vhighest (ops ++ [VFlush]))).
  destruct (vruns_ends _ _ _ _ _ _ _ _ _ _ _ _ _ _ _ _ _ _ _ _ _ R) as (((F0 & FA & _) & _) & ((G1 & FA1 & _) & _)).
  destruct (created fuel dc new_decomp new_comp comp flush depth Stream CD mx r Hr F0 u sc0 sp0 A HU F1 F2) as (cells & L & LO & P1 & P2 & B1 & B2 & DI & EU & EA & ZL & UU); [lia|lia|exact IN|].
  destruct (C65_new_archive fuel dc new_decomp new_comp comp flush depth kd Stream md5 feed digest truncate process_blob rounds CD HO r u sc0 sp0 n A ops A' w sc sp Hr HU F1 F2 IN R Z) as (SH & SH1 & B & E & SA & SB).
  assert (T : table (fa_zim A) (map snd cells) (blobs_of L) (ml_types (fa_mimes A)) [] (fa_redirects A) empty_view).
  { rewrite B1. exact (shows_table fuel dc new_decomp new_comp comp flush kd Stream (Some r) md5 feed digest process_blob CD A cells L _ LO (FA _ _ LO) SH). }
  assert (LM : Forall (vlimited mx) (ops ++ [VFlush])) by (eapply vlimited_more; [|apply vhighest_limits]; lia).
  destruct (view_history fuel dc new_decomp new_comp comp flush depth kd Stream (Some r) md5 feed digest truncate process_blob rounds CD HO mx n A _ ops VFlush A' cells L R I LO P1 P2 (conj B1 B2) ltac:(intro Q; congruence) T Z LM) as (cells1 & L1 & VC & S1 & R1).
  pose proof (vc_laid _ _ _ _ _ _ _ _ _ _ VC) as LO1. destruct (recount_shown _ A' cells1 L1 _ LO1 SH1 (legible_steps ops _ legible_empty)) as (k & EK & NK). rewrite <- (recount_ext A' B SA) in EK.
  exists B, (mkCounter k true). split; [exact E|]. split; [exact SB|]. split; [exact EK|]. split; [|exact NK]. intro NV.
  assert (NL : ~ listing (fa_zim B) URL_COUNTER) by (intros [Q|(Q & _)]; discriminate Q). pose proof (SB URL_COUNTER NL) as NB. rewrite NV in NB.
  assert (LN : load_counts fuel dc new_decomp kd B = Err EntryNotFound /\ has_entry_for_full_url (fa_zim B) URL_COUNTER = Ok false).
  { unfold load_counts. pose proof (ao_entries _ _ _ _ (lo_arch _ _ _ _ _ LO1)) as CS.
    destruct SA as [Q1 Q2 Q3 Q4 Q5 Q6 Q7 Q8]. rewrite (lookup_ext _ _ URL_COUNTER Q1 Q4) in *.
    assert (EE : exists b, utf8_encode URL_COUNTER = Some b) by (vm_compute; eauto). destruct EE as (b & EE). assert (MI : get_entry_by_full_url (fa_zim A') URL_COUNTER = Err EntryNotFound).
    { apply (missing_iff _ _ URL_COUNTER b CS EE). intros e I Q. apply (NB e). apply (lookup_iff _ _ _ _ CS). auto. }
    rewrite MI. split; [reflexivity|]. destruct (C77_one_list _ _ CS) as (es & _ & _ & _ & _ & _ & LU & _ & HS & _). destruct (HS URL_COUNTER b EE) as (x & EX & IFF).
    assert (HE : has_entry_for_full_url (fa_zim B) URL_COUNTER = has_entry_for_full_url (fa_zim A') URL_COUNTER) by (unfold has_entry_for_full_url; rewrite (key_ext _ _ Q1), Q4; reflexivity).
    rewrite HE. change (has_entry_for_full_url (fa_zim A') URL_COUNTER = Ok x) in EX. rewrite EX. destruct x; [|reflexivity]. exfalso. destruct IFF as (IFF & _). specialize (IFF eq_refl). apply in_map_iff in IFF as (e & U & I').
    apply (NB e). apply LU. auto. }
  destruct LN as (LN & HF). split; [|exact HF]. cbn [load_from_archive]. rewrite LN. exact EK.
Qed.
(** *** A file that was written without counting, opened in any mode: the counter that
    is built then tells how many pages of each mimetype there are. *)
Theorem C89_new_archive : forall r u sc0 sp0 n A ops A' w sc sp, 0 <= r -> zlen u = 16 -> fresh_strategy sc0 -> fresh_strategy sp0 ->
  init_new fuel new_comp comp flush depth (Some r) u sc0 sp0 = Ok A -> vruns (Some r) n A empty_view (ops ++ [VFlush]) A' -> vadds ops <= n ->
  exists B k, opens (fa_file A') w sc sp = Ok B /\ shows B (vsteps empty_view ops) /\
    load_from_archive fuel dc new_decomp kd Reinit B = Ok (Some k) /\
    (vsteps empty_view ops URL_COUNTER = None -> load_from_archive fuel dc new_decomp kd LoadOrReinit B = Ok (Some k)) /\
    forall m, number (pages_of (vsteps empty_view ops) m) (get_count m (ct_counts k)).
Proof.
  intros r u sc0 sp0 n A ops A' w sc sp Hr HU F1 F2 IN R Z. destruct (reinit_new r u sc0 sp0 n A ops A' w sc sp Hr HU F1 F2 IN R Z) as (B & k & E1 & E2 & E3 & E4 & E5).
  exists B, k. split; [exact E1|]. split; [exact E2|]. split; [exact E3|]. split; [intro Q; apply (E4 Q)|exact E5].
Qed.

(** *** C87, for a policy that counts again: a file that was written without
    counting is opened for reading if it has a page MCounter, and then the counter
    is right; otherwise NonMutable is raised, with the default policy as well. *)
Theorem C87_reinit_partial : forall r u sc0 sp0 n A ops A' fw sc sp, 0 <= r -> zlen u = 16 -> fresh_strategy sc0 -> fresh_strategy sp0 ->
  init_new fuel new_comp comp flush depth (Some r) u sc0 sp0 = Ok A -> vruns (Some r) n A empty_view (ops ++ [VFlush]) A' -> vadds ops <= n ->
  let starts how := open_session fuel dc new_decomp new_comp comp flush depth kd how (fa_file A') false fw sc sp in
  let V := vsteps empty_view ops in
  (V URL_COUNTER <> None -> exists s k, starts Reinit = Ok s /\ shows (se_arch s) V /\ se_counter s = Some k /\ forall m, number (pages_of V m) (get_count m (ct_counts k))) /\
  (V URL_COUNTER = None -> starts Reinit = Err NonMutable /\ starts LoadOrReinit = Err NonMutable /\ starts Load = Err NoCounter).
Proof.
  intros r u sc0 sp0 n A ops A' fw sc sp Hr HU F1 F2 IN R Z starts V.
  destruct (reinit_new r u sc0 sp0 n A ops A' false sc sp Hr HU F1 F2 IN R Z) as (B & k & E & SB & LR & LD & NK). fold V in SB, LD, NK.
  assert (NL : ~ listing (fa_zim B) URL_COUNTER) by (intros [Q|(Q & _)]; discriminate Q). pose proof (SB URL_COUNTER NL) as PC. destruct (opened_clean _ _ _ _ _ _ _ _ _ _ _ _ E) as (_ & _ & _ & _ & ED). split.
  - intro NV. destruct (V URL_COUNTER) as [p|]; [|contradiction]. destruct PC as (e & us & G & _). exists (mkSession B false false (Some k) fw), k. split; [|auto].
    unfold starts, open_session. rewrite E. cbn [bind]. rewrite LR. cbn [bind]. unfold install_counter. cbn [se_arch]. rewrite (there_has B _ e G). cbn [bind se_arch]. rewrite ED. reflexivity.
  - intro NV. rewrite NV in PC. destruct (LD NV) as (LE & HF).
    destruct (C87_refused fuel dc new_decomp new_comp comp flush depth kd Reinit (fa_file A') fw sc sp B E PC ltac:(discriminate)) as (_ & Q1).
    destruct (C87_refused fuel dc new_decomp new_comp comp flush depth kd LoadOrReinit (fa_file A') fw sc sp B E PC ltac:(discriminate)) as (_ & Q2).
    destruct (C87_refused fuel dc new_decomp new_comp comp flush depth kd Load (fa_file A') fw sc sp B E PC ltac:(discriminate)) as (_ & Q3).
    split; [exact (Q1 HF _ LR)|]. split; [exact (Q2 HF _ LR)|exact (Q3 HF)].
Qed.
End Histories.

(** The theorem applies to the sample archive of C65, which has no MCounter:
    there the page Cb has mimetype "m". *)
Example C89_example : exists A' B k, vend_of sample_created = Ok A' /\ sample_open (fa_file A') false sample_simple sample_simple = Ok B /\
  load_from_archive sample_fuel passthrough plain_new KRemembering LoadOrReinit B = Ok (Some k) /\ number (pages_of (vsteps empty_view sample_vops) [109]) (get_count [109] (ct_counts k)) /\
  pages_of (vsteps empty_view sample_vops) [109] [67; 98].
Proof.
  destruct sample_zops_ok as (_ & _ & _ & FS & FM). destruct (vend_of_ok sample_created sample_vend_works) as (A & A' & E1 & E2 & R).
  destruct (C89_new_archive sample_fuel passthrough plain_new plain_new_comp plain_comp plain_flush 6 KRemembering plain_stream 0 sample_feed sample_digest true (fun _ => ret tt) 3 plain_codec sample_hash
    50 sample_uuid sample_simple sample_mime 100 A sample_vops A' false sample_simple sample_simple ltac:(lia) eq_refl FS FM E1 R ltac:(vm_compute; discriminate)) as (B & k & EB & _ & _ & EL & N).
  exists A', B, k. split; [exact E2|]. split; [exact EB|]. split; [apply EL; rewrite sample_table; reflexivity|]. split; [apply N|]. split; [reflexivity|]. exists (mkPage [65] false (Data [x6d] [x44; x45])), [x6d], [x44; x45].
  rewrite sample_table. split; [reflexivity|]. split; [reflexivity|]. vm_compute. reflexivity.
Qed.
Print Assumptions C89_recount.
Print Assumptions C89_new_archive.
Print Assumptions C89_example.
Print Assumptions C87_reinit_partial.
