(** C72, the part of [ZimTranslator] that copies the main page. *)
From Coq Require Import List ZArith Bool Lia Permutation Strings.Byte.
From Coq Require Import ZifyBool ZifyNat.
From Verif Require Import Base BaseProofs Utf8 Utf8Proofs Infobyte Header HeaderSpec HeaderProofs MimeTypeList MimeTypeListSpec Entry EntrySpec Reader ReaderSpec Decompressors DecompressorsProofs Blob BlobProofs
  PointerList PointerListProofs SpaceAllocator Cluster ClusterSpec ClusterProofs ClusterWrapper ClusterWrapperSpec ClusterWrapperProofs Archive ArchiveSpec ArchiveProofs ArchiveFacts ArchiveLaws ArchiveObserve
  ArchiveCluster ArchiveClusterSpec ArchiveClusterProofs CompressionStrategy CompressionStrategySpec CompressionStrategyProofs OperationBuffer OperationBufferSpec OperationBufferProofs EntryObject IterByCluster PropsIterByCluster
  Flush FlushSpec FlushProofs FlushTailProofs FlushOpenProofs FlushHistorySpec FlushHistoryProofs FlushCreateProofs ViewSpec ViewProofs ViewEditProofs ViewStepProofs ViewWaitProofs ViewHistoryProofs
  Metadata MetadataSpec Translator TranslatorSpec TranslatorProofs PropsArchiveCluster PropsCompressionStrategy PropsFlush PropsView PropsMainPage PropsMetadata PropsTranslator RelinkProofs MainFlushProofs.
Import ListNotations.
Open Scope Z_scope.

(** In the table [V] the page at [u] leads, over [n] redirects, to the page with content at [v]. *)
Inductive leads (V : view) : nat -> ustr -> ustr -> Prop :=
| leads_here : forall u p m d, V u = Some p -> pg_body p = Data m d -> leads V 0 u u
| leads_on : forall n u p t v, V u = Some p -> pg_body p = Link t -> leads V n t v -> leads V (S n) u v.

Section Main.
Variable fuel : nat.
Context {D : Type}.
Variable dc : decomp D.
Variable new_decomp : ctype -> res D.
Context {K : Type}.
Variable new_comp : ctype -> res K.
Variable comp : K -> bytes -> res (bytes * K).
Variable flush : K -> res bytes.
Variable depth : nat.
Variable kd : ckind.
Variable Stream : ctype -> bytes -> bytes -> Prop.
Context {H : Type}.
Variable md5 : H.
Variable feed : H -> bytes -> H.
Variable digest : H -> bytes.
Variable truncate : bool.
Variable process_blob : entry -> M zim unit.
Variable rounds : nat.
Notation shows := (shows fuel dc new_decomp kd).
Notation translates reserve := (translate fuel dc new_decomp new_comp comp flush depth kd md5 feed digest reserve truncate process_blob rounds).
Notation performs reserve := (perform_vop fuel dc new_decomp new_comp comp flush depth kd md5 feed digest reserve truncate process_blob rounds).

Notation opens := (open_zim fuel dc new_decomp new_comp comp flush depth kd).
Notation room reserve := (roomy fuel dc new_decomp new_comp comp flush depth kd Stream md5 feed digest truncate process_blob rounds reserve).
Hypothesis CD : codec_ok dc new_decomp new_comp comp flush Stream.
Hypothesis HO : hash_ok feed digest.

Lemma leads_resolve : forall X cells L rin V n u v, laid_out Stream rin X cells L -> shows X V -> ~ listing (fa_zim X) u -> (forall x p t, V x = Some p -> pg_body p = Link t -> ~ listing (fa_zim X) t) -> leads V n u v -> (n < fuel)%nat ->
  exists e e', get_entry_by_full_url (fa_zim X) u = Ok e /\ full_url e = u /\ resolve fuel (fa_zim X) e = Ok e' /\ full_url e' = v.
Proof.
  intros X cells L rin V n u v LO SH NU NL LD. pose proof (laid_consistent _ _ _ _ _ LO) as C.
  assert (G : forall f, (n < f)%nat -> exists e e', get_entry_by_full_url (fa_zim X) u = Ok e /\ full_url e = u /\ resolve f (fa_zim X) e = Ok e' /\ full_url e' = v).
  { induction LD as [u p m d Vu Bu|n u p t v Vu Bu LD IH]; intros f Hf; (destruct f as [|f]; [lia|]); pose proof (SH u NU) as S; rewrite Vu in S; destruct S as (e & us & G & _ & _ & _ & B); rewrite Bu in B;
      pose proof (proj2 (proj1 (lookup_iff _ _ _ _ C) G)) as FU; pose proof (consistent_kind _ _ e C (proj1 (proj1 (lookup_iff _ _ _ _ C) G))) as KC; unfold kind_consistent in KC.
    - destruct B as (c & b & EK & _). rewrite EK in KC. assert (IR : is_redirect e = false) by (unfold is_redirect, MIMETYPE_ID_REDIRECT in *; lia).
      exists e, e. cbn [resolve]. rewrite IR. auto.
    - unfold target_url in B. destruct (e_kind e) as [|i] eqn:EK; [discriminate B|]. destruct (get_entry_by_url_index (fa_zim X) i) as [t0|] eqn:GT; [|discriminate B]. injection B as B.
      assert (IR : is_redirect e = true) by (unfold is_redirect, MIMETYPE_ID_REDIRECT in *; lia). destruct (IH (NL _ _ _ Vu Bu) f ltac:(lia)) as (e1 & e2 & G1 & F1 & R1 & F2).
      assert (GT2 : get_entry_by_full_url (fa_zim X) t = Ok t0).
      { apply (lookup_iff _ _ _ _ C). split; [|exact B]. apply (index_iff _ _ _ _ C) in GT. eapply PointerListProofs.znth_in. exact GT. }
      assert (e1 = t0) by congruence. subst e1. exists e, e2. split; [exact G|]. split; [exact FU|]. split; [|exact F2]. cbn [resolve]. rewrite IR. unfold follow. rewrite EK, GT. cbn [bind]. exact R1. }
  intro Hf. exact (G fuel Hf).
Qed.

(** *** C72, the main page.  An archive [X] with table [V], opened as [Ain], has a main page that leads to the page
    [ns ++ v]: the translator first sets the main page of its output to [v], as [set_mainpage_url(v)] does, and then copies the pages. *)
Theorem C72_main_page_first : forall rin X cells L V Ain r m n c v A, laid_out Stream rin X cells L -> shows X V -> ~ listing (fa_zim X) m -> (forall x p t, V x = Some p -> pg_body p = Link t -> ~ listing (fa_zim X) t) -> same_archive X Ain ->
  main_url (fa_zim Ain) = Some m -> leads V n m (c :: v) -> (n < fuel)%nat ->
  translates r Ain (handle_header fuel depth process_blob Ain) A = (let* _ := (fun A => performs r A (VMain v)) in translates r Ain (ret tt)) A.
Proof.
  intros rin X cells L V Ain r m n c v A LO SH NM NL SA MU LD HF. pose proof (laid_consistent _ _ _ _ _ LO) as C.
  destruct (leads_resolve X cells L rin V n m (c :: v) LO SH NM NL LD HF) as (e & e' & G & FU & RE & FU').
  assert (EX : forall x, resolve fuel (fa_zim Ain) x = resolve fuel (fa_zim X) x).
  { generalize fuel as f. induction f as [|f IH]; intro x; [reflexivity|]. cbn [resolve]. rewrite (follow_ext (fa_zim X) (fa_zim Ain) x (sm_file _ _ SA) (sm_urls _ _ SA)). destruct (is_redirect x); [|reflexivity]. destruct (follow (fa_zim X) x); cbn [bind]; [apply IH|reflexivity]. }
  assert (MX : get_mainpage_entry (fa_zim Ain) = get_mainpage_entry (fa_zim X)).
  { unfold get_mainpage_entry, get_entry_at. rewrite (sm_main _ _ SA), (sm_urls _ _ SA). pose proof (sm_file _ _ SA) as SF. change (fa_file Ain) with (z_file (fa_zim Ain)) in SF. rewrite SF. reflexivity. }
  unfold main_url in MU. rewrite MX in MU. destruct (get_mainpage_entry (fa_zim X)) as [e0|] eqn:GM; [|discriminate MU]. injection MU as MU.
  assert (e0 = e).
  { apply (main_iff _ _ _ C) in GM as (i & _ & GI). assert (G0 : get_entry_by_full_url (fa_zim X) m = Ok e0) by (apply (lookup_iff _ _ _ _ C); split; [eapply PointerListProofs.znth_in; exact GI|exact MU]). congruence. }
  subst e0.
  assert (IE : In e' (map snd cells)).
  { clear - C G RE. revert m e G RE. generalize fuel as f. induction f as [|f IH]; intros m e G RE; [discriminate RE|]. cbn [resolve] in RE. destruct (is_redirect e).
    - unfold follow in RE. destruct (e_kind e) as [|i]; [discriminate RE|]. destruct (get_entry_by_url_index (fa_zim X) i) as [t|] eqn:GT; [|discriminate RE]. cbn [bind] in RE.
      eapply (IH (full_url t) t); [|exact RE]. apply (lookup_iff _ _ _ _ C). split; [|reflexivity]. apply (index_iff _ _ _ _ C) in GT. eapply PointerListProofs.znth_in. exact GT.
    - injection RE as <-. exact (proj1 (proj1 (lookup_iff _ _ _ _ C) G)). }
  destruct (ns_char e' (ArchiveFacts.consistent_storable _ _ e' C IE)) as (a & NS).
  assert (EU : e_url e' = v).
  { unfold full_url in FU'. rewrite NS in FU'. injection FU' as _ Q. exact Q. }
  unfold translate, mbind, ret, perform_vop, on_buffered, handle_header. rewrite MX. cbn [bind]. rewrite EX, RE. cbn [bind]. rewrite EU.
  destruct (set_mainpage process_blob (S (S depth)) (Some v) (mkBuffered (fa_zim A) (fa_redirects A) (fa_main A))) as [[[]|x1] o]; reflexivity.
Qed.

(** *** Without a main page in the input nothing is copied: the translator raises what [get_mainpage_entry] raises. *)
Theorem C72_without_main_page : forall Ain r A, z_main (fa_zim Ain) = None -> translates r Ain (handle_header fuel depth process_blob Ain) A = (Err EntryNotFound, A).
Proof. intros Ain r A Q. unfold translate, mbind, handle_header, get_mainpage_entry. rewrite Q. reflexivity. Qed.

(** The pages are those of [copy_of], but for the redirect to the main page, which leads to the page [v] in which the
    main page of the input ends. *)
Definition copy_but_main (V W : view) (v : ustr) : Prop := (exists C, copy_of V C /\ forall x, x <> URL_MAINPAGE_REDIRECT -> W x = C x) /\ W URL_MAINPAGE_REDIRECT = Some (link_page W ([67] ++ v) None).

(** *** C72 with the translator's own [handle_header].  The main page of the input is a redirect, as [set_mainpage_url]
    makes it, to a page of namespace C, and it leads to the page [C v], perhaps over other redirects; no other redirect leads to it.
    If the translator returns, then the main page of the output leads to [C v], the other pages are
    copied, and the file of the output is opened with the same pages and the same main page. *)
Theorem C72_with_main_page_partial : forall rin X cells L V Ain r u sc sp A A' n w sc' sp' k v, laid_out Stream rin X cells L -> suffices fuel Stream rin X -> shows X V -> same_archive X Ain -> copyable V ->
  main_url (fa_zim Ain) = Some URL_MAINPAGE_REDIRECT -> leads V (S k) URL_MAINPAGE_REDIRECT ([67] ++ v) -> (S k < fuel)%nat ->
  (forall p t, V URL_MAINPAGE_REDIRECT = Some p -> pg_body p = Link t -> exists y, t = [67] ++ y) -> (forall x p, V x = Some p -> pg_body p <> Link URL_MAINPAGE_REDIRECT) ->
  0 <= r -> zlen u = 16 -> fresh_strategy sc -> fresh_strategy sp -> init_new fuel new_comp comp flush depth (Some r) u sc sp = Ok A ->
  zlen (concat (fst (iter_by_cluster (fa_zim X)))) + 1 <= n -> (forall B, performs (Some r) A (VMain v) = (Ok tt, B) -> room (Some r) n Ain B (concat (fst (iter_by_cluster (fa_zim X))))) ->
  translates (Some r) Ain (handle_header fuel depth process_blob Ain) A = (Ok tt, A') ->
  exists W, copy_but_main V W v /\ shows A' W /\ main_target (fa_zim A') = Some ([67] ++ v) /\
    exists B, opens (fa_file A') w sc' sp' = Ok B /\ same_archive A' B /\ shows B W /\ main_target (fa_zim B) = Some ([67] ++ v).
Proof.
  intros rin X cells L V Ain r u sc sp A A' n w sc' sp' k v LO SUX SH SA CV MU LD HF MC NK Hr HU F1 F2 IN ZN RO E. destruct SUX as (F0 & FA & _).
  assert (NL : forall x p t, V x = Some p -> pg_body p = Link t -> ~ listing (fa_zim X) t).
  { intros x p t Vx Bx Q. destruct (CV x p t Vx Bx) as (_ & _ & _ & _ & N). apply N. eapply listing_left_out. exact Q. }
  rewrite (C72_main_page_first rin X cells L V Ain (Some r) _ (S k) 67 v A LO SH (main_not_listing _) NL SA MU LD HF) in E.
  pose proof (laid_consistent _ _ _ _ _ LO) as C. destruct (C51_no_url_twice _ _ C) as (ND & IU). set (us := concat (fst (iter_by_cluster (fa_zim X)))) in *.
  pose proof (shows_table fuel dc new_decomp new_comp comp flush kd Stream rin md5 feed digest process_blob CD X cells L V LO (FA _ _ LO) SH) as TX.
  (* the page exists *)
  assert (VV : V ([67] ++ v) <> None).
  { clear - LD. remember (S k) as j. clear Heqj. induction LD; congruence. }
  assert (EB : exists b, utf8_encode (NS_C ++ v) = Some b).
  { destruct (V ([67] ++ v)) as [p|] eqn:EV; [|congruence]. destruct (nameable_page _ _ _ _ _ _ _ C TX _ p EV) as (_ & b & Q); [intro Q; apply listing_not_C in Q; discriminate Q|]. exists b. exact Q. }
  destruct EB as (b & EB).
  (* the new archive with its main page *)
  set (mx := Z.max (limit_of sc) (limit_of sp)).
  destruct (created fuel dc new_decomp new_comp comp flush depth Stream CD mx r Hr F0 u sc sp A HU F1 F2) as (cells0 & L0 & LO0 & _ & _ & B1 & _ & _ & EU & _); [lia|lia|exact IN|].
  assert (AB : forall x, ~ listing (fa_zim A) x -> absent (map snd cells0) x).
  { intros x N e He Q. apply N. left. apply (in_map full_url) in He. rewrite EU, Q in He. destruct He as [He|[]]. congruence. }
  assert (NLC : ~ listing (fa_zim A) (NS_C ++ v)) by (intro Q; apply listing_not_C in Q; discriminate Q).
  assert (G1 : performs (Some r) A (VMain v) = (Ok tt, given v A)).
  { exact (given_first depth Stream (Some r) process_blob A cells0 L0 v b LO0 (AB _ (main_not_listing _)) (AB _ NLC) EB B1). }
  unfold mbind in E. rewrite G1 in E. specialize (RO _ G1).
  unfold translate, mbind, ret in E. rewrite (groups_ext (fa_zim X) (fa_zim Ain) (sm_file _ _ SA) (sm_urls _ _ SA)) in E. fold us in RO. unfold us in *. clear us. destruct (iter_by_cluster (fa_zim X)) as [gs how]. cbn [fst] in *. set (us := concat gs) in *.
  rewrite (groups_urls fuel dc new_decomp new_comp comp flush depth kd) in E. fold us in E. rewrite copies_frame in E. destruct (copy_urls fuel dc new_decomp new_comp comp flush depth kd Ain us A) as [[[]|] A1] eqn:E1; [|discriminate E]. destruct how; [|discriminate E].
  destruct (RO [] us (given v A) eq_refl eq_refl) as ((SU0 & _) & _). apply given_suffices in SU0.
  pose proof (new_reached fuel dc new_decomp new_comp comp flush depth kd Stream md5 feed digest process_blob CD r u sc sp A V Hr F0 HU F1 F2 IN SU0) as R0. fold mx in R0.
  assert (RO' : forall us1 us2 B, us = us1 ++ us2 -> copy_urls fuel dc new_decomp new_comp comp flush depth kd Ain us1 A = (Ok tt, B) -> within_limits fuel Stream (Some r) B /\ ViewSpec.counts n B).
  { intros us1 us2 B EQ EB1. destruct (RO us1 us2 (given v B) EQ) as ((Q1 & Q2) & Q3 & _); [rewrite copies_frame, EB1; reflexivity|]. split; [split; [eapply given_suffices; exact Q1|exact Q2]|exact Q3]. }
  assert (R1 : reached fuel Stream (Some r) mx V A1 us).
  { change us with ([] ++ us). eapply (copies fuel dc new_decomp new_comp comp flush depth kd Stream md5 feed digest (Some r) truncate process_blob rounds CD mx rin X cells L V Ain LO (FA _ _ LO) SH SA CV us n A [] A1 R0 ND ltac:(change ([] ++ us) with us; lia)); [|exact E1]. exact RO'. }
  destruct R1 as (cells1 & L1 & Pc & Pp & W & VC & CL & MA & HD & ZD & PW). destruct (RO us [] (given v A1) ltac:(rewrite app_nil_r; reflexivity)) as (WL & CT & FS); [rewrite copies_frame, E1; reflexivity|].
  assert (CO : copy_of V W).
  { intro x. destruct (PW x) as (P1 & P2 & P3). split.
    - intro LX. destruct (in_dec (list_eq_dec Z.eq_dec) x us) as [I|I]; auto.
    - intro NX. assert (NLx : ~ listing (fa_zim X) x) by (intro Q; apply NX; eapply listing_left_out; exact Q). pose proof (SH x NLx) as SHx.
      destruct (in_dec (list_eq_dec Z.eq_dec) x us) as [I|I]; [exact (P2 I NX)|]. rewrite (P3 I). destruct (V x) as [p|]; [|reflexivity]. exfalso. apply I. apply IU. destruct SHx as (e & _ & G & _). eauto. }
  assert (NC : forall y, ~ left_out ([67] ++ y)) by (intros y [Q|[Q|Q]]; discriminate Q).
  assert (NM : ~ left_out URL_MAINPAGE_REDIRECT) by (intros [Q|[Q|Q]]; discriminate Q).
  unfold finalize_out, mbind in E. destruct (zim_flush _ _ _ _ _ _ _ _ _ _ _ _ _ _ _ (given v A1)) as [[[]|] A2] eqn:E2; [|discriminate E].
  destruct (mflush_step fuel dc new_decomp new_comp comp flush depth kd Stream (Some r) md5 feed digest truncate process_blob rounds CD HO mx A1 cells1 L1 Pc Pp W n v A2 VC HD CT ltac:(lia) (proj2 WL)) as (cells2 & L2 & VC2 & SE & RE & ME).
  - intros x q Hq. destruct (left_out_dec x) as [LX|LX]; [rewrite (proj1 (CO x) LX) in Hq; discriminate Hq|]. rewrite (proj2 (CO x) LX) in Hq. destruct (V x) as [p|] eqn:EV; [|discriminate Hq]. injection Hq as <-. cbn [pg_body]. exact (NK x p EV).
  - intros p Hp. rewrite (proj2 (CO _) NM) in Hp. destruct (V URL_MAINPAGE_REDIRECT) as [q|] eqn:EV; [|discriminate Hp]. injection Hp as <-. cbn [pg_body].
    inversion LD as [|? ? p0 t ? V0 B0 LD2]; subst. rewrite EV in V0. injection V0 as <-. destruct (MC q t eq_refl B0) as (y & ->). exists y. split; [exact B0|]. change (NS_C ++ y) with ([67] ++ y). rewrite (proj2 (CO _) (NC y)).
    assert (VY : V ([67] ++ y) <> None) by (inversion LD2; congruence). destruct (V ([67] ++ y)); [discriminate|congruence].
  - exact (main_sound v b EB).
  - change (NS_C ++ v) with ([67] ++ v). rewrite (proj2 (CO _) (NC v)). destruct (V ([67] ++ v)); [discriminate|congruence].
  - exact FS.
  - exact E2.
  - pose proof SE as (ND2 & _). rewrite ND2 in E. injection E as <-. set (W2 := vput _ _ W) in *.
    pose proof (vc_laid _ _ _ _ _ _ _ _ _ _ VC2) as LO2. pose proof (vc_table _ _ _ _ _ _ _ _ _ _ VC2) as T. rewrite RE in T. destruct (proj2 FS A2 E2) as (_ & FA2 & _).
    pose proof (table_shows fuel dc new_decomp new_comp comp flush kd Stream (Some r) process_blob CD A2 cells2 L2 _ LO2 (FA2 _ _ LO2) T) as SH2.
    assert (LP : W2 URL_MAINPAGE_REDIRECT = Some (link_page W2 ([67] ++ v) None)).
    { unfold W2. rewrite vput_same. unfold link_page. change (NS_C ++ v) with ([67] ++ v). rewrite vput_other by discriminate. reflexivity. }
    pose proof (main_leads _ _ _ _ _ _ _ _ _ (laid_consistent _ _ _ _ _ LO2) T ME LP) as MT.
    exists W2. split; [split; [exists W; split; [exact CO|intros x Nx; apply vput_other; exact Nx]|exact LP]|]. split; [exact SH2|]. split; [exact MT|].
    destruct (open_settled fuel dc new_decomp new_comp comp flush depth kd Stream (Some r) md5 feed digest CD w sc' sp' A2 cells2 L2 LO2 SE (FA2 _ _ LO2) F0) as (B & EB2 & SB & _). exists B. split; [exact EB2|]. split; [exact SB|].
    split; [eapply same_shows; eassumption|]. rewrite (main_same _ _ SB). exact MT.
Qed.
End Main.

(** ** Histories *)
Section History.
Variable fuel : nat.
Context {D : Type}.
Variable dc : decomp D.
Variable new_decomp : ctype -> res D.
Context {K : Type}.
Variable new_comp : ctype -> res K.
Variable comp : K -> bytes -> res (bytes * K).
Variable flush : K -> res bytes.
Variable depth : nat.
Variable kd : ckind.
Variable Stream : ctype -> bytes -> bytes -> Prop.
Context {H : Type}.
Variable md5 : H.
Variable feed : H -> bytes -> H.
Variable digest : H -> bytes.
Variable truncate : bool.
Variable process_blob : entry -> M zim unit.
Variable rounds : nat.
Notation shows := (shows fuel dc new_decomp kd).
Notation translates reserve := (translate fuel dc new_decomp new_comp comp flush depth kd md5 feed digest reserve truncate process_blob rounds).
Notation performs reserve := (perform_vop fuel dc new_decomp new_comp comp flush depth kd md5 feed digest reserve truncate process_blob rounds).
Notation opens := (open_zim fuel dc new_decomp new_comp comp flush depth kd).
Notation room reserve := (roomy fuel dc new_decomp new_comp comp flush depth kd Stream md5 feed digest truncate process_blob rounds reserve).
Notation runs reserve := (vruns fuel dc new_decomp new_comp comp flush depth kd Stream md5 feed digest reserve truncate process_blob rounds).
Notation begins := (begins fuel dc new_decomp new_comp comp flush depth kd Stream).
Hypothesis CD : codec_ok dc new_decomp new_comp comp flush Stream.
Hypothesis HO : hash_ok feed digest.

(** *** C72 with the translator's own [handle_header], for the histories of C65: the archive that is copied was made by one, and opened from its file. *)
Theorem C72_history_main_partial : forall rin m A0 V ops A1 A2 w1 sc1 sp1 Ain r u sc sp A A' n w sc' sp' k v, begins rin A0 V -> runs rin m A0 V ops A1 -> runs rin m A1 (vsteps V ops) [VFlush] A2 -> vadds ops <= m ->
  opens (fa_file A2) w1 sc1 sp1 = Ok Ain -> copyable (vsteps V ops) ->
  main_url (fa_zim Ain) = Some URL_MAINPAGE_REDIRECT -> leads (vsteps V ops) (S k) URL_MAINPAGE_REDIRECT ([67] ++ v) -> (S k < fuel)%nat ->
  (forall p t, vsteps V ops URL_MAINPAGE_REDIRECT = Some p -> pg_body p = Link t -> exists y, t = [67] ++ y) -> (forall x p, vsteps V ops x = Some p -> pg_body p <> Link URL_MAINPAGE_REDIRECT) ->
  0 <= r -> zlen u = 16 -> fresh_strategy sc -> fresh_strategy sp -> init_new fuel new_comp comp flush depth (Some r) u sc sp = Ok A ->
  zlen (concat (fst (iter_by_cluster (fa_zim Ain)))) + 1 <= n -> (forall B, performs (Some r) A (VMain v) = (Ok tt, B) -> room (Some r) n Ain B (concat (fst (iter_by_cluster (fa_zim Ain))))) ->
  translates (Some r) Ain (handle_header fuel depth process_blob Ain) A = (Ok tt, A') ->
  exists W, copy_but_main (vsteps V ops) W v /\ shows A' W /\ main_target (fa_zim A') = Some ([67] ++ v) /\
    exists B, opens (fa_file A') w sc' sp' = Ok B /\ same_archive A' B /\ shows B W /\ main_target (fa_zim B) = Some ([67] ++ v).
Proof.
  intros rin m A0 V ops A1 A2 w1 sc1 sp1 Ain r u sc sp A A' n w sc' sp' k v BG R1 R2 Z EO CV MU LD HF MC NK Hr HU F1 F2 IN ZN RO E.
  destruct (flushed fuel dc new_decomp new_comp comp flush depth kd Stream md5 feed digest truncate process_blob rounds CD HO rin m A0 V ops A1 A2 BG R1 R2 Z) as (cells & L & C & SH & _ & _ & OP & LO).
  destruct (OP w1 sc1 sp1) as (Ain' & EO' & SA & _). rewrite EO in EO'. injection EO' as <-. assert (SU : suffices fuel Stream rin A2) by (inversion R2 as [|? ? ? ? ? ? _ _ _ _ _ R3]; subst; inversion R3 as [? ? W2 CT2|]; subst; exact (proj1 W2)).
  rewrite (groups_ext (fa_zim A2) (fa_zim Ain) (sm_file _ _ SA) (sm_urls _ _ SA)) in ZN, RO.
  exact (C72_with_main_page_partial fuel dc new_decomp new_comp comp flush depth kd Stream md5 feed digest truncate process_blob rounds CD HO rin A2 cells L (vsteps V ops) Ain r u sc sp A A' n w sc' sp' k v LO SU SH SA CV MU LD HF MC NK Hr HU F1 F2 IN ZN RO E).
Qed.
End History.

(** ** Cases of the theorems *)
Definition main_room (v : ustr) (Ain A : farchive) : bool :=
  match sample_vstep A (VMain v) with (Ok _, B) => roomy_b 100 Ain (concat (fst (iter_by_cluster (fa_zim Ain)))) B | (Err _, _) => false end.
Definition main_outcome (ops : list vop) (v : ustr) (f : res unit -> farchive -> farchive -> bool) (r : res farchive) : bool :=
  match copy_run ops r with
  | Some (A, _, _, Ain) => main_room v Ain A && (zlen (concat (fst (iter_by_cluster (fa_zim Ain)))) + 1 <=? 100) && let (q, A') := sample_translate Ain (sample_header Ain) A in f q A' Ain
  | None => false
  end.
Lemma main_outcome_parts : forall ops v f, Forall side_ok ops -> incl (touches empty_view ops) copy_dom -> main_outcome ops v f sample_created = true ->
  exists A A1 A2 Ain q A', ready ops A A1 A2 Ain /\ zlen (concat (fst (iter_by_cluster (fa_zim Ain)))) + 1 <= 100 /\
    (forall B, sample_vstep A (VMain v) = (Ok tt, B) -> sample_roomy 100 Ain B (concat (fst (iter_by_cluster (fa_zim Ain))))) /\ sample_translate Ain (sample_header Ain) A = (q, A') /\ f q A' Ain = true.
Proof.
  intros ops v f SO T Q. unfold main_outcome in Q. destruct (copy_run ops sample_created) as [[[[A A1] A2] Ain]|] eqn:E; [|discriminate Q]. apply andb_true_iff in Q as (Q & Q3). apply andb_true_iff in Q as (Q1 & Q2).
  destruct (sample_translate Ain (sample_header Ain) A) as [q A'] eqn:ET. exists A, A1, A2, Ain, q, A'. split; [apply copy_run_ok; assumption|]. split; [lia|]. split; [|auto].
  intros B EB. apply roomy_ok. unfold main_room in Q1. rewrite EB in Q1. exact Q1.
Qed.
Definition target_is (u : ustr) (A : farchive) : bool := match main_target (fa_zim A) with Some x => ueqb x u | None => false end.
Lemma target_is_ok : forall u A, target_is u A = true -> main_target (fa_zim A) = Some u.
Proof. intros u A Q. unfold target_is in Q. destruct (main_target (fa_zim A)); [|discriminate Q]. apply ueqb_eq in Q. congruence. Qed.
Definition main_is (A : farchive) : bool := match main_url (fa_zim A) with Some x => ueqb x URL_MAINPAGE_REDIRECT | None => false end.
Lemma main_is_ok : forall A, main_is A = true -> main_url (fa_zim A) = Some URL_MAINPAGE_REDIRECT.
Proof. intros A Q. unfold main_is in Q. destruct (main_url (fa_zim A)); [|discriminate Q]. apply ueqb_eq in Q. congruence. Qed.
Definition led (u : ustr) (q : res unit) (A' Ain : farchive) : bool := match q with Ok _ => main_is Ain && target_is u Ain | Err _ => false end.

(** Two pages, one of them the main page. *)
Definition main_ops : list vop := [VAdd item_a [x41] false; VAdd item_b [x42] false; VMain [98]].
Lemma main_side : Forall side_ok main_ops.
Proof. constructor; [exact a_ok|]. constructor; [exact b_ok|]. constructor; [exact I|constructor]. Qed.
Lemma main_dom : incl (touches empty_view main_ops) copy_dom.
Proof. intros x HX. vm_compute in HX. vm_compute. tauto. Qed.
Lemma main_led : main_outcome main_ops [98] (led [67; 98]) sample_created = true.
Proof. vm_compute. reflexivity. Qed.
Ltac pages T HV := vm_compute in T; repeat (destruct T as [<-|T]); try contradiction; vm_compute in HV; injection HV as <-.
Lemma main_copyable : copyable (vsteps empty_view main_ops).
Proof.
  intros u p t HV HB. assert (N : vsteps empty_view main_ops u <> None) by congruence. destruct (touches_ok main_ops empty_view u N) as [Q|Q]; [|elim Q; reflexivity].
  pages Q HV; try discriminate HB. injection HB as <-. split; [discriminate|]. split; [reflexivity|]. split; [discriminate|]. split; intros [Q|[Q|Q]]; discriminate Q.
Qed.
Lemma main_links : forall x p, vsteps empty_view main_ops x = Some p -> pg_body p <> Link URL_MAINPAGE_REDIRECT.
Proof.
  intros x p HV. assert (N : vsteps empty_view main_ops x <> None) by congruence. destruct (touches_ok main_ops empty_view x N) as [Q|Q]; [|elim Q; reflexivity]. pages Q HV; discriminate.
Qed.
Example C72_main_example : exists A A1 A2 Ain A' B W, ready main_ops A A1 A2 Ain /\ sample_translate Ain (sample_header Ain) A = (Ok tt, A') /\ sample_open (fa_file A') false sample_simple sample_simple = Ok B /\
  shows sample_fuel passthrough plain_new KRemembering B W /\ W [67; 97] = Some (mkPage [97] true (Data [x6d] [x41])) /\ W [67; 98] = Some (mkPage [65] false (Data [x6d] [x42])) /\
  main_target (fa_zim Ain) = Some [67; 98] /\ main_target (fa_zim B) = Some [67; 98].
Proof.
  destruct (main_outcome_parts main_ops [98] _ main_side main_dom main_led) as (A & A1 & A2 & Ain & q & A' & RD & ZN1 & RM & ET & U). destruct q as [[]|]; [|discriminate U]. cbn [led] in U. apply andb_true_iff in U as (U1 & U2).
  pose proof RD as [E R1 R2 EO ZN RO]. destruct sample_zops_ok as (_ & _ & _ & FS & FM).
  destruct (C72_history_main_partial sample_fuel passthrough plain_new plain_new_comp plain_comp plain_flush 6 KRemembering plain_stream 0 sample_feed sample_digest true (fun _ => ret tt) 3 plain_codec sample_hash
    (Some 50) 100 A empty_view main_ops A1 A2 false sample_simple sample_simple Ain 50 sample_uuid sample_simple sample_mime A A' 100 false sample_simple sample_simple 0 [98] (new_begins A E) R1 R2 ltac:(vm_compute; discriminate) EO main_copyable (main_is_ok _ U1))
    as (W & ((C & CW & CE) & CM) & _ & _ & B & EB & _ & SB & MT); [| | | |lia|reflexivity|exact FS|exact FM|exact E|exact ZN1|exact RM|exact ET|].
  - eapply leads_on; [reflexivity|reflexivity|]. eapply leads_here; reflexivity.
  - unfold sample_fuel. lia.
  - intros p t HV HB. vm_compute in HV. injection HV as <-. injection HB as <-. exists [98]. reflexivity.
  - exact main_links.
  - exists A, A1, A2, Ain, A', B, W. assert (NL : forall c, ~ left_out [67; c]) by (intros c [Q|[Q|Q]]; discriminate Q).
    split; [exact RD|]. split; [exact ET|]. split; [exact EB|]. split; [exact SB|]. split; [rewrite CE by discriminate; rewrite (proj2 (CW _) (NL _)); reflexivity|]. split; [rewrite CE by discriminate; rewrite (proj2 (CW _) (NL _)); reflexivity|].
    split; [exact (target_is_ok _ _ U2)|exact MT].
Qed.

(** The main page is a redirect: the copy leads to the page behind it, not to the redirect. *)
Definition chain_ops : list vop := [VAdd item_a [x41] false; VAdd item_b [x42] false; VLink [67; 120] [67; 98] (Some [121]); VMain [120]].
Lemma chain_side : Forall side_ok chain_ops.
Proof. constructor; [exact a_ok|]. constructor; [exact b_ok|]. constructor; [exact I|]. constructor; [exact I|constructor]. Qed.
Lemma chain_dom : incl (touches empty_view chain_ops) copy_dom.
Proof. intros x HX. vm_compute in HX. vm_compute. tauto. Qed.
Lemma chain_led : main_outcome chain_ops [98] (led [67; 120]) sample_created = true.
Proof. vm_compute. reflexivity. Qed.
Lemma chain_copyable : copyable (vsteps empty_view chain_ops).
Proof.
  intros u p t HV HB. assert (N : vsteps empty_view chain_ops u <> None) by congruence. destruct (touches_ok chain_ops empty_view u N) as [Q|Q]; [|elim Q; reflexivity].
  pages Q HV; try discriminate HB; injection HB as <-; (split; [discriminate|]); (split; [reflexivity|]); (split; [discriminate|]); (split; intros [Q|[Q|Q]]; discriminate Q).
Qed.
Lemma chain_links : forall x p, vsteps empty_view chain_ops x = Some p -> pg_body p <> Link URL_MAINPAGE_REDIRECT.
Proof.
  intros x p HV. assert (N : vsteps empty_view chain_ops x <> None) by congruence. destruct (touches_ok chain_ops empty_view x N) as [Q|Q]; [|elim Q; reflexivity]. pages Q HV; discriminate.
Qed.
Example C72_main_page_changes : exists A A1 A2 Ain A', ready chain_ops A A1 A2 Ain /\ sample_translate Ain (sample_header Ain) A = (Ok tt, A') /\ main_target (fa_zim Ain) = Some [67; 120] /\ main_target (fa_zim A') = Some [67; 98].
Proof.
  destruct (main_outcome_parts chain_ops [98] _ chain_side chain_dom chain_led) as (A & A1 & A2 & Ain & q & A' & RD & ZN1 & RM & ET & U). destruct q as [[]|]; [|discriminate U]. cbn [led] in U. apply andb_true_iff in U as (U1 & U2).
  pose proof RD as [E R1 R2 EO ZN RO]. destruct sample_zops_ok as (_ & _ & _ & FS & FM).
  destruct (C72_history_main_partial sample_fuel passthrough plain_new plain_new_comp plain_comp plain_flush 6 KRemembering plain_stream 0 sample_feed sample_digest true (fun _ => ret tt) 3 plain_codec sample_hash
    (Some 50) 100 A empty_view chain_ops A1 A2 false sample_simple sample_simple Ain 50 sample_uuid sample_simple sample_mime A A' 100 false sample_simple sample_simple 1 [98] (new_begins A E) R1 R2 ltac:(vm_compute; discriminate) EO chain_copyable (main_is_ok _ U1))
    as (W & _ & _ & MT & _); [| | | |lia|reflexivity|exact FS|exact FM|exact E|exact ZN1|exact RM|exact ET|].
  - eapply leads_on; [reflexivity|reflexivity|]. eapply leads_on; [reflexivity|reflexivity|]. eapply leads_here; reflexivity.
  - unfold sample_fuel. lia.
  - intros p t HV HB. vm_compute in HV. injection HV as <-. injection HB as <-. exists [120]. reflexivity.
  - exact chain_links.
  - exists A, A1, A2, Ain, A'. split; [exact RD|]. split; [exact ET|]. split; [exact (target_is_ok _ _ U2)|exact MT].
Qed.

Print Assumptions C72_main_page_first.
Print Assumptions C72_without_main_page.
Print Assumptions C72_with_main_page_partial.
Print Assumptions C72_history_main_partial.
Print Assumptions C72_main_example.
Print Assumptions C72_main_page_changes.
