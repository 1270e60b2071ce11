(** C72: [ZimTranslator] copies an archive.  False of the code as it is: an archive
    without a main page or without redirects is not copied; true, without
    [handle_header], for the pages of archives that have redirects. *)
From Coq Require Import List ZArith Bool Lia Permutation Strings.Byte.
From Coq Require Import ZifyBool ZifyNat.
From Verif Require Import Base BaseProofs Utf8 Utf8Proofs Infobyte Header HeaderSpec HeaderProofs MimeTypeList MimeTypeListSpec Entry EntrySpec Reader ReaderSpec Decompressors DecompressorsProofs Blob BlobProofs
  PointerList PointerListProofs SpaceAllocator Cluster ClusterSpec ClusterProofs ClusterWrapper ClusterWrapperSpec ClusterWrapperProofs Archive ArchiveSpec ArchiveProofs ArchiveFacts ArchiveLaws ArchiveObserve
  ArchiveCluster ArchiveClusterSpec ArchiveClusterProofs CompressionStrategy CompressionStrategySpec CompressionStrategyProofs OperationBuffer OperationBufferSpec OperationBufferProofs EntryObject IterByCluster PropsIterByCluster
  Flush FlushSpec FlushProofs FlushTailProofs FlushOpenProofs FlushHistorySpec FlushHistoryProofs FlushCreateProofs ViewSpec ViewProofs ViewEditProofs ViewStepProofs ViewWaitProofs ViewHistoryProofs
  Metadata MetadataSpec Translator TranslatorSpec TranslatorProofs PropsArchiveCluster PropsCompressionStrategy PropsFlush PropsView PropsMainPage PropsMetadata.
Import ListNotations.
Open Scope Z_scope.

Section Translator.
Variable fuel : nat.
Context {D : Type}.
Variable dc : decomp D.
Variable new_decomp : ctype -> res D.
Context {K : Type}.
Variable new_comp : ctype -> res K.
Variable comp : K -> bytes -> res (bytes * K).
Variable flush : K -> res bytes.
Variable depth : nat.
Variable kd : ckind.
Variable Stream : ctype -> bytes -> bytes -> Prop.
Context {H : Type}.
Variable md5 : H.
Variable feed : H -> bytes -> H.
Variable digest : H -> bytes.
Variable truncate : bool.
Variable process_blob : entry -> M zim unit.
Variable rounds : nat.
Notation opens := (open_zim fuel dc new_decomp new_comp comp flush depth kd).
Notation fsuff reserve := (flush_suffices fuel dc new_decomp new_comp comp flush depth kd Stream md5 feed digest reserve truncate process_blob rounds).
Notation shows := (shows fuel dc new_decomp kd).
Notation copyl := (copy_urls fuel dc new_decomp new_comp comp flush depth kd).
Notation copyg := (copy_groups fuel dc new_decomp new_comp comp flush depth kd).
Notation translates reserve := (translate fuel dc new_decomp new_comp comp flush depth kd md5 feed digest reserve truncate process_blob rounds).
Notation runs reserve := (vruns fuel dc new_decomp new_comp comp flush depth kd Stream md5 feed digest reserve truncate process_blob rounds).
Notation begins := (begins fuel dc new_decomp new_comp comp flush depth kd Stream).

Hypothesis CD : codec_ok dc new_decomp new_comp comp flush Stream.
Hypothesis HO : hash_ok feed digest.

Lemma copy_app : forall Ain us vs A, copyl Ain (us ++ vs) A = (let* _ := copyl Ain us in copyl Ain vs) A.
Proof.
  intros Ain. induction us as [|u us IH]; intros vs A; [reflexivity|]. cbn [app copy_urls]. unfold mbind. destruct (copy_url _ _ _ _ _ _ _ _ _ u A) as [[[]|] B]; [|reflexivity]. rewrite IH. reflexivity.
Qed.
Lemma groups_urls : forall Ain gs A, copyg Ain gs A = copyl Ain (concat gs) A.
Proof.
  intros Ain. induction gs as [|g gs IH]; intro A; [reflexivity|]. cbn [copy_groups concat]. rewrite copy_app. unfold mbind. destruct (copyl Ain g A) as [[[]|] B]; [apply IH|reflexivity].
Qed.
Lemma new_header : forall r u sc sp A, init_new fuel new_comp comp flush depth r u sc sp = Ok A -> ho_dirty (fa_header A) = true.
Proof.
  intros r u sc sp A E. unfold init_new in E. destruct (init_state r u sc sp) as [A0|] eqn:EI; cbn [bind] in E; [|discriminate E].
  destruct (add_placeholder fuel new_comp comp flush depth A0) as [[[]|] A1] eqn:EP; cbn [bind] in E; [|discriminate E]. injection E as <-.
  unfold init_state in EI. cbv zeta in EI. destruct (header_to_bytes _); cbn [bind] in EI; [|discriminate EI]. injection EI as <-.
  unfold add_placeholder, mbind in EP. unfold fa_add_item in EP. destruct (zim_add_item _ _ _ _ _ _ _ _) as [[[]|] z]; [|discriminate EP]. destruct (any_flush _ _ _ _ _ _) as [q [s y]]. injection EP as _ <-. reflexivity.
Qed.
Lemma new_reached : forall r u sc sp A V, 0 <= r -> (0 < fuel)%nat -> zlen u = 16 -> fresh_strategy sc -> fresh_strategy sp -> init_new fuel new_comp comp flush depth (Some r) u sc sp = Ok A -> suffices fuel Stream (Some r) A ->
  reached fuel Stream (Some r) (Z.max (limit_of sc) (limit_of sp)) V A [].
Proof.
  intros r u sc sp A V Hr F0 HU F1 F2 IN (_ & FA & _). set (mx := Z.max (limit_of sc) (limit_of sp)).
  destruct (created fuel dc new_decomp new_comp comp flush depth Stream CD mx r Hr F0 u sc sp A HU F1 F2) as (cells & L & LO & P1 & P2 & B1 & B2 & DI & EU & EA & ZL & UU); [lia|lia|exact IN|].
  pose proof (ao_entries _ _ _ _ (lo_arch _ _ _ _ _ LO)) as CS.
  assert (SH : shows A empty_view). { intros x NL e G. apply (lookup_iff _ _ _ _ CS) in G as (G1 & G2). apply (in_map full_url) in G1. rewrite EU, G2 in G1. destruct G1 as [G1|[]]. apply NL. left. congruence. }
  pose proof (shows_table fuel dc new_decomp new_comp comp flush kd Stream (Some r) md5 feed digest process_blob CD A cells L _ LO (FA _ _ LO) SH) as T. rewrite <- B1 in T.
  exists cells, L, [], [], empty_view. split; [constructor; auto; [constructor|left; exact B2]|]. split; [intro Q; congruence|]. split; [exact B2|]. split; [exact (new_header _ _ _ _ _ IN)|]. split; [rewrite B1; reflexivity|].
  intro x. split; [intros []|]. split; [intros []|reflexivity].
Qed.

(** Everything that is copied fits: there are [us] that have been copied. *)
Definition roomy reserve (n : Z) (Ain A : farchive) (us : list ustr) : Prop :=
  forall us1 us2 B, us = us1 ++ us2 -> copyl Ain us1 A = (Ok tt, B) -> within_limits fuel Stream reserve B /\ counts n B /\ fsuff reserve B.

(** *** C72.  [X] is an archive with table [V] and [Ain] the same archive, as it is
    read by the translator.  If the translator, with a [handle_header] that does nothing,
    returns, then its output has the pages of [V], without the lists of titles and the
    counter; the file of the output is opened with these pages. *)
Theorem C72_copy_partial : forall rin X cells L V Ain r u sc sp A A' n w sc' sp', laid_out Stream rin X cells L -> suffices fuel Stream rin X -> shows X V -> same_archive X Ain -> copyable V ->
  0 <= r -> zlen u = 16 -> fresh_strategy sc -> fresh_strategy sp -> init_new fuel new_comp comp flush depth (Some r) u sc sp = Ok A ->
  zlen (concat (fst (iter_by_cluster (fa_zim X)))) <= n -> roomy (Some r) n Ain A (concat (fst (iter_by_cluster (fa_zim X)))) ->
  translates (Some r) Ain (ret tt) A = (Ok tt, A') ->
  exists W, copy_of V W /\ shows A' W /\ exists B, opens (fa_file A') w sc' sp' = Ok B /\ same_archive A' B /\ shows B W.
Proof.
  intros rin X cells L V Ain r u sc sp A A' n w sc' sp' LO SUX SH SA CV Hr HU F1 F2 IN ZN RO E. destruct SUX as (F0 & FA & _).
  pose proof (laid_consistent _ _ _ _ _ LO) as C. destruct (C51_no_url_twice _ _ C) as (ND & IU). unfold translate, mbind, ret in E.
  rewrite (groups_ext (fa_zim X) (fa_zim Ain) (sm_file _ _ SA) (sm_urls _ _ SA)) in E. destruct (iter_by_cluster (fa_zim X)) as [gs how]. cbn [fst] in *. set (us := concat gs) in *.
  rewrite groups_urls in E. fold us in E. destruct (copyl Ain us A) as [[[]|] A1] eqn:E1; [|discriminate E]. destruct how; [|discriminate E].
  destruct (RO [] us A eq_refl eq_refl) as ((SU0 & _) & _).
  pose proof (new_reached r u sc sp A V Hr F0 HU F1 F2 IN SU0) as R0. set (mx := Z.max (limit_of sc) (limit_of sp)) in *.
  assert (R1 : reached fuel Stream (Some r) mx V A1 us).
  { change us with ([] ++ us). eapply (copies fuel dc new_decomp new_comp comp flush depth kd Stream md5 feed digest (Some r) truncate process_blob rounds CD mx rin X cells L V Ain LO (FA _ _ LO) SH SA CV us n A [] A1 R0 ND ZN); [|exact E1].
    intros us1 us2 B EQ EB. destruct (RO us1 us2 B EQ EB) as (Q1 & Q2 & _). auto. }
  destruct R1 as (cells1 & L1 & Pc & Pp & W & VC & CL & MA & HD & ZD & PW). destruct (RO us [] A1 ltac:(rewrite app_nil_r; reflexivity) E1) as (WL & CT & FS).
  unfold finalize_out, mbind in E. destruct (zim_flush _ _ _ _ _ _ _ _ _ _ _ _ _ _ _ A1) as [[[]|] A2] eqn:E2; [|discriminate E].
  assert (DI : is_dirty A1 = true) by (unfold is_dirty; rewrite HD; destruct (fa_dirty A1); reflexivity).
  destruct (vflush_step fuel dc new_decomp new_comp comp flush depth kd Stream (Some r) md5 feed digest truncate process_blob rounds CD HO mx A1 cells1 L1 Pc Pp W n A2 VC CL (or_introl DI) CT ltac:(lia) (proj2 WL) FS E2)
    as (cells2 & L2 & VC2 & SE & RE & _).
  pose proof SE as (ND2 & _). rewrite ND2 in E. injection E as <-.
  pose proof (vc_laid _ _ _ _ _ _ _ _ _ _ VC2) as LO2. pose proof (vc_table _ _ _ _ _ _ _ _ _ _ VC2) as T. rewrite RE in T. destruct (proj2 FS A2 E2) as (_ & FA2 & _).
  pose proof (table_shows fuel dc new_decomp new_comp comp flush kd Stream (Some r) process_blob CD A2 cells2 L2 _ LO2 (FA2 _ _ LO2) T) as SH2.
  exists W. split; [|split; [exact SH2|]].
  - intro x. destruct (PW x) as (P1 & P2 & P3). split.
    + intro LX. destruct (in_dec (list_eq_dec Z.eq_dec) x us) as [I|I]; auto.
    + intro NX. assert (NL : ~ listing (fa_zim X) x) by (intro Q; apply NX; eapply listing_left_out; exact Q). specialize (SH x NL).
      destruct (in_dec (list_eq_dec Z.eq_dec) x us) as [I|I]; [exact (P2 I NX)|]. rewrite (P3 I). destruct (V x) as [p|]; [|reflexivity]. exfalso. apply I. apply IU. destruct SH as (e & _ & G & _). eauto.
  - destruct (open_settled fuel dc new_decomp new_comp comp flush depth kd Stream (Some r) md5 feed digest CD w sc' sp' A2 cells2 L2 LO2 SE (FA2 _ _ LO2) F0) as (B & EB & SB & _). exists B. split; [exact EB|]. split; [exact SB|].
    eapply same_shows; eassumption.
Qed.
(** *** C72 for the histories of C65: the archive that is copied was made by one, and opened from its file. *)
Theorem C72_history_partial : forall rin m A0 V ops A1 A2 w1 sc1 sp1 Ain r u sc sp A A' n w sc' sp', begins rin A0 V -> runs rin m A0 V ops A1 -> runs rin m A1 (vsteps V ops) [VFlush] A2 -> vadds ops <= m ->
  opens (fa_file A2) w1 sc1 sp1 = Ok Ain -> copyable (vsteps V ops) ->
  0 <= r -> zlen u = 16 -> fresh_strategy sc -> fresh_strategy sp -> init_new fuel new_comp comp flush depth (Some r) u sc sp = Ok A ->
  zlen (concat (fst (iter_by_cluster (fa_zim Ain)))) <= n -> roomy (Some r) n Ain A (concat (fst (iter_by_cluster (fa_zim Ain)))) ->
  translates (Some r) Ain (ret tt) A = (Ok tt, A') ->
  exists W, copy_of (vsteps V ops) W /\ shows A' W /\ exists B, opens (fa_file A') w sc' sp' = Ok B /\ same_archive A' B /\ shows B W.
Proof.
  intros rin m A0 V ops A1 A2 w1 sc1 sp1 Ain r u sc sp A A' n w sc' sp' BG R1 R2 Z EO CV Hr HU F1 F2 IN ZN RO E.
  destruct (flushed fuel dc new_decomp new_comp comp flush depth kd Stream md5 feed digest truncate process_blob rounds CD HO rin m A0 V ops A1 A2 BG R1 R2 Z) as (cells & L & C & SH & _ & _ & OP & LO).
  destruct (OP w1 sc1 sp1) as (Ain' & EO' & SA & _). rewrite EO in EO'. injection EO' as <-. assert (SU : suffices fuel Stream rin A2) by (inversion R2 as [|? ? ? ? ? ? _ _ _ _ _ R3]; subst; inversion R3 as [? ? W2 CT2|]; subst; exact (proj1 W2)).
  rewrite (groups_ext (fa_zim A2) (fa_zim Ain) (sm_file _ _ SA) (sm_urls _ _ SA)) in ZN, RO.
  exact (C72_copy_partial rin A2 cells L (vsteps V ops) Ain r u sc sp A A' n w sc' sp' LO SU SH SA CV Hr HU F1 F2 IN ZN RO E).
Qed.
End Translator.


(** ** The full claim *)
(** An archive is made by a history of C65, flushed and opened from its file; it fits into a new archive. Then the
    translator returns and the new archive has the pages and the main page of the other one.  [own]: the translator's own
    [handle_header] is used; otherwise it is one that does nothing. *)
Definition copies_everything (own : bool) : Prop :=
  forall fuel D (dc : decomp D) new_decomp K new_comp comp flush depth kd Stream H (md5 : H) feed digest reserve truncate process_blob rounds,
  codec_ok (K:=K) dc new_decomp new_comp comp flush Stream -> hash_ok feed digest ->
  forall m A0 ops A1 A2 w1 sc1 sp1 Ain r u sc sp A n,
  begins fuel dc new_decomp new_comp comp flush depth kd Stream reserve A0 empty_view ->
  vruns fuel dc new_decomp new_comp comp flush depth kd Stream md5 feed digest reserve truncate process_blob rounds m A0 empty_view ops A1 ->
  vruns fuel dc new_decomp new_comp comp flush depth kd Stream md5 feed digest reserve truncate process_blob rounds m A1 (vsteps empty_view ops) [VFlush] A2 -> vadds ops <= m ->
  open_zim fuel dc new_decomp new_comp comp flush depth kd (fa_file A2) w1 sc1 sp1 = Ok Ain ->
  0 <= r -> zlen u = 16 -> fresh_strategy sc -> fresh_strategy sp -> init_new fuel new_comp comp flush depth (Some r) u sc sp = Ok A ->
  zlen (concat (fst (iter_by_cluster (fa_zim Ain)))) <= n ->
  roomy fuel dc new_decomp new_comp comp flush depth kd Stream md5 feed digest truncate process_blob rounds (Some r) n Ain A (concat (fst (iter_by_cluster (fa_zim Ain)))) ->
  exists A' W, translate fuel dc new_decomp new_comp comp flush depth kd md5 feed digest (Some r) truncate process_blob rounds Ain (if own then handle_header fuel depth process_blob Ain else ret tt) A = (Ok tt, A') /\
    copy_of (vsteps empty_view ops) W /\ shows fuel dc new_decomp kd A' W /\ (own = true -> main_target (fa_zim A') = main_target (fa_zim Ain)).
Definition C72_full_statement : Prop := copies_everything true.
Definition C72_pages_full_statement : Prop := copies_everything false.

Notation sample_translate := (translate sample_fuel passthrough plain_new plain_new_comp plain_comp plain_flush 6 KRemembering 0 sample_feed sample_digest (Some 50) true (fun _ => ret tt) 3).
Notation sample_header := (handle_header sample_fuel 6 (fun _ => ret tt)).
Notation sample_copyu := (copy_url sample_fuel passthrough plain_new plain_new_comp plain_comp plain_flush 6 KRemembering).
Notation sample_roomy := (roomy sample_fuel passthrough plain_new plain_new_comp plain_comp plain_flush 6 KRemembering plain_stream 0 sample_feed sample_digest true (fun _ => ret tt) 3 (Some 50)).
Fixpoint roomy_b (n : Z) (X : farchive) (us : list ustr) (A : farchive) : bool :=
  few A && counts_b n A && flush_small A && match us with [] => true | u :: us' => match sample_copyu X u A with (Ok _, B) => roomy_b n X us' B | (Err _, _) => true end end.
Lemma roomy_ok : forall n X us A, roomy_b n X us A = true -> sample_roomy n X A us.
Proof.
  intros n X. induction us as [|u us IH]; intros A Q us1 us2 B EQ E; cbn [roomy_b] in Q; apply andb_true_iff in Q as (Q & QR); apply andb_true_iff in Q as (Q & Q3); apply andb_true_iff in Q as (Q1 & Q2);
    (assert (HA : within_limits sample_fuel plain_stream (Some 50) A /\ counts n A /\
       flush_suffices sample_fuel passthrough plain_new plain_new_comp plain_comp plain_flush 6 KRemembering plain_stream 0 sample_feed sample_digest (Some 50) true (fun _ => ret tt) 3 A)
     by (split; [apply few_ok; exact Q1|split; [unfold counts_b in Q2; unfold counts; lia|apply flush_small_suffices; exact Q3]])).
  - destruct us1; [|discriminate EQ]. injection E as <-. exact HA.
  - destruct us1 as [|u1 us1]; [injection E as <-; exact HA|]. injection EQ as <- EQ. cbn [copy_urls] in E. unfold mbind in E. destruct (sample_copyu X u A) as [[[]|] B1]; [|discriminate E]. eapply IH; eassumption.
Qed.
(** [ops] are performed in a new archive, which is flushed and opened from its file, to be read. *)
Definition copy_dom : list ustr := [[67; 97]; [67; 98]; [67; 120]; URL_MAINPAGE_REDIRECT].
Definition copy_run (ops : list vop) (r : res farchive) : option (farchive * farchive * farchive * farchive) :=
  match r with
  | Ok A => match sample_vrun 100 copy_dom A empty_view ops with
            | Some A1 => match sample_vrun 100 copy_dom A1 (vsteps empty_view ops) [VFlush] with
                         | Some A2 => match sample_open (fa_file A2) false sample_simple sample_simple with
                                      | Ok Ain => if (zlen (concat (fst (iter_by_cluster (fa_zim Ain)))) <=? 100) && roomy_b 100 Ain (concat (fst (iter_by_cluster (fa_zim Ain)))) A then Some (A, A1, A2, Ain) else None
                                      | Err _ => None
                                      end
                         | None => None
                         end
            | None => None
            end
  | Err _ => None
  end.
Record ready (ops : list vop) (A A1 A2 Ain : farchive) : Prop := mkReady {
  rd_new : sample_created = Ok A;
  rd_runs : sample_vruns 100 A empty_view ops A1;
  rd_flush : sample_vruns 100 A1 (vsteps empty_view ops) [VFlush] A2;
  rd_open : sample_open (fa_file A2) false sample_simple sample_simple = Ok Ain;
  rd_count : zlen (concat (fst (iter_by_cluster (fa_zim Ain)))) <= 100;
  rd_roomy : sample_roomy 100 Ain A (concat (fst (iter_by_cluster (fa_zim Ain)))) }.
Lemma copy_run_ok : forall ops A A1 A2 Ain, Forall side_ok ops -> incl (touches empty_view ops) copy_dom -> copy_run ops sample_created = Some (A, A1, A2, Ain) -> ready ops A A1 A2 Ain.
Proof.
  intros ops A A1 A2 Ain SO T1 E. unfold copy_run in E. destruct sample_created as [A0|] eqn:EC; [|discriminate E]. destruct (sample_vrun 100 copy_dom A0 empty_view ops) as [B1|] eqn:E1; [|discriminate E].
  destruct (sample_vrun 100 copy_dom B1 (vsteps empty_view ops) [VFlush]) as [B2|] eqn:E2; [|discriminate E]. destruct (sample_open (fa_file B2) false sample_simple sample_simple) as [X|] eqn:E3; [|discriminate E].
  destruct ((zlen _ <=? 100) && roomy_b 100 X _ A0) eqn:E4; [|discriminate E]. injection E as <- <- <- <-. apply andb_true_iff in E4 as (E4 & E5).
  constructor; [exact EC| | |exact E3|lia|apply roomy_ok; exact E5].
  - eapply (sample_vrun_ok 100 copy_dom); [|exact T1|exact SO|exact E1]. intros x Q. elim Q. reflexivity.
  - eapply (sample_vrun_ok 100 copy_dom); [| |repeat constructor|exact E2].
    + intros x Q. destruct (touches_ok ops empty_view x Q) as [Q2|Q2]; [apply T1; exact Q2|elim Q2; reflexivity].
    + intros x Q. vm_compute in Q. destruct Q.
Qed.
(** What the translator does with it. *)
Definition outcome_of (own : bool) (ops : list vop) (f : res unit -> farchive -> farchive -> bool) (r : res farchive) : bool :=
  match copy_run ops r with Some (A, _, _, Ain) => let (q, A') := sample_translate Ain (if own then sample_header Ain else ret tt) A in f q A' Ain | None => false end.
Lemma outcome_parts : forall own ops f, Forall side_ok ops -> incl (touches empty_view ops) copy_dom -> outcome_of own ops f sample_created = true ->
  exists A A1 A2 Ain q A', ready ops A A1 A2 Ain /\ sample_translate Ain (if own then sample_header Ain else ret tt) A = (q, A') /\ f q A' Ain = true.
Proof.
  intros own ops f SO T Q. unfold outcome_of in Q. destruct (copy_run ops sample_created) as [[[[A A1] A2] Ain]|] eqn:E; [|discriminate Q]. destruct (sample_translate Ain _ A) as [q A'] eqn:ET.
  exists A, A1, A2, Ain, q, A'. split; [apply copy_run_ok; assumption|]. auto.
Qed.

(** *** Refutations *)
(** An archive with one page has no main page: [handle_header] raises. *)
Definition lone_ops : list vop := [VAdd item_a [x41] false].
Lemma a_ok : item_ok sample_fuel item_a [x41].
Proof. eapply larger_ok; [exact item_a_ok|unfold sample_fuel; lia]. Qed.
Lemma b_ok : item_ok sample_fuel item_b [x42].
Proof. eapply larger_ok; [exact item_b_ok|unfold sample_fuel; lia]. Qed.
Lemma lone_side : Forall side_ok lone_ops.
Proof. constructor; [exact a_ok|constructor]. Qed.
Lemma lone_dom : incl (touches empty_view lone_ops) copy_dom.
Proof. intros x HX. vm_compute in HX. vm_compute. tauto. Qed.
Definition unwritten (q : res unit) (A' Ain : farchive) : bool := match q with Err _ => is_dirty A' && negb (found_b A' [67; 97]) && found_b Ain [67; 97] | Ok _ => false end.
Lemma lone_header : outcome_of true lone_ops unwritten sample_created = true.
Proof. vm_compute. reflexivity. Qed.
(** It has no redirect: with another [handle_header], [translate] raises before the new archive is flushed, which does not get the page. *)
Lemma lone_pages : outcome_of false lone_ops unwritten sample_created = true.
Proof. vm_compute. reflexivity. Qed.
Lemma unwritten_ok : forall own, outcome_of own lone_ops unwritten sample_created = true -> exists A A1 A2 Ain x A', ready lone_ops A A1 A2 Ain /\ sample_translate Ain (if own then sample_header Ain else ret tt) A = (Err x, A') /\
  (exists e, get_entry_by_full_url (fa_zim Ain) [67; 97] = Ok e) /\ (forall e, get_entry_by_full_url (fa_zim A') [67; 97] <> Ok e) /\ is_dirty A' = true.
Proof.
  intros own Q. destruct (outcome_parts own lone_ops unwritten lone_side lone_dom Q) as (A & A1 & A2 & Ain & q & A' & RD & ET & U). destruct q as [|x]; [discriminate U|]. cbn [unwritten] in U. apply andb_true_iff in U as (U & U3). apply andb_true_iff in U as (U1 & U2).
  unfold found_b in *. exists A, A1, A2, Ain, x, A'. split; [exact RD|]. split; [exact ET|]. split; [destruct (get_entry_by_full_url (fa_zim Ain) [67; 97]); [eauto|discriminate U3]|]. split; [|exact U1]. intros e G. rewrite G in U2. discriminate U2.
Qed.
Example C72_no_main_page : exists A A1 A2 Ain x A', ready lone_ops A A1 A2 Ain /\ sample_translate Ain (sample_header Ain) A = (Err x, A') /\
  (exists e, get_entry_by_full_url (fa_zim Ain) [67; 97] = Ok e) /\ (forall e, get_entry_by_full_url (fa_zim A') [67; 97] <> Ok e) /\ is_dirty A' = true.
Proof. exact (unwritten_ok true lone_header). Qed.
Example C72_no_redirect : exists A A1 A2 Ain x A', ready lone_ops A A1 A2 Ain /\ sample_translate Ain (ret tt) A = (Err x, A') /\
  (exists e, get_entry_by_full_url (fa_zim Ain) [67; 97] = Ok e) /\ (forall e, get_entry_by_full_url (fa_zim A') [67; 97] <> Ok e) /\ is_dirty A' = true.
Proof. exact (unwritten_ok false lone_pages). Qed.
Lemma raises_fails : forall (own : bool) ops A A1 A2 Ain x A', ready ops A A1 A2 Ain -> sample_translate Ain (if own then sample_header Ain else ret tt) A = (Err x, A') -> vadds ops <= 100 -> ~ copies_everything own.
Proof.
  intros own ops A A1 A2 Ain x A' RD ET Z F. pose proof RD as [E R1 R2 EO ZN RO]. destruct sample_zops_ok as (_ & _ & _ & FS & FM).
  destruct (F sample_fuel _ passthrough plain_new _ plain_new_comp plain_comp plain_flush 6%nat KRemembering plain_stream _ 0 sample_feed sample_digest (Some 50) true (fun _ => ret tt) 3%nat plain_codec sample_hash
    100 A ops A1 A2 false sample_simple sample_simple Ain 50 sample_uuid sample_simple sample_mime A 100 (new_begins A E) R1 R2 Z EO ltac:(lia) eq_refl FS FM E ZN RO) as (B & W & ET2 & _). rewrite ET in ET2. discriminate ET2.
Qed.
Theorem C72_refuted : ~ C72_full_statement.
Proof. destruct C72_no_main_page as (A & A1 & A2 & Ain & x & A' & RD & ET & _). exact (raises_fails true lone_ops A A1 A2 Ain x A' RD ET ltac:(vm_compute; discriminate)). Qed.
Theorem C72_pages_refuted : ~ C72_pages_full_statement.
Proof. destruct C72_no_redirect as (A & A1 & A2 & Ain & x & A' & RD & ET & _). exact (raises_fails false lone_ops A A1 A2 Ain x A' RD ET ltac:(vm_compute; discriminate)). Qed.

(** A redirect that has its url as its title gets the title of its target. *)
Definition alias_ops : list vop := [VAdd item_b [x42] false; VLink [67; 120] [67; 98] (Some [120])].
Lemma alias_side : Forall side_ok alias_ops.
Proof. constructor; [exact b_ok|]. constructor; [exact I|constructor]. Qed.
Lemma alias_dom : incl (touches empty_view alias_ops) copy_dom.
Proof. intros x HX. vm_compute in HX. vm_compute. tauto. Qed.
Definition titled (u t : ustr) (A : farchive) : bool := match get_entry_by_full_url (fa_zim A) u with Ok e => ueqb (title e) t | Err _ => false end.
Lemma titled_ok : forall u t A, titled u t A = true -> exists e, get_entry_by_full_url (fa_zim A) u = Ok e /\ title e = t.
Proof. intros u t A Q. unfold titled in Q. destruct (get_entry_by_full_url (fa_zim A) u) as [e|]; [|discriminate Q]. apply ueqb_eq in Q. eauto. Qed.
Definition retitled (q : res unit) (A' Ain : farchive) : bool := match q with Ok _ => titled [67; 120] [65] A' && titled [67; 120] [120] Ain | Err _ => false end.
Lemma alias_retitled : outcome_of false alias_ops retitled sample_created = true.
Proof. vm_compute. reflexivity. Qed.
Example C72_title_changes : exists A A1 A2 Ain A' e e', ready alias_ops A A1 A2 Ain /\ sample_translate Ain (ret tt) A = (Ok tt, A') /\
  get_entry_by_full_url (fa_zim Ain) [67; 120] = Ok e /\ title e = [120] /\ get_entry_by_full_url (fa_zim A') [67; 120] = Ok e' /\ title e' = [65].
Proof.
  destruct (outcome_parts false alias_ops retitled alias_side alias_dom alias_retitled) as (A & A1 & A2 & Ain & q & A' & RD & ET & U). destruct q as [[]|]; [|discriminate U]. cbn [retitled] in U. apply andb_true_iff in U as (U1 & U2).
  destruct (titled_ok _ _ _ U1) as (e' & G1 & T1). destruct (titled_ok _ _ _ U2) as (e & G2 & T2). exists A, A1, A2, Ain, A', e, e'. repeat (split; [assumption|]). exact T1.
Qed.

(** ** Cases of the theorems *)
(** Two pages, one of them an article, and a redirect. *)
Definition full_ops : list vop := [VAdd item_a [x41] false; VAdd item_b [x42] true; VLink [67; 120] [67; 98] (Some [84])].
Lemma full_side : Forall side_ok full_ops.
Proof. constructor; [exact a_ok|]. constructor; [exact b_ok|]. constructor; [exact I|constructor]. Qed.
Lemma full_dom : incl (touches empty_view full_ops) copy_dom.
Proof. intros x HX. vm_compute in HX. vm_compute. tauto. Qed.
Definition returns (q : res unit) (A' Ain : farchive) : bool := match q with Ok _ => true | Err _ => false end.
Lemma full_returns : outcome_of false full_ops returns sample_created = true.
Proof. vm_compute. reflexivity. Qed.
Lemma full_copyable : copyable (vsteps empty_view full_ops).
Proof.
  intros u p t HV HB. assert (N : vsteps empty_view full_ops u <> None) by congruence. destruct (touches_ok full_ops empty_view u N) as [Q|Q]; [|elim Q; reflexivity].
  vm_compute in Q. destruct Q as [<-|[<-|[<-|[]]]]; vm_compute in HV; injection HV as <-; try discriminate HB. injection HB as <-. split; [discriminate|]. split; [reflexivity|]. split; [discriminate|].
  split; intros [Q|[Q|Q]]; discriminate Q.
Qed.
Example C72_example : exists A A1 A2 Ain A' B W, ready full_ops A A1 A2 Ain /\ sample_translate Ain (ret tt) A = (Ok tt, A') /\ sample_open (fa_file A') false sample_simple sample_simple = Ok B /\
  shows sample_fuel passthrough plain_new KRemembering B W /\
  W [67; 97] = Some (mkPage [97] true (Data [x6d] [x41])) /\ W [67; 98] = Some (mkPage [65] false (Data [x6d] [x42])) /\ W [67; 120] = Some (mkPage [84] false (Link [67; 98])) /\ W [67; 121] = None.
Proof.
  destruct (outcome_parts false full_ops returns full_side full_dom full_returns) as (A & A1 & A2 & Ain & q & A' & RD & ET & U). destruct q as [[]|]; [|discriminate U]. pose proof RD as [E R1 R2 EO ZN RO]. destruct sample_zops_ok as (_ & _ & _ & FS & FM).
  destruct (C72_history_partial sample_fuel passthrough plain_new plain_new_comp plain_comp plain_flush 6 KRemembering plain_stream 0 sample_feed sample_digest true (fun _ => ret tt) 3 plain_codec sample_hash
    (Some 50) 100 A empty_view full_ops A1 A2 false sample_simple sample_simple Ain 50 sample_uuid sample_simple sample_mime A A' 100 false sample_simple sample_simple (new_begins A E) R1 R2 ltac:(vm_compute; discriminate) EO full_copyable ltac:(lia) eq_refl FS FM E ZN RO ET)
    as (W & CW & _ & B & EB & _ & SB).
  exists A, A1, A2, Ain, A', B, W. split; [exact RD|]. split; [exact ET|]. split; [exact EB|]. split; [exact SB|].
  assert (NL : forall c, ~ left_out [67; c]) by (intros c [Q|[Q|Q]]; discriminate Q).
  repeat split; rewrite (proj2 (CW _) (NL _)); reflexivity.
Qed.

Print Assumptions C72_copy_partial.
Print Assumptions C72_history_partial.
Print Assumptions C72_refuted.
Print Assumptions C72_pages_refuted.
Print Assumptions C72_no_main_page.
Print Assumptions C72_no_redirect.
Print Assumptions C72_title_changes.
Print Assumptions C72_example.
