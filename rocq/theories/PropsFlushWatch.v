(** C95: what processors are told when an archive is flushed or closed. *)
From Coq Require Import List ZArith Bool Lia Permutation Strings.Byte.
From Coq Require Import ZifyBool ZifyNat.
From Verif Require Import Base BaseProofs Utf8 Utf8Proofs Infobyte Header HeaderSpec HeaderProofs MimeTypeList MimeTypeListSpec Entry EntrySpec Reader ReaderSpec Decompressors DecompressorsProofs Blob BlobProofs
  PointerList PointerListProofs SpaceAllocator Cluster ClusterSpec ClusterProofs ClusterWrapper ClusterWrapperSpec ClusterWrapperProofs Archive ArchiveSpec ArchiveProofs ArchiveFacts ArchiveObserve
  ArchiveCluster ArchiveClusterSpec ArchiveClusterProofs ArchiveFrame ArchiveEntryCluster CompressionStrategy CompressionStrategySpec CompressionStrategyProofs OperationBuffer OperationBufferSpec EntryObject Flush FlushSpec FlushProofs FlushTailProofs FlushOpenProofs
  FlushHistorySpec FlushHistoryProofs FlushCreateProofs ViewSpec ViewProofs ViewEditProofs ViewStepProofs ViewWaitProofs ViewHistoryProofs PropsArchiveCluster PropsCompressionStrategy PropsFlush PropsView CrashSpec PropsCrash FlushWatch.
Import ListNotations.
Open Scope Z_scope.


(** ** What is claimed *)
(** What the processors are told by a flush of [A] that ends with [A']: first
    that the archive, as it is, will be flushed, then that all content has been
    written, and at the end that the archive has been flushed. *)
Definition flush_told (A C A' : farchive) : list (moment * farchive) := [(BeforeFlush, A); (AfterContentFlush, C); (AfterFlush, A')].

Section Watch.
Variable fuel : nat.
Context {D : Type}.
Variable dc : decomp D.
Variable new_decomp : ctype -> res D.
Context {K : Type}.
Variable new_comp : ctype -> res K.
Variable comp : K -> bytes -> res (bytes * K).
Variable flush : K -> res bytes.
Variable depth : nat.
Variable kd : ckind.
Variable Stream : ctype -> bytes -> bytes -> Prop.
Context {H : Type}.
Variable md5 : H.
Variable feed : H -> bytes -> H.
Variable digest : H -> bytes.
Variable truncate : bool.
Variable process_blob : entry -> M zim unit.
Variable rounds : nat.
Hypothesis CD : codec_ok dc new_decomp new_comp comp flush Stream.
Hypothesis HO : hash_ok feed digest.
Notation runs reserve := (vruns fuel dc new_decomp new_comp comp flush depth kd Stream md5 feed digest reserve truncate process_blob rounds).
Notation opens := (open_zim fuel dc new_decomp new_comp comp flush depth kd).
Notation shows := (shows fuel dc new_decomp kd).
Notation flushing reserve := (watched_flush fuel dc new_decomp new_comp comp flush depth kd md5 feed digest reserve truncate process_blob rounds).
Notation closing reserve := (watched_close fuel dc new_decomp new_comp comp flush depth kd md5 feed digest reserve truncate process_blob rounds).
Notation flushes reserve := (flushes fuel dc new_decomp new_comp comp flush depth kd md5 feed digest reserve truncate process_blob rounds).

(** *** The processors do not matter for the archive. *)
Lemma watched_parts : forall reserve A l, modified A = true -> forall w r, flushing reserve (mkWatch A false l) = (r, w) ->
  r = fst (flushes reserve A) /\ wa_arch w = snd (flushes reserve A) /\ wa_closed w = false /\
  (r = Ok tt -> exists A1 C, sync_main A = (Ok tt, A1) /\ is_dirty A1 = true /\ flush_content fuel new_comp comp flush depth process_blob rounds A1 = (Ok tt, C) /\ wa_told w = l ++ flush_told A C (wa_arch w)).
Proof.
  intros reserve A l MO w r E. unfold modified in MO. unfold watched_flush in E. cbn [wa_closed] in E. unfold told, on_arch, mbind in E. cbn [wa_arch wa_closed wa_told] in E. unfold FlushHistorySpec.flushes, zim_flush, mbind.
  destruct (sync_main A) as [[[]|e] A1] eqn:ES; [|injection E as <- <-; repeat split; discriminate]. cbn [snd] in MO. cbn [wa_arch wa_closed wa_told] in E. rewrite MO in E |- *. cbn [negb] in E |- *.
  destruct (flush_content fuel new_comp comp flush depth process_blob rounds A1) as [[[]|e] C] eqn:EC; [|injection E as <- <-; repeat split; discriminate]. cbn [wa_arch wa_closed wa_told] in E.
  destruct (flush_tail fuel dc new_decomp new_comp comp flush depth kd md5 feed digest reserve truncate C) as [[[]|e] A2]; [|injection E as <- <-; repeat split; discriminate].
  injection E as <- <-. cbn [fst snd wa_arch wa_closed wa_told]. repeat split. intros _. exists A1, C. repeat split; try assumption. unfold flush_told. rewrite <- !app_assoc. reflexivity.
Qed.
Theorem C95_transparent : forall reserve A l w r, flushing reserve (mkWatch A false l) = (r, w) -> (r, wa_arch w) = flushes reserve A.
Proof.
  intros reserve A l w r E. destruct (modified A) eqn:MO.
  - destruct (watched_parts reserve A l MO w r E) as (-> & -> & _). destruct (flushes reserve A); reflexivity.
  - unfold modified in MO. unfold watched_flush in E. cbn [wa_closed] in E. unfold told, on_arch, mbind in E. cbn [wa_arch wa_closed wa_told] in E. unfold FlushHistorySpec.flushes, zim_flush, mbind.
    destruct (sync_main A) as [[[]|e] A1] eqn:ES; [|injection E as <- <-; reflexivity]. cbn [snd] in MO. cbn [wa_arch wa_closed wa_told] in E. rewrite MO in E |- *. cbn [negb] in E |- *. injection E as <- <-. reflexivity.
Qed.

(** *** The middle of a flush *)
Lemma content_shows : forall reserve mx n A cells L V ops A1 A' B C, runs reserve n A V ops A1 -> laid_out Stream reserve A cells L -> pendany fuel mx (zs_comp (fa_state A)) [] -> pendany fuel mx (zs_plain (fa_state A)) [] ->
  Forall (vlimited mx) ops -> fa_redirects A = [] -> fa_main A = None -> (is_dirty A = false -> settled A) -> shows A V -> vadds ops <= n -> runs reserve n A1 (vsteps V ops) [VFlush] A' ->
  sync_main A1 = (Ok tt, B) -> is_dirty B = true -> flush_content fuel new_comp comp flush depth process_blob rounds B = (Ok tt, C) -> shows C (vsteps V ops) /\ idle C.
Proof.
  intros reserve mx n A cells L V ops A1 A' B C R LO P1 P2 LM N1 N2 SE SH Z R2 E1 ED E2.
  destruct (vruns_ends _ _ _ _ _ _ _ _ _ _ _ _ _ _ _ _ _ _ _ _ _ R) as (((_ & FA & _) & _) & _).
  assert (T : table (fa_zim A) (map snd cells) (blobs_of L) (ml_types (fa_mimes A)) [] (fa_redirects A) V).
  { rewrite N1. exact (shows_table fuel dc new_decomp new_comp comp flush kd Stream reserve md5 feed digest process_blob CD A cells L V LO (FA _ _ LO) SH). }
  assert (WC : wcore fuel Stream reserve mx A cells L [] [] V) by (constructor; auto; [constructor|left; exact N2|apply table_wtable; exact T]).
  assert (W0 : waiting A [] [] = 0) by (unfold waiting; rewrite N1; reflexivity).
  destruct (vruns_step fuel dc new_decomp new_comp comp flush depth kd Stream reserve md5 feed digest truncate process_blob rounds CD HO mx _ _ _ _ _ R cells L [] [] WC ltac:(unfold vclean; auto) ltac:(lia) LM) as (cells2 & L2 & Pc & Pp & WC2 & CL2 & Z2).
  unfold waiting in Z2 at 1. rewrite W0 in Z2.
  inversion R2 as [|? ? ? X ? ? W4 CT4 FS4 OK4 E4 R4]; subst. destruct W4 as (_ & B3).
  pose proof WC2 as [LO2 PC2 PP2 TY2 MN2 TT2].
  pose proof (hcore_begin fuel Stream reserve mx A1 cells2 L2 Pc Pp LO2 PC2 PP2 TY2) as HV.
  destruct (header_step _ _ _ _ _ _ _ _ _ _ _ _ _ _ _ HV E1) as (HV1 & ES & _). destruct (hv_buffer _ _ _ _ _ _ _ _ _ _ _ _ _ _ HV1) as (ER1 & EM1).
  destruct FS4 as (FS4 & _). destruct (FS4 C) as ((_ & SB & _) & _). { unfold mbind. rewrite E1. exact E2. }
  unfold flush_content, mbind in E2. destruct (flush_strategies fuel new_comp comp flush depth B) as [[[]|] B2] eqn:E3; [|discriminate E2].
  assert (EMM : fa_mimes B = fa_mimes A1) by (change (fa_mimes B) with (sa_mimes (zs_arch (fa_state B))); rewrite ES; reflexivity).
  assert (EZ1 : fa_zim B = fa_zim A1) by (change (fa_zim B) with (ca_zim (sa_arch (zs_arch (fa_state B)))); rewrite ES; reflexivity).
  assert (WB1 : wcore fuel Stream reserve mx B cells2 L2 Pc Pp (vsteps V ops)).
  { constructor; [exact (hv_laid _ _ _ _ _ _ _ _ _ _ _ _ _ _ HV1)|rewrite ES; exact PC2|rewrite ES; exact PP2|rewrite EMM; exact TY2|rewrite ER1, EM1; exact MN2|rewrite EZ1, EMM, ER1; exact TT2]. }
  destruct (wcore_count _ _ _ md5 feed digest _ _ _ _ _ _ _ WC2) as (K1 & K2). destruct CT4 as (CT1 & CT2). rewrite K1 in CT1. rewrite K2 in CT2. pose proof (zlen_nonneg (fa_redirects A1)).
  destruct (wstrategies_step fuel dc new_decomp new_comp comp flush depth Stream reserve CD mx B cells2 L2 Pc Pp _ B2 WB1 ltac:(lia) ltac:(lia)) as (cells3 & L3 & VC3 & ZC3 & ER3 & EM3); [rewrite EMM; exact B3|exact E3|].
  destruct (vbuffer_step fuel depth Stream reserve process_blob rounds mx B2 cells3 L3 _ C VC3 ltac:(rewrite ER3, ER1; lia) E2) as (cells4 & VC4 & RC & _).
  pose proof (vc_laid _ _ _ _ _ _ _ _ _ _ VC4) as LO4. pose proof (vc_table _ _ _ _ _ _ _ _ _ _ VC4) as T4. rewrite RC in T4.
  split; [exact (table_shows fuel dc new_decomp new_comp comp flush kd Stream reserve process_blob CD C cells4 L3 _ LO4 (SB _ _ LO4) T4)|].
  split; [eapply pending_idle; exact (vc_comp _ _ _ _ _ _ _ _ _ _ VC4)|]. split; [eapply pending_idle; exact (vc_plain _ _ _ _ _ _ _ _ _ _ VC4)|]. split; [exact RC|].
  exact (mains_none _ _ (eq_ind _ (fun l => mains (fa_main C) l _) (vc_main _ _ _ _ _ _ _ _ _ _ VC4) _ RC)).
Qed.
Lemma settled_unmodified : forall A, settled A -> modified A = false.
Proof.
  intros A (DI & _ & MP). unfold modified, sync_main, fa_assign. rewrite <- MP. unfold hassign, fa_hdr, main_page.
  assert (EC : forall c, c = h_main_page (ho_hdr (fa_header A)) -> hval_eqb (inl c) (hget FMainPage (ho_hdr (fa_header A))) = true) by (intros c ->; cbn; apply Z.eqb_refl).
  assert (ES : fa_set_header (fa_header A) A = A) by (destruct A as [[] ? ? ? ?]; reflexivity).
  destruct (h_main_page (ho_hdr (fa_header A)) =? NO_PAGE) eqn:EN; cbn [hconvert bind].
  - destruct (negb (ho_mutable (fa_header A))); [exact DI|]. rewrite EC by (symmetry; apply Z.eqb_eq; exact EN). rewrite ES. exact DI.
  - destruct (_ <? 0); cbn [bind]; [exact DI|]. destruct (negb (ho_mutable (fa_header A))); [exact DI|]. rewrite EC by reflexivity. rewrite ES. exact DI.
Qed.
Lemma flush_ends : forall reserve mx n A cells L V ops A1 A' l w wr sc sp, runs reserve n A V ops A1 -> laid_out Stream reserve A cells L -> pendany fuel mx (zs_comp (fa_state A)) [] -> pendany fuel mx (zs_plain (fa_state A)) [] ->
  Forall (vlimited mx) (ops ++ [VFlush]) -> fa_redirects A = [] -> fa_main A = None -> (is_dirty A = false -> settled A) -> shows A V -> vadds ops <= n -> runs reserve n A1 (vsteps V ops) [VFlush] A' ->
  modified A1 = true -> flushing reserve (mkWatch A1 false l) = (Ok tt, w) ->
  exists C B, wa_told w = l ++ flush_told A1 C (wa_arch w) /\ idle C /\ shows C (vsteps V ops) /\ modified (wa_arch w) = false /\ opens (fa_file (wa_arch w)) wr sc sp = Ok B /\ shows B (vsteps V ops).
Proof.
  intros reserve mx n A cells L V ops A1 A' l w wr sc sp R LO P1 P2 LM N1 N2 SE SH Z R2 MO E.
  destruct (watched_parts reserve A1 l MO w (Ok tt) E) as (_ & EW & _ & TL). destruct (TL eq_refl) as (B & C & E1 & ED & E2 & ET). clear TL.
  destruct (content_shows reserve mx n A cells L V ops A1 A' B C R LO P1 P2 (proj1 (proj1 (Forall_app _ _ _) LM)) N1 N2 SE SH Z R2 E1 ED E2) as (SC & IC).
  assert (RR : runs reserve n A V (ops ++ [VFlush]) A').
  { clear - R R2. induction R as [A V W CT|A V o A1 ops A2 W CT FS OK E R IH]; [exact R2|]. cbn [app]. econstructor; eauto. }
  assert (EA : wa_arch w = A'). { rewrite EW. inversion R2 as [|? ? ? X ? ? W4 CT4 FS4 OK4 E4 R4]; subst. inversion R4; subst. cbn [perform_vop perform_zop] in E4. change (snd (flushes reserve A1) = A'). unfold FlushHistorySpec.flushes. unfold FlushHistorySpec.flushes in E4. rewrite E4. reflexivity. }
  rewrite EA in *. destruct (vruns_ends _ _ _ _ _ _ _ _ _ _ _ _ _ _ _ _ _ _ _ _ _ RR) as (((_ & FA & _) & _) & WE).
  assert (T : table (fa_zim A) (map snd cells) (blobs_of L) (ml_types (fa_mimes A)) [] (fa_redirects A) V).
  { rewrite N1. exact (shows_table fuel dc new_decomp new_comp comp flush kd Stream reserve md5 feed digest process_blob CD A cells L V LO (FA _ _ LO) SH). }
  destruct (view_history fuel dc new_decomp new_comp comp flush depth kd Stream reserve md5 feed digest truncate process_blob rounds CD HO mx n A V ops VFlush A' cells L RR I LO) as (cells1 & L1 & VC & S1 & R1); try assumption.
  { split; assumption. }
  pose proof (vc_laid _ _ _ _ _ _ _ _ _ _ VC) as LO1. destruct WE as ((S0 & SA & _) & _).
  assert (EQ : fa_set_file (fa_file A') A' = A') by (destruct A' as [[[[[] ? ?] ?] ? ?] ? ? ? ?]; reflexivity).
  destruct (found_again fuel dc new_decomp new_comp comp flush depth kd Stream md5 feed digest process_blob CD reserve mx A' cells1 L1 _ (fa_file A') wr sc sp VC S1 R1 S0) as (X & EX & _ & SX); [rewrite EQ; exact (SA _ _ LO1)|apply keeps_refl|].
  exists C, X. split; [exact ET|]. split; [exact IC|]. split; [exact SC|]. split; [exact (settled_unmodified _ S1)|]. split; [exact EX|exact SX].
Qed.

(** *** C95, flush: an archive that shows a table is changed in any of the ways of
    C65, so that there is something to save, and flushed.  The processors are told
    three times.  When they are told that the content has been flushed, nothing
    waits any more and the archive shows the table with all changes.  When they
    are told that the archive has been flushed, nothing is marked as modified and
    opening the file, as it is at that moment, shows the table with all changes. *)
Theorem C95_flush_partial : forall reserve n A cells L V ops A1 A' l w wr sc sp,
  laid_out Stream reserve A cells L -> fresh_strategy (zs_comp (fa_state A)) -> fresh_strategy (zs_plain (fa_state A)) ->
  fa_redirects A = [] -> fa_main A = None -> (is_dirty A = false -> settled A) ->
  shows A V -> runs reserve n A V ops A1 -> vadds ops <= n -> runs reserve n A1 (vsteps V ops) [VFlush] A' ->
  modified A1 = true -> flushing reserve (mkWatch A1 false l) = (Ok tt, w) ->
  exists C B, wa_told w = l ++ flush_told A1 C (wa_arch w) /\ idle C /\ shows C (vsteps V ops) /\ modified (wa_arch w) = false /\ opens (fa_file (wa_arch w)) wr sc sp = Ok B /\ shows B (vsteps V ops).
Proof.
  intros reserve n A cells L V ops A1 A' l w wr sc sp LO F1 F2 N1 N2 SE SH R Z R2 MO E.
  set (mx := Z.max (Z.max (limit_of (zs_comp (fa_state A))) (limit_of (zs_plain (fa_state A)))) (vhighest (ops ++ [VFlush]))).
  refine (flush_ends reserve mx n A cells L V ops A1 A' l w wr sc sp R LO _ _ _ N1 N2 SE SH Z R2 MO E).
  - apply fresh_pendany; [exact F1|lia].
  - apply fresh_pendany; [exact F2|lia].
  - eapply vlimited_more; [|apply vhighest_limits]. lia.
Qed.
(** The same for an archive that has been created. *)
Theorem C95_flush_new_partial : forall r u sc0 sp0 n A ops A1 A' l w wr sc sp, 0 <= r -> zlen u = 16 -> fresh_strategy sc0 -> fresh_strategy sp0 ->
  init_new fuel new_comp comp flush depth (Some r) u sc0 sp0 = Ok A -> runs (Some r) n A empty_view ops A1 -> vadds ops <= n -> runs (Some r) n A1 (vsteps empty_view ops) [VFlush] A' ->
  modified A1 = true -> flushing (Some r) (mkWatch A1 false l) = (Ok tt, w) ->
  exists C B, wa_told w = l ++ flush_told A1 C (wa_arch w) /\ idle C /\ shows C (vsteps empty_view ops) /\ modified (wa_arch w) = false /\ opens (fa_file (wa_arch w)) wr sc sp = Ok B /\ shows B (vsteps empty_view ops).
Proof.
  intros r u sc0 sp0 n A ops A1 A' l w wr sc sp Hr HU F1 F2 IN R Z R2 MO E. set (mx := Z.max (Z.max (limit_of sc0) (limit_of sp0)) (vhighest (ops ++ [VFlush]))).
  destruct (vruns_ends _ _ _ _ _ _ _ _ _ _ _ _ _ _ _ _ _ _ _ _ _ R) as (((F0 & _) & _) & _).
  destruct (created fuel dc new_decomp new_comp comp flush depth Stream CD mx r Hr F0 u sc0 sp0 A HU F1 F2) as (cells & L & LO & P1 & P2 & B1 & B2 & DI & EU & EA & ZL & UU); [lia|lia|exact IN|].
  pose proof (ao_entries _ _ _ _ (lo_arch _ _ _ _ _ LO)) as CS.
  assert (SH : shows A empty_view).
  { intros x NLI e G. apply (lookup_iff _ _ _ _ CS) in G as (G1 & G2). apply (in_map full_url) in G1. rewrite EU, G2 in G1. destruct G1 as [G1|[]]. apply NLI. left. congruence. }
  assert (LM : Forall (vlimited mx) (ops ++ [VFlush])) by (eapply vlimited_more; [|apply vhighest_limits]; lia).
  exact (flush_ends (Some r) mx n A cells L empty_view ops A1 A' l w wr sc sp R LO P1 P2 LM B1 B2 ltac:(intro Q; congruence) SH Z R2 MO E).
Qed.

(** *** An archive without changes: a flush is announced, then nothing happens. *)
Theorem C95_unmodified : forall reserve A l w, modified A = false -> flushing reserve (mkWatch A false l) = (Ok tt, w) -> wa_told w = l ++ [(BeforeFlush, A)] /\ fa_file (wa_arch w) = fa_file A.
Proof.
  intros reserve A l w MO E. unfold modified in MO. unfold watched_flush in E. cbn [wa_closed] in E. unfold told, on_arch, mbind in E. cbn [wa_arch wa_closed wa_told] in E.
  destruct (sync_main A) as [[[]|e] A1] eqn:ES; [|discriminate E]. cbn [snd] in MO. cbn [wa_arch] in E. rewrite MO in E. cbn [negb] in E. injection E as <-. cbn [wa_told wa_arch]. split; [reflexivity|].
  unfold sync_main in ES. destruct (assign_inv _ _ _ _ _ ES) as (h & _ & ->). destruct A as [[[[[] ? ?] ?] ? ?] ? ? ? ?]; reflexivity.
Qed.

(** *** C95, close: the processors are told that the archive will be closed, then
    what they are told by the flush, if there is something to save, and at the
    end that the archive has been closed. *)
Theorem C95_close : forall reserve A l w, closing reserve (mkWatch A false l) = (Ok tt, w) ->
  wa_closed w = true /\ (modified A = false -> wa_arch w = A /\ wa_told w = l ++ [(BeforeClose, A); (AfterClose, A)]) /\
  (modified A = true -> exists w1, flushing reserve (mkWatch A false (l ++ [(BeforeClose, A)])) = (Ok tt, w1) /\ wa_arch w = wa_arch w1 /\ wa_told w = wa_told w1 ++ [(AfterClose, wa_arch w1)]).
Proof.
  intros reserve A l w E. unfold watched_close, mbind in E. unfold told at 1 in E. cbn [wa_arch wa_closed wa_told] in E. destruct (modified A) eqn:MO.
  - destruct (flushing reserve (mkWatch A false (l ++ [(BeforeClose, A)]))) as [[[]|e] w1] eqn:EF; [|discriminate E]. injection E as <-. cbn [wa_arch wa_closed wa_told]. split; [reflexivity|]. split; [discriminate|]. intros _. exists w1. auto.
  - injection E as <-. cbn [wa_arch wa_closed wa_told]. split; [reflexivity|]. split; [|discriminate]. intros _. rewrite <- app_assoc. auto.
Qed.
(** Once it is closed, a flush raises and nobody is told; a close of the archive,
    if nothing has been changed in the meantime, is told and does nothing. *)
Theorem C95_closed : forall reserve w0 w, closing reserve w0 = (Ok tt, w) -> flushing reserve w = (Err ZimFileClosed, w) /\
  (modified (wa_arch w) = false -> exists w', closing reserve w = (Ok tt, w') /\ wa_arch w' = wa_arch w /\ wa_closed w' = true /\ wa_told w' = wa_told w ++ [(BeforeClose, wa_arch w); (AfterClose, wa_arch w)]).
Proof.
  intros reserve w0 w E. assert (EC : wa_closed w = true).
  { unfold watched_close, mbind in E. cbn [told] in E. match type of E with context [if ?b then _ else _] => destruct b end; [destruct (flushing reserve _) as [[[]|e] w1]; [|discriminate E]|]; injection E as <-; reflexivity. }
  split; [unfold watched_flush; rewrite EC; reflexivity|]. intro MO. eexists. split; [unfold watched_close, mbind, told; cbn [wa_arch]; rewrite MO; reflexivity|]. cbn [wa_arch wa_closed wa_told]. rewrite <- app_assoc. auto.
Qed.
Theorem C95_close_new_partial : forall r u sc0 sp0 n A ops A1 A' l w wr sc sp, 0 <= r -> zlen u = 16 -> fresh_strategy sc0 -> fresh_strategy sp0 ->
  init_new fuel new_comp comp flush depth (Some r) u sc0 sp0 = Ok A -> runs (Some r) n A empty_view ops A1 -> vadds ops <= n -> runs (Some r) n A1 (vsteps empty_view ops) [VFlush] A' ->
  modified A1 = true -> closing (Some r) (mkWatch A1 false l) = (Ok tt, w) ->
  exists C B, wa_told w = l ++ [(BeforeClose, A1)] ++ flush_told A1 C (wa_arch w) ++ [(AfterClose, wa_arch w)] /\ idle C /\ shows C (vsteps empty_view ops) /\
    modified (wa_arch w) = false /\ opens (fa_file (wa_arch w)) wr sc sp = Ok B /\ shows B (vsteps empty_view ops).
Proof.
  intros r u sc0 sp0 n A ops A1 A' l w wr sc sp Hr HU F1 F2 IN R Z R2 MO E. destruct (C95_close _ _ _ _ E) as (_ & _ & CL). destruct (CL MO) as (w1 & EF & EA & ET). clear CL.
  destruct (C95_flush_new_partial r u sc0 sp0 n A ops A1 A' _ w1 wr sc sp Hr HU F1 F2 IN R Z R2 MO EF) as (C & B & T & Q). rewrite EA, ET, T. exists C, B. split; [rewrite <- !app_assoc; reflexivity|exact Q].
Qed.
End Watch.

(** ** The full statement, that whoever was told that an archive will be flushed
    is told when it has been flushed, is false for an archive without changes. *)
Definition C95_full_statement : Prop :=
  forall fuel D (dc : decomp D) new_decomp K new_comp comp flush depth kd Stream H (md5 : H) feed digest truncate process_blob rounds,
  codec_ok (K:=K) dc new_decomp new_comp comp flush Stream -> hash_ok feed digest ->
  forall r u sc0 sp0 n A ops A1 A' l w, 0 <= r -> zlen u = 16 -> fresh_strategy sc0 -> fresh_strategy sp0 ->
  init_new fuel new_comp comp flush depth (Some r) u sc0 sp0 = Ok A ->
  vruns fuel dc new_decomp new_comp comp flush depth kd Stream md5 feed digest (Some r) truncate process_blob rounds n A empty_view ops A1 -> vadds ops <= n ->
  vruns fuel dc new_decomp new_comp comp flush depth kd Stream md5 feed digest (Some r) truncate process_blob rounds n A1 (vsteps empty_view ops) [VFlush] A' ->
  watched_flush fuel dc new_decomp new_comp comp flush depth kd md5 feed digest (Some r) truncate process_blob rounds (mkWatch A1 false l) = (Ok tt, w) ->
  exists C, wa_told w = l ++ flush_told A1 C (wa_arch w).

(** *** The sample: items are added, and the archive is flushed, once and twice. *)
Notation sample_flush_w := (watched_flush sample_fuel passthrough plain_new plain_new_comp plain_comp plain_flush 6 KRemembering 0 sample_feed sample_digest (Some 50) true (fun _ => ret tt) 3).
Definition watch_of (ops : list vop) (r : res farchive) : option (farchive * farchive * res unit * watch) :=
  match r with
  | Ok A => match sample_vrun 100 sample_dom A empty_view ops with
            | Some A1 => match sample_vrun 100 sample_dom A1 (vsteps empty_view ops) [VFlush] with
                         | Some A' => let '(r, w) := sample_flush_w (mkWatch A1 false []) in Some (A1, A', r, w)
                         | None => None
                         end
            | None => None
            end
  | Err _ => None
  end.
Definition unlinked_dom : forall ops x, ops = unlinked \/ ops = unlinked ++ [VFlush] -> vsteps empty_view ops x <> None -> In x sample_dom.
Proof.
  intros ops x [->| ->] Q; unfold unlinked, vsteps in Q; cbn [app fold_left vstep] in Q; unfold vput, empty_view in Q;
    (destruct (ueqb x (item_url item_c)) eqn:E1; [apply ueqb_eq in E1; subst x; vm_compute; tauto|]; destruct (ueqb x (item_url item_b)) eqn:E2; [apply ueqb_eq in E2; subst x; vm_compute; tauto|congruence]).
Qed.
Lemma watch_of_parts : forall ops r x, ops = unlinked \/ ops = unlinked ++ [VFlush] -> watch_of ops r = Some x ->
  exists A, r = Ok A /\ sample_vruns 100 A empty_view ops (fst (fst (fst x))) /\ sample_vruns 100 (fst (fst (fst x))) (vsteps empty_view ops) [VFlush] (snd (fst (fst x))) /\
    sample_flush_w (mkWatch (fst (fst (fst x))) false []) = (snd (fst x), snd x).
Proof.
  intros ops [A|e] x Q E; [|discriminate E]. unfold watch_of in E. destruct (sample_vrun 100 sample_dom A empty_view ops) as [A1|] eqn:E1; [|discriminate E].
  destruct (sample_vrun 100 sample_dom A1 (vsteps empty_view ops) [VFlush]) as [A'|] eqn:E2; [|discriminate E]. destruct (sample_flush_w (mkWatch A1 false [])) as [r w] eqn:EF. injection E as <-. cbn [fst snd].
  assert (LE : (200 <= sample_fuel)%nat) by (unfold sample_fuel; lia). exists A. split; [reflexivity|]. split; [|split; [|exact EF]].
  - refine (sample_vrun_ok 100 sample_dom _ _ _ _ _ _ _ E1); [intros y Y; elim Y; reflexivity|destruct Q as [->| ->]; intros y Y; vm_compute in Y; vm_compute; tauto|].
    destruct Q as [->| ->]; repeat (constructor; [cbn [side_ok]; first [exact I|eapply larger_ok; [first [exact item_b_ok|exact item_c_ok]|exact LE]]|]); constructor.
  - refine (sample_vrun_ok 100 sample_dom _ _ _ _ (fun y => unlinked_dom ops y Q) _ _ E2); [intros y Y; vm_compute in Y; destruct Y|repeat constructor].
Qed.
Definition is_ok (r : res unit) : bool := match r with Ok _ => true | Err _ => false end.
Definition silent (x : option (farchive * farchive * res unit * watch)) : bool := match x with Some (_, _, r, w) => is_ok r && (zlen (wa_told w) =? 1) | None => false end.
Lemma twice_silent : silent (watch_of (unlinked ++ [VFlush]) sample_created) = true.
Proof. vm_compute. reflexivity. Qed.
Theorem C95_refuted : ~ C95_full_statement.
Proof.
  intro F. pose proof twice_silent as TS. destruct (watch_of (unlinked ++ [VFlush]) sample_created) as [x|] eqn:EX; [|discriminate TS].
  destruct (watch_of_parts _ _ _ (or_intror eq_refl) EX) as (A & EA & R1 & R2 & EF). clear EX. destruct x as [[[A1 A'] r] w]. cbn [fst snd silent] in *. apply andb_true_iff in TS as (T1 & T2). destruct r as [[]|]; [|discriminate T1].
  destruct sample_zops_ok as (_ & _ & _ & FS & FM).
  destruct (F sample_fuel _ passthrough plain_new _ plain_new_comp plain_comp plain_flush 6%nat KRemembering plain_stream _ 0 sample_feed sample_digest true (fun _ => ret tt) 3%nat plain_codec sample_hash
    50 sample_uuid sample_simple sample_mime 100 A (unlinked ++ [VFlush]) A1 A' [] w ltac:(lia) eq_refl FS FM EA R1 ltac:(vm_compute; discriminate) R2 EF) as (C & E). rewrite E in T2. discriminate T2.
Qed.
Definition told_thrice (x : option (farchive * farchive * res unit * watch)) : bool := match x with Some (A1, _, r, w) => is_ok r && modified A1 | None => false end.
Lemma once_told : told_thrice (watch_of unlinked sample_created) = true.
Proof. vm_compute. reflexivity. Qed.
Example C95_example : exists A A1 w C B, sample_created = Ok A /\ sample_vruns 100 A empty_view unlinked A1 /\ sample_flush_w (mkWatch A1 false []) = (Ok tt, w) /\ wa_told w = flush_told A1 C (wa_arch w) /\
  shows_page sample_fuel passthrough plain_new KRemembering C (item_url item_b) (page_of item_b [x42]) /\ sample_open (fa_file (wa_arch w)) true sample_simple sample_simple = Ok B /\
  shows_page sample_fuel passthrough plain_new KRemembering B (item_url item_c) (page_of item_c [x43]).
Proof.
  pose proof once_told as TT. destruct (watch_of unlinked sample_created) as [x|] eqn:EX; [|discriminate TT]. destruct (watch_of_parts _ _ _ (or_introl eq_refl) EX) as (A & EA & R1 & R2 & EF). clear EX.
  destruct x as [[[A1 A'] r] w]. cbn [fst snd told_thrice] in *. apply andb_true_iff in TT as (T1 & T2). destruct r as [[]|]; [|discriminate T1]. destruct sample_zops_ok as (_ & _ & _ & FS & FM).
  destruct (C95_flush_new_partial sample_fuel passthrough plain_new plain_new_comp plain_comp plain_flush 6%nat KRemembering plain_stream 0 sample_feed sample_digest true (fun _ => ret tt) 3%nat plain_codec sample_hash
    50 sample_uuid sample_simple sample_mime 100 A unlinked A1 A' [] w true sample_simple sample_simple ltac:(lia) eq_refl FS FM EA R1 ltac:(vm_compute; discriminate) R2 T2 EF) as (C & B & E1 & _ & S1 & _ & E2 & S2).
  exists A, A1, w, C, B. split; [exact EA|]. split; [exact R1|]. split; [exact EF|]. split; [exact E1|].
  pose proof (S1 (item_url item_b) (free_ok _ (item_url item_b) eq_refl)) as Q1. pose proof (S2 (item_url item_c) (free_ok _ (item_url item_c) eq_refl)) as Q2.
  change (vsteps empty_view unlinked (item_url item_b)) with (Some (page_of item_b [x42])) in Q1. change (vsteps empty_view unlinked (item_url item_c)) with (Some (page_of item_c [x43])) in Q2. auto.
Qed.

Print Assumptions C95_transparent.
Print Assumptions C95_flush_partial.
Print Assumptions C95_flush_new_partial.
Print Assumptions C95_unmodified.
Print Assumptions C95_closed.
Print Assumptions C95_close.
Print Assumptions C95_close_new_partial.
Print Assumptions C95_refuted.
Print Assumptions C95_example.
