(** Flushing an archive to which the main page was given before its pages. *)
From Coq Require Import List ZArith Bool Lia Permutation Strings.Byte.
From Coq Require Import ZifyBool ZifyNat.
From Verif Require Import Base BaseProofs Utf8 Utf8Proofs Dict Infobyte Header HeaderSpec HeaderProofs MimeTypeList MimeTypeListSpec MimeTypeListProofs PointerList PointerListProofs
  SpaceAllocator SpaceAllocatorSpec SpaceAllocatorProofs Entry EntrySpec EntryProofs Reader ReaderSpec Blob Cluster ClusterSpec ClusterProofs ClusterWrapper ClusterWrapperSpec ClusterWrapperProofs
  Archive ArchiveSpec ArchiveProofs ArchiveWriteProofs ArchiveMoveProofs ArchiveRemoveProofs ArchiveObserve ArchiveFacts ArchiveLaws ArchiveEdit ArchiveCluster ArchiveClusterSpec ArchiveClusterProofs ArchiveFrame ArchiveEntryCluster ArchiveEditCluster
  CompressionStrategy CompressionStrategySpec CompressionStrategyProofs OperationBuffer OperationBufferSpec OperationBufferProofs EntryObject EntryObjectSpec EntryObjectProofs
  Flush FlushSpec FlushProofs FlushTailProofs FlushOpenProofs FlushHistorySpec FlushHistoryProofs ViewSpec ViewProofs ViewEditProofs ViewStepProofs ViewWaitProofs IterByCluster Translator TranslatorSpec TranslatorProofs RelinkProofs.
Import ListNotations.
Open Scope Z_scope.

(** The archive [A] to which the main page [v] was given when it had no pages: the
    redirect waits before all others. *)
Definition given (v : ustr) (A : farchive) : farchive := mkFa (fa_state A) (fa_header A) (fa_dirty A) (main_redirect v :: fa_redirects A) (Some (Some v)).
Lemma main_sound : forall v b, utf8_encode (NS_C ++ v) = Some b -> sound (main_redirect v).
Proof.
  intros v b EB. constructor.
  - exists 87, [109; 97; 105; 110; 80; 97; 103; 101], x57. split; [reflexivity|]. split; [reflexivity|]. split; [exists [x6d; x61; x69; x6e; x50; x61; x67; x65]; reflexivity|]. cbn. intuition discriminate.
  - split; [discriminate|]. exists b. exact EB.
  - discriminate.
  - discriminate.
Qed.

Section View.
Variable fuel : nat.
Context {D : Type}.
Variable dc : decomp D.
Variable new_decomp : ctype -> res D.
Context {K : Type}.
Variable new_comp : ctype -> res K.
Variable comp : K -> bytes -> res (bytes * K).
Variable flush : K -> res bytes.
Variable depth : nat.
Variable kd : ckind.
Variable Stream : ctype -> bytes -> bytes -> Prop.
Variable reserve : option Z.
Context {H : Type}.
Variable md5 : H.
Variable feed : H -> bytes -> H.
Variable digest : H -> bytes.
Variable truncate : bool.
Variable process_blob : entry -> M zim unit.
Variable rounds : nat.
Hypothesis CD : codec_ok dc new_decomp new_comp comp flush Stream.
Hypothesis HO : hash_ok feed digest.
Variable mx : Z.
Notation laid := (laid_out Stream reserve).
Notation hcoreh := (hcore fuel Stream reserve mx).
Notation vcoreh := (vcore fuel Stream reserve mx).
Notation suff := (suffices fuel Stream reserve).
Notation flushesh := (flushes fuel dc new_decomp new_comp comp flush depth kd md5 feed digest reserve truncate process_blob rounds).
Notation fsuff := (flush_suffices fuel dc new_decomp new_comp comp flush depth kd Stream md5 feed digest reserve truncate process_blob rounds).

(** The redirects of a table in which a redirect for the main page is tried as well. *)
Lemma mstate_begin : forall A cells L W v, laid A cells L -> table (fa_zim A) (map snd cells) (blobs_of L) (ml_types (fa_mimes A)) [] (fa_redirects A) W ->
  (forall x q, W x = Some q -> pg_body q <> Link MP) -> (forall p, W MP = Some p -> exists x, pg_body p = Link (NS_C ++ x) /\ W (NS_C ++ x) <> None) -> sound (main_redirect v) -> W (NS_C ++ v) <> None ->
  mstate (fa_zim A) cells (blobs_of L) (ml_types (fa_mimes A)) W (zlen cells + zlen (fa_redirects A) + 1) (mkBuffered (fa_zim A) (main_redirect v :: fa_redirects A) (Some (Some v))) [].
Proof.
  intros A cells L W v LO T NK WM SO VT. pose proof (laid_consistent _ _ _ _ _ LO) as C.
  assert (RM : forall r, In r (main_redirect v :: fa_redirects A) -> rsource r = MP -> sound r /\ (exists x, rtarget r = NS_C ++ x) /\ W (rtarget r) <> None).
  { intros r [<-|Hr] Q; [split; [exact SO|split; [exists v; reflexivity|exact VT]]|]. destruct (tb_buffer _ _ _ _ _ _ _ T r Hr) as (V1 & _ & _ & _ & _ & SR). rewrite Q in V1. destruct (WM _ V1) as (x & B & VX). cbn [link_page pg_body] in B. injection B as B.
    split; [exact SR|]. rewrite B. split; [exists x; reflexivity|exact VX]. }
  assert (G : exists Vm, table (fa_zim A) (map snd cells) (blobs_of L) (ml_types (fa_mimes A)) [] (others (fa_redirects A)) Vm /\ (forall x, x <> MP -> Vm x = W x) /\
    (Vm MP = None \/ exists_at (fa_zim A) MP /\ exists p x, Vm MP = Some p /\ pg_body p = Link (NS_C ++ x))).
  { destruct (in_dec (list_eq_dec Z.eq_dec) MP (map rsource (fa_redirects A))) as [I|I].
    - exists (vput MP None W). split; [exact (drop_main _ _ _ _ _ _ _ C T I NK)|]. split; [intros x Nx; apply vput_other; exact Nx|left; apply vput_same].
    - exists W. assert (EO : others (fa_redirects A) = fa_redirects A).
      { clear - I. induction (fa_redirects A) as [|r R IH]; [reflexivity|]. rewrite others_other by (intro Q; apply I; left; exact Q). f_equal. apply IH. intro Q. apply I. right. exact Q. }
      rewrite EO. split; [exact T|]. split; [reflexivity|]. destruct (W MP) as [p|] eqn:EW; [right|left; reflexivity]. destruct (tb_page _ _ _ _ _ _ _ T MP p EW (main_not_listing _)) as [(e & Ge & _)|[[]|Q]]; [|contradiction].
      split; [exists e; exact Ge|]. destruct (WM p eq_refl) as (x & B & _). eauto. }
  destruct G as (Vm & T2 & VO & VM). exists cells, Vm. cbn [b_zim b_redirects app]. split; [apply step_refl; [exact (ao_core _ _ _ _ (lo_arch _ _ _ _ _ LO))|exact C]|]. split; [apply steady_refl|].
  rewrite others_main by reflexivity. split; [exact T2|]. split; [exact VO|]. split; [exact VM|]. split; [exact RM|]. rewrite zlen_cons. lia.
Qed.
Lemma mflush_step : forall A cells L Pc Pp W n v A', vcoreh A cells L Pc Pp W -> ho_dirty (fa_header A) = true -> counts n A -> zlen (Pc ++ Pp) + zlen (fa_redirects A) + 1 <= n ->
  zlen (ml_types (fa_mimes A)) <= 65535 -> (forall x q, W x = Some q -> pg_body q <> Link MP) -> (forall p, W MP = Some p -> exists x, pg_body p = Link (NS_C ++ x) /\ W (NS_C ++ x) <> None) ->
  sound (main_redirect v) -> W (NS_C ++ v) <> None -> fsuff (given v A) -> flushesh (given v A) = (Ok tt, A') ->
  exists cells' L', vcoreh A' cells' L' [] [] (vput MP (Some (link_page W (NS_C ++ v) None)) W) /\ settled A' /\ fa_redirects A' = [] /\ main_url (fa_zim A') = Some MP.
Proof.
  intros A cells L Pc Pp W n v A' VC HD CT ZQ B3 NK WM SO VT (FS & _) E. unfold flushes, zim_flush, mbind in E. pose proof (vcore_begin _ _ _ _ _ _ _ _ _ _ VC) as HV. pose proof (vc_laid _ _ _ _ _ _ _ _ _ _ VC) as LO.
  destruct (sync_main (given v A)) as [[[]|] A1h] eqn:E1; [|discriminate E].
  assert (E1' : exists A1, sync_main A = (Ok tt, A1) /\ A1h = given v A1).
  { unfold sync_main in E1 |- *. destruct (assign_inv _ _ _ _ _ E1) as (h & EH & ->). exists (fa_set_header h A). split; [|reflexivity]. unfold fa_assign in *. cbn [given fa_header fa_zim fa_state] in *.
    change (fa_zim (given v A)) with (fa_zim A) in EH. change (fa_header (given v A)) with (fa_header A) in EH. rewrite EH. reflexivity. }
  destruct E1' as (A1 & E1' & ->). destruct (header_step _ _ _ _ _ _ _ _ _ _ _ _ _ _ _ HV E1') as (HV1 & ES & DI).
  destruct (is_dirty (given v A1)) eqn:ED; cbn [negb] in E.
  2:{ exfalso. change (is_dirty (given v A1)) with (is_dirty A1) in ED. rewrite (DI ED) in ED. unfold is_dirty in ED. rewrite HD in ED. destruct (fa_dirty A); discriminate ED. }
  destruct (flush_content _ _ _ _ _ _ _ (given v A1)) as [[[]|] A2] eqn:E2; [|discriminate E].
  destruct (FS A2) as (SU & SA); [unfold mbind; rewrite E1; exact E2|]. unfold flush_content, mbind in E2.
  destruct (flush_strategies _ _ _ _ _ (given v A1)) as [[[]|] A3h] eqn:E3; [|discriminate E2].
  assert (E3' : exists A3, flush_strategies fuel new_comp comp flush depth A1 = (Ok tt, A3) /\ A3h = given v A3).
  { unfold flush_strategies in E3 |- *. change (fa_state (given v A1)) with (fa_state A1) in E3. destruct (zim_flush_items fuel new_comp comp flush depth (fa_state A1)) as [q z]. injection E3 as -> <-. eexists. split; reflexivity. }
  destruct E3' as (A3 & E3' & ->).
  destruct (strategies_step fuel dc new_decomp new_comp comp flush depth Stream reserve process_blob CD mx A cells L A1 _ cells L [] Pc Pp A3 HV1 (vcore_room fuel Stream reserve md5 feed digest mx _ _ _ _ _ _ _ VC CT ltac:(lia))) as (cells1 & L1 & Pd1 & HV2);
    [change (fa_mimes A1) with (sa_mimes (zs_arch (fa_state A1))); rewrite ES; exact B3|exact E3'|].
  pose proof (vcore_after fuel Stream reserve mx A cells L W A3 _ cells1 L1 Pd1 [] [] LO (vc_main _ _ _ _ _ _ _ _ _ _ VC) (vc_table _ _ _ _ _ _ _ _ _ _ VC) HV2) as VC3.
  assert (ZC : zlen cells1 + zlen (fa_redirects A3) + 1 + 1 < 2 ^ 32).
  { pose proof (Permutation_length (hv_urls _ _ _ _ _ _ _ _ _ _ _ _ _ _ HV2)) as LN. rewrite app_length, !map_length in LN. pose proof (Permutation_length (hv_all _ _ _ _ _ _ _ _ _ _ _ _ _ _ HV2)) as LN2.
    rewrite !map_length, !app_length in LN2. cbn [length] in LN2. destruct (hv_buffer _ _ _ _ _ _ _ _ _ _ _ _ _ _ HV2) as (-> & _). destruct (vcore_count fuel Stream reserve md5 feed digest mx _ _ _ _ _ _ VC) as (Q1 & _). destruct CT as (C1 & _). rewrite Q1 in C1.
    unfold zlen in *. rewrite app_length in ZQ. lia. }
  pose proof (vc_laid _ _ _ _ _ _ _ _ _ _ VC3) as LO3. pose proof (mstate_begin A3 cells1 L1 W v LO3 (vc_table _ _ _ _ _ _ _ _ _ _ VC3) NK WM SO VT) as MS.
  unfold flush_buffer in E2. change (fa_zim (given v A3)) with (fa_zim A3) in E2. cbn [given fa_redirects fa_main] in E2. destruct (OperationBuffer.finalize process_blob rounds (S (S depth)) _) as [q o'] eqn:EF. injection E2 as -> <-.
  destruct (mbuffer_done process_blob rounds _ _ _ _ W _ (laid_anchored _ _ _ _ _ LO3) ZC (fun x q Hq _ => NK x q Hq) depth _ o' v MS eq_refl VT EF) as (cells2 & ES2 & SD2 & TB2 & ER & EM & EU).
  set (A2 := mkFa _ _ _ _ _) in *.
  assert (EN : entries_only A3 cells1 A2 cells2).
  { constructor; try reflexivity; [exact ES2|split; [apply mgood_refl|apply mextends_refl]|exact SD2]. }
  pose proof (entries_vcore fuel Stream reserve mx A3 cells1 L1 [] [] W A2 cells2 (vput MP (Some (link_page W (NS_C ++ v) None)) W) VC3 EN (or_introl EM)) as VC2.
  specialize (VC2 ltac:(change (fa_redirects A2) with (b_redirects o'); rewrite ER; exact TB2)).
  destruct (tail_step fuel dc new_decomp new_comp comp flush depth kd Stream reserve md5 feed digest truncate CD HO mx A2 cells2 L1 A2 [] cells2 L1 [] A' (vcore_begin _ _ _ _ _ _ _ _ _ _ VC2) SU SA E) as (L' & HV3 & S1 & S2).
  exists cells2, L'. split; [exact (vcore_after fuel Stream reserve mx A2 cells2 L1 _ A' _ cells2 L' [] [] [] (vc_laid _ _ _ _ _ _ _ _ _ _ VC2) (vc_main _ _ _ _ _ _ _ _ _ _ VC2) (vc_table _ _ _ _ _ _ _ _ _ _ VC2) HV3)|]. split; [exact S1|].
  destruct (hv_buffer _ _ _ _ _ _ _ _ _ _ _ _ _ _ HV3) as (-> & _). split; [exact ER|].
  rewrite (tail_main fuel dc new_decomp new_comp comp flush depth kd Stream reserve md5 feed digest truncate CD HO mx _ _ _ _ _ (vcore_begin _ _ _ _ _ _ _ _ _ _ VC2) SU SA E). exact EU.
Qed.

(** ** The pages are copied in the same way *)
Notation copyu := (copy_url fuel dc new_decomp new_comp comp flush depth kd).
Notation copyl := (copy_urls fuel dc new_decomp new_comp comp flush depth kd).
Lemma add_redirect_frame : forall f r s R R0 m m', add_redirect f r (mkBuffered s (R0 ++ R) m') =
  let '(q, o) := add_redirect f r (mkBuffered s R m) in (q, mkBuffered (b_zim o) (R0 ++ b_redirects o) m').
Proof.
  intros f r s R R0 m m'. rewrite !add_redirect_eq. cbn [b_zim]. destruct (add_full_url_redirect f (rsource r) (rtarget r) (wanted_title r) s) as [[[]|] s']; [reflexivity| |reflexivity].
  cbn [b_zim b_set_zim b_set_redirects b_redirects b_main]. rewrite app_assoc. reflexivity.
Qed.
Lemma copy_frame : forall Ain u v A, copyu Ain u (given v A) = let '(q, B) := copyu Ain u A in (q, given v B).
Proof.
  intros Ain u v A. unfold copy_url. destruct (get_entry_by_full_url (fa_zim Ain) u) as [e|]; [|reflexivity]. destruct (is_redirect e).
  - unfold handle_redirect. destruct (follow (fa_zim Ain) e) as [t|]; [|reflexivity]. set (r := (_, _, _)). change (fa_zim (given v A)) with (fa_zim A). cbn [given fa_redirects fa_main].
    pose proof (add_redirect_frame (S (S depth)) r (fa_zim A) (fa_redirects A) [main_redirect v] (fa_main A) (Some (Some v))) as FR. cbn [app] in FR. rewrite FR.
    destruct (add_redirect (S (S depth)) r (mkBuffered (fa_zim A) (fa_redirects A) (fa_main A))) as [q o]. reflexivity.
  - destruct (item_from_entry fuel dc new_decomp kd Ain e) as [it|]; [|reflexivity]. destruct (handle_item it) as [it'|]; [|reflexivity]. unfold fa_add_item. change (fa_state (given v A)) with (fa_state A).
    destruct (zim_add_item fuel new_comp comp flush depth it' false (fa_state A)) as [[[]|] z]; reflexivity.
Qed.
Lemma copies_frame : forall Ain us v A, copyl Ain us (given v A) = let '(q, B) := copyl Ain us A in (q, given v B).
Proof.
  intros Ain. induction us as [|u us IH]; intros v A; [reflexivity|]. cbn [copy_urls]. unfold mbind. rewrite copy_frame. destruct (copyu Ain u A) as [[[]|] B]; [apply IH|reflexivity].
Qed.
Lemma given_suffices : forall v A, suff (given v A) -> suff A.
Proof.
  intros v A (F0 & FA & FT & FE). split; [exact F0|]. split; [|split; [exact FT|exact FE]]. intros cells L LO. apply (FA cells L). eapply laid_same; [| |exact LO]; reflexivity.
Qed.

(** The main page is given to an archive that does not have the page yet. *)
Lemma given_first : forall A cells L v b, laid A cells L -> absent (map snd cells) MP -> absent (map snd cells) (NS_C ++ v) -> utf8_encode (NS_C ++ v) = Some b -> fa_redirects A = [] ->
  on_buffered (set_mainpage process_blob (S (S depth)) (Some v)) A = (Ok tt, given v A).
Proof.
  intros A cells L v b LO AM AV EB ER. pose proof (laid_consistent _ _ _ _ _ LO) as C. unfold on_buffered, set_mainpage, OperationBuffer.lift, mbind. cbn [b_zim].
  assert (EQ : remove_entry process_blob (S (S depth)) MP (fa_zim A) = (Err EntryNotFound, fa_zim A)).
  { cbn [remove_entry]. unfold remove_body. apply mbind_err. unfold query. rewrite (url_index_absent (fa_zim A) _ MP [x57; x6d; x61; x69; x6e; x50; x61; x67; x65] C); [reflexivity|reflexivity|exact AM]. }
  rewrite EQ. rewrite add_redirect_eq. cbn [b_zim b_set_zim]. pose proof (add_missing (S (S depth)) _ _ (main_redirect v) C (main_sound v b EB) AV) as AD. rewrite AD. cbn [b_zim b_set_zim b_set_redirects b_redirects].
  rewrite (url_index_absent (fa_zim A) _ MP [x57; x6d; x61; x69; x6e; x50; x61; x67; x65] C) by (reflexivity || exact AM). unfold buffer_set_mainpage_url. cbn [b_zim b_set_zim b_set_redirects b_set_main b_redirects b_main]. rewrite ER. cbn [app].
  unfold given. rewrite ER. destruct A as [z h d r m]. cbn in *. unfold fa_set_zim. destruct z as [[ca ml] sc sp]. destruct ca. reflexivity.
Qed.
End View.
