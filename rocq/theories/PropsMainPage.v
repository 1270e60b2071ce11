(** C70: the page that is chosen as main page is the main page of the file.
    False of the code when items are added afterwards or when the main page was
    disabled before; true when the page is still waiting, or nothing else is, and
    for disabling the main page. *)
From Coq Require Import List ZArith Bool Lia Permutation Strings.Byte.
From Coq Require Import ZifyBool ZifyNat.
From Verif Require Import Base BaseProofs Utf8 Utf8Proofs Infobyte Header HeaderSpec HeaderProofs MimeTypeList MimeTypeListSpec Entry EntrySpec Reader ReaderSpec Decompressors DecompressorsProofs Blob BlobProofs
  PointerList PointerListProofs SpaceAllocator Cluster ClusterSpec ClusterProofs ClusterWrapper ClusterWrapperSpec ClusterWrapperProofs Archive ArchiveSpec ArchiveProofs ArchiveFacts ArchiveObserve
  ArchiveCluster ArchiveClusterSpec ArchiveClusterProofs CompressionStrategy CompressionStrategySpec CompressionStrategyProofs OperationBuffer OperationBufferSpec OperationBufferProofs EntryObject Flush FlushSpec FlushProofs FlushTailProofs FlushOpenProofs
  FlushHistorySpec FlushHistoryProofs FlushCreateProofs ViewSpec ViewProofs ViewEditProofs ViewStepProofs ViewWaitProofs ViewHistoryProofs PropsArchiveCluster PropsCompressionStrategy PropsFlush PropsView.
Import ListNotations.
Open Scope Z_scope.

(** The url to which the main page leads. *)
Definition main_target (s : zim) : option ustr := match get_mainpage_entry s with Ok e => target_url s e | Err _ => None end.

(** What a user does: add items, and choose ([set_mainpage_url(url)]) or disable
    ([set_mainpage_url(None)]) the main page. *)
Inductive mop := MAdd (it : item) (d : bytes) (uncompressed : bool) | MMain (u : option ustr).
Definition madded (ops : list mop) : list (item * bytes) := flat_map (fun o => match o with MAdd it d _ => [(it, d)] | MMain _ => [] end) ops.
(** The last choice. *)
Definition last_choice (ops : list mop) : option (option ustr) := fold_left (fun c o => match o with MMain u => Some u | MAdd _ _ _ => c end) ops None.

Section MainPage.
Variable fuel : nat.
Context {D : Type}.
Variable dc : decomp D.
Variable new_decomp : ctype -> res D.
Context {K : Type}.
Variable new_comp : ctype -> res K.
Variable comp : K -> bytes -> res (bytes * K).
Variable flush : K -> res bytes.
Variable depth : nat.
Variable kd : ckind.
Variable Stream : ctype -> bytes -> bytes -> Prop.
Context {H : Type}.
Variable md5 : H.
Variable feed : H -> bytes -> H.
Variable digest : H -> bytes.
Variable truncate : bool.
Variable process_blob : entry -> M zim unit.
Variable rounds : nat.
Notation performz reserve := (perform_zop fuel dc new_decomp new_comp comp flush depth kd md5 feed digest reserve truncate process_blob rounds).
Notation performv reserve := (perform_vop fuel dc new_decomp new_comp comp flush depth kd md5 feed digest reserve truncate process_blob rounds).
Notation runs reserve := (vruns fuel dc new_decomp new_comp comp flush depth kd Stream md5 feed digest reserve truncate process_blob rounds).
Notation opens := (open_zim fuel dc new_decomp new_comp comp flush depth kd).
Notation flushesh reserve := (flushes fuel dc new_decomp new_comp comp flush depth kd md5 feed digest reserve truncate process_blob rounds).
Notation fsuff reserve := (flush_suffices fuel dc new_decomp new_comp comp flush depth kd Stream md5 feed digest reserve truncate process_blob rounds).
Notation shows := (shows fuel dc new_decomp kd).

Definition perform_mop reserve (A : farchive) (o : mop) : res unit * farchive :=
  match o with
  | MAdd it d un => performz reserve A (ZAdd it d un)
  | MMain u => on_buffered (set_mainpage process_blob (S (S depth)) u) A
  end.
(** All calls return. *)
Inductive mruns reserve : farchive -> list mop -> farchive -> Prop :=
| mruns_nil A : mruns reserve A [] A
| mruns_cons A o A1 ops A' : perform_mop reserve A o = (Ok tt, A1) -> mruns reserve A1 ops A' -> mruns reserve A (o :: ops) A'.
(** The situation: on an archive [A] on which nothing is pending, new items are
    added and main pages are chosen, whose entries exist; all calls return;
    this is [A1], and flushing it returns [A']. *)
Record chosen reserve (A : farchive) (ops : list mop) (A1 A' : farchive) : Prop := mkChosen {
  ch_laid : exists cells L, laid_out Stream reserve A cells L;
  ch_idle : idle A;
  ch_clean : is_dirty A = false -> settled A;
  ch_count : counts (zlen ops) A;
  ch_items : forall it d, In (it, d) (madded ops) -> item_ok fuel it d /\ forall e, get_entry_by_full_url (fa_zim A) (item_url it) <> Ok e;
  ch_new : NoDup (urls_of (madded ops));
  ch_pages : forall u, In (MMain (Some u)) ops -> exists e, get_entry_by_full_url (fa_zim A) (NS_C ++ u) = Ok e;
  ch_done : mruns reserve A ops A1;
  ch_fuel : fsuff reserve A1;
  ch_flushed : flushesh reserve A1 = (Ok tt, A') }.

Hypothesis CD : codec_ok dc new_decomp new_comp comp flush Stream.
Hypothesis HO : hash_ok feed digest.

(** ** The main page and the table *)
Lemma main_leads : forall s E X types W R V u t, consistent s E -> table s E X types W R V -> main_url s = Some URL_MAINPAGE_REDIRECT -> V URL_MAINPAGE_REDIRECT = Some (link_page V u t) -> main_target s = Some u.
Proof.
  intros s E X types W R V u t C T M HV. unfold main_url in M. destruct (get_mainpage_entry s) as [e|] eqn:G; [|discriminate M]. injection M as M. pose proof G as G0. apply (main_iff _ _ e C) in G0 as (m & _ & Z).
  assert (L : get_entry_by_full_url s URL_MAINPAGE_REDIRECT = Ok e) by (apply (lookup_iff _ _ _ _ C); split; [eapply PointerListProofs.znth_in; exact Z|exact M]).
  destruct (page_in_archive _ _ _ _ _ _ _ C T _ _ HV (main_not_listing _)) as (e1 & G1 & _ & _ & B); [exists e; exact L|]. rewrite L in G1. injection G1 as <-. cbn [link_page pg_body] in B. unfold main_target. rewrite G. exact B.
Qed.
Lemma main_same : forall A B, same_archive A B -> main_target (fa_zim B) = main_target (fa_zim A).
Proof.
  intros A B [S1 S2 S3 S4 S5 S6 S7 S8].
  assert (GM : get_mainpage_entry (fa_zim B) = get_mainpage_entry (fa_zim A)).
  { unfold get_mainpage_entry, get_entry_at. change (z_file (fa_zim B)) with (fa_file B). change (z_file (fa_zim A)) with (fa_file A). rewrite S8, S1, S4. reflexivity. }
  unfold main_target. rewrite GM. destruct (get_mainpage_entry (fa_zim A)); [|reflexivity]. apply target_ext; assumption.
Qed.
(** A flush without anything in the buffer keeps the main page. *)
Lemma quiet_flush_main : forall reserve mx A cells L V A', vcore fuel Stream reserve mx A cells L [] [] V -> fa_redirects A = [] -> fa_main A = None -> fsuff reserve A -> flushesh reserve A = (Ok tt, A') -> main_url (fa_zim A') = main_url (fa_zim A).
Proof.
  intros reserve mx A cells L V A' VC R0 M0 (FS & _) E. unfold flushes, zim_flush, mbind in E. pose proof (vcore_begin _ _ _ _ _ _ _ _ _ _ VC) as HV.
  destruct (sync_main A) as [[[]|] A1] eqn:E1; [|discriminate E]. pose proof (header_step fuel Stream reserve mx A cells L A _ cells L [] [] [] A1 HV E1) as (HV1 & ES & _).
  pose proof E1 as E1'. unfold sync_main in E1'. destruct (assign_inv _ _ _ _ _ E1') as (h & _ & EA). destruct (is_dirty A1); cbn [negb] in E; [|injection E as <-; rewrite EA; reflexivity].
  destruct (flush_content _ _ _ _ _ _ _ A1) as [[[]|] A2] eqn:E2; [|discriminate E]. destruct (FS A2) as (SU & SA); [unfold mbind; rewrite E1; exact E2|]. unfold flush_content, mbind in E2.
  rewrite idle_strategies in E2 by (rewrite ES; eapply pending_idle; first [exact (vc_comp _ _ _ _ _ _ _ _ _ _ VC)|exact (vc_plain _ _ _ _ _ _ _ _ _ _ VC)]).
  assert (A2E : A2 = A1).
  { unfold flush_buffer, OperationBuffer.finalize, apply_redirects, mbind in E2. rewrite EA in E2. cbn [fa_redirects fa_main fa_set_header fa_zim] in E2. change (fa_redirects (fa_set_header h A)) with (fa_redirects A) in E2.
    change (fa_main (fa_set_header h A)) with (fa_main A) in E2. rewrite R0, M0 in E2. destruct rounds as [|k]; cbn [apply_loop] in E2; [discriminate E2|].
    cbv zeta in E2. unfold mbind in E2. cbn [add_redirects b_redirects b_set_redirects rops_eqb] in E2. cbn in E2. injection E2 as <-. rewrite EA. destruct A as [[[[z p q] m] sc sp] hh dd rr mm]; cbn in *. subst. reflexivity. }
  subst A2.
  assert (HV2 : hcore fuel Stream reserve mx A1 cells L A1 [] cells L [] [] []).
  { change (@nil (item * bytes)) with (map (@pair_of) ([] ++ [])). apply hcore_begin; [exact (hv_laid _ _ _ _ _ _ _ _ _ _ _ _ _ _ HV1)|exact (hv_comp _ _ _ _ _ _ _ _ _ _ _ _ _ _ HV1)|exact (hv_plain _ _ _ _ _ _ _ _ _ _ _ _ _ _ HV1)|constructor]. }
  rewrite (tail_main fuel dc new_decomp new_comp comp flush depth kd Stream reserve md5 feed digest truncate CD HO mx A1 [] cells L A' HV2 SU SA E), EA. reflexivity.
Qed.

(** Operations that leave the choice alone. *)
Definition quiet (o : vop) : Prop := match o with VMain _ | VFlush | VReopen _ _ => False | _ => True end.
Lemma quiet_main : forall reserve A o A', quiet o -> performv reserve A o = (Ok tt, A') -> fa_main A' = fa_main A.
Proof.
  intros reserve A o A' Q E. destruct o as [it d un|src tgt ttl|u l|u d|u|u| |sc sp]; try destruct Q; cbn [perform_vop] in E.
  - cbn [perform_zop] in E. unfold fa_add_item in E. destruct (zim_add_item _ _ _ _ _ _ _ _) as [[[]|] z]; [|discriminate E]. injection E as <-. reflexivity.
  - unfold on_buffered in E. rewrite add_redirect_eq in E. cbn [b_zim] in E. destruct (add_full_url_redirect _ _ _ _ _) as [[[]|] s']; [injection E as <-; reflexivity..|discriminate E].
  - unfold edit_entry in E. destruct (get_entry_by_full_url _ _); [|discriminate E]. destruct (assign_all _ _) as [[[]|] [o ml]]; [|discriminate E]. unfold on_zim in E.
    destruct (_ : res unit * zim) as [r s'] in E. injection E as _ <-. reflexivity.
  - unfold content_of, mbind in E. destruct (set_listing _ _ _ _ _ _ _ _ _ A) as [[x|] A1] eqn:SL; [|discriminate E]. injection E as <-. unfold set_listing in SL.
    destruct (get_entry_by_full_url _ _) as [e|]; [|discriminate SL]. destruct (e_kind e) as [c b|]; [|discriminate SL]. destruct (edited _ _ _ _ _ _ _) as [o|]; [|discriminate SL].
    destruct (write_cluster _ _ _ _ _ _ _ _) as [r [a o']]. injection SL as _ <-. reflexivity.
  - unfold remove_entry_at in E. destruct (get_entry_by_full_url _ _); [|discriminate E]. unfold on_zim in E. destruct (eobj_remove _ _ _ _) as [r s']. injection E as _ <-. reflexivity.
Qed.
Lemma quiet_runs : forall reserve n A V ops A', runs reserve n A V ops A' -> Forall quiet ops -> fa_main A' = fa_main A.
Proof.
  induction 1 as [A V W CT|A V o A1 ops A' W CT FS OK E R IH]; intros F; [reflexivity|]. inversion F; subst. rewrite IH by assumption. eapply quiet_main; eassumption.
Qed.

Lemma page_chosen : forall reserve mx n A V ops A1 cells L, runs reserve n A V ops A1 -> laid_out Stream reserve A cells L ->
  pendany fuel mx (zs_comp (fa_state A)) [] -> pendany fuel mx (zs_plain (fa_state A)) [] -> no_buffer A -> (is_dirty A = false -> settled A) ->
  shows A V -> vadds ops <= n -> Forall (vlimited mx) ops ->
  exists cells1 L1 Pc Pp, wcore fuel Stream reserve mx A1 cells1 L1 Pc Pp (vsteps V ops) /\ vclean A1 Pc Pp /\ waiting A1 Pc Pp <= vadds ops.
Proof.
  intros reserve mx n A V ops A1 cells L R LO P1 P2 (N1 & N2) SE SH Z LM. destruct (vruns_ends _ _ _ _ _ _ _ _ _ _ _ _ _ _ _ _ _ _ _ _ _ R) as (((F0 & FA & _) & _) & _).
  assert (T : table (fa_zim A) (map snd cells) (blobs_of L) (ml_types (fa_mimes A)) [] (fa_redirects A) V).
  { rewrite N1. exact (shows_table fuel dc new_decomp new_comp comp flush kd Stream reserve md5 feed digest process_blob CD A cells L V LO (FA _ _ LO) SH). }
  assert (VC : vcore fuel Stream reserve mx A cells L [] [] V) by (constructor; auto; [constructor|left; exact N2]). assert (W0 : waiting A [] [] = 0) by (unfold waiting; rewrite N1; reflexivity).
  destruct (vruns_step fuel dc new_decomp new_comp comp flush depth kd Stream reserve md5 feed digest truncate process_blob rounds CD HO mx n A V ops A1 R cells L [] [] (vcore_wcore _ _ _ _ _ _ _ _ _ _ VC) ltac:(unfold vclean; auto) ltac:(lia) LM)
    as (cells1 & L1 & Pc & Pp & VC1 & CL1 & Z1). exists cells1, L1, Pc, Pp. rewrite W0 in Z1. auto.
Qed.
Lemma opened_main : forall reserve mx A' cells L V w sc sp u t, vcore fuel Stream reserve mx A' cells L [] [] V -> settled A' -> suffices fuel Stream reserve A' -> main_url (fa_zim A') = Some URL_MAINPAGE_REDIRECT ->
  V URL_MAINPAGE_REDIRECT = Some (link_page V u t) -> main_target (fa_zim A') = Some u /\ exists B, opens (fa_file A') w sc sp = Ok B /\ main_target (fa_zim B) = Some u.
Proof.
  intros reserve mx A' cells L V w sc sp u t VC S (F1 & FA & _) M HV. pose proof (vc_laid _ _ _ _ _ _ _ _ _ _ VC) as LO.
  assert (MT : main_target (fa_zim A') = Some u) by (eapply main_leads; [exact (laid_consistent _ _ _ _ _ LO)|exact (vc_table _ _ _ _ _ _ _ _ _ _ VC)|exact M|exact HV]). split; [exact MT|].
  destruct (open_settled fuel dc new_decomp new_comp comp flush depth kd Stream reserve md5 feed digest CD w sc sp A' cells L LO S (FA _ _ LO) F1) as (B & E & SA & _). exists B. split; [exact E|]. rewrite (main_same _ _ SA). exact MT.
Qed.

(** An archive to start from, which shows [V]: nothing is pending and its
    strategies were not used yet, as after opening it; or it was just created. *)
Definition begins reserve (A : farchive) (V : view) : Prop :=
  (exists cells L, laid_out Stream reserve A cells L /\ fresh_strategy (zs_comp (fa_state A)) /\ fresh_strategy (zs_plain (fa_state A)) /\
    fa_redirects A = [] /\ fa_main A = None /\ (is_dirty A = false -> settled A) /\ shows A V) \/
  (exists r u sc sp, reserve = Some r /\ 0 <= r /\ zlen u = 16 /\ fresh_strategy sc /\ fresh_strategy sp /\ init_new fuel new_comp comp flush depth (Some r) u sc sp = Ok A /\ V = empty_view).
Lemma begins_ok : forall reserve n A V ops A1, begins reserve A V -> runs reserve n A V ops A1 -> vadds ops <= n ->
  exists mx cells1 L1 Pc Pp, wcore fuel Stream reserve mx A1 cells1 L1 Pc Pp (vsteps V ops) /\ vclean A1 Pc Pp /\ waiting A1 Pc Pp <= vadds ops.
Proof.
  intros reserve n A V ops A1 [(cells & L & LO & F1 & F2 & N1 & N2 & SE & SH)|(r & u & sc0 & sp0 & -> & Hr & HU & F1 & F2 & IN & ->)] R Z.
  - exists (Z.max (Z.max (limit_of (zs_comp (fa_state A))) (limit_of (zs_plain (fa_state A)))) (vhighest ops)). eapply page_chosen; try eassumption.
    + apply fresh_pendany; [exact F1|lia].
    + apply fresh_pendany; [exact F2|lia].
    + split; assumption.
    + eapply vlimited_more; [|apply vhighest_limits]. lia.
  - set (mx := Z.max (Z.max (limit_of sc0) (limit_of sp0)) (vhighest ops)). exists mx. destruct (vruns_ends _ _ _ _ _ _ _ _ _ _ _ _ _ _ _ _ _ _ _ _ _ R) as (((F0 & _) & _) & _).
    destruct (created fuel dc new_decomp new_comp comp flush depth Stream CD mx r Hr F0 u sc0 sp0 A HU F1 F2) as (cells & L & LO & P1 & P2 & B1 & B2 & DI & EU & EA & ZL & UU); [lia|lia|exact IN|].
    pose proof (ao_entries _ _ _ _ (lo_arch _ _ _ _ _ LO)) as CS. eapply (page_chosen (Some r) mx n A empty_view ops A1 cells L R LO P1 P2); try assumption.
    + split; assumption.
    + intro Q. congruence.
    + intros x NL e G. apply (lookup_iff _ _ _ _ CS) in G as (G1 & G2). apply (in_map full_url) in G1. rewrite EU, G2 in G1. destruct G1 as [G1|[]]. apply NL. left. congruence.
    + eapply vlimited_more; [|apply vhighest_limits]. lia.
Qed.

(** *** C70, part 1.  A page is chosen that waits to be written.  Whatever is
    added, edited and removed after that and before the flush, that page is the main
    page of the flushed archive and of the one that is opened from the file. *)
Theorem C70_waiting_partial : forall reserve n A V ops A1 u more A' w sc sp, begins reserve A V ->
  runs reserve n A V ops A1 -> (forall e, get_entry_by_full_url (fa_zim A1) (NS_C ++ u) <> Ok e) ->
  runs reserve n A1 (vsteps V ops) (VMain u :: more ++ [VFlush]) A' -> Forall quiet more -> vadds (ops ++ VMain u :: more) <= n ->
  main_target (fa_zim A') = Some (NS_C ++ u) /\ exists B, opens (fa_file A') w sc sp = Ok B /\ main_target (fa_zim B) = Some (NS_C ++ u).
Proof.
  intros reserve n A V ops A1 u more A' w sc sp BG R1 AB R2 QM Z.
  rewrite vadds_app, vadds_cons in Z. change (vadds [VMain u]) with 1 in Z. pose proof (vadds_pos ops) as ZO. pose proof (vadds_pos more) as ZM.
  destruct (begins_ok reserve n A V ops A1 BG R1 ltac:(lia)) as (mx & cells1 & L1 & Pc & Pp & WC1 & CL1 & Z1).
  inversion R2 as [|? ? ? A2 ? ? W1 CT1 FS1 OK1 E1 R3]; subst. cbn [perform_vop] in E1. destruct OK1 as (OK1 & NR1). pose proof (wcore_vcore _ _ _ _ _ _ _ _ _ _ NR1 WC1) as VC1.
  destruct (vmain_step fuel depth Stream reserve md5 feed digest process_blob mx A1 cells1 L1 Pc Pp _ n u A2 VC1 CL1 CT1 OK1 ltac:(lia) E1) as (cells2 & VC2 & CL2 & Z2 & [((e & G) & _)|(_ & M2)]); [elim (AB e G)|].
  destruct (vruns_app fuel dc new_decomp new_comp comp flush depth kd Stream reserve md5 feed digest truncate process_blob rounds n more A2 _ A' VFlush R3) as (A3 & R4 & CT & W3 & W4 & FS & OK & E).
  assert (LM : Forall (vlimited mx) more) by (eapply Forall_impl; [|exact QM]; intros [] Q; try destruct Q; exact I).
  destruct (vruns_step fuel dc new_decomp new_comp comp flush depth kd Stream reserve md5 feed digest truncate process_blob rounds CD HO mx n A2 _ more A3 R4 cells2 L1 Pc Pp (vcore_wcore _ _ _ _ _ _ _ _ _ _ VC2) CL2 ltac:(unfold waiting in *; lia) LM) as (cells3 & L3 & Pc3 & Pp3 & VC3 & CL3 & Z3).
  cbn [perform_vop perform_zop] in E. pose proof (quiet_runs _ _ _ _ _ _ R4 QM) as M3. rewrite M2 in M3.
  destruct (wflush_step fuel dc new_decomp new_comp comp flush depth kd Stream reserve md5 feed digest truncate process_blob rounds CD HO mx A3 cells3 L3 Pc3 Pp3 _ n A' VC3 CL3 (proj1 OK) CT ltac:(unfold waiting in *; lia) (proj2 W3) FS E) as (cells4 & L4 & VC4 & S4 & R5 & MU & _).
  destruct (wc_main _ _ _ _ _ _ _ _ _ _ VC3) as [Q|(u' & Q & HI & _)]; [congruence|]. rewrite M3 in Q. injection Q as <-.
  destruct (wt_buffer _ _ _ _ _ _ _ (wc_table _ _ _ _ _ _ _ _ _ _ VC3) _ HI) as (VW & _). exact (opened_main reserve mx A' cells4 L4 _ w sc sp (NS_C ++ u) None VC4 S4 (proj1 W4) (MU ltac:(congruence)) VW).
Qed.

(** *** C70, part 2.  All pages are written when one of them is chosen, and the
    archive is then flushed. *)
Theorem C70_written_partial : forall reserve n A V ops A1 u A' w sc sp, begins reserve A V ->
  runs reserve n A V ops A1 -> (forall x, vsteps V ops x <> None -> ~ listing (fa_zim A1) x -> exists e, get_entry_by_full_url (fa_zim A1) x = Ok e) ->
  runs reserve n A1 (vsteps V ops) [VMain u; VFlush] A' -> vadds ops + 1 <= n ->
  main_target (fa_zim A') = Some (NS_C ++ u) /\ exists B, opens (fa_file A') w sc sp = Ok B /\ main_target (fa_zim B) = Some (NS_C ++ u).
Proof.
  intros reserve n A V ops A1 u A' w sc sp BG R1 ALL R2 Z. pose proof (vadds_pos ops) as ZO.
  destruct (begins_ok reserve n A V ops A1 BG R1 ltac:(lia)) as (mx & cells1 & L1 & Pc & Pp & WC1 & CL1 & Z1).
  inversion R2 as [|? ? ? A2 ? ? W1 CT1 FS1 OK1 E1 R3]; subst. cbn [perform_vop] in E1. destruct OK1 as (OK1 & NR1). pose proof (wcore_vcore _ _ _ _ _ _ _ _ _ _ NR1 WC1) as VC1.
  pose proof (vc_laid _ _ _ _ _ _ _ _ _ _ VC1) as LO1. pose proof (laid_consistent _ _ _ _ _ LO1) as C1. pose proof (vc_table _ _ _ _ _ _ _ _ _ _ VC1) as T1.
  assert (NP : Pc ++ Pp = []).
  { destruct (Pc ++ Pp) as [|p P] eqn:EP; [reflexivity|]. exfalso. destruct (pair_of p) as [it d] eqn:EI. destruct (tb_waiting _ _ _ _ _ _ _ T1 it d) as (WA & W2 & W3 & _); [cbn [map]; rewrite EI; left; reflexivity|].
    apply (not_both _ _ (item_url it) C1); [apply ALL; [congruence|exact W3]|exact W2]. }
  assert (NR : fa_redirects A1 = []).
  { destruct (fa_redirects A1) as [|r R] eqn:ER; [reflexivity|]. exfalso. destruct (tb_buffer _ _ _ _ _ _ _ T1 r (or_introl eq_refl)) as (V1 & V2 & V3 & _).
    apply (not_both _ _ (rsource r) C1); [apply ALL; [congruence|exact V3]|exact V2]. }
  apply app_eq_nil in NP as (-> & ->).
  destruct (vmain_step fuel depth Stream reserve md5 feed digest process_blob mx A1 cells1 L1 [] [] _ n u A2 VC1 CL1 CT1 OK1 ltac:(lia) E1) as (cells2 & VC2 & CL2 & Z2 & [(_ & R4 & M4 & U4)|(AB & _)]).
  2:{ exfalso. apply AB. destruct OK1 as (_ & VT & _). destruct (ALL (NS_C ++ u) VT) as (e & G); [intro HL; apply listing_not_C in HL; discriminate HL|]. exists e. exact G. }
  inversion R3 as [|? ? ? A3 ? ? W2 CT2 FS2 OK2 E2 R5]; subst. inversion R5 as [? ? W3 CT3|]; subst. cbn [perform_vop perform_zop] in E2. rewrite NR in R4.
  destruct (vflush_step fuel dc new_decomp new_comp comp flush depth kd Stream reserve md5 feed digest truncate process_blob rounds CD HO mx A2 cells2 L1 [] [] _ n A' VC2 CL2 (proj1 OK2) CT2 ltac:(rewrite R4; change (zlen (@nil pitem ++ [])) with 0; change (zlen (@nil rop)) with 0; lia) (proj2 W2) FS2 E2) as (cells4 & L4 & VC4 & S4 & _).
  apply (opened_main reserve mx A' cells4 L4 _ w sc sp (NS_C ++ u) None VC4 S4 (proj1 W3)); [rewrite (quiet_flush_main reserve mx A2 cells2 L1 _ A' VC2 R4 M4 FS2 E2); exact U4|].
  cbn [vstep]. set (V1 := vsteps V ops). rewrite vput_same. reflexivity.
Qed.
(** The main page is switched off, on an archive on which nothing waits. *)
Lemma main_off : forall reserve mx A cells L V A', vcore fuel Stream reserve mx A cells L [] [] V -> vclean A [] [] -> fa_redirects A = [] ->
  (forall x q, V x = Some q -> pg_body q <> Link URL_MAINPAGE_REDIRECT) ->
  (V URL_MAINPAGE_REDIRECT = None \/ exists_at (fa_zim A) URL_MAINPAGE_REDIRECT /\ exists p v, V URL_MAINPAGE_REDIRECT = Some p /\ pg_body p = Link v) ->
  on_buffered (set_mainpage process_blob (S (S depth)) None) A = (Ok tt, A') ->
  exists cells' A0, vcore fuel Stream reserve mx A0 cells' L [] [] (vput URL_MAINPAGE_REDIRECT None V) /\ vclean A0 [] [] /\ fa_redirects A0 = [] /\
    A' = mkFa (fa_state (fa_set_zim (set_main None (fa_zim A0)) A0)) (fa_header A0) (fa_dirty A0) [] (Some None).
Proof.
  intros reserve mx A cells L V A' VC CL R0 NK HM E. pose proof (vc_laid _ _ _ _ _ _ _ _ _ _ VC) as LO. pose proof (laid_consistent _ _ _ _ _ LO) as C. pose proof (vc_table _ _ _ _ _ _ _ _ _ _ VC) as T.
  unfold on_buffered, set_mainpage, mbind, ClusterWrapper.lift, OperationBuffer.lift in E. cbn [b_zim] in E.
  destruct (match remove_entry process_blob (S (S depth)) URL_MAINPAGE_REDIRECT (fa_zim A) with (Err EntryNotFound, s1) => (Ok tt, s1) | r => r end) as [[[]|] s1] eqn:E1; [|discriminate E].
  destruct (main_removed process_blob depth _ _ _ _ _ _ _ s1 (ao_core _ _ _ _ (lo_arch _ _ _ _ _ LO)) C (laid_anchored _ _ _ _ _ LO) T HM NK E1) as (cells1 & ES & SD & T1 & _).
  set (A0 := fa_set_zim s1 (mkFa (fa_state A) (fa_header A) (fa_dirty A) [] None)). exists cells1, A0.
  assert (EN : entries_only A cells A0 cells1) by (constructor; try reflexivity; [exact ES|split; [apply mgood_refl|apply mextends_refl]|exact SD]).
  split; [eapply entries_vcore; [exact VC|exact EN|left; reflexivity|]|].
  - change (fa_redirects A0) with (@nil rop). rewrite R0 in T1. exact T1.
  - split; [exact (entries_vclean _ _ _ _ _ _ EN CL)|]. split; [reflexivity|]. unfold update, buffer_set_mainpage_url in E. cbn in E. injection E as <-. rewrite R0. destruct A as [[[[z p q] m] sc sp] hh dd rr mm]; reflexivity.
Qed.
Lemma off_laid : forall reserve A cells L, laid_out Stream reserve A cells L -> laid_out Stream reserve (mkFa (fa_state (fa_set_zim (set_main None (fa_zim A)) A)) (fa_header A) (fa_dirty A) [] (Some None)) cells L.
Proof.
  intros reserve A cells L [[] ? ? ? ? ? ? ? ? ? ? ? ? ? ?]. constructor; try assumption. constructor; try assumption.
  - apply (core_set_main (fa_zim A) cells None). assumption.
  - destruct ao_entries as [_ H1 H2 H3 H4]. constructor; try assumption; [|intros m Q; discriminate Q]. exists cells. split; [reflexivity|]. apply (core_set_main (fa_zim A) cells None). assumption.
Qed.
(** Flushing it. *)
Lemma off_flush : forall reserve mx A0 A cells L V A', vcore fuel Stream reserve mx A0 cells L [] [] V -> vclean A0 [] [] -> fa_redirects A0 = [] -> V URL_MAINPAGE_REDIRECT = None ->
  A = mkFa (fa_state (fa_set_zim (set_main None (fa_zim A0)) A0)) (fa_header A0) (fa_dirty A0) [] (Some None) -> fsuff reserve A -> flushesh reserve A = (Ok tt, A') ->
  exists L', laid_out Stream reserve A' cells L' /\ settled A' /\ main_url (fa_zim A') = None /\ table (fa_zim A') (map snd cells) (blobs_of L') (ml_types (fa_mimes A')) [] [] V.
Proof.
  intros reserve mx A0 A cells L V A' VC CL R0 VW EA0 (FS & _) E. pose proof (off_laid _ _ _ _ (vc_laid _ _ _ _ _ _ _ _ _ _ VC)) as LO. rewrite <- EA0 in LO. pose proof (vc_table _ _ _ _ _ _ _ _ _ _ VC) as T0.
  assert (N0 : fa_redirects A = []) by (rewrite EA0; reflexivity). assert (M0 : fa_main A = Some None) by (rewrite EA0; reflexivity). assert (Z0 : z_main (fa_zim A) = None) by (rewrite EA0; reflexivity).
  assert (U0 : main_url (fa_zim A) = None) by (unfold main_url, get_mainpage_entry; rewrite Z0; reflexivity).
  assert (T : table (fa_zim A) (map snd cells) (blobs_of L) (ml_types (fa_mimes A)) [] (fa_redirects A) V).
  { apply (main_set_table _ _ _ _ _ _ _ None) in T0. rewrite R0 in T0. rewrite N0, EA0. exact T0. }
  assert (HV : hcore fuel Stream reserve mx A cells L A [] cells L [] [] []).
  { change (@nil (item * bytes)) with (map (@pair_of) ([] ++ [])). apply hcore_begin; [exact LO|rewrite EA0; exact (vc_comp _ _ _ _ _ _ _ _ _ _ VC)|rewrite EA0; exact (vc_plain _ _ _ _ _ _ _ _ _ _ VC)|constructor]. }
  unfold flushes, zim_flush, mbind in E.
  destruct (sync_main A) as [[[]|] A1] eqn:E1; [|discriminate E]. destruct (header_step fuel Stream reserve mx A cells L A _ cells L [] [] [] A1 HV E1) as (HV1 & ES & DI).
  destruct (sync_main_ok Stream reserve A cells L A1 LO E1) as (LO1 & MP & h & EA & _).
  destruct (is_dirty A1) eqn:ED; cbn [negb] in E.
  2:{ injection E as <-. specialize (DI eq_refl). rewrite DI in *. exists L. split; [exact LO|]. split; [|split; [exact U0|rewrite N0 in T; exact T]]. split; [exact ED|]. split; [|exact MP].
      destruct (CL ltac:(rewrite EA0 in ED; exact ED)) as ((_ & Q & _) & _). rewrite EA0. exact Q. }
  destruct (flush_content _ _ _ _ _ _ _ A1) as [[[]|] A2] eqn:E2; [|discriminate E]. destruct (FS A2) as (SU & SA); [unfold mbind; rewrite E1; exact E2|]. unfold flush_content, mbind in E2.
  rewrite idle_strategies in E2 by (rewrite ES, EA0; eapply pending_idle; first [exact (vc_comp _ _ _ _ _ _ _ _ _ _ VC)|exact (vc_plain _ _ _ _ _ _ _ _ _ _ VC)]).
  assert (A2E : A2 = A1).
  { assert (EQ : remove_entry process_blob (S (S depth)) URL_MAINPAGE_REDIRECT (fa_zim A) = (Err EntryNotFound, fa_zim A)).
    { destruct (unused _ _ _ _ _ _ _ (laid_consistent _ _ _ _ _ LO) T URL_MAINPAGE_REDIRECT VW (main_not_listing _)) as (AB & _).
      cbn [remove_entry]. unfold remove_body. apply mbind_err. unfold query. rewrite (url_index_absent (fa_zim A) _ URL_MAINPAGE_REDIRECT [x57; x6d; x61; x69; x6e; x50; x61; x67; x65] (laid_consistent _ _ _ _ _ LO)); [reflexivity|reflexivity|exact AB]. }
    unfold flush_buffer, OperationBuffer.finalize, apply_redirects, mbind in E2. rewrite EA in E2. change (fa_redirects (fa_set_header h A)) with (fa_redirects A) in E2.
    change (fa_main (fa_set_header h A)) with (fa_main A) in E2. change (fa_zim (fa_set_header h A)) with (fa_zim A) in E2. rewrite N0, M0 in E2. destruct rounds as [|k]; cbn [apply_loop] in E2; [discriminate E2|].
    cbv zeta in E2. unfold mbind in E2. cbn [add_redirects b_redirects b_set_redirects rops_eqb] in E2.
    unfold apply_set_mainpage_url, set_mainpage, mbind, OperationBuffer.lift, update, buffer_set_mainpage_url, ret in E2. revert E2 EQ. generalize (remove_entry process_blob (S (S depth)) URL_MAINPAGE_REDIRECT). intros rm E2 EQ.
    cbn in E2. rewrite EQ in E2. cbn in E2. injection E2 as <-. rewrite EA. clear - Z0 N0 M0. destruct A as [[[[z p q] m] sc sp] hh dd rr mm]; cbn in *. destruct z; cbn in *. subst. reflexivity. }
  subst A2.
  assert (HV2 : hcore fuel Stream reserve mx A1 cells L A1 [] cells L [] [] []).
  { change (@nil (item * bytes)) with (map (@pair_of) ([] ++ [])). apply hcore_begin; [exact LO1|exact (hv_comp _ _ _ _ _ _ _ _ _ _ _ _ _ _ HV1)|exact (hv_plain _ _ _ _ _ _ _ _ _ _ _ _ _ _ HV1)|constructor]. }
  destruct (tail_step fuel dc new_decomp new_comp comp flush depth kd Stream reserve md5 feed digest truncate CD HO mx A1 cells L A1 [] cells L [] A' HV2 SU SA E) as (L' & HV3 & S1 & _).
  exists L'. split; [exact (hv_laid _ _ _ _ _ _ _ _ _ _ _ _ _ _ HV3)|]. split; [exact S1|]. split.
  - rewrite (tail_main fuel dc new_decomp new_comp comp flush depth kd Stream reserve md5 feed digest truncate CD HO mx A1 [] cells L A' HV2 SU SA E), EA. exact U0.
  - assert (T1 : table (fa_zim A1) (map snd cells) (blobs_of L) (ml_types (fa_mimes A1)) [] (fa_redirects A1) V) by (rewrite EA; exact T).
    pose proof (table_content fuel Stream reserve mx A1 cells L A' [] cells L' [] [] [] V LO1 HV3 T1) as T2. 
    destruct (hv_buffer _ _ _ _ _ _ _ _ _ _ _ _ _ _ HV3) as (BR & _). rewrite BR, EA in T2. change (fa_redirects (fa_set_header h A)) with (fa_redirects A) in T2. rewrite N0 in T2. exact T2.
Qed.

(** *** C70, part 3.  All pages are written when the main page is switched off.  After
    the flush there is none, in this archive and in the one that is opened from the
    file; the redirect that led to it is gone and all other pages are as before. *)
Theorem C70_disabled_partial : forall reserve n A V ops A1 A2 A' w sc sp, begins reserve A V ->
  runs reserve n A V ops A1 -> vadds ops <= n -> (forall x, vsteps V ops x <> None -> ~ listing (fa_zim A1) x -> exists e, get_entry_by_full_url (fa_zim A1) x = Ok e) ->
  (forall x q, vsteps V ops x = Some q -> pg_body q <> Link URL_MAINPAGE_REDIRECT) ->
  (forall p, vsteps V ops URL_MAINPAGE_REDIRECT = Some p -> exists v, pg_body p = Link v) -> no_replacement A1 ->
  perform_mop reserve A1 (MMain None) = (Ok tt, A2) -> fsuff reserve A2 -> flushesh reserve A2 = (Ok tt, A') -> suffices fuel Stream reserve A' ->
  get_mainpage_entry (fa_zim A') = Err EntryNotFound /\ shows A' (vput URL_MAINPAGE_REDIRECT None (vsteps V ops)) /\
  exists B, opens (fa_file A') w sc sp = Ok B /\ get_mainpage_entry (fa_zim B) = Err EntryNotFound /\ shows B (vput URL_MAINPAGE_REDIRECT None (vsteps V ops)).
Proof.
  intros reserve n A V ops A1 A2 A' w sc sp BG R1 Z ALL NK HL NR1 E1 FS E2 (F1 & FA & _).
  destruct (begins_ok reserve n A V ops A1 BG R1 Z) as (mx & cells1 & L1 & Pc & Pp & WC1 & CL1 & Z1). pose proof (wcore_vcore _ _ _ _ _ _ _ _ _ _ NR1 WC1) as VC1.
  pose proof (vc_laid _ _ _ _ _ _ _ _ _ _ VC1) as LO1. pose proof (laid_consistent _ _ _ _ _ LO1) as C1. pose proof (vc_table _ _ _ _ _ _ _ _ _ _ VC1) as T1.
  assert (NP : Pc ++ Pp = []).
  { destruct (Pc ++ Pp) as [|p P] eqn:EP; [reflexivity|]. exfalso. destruct (pair_of p) as [it d] eqn:EI. destruct (tb_waiting _ _ _ _ _ _ _ T1 it d) as (WA & W2 & W3 & _); [cbn [map]; rewrite EI; left; reflexivity|].
    apply (not_both _ _ (item_url it) C1); [apply ALL; [congruence|exact W3]|exact W2]. }
  assert (NR : fa_redirects A1 = []).
  { destruct (fa_redirects A1) as [|r R] eqn:ER; [reflexivity|]. exfalso. destruct (tb_buffer _ _ _ _ _ _ _ T1 r (or_introl eq_refl)) as (V1 & V2 & V3 & _).
    apply (not_both _ _ (rsource r) C1); [apply ALL; [congruence|exact V3]|exact V2]. }
  apply app_eq_nil in NP as (-> & ->). cbn [perform_mop] in E1.
  assert (HM : vsteps V ops URL_MAINPAGE_REDIRECT = None \/ exists_at (fa_zim A1) URL_MAINPAGE_REDIRECT /\ exists p v, vsteps V ops URL_MAINPAGE_REDIRECT = Some p /\ pg_body p = Link v).
  { destruct (vsteps V ops URL_MAINPAGE_REDIRECT) as [p|] eqn:EP; [right|left; reflexivity]. split; [apply ALL; [congruence|apply main_not_listing]|]. destruct (HL p eq_refl) as (v & Q). eauto. }
  destruct (main_off _ _ _ _ _ _ _ VC1 CL1 NR NK HM E1) as (cells2 & A0 & VC2 & CL2 & R2 & EA).
  destruct (off_flush _ _ _ _ _ _ _ _ VC2 CL2 R2 (vput_same _ _ _) EA FS E2) as (L' & LO & S & MU & T). set (V' := vput URL_MAINPAGE_REDIRECT None (vsteps V ops)) in *.
  assert (GM : forall s, z_main s = None -> get_mainpage_entry s = Err EntryNotFound) by (intros s Q; unfold get_mainpage_entry; rewrite Q; reflexivity).
  assert (MZ : z_main (fa_zim A') = None).
  { destruct (z_main (fa_zim A')) as [m|] eqn:EM; [|reflexivity]. exfalso. pose proof (laid_consistent _ _ _ _ _ LO) as C. destruct (znth_ex (map snd cells2) m (cs_main _ _ C m EM)) as (e & He).
    unfold main_url in MU. rewrite (proj2 (main_iff _ _ e C)) in MU; [discriminate MU|]. exists m. auto. }
  pose proof (table_shows fuel dc new_decomp new_comp comp flush kd Stream reserve process_blob CD A' cells2 L' V' LO (FA _ _ LO) T) as SH.
  split; [apply GM; exact MZ|]. split; [exact SH|].
  destruct (open_settled fuel dc new_decomp new_comp comp flush depth kd Stream reserve md5 feed digest CD w sc sp A' cells2 L' LO S (FA _ _ LO) F1) as (B & E & SA & _). exists B. split; [exact E|].
  split; [|exact (same_shows fuel dc new_decomp kd A' B V' SA SH)]. apply GM. destruct SA. congruence.
Qed.
End MainPage.

(** ** The full claim *)
Definition C70_full_statement : Prop :=
  forall fuel D (dc : decomp D) new_decomp K new_comp comp flush depth kd Stream H (md5 : H) feed digest reserve truncate process_blob rounds,
  codec_ok (K:=K) dc new_decomp new_comp comp flush Stream -> hash_ok feed digest ->
  forall A ops A1 A', chosen fuel dc new_decomp new_comp comp flush depth kd Stream md5 feed digest truncate process_blob rounds reserve A ops A1 A' ->
  forall u, last_choice ops = Some (Some u) -> main_target (fa_zim A') = Some (NS_C ++ u).

Notation sample_chosen := (chosen sample_fuel passthrough plain_new plain_new_comp plain_comp plain_flush 6 KRemembering plain_stream 0 sample_feed sample_digest true (fun _ => ret tt) 3 (Some 50)).
Notation sample_mop := (perform_mop sample_fuel passthrough plain_new plain_new_comp plain_comp plain_flush 6 KRemembering 0 sample_feed sample_digest true (fun _ => ret tt) 3 (Some 50)).
Fixpoint mrun (A : farchive) (ops : list mop) : option farchive :=
  match ops with
  | [] => Some A
  | o :: r => match sample_mop A o with (Ok _, A1) => mrun A1 r | (Err _, _) => None end
  end.
Lemma mrun_ok : forall ops A A', mrun A ops = Some A' ->
  mruns sample_fuel passthrough plain_new plain_new_comp plain_comp plain_flush 6 KRemembering 0 sample_feed sample_digest true (fun _ => ret tt) 3 (Some 50) A ops A'.
Proof.
  induction ops as [|o ops IH]; intros A A' E; cbn [mrun] in E; [injection E as <-; constructor|]. destruct (sample_mop A o) as [[[]|] A1] eqn:E1; [|discriminate E]. econstructor; [exact E1|apply IH; exact E].
Qed.
Definition found_b (A : farchive) (u : ustr) : bool := match get_entry_by_full_url (fa_zim A) u with Ok _ => true | Err _ => false end.
Definition choose_run (ops : list mop) (r : res farchive) : option (farchive * farchive * farchive) :=
  match r with
  | Ok A =>
      if (zlen (pl_ptrs (z_upl (fa_zim A))) <? 100) && (zlen (pl_ptrs (ca_ptrs (fa_arch A))) <? 100) && (zlen ops <? 100) &&
         forallb (fun x => negb (found_b A (item_url (fst x)))) (madded ops) && forallb (fun o => match o with MMain (Some u) => found_b A (NS_C ++ u) | _ => true end) ops then
        match mrun A ops with
        | Some A1 => if flush_small A1 then match sample_flush A1 with (Ok _, A') => Some (A, A1, A') | _ => None end else None
        | None => None
        end
      else None
  | Err _ => None
  end.
Lemma choose_run_of : forall ops A0 cells L A A1 A', laid_out plain_stream (Some 50) A0 cells L -> saved 0 sample_feed sample_digest A0 -> idle A0 ->
  (forall it d, In (it, d) (madded ops) -> item_ok sample_fuel it d) -> NoDup (urls_of (madded ops)) -> choose_run ops (Ok A0) = Some (A, A1, A') -> A = A0 /\ sample_chosen A ops A1 A'.
Proof.
  intros ops A0 cells L A A1 A' LO (Q1 & Q2 & Q3 & _) I IO ND E. unfold choose_run in E.
  destruct ((zlen (pl_ptrs (z_upl (fa_zim A0))) <? 100) && (zlen (pl_ptrs (ca_ptrs (fa_arch A0))) <? 100) && (zlen ops <? 100) && forallb (fun x => negb (found_b A0 (item_url (fst x)))) (madded ops) &&
    forallb (fun o => match o with MMain (Some u) => found_b A0 (NS_C ++ u) | _ => true end) ops) eqn:B; [|discriminate E].
  apply andb_true_iff in B as (B & B4). apply andb_true_iff in B as (B & B3). apply andb_true_iff in B as (B & B2). apply andb_true_iff in B as (B0 & B1).
  destruct (mrun A0 ops) as [A1'|] eqn:E1; [|discriminate E]. destruct (flush_small A1') eqn:FS; [|discriminate E]. destruct (sample_flush A1') as [[[]|] A''] eqn:EF; [|discriminate E].
  injection E as <- <- <-. split; [reflexivity|]. rewrite forallb_forall in B3, B4. constructor.
  - exists cells, L. exact LO.
  - exact I.
  - intros _. split; [exact Q1|split; [exact Q2|exact Q3]].
  - split; lia.
  - intros it d Hi. split; [exact (IO it d Hi)|]. intros e G. specialize (B3 _ Hi). unfold found_b in B3. cbn [fst] in B3. rewrite G in B3. discriminate B3.
  - exact ND.
  - intros u Hu. specialize (B4 _ Hu). unfold found_b in B4. destruct (get_entry_by_full_url (fa_zim A0) (NS_C ++ u)) as [e|]; [eauto|discriminate B4].
  - apply mrun_ok. exact E1.
  - apply flush_small_suffices. exact FS.
  - exact EF.
Qed.
Lemma choose_run_ok : forall ops A A1 A', (forall it d, In (it, d) (madded ops) -> item_ok sample_fuel it d) -> NoDup (urls_of (madded ops)) -> choose_run ops sample_end = Some (A, A1, A') -> sample_chosen A ops A1 A'.
Proof.
  intros ops A A1 A' IO ND E. destruct sample_end_ok as (_ & A0 & _ & EA & _). destruct (sample_end_laid A0 EA) as (cells & L & LO & SV & I & SU). revert E. rewrite EA. intro E. exact (proj2 (choose_run_of ops A0 cells L A A1 A' LO SV I IO ND E)).
Qed.

(** The page [Ca] is chosen, then the metadata item [Mx] is added: after the
    flush the main page is that item. *)
Definition item_m : item := mkItem [77] [120] [110] (mem_source [x43]) None false.
Lemma item_m_ok : item_ok sample_fuel item_m [x43].
Proof. apply (larger_ok 200); [|unfold sample_fuel; lia]. split; [reflexivity|]. split; [apply mem_delivers; reflexivity|intro Q; discriminate Q]. Qed.
Definition then_added : list mop := [MMain (Some [97]); MAdd item_m [x43] true].
Definition ends_at (x : option (farchive * farchive * farchive)) (u : option ustr) : bool :=
  match x with
  | Some (_, _, A') => match main_url (fa_zim A'), u with Some a, Some b => ueqb a b | None, None => true | _, _ => false end && match main_target (fa_zim A') with None => true | Some _ => false end
  | None => false
  end.
Lemma then_added_ends : ends_at (choose_run then_added sample_end) (Some (item_url item_m)) = true.
Proof. vm_compute. reflexivity. Qed.
Lemma ends_ok : forall x u, ends_at x u = true -> exists A A1 A', x = Some (A, A1, A') /\ main_url (fa_zim A') = u /\ main_target (fa_zim A') = None.
Proof.
  intros [[[A A1] A']|] u Q; [|discriminate Q]. cbn [ends_at] in Q. apply andb_true_iff in Q as (Q1 & Q2). exists A, A1, A'. split; [reflexivity|]. split.
  - destruct (main_url (fa_zim A')) as [a|], u as [b|]; try discriminate; [|reflexivity]. apply ueqb_eq in Q1. congruence.
  - destruct (main_target (fa_zim A')); [discriminate|reflexivity].
Qed.
Example C70_moved : exists A A1 A', sample_chosen A then_added A1 A' /\ main_url (fa_zim A') = Some (item_url item_m).
Proof.
  destruct (ends_ok _ _ then_added_ends) as (A & A1 & A' & E & M & _). exists A, A1, A'. split; [|exact M]. apply choose_run_ok; [|repeat constructor; intros []|exact E].
  intros it d [Q|[]]. injection Q as <- <-. exact item_m_ok.
Qed.
Theorem C70_refuted : ~ C70_full_statement.
Proof.
  intro F. destruct (ends_ok _ _ then_added_ends) as (A & A1 & A' & E & _ & M).
  assert (R : sample_chosen A then_added A1 A') by (apply choose_run_ok; [intros it d [Q|[]]; injection Q as <- <-; exact item_m_ok|repeat constructor; intros []|exact E]).
  specialize (F sample_fuel _ passthrough plain_new _ plain_new_comp plain_comp plain_flush 6%nat KRemembering plain_stream _ 0 sample_feed sample_digest (Some 50) true (fun _ => ret tt) 3%nat plain_codec sample_hash
    A then_added A1 A' R [97] eq_refl). congruence.
Qed.
(** The main page is disabled and then [Ca] is chosen: after the flush there is no main page. *)
Definition then_chosen : list mop := [MMain None; MMain (Some [97])].
Lemma then_chosen_ends : ends_at (choose_run then_chosen sample_end) None = true.
Proof. vm_compute. reflexivity. Qed.
Example C70_undone : exists A A1 A', sample_chosen A then_chosen A1 A' /\ main_url (fa_zim A1) = Some URL_MAINPAGE_REDIRECT /\ main_url (fa_zim A') = None.
Proof.
  assert (Q : match choose_run then_chosen sample_end with Some (_, A1, _) => match main_url (fa_zim A1) with Some a => ueqb a URL_MAINPAGE_REDIRECT | None => false end | None => false end = true) by (vm_compute; reflexivity).
  destruct (ends_ok _ _ then_chosen_ends) as (A & A1 & A' & E & M & _). rewrite E in Q. exists A, A1, A'. split; [|split; [|exact M]].
  - apply choose_run_ok; [intros it d []|constructor|exact E].
  - destruct (main_url (fa_zim A1)) as [a|]; [|discriminate Q]. apply ueqb_eq in Q. congruence.
Qed.

(** ** Cases of the theorems *)
(** In a new archive an item is added and chosen before it is written; then another one is added, between the first one and [WmainPage]. *)
Definition early_ops : list vop := [VAdd item_a [x41] false; VAdd item_b [x42] false].
Definition late_ops : list vop := [VAdd item_m [x43] true].
Definition main_dom : list ustr := [item_url item_a; item_url item_b; item_url item_m; URL_MAINPAGE_REDIRECT].
Definition main_run (ops rest : list vop) (r : res farchive) : option (farchive * farchive * farchive) :=
  match r with
  | Ok A => match sample_vrun 100 main_dom A empty_view ops with
            | Some A1 => match sample_vrun 100 main_dom A1 (vsteps empty_view ops) rest with Some A' => Some (A, A1, A') | None => None end
            | None => None
            end
  | Err _ => None
  end.
Lemma main_run_ok : forall ops rest r A A1 A', Forall side_ok (ops ++ rest) -> incl (touches empty_view ops) main_dom -> incl (touches (vsteps empty_view ops) rest) main_dom -> main_run ops rest r = Some (A, A1, A') ->
  r = Ok A /\ sample_vruns 100 A empty_view ops A1 /\ sample_vruns 100 A1 (vsteps empty_view ops) rest A'.
Proof.
  intros ops rest r A A1 A' SO T1 T2 E. destruct r as [A0|]; [|discriminate E]. cbn [main_run] in E. destruct (sample_vrun 100 main_dom A0 empty_view ops) as [A1'|] eqn:E1; [|discriminate E].
  destruct (sample_vrun 100 main_dom A1' (vsteps empty_view ops) rest) as [A2|] eqn:E2; [|discriminate E]. injection E as <- <- <-. apply Forall_app in SO as (S1 & S2). split; [reflexivity|].
  split; (eapply (sample_vrun_ok 100 main_dom); [| |eassumption|eassumption]; try assumption).
  - intros x Q. elim Q. reflexivity.
  - intros x Q. destruct (touches_ok ops empty_view x Q) as [Q2|Q2]; [apply T1; exact Q2|elim Q2; reflexivity].
Qed.
Lemma new_begins : forall A, sample_created = Ok A -> begins sample_fuel passthrough plain_new plain_new_comp plain_comp plain_flush 6 KRemembering plain_stream (Some 50) A empty_view.
Proof. intros A E. destruct sample_zops_ok as (_ & _ & _ & FS & FM). right. exists 50, sample_uuid, sample_simple, sample_mime. split; [reflexivity|]. split; [lia|]. split; [reflexivity|]. auto. Qed.
Lemma main_side : Forall side_ok (early_ops ++ VMain [97] :: late_ops ++ [VFlush]).
Proof.
  assert (LE : (200 <= sample_fuel)%nat) by (unfold sample_fuel; lia).
  repeat (constructor; [cbn [side_ok]; first [exact I|exact item_m_ok|eapply larger_ok; [first [exact item_a_ok|exact item_b_ok]|exact LE]]|]). constructor.
Qed.
Definition waits_b (x : option (farchive * farchive * farchive)) : bool := match x with Some (_, A1, _) => negb (found_b A1 (NS_C ++ [97])) | None => false end.
Lemma early_waits : waits_b (main_run early_ops (VMain [97] :: late_ops ++ [VFlush]) sample_created) = true.
Proof. vm_compute. reflexivity. Qed.
Example C70_waiting_example : exists A A1 A' B, sample_created = Ok A /\ sample_vruns 100 A empty_view early_ops A1 /\ sample_vruns 100 A1 (vsteps empty_view early_ops) (VMain [97] :: late_ops ++ [VFlush]) A' /\
  sample_open (fa_file A') false sample_simple sample_simple = Ok B /\ main_target (fa_zim B) = Some (NS_C ++ [97]).
Proof.
  pose proof early_waits as Q. destruct (main_run early_ops (VMain [97] :: late_ops ++ [VFlush]) sample_created) as [[[A A1] A']|] eqn:E; [|discriminate Q]. cbn [waits_b] in Q.
  destruct (main_run_ok _ _ _ _ _ _ main_side ltac:(intros x HX; vm_compute in HX; vm_compute; tauto) ltac:(intros x HX; vm_compute in HX; vm_compute; tauto) E) as (E0 & R1 & R2).
  destruct (C70_waiting_partial sample_fuel passthrough plain_new plain_new_comp plain_comp plain_flush 6 KRemembering plain_stream 0 sample_feed sample_digest true (fun _ => ret tt) 3 plain_codec sample_hash
    (Some 50) 100 A empty_view early_ops A1 [97] late_ops A' false sample_simple sample_simple (new_begins A E0) R1) as (_ & B & EB & MB); [|exact R2|repeat constructor|vm_compute; discriminate|].
  - intros e G. unfold found_b in Q. rewrite G in Q. discriminate Q.
  - exists A, A1, A', B. auto.
Qed.
(** The items are written before one of them is chosen. *)
Definition written_b (x : option (farchive * farchive * farchive)) : bool := match x with Some (_, A1, _) => forallb (fun u => found_b A1 u) [item_url item_a; item_url item_b] | None => false end.
Lemma early_written : written_b (main_run (early_ops ++ [VFlush]) [VMain [97]; VFlush] sample_created) = true.
Proof. vm_compute. reflexivity. Qed.
Example C70_written_example : exists A A1 A' B, sample_created = Ok A /\ sample_vruns 100 A empty_view (early_ops ++ [VFlush]) A1 /\ sample_vruns 100 A1 (vsteps empty_view (early_ops ++ [VFlush])) [VMain [97]; VFlush] A' /\
  sample_open (fa_file A') false sample_simple sample_simple = Ok B /\ main_target (fa_zim B) = Some (NS_C ++ [97]).
Proof.
  pose proof early_written as Q. destruct (main_run (early_ops ++ [VFlush]) [VMain [97]; VFlush] sample_created) as [[[A A1] A']|] eqn:E; [|discriminate Q]. cbn [written_b] in Q.
  assert (SD : Forall side_ok ((early_ops ++ [VFlush]) ++ [VMain [97]; VFlush])).
  { pose proof main_side as S. apply Forall_app in S as (S & _). apply Forall_app. split; [apply Forall_app; split; [exact S|]|]; repeat constructor. }
  destruct (main_run_ok _ _ _ _ _ _ SD ltac:(intros x HX; vm_compute in HX; vm_compute; tauto) ltac:(intros x HX; vm_compute in HX; vm_compute; tauto) E) as (E0 & R1 & R2).
  destruct (C70_written_partial sample_fuel passthrough plain_new plain_new_comp plain_comp plain_flush 6 KRemembering plain_stream 0 sample_feed sample_digest true (fun _ => ret tt) 3 plain_codec sample_hash
    (Some 50) 100 A empty_view (early_ops ++ [VFlush]) A1 [97] A' false sample_simple sample_simple (new_begins A E0) R1) as (_ & B & EB & MB); [|exact R2|vm_compute; discriminate|].
  - intros x N _. rewrite forallb_forall in Q. destruct (touches_ok (early_ops ++ [VFlush]) empty_view x N) as [Q2|Q2]; [|elim Q2; reflexivity]. specialize (Q x Q2). unfold found_b in Q.
    destruct (get_entry_by_full_url (fa_zim A1) x) as [e|]; [eauto|discriminate Q].
  - exists A, A1, A', B. auto.
Qed.

(** The main page of the last example is switched off again. *)
Definition shown_ops : list vop := early_ops ++ [VFlush; VMain [97]; VFlush].
Definition off_run (r : res farchive) : option (farchive * farchive * farchive * farchive) :=
  match r with
  | Ok A => match sample_vrun 100 main_dom A empty_view shown_ops with
            | Some A1 =>
                if forallb (fun u => found_b A1 u) [item_url item_a; item_url item_b; URL_MAINPAGE_REDIRECT] && match queue A1 with [] => true | _ :: _ => false end &&
                   match get_mainpage_entry (fa_zim A1) with Ok _ => true | Err _ => false end then
                  match sample_mop A1 (MMain None) with
                  | (Ok _, A2) => if flush_small A2 then match sample_flush A2 with (Ok _, A') => if small A' then Some (A, A1, A2, A') else None | _ => None end else None
                  | _ => None
                  end
                else None
            | None => None
            end
  | Err _ => None
  end.
Lemma off_runs : match off_run sample_created with Some _ => true | None => false end = true.
Proof. vm_compute. reflexivity. Qed.
Example C70_disabled_example : exists A A1 A2 A' B e, sample_created = Ok A /\ sample_vruns 100 A empty_view shown_ops A1 /\ get_mainpage_entry (fa_zim A1) = Ok e /\ sample_mop A1 (MMain None) = (Ok tt, A2) /\
  sample_flush A2 = (Ok tt, A') /\ sample_open (fa_file A') false sample_simple sample_simple = Ok B /\ get_mainpage_entry (fa_zim B) = Err EntryNotFound.
Proof.
  pose proof off_runs as Q. destruct (off_run sample_created) as [[[[A A1] A2] A']|] eqn:E; [|discriminate Q]. clear Q. destruct sample_created as [A0|] eqn:E0; [|discriminate E]. cbn [off_run] in E.
  destruct (sample_vrun 100 main_dom A0 empty_view shown_ops) as [A1'|] eqn:E1; [|discriminate E].
  destruct (forallb (fun u => found_b A1' u) [item_url item_a; item_url item_b; URL_MAINPAGE_REDIRECT] && match queue A1' with [] => true | _ :: _ => false end &&
    match get_mainpage_entry (fa_zim A1') with Ok _ => true | Err _ => false end) eqn:B; [|discriminate E].
  apply andb_true_iff in B as (B & B3). apply andb_true_iff in B as (B1 & B2).
  destruct (sample_mop A1' (MMain None)) as [[[]|] A2'] eqn:E2; [|discriminate E]. destruct (flush_small A2') eqn:FS; [|discriminate E]. destruct (sample_flush A2') as [[[]|] A3] eqn:E3; [|discriminate E].
  destruct (small A3) eqn:SM; [|discriminate E]. injection E as <- <- <- <-.
  assert (SD : Forall side_ok shown_ops).
  { pose proof main_side as S. apply Forall_app in S as (S & _). apply Forall_app. split; [exact S|]. repeat constructor. }
  assert (R : sample_vruns 100 A0 empty_view shown_ops A1').
  { eapply (sample_vrun_ok 100 main_dom); [| |exact SD|exact E1]; [intros x Q; elim Q; reflexivity|intros x HX; vm_compute in HX; vm_compute; tauto]. }
  destruct (get_mainpage_entry (fa_zim A1')) as [e|] eqn:GM; [|discriminate B3].
  assert (PG : forall x q, vsteps empty_view shown_ops x = Some q -> In x [item_url item_a; item_url item_b; URL_MAINPAGE_REDIRECT]).
  { intros x q Hq. destruct (touches_ok shown_ops empty_view x) as [Q2|Q2]; [rewrite Hq; discriminate| |elim Q2; reflexivity]. vm_compute in Q2. vm_compute. tauto. }
  destruct (C70_disabled_partial sample_fuel passthrough plain_new plain_new_comp plain_comp plain_flush 6 KRemembering plain_stream 0 sample_feed sample_digest true (fun _ => ret tt) 3 plain_codec sample_hash
    (Some 50) 100 A0 empty_view shown_ops A1' A2' A3 false sample_simple sample_simple (new_begins A0 E0) R) as (_ & _ & B & EB & MB & _).
  - vm_compute. discriminate.
  - intros x N _. destruct (vsteps empty_view shown_ops x) as [q|] eqn:Hq; [|congruence]. rewrite forallb_forall in B1. specialize (B1 x (PG x q Hq)). unfold found_b in B1.
    destruct (get_entry_by_full_url (fa_zim A1') x) as [e1|]; [eauto|discriminate B1].
  - intros x q Hq. destruct (PG x q Hq) as [<-|[<-|[<-|[]]]]; vm_compute in Hq; injection Hq as <-; discriminate.
  - intros p Hp. vm_compute in Hp. injection Hp as <-. eexists. reflexivity.
  - unfold no_replacement. destruct (queue A1'); [intros w e1 []|discriminate B2].
  - exact E2.
  - apply flush_small_suffices. exact FS.
  - exact E3.
  - apply small_suffices. exact SM.
  - exists A0, A1', A2', A3, B, e. auto 10.
Qed.

Print Assumptions C70_waiting_partial.
Print Assumptions C70_written_partial.
Print Assumptions C70_disabled_partial.
Print Assumptions C70_refuted.
Print Assumptions C70_moved.
Print Assumptions C70_undone.
Print Assumptions C70_waiting_example.
Print Assumptions C70_written_example.
Print Assumptions C70_disabled_example.
