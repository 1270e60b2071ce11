(** C46, second part: any history, with edits, removals, links and main pages. *)
From Coq Require Import List ZArith Bool Lia Permutation Strings.Byte.
From Coq Require Import ZifyBool ZifyNat.
From Verif Require Import Base BaseProofs Utf8 Utf8Proofs Infobyte Header HeaderSpec HeaderProofs MimeTypeList MimeTypeListSpec Entry EntrySpec Reader ReaderSpec Decompressors DecompressorsProofs Blob BlobProofs
  PointerList PointerListProofs SpaceAllocator Cluster ClusterSpec ClusterProofs ClusterWrapper ClusterWrapperSpec ClusterWrapperProofs Archive ArchiveSpec ArchiveProofs ArchiveFacts ArchiveObserve
  ArchiveCluster ArchiveClusterSpec ArchiveClusterProofs CompressionStrategy CompressionStrategySpec CompressionStrategyProofs OperationBuffer OperationBufferSpec EntryObject Flush FlushSpec FlushProofs FlushTailProofs FlushOpenProofs
  FlushHistorySpec FlushHistoryProofs FlushCreateProofs ViewSpec ViewProofs ViewEditProofs ViewStepProofs ViewWaitProofs ViewHistoryProofs PropsArchiveCluster PropsCompressionStrategy PropsFlush PropsView.
Import ListNotations.
Open Scope Z_scope.

Section View.
Variable fuel : nat.
Context {D : Type}.
Variable dc : decomp D.
Variable new_decomp : ctype -> res D.
Context {K : Type}.
Variable new_comp : ctype -> res K.
Variable comp : K -> bytes -> res (bytes * K).
Variable flush : K -> res bytes.
Variable depth : nat.
Variable kd : ckind.
Variable Stream : ctype -> bytes -> bytes -> Prop.
Context {H : Type}.
Variable md5 : H.
Variable feed : H -> bytes -> H.
Variable digest : H -> bytes.
Variable truncate : bool.
Variable process_blob : entry -> M zim unit.
Variable rounds : nat.
Hypothesis CD : codec_ok dc new_decomp new_comp comp flush Stream.
Hypothesis HO : hash_ok feed digest.
Notation runs reserve := (vruns fuel dc new_decomp new_comp comp flush depth kd Stream md5 feed digest reserve truncate process_blob rounds).
Notation opens := (open_zim fuel dc new_decomp new_comp comp flush depth kd).
Notation right := (checksum_right md5 feed digest).

Lemma runs_app : forall reserve n A V ops A1, runs reserve n A V ops A1 -> forall ops' A', runs reserve n A1 (vsteps V ops) ops' A' -> runs reserve n A V (ops ++ ops') A'.
Proof.
  intros reserve n. induction 1 as [A V W CT|A V o A1 ops A2 W CT FS OK E R IH]; intros ops' A' R'; [exact R'|]. cbn [app]. econstructor; eauto.
Qed.
Lemma checksum_ends : forall reserve mx n A V ops A1 A' cells L w sc sp, runs reserve n A V ops A1 -> runs reserve n A1 (vsteps V ops) [VFlush] A' -> laid_out Stream reserve A cells L ->
  pendany fuel mx (zs_comp (fa_state A)) [] -> pendany fuel mx (zs_plain (fa_state A)) [] -> no_buffer A -> (is_dirty A = false -> settled A) ->
  ViewSpec.shows fuel dc new_decomp kd A V -> vadds ops <= n -> Forall (vlimited mx) ops -> is_dirty A1 = true \/ right A1 ->
  right A' /\ exists B, opens (fa_file A') w sc sp = Ok B /\ same_archive A' B /\ right B.
Proof.
  intros reserve mx n A V ops A1 A' cells L w sc sp R1 R2 LO P1 P2 NB SE SH Z LM DR.
  destruct (vruns_ends _ _ _ _ _ _ _ _ _ _ _ _ _ _ _ _ _ _ _ _ _ R1) as (((F0 & FA & _) & _) & _).
  destruct (vruns_ends _ _ _ _ _ _ _ _ _ _ _ _ _ _ _ _ _ _ _ _ _ R2) as ((_ & B3) & ((F1 & FA1 & _) & _)).
  assert (T : table (fa_zim A) (map snd cells) (blobs_of L) (ml_types (fa_mimes A)) [] [] V) by (exact (shows_table fuel dc new_decomp new_comp comp flush kd Stream reserve md5 feed digest process_blob CD A cells L V LO (FA _ _ LO) SH)).
  destruct NB as (N1 & N2).
  assert (VC : wcore fuel Stream reserve mx A cells L [] [] V) by (constructor; auto; [constructor|left; exact N2|rewrite N1; apply table_wtable; exact T]).
  assert (W0 : waiting A [] [] = 0) by (unfold waiting; rewrite N1; reflexivity).
  destruct (vruns_step fuel dc new_decomp new_comp comp flush depth kd Stream reserve md5 feed digest truncate process_blob rounds CD HO mx _ _ _ _ _ R1 cells L [] [] VC ltac:(unfold vclean; auto) ltac:(lia) LM)
    as (cells1 & L1 & Pc1 & Pp1 & VC1 & CL1 & Z1).
  inversion R2 as [|? ? ? A2 ? ? W CT FS OK E R3]; subst. inversion R3; subst. cbn [perform_vop] in E. destruct OK as (OK & _).
  destruct (wflush_step fuel dc new_decomp new_comp comp flush depth kd Stream reserve md5 feed digest truncate process_blob rounds CD HO mx A1 cells1 L1 Pc1 Pp1 _ n A' VC1 CL1 OK CT ltac:(unfold waiting in *; lia) B3 FS E)
    as (cells2 & L2 & VC2 & S2 & _ & _ & RT).
  specialize (RT DR). split; [exact RT|]. pose proof (vc_laid _ _ _ _ _ _ _ _ _ _ VC2) as LO2.
  destruct (open_settled fuel dc new_decomp new_comp comp flush depth kd Stream reserve md5 feed digest CD w sc sp A' cells2 L2 LO2 S2 (FA1 _ _ LO2) F1) as (B & EB & SA & _).
  exists B. split; [exact EB|]. split; [exact SA|]. eapply same_checksum; eassumption.
Qed.

(** *** C46, for every history of C65 that ends with a flush.  Opening what was
    flushed gives the same archive; and its checksum is right, unless nothing
    was marked as modified at the time of the flush and the checksum was wrong
    already. *)
Theorem C46_any_history_partial : forall reserve n A cells L V ops A1 A' w sc sp,
  laid_out Stream reserve A cells L -> fresh_strategy (zs_comp (fa_state A)) -> fresh_strategy (zs_plain (fa_state A)) ->
  fa_redirects A = [] -> fa_main A = None -> (is_dirty A = false -> settled A) ->
  ViewSpec.shows fuel dc new_decomp kd A V -> runs reserve n A V ops A1 -> vadds ops <= n ->
  runs reserve n A1 (vsteps V ops) [VFlush] A' -> is_dirty A1 = true \/ right A1 ->
  right A' /\ exists B, opens (fa_file A') w sc sp = Ok B /\ same_archive A' B /\ right B.
Proof.
  intros reserve n A cells L V ops A1 A' w sc sp LO F1 F2 N1 N2 SE SH R Z R2 DR. set (mx := Z.max (Z.max (limit_of (zs_comp (fa_state A))) (limit_of (zs_plain (fa_state A)))) (vhighest ops)).
  eapply (checksum_ends reserve mx n A V ops A1 A' cells L w sc sp R R2 LO); try assumption.
  - apply fresh_pendany; [exact F1|lia].
  - apply fresh_pendany; [exact F2|lia].
  - split; assumption.
  - eapply vlimited_more; [|apply vhighest_limits]. lia.
Qed.
(** The same from the creation of the archive on. *)
Theorem C46_any_new_partial : forall r u sc0 sp0 n A ops A1 A' w sc sp, 0 <= r -> zlen u = 16 -> fresh_strategy sc0 -> fresh_strategy sp0 ->
  init_new fuel new_comp comp flush depth (Some r) u sc0 sp0 = Ok A -> runs (Some r) n A empty_view ops A1 -> vadds ops <= n ->
  runs (Some r) n A1 (vsteps empty_view ops) [VFlush] A' -> is_dirty A1 = true \/ right A1 ->
  right A' /\ exists B, opens (fa_file A') w sc sp = Ok B /\ same_archive A' B /\ right B.
Proof.
  intros r u sc0 sp0 n A ops A1 A' w sc sp Hr HU F1 F2 IN R Z R2 DR. set (mx := Z.max (Z.max (limit_of sc0) (limit_of sp0)) (vhighest ops)).
  pose proof (runs_app _ _ _ _ _ _ R _ _ R2) as RR.
  destruct (vruns_ends _ _ _ _ _ _ _ _ _ _ _ _ _ _ _ _ _ _ _ _ _ R) as (((F0 & _) & _) & _).
  destruct (created fuel dc new_decomp new_comp comp flush depth Stream CD mx r Hr F0 u sc0 sp0 A HU F1 F2) as (cells & L & LO & P1 & P2 & B1 & B2 & DI & _); [lia|lia|exact IN|].
  destruct (C65_new_archive fuel dc new_decomp new_comp comp flush depth kd Stream md5 feed digest truncate process_blob rounds CD HO r u sc0 sp0 n A ops A' w sc sp Hr HU F1 F2 IN RR Z) as (SH & _).
  eapply (checksum_ends (Some r) mx n A empty_view ops A1 A' cells L w sc sp R R2 LO); try assumption.
  - split; assumption.
  - intro Q. congruence.
  - eapply vlimited_more; [|apply vhighest_limits]. lia.
Qed.
(** *** C46, in terms of the operations alone: an item was added after the last
    flush.  [ops2] are the operations since then. *)
Definition no_flush (o : vop) : Prop := match o with VFlush | VReopen _ _ => False | _ => True end.
Lemma keeps_mark : forall reserve A o A1, no_flush o -> fa_dirty A = true \/ (exists it d u, o = VAdd it d u) ->
  perform_vop fuel dc new_decomp new_comp comp flush depth kd md5 feed digest reserve truncate process_blob rounds A o = (Ok tt, A1) -> fa_dirty A1 = true.
Proof.
  intros reserve A o A1 NF DI E. destruct o; cbn [no_flush] in NF; try contradiction; cbn [perform_vop perform_zop] in E.
  - unfold fa_add_item in E. destruct (zim_add_item _ _ _ _ _ _ _ _) as [[x|x] z]; injection E as; subst; try discriminate. reflexivity.
  - destruct DI as [DI|(? & ? & ? & Q)]; [|discriminate Q]. unfold on_buffered in E. destruct (add_redirect _ _ _) as (r & o). injection E as _ <-. exact DI.
  - destruct DI as [DI|(? & ? & ? & Q)]; [|discriminate Q]. unfold edit_entry in E. destruct (get_entry_by_full_url _ _) as [e|x]; [|discriminate E].
    destruct (assign_all _ _) as (r & (o & ml)). destruct r; [|discriminate E]. unfold on_zim in E. destruct (mbind _ _ _) as (r & s). injection E as _ <-. exact DI.
  - destruct DI as [DI|(? & ? & ? & Q)]; [|discriminate Q]. unfold content_of, mbind, set_listing in E. destruct (get_entry_by_full_url _ _) as [e|x]; [|discriminate E].
    destruct (e_kind e); [|discriminate E]. destruct (edited _ _ _ _ _ _ _) as [o|x]; [|discriminate E]. destruct (write_cluster _ _ _ _ _ _ _ _) as (r & (a & o')).
    destruct r; cbn [bind] in E; [|discriminate E]. injection E as <-. exact DI.
  - destruct DI as [DI|(? & ? & ? & Q)]; [|discriminate Q]. unfold remove_entry_at in E. destruct (get_entry_by_full_url _ _) as [e|x]; [|discriminate E].
    unfold on_zim in E. destruct (eobj_remove _ _ _ _) as (r & s). injection E as _ <-. exact DI.
  - destruct DI as [DI|(? & ? & ? & Q)]; [|discriminate Q]. unfold on_buffered in E. destruct (set_mainpage _ _ _ _) as (r & o). injection E as _ <-. exact DI.
Qed.
Lemma run_marked : forall reserve n A V ops A1, runs reserve n A V ops A1 -> fa_dirty A = true -> Forall no_flush ops -> fa_dirty A1 = true.
Proof.
  intros reserve n. induction 1 as [A V W CT|A V o A1 ops A2 W CT FS OK E R IH]; intros DI NF; [exact DI|]. apply Forall_cons_iff in NF as (NF & NR). apply IH; [|exact NR].
  eapply keeps_mark; [exact NF|left; exact DI|exact E].
Qed.
Lemma added_dirty : forall reserve n ops1 A V it d u ops2 A1, runs reserve n A V (ops1 ++ VAdd it d u :: ops2) A1 -> Forall no_flush ops2 -> is_dirty A1 = true.
Proof.
  intros reserve n. induction ops1 as [|o ops1 IH]; intros A V it d u ops2 A1 R NF; cbn [app] in R; inversion R as [|? ? ? A2 ? ? W CT FS OK E R2]; subst; [|eapply IH; eassumption].
  unfold is_dirty. rewrite (run_marked _ _ _ _ _ _ R2); [reflexivity| |exact NF]. eapply (keeps_mark _ _ (VAdd it d u)); [exact I|right; eauto|exact E].
Qed.
Theorem C46_after_addition_partial : forall reserve n A cells L V ops1 it d u ops2 A1 A' w sc sp,
  laid_out Stream reserve A cells L -> fresh_strategy (zs_comp (fa_state A)) -> fresh_strategy (zs_plain (fa_state A)) ->
  fa_redirects A = [] -> fa_main A = None -> (is_dirty A = false -> settled A) ->
  ViewSpec.shows fuel dc new_decomp kd A V -> runs reserve n A V (ops1 ++ VAdd it d u :: ops2) A1 -> vadds (ops1 ++ VAdd it d u :: ops2) <= n ->
  ~ In VFlush ops2 -> (forall sc sp, ~ In (VReopen sc sp) ops2) ->
  runs reserve n A1 (vsteps V (ops1 ++ VAdd it d u :: ops2)) [VFlush] A' ->
  right A' /\ exists B, opens (fa_file A') w sc sp = Ok B /\ same_archive A' B /\ right B.
Proof.
  intros reserve n A cells L V ops1 it d u ops2 A1 A' w sc sp LO F1 F2 N1 N2 SE SH R Z NF NR R2.
  refine (C46_any_history_partial _ _ _ _ _ _ _ _ _ w sc sp LO F1 F2 N1 N2 SE SH R Z R2 _). left. eapply added_dirty; [exact R|]. apply Forall_forall. intros [] Hx; try exact I; [elim (NF Hx)|elim (NR _ _ Hx)].
Qed.
Theorem C46_after_addition_new_partial : forall r uu sc0 sp0 n A ops1 it d u ops2 A1 A' w sc sp, 0 <= r -> zlen uu = 16 -> fresh_strategy sc0 -> fresh_strategy sp0 ->
  init_new fuel new_comp comp flush depth (Some r) uu sc0 sp0 = Ok A -> runs (Some r) n A empty_view (ops1 ++ VAdd it d u :: ops2) A1 -> vadds (ops1 ++ VAdd it d u :: ops2) <= n ->
  ~ In VFlush ops2 -> (forall sc sp, ~ In (VReopen sc sp) ops2) ->
  runs (Some r) n A1 (vsteps empty_view (ops1 ++ VAdd it d u :: ops2)) [VFlush] A' ->
  right A' /\ exists B, opens (fa_file A') w sc sp = Ok B /\ same_archive A' B /\ right B.
Proof.
  intros r uu sc0 sp0 n A ops1 it d u ops2 A1 A' w sc sp Hr HU F1 F2 IN R Z NF NR R2.
  refine (C46_any_new_partial _ _ _ _ _ _ _ _ _ w sc sp Hr HU F1 F2 IN R Z R2 _). left. eapply added_dirty; [exact R|]. apply Forall_forall. intros [] Hx; try exact I; [elim (NF Hx)|elim (NR _ _ Hx)].
Qed.
End View.

(** ** The history of [C65_example]: something is marked as modified before its
    last flush. *)
Definition before_flush (r : res farchive) : bool :=
  match r with
  | Ok A => match sample_vrun 100 sample_dom A empty_view sample_vops with Some A1 => is_dirty A1 | None => false end
  | Err _ => false
  end.
Lemma sample_before : before_flush sample_created = true.
Proof. vm_compute. reflexivity. Qed.
Example C46_history_example : exists A A1 A', sample_created = Ok A /\ sample_vruns 100 A empty_view sample_vops A1 /\ is_dirty A1 = true /\ sample_vruns 100 A1 (vsteps empty_view sample_vops) [VFlush] A' /\
  vend_of sample_created = Ok A' /\ checksum_right 0 sample_feed sample_digest A' /\ exists B, sample_open (fa_file A') false sample_simple sample_simple = Ok B /\ same_archive A' B /\ checksum_right 0 sample_feed sample_digest B.
Proof.
  destruct (vend_of_ok sample_created sample_vend_works) as (A & A' & E1 & E2 & R). destruct sample_zops_ok as (_ & _ & _ & FS & FM).
  destruct (vruns_app _ _ _ _ _ _ _ _ _ _ _ _ _ _ _ _ _ _ _ _ _ _ R) as (A1 & R1 & CT & W1 & W2 & FF & OK & E).
  assert (CT2 : counts 100 A') by (clear - R; remember (sample_vops ++ [VFlush]) as l eqn:Q; clear Q; induction R; auto).
  assert (R2 : sample_vruns 100 A1 (vsteps empty_view sample_vops) [VFlush] A') by (econstructor; [exact W1|exact CT|exact FF|exact OK|exact E|constructor; assumption]).
  assert (DI : is_dirty A1 = true).
  { pose proof sample_before as Q. rewrite E1 in Q. cbn [before_flush] in Q. destruct (sample_vrun 100 sample_dom A empty_view sample_vops) as [A2|] eqn:ER; [|discriminate Q].
    assert (RX : sample_vruns 100 A empty_view sample_vops A2).
    { eapply (sample_vrun_ok 100 sample_dom); [|intros x Hx; apply sample_touches|pose proof sample_side as SS; apply Forall_app in SS; exact (proj1 SS)|exact ER].
      - intros x Hx. elim Hx. reflexivity.
      - vm_compute in Hx. vm_compute. tauto. }
    replace A1 with A2; [exact Q|]. clear - RX R1. revert RX. induction R1 as [? ? ? ?|? ? ? ? ? ? ? ? ? ? E ? IH]; intro RX; inversion RX; subst; [reflexivity|]. apply IH. congruence. }
  destruct (C46_any_new_partial sample_fuel passthrough plain_new plain_new_comp plain_comp plain_flush 6 KRemembering plain_stream 0 sample_feed sample_digest true (fun _ => ret tt) 3 plain_codec sample_hash
    50 sample_uuid sample_simple sample_mime 100 A sample_vops A1 A' false sample_simple sample_simple ltac:(lia) eq_refl FS FM E1 R1 ltac:(vm_compute; discriminate) R2 (or_introl DI)) as (RT & X).
  exists A, A1, A'. auto 10.
Qed.

(** Its first flush: items are added, then a redirect and the main page. *)
Definition first_ops : list vop := firstn 2 sample_vops.
Definition then_ops : list vop := [VLink [67; 122] (item_url item_b) None; VMain [98]].
Lemma first_flush : sample_vops ++ [VFlush] = (first_ops ++ VAdd item_c [x43] true :: then_ops) ++ [VFlush] ++ skipn 6 (sample_vops ++ [VFlush]).
Proof. reflexivity. Qed.
Example C46_after_addition_example : exists A A1 A', sample_created = Ok A /\ sample_vruns 100 A empty_view (first_ops ++ VAdd item_c [x43] true :: then_ops) A1 /\
  sample_vruns 100 A1 (vsteps empty_view (first_ops ++ VAdd item_c [x43] true :: then_ops)) [VFlush] A' /\
  checksum_right 0 sample_feed sample_digest A' /\ exists B, sample_open (fa_file A') false sample_simple sample_simple = Ok B /\ same_archive A' B /\ checksum_right 0 sample_feed sample_digest B.
Proof.
  destruct (vend_of_ok sample_created sample_vend_works) as (A & A9 & E1 & E2 & R). destruct sample_zops_ok as (_ & _ & _ & FS & FM).
  rewrite first_flush in R.
  assert (SPLIT : forall ops ops' A V A', sample_vruns 100 A V (ops ++ ops') A' -> exists A1, sample_vruns 100 A V ops A1 /\ sample_vruns 100 A1 (vsteps V ops) ops' A').
  { clear. induction ops as [|o ops IH]; intros ops' A V A' R; cbn [app] in R.
    - exists A. split; [|exact R]. inversion R; subst; constructor; assumption.
    - inversion R as [|? ? ? A1 ? ? W CT FS OK E R2]; subst. destruct (IH _ _ _ _ R2) as (A2 & P & Q). exists A2. split; [econstructor; eassumption|exact Q]. }
  apply SPLIT in R as (A1 & R1 & R). apply SPLIT in R as (A' & R2 & _).
  assert (NF : ~ In VFlush then_ops) by (intros [Q|[Q|[]]]; discriminate Q).
  assert (NR : forall sc sp, ~ In (VReopen sc sp) then_ops) by (intros sc sp [Q|[Q|[]]]; discriminate Q).
  destruct (C46_after_addition_new_partial sample_fuel passthrough plain_new plain_new_comp plain_comp plain_flush 6 KRemembering plain_stream 0 sample_feed sample_digest true (fun _ => ret tt) 3 plain_codec sample_hash
    50 sample_uuid sample_simple sample_mime 100 A first_ops item_c [x43] true then_ops A1 A' false sample_simple sample_simple ltac:(lia) eq_refl FS FM E1 R1 ltac:(vm_compute; discriminate) NF NR R2) as (RT & X).
  exists A, A1, A'. auto 10.
Qed.

Print Assumptions C46_any_history_partial.
Print Assumptions C46_any_new_partial.
Print Assumptions C46_history_example.
Print Assumptions C46_after_addition_partial.
Print Assumptions C46_after_addition_new_partial.
Print Assumptions C46_after_addition_example.
