(** C87: an archive can be opened for reading.  C88: an archive that was opened
    for reading, or is closed, is not changed. *)
From Coq Require Import List ZArith Bool Lia.
From Coq Require Import ZifyBool ZifyNat.
From Coq Require Import Strings.Byte.
From Verif Require Import Base BaseProofs Utf8 Dict Infobyte Header MimeTypeList PointerList SpaceAllocator Entry Reader Cluster ClusterWrapper ClusterSpec ClusterWrapperSpec ClusterWrapperProofs
  Archive ArchiveSpec ArchiveCluster ArchiveClusterSpec CompressionStrategy CompressionStrategySpec OperationBuffer EntryObject Flush FlushSpec FlushTailProofs FlushHistorySpec ViewSpec
  Counter CounterSpec CountedArchive CountedSpec ReadOnly PropsArchiveCluster PropsCompressionStrategy PropsFlush PropsView PropsCounted PropsChecksum.
Import ListNotations.
Open Scope Z_scope.

(** ** C87 *)
Section Opening.
Variable fuel : nat.
Context {D : Type}.
Variable dc : decomp D.
Variable new_decomp : ctype -> res D.
Context {K : Type}.
Variable new_comp : ctype -> res K.
Variable comp : K -> bytes -> res (bytes * K).
Variable flush : K -> res bytes.
Variable depth : nat.
Variable kd : ckind.
Variable Stream : ctype -> bytes -> bytes -> Prop.
Context {H : Type}.
Variable md5 : H.
Variable feed : H -> bytes -> H.
Variable digest : H -> bytes.
Variable truncate : bool.
Variable process_blob : entry -> M zim unit.
Variable rounds : nat.
Hypothesis CD : codec_ok dc new_decomp new_comp comp flush Stream.
Hypothesis HO : hash_ok feed digest.
Notation opens := (open_zim fuel dc new_decomp new_comp comp flush depth kd).
Notation starts := (open_session fuel dc new_decomp new_comp comp flush depth kd).
Notation opens_path := (open_path fuel dc new_decomp new_comp comp flush depth kd).
Notation shows := (shows fuel dc new_decomp kd).
Notation vruns reserve := (vruns fuel dc new_decomp new_comp comp flush depth kd Stream md5 feed digest reserve truncate process_blob rounds).
Notation cruns reserve := (cruns fuel dc new_decomp new_comp comp flush depth kd Stream md5 feed digest reserve truncate process_blob rounds).

(** Opened for reading, nothing is there to be written. *)
Lemma opened_clean : forall f sc sp A, opens f false sc sp = Ok A -> is_dirty A = false /\ ho_mutable (fa_header A) = false /\ ml_mutable (fa_mimes A) = false /\ fa_file A = f /\ fa_set_dirty false A = A.
Proof.
  intros f sc sp A E. unfold open_zim in E. destruct (header_from_file f 0) as [h|]; cbn [bind] in E; [|discriminate E]. destruct (mt_from_file _) as [m|]; cbn [bind] in E; [|discriminate E].
  destruct (ptrs_from_file 8 f (h_entry_count h) (h_url_pos h)) as [ul|]; cbn [bind] in E; [|discriminate E]. destruct (ptrs_from_file 8 f (h_cluster_count h) (h_cluster_pos h)) as [cl|]; cbn [bind] in E; [|discriminate E].
  match type of E with bind ?x _ = _ => assert (ET : forall l, x = Ok (Some l) -> pl_dirty l = false) end.
  { intros l Q. destruct ((6 <? h_major h) || ((h_major h =? 6) && (3 <=? h_minor h))); [discriminate Q|]. destruct (has_entry_for_full_url _ _) as [b|]; cbn [bind] in Q; [|discriminate Q].
    match type of Q with bind ?x _ = _ => destruct x as [y|]; cbn [bind] in Q; [|discriminate Q] end. injection Q as <-. reflexivity. }
  match type of E with bind ?x _ = _ => destruct x as [et|]; cbn [bind] in E; [|discriminate E] end. destruct (has_entry_for_full_url _ _) as [b|]; cbn [bind] in E; [|discriminate E].
  match type of E with bind ?x _ = _ => destruct x as [al|]; cbn [bind] in E; [|discriminate E] end. rewrite orb_true_r in E. injection E as <-. unfold is_dirty. cbn -[pl_dirty]. destruct et as [l|]; [pose proof (ET l eq_refl) as Q|]; cbn; [rewrite Q|]; auto 10.
Qed.

Lemma pointer_there : forall A u p, url_pointer (fa_zim A) u = Ok p -> exists e, get_entry_by_full_url (fa_zim A) u = Ok e.
Proof.
  intros A u p E. unfold get_entry_by_full_url. rewrite E. unfold url_pointer, get, get_gen, get_index_gen in E. destruct (encode u) as [k|]; cbn [bind] in E; [|discriminate E].
  destruct (binarysearch _ _ _) as [i|]; cbn [bind] in E; [|discriminate E]. destruct (i =? _); [discriminate E|]. destruct (get_by_index _ i) as [q|] eqn:EQ; cbn [bind] in E; [|discriminate E].
  destruct (url_key (fa_zim A) q) as [k'|] eqn:EK; cbn [bind] in E; [|discriminate E]. destruct (beqb k' k); cbn [bind] in E; [|discriminate E]. rewrite EQ in E. injection E as <-.
  unfold url_key in EK. destruct (get_entry_at (fa_zim A) q) as [e|]; [eauto|discriminate EK].
Qed.
Lemma has_there : forall A u, has_entry_for_full_url (fa_zim A) u = Ok true -> exists e, get_entry_by_full_url (fa_zim A) u = Ok e.
Proof.
  intros A u E. unfold has_entry_for_full_url, has, has_gen in E. destruct (encode u) as [k|] eqn:EK; cbn [bind] in E; [|discriminate E]. destruct (get_gen _ _ _ k) as [p|x] eqn:G; [|destruct x; discriminate E].
  apply (pointer_there A u p). unfold url_pointer. rewrite EK. exact G.
Qed.
Lemma there_has : forall A u e, get_entry_by_full_url (fa_zim A) u = Ok e -> has_entry_for_full_url (fa_zim A) u = Ok true.
Proof.
  intros A u e E. unfold get_entry_by_full_url, url_pointer in E. unfold has_entry_for_full_url, has, has_gen. destruct (encode u) as [k|x]; cbn [bind] in *; [|destruct x; discriminate E]. unfold get in E.
  destruct (get_gen _ _ _ k) as [p|x]; [reflexivity|destruct x; discriminate E].
Qed.

(** An archive is opened without counting, whenever its file can be read; its
    counter is read whenever it is there. *)
Lemma start_ignore : forall f fw sc sp A, opens f false sc sp = Ok A -> starts Ignore f false fw sc sp = Ok (mkSession A false false None fw).
Proof. intros f fw sc sp A E. destruct (opened_clean f sc sp A E) as (_ & _ & _ & _ & ED). unfold open_session. rewrite E. cbn. rewrite ED. reflexivity. Qed.
Lemma start_load : forall how f fw sc sp A n, how = Load \/ how = LoadOrReinit -> opens f false sc sp = Ok A -> load_counts fuel dc new_decomp kd A = Ok n ->
  starts how f false fw sc sp = Ok (mkSession A false false (Some (mkCounter n false)) fw).
Proof.
  intros how f fw sc sp A n HH E L. destruct (opened_clean f sc sp A E) as (_ & _ & _ & _ & ED). assert (G : exists e, get_entry_by_full_url (fa_zim A) URL_COUNTER = Ok e).
  { unfold load_counts in L. destruct (get_entry_by_full_url (fa_zim A) URL_COUNTER) as [e|]; [eauto|discriminate L]. }
  destruct G as (e & G). unfold open_session. rewrite E. cbn [bind]. assert (LF : load_from_archive fuel dc new_decomp kd how A = Ok (Some (mkCounter n false))) by (destruct HH as [-> | ->]; cbn [load_from_archive]; rewrite L; reflexivity).
  rewrite LF. cbn [bind]. unfold install_counter. cbn [se_arch]. rewrite (there_has A _ e G). cbn [bind se_arch]. rewrite ED. reflexivity.
Qed.

(** *** Without the counter, every archive that was written opens, and shows what
    was written. *)
Theorem C87_without_counter : forall r u sc0 sp0 n A ops A' sc sp, 0 <= r -> zlen u = 16 -> fresh_strategy sc0 -> fresh_strategy sp0 ->
  init_new fuel new_comp comp flush depth (Some r) u sc0 sp0 = Ok A -> vruns (Some r) n A empty_view (ops ++ [VFlush]) A' -> vadds ops <= n ->
  exists s, opens_path Ignore (fa_file A') false sc sp = Ok s /\ shows (se_arch s) (vsteps empty_view ops) /\ fa_file (se_arch s) = fa_file A' /\ se_closed s = false /\ se_counter s = None.
Proof.
  intros r u sc0 sp0 n A ops A' sc sp Hr HU F1 F2 IN R Z.
  destruct (C65_new_archive fuel dc new_decomp new_comp comp flush depth kd Stream md5 feed digest truncate process_blob rounds CD HO r u sc0 sp0 n A ops A' false sc sp Hr HU F1 F2 IN R Z) as (_ & _ & B & E & SA & SH).
  exists (mkSession B false false None false). destruct (opened_clean _ _ _ _ E) as (_ & _ & _ & EF & _). split; [apply start_ignore; exact E|]. auto.
Qed.
(** *** An archive that was written together with its counter opens with the
    default policy, and the counter that it has then is right. *)
Theorem C87_with_counter_partial : forall how r u sc0 sp0 n A c ops A' c' V' sc sp, how <> Reinit -> 0 <= r -> zlen u = 16 -> fresh_strategy sc0 -> fresh_strategy sp0 ->
  count_new fuel new_comp comp flush depth (Some r) u sc0 sp0 = Ok (A, c) -> cruns (Some r) n A c new_view (ops ++ [VFlush]) A' c' V' -> 1 + vadds ops <= n -> readable_mimes V' ->
  exists s, opens_path how (fa_file A') false sc sp = Ok s /\ shows (se_arch s) V' /\ fa_file (se_arch s) = fa_file A' /\ se_closed s = false /\
    match se_counter s with
    | Some k => forall m, number (content_entry (se_arch s) m) (get_count m (ct_counts k))
    | None => how = Ignore
    end.
Proof.
  intros how r u sc0 sp0 n A c ops A' c' V' sc sp NR Hr HU F1 F2 IN R Z RM.
  destruct (C73_new_archive_partial fuel dc new_decomp new_comp comp flush depth kd Stream md5 feed digest truncate process_blob rounds CD HO r u sc0 sp0 n A c ops A' c' V' false sc sp Hr HU F1 F2 IN R Z RM) as (_ & _ & _ & _ & B & E & _ & SH & k & LK & NK).
  destruct (opened_clean _ _ _ _ E) as (_ & _ & _ & EF & _). destruct how; [| |contradiction|].
  - exists (mkSession B false false (Some (mkCounter k false)) false). split; [apply start_load; auto|]. cbn [se_arch se_closed se_counter ct_counts]. split; [exact SH|]. split; [exact EF|]. split; [reflexivity|exact NK].
  - exists (mkSession B false false None false). split; [apply start_ignore; exact E|]. cbn [se_arch se_closed se_counter]. auto.
  - exists (mkSession B false false (Some (mkCounter k false)) false). split; [apply start_load; auto|]. cbn [se_arch se_closed se_counter ct_counts]. split; [exact SH|]. split; [exact EF|]. split; [reflexivity|exact NK].
Qed.
(** *** An archive without MCounter is not opened for reading, with any policy
    that counts. *)
Theorem C87_refused : forall how f fw sc sp A, opens f false sc sp = Ok A -> (forall e, get_entry_by_full_url (fa_zim A) URL_COUNTER <> Ok e) -> how <> Ignore ->
  (forall s, starts how f false fw sc sp <> Ok s) /\
  (has_entry_for_full_url (fa_zim A) URL_COUNTER = Ok false ->
     match how with
     | Load => starts how f false fw sc sp = Err NoCounter
     | _ => forall k, recount A = Ok k -> starts how f false fw sc sp = Err NonMutable
     end).
Proof.
  intros how f fw sc sp A E NG NI.
  assert (HN : has_entry_for_full_url (fa_zim A) URL_COUNTER <> Ok true) by (intro Q; destruct (has_there A _ Q) as (e & Q'); exact (NG e Q')).
  assert (ST : forall c, load_from_archive fuel dc new_decomp kd how A = Ok c -> c <> None).
  { intros c Q ->. unfold load_from_archive, recount in Q. destruct how; [|contradiction| |]; repeat match type of Q with
      | match ?x with _ => _ end = _ => destruct x; try discriminate Q
      | bind ?x _ = _ => destruct x; cbn [bind] in Q; try discriminate Q end. }
  split.
  - intros s Q. unfold open_session in Q. rewrite E in Q. cbn [bind] in Q. destruct (load_from_archive fuel dc new_decomp kd how A) as [c|] eqn:EL; cbn [bind] in Q; [|discriminate Q].
    specialize (ST c eq_refl). destruct c as [c|]; [|contradiction]. unfold install_counter in Q. cbn [se_arch] in Q. destruct (has_entry_for_full_url (fa_zim A) URL_COUNTER) as [[|]|]; [contradiction| |discriminate Q].
    cbn in Q. discriminate Q.
  - intros HF. assert (LN : load_counts fuel dc new_decomp kd A = Err EntryNotFound).
    { unfold load_counts, get_entry_by_full_url, url_pointer, get. unfold has_entry_for_full_url, has, has_gen in HF. destruct (encode URL_COUNTER) as [k|]; cbn [bind] in *; [|discriminate HF].
      destruct (get_gen _ _ _ k) as [p|x]; [discriminate HF|]. destruct x; try discriminate HF. reflexivity. }
    unfold open_session. rewrite E. cbn [bind]. destruct how; [|contradiction| |]; cbn [load_from_archive].
    + rewrite LN. reflexivity.
    + intros k Q. pose proof (ST k Q) as NN. rewrite Q. cbn [bind]. destruct k as [k|]; [|contradiction]. unfold install_counter. cbn [se_arch]. rewrite HF. reflexivity.
    + rewrite LN. intros k Q. assert (LF : load_from_archive fuel dc new_decomp kd LoadOrReinit A = Ok k) by (cbn [load_from_archive]; rewrite LN; exact Q). pose proof (ST k LF) as NN. rewrite Q. cbn [bind].
      destruct k as [k|]; [|contradiction]. unfold install_counter. cbn [se_arch]. rewrite HF. reflexivity.
Qed.
End Opening.

(** ** The full statement: whatever was written can be opened for reading.  It is
    false. *)
Definition C87_full_statement : Prop :=
  forall fuel D (dc : decomp D) new_decomp K new_comp comp flush depth kd Stream H (md5 : H) feed digest truncate process_blob rounds,
  codec_ok (K:=K) dc new_decomp new_comp comp flush Stream -> hash_ok feed digest ->
  forall r u sc0 sp0 n A ops A' sc sp, 0 <= r -> zlen u = 16 -> fresh_strategy sc0 -> fresh_strategy sp0 ->
  init_new fuel new_comp comp flush depth (Some r) u sc0 sp0 = Ok A ->
  vruns fuel dc new_decomp new_comp comp flush depth kd Stream md5 feed digest (Some r) truncate process_blob rounds n A empty_view (ops ++ [VFlush]) A' -> vadds ops <= n ->
  exists s, open_path fuel dc new_decomp new_comp comp flush depth kd LoadOrReinit (fa_file A') false sc sp = Ok s.
Theorem C87_refuted : ~ C87_full_statement.
Proof.
  intro F. destruct (vend_of_ok sample_created sample_vend_works) as (A & A' & E1 & E2 & R). destruct sample_zops_ok as (_ & _ & _ & FS & FM).
  assert (Z : vadds sample_vops <= 100) by (vm_compute; discriminate).
  destruct (F sample_fuel _ passthrough plain_new _ plain_new_comp plain_comp plain_flush 6%nat KRemembering plain_stream _ 0 sample_feed sample_digest true (fun _ => ret tt) 3%nat plain_codec sample_hash
    50 sample_uuid sample_simple sample_mime 100 A sample_vops A' sample_simple sample_simple ltac:(lia) eq_refl FS FM E1 R Z) as (s & Q).
  destruct (C65_new_archive sample_fuel passthrough plain_new plain_new_comp plain_comp plain_flush 6 KRemembering plain_stream 0 sample_feed sample_digest true (fun _ => ret tt) 3 plain_codec sample_hash
    50 sample_uuid sample_simple sample_mime 100 A sample_vops A' false sample_simple sample_simple ltac:(lia) eq_refl FS FM E1 R Z) as (_ & _ & B & E & _ & SH).
  assert (NL : ~ listing (fa_zim B) URL_COUNTER) by (apply free_ok; reflexivity). specialize (SH URL_COUNTER NL). rewrite sample_table in SH. change (forall e, get_entry_by_full_url (fa_zim B) URL_COUNTER <> Ok e) in SH.
  destruct (C87_refused sample_fuel passthrough plain_new plain_new_comp plain_comp plain_flush 6 KRemembering LoadOrReinit (fa_file A') false sample_simple sample_simple B E SH ltac:(discriminate)) as (N & _).
  exact (N s Q).
Qed.
(** What is raised for that file. *)
Definition raised (how : counting) (r : res farchive) : option exn :=
  match r with
  | Ok A => match open_path sample_fuel passthrough plain_new plain_new_comp plain_comp plain_flush 6 KRemembering how (fa_file A) false sample_simple sample_simple with Ok _ => None | Err e => Some e end
  | Err _ => None
  end.
Example C87_raised : raised LoadOrReinit (vend_of sample_created) = Some NonMutable /\ raised Reinit (vend_of sample_created) = Some NonMutable /\ raised Load (vend_of sample_created) = Some NoCounter.
Proof. repeat split; vm_compute; reflexivity. Qed.
(** The theorems apply to the sample archives of C65 and C73. *)
Example C87_example : (exists A' s, vend_of sample_created = Ok A' /\
    open_path sample_fuel passthrough plain_new plain_new_comp plain_comp plain_flush 6 KRemembering Ignore (fa_file A') false sample_simple sample_simple = Ok s /\
    shows_page sample_fuel passthrough plain_new KRemembering (se_arch s) [67; 98] (mkPage [65] false (Data [x6d] [x44; x45]))) /\
  exists A' s k, open_path sample_fuel passthrough plain_new plain_new_comp plain_comp plain_flush 6 KRemembering LoadOrReinit (fa_file A') false sample_simple sample_simple = Ok s /\
    se_counter s = Some k /\ number (content_entry (se_arch s) TEXT_PLAIN) (get_count TEXT_PLAIN (ct_counts k)).
Proof.
  destruct sample_zops_ok as (_ & _ & _ & FS & FM). split.
  - destruct (vend_of_ok sample_created sample_vend_works) as (A & A' & E1 & E2 & R).
    destruct (C87_without_counter sample_fuel passthrough plain_new plain_new_comp plain_comp plain_flush 6 KRemembering plain_stream 0 sample_feed sample_digest true (fun _ => ret tt) 3 plain_codec sample_hash
      50 sample_uuid sample_simple sample_mime 100 A sample_vops A' sample_simple sample_simple ltac:(lia) eq_refl FS FM E1 R ltac:(vm_compute; discriminate)) as (s & ES & SH & _).
    exists A', s. split; [exact E2|]. split; [exact ES|]. assert (NL : ~ listing (fa_zim (se_arch s)) [67; 98]) by (apply free_ok; reflexivity). specialize (SH _ NL). rewrite sample_table in SH. exact SH.
  - destruct (counted_end_ok _ counted_sample_works) as (A & c & A' & c' & V' & E & R & RM & G1 & G2).
    destruct (C87_with_counter_partial sample_fuel passthrough plain_new plain_new_comp plain_comp plain_flush 6 KRemembering plain_stream 0 sample_feed sample_digest true (fun _ => ret tt) 3 plain_codec sample_hash
      LoadOrReinit 50 sample_uuid sample_simple sample_mime 100 A c counted_ops_sample A' c' V' sample_simple sample_simple ltac:(discriminate) ltac:(lia) eq_refl FS FM E R ltac:(vm_compute; discriminate) RM) as (s & ES & _ & _ & _ & N).
    destruct (se_counter s) as [k|] eqn:EK; [|discriminate N]. exists A', s, k. split; [exact ES|]. split; [exact EK|]. apply N.
Qed.

(** ** C88 *)

(** A session for reading in which nothing is to be written. *)
Definition reading (s : session) : Prop :=
  se_mutable s = false /\ is_dirty (se_arch s) = false /\ ho_mutable (fa_header (se_arch s)) = false /\ ml_mutable (fa_mimes (se_arch s)) = false.
(** What is answered to a call in such a session. *)
Definition refused (c : scall) (r : res unit) : Prop :=
  match c with
  | SMethod _ _ => r = Err NonMutable \/ r = Err ZimFileClosed
  | SAssign _ _ => exists e, r = Err e
  | SRegister _ => r = Err NonMutable
  | SClose _ | SExit _ => r = Ok tt
  | SChecksum => True
  end.
(** What is answered when the archive is closed. *)
Definition refused_closed (s : session) (c : scall) (r : res unit) : Prop :=
  match c with
  | SMethod _ _ => r = Err ZimFileClosed \/ (se_mutable s = false /\ r = Err NonMutable)
  | SChecksum => r = Err ZimFileClosed
  | SExit _ => r = Ok tt
  | SClose _ => is_dirty (se_arch s) = false -> r = Ok tt
  | SAssign _ _ | SRegister _ => True
  end.

Lemma fa_same_file : forall A, fa_set_file (fa_file A) A = A.
Proof. intros [[[[[f u e a m al] p n] mm] x y] h d r mn]. reflexivity. Qed.
Lemma se_same_arch : forall s, se_set_arch (se_arch s) s = s.
Proof. intros []. reflexivity. Qed.
Lemma fwrite_same : forall f pos n, 0 <= pos -> zlen (fread f pos n) = n -> pos <= zlen f -> fwrite f pos (fread f pos n) = f.
Proof.
  intros f pos n P L Q. unfold fread, zsub in *. pose proof (zlen_nonneg (ztake n (zskip pos f))) as N. rewrite L in N. unfold fwrite.
  replace (Z.to_nat (pos - zlen f)) with 0%nat by lia. cbn [repeat]. rewrite app_nil_r. rewrite L. rewrite <- (ztake_zskip pos f) at 4. f_equal.
  rewrite <- (ztake_zskip n (zskip pos f)) at 2. f_equal. rewrite zskip_zskip by lia. rewrite Z.add_comm. reflexivity.
Qed.

Section Calls.
Context {H : Type}.
Variable md5 : H.
Variable feed : H -> bytes -> H.
Variable digest : H -> bytes.
Notation calls := (scalls md5 feed digest).
Notation call := (scall_run md5 feed digest).

(** [update_checksum] has nothing to change. *)
Definition checksum_kept (s : session) (l : list scall) : Prop :=
  se_file_writable s = false \/ ~ In SChecksum l \/ (hash_ok feed digest /\ checksum_right md5 feed digest (se_arch s)).

Lemma checksum_keeps : forall A, hash_ok feed digest -> checksum_right md5 feed digest A -> update_checksum md5 feed digest A = (Ok tt, A).
Proof.
  intros A HO (B & E). unfold update_checksum. rewrite (C82_calculate_partial md5 feed digest HO A B). unfold get_checksum, CHECKSUM_LENGTH in E. rewrite <- E.
  rewrite fwrite_same; [rewrite fa_same_file; reflexivity|lia| |lia]. rewrite E. unfold hash. apply (hash_len _ _ HO).
Qed.
Lemma reading_call : forall c s r s', reading s -> checksum_kept s [c] -> call c s = (r, s') -> se_arch s' = se_arch s /\ se_mutable s' = se_mutable s /\ se_file_writable s' = se_file_writable s /\ refused c r.
Proof.
  intros c s r s' (RM & RD & RH & RL) CK E. destruct c as [m body| |f v|mt|fl|fl]; cbn [scall_run refused] in *.
  - unfold perform in E. assert (Q : exists e, pass_all s (checks m) = Err e /\ (e = NonMutable \/ e = ZimFileClosed)).
    { destruct m; cbn [checks pass_all passes]; rewrite RM; destruct (se_closed s); cbn; eauto. }
    destruct Q as (e & Q & QE). rewrite Q in E. injection E as <- <-. intuition congruence.
  - unfold session_checksum in E. destruct (passes s CheckClosed); [|injection E as <- <-; auto]. unfold update_checksum in E. destruct (calculate_checksum md5 feed digest (se_arch s)) as [k|] eqn:EC.
    + destruct (se_file_writable s) eqn:EW; [|injection E as <- <-; auto]. injection E as <- <-. cbn [se_arch se_set_arch se_mutable se_file_writable].
      destruct CK as [CK|[CK|(HO & CK)]]; [congruence|elim CK; left; reflexivity|]. pose proof (checksum_keeps _ HO CK) as Q. unfold update_checksum in Q. rewrite EC in Q. injection Q as Q. auto.
    + injection E as <- <-. rewrite se_same_arch. auto.
  - unfold assign_header, fa_assign, hassign in E. rewrite RH in E. destruct (hconvert f v) as [x|]; cbn [bind negb] in E; injection E as <- <-; rewrite se_same_arch; eauto.
  - unfold register_mimetype, mt_register in E. rewrite RL in E. cbn [negb] in E. injection E as <- <-. auto.
  - unfold close, mbind in E. rewrite RD in E. injection E as <- <-. auto.
  - unfold exit in E. destruct (negb (se_closed s)); [|injection E as <- <-; auto]. unfold close, mbind in E. rewrite RD in E. injection E as <- <-. auto.
Qed.
Lemma reading_calls : forall l s rs s', reading s -> checksum_kept s l -> calls l s = (rs, s') -> se_arch s' = se_arch s /\ Forall2 refused l rs.
Proof.
  induction l as [|c l IH]; intros s rs s' RD CK E; cbn [scalls] in E; [injection E as <- <-; auto|]. destruct (call c s) as [r s1] eqn:E1. destruct (calls l s1) as [rs1 s2] eqn:E2. injection E as <- <-.
  assert (CK1 : checksum_kept s [c]) by (destruct CK as [CK|[CK|CK]]; [left; exact CK|right; left; intros [Q|[]]; apply CK; left; exact Q|right; right; exact CK]).
  destruct (reading_call c s r s1 RD CK1 E1) as (EA & EM & EW & RF). destruct (IH s1 rs1 s2) as (EA2 & RF2); [| |exact E2|split; [congruence|constructor; assumption]].
  - unfold reading in *. rewrite EA, EM. exact RD.
  - unfold checksum_kept in *. rewrite EA, EW. destruct CK as [CK|[CK|CK]]; [auto|right; left; intro Q; apply CK; right; exact Q|auto].
Qed.

(** *** Whatever is called in a session that was opened for reading: nothing of
    the archive is changed, each method that changes archives raises, and
    closing works.  Partial: the file object must not be writable, or
    [update_checksum] not called, or the checksum right before. *)
Theorem C88_reading_partial : forall fuel D (dc : decomp D) new_decomp K new_comp comp flush depth kd how f fw sc sp s l rs s',
  open_session (K:=K) fuel dc new_decomp new_comp comp flush depth kd how f false fw sc sp = Ok s -> checksum_kept s l -> calls l s = (rs, s') ->
  fa_file (se_arch s) = f /\ se_arch s' = se_arch s /\ Forall2 refused l rs.
Proof.
  intros fuel D dc new_decomp K new_comp comp flush depth kd how f fw sc sp s l rs s' E CK R.
  assert (Q : reading s /\ fa_file (se_arch s) = f).
  { unfold open_session in E. destruct (open_zim _ _ _ _ _ _ _ _ f false sc sp) as [A|] eqn:EO; cbn [bind] in E; [|discriminate E]. destruct (opened_clean _ _ _ _ _ _ _ _ _ _ _ _ EO) as (Q1 & Q2 & Q3 & Q4 & Q5).
    destruct (load_from_archive _ _ _ _ how A) as [c|]; cbn [bind] in E; [|discriminate E]. destruct c as [c|].
    - unfold install_counter in E. cbn [se_arch] in E. destruct (has_entry_for_full_url (fa_zim A) URL_COUNTER) as [[|]|]; cbn in E; [|discriminate E|discriminate E]. injection E as <-. cbn. rewrite Q5. unfold reading. auto.
    - cbn in E. injection E as <-. cbn. rewrite Q5. unfold reading. auto. }
  destruct Q as (RD & EF). destruct (reading_calls l s rs s' RD CK R) as (EA & RF). auto.
Qed.
(** *** With [Zim.open] the file object is opened for reading as well: nothing can
    be changed. *)
Theorem C88_reading_path : forall fuel D (dc : decomp D) new_decomp K new_comp comp flush depth kd how f sc sp s l rs s',
  open_path (K:=K) fuel dc new_decomp new_comp comp flush depth kd how f false sc sp = Ok s -> calls l s = (rs, s') ->
  fa_file (se_arch s') = f /\ se_arch s' = se_arch s /\ Forall2 refused l rs.
Proof.
  intros fuel D dc new_decomp K new_comp comp flush depth kd how f sc sp s l rs s' E R. assert (CK : checksum_kept s l).
  { left. unfold open_path, open_session in E. destruct (open_zim _ _ _ _ _ _ _ _ f false sc sp) as [A|]; cbn [bind] in E; [|discriminate E]. destruct (load_from_archive _ _ _ _ how A) as [c|]; cbn [bind] in E; [|discriminate E].
    destruct c as [c|]; [unfold install_counter in E; cbn [se_arch] in E; destruct (has_entry_for_full_url (fa_zim A) URL_COUNTER) as [[|]|]; cbn in E; [|discriminate E|discriminate E]|cbn in E]; injection E as <-; reflexivity. }
  destruct (C88_reading_partial _ _ _ _ _ _ _ _ _ _ _ _ _ _ _ _ l rs s' E CK R) as (EF & EA & RF). split; [congruence|]. auto.
Qed.

(** *** Whatever is called after an archive, opened in any mode, was closed: the
    file is not changed, the archive stays closed, and the methods raise. *)
Lemma closed_call : forall c s r s', se_closed s = true -> call c s = (r, s') -> se_closed s' = true /\ fa_file (se_arch s') = fa_file (se_arch s) /\ refused_closed s c r.
Proof.
  intros c s r s' CL E. assert (PM : forall m, exists e, pass_all s (checks m) = Err e /\ (e = ZimFileClosed \/ (se_mutable s = false /\ e = NonMutable))).
  { intro m. destruct m; cbn [checks pass_all passes]; rewrite CL; destruct (se_mutable s); cbn; eauto. }
  destruct c as [m body| |f v|mt|fl|fl]; cbn [scall_run refused_closed] in *.
  - unfold perform in E. destruct (PM m) as (e & Q & QE). rewrite Q in E. injection E as <- <-. intuition congruence.
  - unfold session_checksum, passes in E. rewrite CL in E. injection E as <- <-. auto.
  - unfold assign_header, fa_assign in E. destruct (hassign f v (fa_header (se_arch s))) as [h|]; injection E as <- <-; auto.
  - unfold register_mimetype in E. destruct (mt_register mt (fa_mimes (se_arch s))) as [x|]; injection E as <- <-; auto.
  - unfold close, mbind in E. destruct (is_dirty (se_arch s)).
    + unfold perform in E. destruct (PM MFlush) as (e & Q & QE). rewrite Q in E. injection E as <- <-. split; [exact CL|]. split; [reflexivity|discriminate].
    + injection E as <- <-. auto.
  - unfold exit in E. rewrite CL in E. injection E as <- <-. auto.
Qed.
Theorem C88_closed : forall l s rs s', se_closed s = true -> calls l s = (rs, s') -> se_closed s' = true /\ fa_file (se_arch s') = fa_file (se_arch s) /\
  Forall2 (fun c r => exists s1, se_closed s1 = true /\ fa_file (se_arch s1) = fa_file (se_arch s) /\ refused_closed s1 c r) l rs.
Proof.
  induction l as [|c l IH]; intros s rs s' CL E; cbn [scalls] in E; [injection E as <- <-; auto|]. destruct (call c s) as [r s1] eqn:E1. destruct (calls l s1) as [rs1 s2] eqn:E2. injection E as <- <-.
  destruct (closed_call c s r s1 CL E1) as (C1 & F1 & R1). destruct (IH s1 rs1 s2 C1 E2) as (C2 & F2 & R2). split; [exact C2|]. split; [congruence|]. constructor; [eauto|].
  clear - R2 F1. induction R2 as [|a b l rs (s3 & Q1 & Q2 & Q3) R2 IH]; constructor; [|exact IH]. exists s3. split; [exact Q1|]. split; [congruence|exact Q3].
Qed.
(** *** Closing: if it returns, the archive is closed; nothing is flushed if
    nothing is modified; closing again does nothing. *)
Theorem C88_close_partial : forall fl s r s', close fl s = (r, s') -> 
  (r = Ok tt -> se_closed s' = true) /\ (is_dirty (se_arch s) = false -> r = Ok tt /\ se_arch s' = se_arch s) /\
  (r = Ok tt -> is_dirty (se_arch s') = false -> forall fl', close fl' s' = (Ok tt, s')).
Proof.
  intros fl s r s' E. unfold close, mbind in E. split; [|split].
  - intros ->. destruct (if is_dirty (se_arch s) then perform MFlush fl s else (Ok tt, s)) as [[|] s1]; [injection E as <-; reflexivity|discriminate E].
  - intro ND. rewrite ND in E. injection E as <- <-. auto.
  - intros -> ND fl'. assert (CL : se_closed s' = true) by (destruct (if is_dirty (se_arch s) then perform MFlush fl s else (Ok tt, s)) as [[|] s1]; [injection E as <-; reflexivity|discriminate E]).
    unfold close, mbind. rewrite ND. destruct s'. cbn in *. subst. reflexivity.
Qed.
End Calls.

(** ** The full statement: what is called in a session that was opened for
    reading does not change the file, and an archive that was closed can be
    closed again (documented in archive.py 490-493).  Both parts are false. *)
Definition C88_reading_full_statement : Prop :=
  forall fuel D (dc : decomp D) new_decomp K new_comp comp flush depth kd Stream H (md5 : H) feed digest,
  codec_ok (K:=K) dc new_decomp new_comp comp flush Stream -> hash_ok feed digest ->
  forall how f fw sc sp s l rs s', open_session fuel dc new_decomp new_comp comp flush depth kd how f false fw sc sp = Ok s -> scalls md5 feed digest l s = (rs, s') ->
  fa_file (se_arch s') = f.
Definition C88_close_full_statement : Prop :=
  forall H (md5 : H) feed digest s fl s1 l rs s2 fl2, hash_ok feed digest -> close fl s = (Ok tt, s1) -> scalls md5 feed digest l s1 = (rs, s2) -> exists s3, close fl2 s2 = (Ok tt, s3).

(** The file of the sample archive with another last byte of the checksum. *)
Notation sample_start := (open_session sample_fuel passthrough plain_new plain_new_comp plain_comp plain_flush 6 KRemembering).
Notation sample_calls := (scalls 0 sample_feed sample_digest).
Definition flipped (f : bytes) : bytes := fwrite f (zlen f - 1) [xff].
Definition repaired (r : res farchive) : bool :=
  match r with
  | Ok A => match sample_start Ignore (flipped (fa_file A)) false true sample_simple sample_simple with
            | Ok s => negb (beqb (fa_file (se_arch (snd (sample_calls [SChecksum] s)))) (flipped (fa_file A)))
            | Err _ => false
            end
  | Err _ => false
  end.
Lemma sample_repaired : repaired sample_end = true.
Proof. vm_compute. reflexivity. Qed.
Lemma repaired_parts : forall r, repaired r = true -> exists f s, sample_start Ignore f false true sample_simple sample_simple = Ok s /\ fa_file (se_arch (snd (sample_calls [SChecksum] s))) <> f.
Proof.
  intros [A|] E; cbn [repaired] in E; [|discriminate E]. set (f := flipped (fa_file A)) in E. clearbody f. exists f. destruct (sample_start Ignore f false true sample_simple sample_simple) as [s|]; [|discriminate E].
  exists s. split; [reflexivity|]. intro Q. apply beqb_eq in Q. rewrite Q in E. discriminate E.
Qed.
Theorem C88_reading_refuted : ~ C88_reading_full_statement.
Proof.
  intro F. destruct (repaired_parts _ sample_repaired) as (f & s & E & N). apply N. destruct (sample_calls [SChecksum] s) as [rs s'] eqn:R.
  exact (F sample_fuel _ passthrough plain_new _ plain_new_comp plain_comp plain_flush 6%nat KRemembering plain_stream _ 0 sample_feed sample_digest plain_codec sample_hash Ignore f true sample_simple sample_simple s _ rs s' E R).
Qed.

(** An archive is closed, its header assigned to, and closed again. *)
Definition assigned_closed (r : res farchive) : bool :=
  match r with
  | Ok A => match close (fun A => (Ok tt, A)) (mkSession A true false None true) with
            | (Ok tt, s1) => match fst (close (fun A => (Ok tt, A)) (snd (sample_calls [SAssign FMainPage (PInt 0)] s1))) with Err ZimFileClosed => true | _ => false end
            | _ => false
            end
  | Err _ => false
  end.
Lemma sample_assigned : assigned_closed sample_end = true.
Proof. vm_compute. reflexivity. Qed.
Lemma assigned_parts : forall r, assigned_closed r = true -> exists s fl s1 rs s2, close fl s = (Ok tt, s1) /\ sample_calls [SAssign FMainPage (PInt 0)] s1 = (rs, s2) /\ fst (close fl s2) = Err ZimFileClosed.
Proof.
  intros [A|] E; cbn [assigned_closed] in E; [|discriminate E]. exists (mkSession A true false None true), (fun A => (Ok tt, A)). destruct (close (fun A => (Ok tt, A)) (mkSession A true false None true)) as [[[]|] s1]; [|discriminate E].
  exists s1. destruct (sample_calls [SAssign FMainPage (PInt 0)] s1) as [rs s2]. exists rs, s2. split; [reflexivity|]. split; [reflexivity|]. cbn [snd] in E.
  destruct (fst (close (fun A0 : farchive => (Ok tt, A0)) s2)) as [|e]; [discriminate E|]. destruct e; try discriminate E. reflexivity.
Qed.
Theorem C88_close_refuted : ~ C88_close_full_statement.
Proof.
  intro F. destruct (assigned_parts _ sample_assigned) as (s & fl & s1 & rs & s2 & E1 & E2 & E3). destruct (F _ 0 sample_feed sample_digest s fl s1 _ rs s2 fl sample_hash E1 E2) as (s3 & Q). rewrite Q in E3. discriminate E3.
Qed.

(** Sessions that meet the hypotheses: the sample archive, with its checksum
    right, opened for reading with a writable file object, and closed. *)
Definition right_b (A : farchive) : bool :=
  (0 <=? h_checksum_pos (fa_hdr A)) && (h_checksum_pos (fa_hdr A) <=? zlen (fa_file A)) && beqb (get_checksum A) (hash 0 sample_feed sample_digest (ztake (h_checksum_pos (fa_hdr A)) (fa_file A))).
Lemma right_ok : forall A, right_b A = true -> checksum_right 0 sample_feed sample_digest A.
Proof. intros A E. unfold right_b in E. apply andb_prop in E as (E1 & E2). apply beqb_eq in E2. split; [lia|exact E2]. Qed.
Definition start_of (r : res farchive) : res session := do A <- r ;; sample_start Ignore (fa_file A) false true sample_simple sample_simple.
Definition some_calls : list scall := [SMethod MAddItem (fun A => (Ok tt, fa_set_dirty true A)); SChecksum; SAssign FMainPage (PInt 0); SClose (fun A => (Ok tt, A)); SMethod MFlush (fun A => (Ok tt, A)); SChecksum].
Lemma start_right : match start_of sample_end with Ok s => right_b (se_arch s) && negb (se_closed s) && se_closed (snd (sample_calls some_calls s)) | Err _ => false end = true.
Proof. vm_compute. reflexivity. Qed.
Example C88_example : exists f s, sample_start Ignore f false true sample_simple sample_simple = Ok s /\ checksum_kept 0 sample_feed sample_digest s some_calls /\
  se_closed s = false /\ se_closed (snd (sample_calls some_calls s)) = true.
Proof.
  pose proof start_right as R. unfold start_of in R. destruct sample_end as [A|]; cbn [bind] in R; [|discriminate R]. exists (fa_file A). destruct (sample_start Ignore (fa_file A) false true sample_simple sample_simple) as [s|]; [|discriminate R].
  exists s. apply andb_prop in R as (R & R3). apply andb_prop in R as (R1 & R2). apply negb_true_iff in R2. split; [reflexivity|]. split; [right; right; split; [exact sample_hash|exact (right_ok _ R1)]|]. auto.
Qed.
Print Assumptions C87_without_counter.
Print Assumptions C87_with_counter_partial.
Print Assumptions C87_refused.
Print Assumptions C87_refuted.
Print Assumptions C88_reading_partial.
Print Assumptions C88_reading_path.
Print Assumptions C88_closed.
Print Assumptions C88_close_partial.
Print Assumptions C88_reading_refuted.
Print Assumptions C88_close_refuted.
