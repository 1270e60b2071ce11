(** C81: the policy's [reserve_mimetype_space] may change from one session to the next. *)
From Coq Require Import List ZArith Bool Lia Permutation Strings.Byte.
From Coq Require Import ZifyBool ZifyNat.
From Verif Require Import Base BaseProofs Utf8 Utf8Proofs Infobyte Header HeaderSpec HeaderProofs MimeTypeList MimeTypeListSpec Entry EntrySpec Reader ReaderSpec Decompressors DecompressorsProofs Blob BlobProofs
  PointerList PointerListProofs SpaceAllocator Cluster ClusterSpec ClusterProofs ClusterWrapper ClusterWrapperSpec ClusterWrapperProofs Archive ArchiveSpec ArchiveProofs ArchiveFacts ArchiveObserve
  ArchiveCluster ArchiveClusterSpec ArchiveClusterProofs CompressionStrategy CompressionStrategySpec CompressionStrategyProofs OperationBuffer Flush FlushSpec FlushProofs FlushTailProofs FlushOpenProofs
  FlushHistorySpec FlushHistoryProofs FlushCreateProofs PropsArchiveCluster PropsCompressionStrategy PropsFlush ReserveSpec.
Import ListNotations.
Open Scope Z_scope.

Lemma clean_mimes : forall A, is_dirty A = false -> ml_dirty (fa_mimes A) = false.
Proof. intros A Q. unfold is_dirty in Q. repeat (apply orb_false_iff in Q as (Q & ?)). assumption. Qed.

(** Less space is set aside: all the parts are where they were, or smaller. *)
Lemma laid_reserve : forall Stream r A cells L r', laid_out Stream r A cells L -> ml_dirty (fa_mimes A) = false -> may_follow r A r' -> laid_out Stream r' A cells L.
Proof.
  intros Stream r A cells L r' LO MD [->|MF]; [exact LO|]. destruct r as [a|]; [|destruct MF].
  pose proof (lo_mimes _ _ _ _ _ LO MD) as (M1 & M2 & M3 & M4).
  assert (IN : forall x, within (mime_part r' A) x -> within (mime_part (Some a) A) x).
  { intros x. unfold within, mime_part. destruct r' as [b|]; cbn [fst snd]; [lia|]. rewrite M2, M3. lia. }
  assert (SZ : 0 <= fst (mime_part r' A) /\ 0 <= snd (mime_part r' A)).
  { unfold mime_part. assert (0 <= mt_disk_size (ml_types (fa_mimes A))).
    { rewrite (MimeTypeListProofs.mt_size_exact _ (proj1 (lo_types _ _ _ _ _ LO))). apply zlen_nonneg. }
    destruct r' as [b|]; cbn [fst snd]; [lia|]. rewrite M2, M3. lia. }
  destruct LO. unfold parts in *. constructor; try assumption.
  - intros p x Hp Hx. destruct Hp as [<-|[<-|Hp]]; [apply (lo_parts header_part); [left; reflexivity|exact Hx]| |apply (lo_parts p); [right; right; exact Hp|exact Hx]].
    apply (lo_parts (mime_part (Some a) A)); [right; left; reflexivity|exact (IN x Hx)].
  - inversion lo_disjoint as [|? ? D1 D2]; subst. inversion D2 as [|? ? D3 D4]; subst. inversion D1 as [|? ? D5 D6]; subst. constructor; [|constructor; [|exact D4]].
    + constructor; [|exact D6]. intros x (X1 & X2). apply (D5 x). split; [exact X1|exact (IN x X2)].
    + eapply Forall_impl; [|exact D3]. intros p Hp x (X1 & X2). apply (Hp x). split; [exact (IN x X1)|exact X2].
  - inversion lo_sizes as [|? ? D1 D2]; subst. inversion D2 as [|? ? D3 D4]; subst. constructor; [exact D1|]. constructor; [exact SZ|exact D4].
  - intros _. split; [exact M1|]. split; [exact M2|]. destruct r' as [b|]; [|exact Logic.I]. split; [exact M3|lia].
Qed.

Section Reserve.
Variable fuel : nat.
Context {D : Type}.
Variable dc : decomp D.
Variable new_decomp : ctype -> res D.
Context {K : Type}.
Variable new_comp : ctype -> res K.
Variable comp : K -> bytes -> res (bytes * K).
Variable flush : K -> res bytes.
Variable depth : nat.
Variable kd : ckind.
Variable Stream : ctype -> bytes -> bytes -> Prop.
Context {H : Type}.
Variable md5 : H.
Variable feed : H -> bytes -> H.
Variable digest : H -> bytes.
Variable truncate : bool.
Variable process_blob : entry -> M zim unit.
Variable rounds : nat.
Hypothesis CD : codec_ok dc new_decomp new_comp comp flush Stream.
Hypothesis HO : hash_ok feed digest.
Notation laid := (laid_out Stream).
Notation runs := (in_session fuel dc new_decomp new_comp comp flush depth kd Stream md5 feed digest truncate process_blob rounds).
Notation alive := (lives fuel dc new_decomp new_comp comp flush depth kd Stream md5 feed digest truncate process_blob rounds).
Notation opens := (open_zim fuel dc new_decomp new_comp comp flush depth kd).
Notation savedh := (saved md5 feed digest).
Notation hc := (hcore fuel Stream).
Notation shows := (holds_all fuel dc new_decomp kd).

Lemma hcore_reserve : forall r mx A0 cells0 L0 A done cells L Pd Pc Pp r', hc r mx A0 cells0 L0 A done cells L Pd Pc Pp -> ml_dirty (fa_mimes A) = false -> may_follow r A r' ->
  hc r' mx A0 cells0 L0 A done cells L Pd Pc Pp.
Proof. intros r mx A0 cells0 L0 A done cells L Pd Pc Pp r' HV MD MF. destruct HV. constructor; try assumption. eapply laid_reserve; eassumption. Qed.

(** One session, with the archive closed and opened at the end. *)
Lemma session_step : forall r mx A s A1, runs r A (ss_all s) A1 -> forall A0 cells0 L0 done cells L Pd, no_buffer A0 -> hc r mx A0 cells0 L0 A done cells L Pd [] [] ->
  (is_dirty A = false -> savedh A) -> room 0 cells0 L0 (done ++ zadded (ss_ops s)) -> Forall (zop_ok fuel) (ss_all s) -> Forall (limited mx) (ss_all s) ->
  exists cells1 L1 Pd1, hc r mx A0 cells0 L0 A1 (done ++ zadded (ss_ops s)) cells1 L1 Pd1 [] [] /\ savedh A1 /\ suffices fuel Stream r A1.
Proof.
  intros r mx A s A1 R A0 cells0 L0 done cells L Pd NB HV SV RO OK LM. unfold ss_all in *. pose proof (runs_end fuel dc new_decomp new_comp comp flush depth kd Stream r md5 feed digest truncate process_blob rounds _ _ _ R) as SE.
  destruct (zruns_app _ _ _ _ _ _ _ _ _ _ _ _ _ _ _ _ _ _ _ _ R) as (A2 & R1 & E1 & F1). apply Forall_app in OK as (OK1 & OK2). apply Forall_app in LM as (LM1 & LM2).
  inversion OK2 as [|? ? OK3 _]; subst. inversion LM2 as [|? ? LM3 _]; subst.
  assert (CL : clean A [] []) by (intro Q; destruct (SV Q) as (S1 & S2 & S3 & _); split; [split; [exact S1|split; assumption]|auto]).
  destruct (zruns_step fuel dc new_decomp new_comp comp flush depth kd Stream r md5 feed digest truncate process_blob rounds CD HO mx _ _ _ R1 A0 cells0 L0 done cells L Pd [] [] NB HV CL RO OK1 LM1)
    as (cells1 & L1 & Pd1 & Pc1 & Pp1 & HV1 & CL1 & SR1).
  destruct (zop_step fuel dc new_decomp new_comp comp flush depth kd Stream r md5 feed digest truncate process_blob rounds CD HO mx A0 cells0 L0 A2 (done ++ zadded (ss_ops s)) cells1 L1 Pd1 Pc1 Pp1
    (ZReopen (ss_comp s) (ss_plain s)) A1 NB HV1 CL1) as (cells2 & L2 & Pd2 & Pc2 & Pp2 & HV2 & _ & FI & SR2); try assumption.
  - change (zadded [ZReopen (ss_comp s) (ss_plain s)]) with (@nil (item * bytes)). rewrite app_nil_r. exact RO.
  - exact (proj2 (proj2 (zruns_limits _ _ _ _ _ _ _ _ _ _ _ _ _ _ _ _ _ _ _ R1))).
  - exact (proj2 (proj2 (zruns_limits _ _ _ _ _ _ _ _ _ _ _ _ _ _ _ _ _ _ _ R))).
  - destruct (FI eq_refl) as ((S1 & S2 & S3) & -> & ->). change (zadded [ZReopen (ss_comp s) (ss_plain s)]) with (@nil (item * bytes)) in HV2. rewrite app_nil_r in HV2.
    exists cells2, L2, Pd2. split; [exact HV2|]. split; [|exact SE]. split; [exact S1|]. split; [exact S2|]. split; [exact S3|].
    apply SR2; [|exact S1]. apply SR1. intro Q. destruct (SV Q) as (_ & _ & _ & X). exact X.
Qed.
Lemma sadded_cons : forall s l, sadded (s :: l) = zadded (ss_ops s) ++ sadded l. Proof. reflexivity. Qed.
Lemma lives_step : forall r A l A', alive r A l A' -> forall mx A0 cells0 L0 done cells L Pd, no_buffer A0 -> hc r mx A0 cells0 L0 A done cells L Pd [] [] -> savedh A -> suffices fuel Stream r A ->
  room 0 cells0 L0 (done ++ sadded l) -> Forall (fun s => Forall (zop_ok fuel) (ss_all s) /\ Forall (limited mx) (ss_all s)) l ->
  exists r' cells1 L1 Pd1, hc r' mx A0 cells0 L0 A' (done ++ sadded l) cells1 L1 Pd1 [] [] /\ savedh A' /\ suffices fuel Stream r' A'.
Proof.
  induction 1 as [r A|r A s A1 l A' MF R LV IH]; intros mx A0 cells0 L0 done cells L Pd NB HV SA SU RO OK.
  - exists r, cells, L, Pd. unfold sadded. cbn [map concat]. rewrite app_nil_r. auto.
  - inversion OK as [|? ? (OK1 & OK2) OK3]; subst. rewrite sadded_cons, app_assoc in *. pose proof (clean_mimes A (proj1 SA)) as MD.
    pose proof (hcore_reserve _ _ _ _ _ _ _ _ _ _ _ _ _ HV MD MF) as HV1.
    destruct (session_step _ mx _ _ _ R A0 cells0 L0 done cells L Pd NB HV1 (fun _ => SA) (room_part _ _ _ _ _ RO) OK1 OK2) as (cells1 & L1 & Pd1 & HV2 & SA1 & SU1).
    exact (IH mx A0 cells0 L0 _ cells1 L1 Pd1 NB HV2 SA1 SU1 RO OK3).
Qed.

Definition session_ok (s : session) : Prop := Forall (zop_ok fuel) (ss_all s).
Definition top (l : list session) : Z := fold_right (fun s m => Z.max m (highest (ss_all s))) 0 l.
Lemma top_limits : forall mx l, top l <= mx -> Forall session_ok l -> Forall (fun s => Forall (zop_ok fuel) (ss_all s) /\ Forall (limited mx) (ss_all s)) l.
Proof.
  intros mx l. induction l as [|s l IH]; intros LE F; constructor; inversion F as [|? ? F1 F2]; subst; unfold top in LE; cbn [fold_right] in LE; fold (top l) in LE.
  - split; [exact F1|]. eapply limited_more; [|apply highest_limits]. lia.
  - apply IH; [lia|exact F2].
Qed.

(** *** C81: any archive that is in order, was written under [r] and has been
    opened; in the sessions [l] items are added to it, each under its own
    policy.  The archive can be opened afterwards; all of its content from
    before and all that was added is there.  Partial: [alive] requires that
    the reserved space is never enlarged, see [C81_refuted]. *)
Theorem C81_sessions_partial : forall r A cells L l A' w sc sp, laid r A cells L -> fresh_strategy (zs_comp (fa_state A)) -> fresh_strategy (zs_plain (fa_state A)) ->
  fa_redirects A = [] -> fa_main A = None -> savedh A -> suffices fuel Stream r A ->
  alive r A l A' -> Forall session_ok l -> NoDup (urls_of (sadded l)) ->
  (forall u, In u (urls_of (sadded l)) -> get_entry_by_full_url (fa_zim A) u = Err EntryNotFound) ->
  zlen cells + zlen (sadded l) < 2 ^ 32 -> zlen L + zlen (sadded l) < 2 ^ 32 ->
  exists B, opens (fa_file A') w sc sp = Ok B /\ checksum_right md5 feed digest B /\ shows A (sadded l) B.
Proof.
  intros r A cells L l A' w sc sp LO F1 F2 B1 B2 SA SU LV OK ND AB Z1 Z2. set (mx := Z.max (Z.max (limit_of (zs_comp (fa_state A))) (limit_of (zs_plain (fa_state A)))) (top l)).
  assert (RO : room 0 cells L ([] ++ sadded l)).
  { split; [exact ND|]. split; [exact (absent_urls Stream r A cells L _ LO AB)|]. pose proof (zlen_nonneg L). auto. }
  destruct (lives_step r A l A' LV mx A cells L [] cells L [] (conj B1 B2)) as (r' & cells1 & L1 & Pd1 & HV & SA' & SU'); try assumption.
  - apply hcore_start; [exact LO|apply fresh_pendany; [exact F1|lia]|apply fresh_pendany; [exact F2|lia]].
  - apply top_limits; [lia|exact OK].
  - pose proof (hv_laid _ _ _ _ _ _ _ _ _ _ _ _ _ _ HV) as LO1. destruct SU as (_ & FA0 & _). destruct SU' as (F0 & FA & _).
    destruct (open_ok fuel dc new_decomp new_comp comp flush depth kd Stream r' md5 feed digest CD w sc sp A' cells1 L1 LO1 SA' (FA _ _ LO1) F0) as (B & E & S & _).
    exists B. split; [exact E|]. split; [exact (same_checksum md5 feed digest _ _ S (proj2 (proj2 (proj2 SA'))))|].
    exact (shown_history fuel dc new_decomp new_comp comp flush kd Stream r' md5 feed digest CD r mx A cells L A' (sadded l) cells1 L1 Pd1 B LO (FA0 _ _ LO) HV (FA _ _ LO1) S).
Qed.

(** *** C81: from the creation of the archive on. *)
Theorem C81_new_archive_partial : forall r u sc0 sp0 A s A1 l A' w sc sp, 0 <= r -> zlen u = 16 -> fresh_strategy sc0 -> fresh_strategy sp0 ->
  init_new fuel new_comp comp flush depth (Some r) u sc0 sp0 = Ok A -> ss_reserve s = Some r -> runs (Some r) A (ss_all s) A1 -> alive (Some r) A1 l A' -> Forall session_ok (s :: l) ->
  let items := sadded (s :: l) in
  NoDup (URL_ARTICLE_TITLE_INDEX :: urls_of items) -> zlen items < 2 ^ 32 - 1 ->
  exists B, opens (fa_file A') w sc sp = Ok B /\ h_uuid (fa_hdr B) = u /\ (forall it d, In (it, d) items -> readable fuel dc new_decomp kd (fa_sarch B) it d) /\
    (exists es, iter_entries (fa_zim B) None None = Ok es /\ Permutation (map full_url es) (URL_ARTICLE_TITLE_INDEX :: urls_of items)) /\
    (exists us, article_urls (fa_zim B) = Some us /\ Permutation us (articles_of items)).
Proof.
  intros r u sc0 sp0 A s A1 l A' w sc sp Hr HU F1 F2 IN _ R LV OK items ND ZI. set (mx := Z.max (Z.max (limit_of sc0) (limit_of sp0)) (top (s :: l))).
  pose proof (runs_start fuel dc new_decomp new_comp comp flush depth kd Stream (Some r) md5 feed digest truncate process_blob rounds _ _ _ R) as (HF & FA0 & _).
  destruct (created fuel dc new_decomp new_comp comp flush depth Stream CD mx r Hr HF u sc0 sp0 A HU F1 F2) as (cells & L & LO & P1 & P2 & B1 & B2 & DI & EU & EA & ZL & UU); [lia|lia|exact IN|].
  pose proof (ao_entries _ _ _ _ (lo_arch _ _ _ _ _ LO)) as CS.
  assert (ZC : zlen cells = 1). { apply (f_equal (@length _)) in EU. rewrite !map_length in EU. unfold zlen. rewrite EU. reflexivity. }
  inversion ND as [|? ? N1 N2]; subst.
  assert (RO : room 0 cells L ([] ++ sadded (s :: l))).
  { split; [exact N2|]. split; [|fold items; pose proof (zlen_nonneg L); cbn [app]; lia]. intros x Hx e He Q. apply (in_map full_url) in He. rewrite EU in He. destruct He as [He|[]]. apply N1. rewrite He, Q. exact Hx. }
  pose proof (top_limits mx (s :: l) ltac:(lia) OK) as LM. inversion LM as [|? ? (L1 & L2) L3]; subst. rewrite sadded_cons, app_assoc in RO.
  destruct (session_step (Some r) mx A s A1 R A cells L [] cells L [] (conj B1 B2)) as (cells1 & L1' & Pd1 & HV1 & SA1 & SU1); try assumption.
  - apply hcore_start; assumption.
  - intro Q. congruence.
  - exact (room_part _ _ _ _ _ RO).
  - destruct (lives_step (Some r) A1 l A' LV mx A cells L _ cells1 L1' Pd1 (conj B1 B2) HV1 SA1 SU1 RO L3) as (r' & cells2 & L2' & Pd2 & HV & SA' & SU').
    pose proof (hv_laid _ _ _ _ _ _ _ _ _ _ _ _ _ _ HV) as LO1. destruct SU' as (F0 & FA & _).
    destruct (open_ok fuel dc new_decomp new_comp comp flush depth kd Stream r' md5 feed digest CD w sc sp A' cells2 L2' LO1 SA' (FA _ _ LO1) F0) as (B & E & S & _).
    destruct (shown_history fuel dc new_decomp new_comp comp flush kd Stream r' md5 feed digest CD (Some r) mx A cells L A' _ cells2 L2' Pd2 B LO (FA0 _ _ LO) HV (FA _ _ LO1) S) as (HA1 & HA2 & _ & _ & HA5 & HA6 & _).
    exists B. split; [exact E|]. split; [exact HA6|]. split; [exact HA1|]. split.
    + destruct HA2 as (bf & af & E1 & E2 & E3). exists af. split; [exact E2|]. pose proof (eq_trans (eq_sym E1) (entries_ok _ _ CS)) as Q. injection Q as ->. rewrite EU in E3. rewrite E3. apply Permutation_sym, Permutation_cons_append.
    + destruct (HA5 [] EA) as (us & E1 & E2). exists us. rewrite app_nil_r in E2. auto.
Qed.
End Reserve.

(** ** More space is reserved than before: the full statement is false. *)
Definition C81_full_statement : Prop :=
  forall fuel D (dc : decomp D) new_decomp K new_comp comp flush depth kd Stream H (md5 : H) feed digest truncate process_blob rounds,
  codec_ok (K:=K) dc new_decomp new_comp comp flush Stream -> hash_ok feed digest ->
  forall r r' u sc0 sp0 A s A1 s' A' w sc sp, zlen u = 16 -> fresh_strategy sc0 -> fresh_strategy sp0 ->
  init_new fuel new_comp comp flush depth r u sc0 sp0 = Ok A ->
  in_session fuel dc new_decomp new_comp comp flush depth kd Stream md5 feed digest truncate process_blob rounds r A (ss_all s) A1 ->
  in_session fuel dc new_decomp new_comp comp flush depth kd Stream md5 feed digest truncate process_blob rounds r' A1 (ss_ops s' ++ [ZFlush]) A' ->
  Forall (zop_ok fuel) (ss_all s ++ ss_all s') -> NoDup (URL_ARTICLE_TITLE_INDEX :: urls_of (sadded [s; s'])) -> zlen (sadded [s; s']) < 2 ^ 32 - 1 ->
  exists B, open_zim fuel dc new_decomp new_comp comp flush depth kd (fa_file A') w sc sp = Ok B /\
    (forall it d, In (it, d) (sadded [s; s']) -> readable fuel dc new_decomp kd (fa_sarch B) it d).

(** An archive is created by a program that does not reserve space and opened
    by one with the default policy (policy.py 88), which adds an item with a new mimetype. *)
Notation content_with := (let* _ := sync_main in flush_content sample_fuel plain_new_comp plain_comp plain_flush 6 (fun _ => ret tt) 3).
Notation step_with r := (perform_zop sample_fuel passthrough plain_new plain_new_comp plain_comp plain_flush 6 KRemembering 0 sample_feed sample_digest r true (fun _ => ret tt) 3).
Notation flush_with r := (flushes sample_fuel passthrough plain_new plain_new_comp plain_comp plain_flush 6 KRemembering 0 sample_feed sample_digest r true (fun _ => ret tt) 3).
Notation session_with := (in_session sample_fuel passthrough plain_new plain_new_comp plain_comp plain_flush 6 KRemembering plain_stream 0 sample_feed sample_digest true (fun _ => ret tt) 3).
Definition flush_small_with (r : option Z) (A : farchive) : bool :=
  match content_with A with
  | (Ok _, A1) => small A1 && match sample_articles A1 with (Ok _, A2) => small A2 && match sample_titles A2 with (Ok _, A3) => small A3 | _ => true end | _ => true end
  | _ => true
  end && match flush_with r A with (Ok _, A') => small A' | _ => true end.
Lemma flush_small_with_suffices : forall r A, flush_small_with r A = true ->
  flush_suffices sample_fuel passthrough plain_new plain_new_comp plain_comp plain_flush 6 KRemembering plain_stream 0 sample_feed sample_digest r true (fun _ => ret tt) 3 A.
Proof.
  intros r A S. unfold flush_small_with in S. apply andb_true_iff in S as (S1 & S2). split.
  - intros A1 E. rewrite E in S1. apply andb_true_iff in S1 as (S1 & S3). split; [apply small_enough; exact S1|]. intros A2 E2. rewrite E2 in S3. apply andb_true_iff in S3 as (S3 & S4). split; [apply small_enough; exact S3|]. intros A3 E3. rewrite E3 in S4. apply small_enough. exact S4.
  - intros A' E. rewrite E in S2. apply small_enough. exact S2.
Qed.
Fixpoint run_with (r : option Z) (A : farchive) (ops : list zop) : res farchive :=
  if few A then
    match ops with
    | [] => Ok A
    | o :: q => if flush_small_with r A then match step_with r A o with (Ok _, A1) => run_with r A1 q | (Err e, _) => Err e end else Err Diverge
    end
  else Err Diverge.
Lemma few_with : forall r A, few A = true -> within_limits sample_fuel plain_stream r A.
Proof. intros r A F. unfold few in F. apply andb_true_iff in F as (F1 & F2). split; [apply small_enough; exact F1|lia]. Qed.
Lemma run_with_ok : forall r ops A A', run_with r A ops = Ok A' -> session_with r A ops A'.
Proof.
  intros r. induction ops as [|o ops IH]; intros A A' E; cbn [run_with] in E; (destruct (few A) eqn:F; [|discriminate E]).
  - injection E as <-. constructor. apply few_with. exact F.
  - destruct (flush_small_with r A) eqn:FS; [|discriminate E]. destruct (step_with r A o) as [[[]|e] A1] eqn:ES; [|discriminate E].
    econstructor; [apply few_with; exact F|apply flush_small_with_suffices; exact FS|exact ES|]. apply IH. exact E.
Qed.
Definition created_with (r : option Z) : res farchive := init_new sample_fuel plain_new_comp plain_comp plain_flush 6 r sample_uuid sample_simple sample_mime.
Definition first_session (r : option Z) : session := mkSession r [ZAdd item_b [x42] false] sample_simple sample_mime.
Definition second_session (r : option Z) : session := mkSession r [ZAdd item_c [x43] true] sample_simple sample_mime.
(** The file after both sessions. *)
Definition two_sessions (c : res farchive) (r r' : option Z) : res (farchive * farchive * farchive) :=
  do A <- c ;; do A1 <- run_with r A (ss_all (first_session r)) ;; do A' <- run_with r' A1 (ss_ops (second_session r') ++ [ZFlush]) ;; Ok (A, A1, A').
Lemma two_parts : forall c r r' x, two_sessions c r r' = Ok x -> exists A A1 A', x = (A, A1, A') /\ c = Ok A /\ session_with r A (ss_all (first_session r)) A1 /\ session_with r' A1 (ss_ops (second_session r') ++ [ZFlush]) A'.
Proof.
  intros c r r' x E. unfold two_sessions in E. destruct c as [A|]; cbn [bind] in E; [|discriminate E].
  destruct (run_with r A (ss_all (first_session r))) as [A1|] eqn:E1; cbn [bind] in E; [|discriminate E].
  destruct (run_with r' A1 (ss_ops (second_session r') ++ [ZFlush])) as [A'|] eqn:E2; cbn [bind] in E; [|discriminate E]. injection E as <-.
  exists A, A1, A'. split; [reflexivity|]. split; [reflexivity|]. split; apply run_with_ok; assumption.
Qed.
Definition cannot_open (x : res (farchive * farchive * farchive)) : bool :=
  match x with Ok (_, _, A') => match sample_open (fa_file A') false sample_simple sample_simple with Ok _ => false | Err _ => true end | Err _ => false end.
Lemma overwritten : cannot_open (two_sessions (created_with None) None (Some 2048)) = true.
Proof. vm_compute. reflexivity. Qed.
Lemma cannot_open_parts : forall c r r', cannot_open (two_sessions c r r') = true -> exists A A1 A' e, c = Ok A /\ session_with r A (ss_all (first_session r)) A1 /\
  session_with r' A1 (ss_ops (second_session r') ++ [ZFlush]) A' /\ sample_open (fa_file A') false sample_simple sample_simple = Err e.
Proof.
  intros c r r' E. destruct (two_sessions c r r') as [x|] eqn:T; [|discriminate E]. destruct (two_parts _ _ _ _ T) as (A & A1 & A' & -> & EC & R1 & R2). cbn [cannot_open] in E.
  destruct (sample_open (fa_file A') false sample_simple sample_simple) as [B|e] eqn:EO; [discriminate E|]. exists A, A1, A', e. auto.
Qed.
Lemma sessions_ok : forall r r', Forall (zop_ok sample_fuel) (ss_all (first_session r) ++ ss_all (second_session r')) /\ NoDup (URL_ARTICLE_TITLE_INDEX :: urls_of (sadded [first_session r; second_session r'])) /\
  zlen (sadded [first_session r; second_session r']) < 2 ^ 32 - 1 /\ fresh_strategy sample_simple /\ fresh_strategy sample_mime.
Proof.
  intros r r'. assert (FS : fresh_strategy sample_simple) by (exists NONE, 10; left; reflexivity). assert (FM : fresh_strategy sample_mime) by (exists NONE, 10; right; reflexivity).
  split; [|split; [|split; [reflexivity|auto]]].
  - assert (LE : (200 <= sample_fuel)%nat) by (unfold sample_fuel; lia). cbn [ss_all first_session second_session ss_ops ss_comp ss_plain app].
    repeat (constructor; [cbn [zop_ok]; first [split; assumption|eapply larger_ok; [first [exact item_b_ok|exact item_c_ok]|exact LE]]|]). constructor.
  - vm_compute. repeat constructor; cbn; intuition discriminate.
Qed.
Theorem C81_refuted : ~ C81_full_statement.
Proof.
  intro F. destruct (cannot_open_parts _ _ _ overwritten) as (A & A1 & A' & e & EC & R1 & R2 & EO). destruct (sessions_ok None (Some 2048)) as (O1 & O2 & O3 & FS & FM).
  destruct (F sample_fuel _ _ _ _ _ _ _ 6%nat KRemembering plain_stream _ 0 sample_feed sample_digest true (fun _ => ret tt) 3%nat plain_codec sample_hash None (Some 2048) sample_uuid sample_simple sample_mime A
    (first_session None) A1 (second_session (Some 2048)) A' false sample_simple sample_simple eq_refl FS FM EC R1 R2 O1 O2 O3) as (B & EB & _). congruence.
Qed.

(** ** A concrete life: 50 bytes are reserved, then 45, then none. *)
Definition third_session : session := mkSession None [ZAdd item_a [x41] false] sample_simple sample_mime.
Definition life_of (c : res farchive) : res (farchive * farchive * farchive * farchive) :=
  do A <- c ;; do A1 <- run_with (Some 50) A (ss_all (first_session (Some 50))) ;;
  if mt_disk_size (ml_types (fa_mimes A1)) <=? 45 then
    do A2 <- run_with (Some 45) A1 (ss_all (second_session (Some 45))) ;; do A3 <- run_with None A2 (ss_all third_session) ;; Ok (A, A1, A2, A3)
  else Err Diverge.
Definition works (c : res farchive) : bool := match life_of c with Ok _ => true | Err _ => false end.
Lemma life_works : works (created_with (Some 50)) = true.
Proof. vm_compute. reflexivity. Qed.
Notation life_with := (lives sample_fuel passthrough plain_new plain_new_comp plain_comp plain_flush 6 KRemembering plain_stream 0 sample_feed sample_digest true (fun _ => ret tt) 3).
Lemma life_parts : forall c, works c = true -> exists A A1 A', c = Ok A /\ session_with (Some 50) A (ss_all (first_session (Some 50))) A1 /\
  life_with (Some 50) A1 [second_session (Some 45); third_session] A'.
Proof.
  intros c E. unfold works, life_of in E. destruct c as [A|]; cbn [bind] in E; [|discriminate E].
  destruct (run_with (Some 50) A (ss_all (first_session (Some 50)))) as [A1|] eqn:E1; cbn [bind] in E; [|discriminate E].
  destruct (mt_disk_size (ml_types (fa_mimes A1)) <=? 45) eqn:SZ; [|discriminate E].
  destruct (run_with (Some 45) A1 (ss_all (second_session (Some 45)))) as [A2|] eqn:E2; cbn [bind] in E; [|discriminate E].
  destruct (run_with None A2 (ss_all third_session)) as [A3|] eqn:E3; cbn [bind] in E; [|discriminate E].
  exists A, A1, A3. split; [reflexivity|]. split; [apply run_with_ok; exact E1|]. econstructor; [right; cbn; lia|apply run_with_ok; exact E2|].
  econstructor; [right; exact Logic.I|apply run_with_ok; exact E3|]. constructor.
Qed.
Example C81_example : exists A A1 A', created_with (Some 50) = Ok A /\ session_with (Some 50) A (ss_all (first_session (Some 50))) A1 /\ life_with (Some 50) A1 [second_session (Some 45); third_session] A' /\ exists B, sample_open (fa_file A') false sample_simple sample_simple = Ok B /\ h_uuid (fa_hdr B) = sample_uuid /\
    readable sample_fuel passthrough plain_new KRemembering (fa_sarch B) item_a [x41] /\ readable sample_fuel passthrough plain_new KRemembering (fa_sarch B) item_b [x42] /\
    readable sample_fuel passthrough plain_new KRemembering (fa_sarch B) item_c [x43].
Proof.
  destruct (life_parts _ life_works) as (A & A1 & A' & EC & R & LV). exists A, A1, A'. split; [exact EC|]. split; [exact R|]. split; [exact LV|]. destruct (sessions_ok (Some 50) (Some 45)) as (O1 & _ & _ & FS & FM).
  destruct (C81_new_archive_partial sample_fuel passthrough plain_new plain_new_comp plain_comp plain_flush 6 KRemembering plain_stream 0 sample_feed sample_digest true (fun _ => ret tt) 3 plain_codec sample_hash
    50 sample_uuid sample_simple sample_mime A (first_session (Some 50)) A1 [second_session (Some 45); third_session] A' false sample_simple sample_simple) as (B & H1 & H2 & H3 & _); try assumption; try reflexivity; try lia.
  - apply Forall_app in O1 as (O1 & O2). constructor; [exact O1|]. constructor; [exact O2|]. constructor; [|constructor]. unfold session_ok. cbn [ss_all third_session ss_ops ss_comp ss_plain app].
    constructor; [cbn [zop_ok]; eapply larger_ok; [exact item_a_ok|unfold sample_fuel; lia]|]. constructor; [split; assumption|constructor].
  - vm_compute. repeat constructor; cbn; intuition discriminate.
  - exists B. split; [exact H1|]. split; [exact H2|]. split; [apply H3; cbn; auto|]. split; apply H3; cbn; auto.
Qed.
Print Assumptions C81_sessions_partial.
Print Assumptions C81_new_archive_partial.
Print Assumptions C81_refuted.
