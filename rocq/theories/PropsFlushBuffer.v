(** C69: a flush that returns has written every redirect that was added.  False
    of the code for an archive without other changes; true of the others. *)
From Coq Require Import List ZArith Bool Lia Permutation Strings.Byte.
From Coq Require Import ZifyBool ZifyNat.
From Verif Require Import Base BaseProofs Utf8 Utf8Proofs Infobyte Header HeaderSpec HeaderProofs MimeTypeList MimeTypeListSpec Entry EntrySpec Reader ReaderSpec Decompressors DecompressorsProofs Blob BlobProofs
  PointerList PointerListProofs SpaceAllocator Cluster ClusterSpec ClusterProofs ClusterWrapper ClusterWrapperSpec ClusterWrapperProofs Archive ArchiveSpec ArchiveProofs ArchiveFacts ArchiveObserve
  ArchiveCluster ArchiveClusterSpec ArchiveClusterProofs ArchiveFrame ArchiveEntryCluster ArchiveEditCluster CompressionStrategy CompressionStrategySpec CompressionStrategyProofs OperationBuffer OperationBufferSpec OperationBufferProofs EntryObject Flush FlushSpec FlushProofs FlushTailProofs FlushOpenProofs
  FlushHistorySpec FlushHistoryProofs FlushCreateProofs ViewSpec ViewProofs ViewEditProofs ViewStepProofs FlushBufferProofs PropsArchiveCluster PropsCompressionStrategy PropsFlush.
Import ListNotations.
Open Scope Z_scope.

Section Redirects.
Variable fuel : nat.
Context {D : Type}.
Variable dc : decomp D.
Variable new_decomp : ctype -> res D.
Context {K : Type}.
Variable new_comp : ctype -> res K.
Variable comp : K -> bytes -> res (bytes * K).
Variable flush : K -> res bytes.
Variable depth : nat.
Variable kd : ckind.
Variable Stream : ctype -> bytes -> bytes -> Prop.
Context {H : Type}.
Variable md5 : H.
Variable feed : H -> bytes -> H.
Variable digest : H -> bytes.
Variable reserve : option Z.
Variable truncate : bool.
Variable process_blob : entry -> M zim unit.
Variable rounds : nat.
Notation laid := (laid_out Stream reserve).
Notation opens := (open_zim fuel dc new_decomp new_comp comp flush depth kd).
Notation flushesh := (flushes fuel dc new_decomp new_comp comp flush depth kd md5 feed digest reserve truncate process_blob rounds).
Notation fsuff := (flush_suffices fuel dc new_decomp new_comp comp flush depth kd Stream md5 feed digest reserve truncate process_blob rounds).

(** The situation: to an archive [A] on which nothing is pending the redirects
    [l] are added, all calls return; this is [A1], and flushing it returns [A']. *)
Record redirected (A : farchive) (l : list rop) (A1 A' : farchive) : Prop := mkRedirected {
  rd_laid : exists cells L, laid A cells L /\ acceptable (map snd cells) l;
  rd_idle : idle A;
  rd_clean : is_dirty A = false -> settled A;
  rd_count : counts (zlen l) A;
  rd_added : on_buffered (add_redirects (S (S depth)) l) A = (Ok tt, A1);
  rd_fuel : fsuff A1;
  rd_flushed : flushesh A1 = (Ok tt, A') }.

Hypothesis CD : codec_ok dc new_decomp new_comp comp flush Stream.
Hypothesis HO : hash_ok feed digest.

(** *** C69.  If the archive was dirty before the flush (a redirect could be
    written at once, or anything else was changed), then all redirects are in
    the archive after the flush, and in the one opened from its file. *)
Theorem C69_dirty_partial : forall A l A1 A' w sc sp, redirected A l A1 A' -> is_dirty A1 = true ->
  (forall r, In r l -> has_redirect (fa_zim A') r) /\ fa_redirects A' = [] /\
  exists B, opens (fa_file A') w sc sp = Ok B /\ forall r, In r l -> has_redirect (fa_zim B) r.
Proof.
  intros A l A1 A' w sc sp [(cells & L & LO & AC) (I1 & I2 & I3 & I4) SE (N1 & _) EA FS E] DI. pose proof (laid_consistent _ _ _ _ _ LO) as C.
  assert (ZC : zlen (pl_ptrs (z_upl (fa_zim A))) = zlen cells) by (change (fa_zim A) with (ca_zim (fa_arch A)); rewrite (co_locs _ _ (ao_core _ _ _ _ (lo_arch _ _ _ _ _ LO))); apply zlen_map).
  rewrite ZC in N1. unfold on_buffered in EA. rewrite I3, I4 in EA. destruct (add_redirects (S (S depth)) l (mkBuffered (fa_zim A) [] None)) as [r1 o1] eqn:E1. injection EA as -> EA.
  destruct AC as [AC1 AC2 AC3 AC4].
  assert (B0 : bwaits (fa_zim A) cells l (zlen cells + zlen l) (mkBuffered (fa_zim A) [] None) l cells).
  { constructor; cbn [b_zim b_redirects]; rewrite ?app_nil_r; auto; [apply step_refl; [exact (ao_core _ _ _ _ (lo_arch _ _ _ _ _ LO))|exact C]|apply steady_refl|lia]. }
  destruct (waits_round (fa_zim A) cells l _ N1 _ _ _ _ _ B0 E1) as (cells1 & B1 & M1). cbn [b_main] in M1.
  destruct FS as (FS & FS2). specialize (FS2 A' E) as (F1 & FA1 & _). unfold flushes, zim_flush, mbind in E. destruct (sync_main A1) as [[[]|] A2] eqn:E2; [|discriminate E].
  pose proof E2 as E2'. unfold sync_main in E2'. destruct (assign_inv _ _ _ _ _ E2') as (h & HA & ->). clear E2'.
  assert (EN : entries_only A cells A1 cells1).
  { subst A1. constructor; try reflexivity; [exact (bw_step _ _ _ _ _ _ _ B1)|split; [apply mgood_refl|apply mextends_refl]|exact (bw_steady _ _ _ _ _ _ _ B1)]. }
  destruct (is_dirty (fa_set_header h A1)) eqn:ED; cbn [negb] in E.
  2:{ exfalso. pose proof (hassign_more _ _ _ _ HA) as (_ & [Q|Q] & _); [|unfold is_dirty in ED; cbn [fa_header fa_set_header] in ED; rewrite Q in ED; rewrite !orb_true_r in ED; discriminate ED].
      rewrite Q in ED. replace (fa_set_header (fa_header A1) A1) with A1 in ED by (destruct A1; reflexivity). congruence. }
  destruct (flush_content _ _ _ _ _ _ _ (fa_set_header h A1)) as [[[]|] A3] eqn:E3; [|discriminate E]. destruct (FS A3) as (SU & SA); [unfold mbind; rewrite E2; exact E3|].
  unfold flush_content, mbind in E3.
  assert (ST : fa_state (fa_set_header h A1) = fa_state A1) by reflexivity.
  rewrite idle_strategies in E3 by (rewrite ST; first [rewrite (en_comp _ _ _ _ EN)|rewrite (en_plain _ _ _ _ EN)]; assumption). unfold flush_buffer in E3.
  change (fa_zim (fa_set_header h A1)) with (fa_zim A1) in E3. change (fa_redirects (fa_set_header h A1)) with (fa_redirects A1) in E3. change (fa_main (fa_set_header h A1)) with (fa_main A1) in E3.
  assert (EO : mkBuffered (fa_zim A1) (fa_redirects A1) (fa_main A1) = o1) by (subst A1; destruct o1; reflexivity). rewrite EO in E3.
  destruct (OperationBuffer.finalize process_blob rounds (S (S depth)) o1) as [r3 o3] eqn:EF. injection E3 as -> E3.
  destruct (sync_main_ok Stream reserve A1 cells1 L _ (entries_laid Stream reserve _ _ _ _ _ LO EN) E2) as (LO2 & _). set (A2 := fa_set_header h A1) in *.
  assert (EZ : fa_zim A1 = b_zim o1) by (rewrite <- EO; reflexivity).
  assert (B2 : bwaits (fa_zim A2) cells1 l (zlen cells + zlen l) o1 [] cells1).
  { change (fa_zim A2) with (fa_zim A1). rewrite EZ. destruct B1. constructor; try assumption; [apply step_refl; [exact (es_core _ _ _ _ bw_step)|exact (es_consistent _ _ _ _ bw_step)]|apply steady_refl]. }
  destruct (waits_done (fa_zim A2) cells1 l _ N1 process_blob rounds depth o1 o3 cells1 B2 M1 EF) as (M3 & cells3 & ES3 & SD3 & R3 & HR).
  assert (EN3 : entries_only A2 cells1 A3 cells3).
  { subst A3. constructor; try reflexivity; [exact ES3|split; [apply mgood_refl|apply mextends_refl]|exact SD3]. }
  pose proof (entries_laid Stream reserve _ _ _ _ _ LO2 EN3) as LO3. assert (EZ3 : fa_zim A3 = b_zim o3) by (subst A3; reflexivity). assert (RR3 : fa_redirects A3 = []) by (subst A3; exact R3).
  assert (IC : idle_strategy (zs_comp (fa_state A3))) by (rewrite (en_comp _ _ _ _ EN3); change (fa_state A2) with (fa_state A1); rewrite (en_comp _ _ _ _ EN); exact I1).
  assert (IP : idle_strategy (zs_plain (fa_state A3))) by (rewrite (en_plain _ _ _ _ EN3); change (fa_state A2) with (fa_state A1); rewrite (en_plain _ _ _ _ EN); exact I2). clear E3.
  destruct SU as (F0 & FA & FT & FE).
  destruct (tail_ok fuel dc new_decomp new_comp comp flush depth kd Stream reserve CD md5 feed digest HO truncate A3 cells3 L A' LO3) as (L' & A4 & ES4 & LO' & SV & VW); [|exact IC|exact IP|exact E|].
  { split; [exact F0|]. split; [exact (FA _ _ LO3)|]. split; [exact FT|]. intros t Ht. split; [exact (FE t Ht)|]. intros C0 C1 L2 HB0 HB1 HL.
    destruct (SA C1) as ((_ & G & _) & G2); [unfold mbind; rewrite HB0; exact HB1|]. split; [exact (G _ _ HL)|]. intros C2 L3 HC2 HL2. destruct (G2 C2 HC2) as (_ & G3 & _). exact (G3 _ _ HL2). }
  assert (HR' : forall r, In r l -> has_redirect (fa_zim A') r).
  { intros r Hr. apply (same_entries_redirect (fa_zim A3) (fa_zim A') (map snd cells3)); [exact (laid_consistent _ _ _ _ _ LO3)|exact (laid_consistent _ _ _ _ _ LO')|]. rewrite EZ3. exact (HR r Hr). }
  split; [exact HR'|]. split.
  - destruct (sv_idle _ _ _ _ VW) as (_ & _ & Q & _). rewrite Q. unfold sync_main in ES4. destruct (assign_inv _ _ _ _ _ ES4) as (h4 & _ & ->). exact RR3.
  - assert (S1 : settled A') by (destruct SV as (Q1 & Q2 & Q3 & _); split; [exact Q1|split; [exact Q2|exact Q3]]).
    destruct (open_settled fuel dc new_decomp new_comp comp flush depth kd Stream reserve md5 feed digest CD w sc sp A' cells3 L' LO' S1 (FA1 _ _ LO') F1) as (B & EB & SB & _).
    exists B. split; [exact EB|]. intros r Hr. exact (same_archive_redirect _ _ _ SB (HR' r Hr)).
Qed.
End Redirects.

(** ** The full claim, for all archives *)
Definition C69_full_statement : Prop :=
  forall fuel D (dc : decomp D) new_decomp K new_comp comp flush depth kd Stream H (md5 : H) feed digest reserve truncate process_blob rounds,
  codec_ok (K:=K) dc new_decomp new_comp comp flush Stream -> hash_ok feed digest ->
  forall A l A1 A', redirected fuel dc new_decomp new_comp comp flush depth kd Stream md5 feed digest reserve truncate process_blob rounds A l A1 A' ->
  forall r, In r l -> has_redirect (fa_zim A') r.

Notation sample_redirected := (redirected sample_fuel passthrough plain_new plain_new_comp plain_comp plain_flush 6 KRemembering plain_stream 0 sample_feed sample_digest (Some 50) true (fun _ => ret tt) 3).
Definition gone (A : farchive) (u : ustr) : bool := match get_entry_by_full_url (fa_zim A) u with Ok _ => false | Err _ => true end.
Definition links_run (l : list rop) (r : res farchive) : option (farchive * farchive * farchive) :=
  match r with
  | Ok A =>
      if (zlen (pl_ptrs (z_upl (fa_zim A))) <? 100) && (zlen (pl_ptrs (ca_ptrs (fa_arch A))) <? 100) && (zlen l <? 100) && forallb (fun x => gone A (rsource x)) l then
        match on_buffered (add_redirects (S (S 6)) l) A with
        | (Ok _, A1) => if flush_small A1 then match sample_flush A1 with (Ok _, A') => Some (A, A1, A') | _ => None end else None
        | _ => None
        end
      else None
  | Err _ => None
  end.
Lemma links_run_of : forall l A0 cells L A A1 A', laid_out plain_stream (Some 50) A0 cells L -> saved 0 sample_feed sample_digest A0 -> idle A0 ->
  (forall r, In r l -> sound r) -> NoDup (map rsource l) -> links_run l (Ok A0) = Some (A, A1, A') -> A = A0 /\ sample_redirected A l A1 A'.
Proof.
  intros l A0 cells L A A1 A' LO (Q1 & Q2 & Q3 & _) I SO ND E. unfold links_run in E.
  destruct ((zlen (pl_ptrs (z_upl (fa_zim A0))) <? 100) && (zlen (pl_ptrs (ca_ptrs (fa_arch A0))) <? 100) && (zlen l <? 100) && forallb (fun x => gone A0 (rsource x)) l) eqn:B; [|discriminate E].
  apply andb_true_iff in B as (B & B3). apply andb_true_iff in B as (B & B2). apply andb_true_iff in B as (B0 & B1).
  destruct (on_buffered (add_redirects (S (S 6)) l) A0) as [[[]|] A1'] eqn:E1; [|discriminate E]. destruct (flush_small A1') eqn:FS; [|discriminate E]. destruct (sample_flush A1') as [[[]|] A''] eqn:EF; [|discriminate E].
  injection E as <- <- <-. split; [reflexivity|].
  assert (ZC : zlen (pl_ptrs (z_upl (fa_zim A0))) = zlen (map snd cells)) by (change (fa_zim A0) with (ca_zim (fa_arch A0)); rewrite (co_locs _ _ (ao_core _ _ _ _ (lo_arch _ _ _ _ _ LO))), !zlen_map; reflexivity).
  constructor.
  - exists cells, L. split; [exact LO|]. pose proof (laid_consistent _ _ _ _ _ LO) as C. constructor; [exact SO| |exact ND|lia].
    intros r Hr. apply (absent_exists _ _ _ C). intros (e & G). rewrite forallb_forall in B3. specialize (B3 r Hr). unfold gone in B3. rewrite G in B3. discriminate B3.
  - exact I.
  - intros _. split; [exact Q1|split; [exact Q2|exact Q3]].
  - split; lia.
  - exact E1.
  - apply flush_small_suffices. exact FS.
  - exact EF.
Qed.
Lemma links_run_ok : forall l A A1 A', (forall r, In r l -> sound r) -> NoDup (map rsource l) -> links_run l sample_end = Some (A, A1, A') -> sample_redirected A l A1 A'.
Proof.
  intros l A A1 A' SO ND E. destruct sample_end_ok as (_ & A0 & _ & EA & _). destruct (sample_end_laid A0 EA) as (cells & L & LO & SV & I & SU). revert E. rewrite EA. intro E. exact (proj2 (links_run_of l A0 cells L A A1 A' LO SV I SO ND E)).
Qed.
Ltac sound_link := constructor;
  [ eexists; eexists; eexists; split; [reflexivity|split; [reflexivity|split; [eexists; reflexivity|cbn; intuition discriminate]]]
  | split; [discriminate|eexists; reflexivity] | discriminate | discriminate ].

(** A redirect to a missing entry is added to an archive that was just flushed:
    the next flush returns, and there is no redirect. *)
Definition nowhere : list rop := [([67; 122], [67; 120], None)].
Definition lost_b (x : option (farchive * farchive * farchive)) : bool :=
  match x with Some (_, A1, A') => negb (is_dirty A1) && gone A' [67; 122] && match sample_open (fa_file A') false sample_simple sample_simple with Ok B => gone B [67; 122] | Err _ => false end | None => false end.
Lemma nowhere_lost : lost_b (links_run nowhere sample_end) = true.
Proof. vm_compute. reflexivity. Qed.
Lemma nowhere_ok : (forall r, In r nowhere -> sound r) /\ NoDup (map rsource nowhere).
Proof. split; [intros r [<-|[]]; sound_link|repeat constructor; intros []]. Qed.
(** What happens: the calls return, the archive that is opened again has no entry at the url. *)
Example C69_lost : exists A A1 A' B, sample_redirected A nowhere A1 A' /\ is_dirty A1 = false /\ sample_open (fa_file A') false sample_simple sample_simple = Ok B /\
  forall e, get_entry_by_full_url (fa_zim A') [67; 122] <> Ok e /\ get_entry_by_full_url (fa_zim B) [67; 122] <> Ok e.
Proof.
  pose proof nowhere_lost as Q. destruct (links_run nowhere sample_end) as [[[A A1] A']|] eqn:E; [|discriminate Q]. destruct nowhere_ok as (N1 & N2). pose proof (links_run_ok nowhere A A1 A' N1 N2 E) as R. cbn [lost_b] in Q.
  apply andb_true_iff in Q as (Q & Q3). apply andb_true_iff in Q as (Q1 & Q2). destruct (sample_open (fa_file A') false sample_simple sample_simple) as [B|] eqn:EB; [|discriminate Q3].
  exists A, A1, A', B. split; [exact R|]. split; [destruct (is_dirty A1); [discriminate Q1|reflexivity]|]. split; [exact EB|]. unfold gone in *. intro e. split; intro G; rewrite G in *; discriminate.
Qed.
Theorem C69_refuted : ~ C69_full_statement.
Proof.
  intro F. destruct C69_lost as (A & A1 & A' & B & R & _ & _ & N).
  destruct (F sample_fuel _ passthrough plain_new _ plain_new_comp plain_comp plain_flush 6%nat KRemembering plain_stream _ 0 sample_feed sample_digest (Some 50) true (fun _ => ret tt) 3%nat plain_codec sample_hash
    A nowhere A1 A' R _ (or_introl eq_refl)) as (e & G & _). exact (proj1 (N e) G).
Qed.

(** A case of the theorem: a redirect to a redirect that is added after it. *)
Definition forwards : list rop := [([67; 121], [67; 122], None); ([67; 122], [67; 97], None)].
Lemma forwards_dirty : match links_run forwards sample_end with Some (_, A1, _) => is_dirty A1 && (zlen (fa_redirects A1) =? 1) | None => false end = true.
Proof. vm_compute. reflexivity. Qed.
Lemma forwards_ok : (forall r, In r forwards -> sound r) /\ NoDup (map rsource forwards).
Proof. split; [intros r [<-|[<-|[]]]; sound_link|]. repeat constructor; cbn; intuition discriminate. Qed.
Example C69_example : exists A A1 A' B, sample_redirected A forwards A1 A' /\ is_dirty A1 = true /\ fa_redirects A1 <> [] /\
  sample_open (fa_file A') false sample_simple sample_simple = Ok B /\ has_redirect (fa_zim B) ([67; 121], [67; 122], None) /\ has_redirect (fa_zim B) ([67; 122], [67; 97], None).
Proof.
  pose proof forwards_dirty as Q. destruct (links_run forwards sample_end) as [[[A A1] A']|] eqn:E; [|discriminate Q]. destruct forwards_ok as (N1 & N2). pose proof (links_run_ok forwards A A1 A' N1 N2 E) as R.
  apply andb_true_iff in Q as (Q1 & Q2).
  destruct (C69_dirty_partial sample_fuel passthrough plain_new plain_new_comp plain_comp plain_flush 6 KRemembering plain_stream 0 sample_feed sample_digest (Some 50) true (fun _ => ret tt) 3 plain_codec sample_hash
    A forwards A1 A' false sample_simple sample_simple R Q1) as (_ & _ & B & EB & HB).
  exists A, A1, A', B. split; [exact R|]. split; [exact Q1|]. split; [intro Z; rewrite Z in Q2; discriminate Q2|]. split; [exact EB|]. split; apply HB; cbn; auto.
Qed.

Print Assumptions C69_dirty_partial.
Print Assumptions C69_refuted.
Print Assumptions C69_lost.
Print Assumptions C69_example.
