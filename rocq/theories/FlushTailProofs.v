(** What the flush of pointer lists, mimetypes and header does, step by step. *)
From Coq Require Import List ZArith Bool Lia.
From Coq Require Import ZifyBool ZifyNat.
From Verif Require Import Base BaseProofs Utf8 Infobyte Header HeaderSpec HeaderProofs MimeTypeList MimeTypeListSpec MimeTypeListProofs PointerList PointerListProofs
  SpaceAllocator SpaceAllocatorSpec SpaceAllocatorProofs Entry EntrySpec Reader ReaderSpec Blob Cluster ClusterSpec ClusterProofs ClusterWrapper ClusterWrapperSpec ClusterWrapperProofs
  Archive ArchiveSpec ArchiveProofs ArchiveWriteProofs ArchiveMoveProofs ArchiveFacts ArchiveCluster ArchiveClusterSpec ArchiveClusterProofs ClusterReuseProofs ClusterObjectProofs ArchiveFrame
  CompressionStrategy CompressionStrategySpec CompressionStrategyProofs OperationBuffer Flush FlushSpec FlushProofs.
Import ListNotations.
Open Scope Z_scope.

Section Tail.
Variable fuel : nat.
Context {D : Type}.
Variable dc : decomp D.
Variable new_decomp : ctype -> res D.
Context {K : Type}.
Variable new_comp : ctype -> res K.
Variable comp : K -> bytes -> res (bytes * K).
Variable flush : K -> res bytes.
Variable depth : nat.
Variable kd : ckind.
Variable Stream : ctype -> bytes -> bytes -> Prop.
Variable reserve : option Z.
Hypothesis CD : codec_ok dc new_decomp new_comp comp flush Stream.
Notation laid := (laid_out Stream reserve).

Lemma present_blobs : forall L, ~ In None L -> ~ In None (blobs_of L).
Proof. intros L N H. unfold blobs_of in H. apply in_map_iff in H. destruct H as ([(o, c)|] & E & I); [discriminate E|]. exact (N I). Qed.

(** The cluster [c] was written again by its object [o]; the others are the same. *)
Definition rewritten (L L' : list (option (Z * ccell))) (c : Z) (a : carchive) (o : cobj (cluster D)) : Prop :=
  exists off cell off' cell', at_number L c (off, cell) /\ at_number L' c (off', cell') /\ cc_ct cell' = cc_ct cell /\ (forall j, j <> c -> znth L' j = znth L j) /\
    (enough fuel (ca_file a) cell' -> forall i, 0 <= i -> fst (wget_offset (inner_cluster dc new_decomp (ca_file a) fuel) i (co_wrap o)) =
       match znth (positions (cc_ext cell') (cc_blobs cell')) i with Some x => Ok x | None => Err IndexError end).
Lemma set_content_ok : forall A cells L url e c b bl data x A', laid A cells L -> ample fuel (fa_arch A) (blobs_of L) -> (0 < fuel)%nat -> zlen data < Z.of_nat fuel ->
  get_entry_by_full_url (fa_zim A) url = Ok e -> e_kind e = Content c b -> znth (blobs_of L) c = Some (Some bl) -> 0 <= b < zlen bl ->
  set_listing fuel dc new_decomp new_comp comp flush kd url data A = (Ok x, A') ->
  exists L' a o, x = (c, b, o) /\ A' = fa_set_arch a A /\ archive_ok Stream a cells L' /\ ~ In None L' /\
    blobs_of L' = replace_at c (Some (replace_at b data bl)) (blobs_of L) /\ framed (fa_arch A) cells L a cells L' /\
    (exists f al, ca_zim a = set_file f (set_alloc al (fa_zim A))) /\ pl_dirty (ca_ptrs a) = true /\ rewritten L L' c a o.
Proof.
  intros A cells L url e c b bl data x A' LO AM HF ZD GE EK EX EB H. unfold set_listing in H. rewrite GE, EK in H.
  destruct (blobs_numbered _ _ _ EX) as (off & cc & HN & EBL). pose proof (ample_enough fuel _ _ _ _ _ _ AM eq_refl HN) as EN. pose proof (lo_arch _ _ _ _ _ LO) as AO. pose proof (znth_some _ _ _ HN) as RG.
  set (h := [ESet b (mem_source data) data]) in *.
  destruct (opened_movable fuel dc new_decomp new_comp comp flush kd Stream CD (fa_arch A) cells L c off cc AO HN EN) as (o0 & Inv & E0 & HO & R0 & MV & OLD & RM0 & EX0 & CO0).
  destruct (edits_rep _ fuel Inv _ _ _ HO h (co_wrap o0) _ [] HF R0) as (w & EE & R & EXW & COW).
  { rewrite RM0. apply incl_refl. }
  { cbn. rewrite EBL. split; [|exact Logic.I]. split; [apply mem_delivers; exact ZD|lia]. }
  { cbn. split; [intros []|exact Logic.I]. }
  cbn [h fold_left forced_comp1] in COW. rewrite CO0 in COW.
  assert (OFF : forall x, Inv x -> cl_offset x = off) by (intros y Hy; exact (proj1 (MV y Hy))).
  assert (E : edited fuel dc new_decomp kd (fa_arch A) c h = Ok (mkCobj w (cc_len cc))).
  { unfold edited. rewrite E0. cbn [bind]. rewrite EE. unfold co_set. rewrite OLD. reflexivity. }
  rewrite E in H.
  destruct (write_cluster fuel new_comp comp flush (stored_ops dc new_decomp fuel) None (fa_arch A) _) as [r [a2 c2]] eqn:W.
  destruct r as [m|]; cbn [bind] in H; [|discriminate H]. injection H as <- <-. unfold write_cluster in W.
  destruct (write_begin _ _ _ _ _ _ _ _) as [[[[m' off'] chunks]|xx] [a1 c1]] eqn:WB; [|discriminate W].
  assert (PL : placed (fa_arch A) L c (Some off) (cc_len cc) None).
  { right. exists off, cc. split; [exact HN|]. split; [reflexivity|]. split; [reflexivity|]. right. split; [reflexivity|]. eapply all_present; [exact AO|exact HN|]. apply present_blobs. exact (lo_present _ _ _ _ _ LO). }
  destruct (written_at fuel dc new_decomp new_comp comp flush Stream CD (stored_ops dc new_decomp fuel) (fa_arch A) (mkCobj w (cc_len cc)) None Inv (cc_ct cc) (cc_ext cc) (cc_blobs cc) _ (Some off)
      HO (rep_sane _ _ _ _ _ _ R) R (fun x Hx => f_equal Some (OFF x Hx)) cells L c AO PL m' off' chunks a1 c1 m a2 c2 WB W) as (-> & AO' & US & NU & KE & LE & PD & PO & f & al & EZ).
  set (v := Some (off', _)) in AO'.
  assert (AT : forall i d, at_number (replace_at c v L) i d -> (i = c /\ v = Some d) \/ (i <> c /\ at_number L i d)).
  { intros i d Hd. unfold at_number in Hd. rewrite replace_nth in Hd by lia. destruct (Z.eqb_spec i c); [left|right; auto]. split; [assumption|congruence]. }
  assert (SP : forall x, spare (fa_arch A) cells L x -> spare a2 cells (replace_at c v L) x).
  { intros x (S1 & S2 & S3). split; [|split; [exact S2|]].
    - apply US; [exact S1|]. intros d Hd. exact (S3 c d Hd).
    - intros i d Hd Hx. destruct (AT i d Hd) as [(-> & Ev)|(_ & Hd')]; [|exact (S3 i d Hd' Hx)]. unfold v in Ev. injection Ev as <-. apply (NU x); [|exact S1]. exact Hx. }
  exists (replace_at c v L), a2, c2. split; [reflexivity|]. split; [reflexivity|]. split; [exact AO'|]. split; [|split; [|split; [|split; [|split]]]].
  - intro I. apply In_nth_error in I. destruct I as (k & Hk). assert (Hk' : znth (replace_at c v L) (Z.of_nat k) = Some None) by (unfold znth; replace (Z.of_nat k <? 0) with false by lia; rewrite Nat2Z.id; exact Hk).
    rewrite replace_nth in Hk' by lia. destruct (Z.of_nat k =? c); [discriminate Hk'|]. apply (lo_present _ _ _ _ _ LO). eapply znth_In. exact Hk'.
  - rewrite blobs_replace by lia. cbn [v option_map snd cc_blobs]. cbn [h edit_lists fold_left edit_list]. rewrite EBL. reflexivity.
  - constructor; [exact SP| |exact LE| |].
    + eapply keeps_weaken; [exact KE|]. intros x (S1 & _). exact S1.
    + rewrite EZ. constructor; cbn [set_file set_alloc z_upl z_atpl z_etpl]; [apply tracks_refl..|apply otracks_refl].
    + split; [exact PO|]. split; [rewrite (ao_mutable _ _ _ _ AO), (ao_mutable _ _ _ _ AO'); reflexivity|]. congruence.
  - exists f, al. exact EZ.
  - exact PD.
  - assert (HN' : at_number (replace_at c v L) c (off', match v with Some p => snd p | None => cc end)) by (unfold at_number; rewrite replace_nth, Z.eqb_refl by lia; reflexivity).
    cbn [v snd] in HN'. exists off, cc. eexists off', _. split; [exact HN|]. split; [exact HN'|]. split; [cbn [cc_ct co_wrap]; unfold compression_of; rewrite COW; reflexivity|]. split.
    + intros j NE. rewrite replace_nth by lia. replace (j =? c) with false by lia. reflexivity.
    + intros EN' i Hi. refine (written_offsets fuel dc new_decomp new_comp comp flush kd Stream CD (fa_arch A) cells L c off cc (mkCobj w (cc_len cc)) Inv _ None _ _ off' chunks a1 c1 a2 c2 AO HN HO R MV WB W _ EN' i Hi).
      exact (ao_stored _ _ _ _ AO' _ _ HN').
Qed.
Lemma set_listing_ok : forall A cells L url l c b data x A', laid A cells L -> ample fuel (fa_arch A) (blobs_of L) -> (0 < fuel)%nat -> zlen data < Z.of_nat fuel ->
  kept_at (fa_zim A) (blobs_of L) url l c b -> set_listing fuel dc new_decomp new_comp comp flush kd url data A = (Ok x, A') ->
  exists L' bl a o, x = (c, b, o) /\ A' = fa_set_arch a A /\ znth (blobs_of L) c = Some (Some bl) /\ 0 <= b < zlen bl /\ archive_ok Stream a cells L' /\ ~ In None L' /\
    blobs_of L' = replace_at c (Some (replace_at b data bl)) (blobs_of L) /\ framed (fa_arch A) cells L a cells L' /\
    (exists f al, ca_zim a = set_file f (set_alloc al (fa_zim A))) /\ rewritten L L' c a o.
Proof.
  intros A cells L url l c b data x A' LO AM HF ZD (e & bl & GE & EK & EX & EB & _) H.
  destruct (set_content_ok A cells L url e c b bl data x A' LO AM HF ZD GE EK EX EB H) as (L' & a & o & E1 & E2 & H1 & H2 & H3 & H4 & H5 & _ & H6). exists L', bl, a, o. auto 12.
Qed.

(** The list in memory counts as saved. *)
Lemma core_lists : forall s cells u a e, core s cells -> pl_ptrs u = pl_ptrs (z_upl s) -> pl_mutable u = true -> pl_ptrs a = pl_ptrs (z_atpl s) -> pl_mutable a = true ->
  option_map pl_ptrs e = option_map pl_ptrs (z_etpl s) -> (forall t, e = Some t -> pl_mutable t = true) -> core (mkZim (z_file s) u e a (z_main s) (z_alloc s)) cells.
Proof.
  intros s cells u a e [] EU MU EA MA EE ME. constructor; cbn [z_file z_upl z_etpl z_atpl z_main z_alloc]; rewrite ?EU, ?EA; try assumption.
  intros t Ht. subst e. destruct (z_etpl s) as [t'|]; [|discriminate EE]. cbn in EE. injection EE as EE. rewrite EE. apply co_etpl. reflexivity.
Qed.
Lemma consistent_lists : forall s E u a e, consistent s E -> pl_ptrs u = pl_ptrs (z_upl s) -> pl_mutable u = true -> pl_ptrs a = pl_ptrs (z_atpl s) -> pl_mutable a = true ->
  option_map pl_ptrs e = option_map pl_ptrs (z_etpl s) -> (forall t, e = Some t -> pl_mutable t = true) -> consistent (mkZim (z_file s) u e a (z_main s) (z_alloc s)) E.
Proof.
  intros s E u a e [] EU MU EA MA EE ME. destruct cs_core as (cells & Ec & Co). constructor; try assumption.
  - exists cells. split; [exact Ec|]. apply core_lists; assumption.
  - unfold etitles_complete in *. cbn [z_etpl]. intros t Ht. subst e. destruct (z_etpl s) as [t'|]; [|discriminate EE]. cbn in EE. injection EE as EE. rewrite EE. apply cs_complete. reflexivity.
Qed.
Lemma archive_lists : forall a cells L u t e p, archive_ok Stream a cells L -> pl_ptrs u = pl_ptrs (z_upl (ca_zim a)) -> pl_mutable u = true -> pl_ptrs t = pl_ptrs (z_atpl (ca_zim a)) -> pl_mutable t = true ->
  option_map pl_ptrs e = option_map pl_ptrs (z_etpl (ca_zim a)) -> (forall t, e = Some t -> pl_mutable t = true) -> pl_ptrs p = pl_ptrs (ca_ptrs a) -> pl_mutable p = true ->
  archive_ok Stream (mkCa (mkZim (ca_file a) u e t (z_main (ca_zim a)) (ca_alloc a)) p (ca_next a)) cells L.
Proof.
  intros a cells L u t e p [] EU MU EA MA EE ME EP MP. constructor; cbn [ca_zim ca_ptrs ca_next ca_file ca_alloc]; rewrite ?EP; try assumption.
  - apply core_lists; assumption.
  - apply consistent_lists; assumption.
Qed.

(** ** What does not change *)
Definition kept_fields : list hfield := [FMagic; FMajor; FMinor; FUuid; FMainPage; FLayoutPage].
Definition tdirty (s : zim) : bool := match z_etpl s with Some l => pl_dirty l | None => false end.
Lemma titled_same : forall A L A', z_etpl (fa_zim A') = z_etpl (fa_zim A) -> (pl_dirty (z_atpl (fa_zim A)) = false -> pl_dirty (z_atpl (fa_zim A')) = false) ->
  (forall u, get_entry_by_full_url (fa_zim A') u = get_entry_by_full_url (fa_zim A) u) -> (h_title_pos (fa_hdr A') = h_title_pos (fa_hdr A) \/ tdirty (fa_zim A) = true) ->
  titled A L -> titled A' L.
Proof.
  intros A L A' E1 E2 LK E3 T t e c b Ht He Hk. rewrite E1 in Ht. rewrite LK in He. destruct (T t e c b Ht He Hk) as (off & cell & T1 & T2 & T3). exists off, cell. split; [exact T1|]. split; [exact T2|].
  intro Q. destruct (T3 Q) as (T4 & p & T5 & T6). split; [auto|]. exists p. split; [exact T5|]. destruct E3 as [E3|E3]; [congruence|]. unfold tdirty in E3. rewrite Ht in E3. congruence.
Qed.
Record same_view (A : farchive) (L : list (option (Z * ccell))) (A' : farchive) (L' : list (option (Z * ccell))) : Prop := mkSameView {
  sv_types : ml_types (fa_mimes A') = ml_types (fa_mimes A);
  sv_urls : pl_ptrs (z_upl (fa_zim A')) = pl_ptrs (z_upl (fa_zim A));
  sv_articles : pl_ptrs (z_atpl (fa_zim A')) = pl_ptrs (z_atpl (fa_zim A));
  sv_titles : same_lists (z_etpl (fa_zim A')) (z_etpl (fa_zim A));
  sv_main : z_main (fa_zim A') = z_main (fa_zim A);
  sv_header : forall f, In f kept_fields -> hget f (fa_hdr A') = hget f (fa_hdr A);
  sv_idle : zs_comp (fa_state A') = zs_comp (fa_state A) /\ zs_plain (fa_state A') = zs_plain (fa_state A) /\ fa_redirects A' = fa_redirects A /\ fa_main A' = fa_main A;
  sv_lookup : forall u, get_entry_by_full_url (fa_zim A') u = get_entry_by_full_url (fa_zim A) u;
  sv_content : same_content_of (fa_zim A) (blobs_of L) (blobs_of L');
  sv_clean : (pl_dirty (z_atpl (fa_zim A)) = false -> pl_dirty (z_atpl (fa_zim A')) = false) /\ (tdirty (fa_zim A) = false -> tdirty (fa_zim A') = false) /\
    (ml_dirty (fa_mimes A) = false -> ml_dirty (fa_mimes A') = false) /\ (pl_dirty (z_upl (fa_zim A)) = false -> pl_dirty (z_upl (fa_zim A')) = false);
  sv_titled : titled A L -> titled A' L' }.
Lemma same_content_refl : forall s X, same_content_of s X X.
Proof. intros s X. split; [reflexivity|]. eauto. Qed.
Lemma same_view_refl : forall A L, same_view A L A L.
Proof. intros A L. constructor; auto; try reflexivity. apply same_content_refl. Qed.
Lemma same_content_trans : forall s s' X Y Z', (forall u, get_entry_by_full_url s' u = get_entry_by_full_url s u) -> same_lists (z_etpl s') (z_etpl s) -> same_content_of s X Y -> same_content_of s' Y Z' -> same_content_of s X Z'.
Proof.
  intros s s' X Y Z' LK SE (E1 & C1) (E2 & C2). split; [congruence|]. intros c b bl HX NL. destruct (C1 c b bl HX NL) as (bl1 & H1 & H2 & H3).
  destruct (C2 c b bl1 H1) as (bl2 & H4 & H5 & H6).
  - intros (u & e & HU & HG & HE). apply NL. exists u, e. rewrite <- LK. split; [|auto]. destruct HU as [HU|(HU & HN)]; [auto|right; split; [exact HU|]].
    intro Q. apply HN. unfold same_lists in SE. rewrite Q in SE. destruct (z_etpl s'); [discriminate SE|reflexivity].
  - exists bl2. split; [exact H4|]. split; [congruence|]. rewrite H6. exact H3.
Qed.
Lemma same_view_trans : forall A L B M C N, same_view A L B M -> same_view B M C N -> same_view A L C N.
Proof.
  intros A L B M C N [] []. constructor; try congruence.
  - intros f Hf. rewrite sv_header1 by exact Hf. auto.
  - destruct sv_idle0 as (I1 & I2 & I3 & I4), sv_idle1 as (J1 & J2 & J3 & J4). split; [congruence|]. split; [congruence|]. split; congruence.
  - eapply same_content_trans; [exact sv_lookup0|exact sv_titles0|exact sv_content0|exact sv_content1].
  - destruct sv_clean0 as (I1 & I2 & I3 & I4), sv_clean1 as (J1 & J2 & J3 & J4). repeat split; auto.
  - auto.
Qed.

(** ** Title lists *)
Lemma replaced_blob : forall (X : list (option (list bytes))) c b bl (data : bytes) c' bl', znth X c = Some (Some bl) -> 0 <= b < zlen bl -> znth X c' = Some (Some bl') ->
  exists bl2, znth (replace_at c (Some (replace_at b data bl)) X) c' = Some (Some bl2) /\ zlen bl2 = zlen bl' /\
    (forall b', (c', b') <> (c, b) -> znth bl2 b' = znth bl' b') /\ (c' = c -> znth bl2 b = Some data).
Proof.
  intros X c b bl data c' bl' HX HB HX'. pose proof (znth_some _ _ _ HX) as RG. rewrite replace_nth by lia. destruct (Z.eqb_spec c' c) as [->|N].
  - assert (bl' = bl) by congruence. subst bl'. eexists. split; [reflexivity|]. split; [|split].
    + rewrite replace_len by lia. destruct (Z.eqb_spec b (zlen bl)); lia.
    + intros b' Hb. rewrite replace_nth by lia. destruct (Z.eqb_spec b' b) as [->|]; [congruence|reflexivity].
    + intros _. rewrite replace_nth, Z.eqb_refl by lia. reflexivity.
  - exists bl'. split; [exact HX'|]. split; [reflexivity|]. split; [reflexivity|]. intro E. congruence.
Qed.
Lemma kept_moves : forall s s' X c b bl data url l c' b', (forall u, get_entry_by_full_url s' u = get_entry_by_full_url s u) ->
  znth X c = Some (Some bl) -> 0 <= b < zlen bl -> kept_at s X url l c' b' -> (c', b') <> (c, b) \/ pl_dirty l = true ->
  kept_at s' (replace_at c (Some (replace_at b data bl)) X) url l c' b'.
Proof.
  intros s s' X c b bl data url l c' b' LK HX HB (e & bl' & G & EK & EX & EB & CL) W. destruct (replaced_blob X c b bl data c' bl' HX HB EX) as (bl2 & H1 & H2 & H3 & _).
  exists e, bl2. rewrite LK. split; [exact G|]. split; [exact EK|]. split; [exact H1|]. split; [lia|]. intro DI. destruct W as [W|W]; [|congruence].
  destruct (CL DI) as (d & E1 & E2). exists d. split; [exact E1|]. rewrite H3 by exact W. exact E2.
Qed.
Lemma kept_written : forall s s' X c b bl data url l l', (forall u, get_entry_by_full_url s' u = get_entry_by_full_url s u) ->
  znth X c = Some (Some bl) -> 0 <= b < zlen bl -> kept_at s X url l c b -> ptrs_to_bytes 4 (pl_ptrs l') = Ok data ->
  kept_at s' (replace_at c (Some (replace_at b data bl)) X) url l' c b.
Proof.
  intros s s' X c b bl data url l l' LK HX HB (e & bl' & G & EK & EX & EB & CL) E. destruct (replaced_blob X c b bl data c bl' HX HB EX) as (bl2 & H1 & H2 & _ & H4).
  exists e, bl2. rewrite LK. split; [exact G|]. split; [exact EK|]. split; [exact H1|]. split; [lia|]. intros _. exists data. split; [exact E|]. exact (H4 eq_refl).
Qed.
Lemma kept_lookup : forall s s' X url l c b, (forall u, get_entry_by_full_url s' u = get_entry_by_full_url s u) -> kept_at s X url l c b -> kept_at s' X url l c b.
Proof. intros s s' X url l c b LK (e & bl & G & R). exists e, bl. rewrite LK. auto. Qed.
Lemma kept_same : forall s X url l c b l' c' b', kept_at s X url l c b -> kept_at s X url l' c' b' -> (c', b') = (c, b).
Proof. intros s X url l c b l' c' b' (e & bl & G & EK & _) (e' & bl' & G' & EK' & _). congruence. Qed.

Lemma idle_flush : forall x s, idle_strategy x -> any_flush fuel new_comp comp flush depth (s, x) = (Ok tt, (s, x)).
Proof.
  intros [st|ms] s I; cbn [any_flush idle_strategy] in *.
  - unfold flush_items, has_items. rewrite I. reflexivity.
  - unfold flush_items_m. assert (E : flush_all fuel new_comp comp flush depth (ms_map ms) s = (Ok tt, (s, ms_map ms))).
    { induction (ms_map ms) as [|(m, st) l IH]; [reflexivity|]. inversion I as [|x y I1 I2]. cbn [flush_all snd] in *. unfold flush_items, has_items. rewrite I1. rewrite IH by exact I2. reflexivity. }
    rewrite E. destruct ms. reflexivity.
Qed.
Lemma idle_strategies : forall A, idle_strategy (zs_comp (fa_state A)) -> idle_strategy (zs_plain (fa_state A)) ->
  flush_strategies fuel new_comp comp flush depth A = (Ok tt, A).
Proof.
  intros A I1 I2. unfold flush_strategies, zim_flush_items. rewrite idle_flush by exact I1. rewrite idle_flush by exact I2. destruct A as [[? ? ?] ? ? ? ?]. reflexivity.
Qed.

Lemma arch_lookup : forall a a' cells L L' u, archive_ok Stream a cells L -> archive_ok Stream a' cells L' ->
  get_entry_by_full_url (ca_zim a') u = get_entry_by_full_url (ca_zim a) u.
Proof. intros a a' cells L L' u AO AO'. eapply same_lookup; [exact (ao_entries _ _ _ _ AO)|exact (ao_entries _ _ _ _ AO')]. Qed.

Lemma listing_step : forall A cells L url l c b data x A1, laid A cells L -> ample fuel (fa_arch A) (blobs_of L) -> (0 < fuel)%nat -> zlen data < Z.of_nat fuel ->
  (url = URL_ARTICLE_TITLE_INDEX /\ l = z_atpl (fa_zim A) \/ url = URL_ENTRY_TITLE_INDEX /\ z_etpl (fa_zim A) = Some l) -> pl_dirty l = true ->
  kept_at (fa_zim A) (blobs_of L) url l c b -> set_listing fuel dc new_decomp new_comp comp flush kd url data A = (Ok x, A1) ->
  exists L' bl a o f al, x = (c, b, o) /\ A1 = fa_set_arch a A /\ ca_zim a = set_file f (set_alloc al (fa_zim A)) /\ znth (blobs_of L) c = Some (Some bl) /\ 0 <= b < zlen bl /\
    blobs_of L' = replace_at c (Some (replace_at b data bl)) (blobs_of L) /\ laid A1 cells L' /\ same_view A L A1 L' /\ rewritten L L' c a o.
Proof.
  intros A cells L url l c b data x A1 LO AM HF ZD UR DI KA H.
  destruct (set_listing_ok A cells L url l c b data x A1 LO AM HF ZD KA H) as (L' & bl & a & o & -> & -> & EX & EB & AO' & NN & EBL & FR & (f & al & EZ) & RW).
  assert (LK : forall u, get_entry_by_full_url (fa_zim (fa_set_arch a A)) u = get_entry_by_full_url (fa_zim A) u).
  { intro u. eapply arch_lookup; [exact (lo_arch _ _ _ _ _ LO)|exact AO']. }
  exists L', bl, a, o, f, al. split; [reflexivity|]. split; [reflexivity|]. split; [exact EZ|]. split; [exact EX|]. split; [exact EB|]. split; [exact EBL|].
  assert (AT : z_atpl (fa_zim (fa_set_arch a A)) = z_atpl (fa_zim A)) by (unfold fa_zim at 1; change (fa_arch (fa_set_arch a A)) with a; rewrite EZ; reflexivity).
  assert (ET : z_etpl (fa_zim (fa_set_arch a A)) = z_etpl (fa_zim A)) by (unfold fa_zim at 1; change (fa_arch (fa_set_arch a A)) with a; rewrite EZ; reflexivity).
  assert (UP : z_upl (fa_zim (fa_set_arch a A)) = z_upl (fa_zim A)) by (unfold fa_zim at 1; change (fa_arch (fa_set_arch a A)) with a; rewrite EZ; reflexivity).
  assert (MA : z_main (fa_zim (fa_set_arch a A)) = z_main (fa_zim A)) by (unfold fa_zim at 1; change (fa_arch (fa_set_arch a A)) with a; rewrite EZ; reflexivity).
  split; [|split; [|exact RW]].
  - eapply laid_content; [exact LO|reflexivity|apply mtracks_refl|exact (lo_types _ _ _ _ _ LO)|exact AO'|exact NN|exact FR|].
    destruct (lo_listings _ _ _ _ _ LO) as (c0 & b0 & K0 & KE). unfold listings_ok. rewrite AT, ET, EBL. exists c0, b0. split.
    + eapply kept_moves; [exact LK|exact EX|exact EB|exact K0|]. destruct UR as [(-> & ->)|(-> & E)]; [right; exact DI|left]. destruct (KE l E) as (c1 & b1 & K1 & N1).
      rewrite <- (kept_same _ _ _ _ _ _ _ _ _ KA K1). congruence.
    + intros t Ht. destruct (KE t Ht) as (c1 & b1 & K1 & N1). exists c1, b1. split; [|exact N1]. eapply kept_moves; [exact LK|exact EX|exact EB|exact K1|].
      destruct UR as [(-> & ->)|(-> & E)]; [left|right; congruence]. rewrite (kept_same _ _ _ _ _ _ _ _ _ K0 KA). exact N1.
  - constructor; rewrite ?AT, ?ET, ?UP, ?MA; try reflexivity; [repeat split|exact LK| | |].
    + rewrite EBL. pose proof (znth_some _ _ _ EX) as RG. split.
      * rewrite replace_len by lia. destruct (Z.eqb_spec c (zlen (blobs_of L))); lia.
      * intros c' b' bl' HX' NL. destruct (replaced_blob (blobs_of L) c b bl data c' bl' EX EB HX') as (bl2 & H1 & H2 & H3 & _). exists bl2. split; [exact H1|]. split; [exact H2|].
        apply H3. intro E. injection E as -> ->. apply NL. destruct KA as (e & _ & G & EK & _). exists url, e. split; [|split; [exact G|exact EK]].
        destruct UR as [(-> & _)|(-> & EL)]; [auto|right; split; [reflexivity|congruence]].
    + unfold tdirty. rewrite ET. repeat split; auto.
    + intros T t e c' b' Ht He Hk. rewrite ET in Ht. rewrite LK in He. destruct (T t e c' b' Ht He Hk) as (off0 & cell0 & T1 & T2 & T3).
      assert (DT : pl_dirty t = true). { destruct (pl_dirty t) eqn:Q; [reflexivity|]. destruct (T3 eq_refl) as (T4 & _). destruct UR as [(_ & ->)|(_ & E)]; [congruence|]. congruence. }
      destruct RW as (off & cell & off' & cell' & R1 & R2 & R3 & R4 & _). destruct (Z.eq_dec c' c) as [->|NC].
      * exists off', cell'. split; [exact R2|]. split; [rewrite R3; unfold at_number in *; congruence|]. rewrite DT. discriminate.
      * exists off0, cell0. split; [unfold at_number; rewrite R4 by exact NC; exact T1|]. split; [exact T2|]. rewrite DT. discriminate.
Qed.

(** The title lists count as saved. *)
Lemma laid_lists : forall A cells L t e, laid A cells L -> pl_ptrs t = pl_ptrs (z_atpl (fa_zim A)) -> pl_mutable t = true ->
  same_lists e (z_etpl (fa_zim A)) -> (forall x, e = Some x -> pl_mutable x = true) ->
  let A' := fa_set_zim (set_etpl e (set_atpl t (fa_zim A))) A in
  (exists c b, kept_at (fa_zim A) (blobs_of L) URL_ARTICLE_TITLE_INDEX t c b /\
    forall x, e = Some x -> exists c' b', kept_at (fa_zim A) (blobs_of L) URL_ENTRY_TITLE_INDEX x c' b' /\ (c', b') <> (c, b)) ->
  laid A' cells L /\ forall u, get_entry_by_full_url (fa_zim A') u = get_entry_by_full_url (fa_zim A) u.
Proof.
  intros A cells L t e LO EA MA EE ME A' KA. pose proof (lo_arch _ _ _ _ _ LO) as AO. pose proof (ao_core _ _ _ _ AO) as CO.
  assert (AO' : archive_ok Stream (fa_arch A') cells L).
  { exact (archive_lists (fa_arch A) cells L (z_upl (fa_zim A)) t e (ca_ptrs (fa_arch A)) AO eq_refl (co_mut_u _ _ CO) EA MA EE ME eq_refl (ao_mutable _ _ _ _ AO)). }
  assert (LK : forall u, get_entry_by_full_url (fa_zim A') u = get_entry_by_full_url (fa_zim A) u) by (intro u; eapply arch_lookup; [exact AO|exact AO']).
  split; [|exact LK]. pose proof LO as []. constructor; try assumption.
  - change (z_etpl (fa_zim A')) with e. change (fa_hdr A') with (fa_hdr A). rewrite <- lo_titles. unfold same_lists in EE. destruct e, (z_etpl (fa_zim A)); try discriminate EE; split; congruence.
Qed.

Lemma pl_flush_inv : forall w l data l', pl_flush w l = Ok (data, l') -> (0 < w)%nat ->
  ptrs_to_bytes w (pl_ptrs l) = Ok data /\ zlen data = ptrs_disk_size w (pl_ptrs l) /\ l' = mkPlist (pl_ptrs l) false (pl_mutable l) (ptrs_disk_size w (pl_ptrs l)).
Proof.
  intros w l data l' H W. unfold pl_flush in H. destruct (ptrs_to_bytes w (pl_ptrs l)) as [d|] eqn:E; cbn [bind] in H; [|discriminate H]. injection H as <- <-.
  destruct (ptrs_roundtrip w _ _ W E) as (_ & Z1). auto.
Qed.

Lemma flush_articles_ok : forall A cells L A', laid A cells L -> ample fuel (fa_arch A) (blobs_of L) -> (0 < fuel)%nat -> 4 * zlen (pl_ptrs (z_atpl (fa_zim A))) < Z.of_nat fuel ->
  flush_articles fuel dc new_decomp new_comp comp flush kd A = (Ok tt, A') ->
  exists L', laid A' cells L' /\ same_view A L A' L' /\ pl_dirty (z_atpl (fa_zim A')) = false.
Proof.
  intros A cells L A' LO AM HF ZF H. unfold flush_articles in H. destruct (pl_dirty (z_atpl (fa_zim A))) eqn:DI; cbn [negb] in H.
  2: { injection H as <-. exists L. split; [exact LO|]. split; [apply same_view_refl|exact DI]. }
  destruct (pl_flush 4 (z_atpl (fa_zim A))) as [[data l']|x] eqn:PF; [|discriminate H]. destruct (pl_flush_inv _ _ _ _ PF ltac:(lia)) as (PB & ZD & ->). unfold ptrs_disk_size in ZD.
  unfold mbind in H. destruct (set_listing fuel dc new_decomp new_comp comp flush kd URL_ARTICLE_TITLE_INDEX data A) as [[x|x] A1] eqn:SL; [|discriminate H]. injection H as <-.
  destruct (lo_listings _ _ _ _ _ LO) as (c & b & K0 & KE).
  destruct (listing_step A cells L _ _ c b data x A1 LO AM HF ltac:(lia) (or_introl (conj eq_refl eq_refl)) DI K0 SL) as (L' & bl & a & o & f & al & -> & -> & EZ & EX & EB & EBL & LO1 & SV & _).
  set (A1 := fa_set_arch a A) in *. set (l' := mkPlist _ false _ _).
  assert (AT : z_atpl (fa_zim A1) = z_atpl (fa_zim A)) by (unfold fa_zim at 1; change (fa_arch A1) with a; rewrite EZ; reflexivity).
  assert (ET : z_etpl (fa_zim A1) = z_etpl (fa_zim A)) by (unfold fa_zim at 1; change (fa_arch A1) with a; rewrite EZ; reflexivity).
  pose proof (ao_core _ _ _ _ (lo_arch _ _ _ _ _ LO)) as CO.
  destruct (laid_lists A1 cells L' l' (z_etpl (fa_zim A1)) LO1) as (LO2 & LK2).
  { rewrite AT. reflexivity. }
  { cbn [l' pl_mutable]. exact (co_mut_a _ _ CO). }
  { reflexivity. }
  { rewrite ET. exact (co_mut_e _ _ CO). }
  { exists c, b. rewrite EBL, ET. split.
    - eapply kept_written; [exact (sv_lookup _ _ _ _ SV)|exact EX|exact EB|exact K0|exact PB].
    - intros t Ht. destruct (KE t Ht) as (c' & b' & K1 & N1). exists c', b'. split; [|exact N1]. eapply kept_moves; [exact (sv_lookup _ _ _ _ SV)|exact EX|exact EB|exact K1|left; exact N1]. }
  replace (set_etpl (z_etpl (fa_zim A1)) (set_atpl l' (fa_zim A1))) with (set_atpl l' (fa_zim A1)) in LO2, LK2 by (destruct (fa_zim A1); reflexivity).
  exists L'. split; [exact LO2|]. split; [|reflexivity]. eapply same_view_trans; [exact SV|]. constructor; try reflexivity; [cbn; congruence|repeat split|apply same_content_refl|repeat split; auto|].
  apply titled_same; [reflexivity|reflexivity|exact LK2|left; reflexivity].
Qed.

Lemma view_assign : forall A L f v r A', fa_assign f v A = (Ok r, A') -> ~ In f kept_fields -> f <> FTitlePos \/ tdirty (fa_zim A) = true -> same_view A L A' L.
Proof.
  intros A L f v r A' H NI NT. destruct (assign_inv _ _ _ _ _ H) as (h & HA & ->). destruct (hassign_more _ _ _ _ HA) as (_ & _ & HG).
  constructor; try reflexivity; [|repeat split|apply same_content_refl|repeat split; auto|].
  - intros g Hg. apply HG. intros ->. exact (NI Hg).
  - apply titled_same; [reflexivity|auto|reflexivity|]. destruct NT as [NT|NT]; [left|right; exact NT]. assert (Q : hget FTitlePos (ho_hdr h) = hget FTitlePos (fa_hdr A)) by (apply HG; congruence). cbn [hget] in Q. injection Q as Q. exact Q.
Qed.
Lemma flush_titles_ok : forall A cells L A', laid A cells L -> ample fuel (fa_arch A) (blobs_of L) -> (0 < fuel)%nat ->
  (forall t, z_etpl (fa_zim A) = Some t -> 4 * zlen (pl_ptrs t) < Z.of_nat fuel) ->
  (forall A2 L2, flush_titles fuel dc new_decomp new_comp comp flush depth kd A = (Ok tt, A2) -> laid A2 cells L2 -> ample fuel (fa_arch A2) (blobs_of L2)) ->
  pl_dirty (z_atpl (fa_zim A)) = false -> idle_strategy (zs_comp (fa_state A)) -> idle_strategy (zs_plain (fa_state A)) ->
  flush_titles fuel dc new_decomp new_comp comp flush depth kd A = (Ok tt, A') ->
  exists L', laid A' cells L' /\ same_view A L A' L' /\ tdirty (fa_zim A') = false.
Proof.
  intros A cells L A' LO AM HF ZF AM2 DA I1 I2 H. pose proof H as H0. unfold flush_titles in H. destruct (z_etpl (fa_zim A)) as [l|] eqn:EE.
  2: { injection H as <-. exists L. split; [exact LO|]. split; [apply same_view_refl|]. unfold tdirty. rewrite EE. reflexivity. }
  destruct (pl_dirty l) eqn:DI; cbn [negb] in H.
  2: { injection H as <-. exists L. split; [exact LO|]. split; [apply same_view_refl|]. unfold tdirty. rewrite EE. exact DI. }
  unfold mbind in H. rewrite idle_strategies in H by assumption. rewrite EE in H.
  destruct (pl_flush 4 l) as [[data l']|x] eqn:PF; [|discriminate H]. destruct (pl_flush_inv _ _ _ _ PF ltac:(lia)) as (PB & ZD & ->). unfold ptrs_disk_size in ZD. specialize (ZF l eq_refl).
  destruct (set_listing fuel dc new_decomp new_comp comp flush kd URL_ENTRY_TITLE_INDEX data A) as [[x|x] A1] eqn:SL; [|discriminate H].
  destruct (lo_listings _ _ _ _ _ LO) as (c0 & b0 & K0 & KE). destruct (KE l EE) as (c & b & K1 & N1).
  destruct (listing_step A cells L _ l c b data x A1 LO AM HF ltac:(lia) (or_intror (conj eq_refl EE)) DI K1 SL) as (L' & bl & a & o & f & al & -> & -> & EZ & EX & EB & EBL & LO1 & SV & RW).
  set (A1 := fa_set_arch a A) in *. set (l' := mkPlist _ false _ _) in *. cbv beta zeta in H.
  destruct (bind (get_by_index _ c) _) as [p|] eqn:EP; [|discriminate H].
  destruct (fa_assign FTitlePos (PInt p) A1) as [[r|] A2] eqn:AS; [|discriminate H]. injection H as <-.
  assert (ET : z_etpl (fa_zim A1) = z_etpl (fa_zim A)) by (unfold fa_zim at 1; change (fa_arch A1) with a; rewrite EZ; reflexivity).
  pose proof (laid_assign Stream reserve A1 cells L' FTitlePos (PInt p) r A2 LO1 eq_refl AS) as LO2. assert (SV2 : same_view A1 L' A2 L') by (eapply view_assign; [exact AS|cbn; intuition discriminate|right; unfold tdirty; rewrite ET, EE; exact DI]).
  destruct (assign_inv _ _ _ _ _ AS) as (h & HA & ->). change (fa_zim (fa_set_header h A1)) with (fa_zim A1).
  assert (AT : z_atpl (fa_zim A1) = z_atpl (fa_zim A)) by (unfold fa_zim at 1; change (fa_arch A1) with a; rewrite EZ; reflexivity).
  pose proof (ao_core _ _ _ _ (lo_arch _ _ _ _ _ LO)) as CO.
  destruct (laid_lists (fa_set_header h A1) cells L' (z_atpl (fa_zim A1)) (Some l') LO2) as (LO3 & LK3).
  { reflexivity. }
  { rewrite AT. exact (co_mut_a _ _ CO). }
  { change (fa_zim (fa_set_header h A1)) with (fa_zim A1). rewrite ET, EE. reflexivity. }
  { intros t Ht. injection Ht as <-. cbn [l' pl_mutable]. exact (co_mut_e _ _ CO l EE). }
  { change (fa_zim (fa_set_header h A1)) with (fa_zim A1). exists c0, b0. rewrite EBL, AT. split.
    - eapply kept_moves; [exact (sv_lookup _ _ _ _ SV)|exact EX|exact EB|exact K0|left; congruence].
    - intros t Ht. injection Ht as <-. exists c, b. split; [|exact N1]. eapply kept_written; [exact (sv_lookup _ _ _ _ SV)|exact EX|exact EB|exact K1|exact PB]. }
  change (fa_zim (fa_set_header h A1)) with (fa_zim A1) in LO3, LK3.
  replace (set_etpl (Some l') (set_atpl (z_atpl (fa_zim A1)) (fa_zim A1))) with (set_etpl (Some l') (fa_zim A1)) in LO3, LK3 by (destruct (fa_zim A1); reflexivity).
  exists L'. split; [exact LO3|]. split; [|reflexivity]. eapply same_view_trans; [exact SV|]. eapply same_view_trans; [exact SV2|].
  constructor; try reflexivity; [|repeat split|apply same_content_refl|repeat split; auto|].
  { change (fa_zim (fa_set_header h A1)) with (fa_zim A1). rewrite ET, EE. reflexivity. }
  intros T t e c' b' Ht He Hk. injection Ht as <-. rewrite LK3 in He.
  destruct (T l e c' b') as (off & cell & T1 & T2 & _); [change (fa_zim (fa_set_header h A1)) with (fa_zim A1); congruence|exact He|exact Hk|].
  exists off, cell. split; [exact T1|]. split; [exact T2|]. intros _. split; [change (pl_dirty (z_atpl (fa_zim A1)) = false); rewrite AT; exact DA|].
  assert (EC : (c', b') = (c, b)). { destruct K1 as (e1 & bl1 & G1 & EK1 & _). rewrite (sv_lookup _ _ _ _ SV) in He. congruence. } injection EC as -> ->.
  destruct RW as (off0 & cell0 & off' & cell' & _ & R2 & _ & _ & R5). assert (Q : (off', cell') = (off, cell)) by (unfold at_number in *; congruence). injection Q as -> ->.
  assert (EN : enough fuel (ca_file a) cell) by exact (ample_enough fuel a (blobs_of L') c off cell L' (AM2 _ _ H0 LO3) eq_refl T1).
  assert (HB : 0 <= b) by (destruct K1 as (? & ? & ? & ? & ? & B1 & ?); lia). change (fa_file A1) with (ca_file a) in EP. rewrite (R5 EN b HB) in EP. change (fa_arch A1) with a in EP.
  pose proof (ao_ptrs _ _ _ _ (lo_arch _ _ _ _ _ LO1) _ _ T1) as PT. change (fa_arch A1) with a in PT. rewrite get_by_index_znth in EP by (apply znth_some in PT; lia). rewrite PT in EP. cbn [bind fst] in EP.
  destruct (znth (positions (cc_ext cell) (cc_blobs cell)) b) as [q|]; [|discriminate EP]. cbn [bind] in EP. injection EP as EP. exists q. split; [reflexivity|].
  pose proof (hassign_int_value FTitlePos _ _ _ ltac:(discriminate) HA) as E. cbn [hget] in E. injection E as E. change (h_title_pos (ho_hdr h) = off + 1 + q). lia.
Qed.

(** ** The parts in their space *)
Definition taken (cells : list (Z * entry)) (L : list (option (Z * ccell))) (x : Z) : Prop :=
  (exists c, In c cells /\ occupies c x) \/ (exists i d, at_number L i d /\ covers d x).
Lemma taken_spare : forall a cells L x, taken cells L x -> ~ spare a cells L x.
Proof. intros a cells L x [(c & Hc & Hx)|(i & d & Hd & Hx)] (_ & S2 & S3); [exact (S2 c Hc Hx)|exact (S3 i d Hd Hx)]. Qed.
Lemma taken_used : forall a cells L x, archive_ok Stream a cells L -> taken cells L x -> in_use (ca_alloc a) x.
Proof.
  intros a cells L x AO [(c & Hc & Hx)|(i & d & Hd & Hx)]; [|exact (ao_used _ _ _ _ AO i d x Hd Hx)].
  pose proof (co_used _ _ (ao_core _ _ _ _ AO)) as Us. rewrite Forall_forall in Us. exact (Us c Hc x Hx).
Qed.
Lemma core_refile : forall s cells g, core s cells -> keeps (z_file s) g (fun x => exists c, In c cells /\ occupies c x) -> core (set_file g s) cells.
Proof.
  intros s cells g [] K0. constructor; cbn [z_file z_upl z_etpl z_atpl z_main z_alloc set_file]; try assumption.
  rewrite Forall_forall in *. intros c Hc. eapply stored_keeps; [apply co_stored; exact Hc|]. eapply keeps_weaken; [exact K0|]. intros x Hx. exists c. split; [exact Hc|]. destruct c; exact Hx.
Qed.
Lemma arch_refile : forall a cells L g, archive_ok Stream a cells L -> keeps (ca_file a) g (taken cells L) -> archive_ok Stream (ca_set_file g a) cells L.
Proof.
  intros a cells L g [] K0. assert (KC : keeps (z_file (ca_zim a)) g (fun x => exists c, In c cells /\ occupies c x)) by (eapply keeps_weaken; [exact K0|]; intros x Hx; left; exact Hx).
  constructor; cbn [ca_set_file ca_zim ca_ptrs ca_next]; try assumption.
  - apply core_refile; assumption.
  - destruct ao_entries as [(cells' & E & C') C1 C2 C3 C4]. constructor; try assumption. exists cells. split; [reflexivity|]. apply core_refile; assumption.
  - intros i d Hd. change (ca_file (ca_set_file g a)) with g. eapply cluster_keeps; [exact (ao_stored i d Hd)|]. eapply keeps_weaken; [exact K0|]. intros x Hx. right. exists i, d. split; [exact Hd|]. destruct d; exact Hx.
Qed.

Lemma listings_same : forall A A' L, (forall u, get_entry_by_full_url (fa_zim A') u = get_entry_by_full_url (fa_zim A) u) -> z_atpl (fa_zim A') = z_atpl (fa_zim A) ->
  z_etpl (fa_zim A') = z_etpl (fa_zim A) -> listings_ok A L -> listings_ok A' L.
Proof.
  intros A A' L LK EA EE (c & b & K0 & KE). exists c, b. rewrite EA, EE. split; [exact (kept_lookup _ _ _ _ _ _ _ LK K0)|]. intros t Ht. destruct (KE t Ht) as (c' & b' & K1 & N1).
  exists c', b'. split; [exact (kept_lookup _ _ _ _ _ _ _ LK K1)|exact N1].
Qed.

(** New bytes in the file, in the header's space or where nothing is in use. *)
Lemma laid_bytes : forall A cells L g, laid A cells L -> keeps (fa_file A) g (fun x => in_use (fa_alloc A) x) -> laid (fa_set_file g A) cells L.
Proof.
  intros A cells L g LO K0. destruct (laid_parts _ _ _ _ _ LO) as (S1 & S2 & S3 & S4 & _). pose proof LO as [].
  assert (AO : archive_ok Stream (fa_arch (fa_set_file g A)) cells L).
  { apply (arch_refile (fa_arch A) cells L g lo_arch). eapply keeps_weaken; [exact K0|]. intros x Hx. exact (taken_used _ _ _ _ lo_arch Hx). }
  constructor; try assumption.
  - intro DI. eapply header_saved_keeps; [exact lo_uuid|exact (lo_header DI)|reflexivity|exact K0|]. intros x Hx. exact (proj1 (S1 x Hx)).
  - intro DI. eapply mimes_saved_keeps; [exact (proj1 lo_types)|exact (lo_mimes DI)|reflexivity|reflexivity|exact K0|]. intros x Hx. exact (proj1 (S2 x Hx)).
  - intro DI. eapply list_saved_keeps; [exact (lo_clusters DI)|exact K0|]. intros x Hx. exact (proj1 (S3 x Hx)).
  - intro DI. eapply list_saved_keeps; [exact (lo_urls DI)|exact K0|]. intros x Hx. exact (proj1 (S4 x Hx)).
  - apply (listings_same A); [|reflexivity..|exact lo_listings]. intro u. eapply arch_lookup; [exact lo_arch|exact AO].
Qed.
Lemma view_bytes : forall A cells L g, laid A cells L -> laid (fa_set_file g A) cells L -> same_view A L (fa_set_file g A) L.
Proof.
  intros A cells L g LO LO'. assert (LK : forall u, get_entry_by_full_url (fa_zim (fa_set_file g A)) u = get_entry_by_full_url (fa_zim A) u) by (intro u; eapply arch_lookup; [exact (lo_arch _ _ _ _ _ LO)|exact (lo_arch _ _ _ _ _ LO')]).
  constructor; try reflexivity; [repeat split|exact LK|apply same_content_refl|repeat split; auto|]. apply titled_same; [reflexivity|auto|exact LK|left; reflexivity].
Qed.
Lemma fwrite_outside : forall f pos data n (P : Z -> Prop), 0 <= pos -> zlen data <= n -> (forall x, P x -> ~ within (pos, n) x) -> keeps f (fwrite f pos data) P.
Proof.
  intros f pos data n P H0 H1 H2. eapply keeps_weaken; [apply keeps_fwrite; exact H0|]. intros x Hx W. apply (H2 x Hx). unfold within. cbn [fst snd]. lia.
Qed.
Lemma flush_header_ok : forall A cells L A', laid A cells L -> flush_header A = (Ok tt, A') ->
  laid A' cells L /\ same_view A L A' L /\ ho_dirty (fa_header A') = false /\ h_checksum_pos (fa_hdr A') = file_end (fa_alloc A') /\ ca_ptrs (fa_arch A') = ca_ptrs (fa_arch A).
Proof.
  intros A cells L A' LO H. unfold flush_header, mbind in H. destruct (fa_assign FChecksumPos _ A) as [[r|] A1] eqn:AS; [|discriminate H].
  pose proof (laid_assign Stream reserve A cells L FChecksumPos _ r A1 LO eq_refl AS) as LO1. assert (SV1 : same_view A L A1 L) by (eapply view_assign; [exact AS|cbn; intuition discriminate|left; discriminate]).
  destruct (assign_inv _ _ _ _ _ AS) as (h & HA & ->). assert (CP : h_checksum_pos (ho_hdr h) = file_end (fa_alloc A)).
  { pose proof (hassign_int_value FChecksumPos _ _ _ ltac:(discriminate) HA) as E. cbn [hget] in E. congruence. }
  change (fa_header (fa_set_header h A)) with h in H. destruct (ho_dirty h) eqn:DI; cbn [negb] in H.
  2: { injection H as <-. split; [exact LO1|]. split; [exact SV1|]. split; [exact DI|]. split; [exact CP|reflexivity]. }
  destruct (hflush h) as [[data h']|x] eqn:HF; [|discriminate H]. injection H as <-. unfold hflush in HF. destruct (header_to_bytes (ho_hdr h)) as [d|] eqn:HB; cbn [bind] in HF; [|discriminate HF]. injection HF as <- <-.
  set (A1 := fa_set_header h A) in *. pose proof (lo_uuid _ _ _ _ _ LO1) as UU. change (fa_hdr A1) with (ho_hdr h) in UU. destruct (header_bytes_len _ _ UU HB) as (Z80 & _).
  destruct (laid_parts _ _ _ _ _ LO1) as (S1 & S2 & S3 & S4 & D1 & D2 & D3 & _).
  set (g := fwrite (fa_file A1) 0 d).
  assert (KE : forall P : Z -> Prop, (forall x, P x -> ~ within header_part x) -> keeps (fa_file A1) g P) by (intros P HP; apply (fwrite_outside _ 0 d 80); [lia|lia|exact HP]).
  set (h' := mkHobj (ho_hdr h) false (ho_mutable h) HEADER_LENGTH). set (A2 := fa_set_header h' (fa_set_file g A1)).
  assert (AO : archive_ok Stream (fa_arch A2) cells L).
  { apply (arch_refile (fa_arch A1) cells L g (lo_arch _ _ _ _ _ LO1)). apply KE. intros x Hx W. exact (taken_spare _ _ _ _ Hx (S1 x W)). }
  assert (LO2 : laid A2 cells L).
  { pose proof LO1 as []. constructor; try assumption.
    - intros _. exists d. split; [exact HB|]. change (fa_file A2) with g. apply on_disk_written. lia.
    - intro DM. eapply mimes_saved_keeps; [exact (proj1 lo_types)|exact (lo_mimes DM)|reflexivity|reflexivity|apply KE|]; [|intros x Hx; exact Hx]. intros x Hx W. exact (D1 x (conj W Hx)).
    - intro DM. eapply list_saved_keeps; [exact (lo_clusters DM)|apply KE|intros x Hx; exact Hx]. intros x Hx W. exact (D2 x (conj W Hx)).
    - intro DM. eapply list_saved_keeps; [exact (lo_urls DM)|apply KE|intros x Hx; exact Hx]. intros x Hx W. exact (D3 x (conj W Hx)).
    - apply (listings_same A1); [|reflexivity..|exact lo_listings]. intro u. eapply arch_lookup; [exact lo_arch|exact AO]. }
  split; [exact LO2|]. split; [|split; [reflexivity|split; [exact CP|reflexivity]]]. eapply same_view_trans; [exact SV1|]. 
  assert (LK : forall u, get_entry_by_full_url (fa_zim A2) u = get_entry_by_full_url (fa_zim A1) u) by (intro u; eapply arch_lookup; [exact (lo_arch _ _ _ _ _ LO1)|exact AO]).
  constructor; try reflexivity; [repeat split|exact LK|apply same_content_refl|repeat split; auto|]. apply titled_same; [reflexivity|auto|exact LK|left; reflexivity].
Qed.

(** One of the parts moves to new space. *)
Lemma relaid_parts : forall A A' cells L r q, laid A cells L -> 0 <= fst q -> 0 <= snd q ->
  (forall x, spare (fa_arch A) cells L x -> ~ within r x -> spare (fa_arch A') cells L x /\ ~ within q x) -> (forall x, within q x -> spare (fa_arch A') cells L x) ->
  (r = mime_part reserve A /\ mime_part reserve A' = q /\ cluster_part A' = cluster_part A /\ url_part A' = url_part A) \/
  (r = cluster_part A /\ mime_part reserve A' = mime_part reserve A /\ cluster_part A' = q /\ url_part A' = url_part A) \/
  (r = url_part A /\ mime_part reserve A' = mime_part reserve A /\ cluster_part A' = cluster_part A /\ url_part A' = q) ->
  (forall r x, In r (parts reserve A') -> within r x ->
    in_use (fa_alloc A') x /\ (forall c, In c cells -> ~ occupies c x) /\ (forall i d, at_number L i d -> ~ covers d x)) /\
  ForallOrdPairs (fun r r' => forall x, ~ (within r x /\ within r' x)) (parts reserve A') /\ Forall (fun r => 0 <= fst r /\ 0 <= snd r) (parts reserve A').
Proof.
  intros A A' cells L r q LO Q1 Q2 OTHER NEW CASES. destruct (laid_parts _ _ _ _ _ LO) as (S1 & S2 & S3 & S4 & D1 & D2 & D3 & D4 & D5 & D6).
  pose proof (lo_sizes _ _ _ _ _ LO) as SZ. unfold parts in *.
  inversion SZ as [|? ? Z1 SZ1]; subst. inversion SZ1 as [|? ? Z2 SZ2]; subst. inversion SZ2 as [|? ? Z3 SZ3]; subst. inversion SZ3 as [|? ? Z4 _]; subst.
  assert (OK : forall p x, spares A cells L p -> disjoint r p \/ disjoint p r -> within p x -> spare (fa_arch A') cells L x /\ ~ within q x).
  { intros p x SP DJ W. apply OTHER; [exact (SP x W)|]. intro W'. destruct DJ as [DJ|DJ]; [exact (DJ x (conj W' W))|exact (DJ x (conj W W'))]. }
  destruct CASES as [(-> & -> & -> & ->)|[(-> & -> & -> & ->)|(-> & -> & -> & ->)]].
  - split; [|split; [|repeat constructor; try apply Z1; try apply Z3; try apply Z4; assumption]].
    + intros p x [<-|[<-|[<-|[<-|[]]]]] W; [exact (proj1 (OK header_part x S1 (or_intror D1) W))|exact (NEW x W)|exact (proj1 (OK (cluster_part A) x S3 (or_introl D4) W))|exact (proj1 (OK (url_part A) x S4 (or_introl D5) W))].
    + apply four_pairs. split; [|split; [exact D2|split; [exact D3|split; [|split; [|exact D6]]]]]; intros x (W1 & W2).
      * exact (proj2 (OK header_part x S1 (or_intror D1) W1) W2).
      * exact (proj2 (OK (cluster_part A) x S3 (or_introl D4) W2) W1).
      * exact (proj2 (OK (url_part A) x S4 (or_introl D5) W2) W1).
  - split; [|split; [|repeat constructor; try apply Z1; try apply Z2; try apply Z4; assumption]].
    + intros p x [<-|[<-|[<-|[<-|[]]]]] W; [exact (proj1 (OK header_part x S1 (or_intror D2) W))|exact (proj1 (OK (mime_part reserve A) x S2 (or_intror D4) W))|exact (NEW x W)|exact (proj1 (OK (url_part A) x S4 (or_introl D6) W))].
    + apply four_pairs. split; [exact D1|split; [|split; [exact D3|split; [|split; [exact D5|]]]]]; intros x (W1 & W2).
      * exact (proj2 (OK header_part x S1 (or_intror D2) W1) W2).
      * exact (proj2 (OK (mime_part reserve A) x S2 (or_intror D4) W1) W2).
      * exact (proj2 (OK (url_part A) x S4 (or_introl D6) W2) W1).
  - split; [|split; [|repeat constructor; try apply Z1; try apply Z2; try apply Z3; assumption]].
    + intros p x [<-|[<-|[<-|[<-|[]]]]] W; [exact (proj1 (OK header_part x S1 (or_intror D3) W))|exact (proj1 (OK (mime_part reserve A) x S2 (or_intror D5) W))|exact (proj1 (OK (cluster_part A) x S3 (or_intror D6) W))|exact (NEW x W)].
    + apply four_pairs. split; [exact D1|split; [exact D2|split; [|split; [exact D4|split]]]]; intros x (W1 & W2).
      * exact (proj2 (OK header_part x S1 (or_intror D3) W1) W2).
      * exact (proj2 (OK (mime_part reserve A) x S2 (or_intror D5) W1) W2).
      * exact (proj2 (OK (cluster_part A) x S3 (or_intror D6) W1) W2).
Qed.

Lemma relocate_inv : forall op os n A pos s, relocate op os n A = Ok (pos, s) -> exists s1, mark_free (fa_alloc A) op os = Ok s1 /\ allocate s1 n = Ok (pos, s).
Proof. intros op os n A pos s H. unfold relocate in H. destruct (mark_free (fa_alloc A) op os) as [s1|]; cbn [bind] in H; [|discriminate H]. eauto. Qed.

Lemma flush_clusters_ok : forall A cells L A', laid A cells L -> flush_clusters A = (Ok tt, A') ->
  laid A' cells L /\ same_view A L A' L /\ pl_dirty (ca_ptrs (fa_arch A')) = false.
Proof.
  intros A cells L A' LO H. unfold flush_clusters, flush_ptrs in H. destruct (pl_dirty (ca_ptrs (fa_arch A))) eqn:DI; cbn [negb] in H.
  2: { injection H as <-. split; [exact LO|]. split; [apply same_view_refl|exact DI]. }
  set (l := ca_ptrs (fa_arch A)) in *. destruct (relocate _ _ _ A) as [[pos s2]|] eqn:RE; [|discriminate H]. destruct (relocate_inv _ _ _ _ _ _ RE) as (s1 & MF & AL).
  destruct (pl_flush 8 l) as [[data l']|] eqn:PF; [|discriminate H]. destruct (pl_flush_inv _ _ _ _ PF ltac:(lia)) as (PB & ZD & ->).
  destruct (laid_parts _ _ _ _ _ LO) as (S1 & S2 & S3 & S4 & D1 & D2 & D3 & D4 & D5 & D6). pose proof (lo_arch _ _ _ _ _ LO) as AO.
  destruct (moved_part Stream (fa_arch A) cells L (cluster_part A) _ s1 pos s2 data AO S3 MF AL ZD) as (Hp & AO1 & KE & LE & OTHER & NEW).
  set (g := fwrite (fa_file A) pos data) in *. set (A1 := fa_set_file g (fa_set_alloc s2 A)).
  change (fwrite (fa_file (fa_set_alloc s2 A)) pos data) with g in H. fold A1 in H.
  unfold mbind in H. destruct (fa_assign FClusterPos (PInt pos) A1) as [[r1|] A2] eqn:AS1; [|discriminate H]. destruct (fa_assign FClusterCount _ A2) as [[r2|] A3] eqn:AS2; [|discriminate H]. injection H as <-.
  destruct (assign_inv _ _ _ _ _ AS1) as (h1 & HA1 & ->). destruct (assign_inv _ _ _ _ _ AS2) as (h2 & HA2 & ->). change (fa_header (fa_set_header h1 A1)) with h1 in HA2. change (fa_header A1) with (fa_header A) in HA1.
  destruct (hassign_more _ _ _ _ HA1) as (M1 & DD1 & G1). destruct (hassign_more _ _ _ _ HA2) as (M2 & DD2 & G2).
  pose proof (hassign_int_value FClusterPos _ _ _ ltac:(discriminate) HA1) as V1. pose proof (hassign_int_value FClusterCount _ _ _ ltac:(discriminate) HA2) as V2. rewrite <- (G2 FClusterPos ltac:(discriminate)) in V1.
  assert (G : forall f, f <> FClusterPos -> f <> FClusterCount -> hget f (ho_hdr h2) = hget f (fa_hdr A)). { intros f N1 N2. rewrite G2 by exact N2. apply G1. exact N1. }
  pose proof (G FMimePos ltac:(discriminate) ltac:(discriminate)) as E1. pose proof (G FUrlPos ltac:(discriminate) ltac:(discriminate)) as E2. pose proof (G FUuid ltac:(discriminate) ltac:(discriminate)) as E3.
  pose proof (G FMajor ltac:(discriminate) ltac:(discriminate)) as E4. pose proof (G FMinor ltac:(discriminate) ltac:(discriminate)) as E5. pose proof (G FEntryCount ltac:(discriminate) ltac:(discriminate)) as E6.
  cbn [hget] in V1, V2, E1, E2, E3, E4, E5, E6. injection V1 as V1. injection V2 as V2. injection E1 as E1. injection E2 as E2. injection E3 as E3. injection E4 as E4. injection E5 as E5. injection E6 as E6.
  set (l' := mkPlist (pl_ptrs l) false (pl_mutable l) (ptrs_disk_size 8 (pl_ptrs l))). match goal with |- laid ?B cells L /\ _ => set (A' := B) end.
  assert (AO' : archive_ok Stream (fa_arch A') cells L).
  { pose proof (ao_core _ _ _ _ AO) as CO.
    exact (archive_lists (fa_arch A1) cells L (z_upl (fa_zim A)) (z_atpl (fa_zim A)) (z_etpl (fa_zim A)) l' AO1 eq_refl (co_mut_u _ _ CO) eq_refl (co_mut_a _ _ CO) eq_refl (co_mut_e _ _ CO) eq_refl (ao_mutable _ _ _ _ AO)). }
  assert (LK : forall u, get_entry_by_full_url (fa_zim A') u = get_entry_by_full_url (fa_zim A) u) by (intro u; eapply arch_lookup; [exact AO|exact AO']).
  change (fa_hdr A') with (ho_hdr h2) in *.
  assert (EM : mime_part reserve A' = mime_part reserve A) by (unfold mime_part; change (fa_hdr A') with (ho_hdr h2); rewrite E1; reflexivity).
  assert (EU : url_part A' = url_part A) by (unfold url_part; change (fa_hdr A') with (ho_hdr h2); rewrite E2; reflexivity).
  assert (EC : cluster_part A' = (pos, ptrs_disk_size 8 (pl_ptrs l))) by (unfold cluster_part; change (fa_hdr A') with (ho_hdr h2); rewrite V1; reflexivity).
  destruct (relaid_parts A A' cells L (cluster_part A) (pos, ptrs_disk_size 8 (pl_ptrs l)) LO Hp) as (R1 & R2 & R3).
  { cbn [snd]. rewrite <- ZD. apply zlen_nonneg. }
  { exact OTHER. }
  { exact NEW. }
  { right. left. auto. }
  assert (KP : forall p, spares A cells L p -> disjoint (cluster_part A) p \/ disjoint p (cluster_part A) -> forall x, within p x -> in_use (fa_alloc A) x /\ ~ within (cluster_part A) x).
  { intros p SP DJ x W. split; [exact (proj1 (SP x W))|]. intro W'. destruct DJ as [DJ|DJ]; [exact (DJ x (conj W' W))|exact (DJ x (conj W W'))]. }
  split; [|split; [|reflexivity]].
  - pose proof LO as []. constructor; try assumption.
    + change (fa_header A') with h2. congruence.
    + change (fa_hdr A') with (ho_hdr h2). congruence.
    + change (fa_header A') with h2. intro DH. assert (h2 = fa_header A) as ->. { destruct DD2 as [->|DD2]; [|congruence]. destruct DD1 as [->|DD1]; [reflexivity|congruence]. }
      eapply (header_saved_keeps A); [exact lo_uuid|exact (lo_header DH)|reflexivity|exact KE|]. exact (KP header_part S1 (or_intror D2)).
    + intro DM. eapply (mimes_saved_keeps reserve A); [exact (proj1 lo_types)|exact (lo_mimes DM)|reflexivity|exact E1|exact KE|]. exact (KP _ S2 (or_intror D4)).
    + intros _. change (fa_hdr A') with (ho_hdr h2). rewrite V1, V2. change (fa_file A') with g. change (ca_ptrs (fa_arch A')) with l'. split; [reflexivity|]. split; [reflexivity|].
      exists data. split; [exact PB|]. apply on_disk_written. exact Hp.
    + intro DM. change (fa_hdr A') with (ho_hdr h2). rewrite E2, E6. eapply list_saved_keeps; [exact (lo_urls DM)|exact KE|]. exact (KP _ S4 (or_introl D6)).
    + change (z_etpl (fa_zim A')) with (z_etpl (fa_zim A)). unfold without_titles. change (fa_hdr A') with (ho_hdr h2). rewrite E4, E5. exact lo_titles.
    + apply (listings_same A); [exact LK|reflexivity..|exact lo_listings].
  - constructor; try reflexivity; [|repeat split|exact LK|apply same_content_refl|repeat split; auto|].
    + change (fa_hdr A') with (ho_hdr h2). intros f Hf. apply G; intros ->; cbn in Hf; intuition discriminate.
    + apply titled_same; [reflexivity|auto|exact LK|left]. pose proof (G FTitlePos ltac:(discriminate) ltac:(discriminate)) as E8. cbn [hget] in E8. injection E8 as E8. exact E8.
Qed.
Lemma flush_urls_ok : forall A cells L A', laid A cells L -> flush_urls A = (Ok tt, A') ->
  laid A' cells L /\ same_view A L A' L /\ pl_dirty (z_upl (fa_zim A')) = false /\ ca_ptrs (fa_arch A') = ca_ptrs (fa_arch A).
Proof.
  intros A cells L A' LO H. unfold flush_urls, flush_ptrs in H. destruct (pl_dirty (z_upl (fa_zim A))) eqn:DI; cbn [negb] in H.
  2: { injection H as <-. split; [exact LO|]. split; [apply same_view_refl|]. split; [exact DI|reflexivity]. }
  set (l := z_upl (fa_zim A)) in *. destruct (relocate _ _ _ A) as [[pos s2]|] eqn:RE; [|discriminate H]. destruct (relocate_inv _ _ _ _ _ _ RE) as (s1 & MF & AL).
  destruct (pl_flush 8 l) as [[data l']|] eqn:PF; [|discriminate H]. destruct (pl_flush_inv _ _ _ _ PF ltac:(lia)) as (PB & ZD & ->).
  destruct (laid_parts _ _ _ _ _ LO) as (S1 & S2 & S3 & S4 & D1 & D2 & D3 & D4 & D5 & D6). pose proof (lo_arch _ _ _ _ _ LO) as AO.
  destruct (moved_part Stream (fa_arch A) cells L (url_part A) _ s1 pos s2 data AO S4 MF AL ZD) as (Hp & AO1 & KE & LE & OTHER & NEW).
  set (g := fwrite (fa_file A) pos data) in *. set (A1 := fa_set_file g (fa_set_alloc s2 A)).
  change (fwrite (fa_file (fa_set_alloc s2 A)) pos data) with g in H. fold A1 in H.
  unfold mbind in H. destruct (fa_assign FUrlPos (PInt pos) A1) as [[r1|] A2] eqn:AS1; [|discriminate H]. destruct (fa_assign FEntryCount _ A2) as [[r2|] A3] eqn:AS2; [|discriminate H]. injection H as <-.
  destruct (assign_inv _ _ _ _ _ AS1) as (h1 & HA1 & ->). destruct (assign_inv _ _ _ _ _ AS2) as (h2 & HA2 & ->). change (fa_header (fa_set_header h1 A1)) with h1 in HA2. change (fa_header A1) with (fa_header A) in HA1.
  destruct (hassign_more _ _ _ _ HA1) as (M1 & DD1 & G1). destruct (hassign_more _ _ _ _ HA2) as (M2 & DD2 & G2).
  pose proof (hassign_int_value FUrlPos _ _ _ ltac:(discriminate) HA1) as V1. pose proof (hassign_int_value FEntryCount _ _ _ ltac:(discriminate) HA2) as V2. rewrite <- (G2 FUrlPos ltac:(discriminate)) in V1.
  assert (G : forall f, f <> FUrlPos -> f <> FEntryCount -> hget f (ho_hdr h2) = hget f (fa_hdr A)). { intros f N1 N2. rewrite G2 by exact N2. apply G1. exact N1. }
  pose proof (G FMimePos ltac:(discriminate) ltac:(discriminate)) as E1. pose proof (G FClusterPos ltac:(discriminate) ltac:(discriminate)) as E2. pose proof (G FUuid ltac:(discriminate) ltac:(discriminate)) as E3.
  pose proof (G FMajor ltac:(discriminate) ltac:(discriminate)) as E4. pose proof (G FMinor ltac:(discriminate) ltac:(discriminate)) as E5. pose proof (G FClusterCount ltac:(discriminate) ltac:(discriminate)) as E6.
  cbn [hget] in V1, V2, E1, E2, E3, E4, E5, E6. injection V1 as V1. injection V2 as V2. injection E1 as E1. injection E2 as E2. injection E3 as E3. injection E4 as E4. injection E5 as E5. injection E6 as E6.
  set (l' := mkPlist (pl_ptrs l) false (pl_mutable l) (ptrs_disk_size 8 (pl_ptrs l))). match goal with |- laid ?B cells L /\ _ => set (A' := B) end.
  assert (AO' : archive_ok Stream (fa_arch A') cells L).
  { pose proof (ao_core _ _ _ _ AO) as CO.
    exact (archive_lists (fa_arch A1) cells L l' (z_atpl (fa_zim A)) (z_etpl (fa_zim A)) (ca_ptrs (fa_arch A)) AO1 eq_refl (co_mut_u _ _ CO) eq_refl (co_mut_a _ _ CO) eq_refl (co_mut_e _ _ CO) eq_refl (ao_mutable _ _ _ _ AO)). }
  assert (LK : forall u, get_entry_by_full_url (fa_zim A') u = get_entry_by_full_url (fa_zim A) u) by (intro u; eapply arch_lookup; [exact AO|exact AO']).
  change (fa_hdr A') with (ho_hdr h2) in *.
  assert (EM : mime_part reserve A' = mime_part reserve A) by (unfold mime_part; change (fa_hdr A') with (ho_hdr h2); rewrite E1; reflexivity).
  assert (EC : cluster_part A' = cluster_part A) by (unfold cluster_part; change (fa_hdr A') with (ho_hdr h2); rewrite E2; reflexivity).
  assert (EU : url_part A' = (pos, ptrs_disk_size 8 (pl_ptrs l))) by (unfold url_part; change (fa_hdr A') with (ho_hdr h2); rewrite V1; reflexivity).
  destruct (relaid_parts A A' cells L (url_part A) (pos, ptrs_disk_size 8 (pl_ptrs l)) LO Hp) as (R1 & R2 & R3).
  { cbn [snd]. rewrite <- ZD. apply zlen_nonneg. }
  { exact OTHER. }
  { exact NEW. }
  { right. right. auto. }
  assert (KP : forall p, spares A cells L p -> disjoint (url_part A) p \/ disjoint p (url_part A) -> forall x, within p x -> in_use (fa_alloc A) x /\ ~ within (url_part A) x).
  { intros p SP DJ x W. split; [exact (proj1 (SP x W))|]. intro W'. destruct DJ as [DJ|DJ]; [exact (DJ x (conj W' W))|exact (DJ x (conj W W'))]. }
  split; [|split; [|split; reflexivity]].
  - pose proof LO as []. constructor; try assumption.
    + change (fa_header A') with h2. congruence.
    + change (fa_hdr A') with (ho_hdr h2). congruence.
    + change (fa_header A') with h2. intro DH. assert (h2 = fa_header A) as ->. { destruct DD2 as [->|DD2]; [|congruence]. destruct DD1 as [->|DD1]; [reflexivity|congruence]. }
      eapply (header_saved_keeps A); [exact lo_uuid|exact (lo_header DH)|reflexivity|exact KE|]. exact (KP header_part S1 (or_intror D3)).
    + intro DM. eapply (mimes_saved_keeps reserve A); [exact (proj1 lo_types)|exact (lo_mimes DM)|reflexivity|exact E1|exact KE|]. exact (KP _ S2 (or_intror D5)).
    + intro DM. change (fa_hdr A') with (ho_hdr h2). rewrite E2, E6. eapply list_saved_keeps; [exact (lo_clusters DM)|exact KE|]. exact (KP _ S3 (or_intror D6)).
    + intros _. change (fa_hdr A') with (ho_hdr h2). rewrite V1, V2. change (fa_file A') with g. change (z_upl (fa_zim A')) with l'. split; [reflexivity|]. split; [reflexivity|].
      exists data. split; [exact PB|]. apply on_disk_written. exact Hp.
    + change (z_etpl (fa_zim A')) with (z_etpl (fa_zim A)). unfold without_titles. change (fa_hdr A') with (ho_hdr h2). rewrite E4, E5. exact lo_titles.
    + apply (listings_same A); [exact LK|reflexivity..|exact lo_listings].
  - constructor; try reflexivity; [|repeat split|exact LK|apply same_content_refl|repeat split; auto|].
    + change (fa_hdr A') with (ho_hdr h2). intros f Hf. apply G; intros ->; cbn in Hf; intuition discriminate.
    + apply titled_same; [reflexivity|auto|exact LK|left]. pose proof (G FTitlePos ltac:(discriminate) ltac:(discriminate)) as E8. cbn [hget] in E8. injection E8 as E8. exact E8.
Qed.

Lemma flush_mimes_ok : forall A cells L A', laid A cells L -> flush_mimes reserve A = (Ok tt, A') ->
  laid A' cells L /\ same_view A L A' L /\ ml_dirty (fa_mimes A') = false.
Proof.
  intros A cells L A' LO H. unfold flush_mimes in H. destruct (ml_dirty (fa_mimes A)) eqn:DI; cbn [negb] in H.
  2: { injection H as <-. split; [exact LO|]. split; [apply same_view_refl|exact DI]. }
  set (ml := fa_mimes A) in *. set (size := mt_disk_size (ml_types ml)) in *. set (data := mt_to_bytes (ml_types ml)) in *.
  destruct (match reserve with Some _ => _ | None => _ end) as [[pos s2]|] eqn:RE; [|discriminate H].
  destruct (laid_parts _ _ _ _ _ LO) as (S1 & S2 & S3 & S4 & D1 & D2 & D3 & D4 & D5 & D6). pose proof (lo_arch _ _ _ _ _ LO) as AO.
  assert (ZD : zlen data = size) by (symmetry; apply mt_size_exact; exact (proj1 (lo_types _ _ _ _ _ LO))).
  set (A1 := fa_set_file (fwrite (fa_file (fa_set_alloc s2 A)) pos data) (fa_set_alloc s2 A)). change (fwrite (fa_file (fa_set_alloc s2 A)) pos data) with (fwrite (fa_file A) pos data) in A1.
  set (g := fwrite (fa_file A) pos data) in *.
  assert (FACTS : 0 <= pos /\ archive_ok Stream (fa_arch A1) cells L /\ keeps (fa_file A) g (fun x => in_use (fa_alloc A) x /\ ~ within (mime_part reserve A) x) /\
    exists q, q = match reserve with Some rr => (80, rr) | None => (pos, size) end /\ 0 <= fst q /\ 0 <= snd q /\
    (forall x, spare (fa_arch A) cells L x -> ~ within (mime_part reserve A) x -> spare (fa_arch A1) cells L x /\ ~ within q x) /\ (forall x, within q x -> spare (fa_arch A1) cells L x) /\
    match reserve with Some rr => pos = 80 /\ size <= rr | None => True end).
  { pose proof (zlen_nonneg data) as ZP. assert (MP : mime_part reserve A = match reserve with Some rr => (80, rr) | None => (h_mime_pos (fa_hdr A), ml_old_size ml) end) by reflexivity.
    destruct reserve as [rr|] eqn:ER.
    - destruct (rr <? size) eqn:CMP; [discriminate RE|]. injection RE as <- <-. rewrite MP in *.
      assert (KE : forall P : Z -> Prop, (forall x, P x -> ~ within (80, rr) x) -> keeps (fa_file A) g P) by (intros P HP; apply (fwrite_outside _ 80 data rr); [lia|lia|exact HP]).
      assert (EA : fa_arch A1 = ca_set_file g (fa_arch A)) by (unfold A1, ca_set_file; destruct A as [[[[[] ? ?] ?] ? ?] ? ? ? ?]; reflexivity). rewrite EA.
      split; [lia|]. split; [|split; [apply KE; tauto|]].
      + apply arch_refile; [exact AO|]. apply KE. intros x Hx W. exact (taken_spare _ _ _ _ Hx (S2 x W)).
      + exists (80, rr). split; [reflexivity|]. cbn [fst snd]. split; [lia|]. split; [lia|]. split; [intros x SP NW; split; [exact SP|exact NW]|]. split; [exact S2|]. split; [reflexivity|lia].
    - destruct (relocate_inv _ _ _ _ _ _ RE) as (s1 & MF & AL). rewrite MP in *.
      destruct (moved_part Stream (fa_arch A) cells L _ _ s1 pos s2 data AO S2 MF AL ZD) as (Hp & AO1 & KE & LE & OTHER & NEW).
      split; [exact Hp|]. split; [exact AO1|]. split; [exact KE|]. exists (pos, size). cbn [fst snd]. split; [reflexivity|]. split; [exact Hp|]. split; [lia|]. split; [exact OTHER|]. split; [exact NEW|exact Logic.I]. }
  destruct FACTS as (Hp & AO1 & KE & q & EQ & Q1 & Q2 & OTHER & NEW & FIT). clear RE.
  unfold mbind in H. destruct (fa_assign FMimePos (PInt pos) _) as [[r1|] A2] eqn:AS1; [|discriminate H]. injection H as <-.
  destruct (assign_inv _ _ _ _ _ AS1) as (h1 & HA1 & ->). change (hassign FMimePos (PInt pos) (fa_header A) = Ok h1) in HA1. fold A1. clear AS1.
  destruct (hassign_more _ _ _ _ HA1) as (M1 & DD1 & G). pose proof (hassign_int_value FMimePos _ _ _ ltac:(discriminate) HA1) as V1. change (fa_header A) with (fa_header A) in G.
  pose proof (G FClusterPos ltac:(discriminate)) as E1. pose proof (G FUrlPos ltac:(discriminate)) as E2. pose proof (G FUuid ltac:(discriminate)) as E3.
  pose proof (G FMajor ltac:(discriminate)) as E4. pose proof (G FMinor ltac:(discriminate)) as E5. pose proof (G FEntryCount ltac:(discriminate)) as E6. pose proof (G FClusterCount ltac:(discriminate)) as E7.
  change (ho_hdr (fa_header A)) with (fa_hdr A) in *.
  cbn [hget] in V1, E1, E2, E3, E4, E5, E6, E7. injection V1 as V1. injection E1 as E1. injection E2 as E2. injection E3 as E3. injection E4 as E4. injection E5 as E5. injection E6 as E6. injection E7 as E7.
  match goal with |- laid ?B cells L /\ _ => set (A' := B) end.
  assert (AO' : archive_ok Stream (fa_arch A') cells L) by exact AO1.
  assert (LK : forall u, get_entry_by_full_url (fa_zim A') u = get_entry_by_full_url (fa_zim A) u) by (intro u; eapply arch_lookup; [exact AO|exact AO']).
  assert (EC : cluster_part A' = cluster_part A) by (unfold cluster_part; change (fa_hdr A') with (ho_hdr h1); rewrite E1; reflexivity).
  assert (EU : url_part A' = url_part A) by (unfold url_part; change (fa_hdr A') with (ho_hdr h1); rewrite E2; reflexivity).
  assert (EM : mime_part reserve A' = q) by (rewrite EQ; unfold mime_part; change (fa_hdr A') with (ho_hdr h1); rewrite V1; reflexivity).
  destruct (relaid_parts A A' cells L (mime_part reserve A) q LO Q1 Q2 OTHER NEW) as (R1 & R2 & R3).
  { left. auto. }
  assert (KP : forall p, spares A cells L p -> disjoint (mime_part reserve A) p \/ disjoint p (mime_part reserve A) -> forall x, within p x -> in_use (fa_alloc A) x /\ ~ within (mime_part reserve A) x).
  { intros p SP DJ x W. split; [exact (proj1 (SP x W))|]. intro W'. destruct DJ as [DJ|DJ]; [exact (DJ x (conj W' W))|exact (DJ x (conj W W'))]. }
  split; [|split; [|reflexivity]].
  - pose proof LO as []. constructor; try assumption.
    + change (fa_header A') with h1. congruence.
    + change (fa_hdr A') with (ho_hdr h1). congruence.
    + change (fa_header A') with h1. intro DH. assert (h1 = fa_header A) as ->. { destruct DD1 as [->|DD1]; [reflexivity|congruence]. }
      eapply (header_saved_keeps A); [exact lo_uuid|exact (lo_header DH)|reflexivity|exact KE|]. exact (KP header_part S1 (or_intror D1)).
    + intros _. unfold mimes_saved. change (fa_hdr A') with (ho_hdr h1). rewrite V1. change (ml_types (fa_mimes A')) with (ml_types ml). fold size data. change (fa_file A') with g.
      split; [apply on_disk_written; exact Hp|]. split; [reflexivity|]. exact FIT.
    + intro DM. change (fa_hdr A') with (ho_hdr h1). rewrite E1, E7. eapply list_saved_keeps; [exact (lo_clusters DM)|exact KE|]. exact (KP _ S3 (or_introl D4)).
    + intro DM. change (fa_hdr A') with (ho_hdr h1). rewrite E2, E6. eapply list_saved_keeps; [exact (lo_urls DM)|exact KE|]. exact (KP _ S4 (or_introl D5)).
    + change (z_etpl (fa_zim A')) with (z_etpl (fa_zim A)). unfold without_titles. change (fa_hdr A') with (ho_hdr h1). rewrite E4, E5. exact lo_titles.
    + apply (listings_same A); [exact LK|reflexivity..|exact lo_listings].
  - constructor; try reflexivity; [|repeat split|exact LK|apply same_content_refl|repeat split; auto|].
    + change (fa_hdr A') with (ho_hdr h1). intros f Hf. apply G; intros ->; cbn in Hf; intuition discriminate.
    + apply titled_same; [reflexivity|auto|exact LK|left]. pose proof (G FTitlePos ltac:(discriminate)) as E8. cbn [hget] in E8. injection E8 as E8. exact E8.
Qed.

(** ** The main page *)
Lemma sync_main_ok : forall A cells L A', laid A cells L -> sync_main A = (Ok tt, A') ->
  laid A' cells L /\ main_page (fa_hdr A') = z_main (fa_zim A) /\ exists h, A' = fa_set_header h A /\ forall f, f <> FMainPage -> hget f (ho_hdr h) = hget f (fa_hdr A).
Proof.
  intros A cells L A' LO H. unfold sync_main in H. split; [exact (laid_assign Stream reserve A cells L FMainPage _ tt A' LO eq_refl H)|].
  destruct (assign_inv _ _ _ _ _ H) as (h & HA & ->). split; [|exists h; split; [reflexivity|exact (proj2 (proj2 (hassign_more _ _ _ _ HA)))]].
  change (fa_hdr (fa_set_header h A)) with (ho_hdr h). rewrite (main_page_assign _ _ _ HA). destruct (z_main (fa_zim A)) as [m|] eqn:EM; [|reflexivity].
  pose proof (ao_entries _ _ _ _ (lo_arch _ _ _ _ _ LO)) as CS. pose proof (cs_main _ _ CS m EM) as M1. pose proof (cs_count _ _ CS) as M2. replace (m =? 4294967295) with false by lia. reflexivity.
Qed.

(** ** The checksum *)
Section Checksum.
Context {H : Type}.
Variable md5 : H.
Variable feed : H -> bytes -> H.
Variable digest : H -> bytes.
Hypothesis HO : hash_ok feed digest.

Lemma checksum_loop_ok : forall todo f pos end_ h h', 0 <= pos <= end_ -> checksum_loop feed todo f pos end_ h = Ok h' ->
  h' = feed h (fread f pos (end_ - pos)) /\ (pos < end_ -> end_ <= zlen f).
Proof.
  induction todo as [|todo IH]; intros f pos end_ h h' HP E; cbn [checksum_loop] in E; destruct (Z.ltb_spec pos end_) as [LT|GE]; try discriminate E.
  1, 3: assert (pos = end_) by lia; subst pos; injection E as <-; split; [|lia]; unfold fread, zsub; rewrite ztake_neg by lia; symmetry; apply (hash_nil _ _ HO).
  set (n := Z.min 8192 (end_ - pos)) in *. set (data := fread f pos n) in *.
  assert (ZD : 0 <= zlen data <= n). { unfold data, fread, zsub. rewrite ztake_len by lia. pose proof (zlen_nonneg (zskip pos f)). lia. }
  destruct (IH f (pos + zlen data) end_ _ _ ltac:(lia) E) as (E1 & E2).
  assert (EF : end_ <= zlen f).
  { destruct (Z.eq_dec (pos + zlen data) end_) as [EQ|NE]; [|apply E2; lia]. unfold data, fread, zsub in EQ, ZD. rewrite ztake_len in EQ by lia. rewrite zskip_len in EQ by lia. lia. }
  split; [|auto]. assert (ZN : zlen data = n). { unfold data, fread. apply zsub_len; lia. }
  rewrite E1, (hash_app _ _ HO). f_equal. rewrite ZN. unfold data, fread. rewrite <- zsub_add by lia. f_equal. lia.
Qed.

Lemma update_checksum_ok : forall A cells L A', laid A cells L -> h_checksum_pos (fa_hdr A) = file_end (fa_alloc A) -> update_checksum md5 feed digest A = (Ok tt, A') ->
  exists g, A' = fa_set_file g A /\ laid A' cells L /\ checksum_right md5 feed digest A' /\ h_checksum_pos (fa_hdr A) + 16 <= zlen g.
Proof.
  intros A cells L A' LO CP E. unfold update_checksum, calculate_checksum in E. set (cp := h_checksum_pos (fa_hdr A)) in *.
  pose proof (co_end _ _ (ao_core _ _ _ _ (lo_arch _ _ _ _ _ LO))) as C0. change (z_alloc (ca_zim (fa_arch A))) with (fa_alloc A) in C0.
  destruct (checksum_loop feed _ (fa_file A) 0 cp md5) as [h|] eqn:CL; cbn [bind] in E; [|discriminate E]. injection E as <-.
  destruct (checksum_loop_ok _ _ 0 cp _ _ ltac:(lia) CL) as (EH & EF). rewrite Z.sub_0_r in EH. pose proof (hash_len _ _ HO h) as ZD. set (c := digest h) in *.
  assert (CE : 0 <= cp <= zlen (fa_file A)). { destruct (Z.eq_dec cp 0) as [Z0|N0]; [pose proof (zlen_nonneg (fa_file A)); lia|split; [lia|apply EF; lia]]. }
  exists (fwrite (fa_file A) cp c). split; [reflexivity|]. split; [|split].
  - apply laid_bytes; [exact LO|]. eapply keeps_weaken; [apply keeps_fwrite; lia|]. intros x (HX & _) W. lia.
  - unfold checksum_right, get_checksum, CHECKSUM_LENGTH. change (fa_hdr (fa_set_file _ A)) with (fa_hdr A). fold cp. change (fa_file (fa_set_file (fwrite (fa_file A) cp c) A)) with (fwrite (fa_file A) cp c).
    split; [rewrite fwrite_len by lia; lia|]. rewrite <- ZD at 1. rewrite fread_fwrite_same by lia. unfold hash, c. f_equal. rewrite EH. f_equal.
    unfold fwrite. rewrite ztake_app_exact by (rewrite ztake_len, zlen_app by lia; pose proof (zlen_nonneg (repeat x00 (Z.to_nat (cp - zlen (fa_file A))))); lia).
    unfold fread, zsub. rewrite zskip_0. rewrite ztake_app_l by lia. reflexivity.
  - rewrite fwrite_len by lia. lia.
Qed.
Lemma truncate_ok : forall truncate A cells L A', laid A cells L -> h_checksum_pos (fa_hdr A) = file_end (fa_alloc A) -> checksum_right md5 feed digest A ->
  h_checksum_pos (fa_hdr A) + 16 <= zlen (fa_file A) -> flush_truncate truncate A = (Ok tt, A') ->
  exists g, A' = fa_set_file g A /\ laid A' cells L /\ checksum_right md5 feed digest A'.
Proof.
  intros truncate A cells L A' LO CP CR LE E. unfold flush_truncate in E. injection E as <-. set (cp := h_checksum_pos (fa_hdr A)) in *.
  pose proof (co_end _ _ (ao_core _ _ _ _ (lo_arch _ _ _ _ _ LO))) as C0. change (z_alloc (ca_zim (fa_arch A))) with (fa_alloc A) in C0.
  destruct truncate.
  - exists (ztake (cp + 16) (fa_file A)). split; [reflexivity|]. split.
    + apply laid_bytes; [exact LO|]. intros x HX (HU & _). unfold ztake. rewrite <- (firstn_skipn (Z.to_nat (cp + 16)) (fa_file A)) at 2. rewrite nth_error_app1; [reflexivity|].
      rewrite firstn_length. unfold zlen in *. lia.
    + destruct CR as (C1 & C2). unfold checksum_right, get_checksum, CHECKSUM_LENGTH in *. change (fa_hdr (fa_set_file _ A)) with (fa_hdr A). fold cp in C1, C2 |- *.
      change (fa_file (fa_set_file (ztake (cp + 16) (fa_file A)) A)) with (ztake (cp + 16) (fa_file A)). split; [rewrite ztake_len by lia; lia|].
      rewrite ztake_ztake, Z.min_l by lia. rewrite <- C2. unfold fread, zsub. rewrite <- (ztake_zskip (cp + 16) (fa_file A)) at 2.
      rewrite zskip_app_l by (rewrite ztake_len by lia; lia). rewrite ztake_app_l; [reflexivity|]. rewrite zskip_len, ztake_len by lia. lia.
  - exists (fa_file A). assert (ES : fa_set_file (fa_file A) A = A) by (destruct A as [[[[[] ? ?] ?] ? ?] ? ? ? ?]; reflexivity). rewrite ES. auto.
Qed.

(** ** All of it *)
Definition ready_to_flush (A : farchive) (cells : list (Z * entry)) (L : list (option (Z * ccell))) : Prop :=
  (0 < fuel)%nat /\ ample fuel (fa_arch A) (blobs_of L) /\ 4 * zlen (pl_ptrs (z_atpl (fa_zim A))) < Z.of_nat fuel /\
  forall t, z_etpl (fa_zim A) = Some t -> 4 * zlen (pl_ptrs t) < Z.of_nat fuel /\
    forall A0 A1 L1, sync_main A = (Ok tt, A0) -> flush_articles fuel dc new_decomp new_comp comp flush kd A0 = (Ok tt, A1) -> laid A1 cells L1 -> ample fuel (fa_arch A1) (blobs_of L1) /\
      forall A2 L2, flush_titles fuel dc new_decomp new_comp comp flush depth kd A1 = (Ok tt, A2) -> laid A2 cells L2 -> ample fuel (fa_arch A2) (blobs_of L2).
Lemma tail_ok : forall truncate A cells L A', laid A cells L -> ready_to_flush A cells L -> idle_strategy (zs_comp (fa_state A)) -> idle_strategy (zs_plain (fa_state A)) ->
  flush_tail fuel dc new_decomp new_comp comp flush depth kd md5 feed digest reserve truncate A = (Ok tt, A') ->
  exists L' A0, sync_main A = (Ok tt, A0) /\ laid A' cells L' /\ saved md5 feed digest A' /\ same_view A0 L A' L'.
Proof.
  intros truncate A cells L A' LO (F0 & AM & F1 & F2) I1 I2 E. unfold flush_tail, mbind in E.
  destruct (sync_main A) as [[[]|] A0] eqn:E0; [|discriminate E]. destruct (sync_main_ok A cells L A0 LO E0) as (LO0 & MP0 & h & -> & _). set (A0 := fa_set_header h A) in *.
  destruct (flush_articles _ _ _ _ _ _ _ A0) as [[[]|] A1] eqn:E1; [|discriminate E]. destruct (flush_articles_ok A0 cells L A1 LO0 AM F0 F1 E1) as (L1 & LO1 & SV1 & DA).
  destruct (flush_titles _ _ _ _ _ _ _ _ A1) as [[[]|] A2] eqn:E2; [|discriminate E].
  assert (T : exists L2, laid A2 cells L2 /\ same_view A1 L1 A2 L2 /\ tdirty (fa_zim A2) = false).
  { pose proof (sv_titles _ _ _ _ SV1) as ST. change (fa_zim A0) with (fa_zim A) in ST. destruct (z_etpl (fa_zim A)) as [t|] eqn:EE.
    - destruct (F2 t eq_refl) as (F3 & F4). destruct (F4 A0 A1 L1 eq_refl E1 LO1) as (F5 & F6). pose proof (sv_idle _ _ _ _ SV1) as (S1 & S2 & _). change (fa_state A0) with (fa_state A) in S1, S2.
      apply (flush_titles_ok A1 cells L1 A2 LO1 F5 F0); [|exact F6|exact DA|rewrite S1; exact I1|rewrite S2; exact I2|exact E2].
      intros u Hu. unfold same_lists in ST. rewrite Hu in ST. cbn in ST. injection ST as ->. exact F3.
    - unfold same_lists in ST. destruct (z_etpl (fa_zim A1)) eqn:EE1; [discriminate ST|]. unfold flush_titles in E2. rewrite EE1 in E2. injection E2 as <-.
      exists L1. split; [exact LO1|]. split; [apply same_view_refl|]. unfold tdirty. rewrite EE1. reflexivity. }
  destruct T as (L2 & LO2 & SV2 & DT).
  destruct (flush_mimes _ A2) as [[[]|] A3] eqn:E3; [|discriminate E]. destruct (flush_mimes_ok A2 cells L2 A3 LO2 E3) as (LO3 & SV3 & DM).
  destruct (flush_clusters A3) as [[[]|] A4] eqn:E4; [|discriminate E]. destruct (flush_clusters_ok A3 cells L2 A4 LO3 E4) as (LO4 & SV4 & DC).
  destruct (flush_urls A4) as [[[]|] A5] eqn:E5; [|discriminate E]. destruct (flush_urls_ok A4 cells L2 A5 LO4 E5) as (LO5 & SV5 & DU & PC5).
  destruct (flush_header A5) as [[[]|] A6] eqn:E6; [|discriminate E]. destruct (flush_header_ok A5 cells L2 A6 LO5 E6) as (LO6 & SV6 & DH & CP & PC6).
  destruct (update_checksum _ _ _ A6) as [[[]|] A7] eqn:E7; [|discriminate E]. destruct (update_checksum_ok A6 cells L2 A7 LO6 CP E7) as (g & -> & LO7 & CR7 & LE7).
  destruct (flush_truncate _ _) as [[[]|] A8] eqn:E8; [|discriminate E]. destruct (truncate_ok truncate (fa_set_file g A6) cells L2 A8 LO7 CP CR7 LE7 E8) as (g' & -> & LO8 & CR8). injection E as <-.
  assert (SV78 : same_view A6 L2 (fa_set_dirty false (fa_set_file g' (fa_set_file g A6))) L2).
  { eapply same_view_trans; [exact (view_bytes A6 cells L2 g LO6 LO7)|]. destruct (view_bytes _ cells L2 g' LO7 LO8). constructor; assumption. }
  pose proof (same_view_trans _ _ _ _ _ _ SV6 SV78) as SV68. pose proof (same_view_trans _ _ _ _ _ _ SV5 SV68) as SV58. pose proof (same_view_trans _ _ _ _ _ _ SV4 SV58) as SV48.
  pose proof (same_view_trans _ _ _ _ _ _ SV3 SV48) as SV38. pose proof (same_view_trans _ _ _ _ _ _ SV2 SV38) as SV28. pose proof (same_view_trans _ _ _ _ _ _ SV1 SV28) as SV.
  set (A' := fa_set_dirty false _) in *.
  exists L2, A0. split; [reflexivity|]. split; [|split; [|exact SV]].
  - destruct LO8. constructor; assumption.
  - split; [|split; [exact CP|split; [|exact CR8]]].
    + unfold is_dirty. change (fa_dirty A') with false. change (fa_header A') with (fa_header A6). rewrite DH.
      destruct (sv_clean _ _ _ _ SV28) as (C1 & _). destruct (sv_clean _ _ _ _ SV38) as (_ & C2 & _). destruct (sv_clean _ _ _ _ SV48) as (_ & _ & C3 & _). destruct (sv_clean _ _ _ _ SV68) as (_ & _ & _ & C4).
      fold (tdirty (fa_zim A')). rewrite (C1 DA), (C2 DT), (C3 DM), (C4 DU). change (ca_ptrs (fa_arch A')) with (ca_ptrs (fa_arch A6)). rewrite PC6, PC5, DC. reflexivity.
    + rewrite (sv_main _ _ _ _ SV). change (fa_zim A0) with (fa_zim A). rewrite <- MP0. pose proof (sv_header _ _ _ _ SV FMainPage ltac:(cbn; tauto)) as HM. cbn [hget] in HM. injection HM as HM.
      unfold main_page. rewrite HM. reflexivity.
Qed.
End Checksum.
End Tail.
