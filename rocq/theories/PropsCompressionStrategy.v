(** C48: every added item ends up readable. *)
From Coq Require Import List ZArith Bool Lia Permutation Strings.Byte.
From Coq Require Import ZifyBool ZifyNat.
From Verif Require Import Base BaseProofs Utf8 Infobyte Entry EntrySpec MimeTypeList Reader ReaderSpec Decompressors DecompressorsProofs Blob BlobProofs PointerList PointerListProofs SpaceAllocator
  Cluster ClusterSpec ClusterProofs ClusterWrapper ClusterWrapperSpec ClusterWrapperProofs Archive ArchiveSpec ArchiveProofs ArchiveFacts ArchiveObserve ArchiveCluster ArchiveClusterSpec ArchiveClusterProofs
  CompressionStrategy CompressionStrategySpec CompressionStrategyProofs PropsArchiveCluster.
Import ListNotations.
Open Scope Z_scope.

Lemma perm_filter : forall A (f : A -> bool) l l', Permutation l l' -> Permutation (filter f l) (filter f l').
Proof.
  intros A f l l' H. induction H as [|x l l' _ IH|x y l|l l' l'' _ IH1 _ IH2]; cbn [filter].
  - apply Permutation_refl.
  - destruct (f x); [apply perm_skip; exact IH|exact IH].
  - destruct (f x), (f y); try apply Permutation_refl. apply perm_swap.
  - eapply Permutation_trans; eassumption.
Qed.

Section Items.
Variable fuel : nat.
Context {D : Type}.
Variable dc : decomp D.
Variable new_decomp : ctype -> res D.
Context {K : Type}.
Variable new_comp : ctype -> res K.
Variable comp : K -> bytes -> res (bytes * K).
Variable flush : K -> res bytes.
Variable depth : nat.
Variable kd : ckind.
Variable Stream : ctype -> bytes -> bytes -> Prop.
Hypothesis CD : codec_ok dc new_decomp new_comp comp flush Stream.
Notation runs := (sruns fuel new_comp comp flush depth).
Notation readable := (readable fuel dc new_decomp kd).

Lemma holds_readable : forall s cells L ml P p lo, archive_ok Stream s cells L -> holds_item lo (ca_zim s) (blobs_of L) p -> typed fuel ml p ->
  In p P -> ample fuel s (blobs_of L) -> readable (mkSa s ml) (p_item p) (p_data p).
Proof.
  intros s cells L ml P p lo AO (n & k & bl & H1 & H2 & H3 & H4 & _) (_ & m & T1 & T2) _ AM. exists (p_entry n k p), n, k, m. cbn [sa_arch sa_mimes].
  split; [exact H1|]. split; [reflexivity|]. split; [reflexivity|]. split.
  { unfold title, shown_title, p_entry, item_title. cbn [e_title e_url]. destruct (it_title (p_item p)) as [[|c t]|]; try reflexivity. destruct (it_url (p_item p)); reflexivity. }
  split; [exact T1|]. split; [exact T2|]. split; [reflexivity|].
  destruct (shown_all fuel dc new_decomp new_comp comp flush kd Stream CD s cells L n bl AO AM H2) as (_ & R). rewrite (R k H4), H3. reflexivity.
Qed.

(** What holds for items that are added in any order, through strategies of any
    kind, limit and compression, with flushes in between, after a last flush:
    the old clusters are there with their numbers; every item can be found and
    read; the entries are those from before and one for each item; all entries
    from before are as before; the articles are those from before and the new
    ones. *)
Theorem C48_items : forall z ops z' cells L, archive_ok Stream (sa_arch (zs_arch z)) cells L -> fresh_strategy (zs_comp z) -> fresh_strategy (zs_plain z) ->
  runs z (ops ++ [FlushItems]) z' ->
  let items := added_by ops in
  Forall (fun x => item_ok fuel (fst x) (snd x)) items -> NoDup (urls_of items) ->
  (forall u, In u (urls_of items) -> get_entry_by_full_url (ca_zim (sa_arch (zs_arch z))) u = Err EntryNotFound) ->
  zlen cells + zlen items < 2 ^ 32 -> zlen L + zlen items < 2 ^ 32 -> zlen (ml_types (sa_mimes (zs_arch z'))) <= 65535 ->
  let a := sa_arch (zs_arch z) in
  let a' := sa_arch (zs_arch z') in
  exists cells' L', archive_ok Stream a' cells' L' /\ (exists N, L' = L ++ N) /\
  (ample fuel a' (blobs_of L') -> forall it d, In (it, d) items -> readable (zs_arch z') it d) /\
  (exists before after, iter_entries (ca_zim a) None None = Ok before /\ iter_entries (ca_zim a') None None = Ok after /\
     Permutation (map full_url after) (urls_of items ++ map full_url before)) /\
  (forall u e, get_entry_by_full_url (ca_zim a) u = Ok e ->
     exists e', get_entry_by_full_url (ca_zim a') u = Ok e' /\ same_entry e e' /\ target_url (ca_zim a') e' = target_url (ca_zim a) e) /\
  (forall us, article_urls (ca_zim a) = Some us -> exists us', article_urls (ca_zim a') = Some us' /\ Permutation us' (articles_of items ++ us)).
Proof.
  intros z ops z' cells L AO F1 F2 R items OK ND AB B1 B2 B3 a a'. set (M := Z.max (limit_of (zs_comp z)) (limit_of (zs_plain z))).
  pose proof (ao_entries _ _ _ _ AO) as CS.
  destruct (flushed fuel dc new_decomp new_comp comp flush depth Stream CD M (zlen L) z ops z' cells L AO F1 F2) as (cells' & L' & P & G & PE & TY); try assumption; try lia.
  - split; [exact ND|]. split; [|split; [exact B1|split; [apply Z.le_refl|exact B2]]]. intros u Hu.
    assert (EU : exists b, utf8_encode u = Some b).
    { destruct (utf8_encode u) as [b|] eqn:E; [eauto|]. specialize (AB u Hu). rewrite lookup_unencodable in AB by exact E. discriminate AB. }
    destruct EU as (b & EU). apply (missing_iff _ _ u b CS EU). apply AB. exact Hu.
  - exists cells', L'. pose proof G as [G1 G2 G3 G4 G5 G6 GU G7 G8 _]. split; [exact G1|]. split; [destruct G2 as (N & -> & _); eauto|].
    assert (PU : Permutation (map p_url P) (urls_of items)) by (rewrite <- urls_pairs; unfold urls_of; apply Permutation_map; exact PE).
    split; [|split; [|split; [exact G4|]]].
    + intros AM it d Hi. apply (Permutation_in _ (Permutation_sym PE)) in Hi. apply in_map_iff in Hi as (p & E & Hp). unfold pair_of in E. injection E as <- <-.
      rewrite Forall_forall in G8, TY. pose proof (holds_readable a' cells' L' (sa_mimes (zs_arch z')) P p (zlen L) G1 (G8 p Hp) (TY p Hp) Hp AM) as H.
      unfold a' in H. destruct (zs_arch z'). exact H.
    + exists (map snd cells), (map snd cells'). split; [apply entries_ok; exact CS|]. split; [apply entries_ok; exact (ao_entries _ _ _ _ G1)|].
      rewrite GU. apply Permutation_app_tail. exact PU.
    + intros us Hus. destruct (G7 us Hus) as (us' & U1 & U2). exists us'. split; [exact U1|]. rewrite U2. apply Permutation_app_tail. unfold p_articles, articles_of, urls_of.
      assert (PF : Permutation (filter (fun x => it_article (fst x)) (map pair_of P)) (filter (fun x => it_article (fst x)) items)).
      { apply perm_filter. exact PE. }
      rewrite <- (Permutation_map _ PF). clear.
      induction P as [|p P IH]; cbn [map filter]; [apply Permutation_refl|]. change (it_article (fst (pair_of p))) with (it_article (p_item p)).
      destruct (it_article (p_item p)); cbn [map]; [apply perm_skip; exact IH|exact IH].
Qed.

(** The size of the new clusters: at most 4 bytes, the pointer of the last item,
    above the limit, unless there is a single item.  Partial: the 4 bytes. *)
Theorem C48_size_partial : forall z ops z' cells L max, archive_ok Stream (sa_arch (zs_arch z)) cells L -> fresh_strategy (zs_comp z) -> fresh_strategy (zs_plain z) ->
  limit_of (zs_comp z) <= max -> limit_of (zs_plain z) <= max -> max + 4 < 2 ^ 32 ->
  runs z (ops ++ [FlushItems]) z' ->
  let items := added_by ops in
  Forall (fun x => item_ok fuel (fst x) (snd x)) items -> NoDup (urls_of items) ->
  (forall u, In u (urls_of items) -> get_entry_by_full_url (ca_zim (sa_arch (zs_arch z))) u = Err EntryNotFound) ->
  zlen cells + zlen items < 2 ^ 32 -> zlen L + zlen items < 2 ^ 32 -> zlen (ml_types (sa_mimes (zs_arch z'))) <= 65535 ->
  let a' := sa_arch (zs_arch z') in
  exists cells' L', archive_ok Stream a' cells' L' /\ zlen L' <= zlen L + zlen items /\
  (ample fuel a' (blobs_of L') -> forall i, zlen L <= i < zlen L' ->
     exists n size, blobs_in fuel dc new_decomp kd a' i = Ok n /\ size_of fuel dc new_decomp kd a' i = Ok size /\ (n = 1 \/ size <= max + 4)).
Proof.
  intros z ops z' cells L M AO F1 F2 M1 M2 HM R items OK ND AB B1 B2 B3 a'.
  pose proof (ao_entries _ _ _ _ AO) as CS.
  destruct (flushed fuel dc new_decomp new_comp comp flush depth Stream CD M (zlen L) z ops z' cells L AO F1 F2) as (cells' & L' & P & G & PE & TY); try assumption; try lia.
  - split; [exact ND|]. split; [|split; [exact B1|split; [apply Z.le_refl|exact B2]]]. intros u Hu.
    assert (EU : exists b, utf8_encode u = Some b).
    { destruct (utf8_encode u) as [b|] eqn:E; [eauto|]. specialize (AB u Hu). rewrite lookup_unencodable in AB by exact E. discriminate AB. }
    destruct EU as (b & EU). apply (missing_iff _ _ u b CS EU). apply AB. exact Hu.
  - exists cells', L'. pose proof G as [G1 (N & EL & BN & ZN) _ _ _ _ _ _ _ _]. split; [exact G1|].
    assert (ZP : zlen P = zlen items). { pose proof (Permutation_length PE) as LN. rewrite map_length in LN. unfold zlen. rewrite LN. reflexivity. }
    split; [rewrite EL, zlen_app; lia|]. intros AM i Hi.
    destruct (znth N (i - zlen L)) as [o|] eqn:EN.
    2:{ exfalso. rewrite EL, zlen_app in Hi. destruct (znth_in N (i - zlen L)) as (x & X); [lia|congruence]. }
    rewrite Forall_forall in BN. destruct (BN o (znth_In _ _ _ EN)) as (off & c & -> & BD).
    assert (AT : at_number L' i (off, c)). { unfold at_number. rewrite EL, znth_app_r by lia. exact EN. }
    pose proof (ample_enough fuel a' _ i off c L' AM eq_refl AT) as EG.
    destruct (opened_index fuel dc new_decomp new_comp comp flush kd Stream CD a' cells' L' i off c G1 AT EG) as (ob & Inv & E & _ & HO & RP & WE & _ & WR & _).
    exists (zlen (cc_blobs c)), (zlen (cluster_data (cc_ext c) (cc_blobs c))).
    destruct (count_ok _ fuel Inv _ _ _ HO _ _ RP) as (w' & E1 & V1 & S1 & K1).
    split; [unfold blobs_in; rewrite E; cbn [bind]; rewrite E1; reflexivity|]. split; [|exact (BD HM)].
    unfold size_of. rewrite E. cbn [bind]. unfold mbind. rewrite E1.
    destruct (total_ok _ fuel Inv _ _ _ HO w' _ V1) as (w2 & E2 & _); [right; right; exact K1|].
    assert (EW : wwide (cc_ext c) w' (cc_blobs c) = cc_ext c).
    { rewrite (same_wide _ _ _ _ _ _ S1). unfold wwide, wide. rewrite WE.
      assert (HMOD : has_modifications (co_wrap ob) = false); [|rewrite HMOD; reflexivity].
      clear - E. unfold get_cluster_by_index, get_cluster_at in E. destruct (i <? 0); [discriminate E|]. destruct (get_by_index _ i); [|discriminate E]. cbn [bind] in E.
      destruct (total_compressed _ _ _ _ _) as [[n|x] cc]; [|discriminate E]. injection E as <-. reflexivity. }
    rewrite EW in E2. rewrite E2. reflexivity.
Qed.
End Items.

(** ** Two items, of one byte each, with the limit 10 *)
Definition C48_full_statement : Prop := forall fuel D (dc : decomp D) new_decomp K new_comp comp flush depth kd Stream z ops z' cells L max,
  codec_ok (K:=K) dc new_decomp new_comp comp flush Stream ->
  archive_ok Stream (sa_arch (zs_arch z)) cells L -> fresh_strategy (zs_comp z) -> fresh_strategy (zs_plain z) ->
  limit_of (zs_comp z) <= max -> limit_of (zs_plain z) <= max -> max + 4 < 2 ^ 32 ->
  sruns fuel new_comp comp flush depth z (ops ++ [FlushItems]) z' ->
  let items := added_by ops in
  Forall (fun x => item_ok fuel (fst x) (snd x)) items -> NoDup (urls_of items) ->
  (forall u, In u (urls_of items) -> get_entry_by_full_url (ca_zim (sa_arch (zs_arch z))) u = Err EntryNotFound) ->
  zlen cells + zlen items < 2 ^ 32 -> zlen L + zlen items < 2 ^ 32 -> zlen (ml_types (sa_mimes (zs_arch z'))) <= 65535 ->
  let a' := sa_arch (zs_arch z') in
  forall i n size, zlen L <= i -> blobs_in fuel dc new_decomp kd a' i = Ok n -> size_of fuel dc new_decomp kd a' i = Ok size -> n = 1 \/ size <= max.

Definition sample_item (u : Z) (b : byte) (t : option ustr) (article : bool) : item := mkItem NS_C [u] [109] (mem_source [b]) t article.
Definition item_a : item := sample_item 97 x41 None true.
Definition item_b : item := sample_item 98 x42 (Some [65]) false.
Definition item_c : item := mkItem [77] [99] [110] (mem_source [x43]) None false.
Lemma item_a_ok : item_ok 200 item_a [x41].
Proof. split; [reflexivity|]. split; [apply mem_delivers; reflexivity|reflexivity]. Qed.
Lemma item_b_ok : item_ok 200 item_b [x42].
Proof. split; [reflexivity|]. split; [apply mem_delivers; reflexivity|intro Q; discriminate Q]. Qed.
Lemma item_c_ok : item_ok 200 item_c [x43].
Proof. split; [reflexivity|]. split; [apply mem_delivers; reflexivity|intro Q; discriminate Q]. Qed.
Definition start_z : zstate := mkZs (mkSa start (mkMlist [] false true 0)) (Simple (strat_new NONE 10)) (ByMimetype (mkMstrat NONE 10 [])).
Definition sample_ops : list sop := [AddItem item_b [x42] false; AddItem item_c [x43] true; AddItem item_a [x41] false].
Definition step_z (z : zstate) (o : sop) : res unit * zstate := perform_sop 200 plain_new_comp plain_comp plain_flush 3 z o.
Fixpoint run_z (z : zstate) (ops : list sop) : res unit * zstate :=
  match ops with [] => (Ok tt, z) | o :: r => match step_z z o with (Ok _, z) => run_z z r | (Err e, z) => (Err e, z) end end.
Lemma run_z_runs : forall ops z, fst (run_z z ops) = Ok tt -> sruns 200 plain_new_comp plain_comp plain_flush 3 z ops (snd (run_z z ops)).
Proof.
  induction ops as [|o ops IH]; intros z H; cbn [run_z] in *; [constructor|]. destruct (step_z z o) as [[[]|e] z1] eqn:E; [|discriminate H].
  econstructor; [exact E|]. apply IH. exact H.
Qed.
Definition end_z : zstate := snd (run_z start_z (sample_ops ++ [FlushItems])).
Lemma end_z_runs : sruns 200 plain_new_comp plain_comp plain_flush 3 start_z (sample_ops ++ [FlushItems]) end_z.
Proof. apply run_z_runs. vm_compute. reflexivity. Qed.
Lemma end_z_sizes : blobs_in 200 passthrough plain_new KRemembering (sa_arch (zs_arch end_z)) 0 = Ok 2 /\ size_of 200 passthrough plain_new KRemembering (sa_arch (zs_arch end_z)) 0 = Ok 14.
Proof. vm_compute. split; reflexivity. Qed.
Lemma start_fresh : fresh_strategy (zs_comp start_z) /\ fresh_strategy (zs_plain start_z).
Proof. split; exists NONE, 10; [left|right]; reflexivity. Qed.
Lemma sample_ok : Forall (fun x => item_ok 200 (fst x) (snd x)) (added_by sample_ops) /\ NoDup (urls_of (added_by sample_ops)) /\
  (forall u, In u (urls_of (added_by sample_ops)) -> get_entry_by_full_url (ca_zim (sa_arch (zs_arch start_z))) u = Err EntryNotFound) /\
  zlen (ml_types (sa_mimes (zs_arch end_z))) <= 65535.
Proof.
  split; [|split; [|split]].
  - repeat constructor; cbn [fst snd]; first [apply item_a_ok|apply item_b_ok|apply item_c_ok].
  - vm_compute. repeat constructor; cbn; intuition discriminate.
  - intros u H. vm_compute in H. repeat (destruct H as [<-|H]; [vm_compute; reflexivity|]). destruct H.
  - vm_compute. intro Q; discriminate Q.
Qed.
(** The conclusions of [C48_items] for this history. *)
Example C48_example : exists cells, archive_ok plain_stream start cells [] /\ map snd cells = [] /\
  let a' := sa_arch (zs_arch end_z) in
  read_blob_of 200 passthrough plain_new KRemembering a' 0 0 = Ok [x42] /\ read_blob_of 200 passthrough plain_new KRemembering a' 0 1 = Ok [x41] /\
  read_blob_of 200 passthrough plain_new KRemembering a' 1 0 = Ok [x43] /\
  option_map (fun l => length l) (article_urls (ca_zim a')) = Some 1%nat.
Proof.
  destruct start_ok as (cells & E & AO). exists cells. split; [exact AO|]. split; [exact E|]. vm_compute. auto.
Qed.
Theorem C48_refuted : ~ C48_full_statement.
Proof.
  intro H. destruct start_ok as (cells & E & AO). destruct sample_ok as (S1 & S2 & S3 & S4). destruct start_fresh as (F1 & F2). destruct end_z_sizes as (Z1 & Z2).
  assert (ZC : zlen cells = 0). { apply (f_equal (@length _)) in E. rewrite map_length in E. unfold zlen. rewrite E. reflexivity. }
  specialize (H 200%nat _ _ _ _ _ _ _ 3%nat KRemembering _ start_z sample_ops end_z cells [] 10 plain_codec AO F1 F2 ltac:(cbn; lia) ltac:(cbn; lia) ltac:(lia) end_z_runs S1 S2 S3).
  cbv zeta in H. rewrite ZC in H. specialize (H ltac:(reflexivity) ltac:(reflexivity) S4 0 2 14 ltac:(cbn; lia) Z1 Z2). lia.
Qed.

Print Assumptions C48_items.
Print Assumptions C48_size_partial.
Print Assumptions C48_refuted.
