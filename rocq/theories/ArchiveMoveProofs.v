(** Proofs about rewriting an entry whose size or url changes. *)
From Coq Require Import List ZArith Bool Lia Sorting.Sorted Sorting.Permutation.
From Coq Require Import ZifyBool ZifyNat.
From Verif Require Import Base BaseProofs Utf8 Utf8Proofs Entry EntrySpec EntryProofs PointerList PointerListSpec PointerListProofs
  SpaceAllocator SpaceAllocatorSpec SpaceAllocatorProofs Cluster Archive ArchiveSpec ArchiveProofs ArchiveWriteProofs.
Import ListNotations.
Open Scope Z_scope.

(** *** iteration over all entries *)
Lemma iter_range_map : forall {A} (g : Z -> res A) (l : list A) i n,
  (forall k x, znth l k = Some x -> g (i + k) = Ok x) -> n = length l -> iter_range g i n = Ok l.
Proof.
  intros A g l. induction l as [|x l IH]; intros i n H ->; [reflexivity|]. cbn [length iter_range].
  replace (g i) with (@Ok A x). 2: { symmetry. replace i with (i + 0) by lia. apply H. reflexivity. }
  cbn [bind]. rewrite (IH (i + 1)); [reflexivity| |reflexivity]. intros k y Hk.
  replace (i + 1 + k) with (i + (k + 1)) by lia. apply H. pose proof (znth_some _ _ _ Hk).
  change (x :: l) with ([x] ++ l). rewrite znth_app_r by (change (zlen [x]) with 1; lia). change (zlen [x]) with 1.
  replace (k + 1 - 1) with k by lia. exact Hk.
Qed.

Lemma iter_all : forall {A} (g : Z -> res A) (l : list A) n, n = zlen l ->
  (forall k x, znth l k = Some x -> g k = Ok x) -> iter_bounds n n g None None = Ok l.
Proof.
  intros A g l n -> H. unfold iter_bounds. pose proof (zlen_nonneg l). replace (0 <? 0) with false by lia.
  replace (zlen l <? zlen l) with false by lia. replace (zlen l <? 0) with false by lia.
  apply iter_range_map; [exact H|]. unfold zlen. lia.
Qed.

Lemma iter_entries_ok : forall s cells, core s cells -> iter_entries s None None = Ok (map snd cells).
Proof.
  intros s cells C. unfold iter_entries. apply iter_all.
  - rewrite (co_locs _ _ C), !zlen_map. reflexivity.
  - intros k x Hk. rewrite znth_map in Hk. destruct (znth cells k) as [c|] eqn:E; [|discriminate]. cbn in Hk. injection Hk as <-.
    rewrite (by_index_ok _ _ _ _ C E). cbn [bind]. apply stored_read. eapply core_nth; eauto.
Qed.

(** *** pointing redirects to a given index *)
Definition retarget_cell (urls : list ustr) (j : Z) (c : Z * entry) : Z * entry :=
  if umem (full_url (snd c)) urls then (fst c, with_redirect_index (snd c) j) else c.

Lemma umem_in : forall u l, umem u l = true <-> In u l.
Proof.
  intros u l. unfold umem. rewrite existsb_exists. split.
  - intros (x & Hx & E). apply ueqb_eq in E. subst. exact Hx.
  - intro H. exists u. split; [exact H|]. apply ueqb_eq. reflexivity.
Qed.

Lemma retarget_ok : forall rec wr j, (forall w, wr w = write_body rec w false true) ->
  forall urls s cells, core s cells -> zlen cells < 2 ^ 32 -> 0 <= j < zlen cells -> etitles_complete s (zlen cells) ->
  (forall u, In u urls -> exists c r, In c cells /\ full_url (snd c) = u /\ e_kind (snd c) = Redirect r) ->
  exists s', retarget wr urls j s = (Ok tt, s') /\ core s' (map (retarget_cell urls j) cells) /\
    z_upl s' = z_upl s /\ z_main s' = z_main s /\ z_alloc s' = z_alloc s /\
    keeps (z_file s) (z_file s') (fun x => forall c, In c cells -> umem (full_url (snd c)) urls = true -> ~ occupies c x) /\
    zlen (z_file s') = zlen (z_file s) /\
    etpl_rel (fun t t' => Permutation t' t) (z_etpl s) (z_etpl s') /\
    (forall k, In k (pl_ptrs (z_atpl s')) <-> In k (pl_ptrs (z_atpl s))).
Proof.
  intros rec wr j Hwr. induction urls as [|u urls IH]; intros s cells C Hn Hj Hcomp Hu.
  - exists s. cbn [retarget]. split; [reflexivity|]. split.
    { erewrite map_ext; [rewrite map_id; exact C|]. intro c. reflexivity. }
    do 3 (split; [reflexivity|]). split; [apply keeps_refl|]. split; [reflexivity|]. split; [apply etpl_rel_refl|tauto].
  - destruct (Hu u (or_introl eq_refl)) as (c & r & Hc & Ec & Ek).
    destruct (in_split _ _ Hc) as (A & B & ->). destruct c as [p e0]. cbn [fst snd] in *.
    assert (Hz : znth (A ++ (p, e0) :: B) (zlen A) = Some (p, e0)) by apply znth_mid.
    destruct (core_nth _ _ _ _ C Hz) as (Hp & Hs & Hkc & _).
    set (e' := with_redirect_index e0 j).
    destruct (is_article_found s _ (zlen A) (p, e0) (fresh e') C Hz) as (a & Ha & Hai); try reflexivity.
    destruct (write_in_place rec false s A p e0 B (fresh e') a) as (s1 & W1 & C1 & U1 & M1 & A1 & K1 & L1 & R1 & I1); try assumption; try reflexivity.
    { cbn [fresh w_entry]. eapply wri_storable; eauto. lia. }
    { cbn [fresh w_entry]. eapply wri_consistent; eauto. }
    { cbn [fresh w_entry]. eapply wri_span; eauto. lia. }
    { cbn [fresh w_entry]. intro At. apply Hai in At. unfold e'; cbn. eapply (co_articles _ _ C); [exact At|].
      rewrite znth_map, Hz. reflexivity. }
    { intros t Ht. apply (Hcomp t Ht). apply znth_some in Hz. exact Hz. }
    { cbn [fresh w_entry]. intros r' Hr'. unfold e' in Hr'. cbn in Hr'. injection Hr' as <-. exact Hj. }
    cbn [fresh w_entry] in C1.
    assert (Ln : zlen (A ++ (p, e') :: B) = zlen (A ++ (p, e0) :: B)) by (rewrite !zlen_app, !zlen_cons; reflexivity).
    destruct (IH s1 (A ++ (p, e') :: B) C1) as (s2 & W2 & C2 & U2 & M2 & A2 & K2 & L2 & R2 & I2).
    { lia. } { lia. }
    { intros t Ht k Hk. destruct (z_etpl s) as [t0|] eqn:E0; rewrite Ht in R1; cbn [etpl_rel] in R1; [|contradiction].
      apply (Permutation_in _ (Permutation_sym R1)). apply (Hcomp t0 E0). lia. }
    { intros v Hv. destruct (Hu v (or_intror Hv)) as (d & r' & Hd & Ed & Ekd). apply in_app_or in Hd. destruct Hd as [Hd|[<-|Hd]].
      - exists d, r'. split; [apply in_or_app; auto|auto].
      - exists (p, e'), j. split; [apply in_or_app; right; left; reflexivity|]. split; [exact Ed|reflexivity].
      - exists d, r'. split; [apply in_or_app; right; right; exact Hd|auto]. }
    exists s2. split.
    { cbn [retarget]. rewrite (mbind_ok _ _ _ e0 s).
      2: { apply query_ok. rewrite <- Ec. change e0 with (snd (p, e0)). eapply lookup_found; eauto. }
      rewrite (mbind_ok _ _ _ e' s).
      2: { apply query_ok. rewrite Ek. unfold set_redirect_index. replace (j <? 0) with false by lia. reflexivity. }
      rewrite (mbind_ok _ _ _ tt s1) by (rewrite Hwr; exact W1). exact W2. }
    assert (Nu : forall d, In d (A ++ B) -> full_url (snd d) <> u).
    { intros d Hd E. pose proof (co_sorted _ _ C) as S. 
      assert (Hu2 : exists k, k <> zlen A /\ znth (A ++ (p, e0) :: B) k = Some d).
      { apply in_app_or in Hd. destruct Hd as [Hd|Hd]; apply in_znth in Hd as [k Hk].
        - exists k. apply znth_some in Hk as Hk'. split; [lia|]. rewrite znth_app_l by lia. exact Hk.
        - exists (zlen A + 1 + k). apply znth_some in Hk as Hk'. split; [lia|]. rewrite znth_app_r by lia.
          change ((p, e0) :: B) with ([(p, e0)] ++ B). rewrite znth_app_r by (change (zlen [(p, e0)]) with 1; lia).
          change (zlen [(p, e0)]) with 1. replace (zlen A + 1 + k - zlen A - 1) with k by lia. exact Hk. }
      destruct Hu2 as (k & Hk1 & Hk2). apply Hk1.
      apply (url_unique (map snd (A ++ (p, e0) :: B)) k (zlen A) (snd d) e0 S); [rewrite znth_map, Hk2; reflexivity|rewrite znth_map, Hz; reflexivity|congruence]. }
    assert (Hm : forall d, full_url (snd d) <> u -> retarget_cell (u :: urls) j d = retarget_cell urls j d).
    { intros d Hd. unfold retarget_cell, umem. cbn [existsb].
      replace (ueqb (full_url (snd d)) u) with false; [reflexivity|].
      symmetry. destruct (ueqb (full_url (snd d)) u) eqn:E; [|reflexivity]. apply ueqb_eq in E. contradiction. }
    assert (Hue : umem (full_url e0) (u :: urls) = true) by (apply umem_in; left; congruence).
    split.
    { replace (map (retarget_cell (u :: urls) j) (A ++ (p, e0) :: B)) with (map (retarget_cell urls j) (A ++ (p, e') :: B)); [exact C2|].
      rewrite !map_mid. f_equal; [|f_equal].
      - apply map_ext_in. intros d Hd. symmetry. apply Hm. apply Nu. apply in_or_app; auto.
      - unfold retarget_cell. cbn [fst snd]. rewrite Hue. fold e'. destruct (umem (full_url e') urls); reflexivity.
      - apply map_ext_in. intros d Hd. symmetry. apply Hm. apply Nu. apply in_or_app; auto. }
    split; [congruence|]. split; [congruence|]. split; [congruence|]. split.
    { eapply keeps_weaken; [eapply keeps_trans; [exact K1|exact K2|lia]|]. cbv beta. intros x Hx. split.
      - apply (Hx (p, e0)); [apply in_or_app; right; left; reflexivity|exact Hue].
      - intros d Hd Hdu. apply in_app_or in Hd. destruct Hd as [Hd|[<-|Hd]].
        + apply (Hx d); [apply in_or_app; auto|]. apply umem_in. right. apply umem_in. exact Hdu.
        + intro Ho. apply (Hx (p, e0)); [apply in_or_app; right; left; reflexivity|exact Hue|].
          unfold occupies in *. cbn [fst snd] in *. unfold e' in Ho. rewrite (wri_span e0 r j Hs Ek ltac:(lia)) in Ho. exact Ho.
        + apply (Hx d); [apply in_or_app; right; right; exact Hd|]. apply umem_in. right. apply umem_in. exact Hdu. }
    split; [congruence|]. split; [eapply etpl_rel_trans; eauto|].
    intro k. rewrite I2, I1. split.
    + intros [[ -> X1]|[_ H]]; [apply Hai; exact X1|exact H].
    + intro H. destruct (Z.eq_dec k (zlen A)) as [->|]; [left; split; [reflexivity|apply Hai; exact H]|right; auto].
Qed.

(** *** stage 2 of [write_entry] for an existing entry *)
Definition stage2 (o : old_info) (size_changed : bool) (new_size : Z) (e : entry) : M zim Z :=
  let* _ := update (fun s => if size_changed then do a <- mark_free (z_alloc s) (o_offset o) (o_size o) ;; Ok (set_alloc a s) else Ok s) in
  let* offset := (fun s => if size_changed
                           then match allocate (z_alloc s) new_size with
                                | Ok (p, a) => (Ok p, set_alloc a s)
                                | Err x => (Err x, s)
                                end
                           else (Ok (o_offset o), s)) in
  let* _ := write_at offset e in ret offset.

Lemma mark_free_total : forall a start len, 0 <= start -> 0 <= len -> exists a', mark_free a start len = Ok a'.
Proof.
  intros a start len H1 H2. unfold mark_free. replace ((start <? 0) || (len <? 0)) with false by lia.
  destruct (len =? 0); eauto.
Qed.

Lemma stage2_ok : forall s A p0 e0 B e et at_, core s (A ++ (p0, e0) :: B) -> entry_storable e -> kind_consistent e ->
  exists off f1 al, stage2 (mkOld (zlen A) p0 (span e0) et at_) (negb (span e0 =? span e)) (span e) e s = (Ok off, set_file f1 (set_alloc al s)) /\
    stored f1 off e /\ Forall (fun c => stored f1 (fst c) (snd c)) (A ++ B) /\
    Forall (fun c => forall x, occupies c x -> in_use al x) (A ++ B) /\ canonical al /\ 0 <= file_end al /\
    (forall x, occupies (off, e) x -> in_use al x) /\ Forall (apart (off, e)) (A ++ B) /\
    keeps (z_file s) f1 (fun x => in_use (z_alloc s) x /\ ~ occupies (p0, e0) x) /\
    (forall x, in_use al x <-> (in_use (z_alloc s) x /\ ~ occupies (p0, e0) x) \/ occupies (off, e) x) /\
    (forall x, occupies (off, e) x -> ~ (in_use (z_alloc s) x /\ ~ occupies (p0, e0) x)) /\
    zlen (z_file s) <= zlen f1.
Proof.
  intros s A p0 e0 B e et at_ C Hs Hk.
  assert (Hz : znth (A ++ (p0, e0) :: B) (zlen A) = Some (p0, e0)) by apply znth_mid.
  pose proof (core_nth _ _ _ _ C Hz) as St. cbn [fst snd] in St. pose proof St as (Hp0 & Hs0 & _).
  destruct (storable_span e Hs) as [Hsz Hpos]. destruct (entry_size_storable e Hs) as (b & Hb & _).
  destruct (storable_span e0 Hs0) as [Hsz0 Hpos0].
  pose proof (span_ok _ _ Hb) as Hsp.
  pose proof (co_used _ _ C) as U. apply Forall_mid in U as (U1 & U2 & U3).
  pose proof (apart_mid _ _ _ (co_apart _ _ C)) as Ap0.
  pose proof (co_stored _ _ C) as F. apply Forall_mid in F as (F1 & F2 & F3).
  assert (UAB : forall c x, In c (A ++ B) -> occupies c x -> in_use (z_alloc s) x /\ ~ occupies (p0, e0) x).
  { intros c x Hc Hx. rewrite Forall_forall in U1, U3. split.
    - apply in_app_or in Hc as [Hc|Hc]; eauto.
    - intro Ho. apply (Ap0 c) with (x := x); [apply in_app_or in Hc; tauto|]. split; assumption. }
  (* the allocator after freeing and allocating, in both cases *)
  assert (Hst : exists off al, stage2 (mkOld (zlen A) p0 (span e0) et at_) (negb (span e0 =? span e)) (span e) e s =
      (Ok off, set_file (fwrite (z_file s) off b) (set_alloc al s)) /\ 0 <= off /\ canonical al /\ 0 <= file_end al /\
      (forall x, in_use al x <-> (in_use (z_alloc s) x /\ ~ occupies (p0, e0) x) \/ occupies (off, e) x) /\
      (forall x, occupies (off, e) x -> ~ (in_use (z_alloc s) x /\ ~ occupies (p0, e0) x))).
  { unfold stage2. cbn [o_offset o_size]. destruct (Z.eqb_spec (span e0) (span e)) as [E|E]; cbn [negb].
    - exists p0, (z_alloc s). split.
      { rewrite (mbind_ok _ _ _ tt s) by reflexivity. rewrite (mbind_ok _ _ _ p0 s) by reflexivity.
        rewrite (mbind_ok _ _ _ tt (set_file (fwrite (z_file s) p0 b) s)).
        - destruct s; reflexivity.
        - unfold write_at. apply update_ok. rewrite Hb. reflexivity. }
      split; [exact Hp0|]. split; [exact (co_canonical _ _ C)|]. split; [exact (co_end _ _ C)|].
      assert (Eo : forall x, occupies (p0, e) x <-> occupies (p0, e0) x) by (intro x; unfold occupies; cbn [fst snd]; rewrite E; tauto).
      split; [|intros x Hx; rewrite Eo in Hx; tauto]. intro x. rewrite Eo. split.
      + intro Hx. unfold occupies. cbn [fst snd]. destruct (Z_le_dec p0 x), (Z_lt_dec x (p0 + span e0)); try (right; lia); left; (split; [exact Hx|lia]).
      + intros [[Hx _]|Hx]; [exact Hx|]. apply U2. exact Hx.
    - destruct (mark_free_total (z_alloc s) p0 (span e0) Hp0 ltac:(lia)) as [a1 Hm].
      assert (Hend : p0 + span e0 <= file_end (z_alloc s)).
      { assert (O : occupies (p0, e0) (p0 + span e0 - 1)) by (unfold occupies; cbn [fst snd]; lia). apply U2 in O as [O _]. lia. }
      destruct (mark_free_spec _ _ _ _ (co_canonical _ _ C) Hend Hm) as (C1 & _ & _ & E1 & L1).
      pose proof (co_end _ _ C) as En.
      destruct (allocate_total a1 (span e) ltac:(lia)) as (off & al & Hal).
      destruct (allocate_in_use _ _ _ _ C1 ltac:(lia) Hal) as (Hoff & Ca & En' & Hu & Hnew).
      assert (H1 : forall x, in_use a1 x <-> in_use (z_alloc s) x /\ ~ occupies (p0, e0) x).
      { intro x. unfold in_use. rewrite E1, L1. unfold occupies. cbn [fst snd]. tauto. }
      exists off, al. split.
      { rewrite (mbind_ok _ _ _ tt (set_alloc a1 s)) by (apply update_ok; rewrite Hm; reflexivity).
        rewrite (mbind_ok _ _ _ off (set_alloc al s)).
        2: { cbn [set_alloc z_alloc]. rewrite Hal. destruct s; reflexivity. }
        rewrite (mbind_ok _ _ _ tt (set_file (fwrite (z_file s) off b) (set_alloc al s))); [reflexivity|].
        unfold write_at. apply update_ok. rewrite Hb. reflexivity. }
      split; [exact Hoff|]. split; [exact Ca|]. split; [exact En'|]. split.
      + intro x. rewrite Hu, H1. unfold occupies. cbn [fst snd]. split; [|tauto]. intros [H|[H|H]]; [tauto|tauto|lia].
      + intros x Hx Hc. apply (Hnew x); [exact Hx|]. apply H1. exact Hc. }
  destruct Hst as (off & al & Hst & Hoff & Ca & En & Hu & Hnew).
  assert (K : keeps (z_file s) (fwrite (z_file s) off b) (fun x => in_use (z_alloc s) x /\ ~ occupies (p0, e0) x)).
  { eapply keeps_weaken; [apply keeps_fwrite; exact Hoff|]. intros x Hx Hc. apply (Hnew x); [|exact Hx].
    unfold occupies. cbn [fst snd]. lia. }
  exists off, (fwrite (z_file s) off b), al. split; [exact Hst|]. split; [apply stored_fwrite; assumption|]. split.
  { apply Forall_forall. intros c Hc. eapply stored_keeps.
    - apply in_app_or in Hc. rewrite Forall_forall in F1, F3. destruct Hc; eauto.
    - eapply keeps_weaken; [exact K|]. intros x Hx. apply (UAB c); [exact Hc|]. destruct c; exact Hx. }
  split. { apply Forall_forall. intros c Hc x Hx. apply Hu. left. eapply UAB; eauto. }
  split; [exact Ca|]. split; [exact En|]. split; [intros x Hx; apply Hu; auto|]. split.
  { apply Forall_forall. intros c Hc x [H1 H2]. apply (Hnew x H1). eapply UAB; eauto. }
  split; [exact K|]. split; [exact Hu|]. split; [exact Hnew|]. rewrite fwrite_len by exact Hoff. lia.
Qed.

Lemma touched_redirect : forall start skip e, touched start skip e = true -> is_redirect e = true.
Proof. intros start skip e H. unfold touched in H. destruct (is_redirect e); [reflexivity|discriminate]. Qed.

Lemma shift_is_redirect : forall start diff skip e, is_redirect (shift_entry start diff skip e) = is_redirect e.
Proof. intros. unfold shift_entry. destruct (touched start skip e); [|reflexivity]. destruct (e_kind e); reflexivity. Qed.

Lemma shift_kind : forall start diff skip e r, e_kind e = Redirect r ->
  exists r', e_kind (shift_entry start diff skip e) = Redirect r' /\
    r' = if touched start skip e then r + diff else r.
Proof. intros. unfold shift_entry. destruct (touched start skip e); rewrite H; cbn; eauto. Qed.
Lemma shift_content : forall start diff skip e c b, e_kind e = Content c b -> shift_entry start diff skip e = e.
Proof. intros. unfold shift_entry. rewrite H. destruct (touched start skip e); reflexivity. Qed.

Lemma in_redirects_to : forall i L u, In u (redirects_to i L) <-> exists e, In e L /\ full_url e = u /\ is_redirect e = true /\ e_kind e = Redirect i.
Proof.
  intros i L u. unfold redirects_to. rewrite in_map_iff. split.
  - intros (e & E & H). apply filter_In in H as [H1 H2]. apply andb_prop in H2 as [H2 H3]. exists e.
    destruct (e_kind e) as [|r]; [discriminate|]. apply Z.eqb_eq in H3. subst r. auto.
  - intros (e & H1 & H2 & H3 & H4). exists e. split; [exact H2|]. apply filter_In. split; [exact H1|]. rewrite H3, H4, Z.eqb_refl. reflexivity.
Qed.

(** *** [write_entry] of an existing entry whose url or size changes *)
Definition moved_cell (i j : Z) (u : ustr) (U : list ustr) (c : Z * entry) : Z * entry :=
  retarget_cell U j (shift_cell j 1 [u] (shift_cell i (-1) [] c)).

Lemma write_move : forall rec w s A p0 e0 B a, let e := w_entry w in let i := zlen A in let cells := A ++ (p0, e0) :: B in
  (exists rec', forall w, rec w true = write_body rec' w true true) -> (exists rec', forall w, rec w false = write_body rec' w false true) ->
  core s cells -> etitles_complete s (zlen cells) -> targets_in (zlen cells) (A ++ B) -> zlen cells < 2 ^ 32 ->
  w_old_url w = full_url e0 -> e_kind e0 <> Redirect i -> entry_storable e -> kind_consistent e ->
  (full_url e <> full_url e0 \/ span e <> span e0) ->
  (forall c, In c (A ++ B) -> full_url (snd c) <> full_url e) ->
  (forall r, e_kind e = Redirect r -> 0 <= r < i) ->
  (forall d, In d (A ++ B) -> e_kind (snd d) = Redirect 0 -> 0 < i) ->
  is_article s w = Ok a -> (a = true -> e_ns e = NS_C) ->
  exists A' B' off, A ++ B = A' ++ B' /\
    (forall c, In c A' -> url_lt (snd c) e) /\ (forall c, In c B' -> url_lt e (snd c)) /\
    let j := zlen A' in
    let U := if negb (ueqb (full_url e0) (full_url e)) && negb (i =? j) then redirects_to i (map snd cells) else [] in
    let g := moved_cell i j (full_url e) U in
    ((exists s', write_body rec w true true s = (Ok tt, s') /\
       core s' (map g A' ++ (off, bumped j e) :: map g B') /\ etitles_complete s' (zlen cells) /\
       (forall k, In k (pl_ptrs (z_atpl s')) <-> (k = j /\ a = true) \/
          exists k0, In k0 (pl_ptrs (z_atpl s)) /\ k0 <> i /\ k = shift_ptr j 1 (shift_ptr i (-1) k0)) /\
       z_main s' = shift_main j 1 (shift_main i (-1) (z_main s)) /\
       (forall x, in_use (z_alloc s') x <-> (in_use (z_alloc s) x /\ ~ occupies (p0, e0) x) \/ occupies (off, e) x) /\
       (forall x, occupies (off, e) x -> ~ (in_use (z_alloc s) x /\ ~ occupies (p0, e0) x)) /\
       keeps (z_file s) (z_file s') (fun x => in_use (z_alloc s) x /\ ~ occupies (p0, e0) x /\
         forall c, In c (A ++ B) -> is_redirect (snd c) = true -> ~ occupies c x) /\ zlen (z_file s) <= zlen (z_file s') /\
       (z_etpl s = None <-> z_etpl s' = None)) \/
     (exists s' c, In c (A ++ B) /\ is_redirect (snd c) = true /\ fst c < zlen cells /\ write_body rec w true true s = (Err AssertionError, s'))).
Proof.
  intros rec w s A p0 e0 B a e i cells [rec' Hrec] [rec'' Hrec2] C Hcomp Ht Hn Hou Hself Hs Hk Hmv Hf Hown Hz0 Har HaC.
  assert (Hz : znth cells i = Some (p0, e0)) by apply znth_mid.
  assert (Hi : 0 <= i < zlen cells) by (eapply znth_some; eauto).
  assert (Hcov : forall t, z_etpl s = Some t -> In i (pl_ptrs t)) by (intros t Htt; apply (Hcomp t Htt); exact Hi).
  destruct (find_old_found s cells i (p0, e0) w C Hz Hou Hcov) as (et & at_ & Hfo & Pe & Pa). cbn [fst snd] in Hfo.
  destruct (storable_span e Hs) as [Hsz Hpos].
  destruct (stage2_ok s A p0 e0 B e et at_ C Hs Hk) as (off & f1 & al & H2 & St & FS & FU & Ca & En & Us & Ap & K1 & Hu & Hnew & L1).
  fold i in H2. set (s1 := set_file f1 (set_alloc al s)) in *.
  destruct (drop_etitle_ok s1 et i (map snd cells)) as (et' & De & Re & Me).
  { intros t Htt. cbn in Htt. split; [apply (co_etpl _ _ C); exact Htt|]. split; [apply (co_mut_e _ _ C); exact Htt|apply Pe; exact Htt]. }
  change (z_etpl s1) with (z_etpl s) in Re.
  destruct (drop_atitle_ok (set_etpl et' s1) at_ i (map snd cells)) as (at' & Da & Ra & Ma).
  { apply (co_atpl _ _ C). } { apply (co_mut_a _ _ C). } { exact Pa. }
  change (z_atpl (set_etpl et' s1)) with (z_atpl s) in Ra.
  set (s3 := set_atpl at' (set_etpl et' s1)) in *.
  assert (LAB : zlen cells = zlen (A ++ B) + 1) by (unfold cells; rewrite !zlen_app, zlen_cons; lia).
  pose proof (rem_ok rec' (fun w => rec w true) s s3 A (p0, e0) B true Hrec Hn C Hcomp Ht Hz0 eq_refl FS FU Ca En Ra Ma Re Me (or_introl eq_refl)) as Hrem.
  cbv zeta in Hrem. fold i in Hrem. set (sh0 := shift_cell i (-1) []) in *.
  set (uc := negb (ueqb (full_url e0) (full_url e))) in *.
  assert (Huc : uc || negb (span e0 =? span e) = true).
  { unfold uc. destruct (ueqb (full_url e0) (full_url e)) eqn:Eq; [|reflexivity]. apply ueqb_eq in Eq. destruct Hmv as [Hmv|Hmv]; [congruence|]. cbn. lia. }
  set (tu := if uc then redirects_to i (map snd cells) else []).
  (* the beginning of the call, up to the removal of the pointer *)
  assert (Hhead : forall res, rem (fun w => rec w true) i true s3 = res -> write_body rec w true true s =
     mbind (fun _ => res) (fun _ =>
       let* ie := ins rec off e in
       let (new_index, e') := (ie : Z * entry) in
       let* _ := add_titles e' a new_index in
       let* _ := (if i =? new_index then ret tt else retarget (fun w => rec w false) tu new_index) in
       if is_redirect e' then let* _ := query (fun s => follow s e') in ret tt else ret tt) s3).
  { intros res Hres. unfold write_body. fold e.
    rewrite (mbind_ok _ _ _ a s) by (apply query_ok; exact Har).
    rewrite (mbind_ok _ _ _ (span e) s) by (apply query_ok; exact Hsz).
    rewrite (mbind_ok _ _ _ (Some (mkOld i p0 (span e0) et at_)) s) by (apply query_ok; exact Hfo).
    cbv beta iota zeta. cbn [o_index o_etitle o_atitle option_map]. rewrite Hou. fold uc.
    rewrite (mbind_ok _ _ _ tu s).
    2: { apply query_ok. cbn [andb]. unfold tu. destruct uc; [|reflexivity]. rewrite (iter_entries_ok _ _ C). reflexivity. }
    unfold stage2 in H2. apply mbind_inv in H2 as ([] & sa & Ha1 & H2). apply mbind_inv in H2 as (off' & sb & Hb1 & H2).
    apply mbind_inv in H2 as ([] & sc & Hc1 & H2). unfold ret in H2. injection H2 as -> ->.
    rewrite (mbind_ok _ _ _ tt sa) by exact Ha1.
    rewrite (mbind_ok _ _ _ off sb). 2: { rewrite <- Hb1. cbn [o_size o_offset]. destruct (negb (span e0 =? span e)); reflexivity. }
    rewrite (mbind_ok _ _ _ tt s1) by exact Hc1.
    rewrite (mbind_ok _ _ _ tt (set_etpl et' s1)) by exact De.
    rewrite (mbind_ok _ _ _ tt s3) by exact Da.
    cbn [o_size o_offset]. rewrite Huc. fold (rem (fun w => rec w true) i true). fold (ins rec off e).
    unfold mbind at 1. rewrite Hres. unfold mbind at 3. destruct res as [[[]|x] s4]; reflexivity. }
  assert (Hbnd : forall d r, In d (A ++ B) -> e_kind (snd d) = Redirect r -> touched i [] (snd d) = true -> 0 <= r + -1 < zlen (A ++ B)).
  { intros d r Hd Hr T. pose proof (Ht d r Hd Hr). unfold touched in T. rewrite Hr in T. apply andb_prop in T as [_ T].
    assert (r <> 0). { intros ->. specialize (Hz0 d Hd Hr). lia. } lia. }
  assert (HstAB : forall d, In d (A ++ B) -> entry_storable (snd d) /\ kind_consistent (snd d)).
  { intros d Hd. rewrite Forall_forall in FS. destruct (FS d Hd) as (_ & H1 & H3 & _). auto. }
  assert (Occ : forall d x, In d (A ++ B) -> occupies (sh0 d) x <-> occupies d x).
  { intros d x Hd. unfold occupies, sh0, shift_cell. cbn [fst snd]. rewrite shift_span; [tauto|apply HstAB; exact Hd|].
    intros r T Hr. pose proof (Hbnd d r Hd Hr T). lia. }
  destruct Hrem as [(s4 & W4 & C4 & Hc4 & I4 & M4 & A4 & K4 & L4 & E4 & N4)|(s4 & d & Hd & Hcl & W4)].
  2: { (* the assertion fails during the removal *)
    destruct (url_add_ok (shift_lists i (-1) true (set_upl (mkPlist (map fst A ++ map fst B) true true 0) s3)) (A ++ B) off e) as (A' & B' & u' & E & _ & _ & _ & _ & H1 & H3).
    { eapply core_remove; eauto. }
    { pose proof (shift_lists_rest i (-1) true (set_upl (mkPlist (map fst A ++ map fst B) true true 0) s3)) as (_ & _ & _ & ->). exact St. }
    { exact Hf. }
    exists A', B', off. split; [exact E|]. split; [exact H1|]. split; [exact H3|]. right. exists s4, d. split; [exact Hd|].
    destruct Hcl as [T Hcl]. split; [eapply touched_redirect; eauto|]. split; [|rewrite (Hhead _ W4); reflexivity].
    destruct (e_kind (snd d)) as [cn bn|r] eqn:Ek; [unfold touched in T; rewrite Ek, andb_false_r in T; discriminate|].
    destruct (shift_kind i (-1) [] (snd d) r Ek) as (r' & Hr' & ->). rewrite T in Hr'. pose proof (Hbnd d r Hd Ek T). rewrite Hr' in Hcl. injection Hcl as Hcl. lia. }
  (* insertion *)
  assert (St4 : stored (z_file s4) off e).
  { eapply stored_keeps; [exact St|]. eapply keeps_weaken; [exact K4|]. intros x Hx d Hd _ Ho. rewrite Forall_forall in Ap. exact (Ap d Hd x (conj Hx Ho)). }
  assert (Us4 : forall x, occupies (off, e) x -> in_use (z_alloc s4) x) by (intros x Hx; rewrite A4; apply Us; exact Hx).
  assert (Ap4 : Forall (apart (off, e)) (map sh0 (A ++ B))).
  { apply Forall_forall. intros d Hd x [H1 H3]. apply in_map_iff in Hd as (d0 & <- & Hd0). rewrite (Occ d0 x Hd0) in H3.
    rewrite Forall_forall in Ap. exact (Ap d0 Hd0 x (conj H1 H3)). }
  assert (Hf4 : forall d, In d (map sh0 (A ++ B)) -> full_url (snd d) <> full_url e).
  { intros d Hd. apply in_map_iff in Hd as (d0 & <- & Hd0). unfold sh0, shift_cell. cbn [snd]. rewrite shift_full_url. auto. }
  assert (Ht4 : targets_in (zlen (map sh0 (A ++ B))) (map sh0 (A ++ B))).
  { intros d r Hd Hr. apply in_map_iff in Hd as (d0 & <- & Hd0). unfold sh0, shift_cell in Hr. cbn [snd] in Hr. rewrite zlen_map.
    destruct (e_kind (snd d0)) as [cn bn|r0] eqn:Ek; [rewrite (shift_content i (-1) [] _ cn bn Ek), Ek in Hr; discriminate|].
    destruct (shift_kind i (-1) [] (snd d0) r0 Ek) as (r' & Hr' & E). rewrite Hr in Hr'. injection Hr' as <-.
    destruct (touched i [] (snd d0)) eqn:T; [rewrite E; exact (Hbnd d0 r0 Hd0 Ek T)|]. subst r.
    pose proof (Ht d0 r0 Hd0 Ek) as Hr0. unfold touched in T. rewrite Ek, (kind_redirect _ _ (proj2 (HstAB d0 Hd0)) Ek) in T.
    cbn [umem existsb negb andb] in T. lia. }
  assert (Hc4' : etitles_complete s4 (zlen (map sh0 (A ++ B)))) by (rewrite zlen_map; exact Hc4).
  assert (Hn4 : zlen (map sh0 (A ++ B)) + 1 < 2 ^ 32) by (rewrite zlen_map; lia).
  assert (Hown4 : forall r, e_kind e = Redirect r -> 0 <= r < zlen (map sh0 (A ++ B))) by (intros r Hr; rewrite zlen_map; specialize (Hown r Hr); lia).
  destruct (ins_ok rec s4 (map sh0 (A ++ B)) off e (ex_intro _ rec' Hrec) Hn4 C4 St4 Us4 Ap4 Hf4 Hc4' Ht4 Hown4) as (A1 & B1 & EC & Hord & Hout).
  cbv zeta in Hout.
  destruct (split_map _ _ _ _ EC) as (A' & B' & EAB & EA1 & EB1).
  assert (Hlen : zlen A1 = zlen A') by (rewrite <- EA1; apply zlen_map).
  assert (HltA : (forall c, In c A' -> url_lt (snd c) e) /\ (forall c, In c B' -> url_lt e (snd c))).
  { destruct Hord as [H1 H3]. split; intros c Hc.
    - specialize (H1 (sh0 c)). rewrite <- EA1 in H1. specialize (H1 (in_map sh0 _ _ Hc)).
      unfold url_lt, sh0, shift_cell in H1. cbn [snd] in H1. rewrite shift_full_url in H1. exact H1.
    - specialize (H3 (sh0 c)). rewrite <- EB1 in H3. specialize (H3 (in_map sh0 _ _ Hc)).
      unfold url_lt, sh0, shift_cell in H3. cbn [snd] in H3. rewrite shift_full_url in H3. exact H3. }
  exists A', B', off. split; [exact EAB|]. split; [apply HltA|]. split; [apply HltA|]. cbv zeta. rewrite Hlen in Hout. set (j := zlen A') in *.
  set (sh1 := shift_cell j 1 [full_url e]) in *.
  destruct Hout as [(s5 & W5 & C5 & M5 & A5 & K5 & L5 & R5 & I5 & N5)|(s5 & d & Hd & [T Hcl] & W5)].
  2: { right. apply in_map_iff in Hd as (d0 & <- & Hd0). exists s5, d0. split; [exact Hd0|].
    unfold sh0, shift_cell in T, Hcl. cbn [fst snd] in T, Hcl. split.
    { apply touched_redirect in T. rewrite shift_is_redirect in T. exact T. }
    split.
    - destruct (e_kind (shift_entry i (-1) [] (snd d0))) as [cn bn|r] eqn:Ek; [unfold touched in T; rewrite Ek, andb_false_r in T; discriminate|].
      destruct (shift_kind j 1 [full_url e] _ r Ek) as (r' & Hr' & ->). rewrite T in Hr'. rewrite Hr' in Hcl. injection Hcl as Hcl.
      specialize (Ht4 (sh0 d0) r (in_map sh0 _ _ Hd0) Ek). rewrite zlen_map in Ht4. lia.
    - rewrite (Hhead _ W4). erewrite (mbind_ok (fun _ => (Ok tt, s4))) by reflexivity. erewrite mbind_err by exact W5. reflexivity. }
  left. set (e' := bumped j e) in *. set (cells5 := map sh1 A1 ++ (off, e') :: map sh1 B1) in *.
  assert (Lz : zlen (map sh1 A1) = j) by (rewrite zlen_map; exact Hlen).
  assert (L5c : zlen cells5 = zlen cells).
  { unfold cells5. rewrite LAB. rewrite zlen_app, zlen_cons, !zlen_map, <- EA1, <- EB1, !zlen_map, EAB, zlen_app. lia. }
  assert (Hz5 : znth (map snd cells5) j = Some e').
  { unfold cells5. rewrite map_mid. rewrite <- Lz, <- (zlen_map (@snd Z entry)). apply znth_mid. }
  assert (Na : ~ In j (pl_ptrs (z_atpl s5))).
  { intro Hj. apply I5 in Hj as (k & _ & Hk'). symmetry in Hk'. exact (shift_up_ne _ _ Hk'). }
  assert (Ne : forall t, z_etpl s5 = Some t -> ~ In j (pl_ptrs t)).
  { intros t Ht' Hj. rewrite Ht' in R5. destruct (z_etpl s4); cbn [etpl_rel] in R5; [|contradiction].
    apply R5 in Hj as (k & _ & Hk'). symmetry in Hk'. exact (shift_up_ne _ _ Hk'). }
  destruct (add_titles_ok s5 cells5 j e' a C5 Hz5 Ne Na) as (s6 & Ad & C6 & U6 & M6 & A6 & F6 & R6 & P6).
  { intro. unfold e'. rewrite (proj2 (bumped_title j e)). auto. }
  assert (Hc6 : etitles_complete s6 (zlen cells)).
  { intros t Ht' k Hk'. rewrite Ht' in R6. destruct (z_etpl s5) as [t5|] eqn:E5; cbn [etpl_rel] in R6; [|contradiction].
    apply (Permutation_in _ (Permutation_sym R6)). destruct (Z.eq_dec k j) as [->|Hne]; [left; reflexivity|right].
    destruct (z_etpl s4) as [t4|] eqn:E4'; cbn [etpl_rel] in R5; [|contradiction].
    apply R5. exists (shift_ptr j (-1) k). rewrite shift_up_down by exact Hne. split; [|reflexivity].
    apply (Hc4 t4 E4'). assert (0 <= j <= zlen (A ++ B)) by (unfold j; rewrite EAB, zlen_app; pose proof (zlen_nonneg A'); pose proof (zlen_nonneg B'); lia).
    unfold shift_ptr. destruct (Z.leb_spec j k); lia. }
  set (U := if uc && negb (i =? j) then redirects_to i (map snd cells) else []).
  assert (HU : forall u, In u U -> exists d0, In d0 (A ++ B) /\ full_url (snd d0) = u /\ is_redirect (snd d0) = true /\ e_kind (snd d0) = Redirect i).
  { intros u Hu'. unfold U in Hu'. destruct (uc && negb (i =? j)); [|contradiction]. apply in_redirects_to in Hu' as (d & Hd & E1 & E2 & E3).
    apply in_map_iff in Hd as (d0 & <- & Hd0). unfold cells in Hd0. apply in_app_or in Hd0. destruct Hd0 as [Hd0|[<-|Hd0]].
    - exists d0. split; [apply in_or_app; auto|auto].
    - cbn [snd] in E3. contradiction.
    - exists d0. split; [apply in_or_app; auto|auto]. }
  assert (HnU : umem (full_url e') U = false).
  { destruct (umem (full_url e') U) eqn:E; [|reflexivity]. exfalso. apply umem_in in E. apply HU in E as (d0 & Hd0 & E1 & _).
    unfold e' in E1. rewrite bumped_full_url in E1. exact (Hf d0 Hd0 E1). }
  assert (Hin5 : forall d0, In d0 (A ++ B) -> In (sh1 (sh0 d0)) cells5).
  { intros d0 Hd0. rewrite EAB in Hd0. apply in_app_or in Hd0. unfold cells5. apply in_or_app. rewrite <- EA1, <- EB1.
    destruct Hd0 as [Hd0|Hd0]; [left|right; right]; apply in_map; apply in_map; exact Hd0. }
  assert (Hsh_url : forall d0, full_url (snd (sh1 (sh0 d0))) = full_url (snd d0)).
  { intro d0. unfold sh1, sh0, shift_cell. cbn [snd]. rewrite !shift_full_url. reflexivity. }
  assert (Occ5 : forall d0 x, In d0 (A ++ B) -> occupies (sh1 (sh0 d0)) x <-> occupies d0 x).
  { intros d0 x Hd0. rewrite <- (Occ d0 x Hd0). unfold occupies, sh1. unfold shift_cell at 1 2 3. cbn [fst snd].
    rewrite shift_span; [tauto| |].
    - pose proof (co_stored _ _ C4) as F. rewrite Forall_forall in F. destruct (F (sh0 d0) (in_map sh0 _ _ Hd0)) as (_ & H & _). exact H.
    - intros r _ Hr. pose proof (Ht4 _ r (in_map sh0 _ _ Hd0) Hr) as H. rewrite zlen_map in H. lia. }
  assert (Hrt : exists s7, (if i =? j then ret tt else retarget (fun w => rec w false) tu j) s6 = (Ok tt, s7) /\
     core s7 (map (retarget_cell U j) cells5) /\ z_main s7 = z_main s6 /\ z_alloc s7 = z_alloc s6 /\
     keeps (z_file s6) (z_file s7) (fun x => forall c, In c cells5 -> umem (full_url (snd c)) U = true -> ~ occupies c x) /\
     zlen (z_file s7) = zlen (z_file s6) /\ etpl_rel (fun t t' => Permutation t' t) (z_etpl s6) (z_etpl s7) /\
     (forall k, In k (pl_ptrs (z_atpl s7)) <-> In k (pl_ptrs (z_atpl s6)))).
  { destruct (Z.eqb_spec i j) as [Eij|Eij].
    - exists s6. split; [reflexivity|]. unfold U. rewrite andb_false_r. split.
      { erewrite map_ext; [rewrite map_id; exact C6|]. intro. reflexivity. }
      do 2 (split; [reflexivity|]). split; [apply keeps_refl|]. split; [reflexivity|]. split; [apply etpl_rel_refl|tauto].
    - assert (EU : U = tu) by (unfold U, tu; destruct uc; reflexivity).
      destruct (retarget_ok rec'' (fun w => rec w false) j Hrec2 tu s6 cells5 C6) as (s7 & W7 & C7 & U7 & M7 & A7 & K7 & L7 & R7 & I7).
      { lia. } { apply znth_some in Hz5. rewrite zlen_map in Hz5. exact Hz5. } { rewrite L5c. exact Hc6. }
      { intros u Hu'. rewrite <- EU in Hu'. destruct (HU u Hu') as (d0 & Hd0 & E1 & _ & E3).
        destruct (shift_kind i (-1) [] _ _ E3) as (r1 & Er1 & _). destruct (shift_kind j 1 [full_url e] _ _ Er1) as (r2 & Er2 & _).
        exists (sh1 (sh0 d0)), r2. split; [apply Hin5; exact Hd0|]. split; [rewrite Hsh_url; exact E1|exact Er2]. }
      exists s7. rewrite EU. auto 10. }
  destruct Hrt as (s7 & W7 & C7 & M7 & A7 & K7 & L7 & R7 & I7).
  assert (Ecells : map (retarget_cell U j) cells5 =
            map (moved_cell i j (full_url e) U) A' ++ (off, e') :: map (moved_cell i j (full_url e) U) B').
  { unfold cells5. rewrite map_mid, <- EA1, <- EB1, !map_map. f_equal. f_equal. unfold retarget_cell. cbn [snd]. rewrite HnU. reflexivity. }
  exists s7. split.
  { rewrite (Hhead _ W4). erewrite (mbind_ok (fun _ => (Ok tt, s4))) by reflexivity.
    rewrite (mbind_ok _ _ _ (j, e') s5) by exact W5. cbv beta iota. rewrite (mbind_ok _ _ _ tt s6) by exact Ad.
    rewrite (mbind_ok _ _ _ tt s7) by exact W7.
    destruct (is_redirect e') eqn:Er; [|reflexivity].
    destruct (e_kind e) as [cn bn|r] eqn:Ek.
    { exfalso. assert (Ee : e' = e) by (unfold e', bumped; rewrite Ek; reflexivity). rewrite Ee in Er.
      rewrite (kind_content e cn bn Hk Ek) in Er. discriminate. }
    pose proof (Hown4 r eq_refl) as Hr. rewrite zlen_map in Hr. pose proof (bumped_kind j e r Ek) as Ek'. fold e' in Ek'.
    assert (exists d, znth (map (retarget_cell U j) cells5) (shift_ptr j 1 r) = Some d) as [d Hd].
    { apply znth_ex. rewrite zlen_map, L5c. unfold shift_ptr. destruct (Z.leb_spec j r); lia. }
    rewrite (mbind_ok _ _ _ (snd d) s7); [reflexivity|]. apply query_ok. unfold follow. rewrite Ek'. eapply entry_by_index; eauto. }
  split; [rewrite <- Ecells; exact C7|]. split.
  { intros t Ht' k Hk'. rewrite Ht' in R7. destruct (z_etpl s6) as [t6|] eqn:E6; cbn [etpl_rel] in R7; [|contradiction].
    apply (Permutation_in _ (Permutation_sym R7)). apply (Hc6 t6 E6). exact Hk'. }
  split.
  { intro k. rewrite I7. destruct Ra as (Rn & Rl & Ri).
    assert (H56 : In k (pl_ptrs (z_atpl s6)) <-> (k = j /\ a = true) \/ In k (pl_ptrs (z_atpl s5))).
    { split.
      - intro H. apply (Permutation_in _ P6) in H. destruct a; [destruct H as [<-|H]; auto|auto].
      - intro H. apply (Permutation_in _ (Permutation_sym P6)). destruct H as [[ -> -> ]|H]; [left; reflexivity|]. destruct a; [right|]; exact H. }
    rewrite H56. split.
    - intros [H|H]; [auto|right]. apply I5 in H as (k1 & Hk1 & ->). apply I4 in Hk1 as (k0 & Hk0 & ->).
      cbn [s3 set_atpl z_atpl] in Hk0. apply Ri in Hk0 as [Hk0 Hne]. eauto.
    - intros [H|(k0 & Hk0 & Hne & ->)]; [auto|right]. apply I5. exists (shift_ptr i (-1) k0). split; [|reflexivity].
      apply I4. exists k0. split; [|reflexivity]. cbn [s3 set_atpl z_atpl]. apply Ri. auto. }
  split. { rewrite M7, M6, M5, M4. reflexivity. }
  rewrite A7, A6, A5, A4. split; [exact Hu|]. split; [exact Hnew|]. split.
  { change (z_file s3) with f1 in K4, L4.
    assert (K45 : keeps (z_file s4) (z_file s7) (fun x => ~ occupies (off, e) x /\ forall c, In c (A ++ B) -> is_redirect (snd c) = true -> ~ occupies c x)).
    { eapply keeps_weaken; [eapply keeps_trans; [exact K5| |lia]|].
      - rewrite F6 in K7. exact K7.
      - cbv beta. intros x [Hx0 Hx]. split; [split; [exact Hx0|]|].
        + intros c Hc Tc Ho. apply in_map_iff in Hc as (d0 & <- & Hd0). apply (Hx d0 Hd0).
          * apply touched_redirect in Tc. unfold sh0, shift_cell in Tc. cbn [snd] in Tc. rewrite shift_is_redirect in Tc. exact Tc.
          * rewrite <- (Occ d0 x Hd0). exact Ho.
        + intros c Hc Hcu Ho. apply umem_in in Hcu. destruct (HU _ Hcu) as (d0 & Hd0 & E1 & E2 & E3).
          assert (Ecd : c = sh1 (sh0 d0)).
          { pose proof (Hin5 d0 Hd0) as Hd5. apply in_znth in Hc as [k1 Hk1]. apply in_znth in Hd5 as [k2 Hk2].
            assert (k1 = k2).
            { apply (url_unique (map snd cells5) k1 k2 (snd c) (snd (sh1 (sh0 d0))) (co_sorted _ _ C5)).
              - rewrite znth_map, Hk1. reflexivity.
              - rewrite znth_map, Hk2. reflexivity.
              - rewrite Hsh_url. congruence. }
            congruence. }
          subst c. apply (Hx d0 Hd0 E2). rewrite <- (Occ5 d0 x Hd0). exact Ho. }
    eapply keeps_weaken; [eapply keeps_trans; [eapply keeps_trans; [exact K1|exact K4|exact L1]|exact K45|lia]|].
    cbv beta. intros x (H1 & H3 & H5). split; [split; [auto|]|].
    - intros c Hc T Ho. apply (H5 c Hc); [eapply touched_redirect; eauto|exact Ho].
    - split; [|exact H5]. intro Ho. exact (Hnew x Ho (conj H1 H3)). }
  split. { rewrite L7, F6, L5, L4. exact L1. }
  change (z_etpl s3) with et' in E4.
  assert (Z0 : z_etpl s = None <-> et' = None) by (destruct (z_etpl s), et'; cbn [etpl_rel] in Re; try contradiction; split; congruence).
  assert (Z5 : z_etpl s4 = None <-> z_etpl s5 = None) by (destruct (z_etpl s4), (z_etpl s5); cbn [etpl_rel] in R5; try contradiction; split; congruence).
  assert (Z6 : z_etpl s5 = None <-> z_etpl s6 = None) by (destruct (z_etpl s5), (z_etpl s6); cbn [etpl_rel] in R6; try contradiction; split; congruence).
  assert (Z7 : z_etpl s6 = None <-> z_etpl s7 = None) by (destruct (z_etpl s6), (z_etpl s7); cbn [etpl_rel] in R7; try contradiction; split; congruence).
  rewrite Z0, E4, Z5, Z6, Z7. tauto.
Qed.
