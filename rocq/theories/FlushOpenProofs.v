(** Opening the file of a saved archive. *)
From Coq Require Import List ZArith Bool Lia.
From Coq Require Import ZifyBool ZifyNat.
From Verif Require Import Base BaseProofs Utf8 Infobyte Header HeaderSpec HeaderProofs MimeTypeList MimeTypeListSpec MimeTypeListProofs PointerList PointerListProofs
  SpaceAllocator SpaceAllocatorSpec SpaceAllocatorProofs Entry EntrySpec Reader ReaderSpec Blob Cluster ClusterSpec ClusterProofs ClusterWrapper ClusterWrapperSpec ClusterWrapperProofs
  Archive ArchiveSpec ArchiveProofs ArchiveWriteProofs ArchiveMoveProofs ArchiveFacts ArchiveCluster ArchiveClusterSpec ArchiveClusterProofs ArchiveFrame
  CompressionStrategy CompressionStrategySpec CompressionStrategyProofs OperationBuffer Flush FlushSpec FlushProofs FlushTailProofs.
Import ListNotations.
Open Scope Z_scope.

(** ** What lookups depend on *)
Lemma key_ext : forall s s', z_file s' = z_file s -> url_key s' = url_key s.
Proof. intros s s' E. unfold url_key, get_entry_at. rewrite E. reflexivity. Qed.
Lemma lookup_ext : forall s s' u, z_file s' = z_file s -> pl_ptrs (z_upl s') = pl_ptrs (z_upl s) -> get_entry_by_full_url s' u = get_entry_by_full_url s u.
Proof. intros s s' u E1 E2. unfold get_entry_by_full_url, url_pointer, get_entry_at. rewrite (key_ext s s' E1), E1, E2. reflexivity. Qed.
Lemma has_ext : forall s s' u e, z_file s' = z_file s -> pl_ptrs (z_upl s') = pl_ptrs (z_upl s) -> get_entry_by_full_url s u = Ok e -> has_entry_for_full_url s' u = Ok true.
Proof.
  intros s s' u e E1 E2 G. unfold has_entry_for_full_url, has, has_gen. rewrite (key_ext s s' E1), E2. unfold get_entry_by_full_url, url_pointer, get in G.
  destruct (encode u) as [k|x]; cbn [bind] in G |- *; [|destruct x; discriminate G]. destruct (get_gen _ _ _ k) as [p|x]; [reflexivity|]. destruct x; discriminate G.
Qed.

Lemma resolve_content : forall n s e c b, (0 < n)%nat -> kind_consistent e -> e_kind e = Content c b -> resolve n s e = Ok e.
Proof.
  intros n s e c b N KC EK. destruct n; [lia|]. cbn [resolve]. unfold kind_consistent in KC. rewrite EK in KC. unfold is_redirect, MIMETYPE_ID_REDIRECT.
  destruct (Z.eqb_spec (e_mimetype e) 65535); [contradiction|reflexivity].
Qed.
Lemma found_consistent : forall s cells u e, core s cells -> consistent s (map snd cells) -> get_entry_by_full_url s u = Ok e -> kind_consistent e.
Proof.
  intros s cells u e CO CS G. apply (lookup_iff s (map snd cells) u e CS) in G. destruct G as (I & _). apply in_map_iff in I. destruct I as (c & <- & Hc).
  pose proof (co_stored _ _ CO) as F. rewrite Forall_forall in F. destruct (F c Hc) as (_ & _ & KC & _). exact KC.
Qed.

Lemma entries_ext : forall s s', z_file s' = z_file s -> pl_ptrs (z_upl s') = pl_ptrs (z_upl s) -> iter_entries s' None None = iter_entries s None None.
Proof. intros s s' E1 E2. unfold iter_entries, get_entry_at. rewrite E1, E2. reflexivity. Qed.
Lemma articles_ext : forall s s', z_file s' = z_file s -> pl_ptrs (z_upl s') = pl_ptrs (z_upl s) -> pl_ptrs (z_atpl s') = pl_ptrs (z_atpl s) -> article_urls s' = article_urls s.
Proof. intros s s' E1 E2 E3. unfold article_urls, iter_articles, get_entry_by_url_index, get_entry_at. rewrite E1, E2, E3. reflexivity. Qed.
Lemma target_ext : forall s s' e, z_file s' = z_file s -> pl_ptrs (z_upl s') = pl_ptrs (z_upl s) -> target_url s' e = target_url s e.
Proof. intros s s' e E1 E2. unfold target_url, get_entry_by_url_index, get_entry_at. rewrite E1, E2. reflexivity. Qed.
Section Open.
Variable fuel : nat.
Context {D : Type}.
Variable dc : decomp D.
Variable new_decomp : ctype -> res D.
Context {K : Type}.
Variable new_comp : ctype -> res K.
Variable comp : K -> bytes -> res (bytes * K).
Variable flush : K -> res bytes.
Variable depth : nat.
Variable kd : ckind.
Variable Stream : ctype -> bytes -> bytes -> Prop.
Variable reserve : option Z.
Context {H : Type}.
Variable md5 : H.
Variable feed : H -> bytes -> H.
Variable digest : H -> bytes.
Hypothesis CD : codec_ok dc new_decomp new_comp comp flush Stream.
Notation laid := (laid_out Stream reserve).

Lemma read_ext : forall a a' i j, ca_file a' = ca_file a -> pl_ptrs (ca_ptrs a') = pl_ptrs (ca_ptrs a) -> read_blob_of fuel dc new_decomp kd a' i j = read_blob_of fuel dc new_decomp kd a i j.
Proof. intros a a' i j E1 E2. unfold read_blob_of, get_cluster_by_index, get_cluster_at. rewrite E1, E2. reflexivity. Qed.

(** A list that counts as saved is read back from its entry. *)
Lemma load_ok : forall a cells L a0 url l c b, archive_ok Stream a cells L -> ample fuel a (blobs_of L) -> (0 < fuel)%nat -> ca_file a0 = ca_file a -> pl_ptrs (ca_ptrs a0) = pl_ptrs (ca_ptrs a) ->
  pl_ptrs (z_upl (ca_zim a0)) = pl_ptrs (z_upl (ca_zim a)) -> kept_at (ca_zim a) (blobs_of L) url l c b -> pl_dirty l = false ->
  has_entry_for_full_url (ca_zim a0) url = Ok true /\ load_listing fuel dc new_decomp kd a0 url = Ok (pl_ptrs l).
Proof.
  intros a cells L a0 url l c b AO AM HF EF EP EU (e & bl & G & EK & EX & EB & CL) DI. destruct (CL DI) as (d & PB & ZB). split; [eapply has_ext; [exact EF|exact EU|exact G]|].
  unfold load_listing. rewrite (lookup_ext (ca_zim a) (ca_zim a0) url EF EU), G. cbn [bind]. rewrite (resolve_content fuel _ e c b HF (found_consistent _ _ _ _ (ao_core _ _ _ _ AO) (ao_entries _ _ _ _ AO) G) EK). cbn [bind]. rewrite EK.
  rewrite (read_ext a a0 c b EF EP). destruct (shown_all fuel dc new_decomp new_comp comp flush kd Stream CD a cells L c bl AO AM EX) as (_ & RB). rewrite (RB b (proj1 EB)), ZB. cbn [bind].
  exact (proj1 (ptrs_roundtrip 4 _ _ ltac:(lia) PB)).
Qed.
Lemma present_count : forall a cells L, archive_ok Stream a cells L -> ~ In None L -> zlen (pl_ptrs (ca_ptrs a)) = zlen L.
Proof.
  intros a cells L AO NN. pose proof (ao_count _ _ _ _ AO) as LE. pose proof (zlen_nonneg (pl_ptrs (ca_ptrs a))) as P0. destruct (Z.eq_dec (zlen L) 0) as [Z0|N0]; [lia|].
  destruct (znth L (zlen L - 1)) as [[(o, c)|]|] eqn:E.
  - pose proof (znth_some _ _ _ (ao_ptrs _ _ _ _ AO _ _ E)). lia.
  - exfalso. apply NN. eapply znth_In. exact E.
  - pose proof (zlen_nonneg L). apply PointerListProofs.znth_none in E; lia.
Qed.

Lemma disk_rest : forall f pos d, on_disk f pos d -> d <> [] -> exists rest, zskip pos f = d ++ rest.
Proof.
  intros f pos d (H1 & H2) N. exists (zskip (zlen d) (zskip pos f)). rewrite <- (ztake_zskip (zlen d) (zskip pos f)) at 1. f_equal. exact H2.
Qed.
Lemma fresh_use : forall e x, in_use (new_allocator e) x <-> 0 <= x < e.
Proof. intros e x. unfold in_use, new_allocator. cbn [file_end]. split; [intros (P & _); exact P|]. intro P. split; [exact P|]. unfold listed_free. cbn. firstorder. Qed.

Lemma open_settled : forall w sc sp A cells L, laid A cells L -> settled A -> ample fuel (fa_arch A) (blobs_of L) -> (0 < fuel)%nat ->
  exists B, open_zim fuel dc new_decomp new_comp comp flush depth kd (fa_file A) w sc sp = Ok B /\ same_archive A B /\
    zs_comp (fa_state B) = sc /\ zs_plain (fa_state B) = sp /\ fa_redirects B = [] /\ fa_main B = None /\ is_dirty B = false /\
    (w = true -> laid B cells L /\ settled B /\ (checksum_right md5 feed digest A -> checksum_right md5 feed digest B)).
Proof.
  intros w sc sp A cells L LO (DI & CP & MP) AM HF.
  assert (DS : fa_dirty A = false /\ ho_dirty (fa_header A) = false /\ ml_dirty (fa_mimes A) = false /\ pl_dirty (z_upl (fa_zim A)) = false /\ pl_dirty (ca_ptrs (fa_arch A)) = false /\
    tdirty (fa_zim A) = false /\ pl_dirty (z_atpl (fa_zim A)) = false).
  { unfold is_dirty in DI. fold (tdirty (fa_zim A)) in DI. repeat (apply orb_false_iff in DI; destruct DI as (DI & ?)). repeat split; assumption. }
  destruct DS as (_ & DH & DM & DU & DC & DT & DA). pose proof LO as [].
  destruct (lo_header DH) as (d & HB & OD). destruct (header_bytes_len _ _ lo_uuid HB) as (Z80 & HFT & HR).
  destruct (lo_mimes DM) as (OM & MO & MR). destruct (lo_urls DU) as (UC & UO & du & UB & UD). destruct (lo_clusters DC) as (CC & CO & dc' & CB & CDi). destruct lo_types as (TN & TS).
  set (f := fa_file A) in *. set (h := fa_hdr A) in *.
  unfold open_zim.
  assert (E1 : header_from_file f 0 = Ok h). { unfold header_from_file, HEADER_LENGTH. rewrite <- Z80. rewrite (proj2 OD). exact HR. }
  rewrite E1. cbn [bind].
  assert (E2 : exists rest, mt_from_file (zskip (h_mime_pos h) f) = Ok (ml_types (fa_mimes A), rest)).
  { destruct (disk_rest _ _ _ OM) as (rest & ->); [unfold mt_to_bytes; intro Q; apply app_eq_nil in Q; destruct Q as (_ & Q); discriminate Q|].
    destruct (mt_roundtrip (ml_types (fa_mimes A)) rest TS) as (rest' & E & _). exists rest'. exact E. }
  destruct E2 as (rest & E2). rewrite E2. cbn [bind fst].
  assert (E3 : ptrs_from_file 8 f (h_entry_count h) (h_url_pos h) = Ok (pl_ptrs (z_upl (fa_zim A)))) by (rewrite UC; exact (ptrs_from_file_ok 8 _ _ _ _ UB (proj2 UD))).
  assert (E4 : ptrs_from_file 8 f (h_cluster_count h) (h_cluster_pos h) = Ok (pl_ptrs (ca_ptrs (fa_arch A)))) by (rewrite CC; exact (ptrs_from_file_ok 8 _ _ _ _ CB (proj2 CDi))).
  rewrite E3. cbn [bind]. rewrite E4. cbn [bind].
  set (mk := fun w0 l => set_mutable w (plist_new w0 l)).
  set (make := fun et at_ => mkCa (mkZim f (mk 8%nat (pl_ptrs (z_upl (fa_zim A)))) et at_ (main_page h) (new_allocator (h_checksum_pos h))) (mk 8%nat (pl_ptrs (ca_ptrs (fa_arch A)))) (zlen (pl_ptrs (ca_ptrs (fa_arch A))))).
  set (a0 := make None (mk 4%nat [])). set (ml := mkMlist (ml_types (fa_mimes A)) false w (mt_disk_size (ml_types (fa_mimes A)))).
  destruct lo_listings as (c & b & K0 & KE).
  destruct (load_ok (fa_arch A) cells L a0 _ _ c b lo_arch AM HF eq_refl eq_refl eq_refl K0 DA) as (HA & LA).
  set (et := option_map (fun l => mk 4%nat (pl_ptrs l)) (z_etpl (fa_zim A))).
  assert (ET : (if without_titles h then Ok None
            else do there <- has_entry_for_full_url (ca_zim a0) URL_ENTRY_TITLE_INDEX ;;
                 do l <- (if (there : bool) then load_listing fuel dc new_decomp kd a0 URL_ENTRY_TITLE_INDEX
                          else ptrs_from_file 4 f (h_entry_count h) (h_title_pos h)) ;;
                 Ok (Some (mk 4%nat l))) = Ok et).
  { unfold et. destruct (z_etpl (fa_zim A)) as [t|] eqn:EE.
    - destruct (without_titles h) eqn:WT; [pose proof (proj2 lo_titles eq_refl) as Q; discriminate Q|]. destruct (KE t eq_refl) as (c' & b' & K1 & _). unfold tdirty in DT. rewrite EE in DT.
      destruct (load_ok (fa_arch A) cells L a0 _ t c' b' lo_arch AM HF eq_refl eq_refl eq_refl K1 DT) as (HT & LT). rewrite HT. cbn [bind]. rewrite LT. reflexivity.
    - rewrite (proj1 lo_titles eq_refl). reflexivity. }
  set (B := mkFa (mkZs (mkSa (make et (mk 4%nat (pl_ptrs (z_atpl (fa_zim A))))) ml) sc sp) (mkHobj h false w HEADER_LENGTH) false [] None).
  exists B. split.
  { change ((do et <- (if without_titles h then Ok None
            else do there <- has_entry_for_full_url (ca_zim a0) URL_ENTRY_TITLE_INDEX ;;
                 do l <- (if (there : bool) then load_listing fuel dc new_decomp kd a0 URL_ENTRY_TITLE_INDEX
                          else ptrs_from_file 4 f (h_entry_count h) (h_title_pos h)) ;;
                 Ok (Some (mk 4%nat l))) ;;
      do there <- has_entry_for_full_url (ca_zim a0) URL_ARTICLE_TITLE_INDEX ;;
      do al <- (if (there : bool) then load_listing fuel dc new_decomp kd a0 URL_ARTICLE_TITLE_INDEX else Ok []) ;;
      let A := mkFa (mkZs (mkSa (make et (mk 4%nat al)) ml) sc sp) (mkHobj h false w HEADER_LENGTH) false [] None in
      if there || negb w then Ok A
      else let '(r, A) := add_placeholder fuel new_comp comp flush depth A in do _ <- r ;; Ok (fa_set_dirty false A)) = Ok B).
    rewrite ET. cbn [bind]. rewrite HA. cbn [bind]. rewrite LA. cbn [bind orb]. reflexivity. }
  split.
  { constructor; try reflexivity.
    - unfold same_lists. change (z_etpl (fa_zim B)) with et. unfold et. destruct (z_etpl (fa_zim A)); reflexivity.
    - change (z_main (fa_zim B)) with (main_page h). exact MP. }
  split; [reflexivity|]. split; [reflexivity|]. split; [reflexivity|]. split; [reflexivity|].
  assert (DB : is_dirty B = false). { unfold is_dirty. cbn. unfold et. destruct (z_etpl (fa_zim A)); reflexivity. }
  split; [exact DB|]. intros ->.
  assert (ME : forall t, et = Some t -> pl_mutable t = true). { unfold et. intros t Ht. destruct (z_etpl (fa_zim A)); [|discriminate Ht]. injection Ht as <-. reflexivity. }
  assert (UI : forall x, in_use (fa_alloc A) x -> in_use (new_allocator (h_checksum_pos h)) x). { intros x (U1 & _). apply fresh_use. lia. }
  assert (AO : archive_ok Stream (fa_arch B) cells L).
  { pose proof (ao_core _ _ _ _ lo_arch) as CO'. pose proof (co_end _ _ CO') as EN. change (z_alloc (ca_zim (fa_arch A))) with (fa_alloc A) in EN.
    assert (AO1 : archive_ok Stream (mkCa (set_file f (set_alloc (new_allocator (h_checksum_pos h)) (fa_zim A))) (ca_ptrs (fa_arch A)) (ca_next (fa_arch A))) cells L).
    { assert (CA : canonical (new_allocator (h_checksum_pos h))) by (split; constructor).
      pose proof lo_arch as []. constructor; cbn [ca_zim ca_ptrs ca_next]; try assumption.
      - apply core_frame; [exact ao_core|apply keeps_refl|exact CA|cbn; lia|]. intros c0 x Hc Hx. apply UI. pose proof (co_used _ _ ao_core) as Us. rewrite Forall_forall in Us. exact (Us c0 Hc x Hx).
      - apply consistent_frame; [exact ao_core|exact ao_entries|apply keeps_refl|exact CA|cbn; lia|]. intros c0 x Hc Hx. apply UI. pose proof (co_used _ _ ao_core) as Us. rewrite Forall_forall in Us. exact (Us c0 Hc x Hx).
      - intros i d0 x Hd Hx. apply UI. exact (ao_used i d0 x Hd Hx). }
    pose proof (archive_lists Stream _ cells L (mk 8%nat (pl_ptrs (z_upl (fa_zim A)))) (mk 4%nat (pl_ptrs (z_atpl (fa_zim A)))) et (mk 8%nat (pl_ptrs (ca_ptrs (fa_arch A)))) AO1 eq_refl eq_refl eq_refl eq_refl) as AO2.
    cbn [ca_zim set_file set_alloc z_etpl z_main ca_next ca_file ca_alloc z_file z_alloc] in AO2.
    change (fa_arch B) with (mkCa (mkZim f (mk 8%nat (pl_ptrs (z_upl (fa_zim A)))) et (mk 4%nat (pl_ptrs (z_atpl (fa_zim A)))) (main_page h) (new_allocator (h_checksum_pos h))) (mk 8%nat (pl_ptrs (ca_ptrs (fa_arch A)))) (zlen (pl_ptrs (ca_ptrs (fa_arch A))))).
    rewrite (present_count _ _ _ lo_arch lo_present), MP, <- (ao_next _ _ _ _ lo_arch). apply AO2; [unfold et; destruct (z_etpl (fa_zim A)); reflexivity|exact ME|reflexivity|reflexivity]. }
  assert (EP : parts reserve B = parts reserve A).
  { unfold parts, mime_part, cluster_part, url_part. rewrite UO, CO, MO. reflexivity. }
  assert (LK : forall u, get_entry_by_full_url (fa_zim B) u = get_entry_by_full_url (fa_zim A) u) by (intro u; apply lookup_ext; reflexivity).
  split.
  - constructor; rewrite ?EP; try assumption; try reflexivity.
    + intros r x Hr Hx. destruct (lo_parts r x Hr Hx) as (P1 & P2 & P3). split; [apply UI; exact P1|auto].
    + split; assumption.
    + intros _. exists d. split; [exact HB|exact OD].
    + intros _. split; [exact OM|]. split; [reflexivity|exact MR].
    + intros _. split; [exact CC|]. split; [reflexivity|]. exists dc'. split; [exact CB|exact CDi].
    + intros _. split; [exact UC|]. split; [reflexivity|]. exists du. split; [exact UB|exact UD].
    + change (z_etpl (fa_zim B)) with et. change (fa_hdr B) with h. rewrite <- lo_titles. unfold et. destruct (z_etpl (fa_zim A)); cbn; split; congruence.
    + exists c, b. split.
      * apply (kept_lookup _ _ _ _ _ _ _ LK). destruct K0 as (e & bl & G1 & G2 & G3 & G4 & G5). exists e, bl. split; [exact G1|]. split; [exact G2|]. split; [exact G3|]. split; [exact G4|]. intros _. exact (G5 DA).
      * change (z_etpl (fa_zim B)) with et. unfold et. unfold tdirty in DT. destruct (z_etpl (fa_zim A)) as [t|]; [|intros t Ht; discriminate Ht]. intros t' Ht. injection Ht as <-.
        destruct (KE t eq_refl) as (c' & b' & (e & bl & G1 & G2 & G3 & G4 & G5) & N). exists c', b'. split; [|exact N]. apply (kept_lookup _ _ _ _ _ _ _ LK). exists e, bl. split; [exact G1|]. split; [exact G2|]. split; [exact G3|]. split; [exact G4|]. intros _. exact (G5 DT).
  - split; [split; [exact DB|split; reflexivity]|]. intro CR. exact CR.
Qed.
Lemma open_ok : forall w sc sp A cells L, laid A cells L -> saved md5 feed digest A -> ample fuel (fa_arch A) (blobs_of L) -> (0 < fuel)%nat ->
  exists B, open_zim fuel dc new_decomp new_comp comp flush depth kd (fa_file A) w sc sp = Ok B /\ same_archive A B /\
    zs_comp (fa_state B) = sc /\ zs_plain (fa_state B) = sp /\ fa_redirects B = [] /\ fa_main B = None /\ is_dirty B = false /\
    (w = true -> laid B cells L /\ saved md5 feed digest B).
Proof.
  intros w sc sp A cells L LO (DI & CP & MP & CR) AM HF. destruct (open_settled w sc sp A cells L LO (conj DI (conj CP MP)) AM HF) as (B & E & SA & E1 & E2 & E3 & E4 & E5 & W).
  exists B. do 7 (split; [assumption|]). intro Q. destruct (W Q) as (W1 & (S1 & S2 & S3) & W3). split; [exact W1|]. split; [exact S1|]. split; [exact S2|]. split; [exact S3|]. exact (W3 CR).
Qed.
End Open.
