(** Proofs about flushing and opening archives. *)
From Coq Require Import List ZArith Bool Lia.
From Coq Require Import ZifyBool ZifyNat.
From Verif Require Import Base BaseProofs Utf8 Infobyte Header HeaderSpec HeaderProofs MimeTypeList MimeTypeListSpec MimeTypeListProofs PointerList PointerListProofs
  SpaceAllocator SpaceAllocatorSpec SpaceAllocatorProofs Entry EntrySpec Reader ReaderSpec Blob Cluster ClusterSpec ClusterProofs ClusterWrapper ClusterWrapperSpec ClusterWrapperProofs
  Archive ArchiveSpec ArchiveProofs ArchiveWriteProofs ArchiveMoveProofs ArchiveFacts ArchiveCluster ArchiveClusterSpec ArchiveClusterProofs ArchiveFrame
  CompressionStrategy CompressionStrategySpec CompressionStrategyProofs OperationBuffer Flush FlushSpec.
Import ListNotations.
Open Scope Z_scope.

(** ** Bytes on disk *)
Lemma on_disk_end : forall f pos d, on_disk f pos d -> d <> [] -> pos + zlen d <= zlen f.
Proof.
  intros f pos d (H1 & H2) N. apply fread_full; [exact H1|exact H2|]. destruct d; [congruence|]. rewrite zlen_cons. pose proof (zlen_nonneg d). lia.
Qed.
Lemma on_disk_keeps : forall f g pos d P, on_disk f pos d -> keeps f g P -> (forall x, pos <= x < pos + zlen d -> P x) -> on_disk g pos d.
Proof.
  intros f g pos d P OD K HP. pose proof OD as (H1 & H2). split; [exact H1|]. destruct d as [|b d]; [reflexivity|].
  pose proof (on_disk_end _ _ _ OD ltac:(discriminate)) as E. rewrite (keeps_fread f g pos (zlen (b :: d))); [exact H2|exact H1|exact E|].
  eapply keeps_weaken; [exact K|]. exact HP.
Qed.
Lemma on_disk_written : forall f pos d, 0 <= pos -> on_disk (fwrite f pos d) pos d.
Proof. intros f pos d H. split; [exact H|]. apply fread_fwrite_same. exact H. Qed.
Lemma header_bytes_len : forall h d, zlen (h_uuid h) = 16 -> header_to_bytes h = Ok d -> zlen d = 80 /\ header_fits h /\ header_from_bytes d = Ok h.
Proof.
  intros h d U H. pose proof (header_to_bytes_inv h d U H) as F. destruct (header_roundtrip h F) as (b & E & L & R). rewrite H in E. injection E as <-. auto.
Qed.

(** ** Assignments to the header *)
Lemma hassign_more : forall f v o o', hassign f v o = Ok o' -> ho_mutable o' = ho_mutable o /\ (o' = o \/ ho_dirty o' = true) /\
  (forall g, g <> f -> hget g (ho_hdr o') = hget g (ho_hdr o)).
Proof.
  intros f v o o' H. pose proof (hassign_spec _ _ _ _ H) as (c & _ & M & _ & G & _). split; [|split; [|exact G]].
  - unfold hassign in H. destruct (hconvert f v); cbn [bind] in H; [|discriminate H]. destruct (negb (ho_mutable o)); [discriminate H|].
    destruct (hval_eqb _ _); injection H as <-; reflexivity.
  - unfold hassign in H. destruct (hconvert f v); cbn [bind] in H; [|discriminate H]. destruct (negb (ho_mutable o)); [discriminate H|].
    destruct (hval_eqb _ _); injection H as <-; [left|right]; reflexivity.
Qed.
Lemma hassign_int_value : forall f z o o', f <> FUuid -> hassign f (PInt z) o = Ok o' -> hget f (ho_hdr o') = inl z.
Proof.
  intros f z o o' N H. destruct (hassign_spec _ _ _ _ H) as (c & C & _ & G & _). rewrite G. destruct f; cbn in C; try congruence.
  all: try (destruct (z <? 0); [discriminate C|]). all: injection C as <-; reflexivity.
Qed.
Lemma assign_inv : forall f v A r A', fa_assign f v A = (Ok r, A') -> exists h, hassign f v (fa_header A) = Ok h /\ A' = fa_set_header h A.
Proof. intros f v A r A' H. unfold fa_assign in H. destruct (hassign f v (fa_header A)) as [h|e]; [|discriminate H]. injection H as _ <-. eauto. Qed.

(** ** Regions *)
Lemma four_pairs : forall (P : Z * Z -> Z * Z -> Prop) a b c d, ForallOrdPairs P [a; b; c; d] <-> P a b /\ P a c /\ P a d /\ P b c /\ P b d /\ P c d.
Proof.
  intros P a b c d. split.
  - intro H. repeat match goal with X : ForallOrdPairs _ (_ :: _) |- _ => inversion X; clear X; subst | X : Forall _ (_ :: _) |- _ => inversion X; clear X; subst end. tauto.
  - intros (H1 & H2 & H3 & H4 & H5 & H6). repeat (constructor; auto).
Qed.

(** The space of a part that is not needed any more is freed, space for new
    data is allocated and the data written there. *)
Lemma moved_part : forall Stream a cells L r n s1 pos s2 data, archive_ok Stream a cells L -> (forall x, within r x -> spare a cells L x) ->
  mark_free (ca_alloc a) (fst r) (snd r) = Ok s1 -> allocate s1 n = Ok (pos, s2) -> zlen data = n ->
  let f' := fwrite (ca_file a) pos data in let a' := mkCa (set_file f' (set_alloc s2 (ca_zim a))) (ca_ptrs a) (ca_next a) in
  0 <= pos /\ archive_ok Stream a' cells L /\ keeps (ca_file a) f' (fun x => in_use (ca_alloc a) x /\ ~ within r x) /\ zlen (ca_file a) <= zlen f' /\
  (forall x, spare a cells L x -> ~ within r x -> spare a' cells L x /\ ~ within (pos, n) x) /\
  (forall x, within (pos, n) x -> spare a' cells L x).
Proof.
  intros Stream a cells L r n s1 pos s2 data AO SP MF AL ZN f' a'. pose proof (ao_core _ _ _ _ AO) as CO. pose proof (co_canonical _ _ CO) as Ca. pose proof (co_end _ _ CO) as En.
  change (z_alloc (ca_zim a)) with (ca_alloc a) in Ca, En.
  assert (F : canonical s1 /\ file_end s1 = file_end (ca_alloc a) /\ forall x, in_use s1 x <-> in_use (ca_alloc a) x /\ ~ within r x).
  { destruct (Z.eqb_spec (snd r) 0) as [E0|N0].
    - unfold mark_free in MF. rewrite E0 in MF. destruct (_ || _); [discriminate MF|]. cbn [Z.eqb] in MF. injection MF as <-. split; [exact Ca|]. split; [reflexivity|].
      intro x. unfold within. rewrite E0. split; [intro Hx; split; [exact Hx|lia]|tauto].
    - assert (G : 0 <= fst r /\ 0 <= snd r). { unfold mark_free in MF. destruct ((fst r <? 0) || (snd r <? 0)) eqn:B; [discriminate MF|]. lia. }
      destruct (SP (fst r + snd r - 1)) as ((I1 & I2) & _); [unfold within; lia|].
      destruct (mark_free_spec (ca_alloc a) (fst r) (snd r) s1 Ca ltac:(lia) MF) as (C1 & _ & _ & FE & LF). split; [exact C1|]. split; [exact FE|].
      intro x. unfold in_use. rewrite FE, LF. unfold within. tauto. }
  destruct F as (C1 & E1 & U1). destruct (allocate_in_use s1 n pos s2 C1 ltac:(lia) AL) as (Hp & C2 & E2 & U2 & New).
  assert (K1 : keeps (ca_file a) f' (in_use s1)). { unfold f'. eapply fwrite_keeps_unused; [exact C1|lia|exact AL|lia]. }
  assert (KK : keeps (ca_file a) f' (fun x => in_use (ca_alloc a) x /\ ~ within r x)). { eapply keeps_weaken; [exact K1|]. intros x Hx. apply U1. exact Hx. }
  assert (EC : forall c x, In c cells -> occupies c x -> in_use s1 x).
  { intros c x Hc Hx. apply U1. pose proof (co_used _ _ CO) as Us. rewrite Forall_forall in Us. split; [exact (Us c Hc x Hx)|]. intro W. destruct (SP x W) as (_ & S2 & _). exact (S2 c Hc Hx). }
  assert (ECl : forall i d x, at_number L i d -> covers d x -> in_use s1 x).
  { intros i d x Hd Hx. apply U1. split; [exact (ao_used _ _ _ _ AO i d x Hd Hx)|]. intro W. destruct (SP x W) as (_ & _ & S3). exact (S3 i d Hd Hx). }
  split; [exact Hp|]. split; [|split; [exact KK|split; [unfold f'; rewrite fwrite_len by exact Hp; lia|split]]].
  - pose proof AO as [].
    (* first the bytes, under the allocator after freeing; then the allocator *)
    assert (CM : core (set_file (ca_file a) (set_alloc s1 (ca_zim a))) cells).
    { apply core_frame; [exact ao_core|apply keeps_refl|exact C1|lia|exact EC]. }
    assert (CN : consistent (set_file (ca_file a) (set_alloc s1 (ca_zim a))) (map snd cells)).
    { apply consistent_frame; [exact ao_core|exact ao_entries|apply keeps_refl|exact C1|lia|exact EC]. }
    assert (EZ : set_file f' (set_alloc s2 (ca_zim a)) = set_file f' (set_alloc s2 (set_file (ca_file a) (set_alloc s1 (ca_zim a))))) by (destruct (ca_zim a); reflexivity).
    constructor; cbn [a' ca_zim ca_ptrs ca_next]; try assumption.
    + rewrite EZ. apply core_frame; [exact CM|exact K1|exact C2|exact E2|]. intros c x Hc Hx. apply U2. left. exact (EC c x Hc Hx).
    + rewrite EZ. apply consistent_frame; [exact CM|exact CN|exact K1|exact C2|exact E2|]. intros c x Hc Hx. apply U2. left. exact (EC c x Hc Hx).
    + intros i d Hd. change (ca_file a') with f'. eapply cluster_keeps; [exact (ao_stored i d Hd)|]. eapply keeps_weaken; [exact K1|]. intros x Hx. apply (ECl i d x Hd). destruct d; exact Hx.
    + intros i d x Hd Hx. change (ca_alloc a') with s2. apply U2. left. exact (ECl i d x Hd Hx).
  - intros x (S1 & S2 & S3) NW. assert (I1 : in_use s1 x) by (apply U1; auto). split.
    + split; [change (ca_alloc a') with s2; apply U2; left; exact I1|auto].
    + intro W. exact (New x W I1).
  - intros x W. split; [change (ca_alloc a') with s2; apply U2; right; left; exact W|]. split.
    + intros c Hc Hx. exact (New x W (EC c x Hc Hx)).
    + intros i d Hd Hx. exact (New x W (ECl i d x Hd Hx)).
Qed.

(** The bytes of the saved parts lie in these parts. *)
Lemma header_saved_keeps : forall A A' P, zlen (h_uuid (fa_hdr A)) = 16 -> header_saved A -> fa_hdr A' = fa_hdr A -> keeps (fa_file A) (fa_file A') P ->
  (forall x, within header_part x -> P x) -> header_saved A'.
Proof.
  intros A A' P U (d & E & D) EH K HP. exists d. rewrite EH. split; [exact E|]. eapply on_disk_keeps; [exact D|exact K|].
  destruct (header_bytes_len _ _ U E) as (Z80 & _). intros x Hx. apply HP. unfold within, header_part. cbn [fst snd]. lia.
Qed.
Lemma mimes_saved_keeps : forall reserve A A' P, ml_types (fa_mimes A) <> [] -> mimes_saved reserve A -> fa_mimes A' = fa_mimes A -> h_mime_pos (fa_hdr A') = h_mime_pos (fa_hdr A) ->
  keeps (fa_file A) (fa_file A') P -> (forall x, within (mime_part reserve A) x -> P x) -> mimes_saved reserve A'.
Proof.
  intros reserve A A' P N (D & O & R) EM EH K HP. unfold mimes_saved. rewrite EM, EH. split; [|split; [exact O|exact R]]. eapply on_disk_keeps; [exact D|exact K|].
  intros x Hx. apply HP. rewrite <- (mt_size_exact _ N) in Hx. unfold within, mime_part. destruct reserve as [r|]; cbn [fst snd]; lia.
Qed.
Lemma list_saved_keeps : forall f g pos count l P, list_saved f pos count l -> keeps f g P -> (forall x, within (pos, pl_old_size l) x -> P x) -> list_saved g pos count l.
Proof.
  intros f g pos count l P (C & O & d & E & D) K HP. split; [exact C|]. split; [exact O|]. exists d. split; [exact E|]. eapply on_disk_keeps; [exact D|exact K|].
  intros x Hx. apply HP. destruct (ptrs_roundtrip 8 _ _ ltac:(lia) E) as (_ & Z8). unfold ptrs_disk_size in Z8. unfold within. cbn [fst snd]. lia.
Qed.

Section Laid.
Variable Stream : ctype -> bytes -> bytes -> Prop.
Variable reserve : option Z.
Notation laid := (laid_out Stream reserve).

Definition spares (A : farchive) cells L (r : Z * Z) : Prop := forall x, within r x -> spare (fa_arch A) cells L x.
Definition disjoint (r r' : Z * Z) : Prop := forall x, ~ (within r x /\ within r' x).
Lemma laid_parts : forall A cells L, laid A cells L ->
  spares A cells L header_part /\ spares A cells L (mime_part reserve A) /\ spares A cells L (cluster_part A) /\ spares A cells L (url_part A) /\
  disjoint header_part (mime_part reserve A) /\ disjoint header_part (cluster_part A) /\ disjoint header_part (url_part A) /\
  disjoint (mime_part reserve A) (cluster_part A) /\ disjoint (mime_part reserve A) (url_part A) /\ disjoint (cluster_part A) (url_part A).
Proof.
  intros A cells L LO. pose proof (lo_parts _ _ _ _ _ LO) as P. pose proof (lo_disjoint _ _ _ _ _ LO) as Q. unfold parts in P, Q. apply four_pairs in Q.
  assert (SP : forall r, In r [header_part; mime_part reserve A; cluster_part A; url_part A] -> spares A cells L r) by (intros r Hr x Hx; exact (P r x Hr Hx)).
  split; [apply SP; cbn; tauto|]. split; [apply SP; cbn; tauto|]. split; [apply SP; cbn; tauto|]. split; [apply SP; cbn; tauto|]. exact Q.
Qed.

(** ** Work on entries and clusters *)
Definition mtracks (m m' : mlist) : Prop := ml_old_size m' = ml_old_size m /\ ml_mutable m' = ml_mutable m /\ (ml_dirty m' = false -> m' = m).
Lemma mtracks_refl : forall m, mtracks m m. Proof. intro m. split; [reflexivity|split; auto]. Qed.
Lemma mtracks_trans : forall a b c, mtracks a b -> mtracks b c -> mtracks a c.
Proof. intros a b c (A1 & A2 & A3) (B1 & B2 & B3). split; [congruence|]. split; [congruence|]. intro E. pose proof (B3 E) as F. subst c. apply A3. exact E. Qed.
Definition listings_ok (A : farchive) (L : list (option (Z * ccell))) : Prop :=
  exists c b, kept_at (fa_zim A) (blobs_of L) URL_ARTICLE_TITLE_INDEX (z_atpl (fa_zim A)) c b /\
    forall t, z_etpl (fa_zim A) = Some t -> exists c' b', kept_at (fa_zim A) (blobs_of L) URL_ENTRY_TITLE_INDEX t c' b' /\ (c', b') <> (c, b).
Lemma laid_content : forall A cells L A' cells' L', laid A cells L -> fa_header A' = fa_header A -> mtracks (fa_mimes A) (fa_mimes A') ->
  ml_types (fa_mimes A') <> [] /\ Forall mt_storable (ml_types (fa_mimes A')) -> archive_ok Stream (fa_arch A') cells' L' -> ~ In None L' ->
  framed (fa_arch A) cells L (fa_arch A') cells' L' -> listings_ok A' L' -> laid A' cells' L'.
Proof.
  intros A cells L A' cells' L' LO EH (MO & MM & MT) TY AO NN FR LI. destruct (laid_parts _ _ _ LO) as (S1 & S2 & S3 & S4 & _). pose proof LO as []. pose proof FR as [F1 F2 F3 [U1 U2 U3] (P1 & P2 & P3)].
  assert (EHD : fa_hdr A' = fa_hdr A) by (unfold fa_hdr; rewrite EH; reflexivity).
  assert (EM : mime_part reserve A' = mime_part reserve A) by (unfold mime_part; rewrite EHD, MO; reflexivity).
  assert (EC : cluster_part A' = cluster_part A) by (unfold cluster_part; rewrite EHD, P1; reflexivity).
  assert (EU : url_part A' = url_part A) by (unfold url_part; rewrite EHD; unfold fa_zim; rewrite (proj1 U1); reflexivity).
  assert (EP : parts reserve A' = parts reserve A) by (unfold parts; rewrite EM, EC, EU; reflexivity).
  constructor; rewrite ?EP, ?EH, ?EHD; try assumption.
  - intros r x Hr Hx. apply F1. exact (lo_parts r x Hr Hx).
  - congruence.
  - intro D. eapply header_saved_keeps; [exact lo_uuid|exact (lo_header D)|exact EHD|exact F2|exact S1].
  - intro D. pose proof (MT D) as ME. rewrite ME in D. eapply mimes_saved_keeps; [exact (proj1 lo_types)|exact (lo_mimes D)|exact ME|rewrite EHD; reflexivity|exact F2|exact S2].
  - intro D. rewrite (P3 D) in D |- *. eapply list_saved_keeps; [exact (lo_clusters D)|exact F2|exact S3].
  - intro D. destruct U1 as (_ & _ & U1). unfold fa_zim in *. rewrite (U1 D) in D |- *. eapply list_saved_keeps; [exact (lo_urls D)|exact F2|exact S4].
  - rewrite <- lo_titles. unfold otracks in U3. unfold fa_zim. destruct (z_etpl (ca_zim (fa_arch A))), (z_etpl (ca_zim (fa_arch A'))); try contradiction; split; congruence.
Qed.

(** ** Header assignments that move no part *)
Definition moves_nothing (f : hfield) : bool :=
  match f with FTitlePos | FMainPage | FChecksumPos | FLayoutPage => true | _ => false end.
Lemma laid_assign : forall A cells L f v r A', laid A cells L -> moves_nothing f = true -> fa_assign f v A = (Ok r, A') -> laid A' cells L.
Proof.
  intros A cells L f v r A' LO MN H. destruct (assign_inv _ _ _ _ _ H) as (h & HA & ->). destruct (hassign_more _ _ _ _ HA) as (HM & HD & HG).
  assert (G : forall g, moves_nothing g = false -> hget g (ho_hdr h) = hget g (fa_hdr A)). { intros g Hg. apply HG. intros ->. congruence. }
  pose proof (G FMimePos eq_refl) as G1. pose proof (G FClusterPos eq_refl) as G2. pose proof (G FUrlPos eq_refl) as G3. pose proof (G FUuid eq_refl) as G4.
  pose proof (G FMajor eq_refl) as G5. pose proof (G FMinor eq_refl) as G6. pose proof (G FClusterCount eq_refl) as G7. pose proof (G FEntryCount eq_refl) as G8.
  cbn [hget] in *. injection G1 as G1. injection G2 as G2. injection G3 as G3. injection G4 as G4. injection G5 as G5. injection G6 as G6. injection G7 as G7. injection G8 as G8.
  pose proof LO as [].
  assert (EP : parts reserve (fa_set_header h A) = parts reserve A).
  { unfold parts, mime_part, cluster_part, url_part. change (fa_hdr (fa_set_header h A)) with (ho_hdr h). rewrite G1, G2, G3. reflexivity. }
  constructor; rewrite ?EP; try assumption; change (fa_hdr (fa_set_header h A)) with (ho_hdr h); change (fa_header (fa_set_header h A)) with h.
  - congruence.
  - congruence.
  - intro D. destruct HD as [->|HD]; [|congruence]. exact (lo_header D).
  - intro D. specialize (lo_mimes D). unfold mimes_saved in *. change (fa_hdr (fa_set_header h A)) with (ho_hdr h). rewrite G1. exact lo_mimes.
  - intro D. rewrite G2, G7. exact (lo_clusters D).
  - intro D. rewrite G3, G8. exact (lo_urls D).
  - unfold without_titles. rewrite G5, G6. exact lo_titles.
Qed.
End Laid.
