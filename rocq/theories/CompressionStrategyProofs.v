(** Proofs about compression strategies. *)
From Coq Require Import List ZArith Bool Lia Sorting.Sorted Permutation.
From Coq Require Import ZifyBool ZifyNat.
From Verif Require Import Base BaseProofs Utf8 Utf8Proofs Dict Infobyte Entry EntrySpec EntryProofs MimeTypeList MimeTypeListSpec MimeTypeListProofs Reader ReaderSpec Blob
  PointerList PointerListProofs SpaceAllocator SpaceAllocatorSpec Cluster ClusterSpec ClusterProofs ClusterWrapper ClusterWrapperSpec ClusterWrapperProofs
  Archive ArchiveSpec ArchiveProofs ArchiveWriteProofs ArchiveFacts ArchiveObserve ArchiveLaws ArchiveCluster ArchiveClusterSpec ArchiveClusterProofs ArchiveFrame ArchiveEntryCluster
  CompressionStrategy CompressionStrategySpec.
Import ListNotations.
Open Scope Z_scope.

(** ** Items and their entries *)

(** A pending item: its data and the number of its mimetype. *)
Record pitem := mkP { p_item : item; p_data : bytes; p_mime : Z }.
Definition p_url (p : pitem) : ustr := item_url (p_item p).
Definition p_entry (n k : Z) (p : pitem) : entry :=
  mkEntry (p_mime p) (it_ns (p_item p)) (it_url (p_item p)) (Some (item_title (p_item p))) (Content n k).
Definition p_went (n k : Z) (p : pitem) : went := mkWent (p_entry n k p) (p_url p) (Some (it_article (p_item p))).
Fixpoint entries_of (n k : Z) (P : list pitem) : list went :=
  match P with [] => [] | p :: r => p_went n k p :: entries_of n (k + 1) r end.

Lemma p_full_url : forall n k p, full_url (p_entry n k p) = p_url p.
Proof. reflexivity. Qed.

Lemma has_nul_in : forall b, has_nul b = false -> ~ In x00 b.
Proof.
  intros b H I. unfold has_nul in H. assert (existsb (fun x => beqb [x] [x00]) b = true) by (apply existsb_exists; exists x00; split; [exact I|reflexivity]). congruence.
Qed.
Lemma item_storable : forall fuel it d, item_ok fuel it d ->
  (exists x, utf8_encode (it_ns it) = Some [x]) /\ storable (it_url it) /\ (exists m, encode (it_mime it) = Ok m) /\ storable (item_title it).
Proof.
  intros fuel it d (H & _ & _). unfold item_new in H.
  assert (N : forall v b, utf8_encode v = Some b -> has_nul b = false -> storable v).
  { intros v b E HN. split; [eauto|]. intro I0. apply (has_nul_in b HN). apply (utf8_nul v b E). exact I0. }
  assert (T : forall v, check_text v = Ok tt -> storable v).
  { intros v E. unfold check_text in E. destruct v as [|c v]; [discriminate E|]. unfold encode in E. destruct (utf8_encode (c :: v)) as [b|] eqn:EB; cbn [bind] in E; [|discriminate E].
    destruct (has_nul b) eqn:HN; [discriminate E|]. eapply N; eassumption. }
  destruct (check_namespace (it_ns it)) as [[]|] eqn:E1; cbn [bind] in H; [|discriminate H].
  destruct (check_text (it_url it)) as [[]|] eqn:E2; cbn [bind] in H; [|discriminate H].
  destruct (check_text (it_mime it)) as [[]|] eqn:E3; cbn [bind] in H; [|discriminate H].
  destruct (check_title (it_title it)) as [[]|] eqn:E4; cbn [bind] in H; [|discriminate H].
  split; [|split; [apply T; exact E2|split]].
  - unfold check_namespace, encode in E1. destruct (utf8_encode (it_ns it)) as [b|]; cbn [bind] in E1; [|discriminate E1].
    destruct (zlen b =? 1) eqn:L; cbn [negb] in E1; [|discriminate E1]. destruct b as [|x [|y b]]; [discriminate L|eauto|unfold zlen in L; cbn [length] in L; lia].
  - destruct (T _ E3) as ((b & EB) & _). exists b. unfold encode. rewrite EB. reflexivity.
  - unfold item_title. destruct (it_title it) as [t|]; [|apply T; exact E2]. unfold check_title, encode in E4.
    destruct (utf8_encode t) as [b|] eqn:EB; cbn [bind] in E4; [|discriminate E4]. destruct (has_nul b) eqn:HN; [discriminate E4|]. eapply N; eassumption.
Qed.

Lemma same_content : forall e e' c b, e_kind e = Content c b -> same_entry e e' -> e' = e.
Proof.
  intros [m n u t k] [m' n' u' t' k'] c b H (H1 & H2 & H3 & H4 & H5). cbn in *. subst k. destruct k'; [|contradiction]. destruct H5. congruence.
Qed.

Section Codec.
Variable fuel : nat.
Context {D : Type}.
Variable dc : decomp D.
Variable new_decomp : ctype -> res D.
Context {K : Type}.
Variable new_comp : ctype -> res K.
Variable comp : K -> bytes -> res (bytes * K).
Variable flush : K -> res bytes.
Variable depth : nat.
Variable kd : ckind.
Variable Stream : ctype -> bytes -> bytes -> Prop.
Hypothesis CD : codec_ok dc new_decomp new_comp comp flush Stream.
Variable M : Z.   (* the largest limit of the strategies *)
Variable lo : Z.  (* a number of clusters that are there from the beginning *)

(** ** The archive with more items *)
Definition bounded (o : option (Z * ccell)) : Prop :=
  exists off c, o = Some (off, c) /\ (M + 4 < 2 ^ 32 -> zlen (cc_blobs c) = 1 \/ zlen (cluster_data (cc_ext c) (cc_blobs c)) <= M + 4).
Definition p_articles (P : list pitem) : list ustr := map p_url (filter (fun p => it_article (p_item p)) P).
Definition holds_item (s : zim) (X : list (option (list bytes))) (p : pitem) : Prop :=
  exists n k bl, get_entry_by_full_url s (p_url p) = Ok (p_entry n k p) /\ znth X n = Some (Some bl) /\ znth bl k = Some (p_data p) /\ 0 <= k /\ lo <= n.

Record grown (a : carchive) (cells : list (Z * entry)) (L : list (option (Z * ccell))) (a' : carchive) cells' L' (P : list pitem) : Prop := mkGrown {
  gr_ok : archive_ok Stream a' cells' L';
  gr_clusters : exists N, L' = L ++ N /\ Forall bounded N /\ zlen N <= zlen P;
  gr_count : zlen cells' = zlen cells + zlen P;
  gr_old : forall u e, get_entry_by_full_url (ca_zim a) u = Ok e ->
     exists e', get_entry_by_full_url (ca_zim a') u = Ok e' /\ same_entry e e' /\ target_url (ca_zim a') e' = target_url (ca_zim a) e;
  gr_missing : forall u, ~ In u (map p_url P) -> get_entry_by_full_url (ca_zim a) u = Err EntryNotFound -> get_entry_by_full_url (ca_zim a') u = Err EntryNotFound;
  gr_absent : forall u, ~ In u (map p_url P) -> absent (map snd cells) u -> absent (map snd cells') u;
  gr_urls : Permutation (map full_url (map snd cells')) (map p_url P ++ map full_url (map snd cells));
  gr_articles : forall us, article_urls (ca_zim a) = Some us -> exists us', article_urls (ca_zim a') = Some us' /\ Permutation us' (p_articles P ++ us);
  gr_items : Forall (holds_item (ca_zim a') (blobs_of L')) P;
  gr_framed : framed a cells L a' cells' L';
  gr_still : forall x, still (ca_alloc a) cells x -> still (ca_alloc a') cells' x;
  gr_stay : keeps (ca_file a) (ca_file a') (still (ca_alloc a) cells);
  gr_nothing : P = [] -> z_atpl (ca_zim a') = z_atpl (ca_zim a) }.

Lemma znth_app_some : forall A (l r : list A) i x, znth l i = Some x -> znth (l ++ r) i = Some x.
Proof. intros A l r i x H. pose proof (znth_some _ _ _ H). rewrite znth_app_l by lia. exact H. Qed.
Lemma znth_snoc_inv : forall A (l : list A) x i y, znth (l ++ [x]) i = Some y -> znth l i = Some y \/ y = x.
Proof.
  intros A l x i y H. unfold znth in *. destruct (i <? 0); [discriminate H|]. destruct (Nat.lt_ge_cases (Z.to_nat i) (length l)) as [G|G].
  - rewrite nth_error_app1 in H by exact G. left. exact H.
  - rewrite nth_error_app2 in H by exact G. destruct (Z.to_nat i - length l)%nat as [|k]; [injection H as <-; right; reflexivity|]. destruct k; discriminate H.
Qed.
Lemma holds_later : forall a cells L a' cells' L' P p, grown a cells L a' cells' L' P -> holds_item (ca_zim a) (blobs_of L) p -> holds_item (ca_zim a') (blobs_of L') p.
Proof.
  intros a cells L a' cells' L' P p G (n & k & bl & H1 & H2 & H3 & H4 & H5). destruct (gr_old _ _ _ _ _ _ _ G _ _ H1) as (e' & E & S & _).
  rewrite (same_content (p_entry n k p) _ n k eq_refl S) in E. destruct (gr_clusters _ _ _ _ _ _ _ G) as (N & -> & _).
  exists n, k, bl. split; [exact E|]. split; [|auto]. unfold blobs_of in *. rewrite map_app. apply znth_app_some. exact H2.
Qed.
Lemma grown_refl : forall a cells L, archive_ok Stream a cells L -> grown a cells L a cells L [].
Proof.
  intros a cells L AO. constructor; auto.
  - exists []. rewrite app_nil_r. split; [reflexivity|]. split; [constructor|reflexivity].
  - change (zlen (@nil pitem)) with 0. lia.
  - intros u e H. exists e. split; [exact H|]. split; [|reflexivity]. unfold same_entry. destruct (e_kind e); auto 10.
  - intros us H. exists us. split; [exact H|apply Permutation_refl].
  - apply framed_refl.
  - apply keeps_refl.
Qed.
Lemma grown_trans : forall a cells L a1 cells1 L1 P1 a2 cells2 L2 P2,
  grown a cells L a1 cells1 L1 P1 -> grown a1 cells1 L1 a2 cells2 L2 P2 -> grown a cells L a2 cells2 L2 (P1 ++ P2).
Proof.
  intros a cells L a1 cells1 L1 P1 a2 cells2 L2 P2 G1 G2. pose proof G1 as [A1 A2 A3 A4 A5 A6 AU A7 A8 A9 A10 A11 A12]. pose proof G2 as [B1 B2 B3 B4 B5 B6 BU B7 B8 B9 B10 B11 B12].
  constructor.
  - exact B1.
  - destruct A2 as (N1 & -> & F1 & Z1). destruct B2 as (N2 & -> & F2 & Z2). exists (N1 ++ N2). rewrite app_assoc. split; [reflexivity|].
    split; [apply Forall_app; auto|rewrite !zlen_app; lia].
  - rewrite zlen_app. lia.
  - intros u e H. destruct (A4 u e H) as (e1 & E1 & S1 & T1). destruct (B4 u e1 E1) as (e2 & E2 & S2 & T2). exists e2. split; [exact E2|]. split; [|congruence].
    destruct S1 as (X1 & X2 & X3 & X4 & X5), S2 as (Y1 & Y2 & Y3 & Y4 & Y5). unfold same_entry. repeat (split; [congruence|]).
    destruct (e_kind e), (e_kind e1), (e_kind e2); try contradiction; auto. destruct X5, Y5. split; congruence.
  - intros u H E. rewrite map_app in H. apply B5; [intro; apply H; apply in_or_app; auto|]. apply A5; [intro; apply H; apply in_or_app; auto|exact E].
  - intros u H E. rewrite map_app in H. apply B6; [intro; apply H; apply in_or_app; auto|]. apply A6; [intro; apply H; apply in_or_app; auto|exact E].
  - rewrite BU, AU, map_app, !app_assoc. apply Permutation_app_tail. apply Permutation_app_comm.
  - intros us H. destruct (A7 us H) as (us1 & E1 & Q1). destruct (B7 us1 E1) as (us2 & E2 & Q2). exists us2. split; [exact E2|].
    unfold p_articles in *. rewrite filter_app, map_app. rewrite Q2, Q1. rewrite !app_assoc. apply Permutation_app_tail. apply Permutation_app_comm.
  - apply Forall_app. split; [|exact B8]. rewrite Forall_forall in *. intros p Hp. eapply holds_later; [exact G2|]. apply A8. exact Hp.
  - eapply framed_trans; eassumption.
  - auto.
  - eapply keeps_weaken; [eapply keeps_trans; [exact A11|exact B11|exact (fr_len _ _ _ _ _ _ A9)]|]. cbv beta. auto.
  - intro Q. apply app_eq_nil in Q as (Q1 & Q2). rewrite (B12 Q2). exact (A12 Q1).
Qed.

(** ** One more entry *)
Lemma p_addable : forall L n k p, item_ok fuel (p_item p) (p_data p) -> 0 <= p_mime p < 65535 -> 0 <= n < 2 ^ 32 -> 0 <= k < 2 ^ 32 ->
  absent L (p_url p) -> zlen L + 1 < 2 ^ 32 -> addable L (p_went n k p).
Proof.
  intros L n k p OK HM HN HK AB CN. destruct (item_storable _ _ _ OK) as ((x & N1) & N2 & _ & N4). pose proof OK as (_ & _ & AR). constructor.
  - unfold entry_storable. cbn. split; [lia|]. split; [eauto|]. split; [exact N2|]. split; [eauto|]. change (2 ^ 32) with 4294967296 in *. lia.
  - unfold kind_consistent. cbn. lia.
  - exact AB.
  - exact AB.
  - destruct N2 as ((b & EB) & _). cbn [w_old_url p_went]. unfold p_url, item_url. exists ([x] ++ b). apply utf8_encode_app; assumption.
  - intros r H. discriminate H.
  - cbn. intro H. apply AR. congruence.
  - cbn. discriminate.
  - exact CN.
Qed.
Lemma write_one : forall a cells L n k p bl s', archive_ok Stream a cells L -> item_ok fuel (p_item p) (p_data p) -> 0 <= p_mime p < 65535 ->
  0 <= n < 2 ^ 32 -> 0 <= k < 2 ^ 32 -> absent (map snd cells) (p_url p) -> zlen cells + 1 < 2 ^ 32 ->
  znth (blobs_of L) n = Some (Some bl) -> znth bl k = Some (p_data p) -> lo <= n ->
  write_entry (S (S depth)) (p_went n k p) (ca_zim a) = (Ok tt, s') ->
  exists cells', grown a cells L (mkCa s' (ca_ptrs a) (ca_next a)) cells' L [p].
Proof.
  intros a cells L n k p bl s' AO OK HM HN HK AB CN E1 E2 HLO W.
  assert (AD : addable (map snd cells) (p_went n k p)). { apply p_addable; try assumption. rewrite zlen_map. exact CN. }
  destruct (add_keeps_clusters Stream a cells L _ _ _ AO AD W) as (cells' & AO' & FR & (ST1 & ST2) & A & B & x & y & EA & EB).
  exists cells'. pose proof (ao_entries _ _ _ _ AO) as CS. destruct (add_lookup _ _ _ _ _ CS AD W) as ((e' & F1 & F2 & _) & F3 & F4).
  constructor; cbn [ca_zim]; try assumption.
  - exists []. rewrite app_nil_r. split; [reflexivity|]. split; [constructor|]. change (zlen (@nil (option (Z * ccell)))) with 0. change (zlen [p]) with 1. lia.
  - rewrite <- (zlen_map (@snd Z entry) cells'), EB, <- (zlen_map (@snd Z entry) cells), EA, !zlen_app, zlen_cons, !zlen_map. change (zlen [p]) with 1. lia.
  - intros u Hu. apply F4. intro X. apply Hu. left. symmetry. exact X.
  - intros u Hu Ha e He X. rewrite EB in He. apply in_app_or in He.
    assert (OLD : forall l e0, In e0 (map (shift_entry x 1 [full_url (w_entry (p_went n k p))]) l) -> (forall e1, In e1 l -> In e1 (map snd cells)) -> full_url e0 <> u).
    { intros l e0 H0 H1. apply in_map_iff in H0 as (e1 & <- & H2). rewrite shift_full_url. apply Ha. apply H1. exact H2. }
    destruct He as [He|[He|He]].
    + apply (OLD _ _ He); [|exact X]. intros e1 H1. rewrite EA. apply in_or_app. auto.
    + apply Hu. left. rewrite <- X, <- He. rewrite bumped_full_url. reflexivity.
    + apply (OLD _ _ He); [|exact X]. intros e1 H1. rewrite EA. apply in_or_app. auto.
  - rewrite EB, EA, !map_app. cbn [map app].
    assert (SH : forall l, map full_url (map (shift_entry x 1 [full_url (w_entry (p_went n k p))]) l) = map full_url l).
    { intro l. rewrite map_map. apply map_ext. intro e. apply shift_full_url. }
    rewrite !SH, bumped_full_url. symmetry. apply Permutation_middle.
  - intros us Hus. destruct (add_articles _ _ _ _ _ us CS AD W Hus) as (us' & U1 & U2 & U3). exists us'. split; [exact U1|].
    unfold p_articles. cbn [filter]. cbn [w_force p_went] in U2, U3. destruct (it_article (p_item p)); cbn [map app]; [apply U2; reflexivity|apply U3; discriminate].
  - constructor; [|constructor]. exists n, k, bl. cbn [w_entry p_went] in F1, F2. rewrite p_full_url in F1.
    rewrite (same_content (p_entry n k p) _ n k eq_refl F2) in F1. split; [exact F1|]. split; [exact E1|]. split; [exact E2|]. split; [lia|exact HLO].
  - intro Q. discriminate Q.
Qed.
Lemma write_entries_ok : forall P n a cells L bl k c0 s' l', archive_ok Stream a cells L -> lo <= n -> 0 <= n < 2 ^ 32 -> 0 <= k -> k + zlen P < 2 ^ 32 ->
  znth (blobs_of L) n = Some (Some bl) -> (forall j p, znth P j = Some p -> znth bl (k + j) = Some (p_data p)) ->
  Forall (fun p => item_ok fuel (p_item p) (p_data p) /\ 0 <= p_mime p < 65535 /\ absent (map snd cells) (p_url p)) P -> NoDup (map p_url P) -> zlen cells + zlen P < 2 ^ 32 ->
  write_entries depth n (entries_of c0 k P) (ca_zim a) = (Ok tt, (l', s')) ->
  exists cells', grown a cells L (mkCa s' (ca_ptrs a) (ca_next a)) cells' L P.
Proof.
  induction P as [|p P IH]; intros n a cells L bl k c0 s' l' AO HLO HN HK HKP E1 E2 F ND CN W; cbn [entries_of write_entries] in W.
  - injection W as <- <-. exists cells. replace (mkCa (ca_zim a) (ca_ptrs a) (ca_next a)) with a by (destruct a; reflexivity). apply grown_refl. exact AO.
  - rewrite zlen_cons in *. pose proof (zlen_nonneg P). unfold set_cluster_number in W. replace (n <? 0) with false in W by lia. cbn [w_entry p_went e_kind p_entry] in W.
    change (set_kind (Content n k) (p_went c0 k p)) with (p_went n k p) in W.
    destruct (write_entry (S (S depth)) (p_went n k p) (ca_zim a)) as [[[]|e] s1] eqn:W1; [|discriminate W].
    destruct (write_entries depth n (entries_of c0 (k + 1) P) s1) as [r [l2 s2]] eqn:W2. injection W as -> <- <-.
    inversion F as [|? ? (O1 & O2 & O3) F']; subst. inversion ND as [|? ? N1 N2]; subst.
    destruct (write_one a cells L n k p bl s1 AO O1 O2 HN ltac:(lia) O3 ltac:(lia) E1) as (cells1 & G1); [|exact HLO|exact W1|].
    { replace k with (k + 0) by lia. apply E2. reflexivity. }
    destruct (IH n (mkCa s1 (ca_ptrs a) (ca_next a)) cells1 L bl (k + 1) c0 s2 l2 (gr_ok _ _ _ _ _ _ _ G1) HLO HN ltac:(lia) ltac:(lia) E1) as (cells2 & G2).
    + intros j q Hj. pose proof (znth_some _ _ _ Hj). replace (k + 1 + j) with (k + (1 + j)) by lia. apply E2.
      unfold znth in *. replace (1 + j <? 0) with false by lia. replace (j <? 0) with false in Hj by lia. replace (Z.to_nat (1 + j)) with (S (Z.to_nat j)) by lia. exact Hj.
    + rewrite Forall_forall in F' |- *. intros q Hq. destruct (F' q Hq) as (Q1 & Q2 & Q3). split; [exact Q1|]. split; [exact Q2|].
      apply (gr_absent _ _ _ _ _ _ _ G1); [|exact Q3]. intros [X|[]]. apply N1. rewrite X. apply in_map. exact Hq.
    + exact N2.
    + rewrite (gr_count _ _ _ _ _ _ _ G1). change (zlen [p]) with 1. lia.
    + exact W2.
    + exists cells2. exact (grown_trans _ _ _ _ _ _ [p] _ _ _ P G1 G2).
Qed.

(** ** Writing a cluster leaves the entries alone *)
Lemma write_end_zim : forall I (ops : cops I) n off chunks a c r a2 c2, write_end fuel new_comp comp flush ops n off chunks a c = (r, (a2, c2)) ->
  exists f al, ca_zim a2 = set_file f (set_alloc al (ca_zim a)).
Proof.
  intros I ops n off chunks a c r a2 c2 H. unfold write_end in H. cbv zeta in H.
  assert (Z : forall al f b p, exists f' al', ca_zim (ca_set_ptrs p (ca_set_file f b)) = set_file f' (set_alloc al' (ca_zim b)) /\
              (al = al -> exists f'' al'', ca_zim (ca_set_alloc al (ca_set_ptrs p (ca_set_file f b))) = set_file f'' (set_alloc al'' (ca_zim b)))).
  { intros al f b p. exists f, (ca_alloc b). destruct b as [[] ? ?]. split; [reflexivity|]. intros _. exists f, al. reflexivity. }
  assert (Z0 : forall f b, exists f' al', ca_zim (ca_set_file f b) = set_file f' (set_alloc al' (ca_zim b))).
  { intros f b. exists f, (ca_alloc b). destruct b as [[] ? ?]. reflexivity. }
  destruct (pl_set n off true _) as [p|x]; [|injection H as _ <- _; apply Z0].
  destruct (Z (ca_alloc a) (write_chunks (ca_file a) off chunks) a p) as (f1 & al1 & E1 & _).
  match type of H with (match ?m with _ => _ end) = _ => destruct m as [[size|x] w] end; [|injection H as _ <- _; eauto].
  destruct (co_offset ops c) as [o|]; [|injection H as _ <- _; eauto].
  destruct (mark_free _ o (co_old c)) as [al|]; injection H as _ <- _; [|eauto].
  destruct (Z al (write_chunks (ca_file a) off chunks) a p) as (_ & _ & _ & G). apply G. reflexivity.
Qed.
Lemma write_cluster_zim : forall I (ops : cops I) num a c n a2 c2, write_cluster fuel new_comp comp flush ops num a c = (Ok n, (a2, c2)) ->
  exists f al, ca_zim a2 = set_file f (set_alloc al (ca_zim a)).
Proof.
  intros I ops num a c n a2 c2 H. unfold write_cluster in H.
  destruct (write_begin fuel new_comp comp flush ops num a c) as [[[[m off] chunks]|x] [a1 c1]] eqn:EB; [|discriminate H].
  destruct (write_end_zim _ _ _ _ _ _ _ _ _ _ H) as (f & al & ->).
  assert (E : exists al1, ca_zim a1 = set_alloc al1 (ca_zim a)).
  { unfold write_begin in EB. destruct (match num with Some n => n <? 0 | None => false end); [discriminate EB|].
    destruct (wdisk _ _ _ _ _ _ _) as [[sz|y] w]; [|discriminate EB].
    match type of EB with (match ?m with _ => _ end) = _ => destruct m as [[k a0]|y] eqn:EN end; [|discriminate EB].
    assert (F : ca_zim a0 = ca_zim a).
    { destruct (co_offset ops _); [destruct num|].
      - injection EN as _ <-. reflexivity.
      - destruct (get_cluster_index_by_offset a z); [injection EN as _ <-; reflexivity|discriminate EN].
      - injection EN as _ <-. reflexivity. }
    destruct (allocate _ sz) as [(o, s)|y]; [|discriminate EB].
    destruct (wwrite _ _ _ _ _ _ _) as [[ch|y] w1]; [|discriminate EB]. injection EB as _ _ _ <- _. exists s. unfold ca_set_alloc. cbn [ca_zim]. rewrite F. reflexivity. }
  destruct E as (al1 & ->). exists f, al. destruct (ca_zim a). reflexivity.
Qed.

Lemma same_lookup : forall s s2 E, consistent s E -> consistent s2 E -> forall u, get_entry_by_full_url s2 u = get_entry_by_full_url s u.
Proof.
  intros s s2 E C C2 u. destruct (utf8_encode u) as [b|] eqn:EB.
  - destruct (get_entry_by_full_url s u) as [e|x] eqn:G.
    + apply (lookup_iff _ _ _ _ C2). apply (lookup_iff _ _ _ _ C). exact G.
    + assert (A : absent E u). { intros e He Hu. assert (get_entry_by_full_url s u = Ok e) by (apply (lookup_iff _ _ _ _ C); auto). congruence. }
      pose proof (proj2 (missing_iff _ _ _ _ C EB) A) as M1. pose proof (proj2 (missing_iff _ _ _ _ C2 EB) A) as M2. congruence.
  - rewrite !lookup_unencodable by exact EB. reflexivity.
Qed.
Lemma same_target : forall s s2 E e, consistent s E -> consistent s2 E -> target_url s2 e = target_url s e.
Proof.
  intros s s2 E e C C2. destruct (target_url s e) as [v|] eqn:T.
  - apply (target_iff _ _ _ _ C2). apply (target_iff _ _ _ _ C). exact T.
  - destruct (target_url s2 e) as [v|] eqn:T2; [|reflexivity]. apply (target_iff _ _ _ _ C2) in T2. apply (target_iff _ _ _ _ C) in T2. congruence.
Qed.
Lemma same_articles : forall s s2 E us, consistent s E -> consistent s2 E -> z_atpl s2 = z_atpl s -> article_urls s = Some us ->
  exists us2, article_urls s2 = Some us2 /\ Permutation us2 us.
Proof.
  intros s s2 E us C C2 A H. destruct (article_urls_ok s2 E C2) as (us2 & H2 & N2). exists us2. split; [exact H2|].
  destruct (article_urls_ok s E C) as (us1 & H1 & N1). rewrite H in H1. injection H1 as <-. apply perm_by_in; try assumption.
  intro u. rewrite (article_urls_in _ _ _ C2 H2), (article_urls_in _ _ _ C H), A. reflexivity.
Qed.

(** ** What a strategy has gathered *)
Record pend (st : strategy) (P : list pitem) : Prop := mkPend {
  pd_max : st_max st <= M;
  pd_entries : st_entries st = entries_of 0 0 P;
  pd_cluster : exists w, st_cluster st = co_set w new_cluster /\ rep fuel (fun o => o = None) [] w (map p_data P) /\
    w_removed w = [] /\ w_ext w = None /\ w_comp w = Some (st_comp st);
  pd_size : M + 4 < 2 ^ 32 -> zlen P <= 1 \/ zlen (cluster_data false (map p_data P)) <= M + 4 }.

Lemma pend_empty : forall c max, max <= M -> pend (mkStrat c max [] (strat_cluster c)) [].
Proof.
  intros c max HM. constructor.
  - exact HM.
  - reflexivity.
  - exists (force_compression (Some c) (co_wrap new_cluster)). split; [reflexivity|]. split; [|auto].
    pose proof (wrap_rep inner_empty fuel (fun o : option Z => o = None) _ _ _ (holds_empty (option Z) (fun o => o = None)) None eq_refl) as R.
    eapply rep_same; [exact R|reflexivity..].
  - intros _. left. change (zlen (@nil pitem)) with 0. lia.
Qed.

(** Items that can be written. *)
Definition ready (ml : mlist) (cells : list (Z * entry)) (P : list pitem) : Prop :=
  Forall (fun p => item_ok fuel (p_item p) (p_data p) /\ (exists m, mt_get (p_mime p) (ml_types ml) = Ok m /\ encode (it_mime (p_item p)) = Ok m) /\
    absent (map snd cells) (p_url p)) P.
Lemma mt_get_range : forall i l m, mt_get i l = Ok m -> 0 <= i < zlen l.
Proof. intros i l m H. unfold mt_get in H. destruct ((zlen l <=? i) || (i <? 0)) eqn:E; [discriminate|]. lia. Qed.

Lemma finalize_ok : forall s st P cells L s' st', archive_ok Stream (sa_arch s) cells L -> pend st P -> P <> [] ->
  ready (sa_mimes s) cells P -> NoDup (map p_url P) -> zlen cells + zlen P < 2 ^ 32 -> lo <= zlen L < 2 ^ 32 -> zlen (ml_types (sa_mimes s)) <= 65535 ->
  finalize fuel new_comp comp flush depth (s, st) = (Ok tt, (s', st')) ->
  sa_mimes s' = sa_mimes s /\ pend st' [] /\ st_comp st' = st_comp st /\ st_max st' = st_max st /\
  exists cells' L', grown (sa_arch s) cells L (sa_arch s') cells' L' P.
Proof.
  intros s st P cells L s' st' AO PD NE RD ND B1 B2 B3 H. destruct s as [a ml]. cbn [sa_arch sa_mimes] in *. unfold finalize in H. cbn [sa_arch sa_mimes] in H.
  destruct PD as [PM PE (w & EC & R & RM & RX & RC) PS].
  destruct (write_cluster fuel new_comp comp flush new_ops None a (st_cluster st)) as [[n|e] [a2 c2]] eqn:W; [|discriminate H].
  destruct (write_entries depth n (st_entries st) (ca_zim a2)) as [x [l z]] eqn:WE. destruct x as [[]|e]; [|discriminate H]. injection H as <- <-.
  split; [reflexivity|]. split; [apply pend_empty; exact PM|]. split; [reflexivity|]. split; [reflexivity|]. cbn [sa_arch].
  rewrite EC in W.
  destruct (written fuel dc new_decomp new_comp comp flush Stream CD new_ops a (co_set w new_cluster) None (fun o => o = None) NONE false [] (map p_data P) None
      (holds_empty (option Z) _) (rep_sane fuel _ _ _ _ _ R) R (fun x Hx => Hx) cells L (zlen L) AO (or_introl (conj eq_refl eq_refl)) n a2 c2 W) as (-> & off & len & AO2 & UU & NW & KK & LE & PD1 & PD2 & f0 & al0 & EZ0).
  rewrite append_replace in AO2. set (cell := mkCcell _ _ _ _) in AO2.
  assert (EB : znth (blobs_of (L ++ [Some (off, cell)])) (zlen L) = Some (Some (map p_data P))).
  { unfold blobs_of. rewrite map_app. rewrite <- (zlen_map (option_map (fun c : Z * ccell => cc_blobs (snd c))) L). cbn [map option_map snd cc_blobs cell]. apply znth_mid. }
  rewrite PE in WE. pose proof (zlen_nonneg L). pose proof (zlen_nonneg cells).
  destruct (write_entries_ok P (zlen L) a2 cells (L ++ [Some (off, cell)]) (map p_data P) 0 0 z l AO2) as (cells' & G); [lia|lia|lia|lia|exact EB| | |exact ND|exact B1|exact WE|].
  - intros j p Hj. rewrite Z.add_0_l, znth_map, Hj. reflexivity.
  - unfold ready in RD. rewrite Forall_forall in RD |- *. intros p Hp. destruct (RD p Hp) as (Q1 & (m & Q2 & _) & Q3). split; [exact Q1|]. split; [|exact Q3].
    apply mt_get_range in Q2. lia.
  - exists cells', (L ++ [Some (off, cell)]). pose proof G as [G1 G2 G3 G4 G5 G6 GU G7 G8 G9 G10 G11].
    pose proof (ao_entries _ _ _ _ AO) as CS. pose proof (ao_entries _ _ _ _ AO2) as CS2.
    destruct (write_cluster_zim _ _ _ _ _ _ _ _ W) as (f & al & EZ).
    constructor; try assumption.
    + exists [Some (off, cell)]. split; [reflexivity|]. split.
      * constructor; [|constructor]. exists off, cell. split; [reflexivity|]. intro HM. cbn [cell cc_blobs cc_ext]. rewrite zlen_map. destruct (PS HM) as [P1|P1].
        { left. destruct P as [|p P]; [congruence|]. rewrite zlen_cons in *. pose proof (zlen_nonneg P). lia. }
        right. assert (EW : wwide false w (map p_data P) = false).
        { unfold wwide, wide. cbn [co_wrap co_set]. rewrite RX. destruct (has_modifications w); [|reflexivity]. lia. }
        change (co_wrap (co_set w new_cluster)) with w. rewrite EW. exact P1.
      * destruct P as [|p P]; [congruence|]. unfold zlen. cbn [length]. lia.
    + intros u e Hu. rewrite <- (same_lookup _ _ _ CS CS2) in Hu. destruct (G4 u e Hu) as (e' & E1 & E2 & E3). exists e'. split; [exact E1|]. split; [exact E2|].
      rewrite E3. apply (same_target _ _ _ _ CS CS2).
    + intros u Hu Hm. apply G5; [exact Hu|]. rewrite (same_lookup _ _ _ CS CS2). exact Hm.
    + intros us Hus. destruct (same_articles _ _ _ us CS CS2) as (us2 & U1 & U2); [rewrite EZ; reflexivity|exact Hus|].
      destruct (G7 us2 U1) as (us' & U3 & U4). exists us'. split; [exact U3|]. rewrite U4. apply Permutation_app_head. exact U2.
    + eapply framed_trans; [|exact G9]. constructor.
      * intros x (S1 & S2 & S3). split; [apply UU; [exact S1|intros d; apply S3]|]. split; [exact S2|]. intros i d Hd Cv. apply znth_snoc_inv in Hd as [Hd|Hd]; [exact (S3 i d Hd Cv)|].
        injection Hd as ->. apply (NW x); [exact Cv|exact S1].
      * eapply keeps_weaken; [exact KK|]. intros x (S1 & _). exact S1.
      * exact LE.
      * rewrite EZ0. constructor; [apply tracks_refl..|apply otracks_refl].
      * split; [exact PD2|]. split; [rewrite (ao_mutable _ _ _ _ AO), (ao_mutable _ _ _ _ AO2); reflexivity|]. rewrite PD1. intro Q. discriminate Q.
    + assert (SW : forall x, still (ca_alloc a) cells x -> still (ca_alloc a2) cells x).
      { intros x (S1 & S2). split; [apply UU; [exact S1|intros d Hd; unfold at_number in Hd; apply znth_some in Hd; lia]|exact S2]. }
      intros x Hx. apply G10, SW, Hx.
    + assert (SW : forall x, still (ca_alloc a) cells x -> still (ca_alloc a2) cells x).
      { intros x (S1 & S2). split; [apply UU; [exact S1|intros d Hd; unfold at_number in Hd; apply znth_some in Hd; lia]|exact S2]. }
      eapply keeps_weaken; [eapply keeps_trans; [exact KK|exact G11|exact LE]|]. cbv beta. intros x Hx. split; [exact (proj1 Hx)|apply SW; exact Hx].
    + intro Q. contradiction.
Qed.

Lemma entries_snoc : forall P n k p, entries_of n k (P ++ [p]) = entries_of n k P ++ [p_went n (k + zlen P) p].
Proof.
  induction P as [|q P IH]; intros n k p; cbn [entries_of app].
  - change (zlen (@nil pitem)) with 0. rewrite Z.add_0_r. reflexivity.
  - rewrite IH. replace (k + zlen (q :: P)) with (k + 1 + zlen P) by (rewrite zlen_cons; lia). reflexivity.
Qed.
Lemma pend_has : forall st P, pend st P -> has_items st = (match P with [] => false | _ => true end).
Proof. intros st P [_ E _ _]. unfold has_items. rewrite E. destruct P; reflexivity. Qed.

(** What the mimetype list knows stays there. *)
Definition mextends (a b : mlist) : Prop := exists t, ml_types b = ml_types a ++ t.
Lemma mextends_refl : forall a, mextends a a. Proof. intro a. exists []. symmetry. apply app_nil_r. Qed.
Lemma mextends_trans : forall a b c, mextends a b -> mextends b c -> mextends a c.
Proof. intros a b c (t & E) (u & F). exists (t ++ u). rewrite F, E, app_assoc. reflexivity. Qed.
Lemma mextends_len : forall a b, mextends a b -> zlen (ml_types a) <= zlen (ml_types b).
Proof. intros a b (t & ->). rewrite zlen_app. pose proof (zlen_nonneg t). lia. Qed.
Lemma to_entry_mimes : forall it s x s', to_entry it s = (x, s') -> mextends (sa_mimes s) (sa_mimes s') /\ sa_arch s' = sa_arch s.
Proof.
  intros it s x s' H. unfold to_entry in H. destruct (mt_get_index _ true _) as [[o ml]|e] eqn:E.
  - assert (X : mextends (sa_mimes s) ml).
    { destruct (mt_get_index_spec _ _ _ _ _ E) as (m & _ & [(-> & _)|(_ & _ & _ & T & _)] & _); [apply mextends_refl|exists [m]; exact T]. }
    destruct o as [i|]; [|injection H as _ <-; auto]. destruct (it_article it && negb (ueqb (it_ns it) NS_C)); injection H as _ <-; auto.
  - injection H as _ <-. split; [apply mextends_refl|reflexivity].
Qed.
Lemma finalize_mimes : forall s st x s' st', finalize fuel new_comp comp flush depth (s, st) = (x, (s', st')) -> sa_mimes s' = sa_mimes s.
Proof.
  intros s st x s' st' H. unfold finalize in H. destruct (write_cluster _ _ _ _ _ _ _ _) as [[n|e] [a c]]; [|injection H as _ <- _; reflexivity].
  destruct (write_entries _ _ _ _) as [[[]|e] [l z]]; injection H as _ <- _; reflexivity.
Qed.
Lemma add_mimes : forall it s st x s' st', add_item fuel new_comp comp flush depth it (s, st) = (x, (s', st')) -> mextends (sa_mimes s) (sa_mimes s').
Proof.
  intros it s st x s' st' H. unfold add_item in H. destruct (new_cluster_needed it st) as [[nd|e] st1]; [|injection H as _ <- _; apply mextends_refl].
  destruct (if nd then _ else _) as [[[]|e] [s1 st2]] eqn:EF.
  - assert (E1 : sa_mimes s1 = sa_mimes s). { destruct nd; [eapply finalize_mimes; exact EF|injection EF as <- _; reflexivity]. }
    destruct (to_entry it s1) as [[en|e] s2] eqn:ET; destruct (to_entry_mimes _ _ _ _ ET) as (X & _); rewrite E1 in X.
    + destruct (append_blob _ _ _) as [[num|e] w]; [destruct (set_blob_number num en)|]; injection H as _ <- _; exact X.
    + injection H as _ <- _. exact X.
  - injection H as _ <- _. assert (E1 : sa_mimes s1 = sa_mimes s). { destruct nd; [eapply finalize_mimes; exact EF|discriminate EF]. } rewrite E1. apply mextends_refl.
Qed.
Lemma flush_mimes : forall s st x s' st', flush_items fuel new_comp comp flush depth (s, st) = (x, (s', st')) -> sa_mimes s' = sa_mimes s.
Proof. intros s st x s' st' H. unfold flush_items in H. destruct (has_items st); [eapply finalize_mimes; exact H|injection H as _ <- _; reflexivity]. Qed.
Lemma flush_all_mimes : forall l s x s' l', flush_all fuel new_comp comp flush depth l s = (x, (s', l')) -> sa_mimes s' = sa_mimes s.
Proof.
  induction l as [|[m st] l IH]; intros s x s' l' H; cbn [flush_all] in H; [injection H as _ <- _; reflexivity|].
  destruct (flush_items _ _ _ _ _ (s, st)) as [[[]|e] [s1 st1]] eqn:EF; pose proof (flush_mimes _ _ _ _ _ EF) as E.
  - destruct (flush_all _ _ _ _ _ l s1) as [y [s2 l2]] eqn:ER. injection H as _ <- _. rewrite <- E. eapply IH. exact ER.
  - injection H as _ <- _. exact E.
Qed.
Lemma any_add_mimes : forall it s y x s' y', any_add fuel new_comp comp flush depth it (s, y) = (x, (s', y')) -> mextends (sa_mimes s) (sa_mimes s').
Proof.
  intros it s y x s' y' H. destruct y as [st|ms]; cbn [any_add] in H.
  - destruct (add_item _ _ _ _ _ _ _) as [r [s1 st1]] eqn:E. injection H as _ <- _. eapply add_mimes. exact E.
  - unfold add_item_m in H. destruct (add_item _ _ _ _ _ _ _) as [r [s1 st1]] eqn:E. injection H as _ <- _. eapply add_mimes. exact E.
Qed.
Lemma any_flush_mimes : forall s y x s' y', any_flush fuel new_comp comp flush depth (s, y) = (x, (s', y')) -> sa_mimes s' = sa_mimes s.
Proof.
  intros s y x s' y' H. destruct y as [st|ms]; cbn [any_flush] in H.
  - destruct (flush_items _ _ _ _ _ _) as [r [s1 st1]] eqn:E. injection H as _ <- _. eapply flush_mimes. exact E.
  - unfold flush_items_m in H. destruct (flush_all _ _ _ _ _ _ _) as [r [s1 l1]] eqn:E. injection H as _ <- _. eapply flush_all_mimes. exact E.
Qed.
Lemma perform_mimes : forall z o x z', perform_sop fuel new_comp comp flush depth z o = (x, z') -> mextends (sa_mimes (zs_arch z)) (sa_mimes (zs_arch z')).
Proof.
  intros z o x z' H. destruct o as [it d u|]; cbn [perform_sop] in H.
  - unfold zim_add_item in H. destruct u; cbn [negb] in H; destruct (any_add _ _ _ _ _ _ _) as [r [s y]] eqn:E; injection H as _ <-; eapply any_add_mimes; exact E.
  - unfold zim_flush_items in H. destruct (any_flush _ _ _ _ _ _) as [[[]|e] [s y]] eqn:E; pose proof (any_flush_mimes _ _ _ _ _ E) as E1.
    + destruct (any_flush _ _ _ _ _ (s, zs_plain z)) as [r [s2 y2]] eqn:F. injection H as _ <-. cbn [zs_arch]. rewrite (any_flush_mimes _ _ _ _ _ F), E1. apply mextends_refl.
    + injection H as _ <-. cbn [zs_arch]. rewrite E1. apply mextends_refl.
Qed.
Lemma sruns_mimes : forall z ops z', sruns fuel new_comp comp flush depth z ops z' -> mextends (sa_mimes (zs_arch z)) (sa_mimes (zs_arch z')).
Proof. induction 1; [apply mextends_refl|]. eapply mextends_trans; [eapply perform_mimes; eassumption|assumption]. Qed.

(** ** Steps *)
Lemma ready_later : forall a cells L a' cells' L' Pw P ml ml', grown a cells L a' cells' L' Pw -> ready ml cells P -> mextends ml ml' ->
  (forall p, In p P -> ~ In (p_url p) (map p_url Pw)) -> ready ml' cells' P.
Proof.
  intros a cells L a' cells' L' Pw P ml ml' G R (t & X) N. unfold ready in *. rewrite Forall_forall in *. intros p Hp. destruct (R p Hp) as (A & (m & B & C) & Ab).
  split; [exact A|]. split; [exists m; split; [rewrite X; apply mt_get_app; exact B|exact C]|]. apply (gr_absent _ _ _ _ _ _ _ G); auto.
Qed.

Lemma total_pend : forall st P it nd st1, pend st P -> P <> [] -> new_cluster_needed it st = (Ok nd, st1) ->
  pend st1 P /\ st_comp st1 = st_comp st /\ st_max st1 = st_max st /\
  (nd = false -> exists wd, zlen (cluster_data wd (map p_data P)) + s_size (it_source it) <= st_max st /\ (wd = true -> 2 ^ 32 <= zlen (cluster_data false (map p_data P)))).
Proof.
  intros st P it nd st1 [PM PE (w & EC & R & RM & RX & RC) PS] NE H. unfold new_cluster_needed in H. rewrite PE in H. destruct P as [|p P]; [congruence|]. cbn [entries_of] in H.
  pose proof (holds_empty (option Z) (fun o => o = None)) as HE. rewrite EC in H. cbn [co_wrap co_set] in H.
  assert (HM : has_modifications w = true).
  { pose proof (rp_len _ _ _ _ _ R) as LE. rewrite RM, zlen_map, zlen_cons in LE. change (zlen (@nil bytes)) with 0 in LE. change (zlen (@nil Z)) with 0 in LE.
    unfold has_modifications. destruct (w_added w); [pose proof (zlen_nonneg P); change (zlen (@nil Z)) with 0 in LE; lia|]. destruct (w_blobs w), (w_removed w); reflexivity. }
  destruct (total_ok inner_empty fuel _ _ _ _ HE w _ R) as (w' & E & V & S); [right; left; exact HM|].
  rewrite E in H. cbn [bind] in H. injection H as <- <-. cbn [st_comp st_max]. pose proof S as (_ & _ & SR & SX & SC & _).
  split; [|split; [reflexivity|split; [reflexivity|]]].
  - constructor; cbn [st_max st_entries st_cluster st_comp].
    + exact PM.
    + rewrite ?PE. reflexivity.
    + exists w'. split; [reflexivity|]. split; [eapply keep; eassumption|]. repeat split; congruence.
    + exact PS.
  - intro ND. eexists. split; [apply (proj1 (Z.ltb_ge _ _)); exact ND|]. unfold wwide, wide. rewrite RX, HM. intro W. apply Z.leb_le in W. exact W.
Qed.

Lemma app_item : forall s st P it d s1 en w' num en' ml st', pend st P -> item_ok fuel it d ->
  (M + 4 < 2 ^ 32 -> P <> [] -> zlen (cluster_data false (map p_data P)) + zlen d <= M) ->
  to_entry it s = (Ok en, s1) -> append_blob inner_empty (it_source it) (co_wrap (st_cluster st)) = (Ok num, w') ->
  set_blob_number num en = Ok en' -> sa_mimes s1 = ml ->
  st' = mkStrat (st_comp st) (st_max st) (st_entries st ++ [en']) (co_set w' (st_cluster st)) ->
  exists mid m, pend st' (P ++ [mkP it d mid]) /\ mt_get mid (ml_types ml) = Ok m /\ encode (it_mime it) = Ok m.
Proof.
  intros s st P it d s1 en w' num en' ml st' [PM PE (w & EC & R & RM & RX & RC) PS] OK SZ TE AP SB <- ->.
  pose proof OK as (_ & DL & _). pose proof (holds_empty (option Z) (fun o => o = None)) as HE. rewrite EC in AP |- *. cbn [co_wrap co_set] in AP.
  destruct (append_ok inner_empty fuel _ _ _ _ HE w _ (it_source it) d R) as (w2 & E & R2 & A & B & C); [rewrite RM; auto|exact DL|].
  rewrite E in AP. injection AP as <- <-.
  unfold to_entry in TE. destruct (mt_get_index (PyStr (it_mime it)) true (sa_mimes s)) as [[o ml]|e] eqn:EM; [|discriminate TE].
  destruct (mt_get_index_spec _ _ _ _ _ EM) as (m & MB & _ & MG). destruct o as [i|]; [|discriminate TE].
  destruct (it_article it && negb (ueqb (it_ns it) NS_C)); [discriminate TE|]. injection TE as <- <-. cbn [sa_mimes].
  destruct (MG i eq_refl) as (MG1 & _). exists i, m. split; [|split; [exact MG1|exact MB]].
  unfold set_blob_number in SB. cbn [w_entry e_kind] in SB. rewrite zlen_map in SB. destruct (zlen P <? 0); [discriminate SB|]. injection SB as <-.
  constructor; cbn [st_max st_entries st_cluster st_comp].
  - exact PM.
  - rewrite PE, entries_snoc, Z.add_0_l. reflexivity.
  - exists w2. split; [reflexivity|]. rewrite map_app. cbn [map p_data]. split; [exact R2|]. repeat split; congruence.
  - intro HM. destruct P as [|q P]; [left; unfold zlen; cbn; lia|right].
    assert (Q : zlen (cluster_data false (map p_data (q :: P))) + zlen d <= M) by (apply SZ; [exact HM|intro Q; discriminate Q]).
    rewrite cluster_data_len in *. unfold pointers_size in *. rewrite map_app, concat_app. rewrite !zlen_app. cbn [map concat p_data app]. rewrite app_nil_r.
    rewrite !zlen_cons in *. change (zlen (@nil bytes)) with 0 in *. cbn [map concat] in Q. rewrite zlen_cons in Q.
    change (Z.of_nat (pointer_bytes false)) with 4 in *. lia.
Qed.

Definition sizes (cells : list (Z * entry)) (L : list (option (Z * ccell))) (ml : mlist) (P : list pitem) : Prop :=
  zlen cells + zlen P < 2 ^ 32 /\ (lo <= zlen L /\ zlen L + zlen P < 2 ^ 32) /\ zlen (ml_types ml) <= 65535.

Lemma add_ok : forall s st P cells L it d s' st', archive_ok Stream (sa_arch s) cells L -> pend st P -> ready (sa_mimes s) cells P -> NoDup (map p_url P) ->
  sizes cells L (sa_mimes s) P -> item_ok fuel it d ->
  add_item fuel new_comp comp flush depth it (s, st) = (Ok tt, (s', st')) ->
  exists mid m Pw P' cells' L', Pw ++ P' = P ++ [mkP it d mid] /\ (Pw = [] \/ Pw = P) /\ grown (sa_arch s) cells L (sa_arch s') cells' L' Pw /\ pend st' P' /\
    mt_get mid (ml_types (sa_mimes s')) = Ok m /\ encode (it_mime it) = Ok m.
Proof.
  intros s st P cells L it d s' st' AO PD RD ND (B1 & B2 & B3) OK H. unfold add_item in H.
  assert (END : forall s1 st1 P1, pend st1 P1 -> (M + 4 < 2 ^ 32 -> P1 <> [] -> zlen (cluster_data false (map p_data P1)) + zlen d <= M) ->
    (match to_entry it s1 with
     | (Err e, s) => (Err e, (s, st1))
     | (Ok entry, s) =>
         match append_blob inner_empty (it_source it) (co_wrap (st_cluster st1)) with
         | (Err e, w) => (Err e, (s, mkStrat (st_comp st1) (st_max st1) (st_entries st1) (co_set w (st_cluster st1))))
         | (Ok num, w) =>
             let c := co_set w (st_cluster st1) in
             match set_blob_number num entry with
             | Err e => (Err e, (s, mkStrat (st_comp st1) (st_max st1) (st_entries st1) c))
             | Ok entry => (Ok tt, (s, mkStrat (st_comp st1) (st_max st1) (st_entries st1 ++ [entry]) c))
             end
         end
     end) = (Ok tt, (s', st')) ->
    sa_arch s' = sa_arch s1 /\ exists mid m, pend st' (P1 ++ [mkP it d mid]) /\ mt_get mid (ml_types (sa_mimes s')) = Ok m /\ encode (it_mime it) = Ok m).
  { intros s1 st1 P1 PD1 SZ E. destruct (to_entry it s1) as [[en|e] s2] eqn:ET; [|discriminate E].
    destruct (append_blob _ _ _) as [[num|e] w] eqn:EA; [|discriminate E]. cbv zeta in E. destruct (set_blob_number num en) as [en'|e] eqn:ES; [|discriminate E].
    injection E as <- <-. split; [exact (proj2 (to_entry_mimes _ _ _ _ ET))|]. eapply app_item; try eassumption; reflexivity. }
  destruct P as [|p P].
  - (* nothing gathered yet *)
    assert (EN : new_cluster_needed it st = (Ok false, st)). { unfold new_cluster_needed. rewrite (pd_entries _ _ PD). reflexivity. }
    rewrite EN in H. destruct (END s st [] PD) as (EA & mid & m & PD' & X); [intros _ Q; congruence|exact H|].
    exists mid, m, [], [mkP it d mid], cells, L. rewrite EA. split; [reflexivity|]. split; [auto|]. split; [apply grown_refl; exact AO|]. auto.
  - destruct (new_cluster_needed it st) as [[nd|e] st1] eqn:EN; [|discriminate H].
    destruct (total_pend st (p :: P) it nd st1 PD) as (PD1 & EC & EM & NF); [intro Q; discriminate Q|exact EN|]. destruct nd.
    + destruct (finalize fuel new_comp comp flush depth (s, st1)) as [[[]|e] [s2 st2]] eqn:EF; [|discriminate H].
      destruct (finalize_ok s st1 (p :: P) cells L s2 st2 AO PD1) as (E1 & PD2 & _ & _ & cells' & L' & G);
        [intro Q; discriminate Q|exact RD|exact ND|exact B1|pose proof (zlen_nonneg (p :: P)); lia|exact B3|exact EF|].
      destruct (END s2 st2 [] PD2) as (EA & mid & m & PD' & X); [intros _ Q; congruence|exact H|].
      exists mid, m, (p :: P), [mkP it d mid], cells', L'. rewrite EA. split; [reflexivity|]. auto.
    + destruct (END s st1 (p :: P) PD1) as (EA & mid & m & PD' & X); [|exact H|].
      * intros HM _. destruct (NF eq_refl) as (wd & W1 & W2). destruct OK as (_ & (DS & _) & _). rewrite DS in W1. pose proof (pd_max _ _ PD). 
        pose proof (zlen_nonneg d). destruct wd; [|lia]. pose proof (W2 eq_refl). rewrite cluster_data_len in *. unfold pointers_size in *.
        pose proof (zlen_nonneg (map p_data (p :: P))). change (Z.of_nat (pointer_bytes false)) with 4 in *. change (Z.of_nat (pointer_bytes true)) with 8 in *. lia.
      * exists mid, m, [], ((p :: P) ++ [mkP it d mid]), cells, L. rewrite EA. split; [reflexivity|]. split; [auto|]. split; [apply grown_refl; exact AO|]. auto.
Qed.

Lemma flush_ok : forall s st P cells L s' st', archive_ok Stream (sa_arch s) cells L -> pend st P -> ready (sa_mimes s) cells P -> NoDup (map p_url P) ->
  sizes cells L (sa_mimes s) P ->
  flush_items fuel new_comp comp flush depth (s, st) = (Ok tt, (s', st')) ->
  exists cells' L', grown (sa_arch s) cells L (sa_arch s') cells' L' P /\ pend st' [].
Proof.
  intros s st P cells L s' st' AO PD RD ND (B1 & B2 & B3) H. unfold flush_items in H. rewrite (pend_has _ _ PD) in H. destruct P as [|p P].
  - injection H as <- <-. exists cells, L. split; [apply grown_refl; exact AO|exact PD].
  - destruct (finalize_ok s st (p :: P) cells L s' st' AO PD) as (E1 & PD2 & _ & _ & cells' & L' & G);
      [intro Q; discriminate Q|exact RD|exact ND|exact B1|pose proof (zlen_nonneg (p :: P)); lia|exact B3|exact H|]. eauto.
Qed.

Lemma NoDup_app_iff : forall A (a b : list A), NoDup (a ++ b) <-> NoDup a /\ NoDup b /\ forall x, In x a -> ~ In x b.
Proof.
  intros A a b. induction a as [|x a IH]; cbn [app].
  - split; [intro H; split; [constructor|split; [exact H|intros x []]]|tauto].
  - rewrite !NoDup_cons_iff, IH, in_app_iff. split.
    + intros (N & NA & NB & DJ). split; [split; [tauto|exact NA]|]. split; [exact NB|]. intros y [<-|Hy]; [tauto|auto].
    + intros ((N & NA) & NB & DJ). split; [|split; [exact NA|split; [exact NB|intros y Hy; apply DJ; right; exact Hy]]]. intros [X|X]; [contradiction|]. exact (DJ x (or_introl eq_refl) X).
Qed.
Lemma NoDup_app_remove_r : forall A (a b : list A), NoDup (a ++ b) -> NoDup a. Proof. intros A a b H. apply NoDup_app_iff in H. tauto. Qed.
Lemma NoDup_app_remove_l : forall A (a b : list A), NoDup (a ++ b) -> NoDup b. Proof. intros A a b H. apply NoDup_app_iff in H. tauto. Qed.
Lemma NoDup_app_disjoint : forall A (a b : list A) x, NoDup (a ++ b) -> In x a -> In x b -> False.
Proof. intros A a b x H. apply NoDup_app_iff in H as (_ & _ & DJ). intros X Y. exact (DJ x X Y). Qed.

(** The strategies of several mimetypes. *)
Definition pends (l : list (ustr * strategy)) (Ps : list (list pitem)) : Prop := Forall2 (fun kv P => pend (snd kv) P) l Ps.
Inductive pendany : anystrat -> list pitem -> Prop :=
| pa_simple st P : pend st P -> pendany (Simple st) P
| pa_mime ms Ps : ms_max ms <= M -> pends (ms_map ms) Ps -> pendany (ByMimetype ms) (concat Ps).

Lemma flush_all_ok : forall l Ps s cells L s' l', archive_ok Stream (sa_arch s) cells L -> pends l Ps -> ready (sa_mimes s) cells (concat Ps) ->
  NoDup (map p_url (concat Ps)) -> sizes cells L (sa_mimes s) (concat Ps) ->
  flush_all fuel new_comp comp flush depth l s = (Ok tt, (s', l')) ->
  exists cells' L' Qs, grown (sa_arch s) cells L (sa_arch s') cells' L' (concat Ps) /\ pends l' Qs /\ concat Qs = [].
Proof.
  induction l as [|[k st] l IH]; intros Ps s cells L s' l' AO PD RD ND SZ H; inversion PD as [|? P ? Ps' PD1 PD2 E1 E2]; subst Ps.
  - injection H as <- <-. exists cells, L, []. split; [apply grown_refl; exact AO|]. split; [constructor|reflexivity].
  - cbn [flush_all] in H. cbn [concat] in *. cbn [snd] in PD1.
    destruct (flush_items fuel new_comp comp flush depth (s, st)) as [[[]|e] [s1 st1]] eqn:EF; [|discriminate H].
    destruct (flush_all fuel new_comp comp flush depth l s1) as [rr [s2 l2]] eqn:ER. injection H as -> <- <-.
    unfold ready in RD. apply Forall_app in RD as (RD1 & RD2). rewrite map_app in ND. destruct SZ as (B1 & B2 & B3). rewrite zlen_app in B1, B2.
    pose proof (zlen_nonneg P). pose proof (zlen_nonneg (concat Ps')).
    destruct (flush_ok s st P cells L s1 st1 AO PD1 RD1 (NoDup_app_remove_r _ _ _ ND)) as (cells1 & L1 & G1 & Q1); [repeat split; lia|exact EF|].
    pose proof (flush_mimes _ _ _ _ _ EF) as EM. pose proof (gr_count _ _ _ _ _ _ _ G1) as C1. destruct (gr_clusters _ _ _ _ _ _ _ G1) as (N & LN & _ & ZN).
    destruct (IH Ps' s1 cells1 L1 s2 l2) as (cells2 & L2 & Qs & G2 & PQ & CQ); [exact (gr_ok _ _ _ _ _ _ _ G1)|exact PD2| | | |exact ER|].
    + eapply ready_later; [exact G1|exact RD2|rewrite EM; apply mextends_refl|]. intros p Hp Hin. eapply NoDup_app_disjoint; [exact ND|exact Hin|]. apply in_map. exact Hp.
    + eapply NoDup_app_remove_l. exact ND.
    + unfold sizes. rewrite EM. subst L1. rewrite C1, zlen_app. pose proof (zlen_nonneg N); repeat split; lia.
    + exists cells2, L2, ([] :: Qs). split; [eapply grown_trans; eassumption|]. split; [constructor; assumption|exact CQ].
Qed.

Lemma get_pend : forall m l Ps, pends l Ps ->
  (exists A B k st P As Bs, l = A ++ (k, st) :: B /\ Ps = As ++ P :: Bs /\ dget ueqb m l = Some st /\ pend st P /\ pends A As /\ pends B Bs /\
     forall st', dset ueqb m st' l = A ++ (k, st') :: B) \/
  (dget ueqb m l = None /\ forall st', dset ueqb m st' l = l ++ [(m, st')]).
Proof.
  intros m l Ps H. induction H as [|[k st] P l Ps H1 H2 IH].
  - right. split; reflexivity.
  - cbn [dget dset]. destruct (ueqb m k) eqn:E.
    + left. exists [], l, k, st, P, [], Ps. repeat (split; [solve [reflexivity|assumption|constructor]|]). reflexivity.
    + destruct IH as [(A & B & k' & st' & P' & As & Bs & -> & -> & G & PD & PA & PB & DS)|(G & DS)].
      * left. exists ((k, st) :: A), B, k', st', P', (P :: As), Bs. repeat (split; [solve [reflexivity|assumption|constructor; assumption]|]). intro x. rewrite DS. reflexivity.
      * right. split; [exact G|]. intro x. rewrite DS. reflexivity.
Qed.

Lemma any_add_ok : forall s y P cells L it d s' y', archive_ok Stream (sa_arch s) cells L -> pendany y P -> ready (sa_mimes s) cells P -> NoDup (map p_url P) ->
  sizes cells L (sa_mimes s) P -> item_ok fuel it d ->
  any_add fuel new_comp comp flush depth it (s, y) = (Ok tt, (s', y')) ->
  exists mid m Pw P' cells' L', Permutation (Pw ++ P') (P ++ [mkP it d mid]) /\ grown (sa_arch s) cells L (sa_arch s') cells' L' Pw /\ pendany y' P' /\
    mt_get mid (ml_types (sa_mimes s')) = Ok m /\ encode (it_mime it) = Ok m.
Proof.
  intros s y P cells L it d s' y' AO PA RD ND SZ OK H. destruct PA as [st P PD|ms Ps MM PD]; cbn [any_add] in H.
  - destruct (add_item _ _ _ _ _ _ _) as [r [s1 st1]] eqn:E. injection H as -> <- <-.
    destruct (add_ok s st P cells L it d s1 st1 AO PD RD ND SZ OK E) as (mid & m & Pw & P' & cells' & L' & E1 & _ & G & PD' & X).
    exists mid, m, Pw, P', cells', L'. rewrite E1. split; [apply Permutation_refl|]. split; [exact G|]. split; [constructor; exact PD'|exact X].
  - unfold add_item_m in H. destruct (add_item _ _ _ _ _ _ _) as [r [s1 st1]] eqn:E. injection H as -> <- <-.
    unfold get_cs in E. destruct (get_pend (it_mime it) _ _ PD) as [(A & B & k & st & P & As & Bs & EL & -> & G & PD1 & PA & PB & DS)|(G & DS)]; rewrite G in E.
    + rewrite concat_app in *. cbn [concat] in *. rewrite !map_app in ND. unfold ready in RD. apply Forall_app in RD as (RA & RD). apply Forall_app in RD as (RP & RB).
      destruct SZ as (B1 & B2 & B3). rewrite !zlen_app in B1, B2. pose proof (zlen_nonneg (concat As)). pose proof (zlen_nonneg (concat Bs)).
      destruct (add_ok s st P cells L it d s1 st1 AO PD1 RP) as (mid & m & Pw & P' & cells' & L' & E1 & _ & Gr & PD' & X);
        [eapply NoDup_app_remove_r; eapply NoDup_app_remove_l; exact ND|repeat split; lia|exact OK|exact E|].
      exists mid, m, Pw, (concat As ++ P' ++ concat Bs), cells', L'. split; [|split; [exact Gr|split; [|exact X]]].
      * rewrite !app_assoc. rewrite (Permutation_app_comm Pw (concat As)). rewrite <- !app_assoc. rewrite (app_assoc Pw), E1, <- !app_assoc.
        apply Permutation_app_head. apply Permutation_app_head. apply Permutation_app_comm.
      * replace (concat As ++ P' ++ concat Bs) with (concat (As ++ P' :: Bs)) by (rewrite concat_app; reflexivity). constructor; [exact MM|]. cbn [ms_map]. rewrite DS.
        apply Forall2_app; [exact PA|constructor; [exact PD'|exact PB]].
    + destruct SZ as (B1 & B2 & B3). pose proof (zlen_nonneg (concat Ps)).
      destruct (add_ok s (strat_new (ms_comp ms) (ms_max ms)) [] cells L it d s1 st1 AO (pend_empty _ _ MM)) as (mid & m & Pw & P' & cells' & L' & E1 & EW & Gr & PD' & X);
        [constructor|constructor|change (zlen (@nil pitem)) with 0 in *; repeat split; change (zlen (@nil pitem)) with 0; lia|exact OK|exact E|].
      assert (Pw = []) by (destruct EW; assumption). subst Pw. cbn [app] in E1. subst P'.
      exists mid, m, [], (concat Ps ++ [mkP it d mid]), cells', L'. split; [apply Permutation_refl|]. split; [exact Gr|]. split; [|exact X].
      replace (concat Ps ++ [mkP it d mid]) with (concat (Ps ++ [[mkP it d mid]])) by (rewrite concat_app; reflexivity). constructor; [exact MM|]. cbn [ms_map]. rewrite DS.
      apply Forall2_app; [exact PD|constructor; [exact PD'|constructor]].
Qed.
Lemma any_flush_ok : forall s y P cells L s' y', archive_ok Stream (sa_arch s) cells L -> pendany y P -> ready (sa_mimes s) cells P -> NoDup (map p_url P) ->
  sizes cells L (sa_mimes s) P ->
  any_flush fuel new_comp comp flush depth (s, y) = (Ok tt, (s', y')) ->
  exists cells' L', grown (sa_arch s) cells L (sa_arch s') cells' L' P /\ pendany y' [].
Proof.
  intros s y P cells L s' y' AO PA RD ND SZ H. destruct PA as [st P PD|ms Ps MM PD]; cbn [any_flush] in H.
  - destruct (flush_items _ _ _ _ _ _) as [r [s1 st1]] eqn:E. injection H as -> <- <-.
    destruct (flush_ok s st P cells L s1 st1 AO PD RD ND SZ E) as (cells' & L' & G & Q). exists cells', L'. split; [exact G|constructor; exact Q].
  - unfold flush_items_m in H. destruct (flush_all _ _ _ _ _ _ _) as [r [s1 l1]] eqn:E. injection H as -> <- <-.
    destruct (flush_all_ok _ Ps s cells L s1 l1 AO PD RD ND SZ E) as (cells' & L' & Qs & G & Q & CQ). exists cells', L'. split; [exact G|].
    rewrite <- CQ. constructor; assumption.
Qed.

(** ** All operations *)
Definition pair_of (p : pitem) : item * bytes := (p_item p, p_data p).
Definition typed (ml : mlist) (p : pitem) : Prop :=
  item_ok fuel (p_item p) (p_data p) /\ exists m, mt_get (p_mime p) (ml_types ml) = Ok m /\ encode (it_mime (p_item p)) = Ok m.
Record sinv (a0 : carchive) (cells0 : list (Z * entry)) (L0 : list (option (Z * ccell))) (z : zstate) (done : list (item * bytes)) cells L (Pd Pc Pp : list pitem) : Prop := mkSinv {
  si_grown : grown a0 cells0 L0 (sa_arch (zs_arch z)) cells L Pd;
  si_comp : pendany (zs_comp z) Pc;
  si_plain : pendany (zs_plain z) Pp;
  si_all : Permutation (map pair_of (Pd ++ Pc ++ Pp)) done;
  si_typed : Forall (typed (sa_mimes (zs_arch z))) (Pd ++ Pc ++ Pp) }.

Lemma typed_later : forall ml ml' P, mextends ml ml' -> Forall (typed ml) P -> Forall (typed ml') P.
Proof.
  intros ml ml' P (t & X) H. eapply Forall_impl; [|exact H]. intros p (A & m & B & C). split; [exact A|]. exists m. split; [rewrite X; apply mt_get_app; exact B|exact C].
Qed.
Lemma urls_pairs : forall P, urls_of (map pair_of P) = map p_url P.
Proof. intro P. unfold urls_of. rewrite map_map. reflexivity. Qed.

(** The bounds for everything that is added, [all]. *)
Definition room (cells0 : list (Z * entry)) (L0 : list (option (Z * ccell))) (all : list (item * bytes)) : Prop :=
  NoDup (urls_of all) /\ (forall u, In u (urls_of all) -> absent (map snd cells0) u) /\
  zlen cells0 + zlen all < 2 ^ 32 /\ lo <= zlen L0 /\ zlen L0 + zlen all < 2 ^ 32.
Lemma room_part : forall cells0 L0 a b, room cells0 L0 (a ++ b) -> room cells0 L0 a.
Proof.
  intros cells0 L0 a b (A & B & C & DD). unfold urls_of in *. rewrite map_app in A. rewrite zlen_app in *. pose proof (zlen_nonneg b).
  split; [eapply NoDup_app_remove_r; exact A|]. split; [|split; lia]. intros u Hu. apply B. rewrite map_app, in_app_iff. auto.
Qed.
Lemma sinv_room : forall a0 cells0 L0 z done cells L Pd Pc Pp, sinv a0 cells0 L0 z done cells L Pd Pc Pp -> room cells0 L0 done -> zlen (ml_types (sa_mimes (zs_arch z))) <= 65535 ->
  NoDup (map p_url (Pd ++ Pc ++ Pp)) /\ ready (sa_mimes (zs_arch z)) cells (Pc ++ Pp) /\ sizes cells L (sa_mimes (zs_arch z)) (Pc ++ Pp).
Proof.
  intros a0 cells0 L0 z done cells L Pd Pc Pp [G C P A T] (N & AB & B1 & B2) B3.
  assert (U : Permutation (map p_url (Pd ++ Pc ++ Pp)) (urls_of done)). { rewrite <- urls_pairs. unfold urls_of. apply Permutation_map. exact A. }
  assert (ND : NoDup (map p_url (Pd ++ Pc ++ Pp))) by (eapply Permutation_NoDup; [apply Permutation_sym; exact U|exact N]).
  split; [exact ND|]. pose proof (Permutation_length A) as LN. rewrite map_length in LN.
  assert (LZ : zlen done = zlen Pd + zlen (Pc ++ Pp)) by (unfold zlen; rewrite <- LN, app_length; lia).
  split.
  - unfold ready. rewrite Forall_forall in *. intros p Hp. destruct (T p) as (T1 & T2); [apply in_or_app; auto|]. split; [exact T1|]. split; [exact T2|].
    apply (gr_absent _ _ _ _ _ _ _ G).
    + intro I. rewrite map_app in ND. eapply NoDup_app_disjoint; [exact ND|exact I|]. apply in_map. exact Hp.
    + apply AB. eapply Permutation_in; [exact U|]. apply in_map. apply in_or_app. auto.
  - pose proof (gr_count _ _ _ _ _ _ _ G) as C1. destruct (gr_clusters _ _ _ _ _ _ _ G) as (NN & -> & _ & ZN). unfold sizes. rewrite C1. rewrite !zlen_app in *. pose proof (zlen_nonneg NN); repeat split; lia.
Qed.
Lemma ready_part : forall ml cells A B C, ready ml cells (A ++ B ++ C) -> ready ml cells B.
Proof. unfold ready. intros ml cells A B C H. rewrite !Forall_app in H. tauto. Qed.
Lemma sizes_part : forall cells L ml A B C, sizes cells L ml (A ++ B ++ C) -> sizes cells L ml B.
Proof. unfold sizes. intros cells L ml A B C. rewrite !zlen_app. pose proof (zlen_nonneg A). pose proof (zlen_nonneg B). pose proof (zlen_nonneg C). intros (S1 & S2 & S3). repeat split; lia. Qed.

Lemma sinv_step : forall a0 cells0 L0 z done cells L Pd Pc Pp o z1, sinv a0 cells0 L0 z done cells L Pd Pc Pp ->
  room cells0 L0 (done ++ added_by [o]) -> Forall (fun x => item_ok fuel (fst x) (snd x)) (added_by [o]) -> zlen (ml_types (sa_mimes (zs_arch z1))) <= 65535 ->
  perform_sop fuel new_comp comp flush depth z o = (Ok tt, z1) ->
  exists cells1 L1 Pd1 Pc1 Pp1, sinv a0 cells0 L0 z1 (done ++ added_by [o]) cells1 L1 Pd1 Pc1 Pp1 /\ (o = FlushItems -> Pc1 = [] /\ Pp1 = []).
Proof.
  intros a0 cells0 L0 z done cells L Pd Pc Pp o z1 SI RO OK B3 H. pose proof (perform_mimes _ _ _ _ H) as EX.
  destruct (sinv_room _ _ _ _ _ _ _ _ _ _ SI (room_part _ _ _ _ RO)) as (ND & RD & SZ); [pose proof (mextends_len _ _ EX); lia|].
  destruct SI as [G SC SP SA ST]. destruct o as [it d u|]; cbn [perform_sop] in H.
  - unfold added_by in *. cbn [map concat app] in *. inversion OK as [|? ? OK1 _]; subst. cbn [fst snd] in OK1. unfold zim_add_item in H.
    assert (NDc : NoDup (map p_url Pc)) by (rewrite !map_app in ND; eapply NoDup_app_remove_r; eapply NoDup_app_remove_l; exact ND).
    assert (NDp : NoDup (map p_url Pp)) by (rewrite !map_app in ND; eapply NoDup_app_remove_l; eapply NoDup_app_remove_l; exact ND).
    assert (END : forall mid m Pw Pc1 Pp1 cells' L' s y1 y2, z1 = mkZs s y1 y2 ->
        Permutation (Pw ++ Pc1 ++ Pp1) ((Pc ++ Pp) ++ [mkP it d mid]) -> grown (sa_arch (zs_arch z)) cells L (sa_arch s) cells' L' Pw -> pendany y1 Pc1 -> pendany y2 Pp1 ->
        mt_get mid (ml_types (sa_mimes s)) = Ok m -> encode (it_mime it) = Ok m ->
        exists cells1 L1 Pd1 Pc1 Pp1, sinv a0 cells0 L0 z1 (done ++ [(it, d)]) cells1 L1 Pd1 Pc1 Pp1 /\ (AddItem it d u = FlushItems -> Pc1 = [] /\ Pp1 = [])).
    { intros mid m Pw Pc1 Pp1 cells' L' s y1 y2 -> PE G2 PA1 PA2 M1 M2. exists cells', L', (Pd ++ Pw), Pc1, Pp1. split; [|intro Q; discriminate Q].
      assert (PF : Permutation ((Pd ++ Pw) ++ Pc1 ++ Pp1) ((Pd ++ Pc ++ Pp) ++ [mkP it d mid])).
      { rewrite <- !app_assoc. apply Permutation_app_head. rewrite PE, <- app_assoc. apply Permutation_refl. }
      constructor; cbn [zs_arch zs_comp zs_plain]; try assumption.
      - eapply grown_trans; eassumption.
      - rewrite (Permutation_map pair_of PF), map_app. cbn [map pair_of p_item p_data]. apply Permutation_app_tail. exact SA.
      - eapply Permutation_Forall; [apply Permutation_sym; exact PF|]. apply Forall_app. split; [eapply typed_later; [exact EX|exact ST]|].
        constructor; [|constructor]. split; [exact OK1|]. exists m. auto. }
    destruct u; cbn [negb] in H; destruct (any_add fuel new_comp comp flush depth it _) as [r [s y]] eqn:EA; injection H as -> <-.
    + destruct (any_add_ok (zs_arch z) (zs_plain z) Pp cells L it d s y (gr_ok _ _ _ _ _ _ _ G) SP) as (mid & m & Pw & P' & cells' & L' & PE & G2 & PA & X1 & X2);
        [eapply (ready_part _ _ Pc Pp []); rewrite app_nil_r; exact RD|exact NDp|eapply (sizes_part _ _ _ Pc Pp []); rewrite app_nil_r; exact SZ|exact OK1|exact EA|].
      eapply (END mid m Pw Pc P'); try eassumption; [reflexivity|]. rewrite app_assoc, (Permutation_app_comm Pw Pc), <- !app_assoc, PE. apply Permutation_refl.
    + destruct (any_add_ok (zs_arch z) (zs_comp z) Pc cells L it d s y (gr_ok _ _ _ _ _ _ _ G) SC) as (mid & m & Pw & P' & cells' & L' & PE & G2 & PA & X1 & X2);
        [eapply (ready_part _ _ [] Pc Pp); exact RD|exact NDc|eapply (sizes_part _ _ _ [] Pc Pp); exact SZ|exact OK1|exact EA|].
      eapply (END mid m Pw P' Pp); try eassumption; [reflexivity|]. rewrite app_assoc, PE, <- !app_assoc. apply Permutation_app_head. apply Permutation_app_comm.
  - unfold added_by in *. cbn [map concat app] in *. rewrite app_nil_r in *. unfold zim_flush_items in H.
    destruct (any_flush fuel new_comp comp flush depth (zs_arch z, zs_comp z)) as [[[]|e] [s y]] eqn:E1; [|discriminate H].
    destruct (any_flush fuel new_comp comp flush depth (s, zs_plain z)) as [r [s2 y2]] eqn:E2. injection H as -> <-.
    assert (NDcp : NoDup (map p_url (Pc ++ Pp))) by (rewrite map_app in ND; eapply NoDup_app_remove_l; exact ND). rewrite map_app in NDcp.
    destruct (any_flush_ok (zs_arch z) (zs_comp z) Pc cells L s y (gr_ok _ _ _ _ _ _ _ G) SC) as (cells1 & L1 & G1 & Q1);
      [eapply (ready_part _ _ [] Pc Pp); exact RD|eapply NoDup_app_remove_r; exact NDcp|eapply (sizes_part _ _ _ [] Pc Pp); exact SZ|exact E1|].
    pose proof (any_flush_mimes _ _ _ _ _ E1) as EM.
    destruct (any_flush_ok s (zs_plain z) Pp cells1 L1 s2 y2 (gr_ok _ _ _ _ _ _ _ G1) SP) as (cells2 & L2 & G2 & Q2); [| | |exact E2|].
    + eapply ready_later; [exact G1|eapply (ready_part _ _ Pc Pp []); rewrite app_nil_r; exact RD|rewrite EM; apply mextends_refl|].
      intros p Hp Hin. eapply NoDup_app_disjoint; [exact NDcp|exact Hin|]. apply in_map. exact Hp.
    + eapply NoDup_app_remove_l; exact NDcp.
    + unfold sizes in SZ |- *. rewrite EM. destruct SZ as (S1 & S2 & S3). rewrite zlen_app in S1, S2. pose proof (gr_count _ _ _ _ _ _ _ G1) as C1.
      destruct (gr_clusters _ _ _ _ _ _ _ G1) as (NN & -> & _ & ZN). rewrite C1, zlen_app. pose proof (zlen_nonneg NN); repeat split; lia.
    + exists cells2, L2, ((Pd ++ Pc) ++ Pp), [], []. split; [|auto]. constructor; cbn [zs_arch zs_comp zs_plain]; try assumption.
      * eapply grown_trans; [eapply grown_trans; eassumption|exact G2].
      * rewrite !app_nil_r, <- app_assoc. exact SA.
      * rewrite !app_nil_r, <- app_assoc. eapply typed_later; [exact EX|exact ST].
Qed.

Lemma added_cons : forall o ops, added_by (o :: ops) = added_by [o] ++ added_by ops.
Proof. intros o ops. unfold added_by. cbn [map concat]. rewrite app_nil_r. reflexivity. Qed.
Lemma sinv_runs : forall z ops z', sruns fuel new_comp comp flush depth z ops z' -> forall a0 cells0 L0 done cells L Pd Pc Pp, sinv a0 cells0 L0 z done cells L Pd Pc Pp ->
  room cells0 L0 (done ++ added_by ops) -> Forall (fun x => item_ok fuel (fst x) (snd x)) (added_by ops) -> zlen (ml_types (sa_mimes (zs_arch z'))) <= 65535 ->
  exists cells1 L1 Pd1 Pc1 Pp1, sinv a0 cells0 L0 z' (done ++ added_by ops) cells1 L1 Pd1 Pc1 Pp1.
Proof.
  induction 1 as [z|z o z1 ops z' H R IH]; intros a0 cells0 L0 done cells L Pd Pc Pp SI RO OK B3.
  - unfold added_by. cbn [map concat]. rewrite app_nil_r. eauto 6.
  - rewrite added_cons, app_assoc in *. apply Forall_app in OK as (OK1 & OK2). pose proof (mextends_len _ _ (sruns_mimes _ _ _ R)).
    destruct (sinv_step _ _ _ _ _ _ _ _ _ _ _ z1 SI (room_part _ _ _ _ RO) OK1) as (cells1 & L1 & Pd1 & Pc1 & Pp1 & SI1 & _); [lia|exact H|].
    eapply IH; eassumption.
Qed.
Lemma sruns_app : forall z a b z', sruns fuel new_comp comp flush depth z (a ++ b) z' -> exists z1, sruns fuel new_comp comp flush depth z a z1 /\ sruns fuel new_comp comp flush depth z1 b z'.
Proof.
  intros z a. revert z. induction a as [|o a IH]; intros z b z' H.
  - exists z. split; [constructor|exact H].
  - cbn [app] in H. inversion H as [|? ? z1 ? ? H1 H2]; subst. destruct (IH _ _ _ H2) as (z2 & A & B). exists z2. split; [econstructor; eassumption|exact B].
Qed.

Lemma fresh_pendany : forall x, fresh_strategy x -> limit_of x <= M -> pendany x [].
Proof.
  intros x (c & max & [-> | ->]) HM; cbn [limit_of strat_new st_max ms_max] in HM.
  - constructor. apply pend_empty. exact HM.
  - change (@nil pitem) with (concat (@nil (list pitem))). constructor; [exact HM|constructor].
Qed.
(** After the last flush. *)
Lemma flushed : forall z ops z' cells0 L0, archive_ok Stream (sa_arch (zs_arch z)) cells0 L0 -> fresh_strategy (zs_comp z) -> fresh_strategy (zs_plain z) ->
  limit_of (zs_comp z) <= M -> limit_of (zs_plain z) <= M ->
  sruns fuel new_comp comp flush depth z (ops ++ [FlushItems]) z' ->
  room cells0 L0 (added_by ops) -> Forall (fun x => item_ok fuel (fst x) (snd x)) (added_by ops) -> zlen (ml_types (sa_mimes (zs_arch z'))) <= 65535 ->
  exists cells L P, grown (sa_arch (zs_arch z)) cells0 L0 (sa_arch (zs_arch z')) cells L P /\ Permutation (map pair_of P) (added_by ops) /\ Forall (typed (sa_mimes (zs_arch z'))) P.
Proof.
  intros z ops z' cells0 L0 AO F1 F2 M1 M2 R RO OK B3. destruct (sruns_app _ _ _ _ R) as (z1 & R1 & R2).
  assert (S0 : sinv (sa_arch (zs_arch z)) cells0 L0 z [] cells0 L0 [] [] []).
  { constructor; [apply grown_refl; exact AO|apply fresh_pendany; assumption..|constructor|constructor]. }
  pose proof (mextends_len _ _ (sruns_mimes _ _ _ R2)).
  destruct (sinv_runs _ _ _ R1 _ _ _ _ _ _ _ _ _ S0 RO OK) as (cells1 & L1 & Pd1 & Pc1 & Pp1 & S1); [lia|]. cbn [app] in S1.
  inversion R2 as [|? ? z2 ? ? HP R3]; subst. inversion R3; subst.
  destruct (sinv_step _ _ _ _ _ _ _ _ _ _ FlushItems z' S1) as (cells2 & L2 & Pd2 & Pc2 & Pp2 & [G C P A T] & E); try assumption.
  - unfold added_by at 2. cbn [map concat]. rewrite app_nil_r. exact RO.
  - constructor.
  - destruct (E eq_refl) as (-> & ->). rewrite !app_nil_r in *. change (added_by [FlushItems]) with (@nil (item * bytes)) in A. rewrite ?app_nil_r in A. exists cells2, L2, Pd2. auto.
Qed.
End Codec.
