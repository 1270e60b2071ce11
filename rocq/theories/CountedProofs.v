(** Proofs about archives with a counter (C73): what is counted. *)
From Coq Require Import List ZArith Bool Lia Permutation.
From Coq Require Import ZifyBool ZifyNat.
From Verif Require Import Base BaseProofs Utf8 Utf8Proofs Dict Infobyte Header HeaderSpec HeaderProofs MimeTypeList MimeTypeListSpec MimeTypeListProofs PointerList PointerListProofs
  SpaceAllocator SpaceAllocatorSpec SpaceAllocatorProofs Entry EntrySpec EntryProofs Reader ReaderSpec Blob Cluster ClusterSpec ClusterProofs ClusterWrapper ClusterWrapperSpec ClusterWrapperProofs
  Archive ArchiveSpec ArchiveProofs ArchiveWriteProofs ArchiveMoveProofs ArchiveRemoveProofs ArchiveObserve ArchiveFacts ArchiveLaws ArchiveEdit ArchiveCluster ArchiveClusterSpec ArchiveClusterProofs ArchiveFrame ArchiveEntryCluster ArchiveEditCluster
  CompressionStrategy CompressionStrategySpec CompressionStrategyProofs OperationBuffer OperationBufferSpec OperationBufferProofs EntryObject EntryObjectSpec EntryObjectProofs
  Flush FlushSpec FlushProofs FlushTailProofs FlushOpenProofs FlushHistorySpec FlushHistoryProofs ViewSpec ViewProofs ViewEditProofs ViewStepProofs ViewWaitProofs ViewHistoryProofs
  Counter CounterSpec CounterProofs CountedArchive CountedSpec.
Import ListNotations.
Open Scope Z_scope.

(** ** Counting urls *)
Lemma number_ext : forall (P Q : ustr -> Prop) k, (forall u, P u <-> Q u) -> number P k -> number Q k.
Proof. intros P Q k E (us & ND & HI & Z). exists us. split; [exact ND|]. split; [|exact Z]. intro u. rewrite HI. apply E. Qed.
Lemma number_add : forall (P : ustr -> Prop) k u, ~ P u -> number P k -> number (fun x => P x \/ x = u) (k + 1).
Proof.
  intros P k u N (us & ND & HI & Z). exists (u :: us). split; [constructor; [rewrite HI; exact N|exact ND]|]. split; [|rewrite zlen_cons; lia].
  intro x. cbn [In]. rewrite HI. split; [intros [ -> |Q]; auto|intros [Q| -> ]; auto].
Qed.
Lemma number_remove : forall (P : ustr -> Prop) k u, P u -> number P k -> number (fun x => P x /\ x <> u) (k - 1).
Proof.
  intros P k u HP (us & ND & HI & Z). pose proof (proj2 (HI u) HP) as Hu. apply in_split in Hu as (a & b & ->). pose proof (NoDup_remove_1 _ _ _ ND) as ND1. pose proof (NoDup_remove_2 _ _ _ ND) as ND2.
  exists (a ++ b). split; [exact ND1|]. split.
  - intro x. rewrite <- HI. split.
    + intro Q. split; [apply in_app_iff in Q as [Q|Q]; apply in_app_iff; [auto|right; right; exact Q]|]. intros ->. contradiction.
    + intros (Q & N). apply in_app_iff in Q as [Q|[Q|Q]]; [apply in_app_iff; auto|congruence|apply in_app_iff; auto].
  - unfold zlen in *. rewrite app_length in *. cbn [length] in Z. lia.
Qed.
Lemma number_pos : forall (P : ustr -> Prop) k u, P u -> number P k -> k > 0.
Proof. intros P k u HP (us & _ & HI & Z). apply HI in HP. destruct us as [|x us]; [destruct HP|]. rewrite zlen_cons in Z. pose proof (zlen_nonneg us). lia. Qed.

(** Every count is the number of urls that are counted as [m]. *)
Definition tally (P : ustr -> ustr -> Prop) (n : Counter.counts) : Prop := counter_wf n /\ forall m, number (P m) (get_count m n).
Lemma tally_ext : forall (P Q : ustr -> ustr -> Prop) n, (forall m u, P m u <-> Q m u) -> tally P n -> tally Q n.
Proof. intros P Q n E (W & T). split; [exact W|]. intro m. eapply number_ext; [apply E|apply T]. Qed.

Lemma dset_keys : forall (c : Counter.counts) k n x, In x (map fst (dset ueqb k n c)) -> x = k \/ In x (map fst c).
Proof.
  induction c as [|[a b] c IH]; intros k n x Hx; cbn in *; [intuition|]. destruct (ueqb k a) eqn:E; cbn in Hx; [|destruct Hx as [ -> |Hx]; [auto|destruct (IH k n x Hx); auto]].
  apply ueqb_eq in E. subst a. intuition.
Qed.
Lemma dset_wf : forall (c : Counter.counts) k n, counter_wf c -> counter_wf (dset ueqb k n c).
Proof.
  unfold counter_wf. induction c as [|[a b] c IH]; intros k n W; cbn in *; [constructor; [intros []|constructor]|]. inversion W as [|? ? N W1]; subst.
  destruct (ueqb k a) eqn:E; cbn; [apply ueqb_eq in E; subst a; constructor; assumption|]. constructor; [|auto]. intro Q. apply dset_keys in Q as [ -> |Q]; [rewrite ueqb_refl in E; discriminate E|contradiction].
Qed.
Lemma increment_wf : forall k c, counter_wf c -> counter_wf (increment k c).
Proof. intros k c W. unfold increment. destruct (dget ueqb k c); apply dset_wf; exact W. Qed.
Lemma decrement_wf : forall k c c', counter_wf c -> decrement k c = Ok c' -> counter_wf c'.
Proof. intros k c c' W E. unfold decrement in E. destruct (dget ueqb k c) as [n|]; [|discriminate E]. destruct (n <=? 0); [discriminate E|]. injection E as <-. apply dset_wf. exact W. Qed.
Lemma decrement_ok : forall k c c', decrement k c = Ok c' -> forall m, get_count m c' = get_count m c - (if ueqb k m then 1 else 0).
Proof.
  intros k c c' E. destruct (Z_gt_le_dec (get_count k c) 0) as [G|G].
  - destruct (get_decrement k c G) as (c1 & E1 & HC). rewrite E in E1. injection E1 as <-. exact HC.
  - exfalso. unfold decrement in E. unfold get_count in G. destruct (dget ueqb k c) as [n|]; [|discriminate E]. destruct (n <=? 0) eqn:EN; [discriminate E|lia].
Qed.

Section Tally.
Variables (P : ustr -> ustr -> Prop) (n : Counter.counts).
Hypothesis T : tally P n.
(** A new url. *)
Lemma tally_new : forall u m, (forall m', ~ P m' u) -> tally (fun m' x => (P m' x /\ x <> u) \/ (x = u /\ m' = m)) (increment m n).
Proof.
  intros u m N. destruct T as (W & TT). split; [apply increment_wf; exact W|]. intro m'. rewrite get_increment. destruct (ueqb m m') eqn:E.
  - apply ueqb_eq in E. subst m'. eapply number_ext; [|apply (number_add (P m) _ u); [apply N|apply TT]]. intro x. cbn. split.
    + intros [Q| -> ]; [left; split; [exact Q|]; intros ->; exact (N _ Q)|auto].
    + intros [(Q & _)|(-> & _)]; auto.
  - rewrite Z.add_0_r. eapply number_ext; [|apply TT]. intro x. cbn. split.
    + intro Q. left. split; [exact Q|]. intros ->. exact (N _ Q).
    + intros [(Q & _)|(_ & ->)]; [exact Q|]. rewrite ueqb_refl in E. discriminate E.
Qed.
(** A url that is not counted any more. *)
Lemma tally_gone : forall u m n', (forall m', P m' u <-> m' = m) -> decrement m n = Ok n' -> tally (fun m' x => P m' x /\ x <> u) n'.
Proof.
  intros u m n' HU E. destruct T as (W & TT). split; [eapply decrement_wf; eassumption|]. intro m'. rewrite (decrement_ok _ _ _ E). destruct (ueqb m m') eqn:EM.
  - apply ueqb_eq in EM. subst m'. apply number_remove; [apply HU; reflexivity|apply TT].
  - rewrite Z.sub_0_r. eapply number_ext; [|apply TT]. intro x. split; [|tauto]. intro Q. split; [exact Q|]. intros ->. apply HU in Q. subst m'. rewrite ueqb_refl in EM. discriminate EM.
Qed.
End Tally.
(** A url that is counted as something else, perhaps at another place. *)
Lemma tally_moved : forall P n u v m0 m n', tally P n -> (forall m', P m' u <-> m' = m0) -> (v = u \/ forall m', ~ P m' v) -> decrement m0 (increment m n) = Ok n' ->
  tally (fun m' x => (P m' x /\ x <> u /\ x <> v) \/ (x = v /\ m' = m)) n'.
Proof.
  intros P n u v m0 m n' (W & T) HU HV E. split; [eapply decrement_wf; [apply increment_wf; exact W|exact E]|]. intro m'. rewrite (decrement_ok _ _ _ E), get_increment.
  assert (N1 : number (fun x => P m' x /\ x <> u) (get_count m' n - (if ueqb m0 m' then 1 else 0))).
  { destruct (ueqb m0 m') eqn:EM.
    - apply ueqb_eq in EM. subst m'. apply number_remove; [apply HU; reflexivity|apply T].
    - rewrite Z.sub_0_r. eapply number_ext; [|apply T]. intro x. split; [|tauto]. intro Q. split; [exact Q|]. intros ->. apply HU in Q. subst m'. rewrite ueqb_refl in EM. discriminate EM. }
  assert (NV : ~ (P m' v /\ v <> u)) by (intros (Q1 & Q2); destruct HV as [HV|HV]; [contradiction|exact (HV _ Q1)]).
  destruct (ueqb m m') eqn:E1.
  - apply ueqb_eq in E1. subst m'. replace (get_count m n + 1 - (if ueqb m0 m then 1 else 0)) with (get_count m n - (if ueqb m0 m then 1 else 0) + 1) by lia.
    eapply number_ext; [|apply (number_add _ _ v NV N1)]. intro x. cbn. split.
    + intros [(Q1 & Q2)| -> ]; [|auto]. destruct (list_eq_dec Z.eq_dec x v) as [ -> |Nx]; auto.
    + intros [(Q1 & Q2 & Q3)|(-> & _)]; auto.
  - replace (get_count m' n + 0 - (if ueqb m0 m' then 1 else 0)) with (get_count m' n - (if ueqb m0 m' then 1 else 0)) by lia. eapply number_ext; [|exact N1]. intro x. cbn. split.
    + intros (Q1 & Q2). left. split; [exact Q1|]. split; [exact Q2|]. intros ->. auto.
    + intros [(Q1 & Q2 & _)|(_ & ->)]; [auto|]. rewrite ueqb_refl in E1. discriminate E1.
Qed.

(** ** What is counted in an archive *)
Definition counted_at (s : zim) (types : list bytes) (m u : ustr) : Prop :=
  in_C u = true /\ exists e c b t, get_entry_by_full_url s u = Ok e /\ e_kind e = Content c b /\ mt_get (e_mimetype e) types = Ok t /\ decode t = Ok m.
Lemma counts_entry_iff : forall e, entry_storable e -> kind_consistent e -> (counts_entry e = true <-> in_C (full_url e) = true /\ exists c b, e_kind e = Content c b).
Proof.
  intros e ST KC. unfold counts_entry, is_redirect, MIMETYPE_ID_REDIRECT. unfold kind_consistent in KC. rewrite andb_true_iff, negb_true_iff, Z.eqb_neq. split.
  - intros (N & Q). apply ueqb_eq in Q. split; [apply ns_C_full_url; exact Q|]. destruct (e_kind e); [eauto|congruence].
  - intros (Q & c & b & K). rewrite K in KC. split; [exact KC|]. rewrite (full_url_in_C e ST Q). reflexivity.
Qed.
Lemma mime_of_content : forall ml e c b, kind_consistent e -> e_kind e = Content c b -> mime_of ml e = (do t <- mt_get (e_mimetype e) (ml_types ml) ;; decode t).
Proof. intros ml e c b KC K. unfold mime_of, is_redirect, MIMETYPE_ID_REDIRECT. unfold kind_consistent in KC. rewrite K in KC. replace (e_mimetype e =? 65535) with false by lia. reflexivity. Qed.

(** The callback of a write: [u] is the url of the old entry, [v] that of the new one. *)
Lemma write_tally : forall ml s s' old u e c ct ct' b, tally (counted_at s (ml_types ml)) (ct_counts ct) ->
  entry_storable e -> kind_consistent e -> e_kind e = Content c b -> in_C u = in_C (full_url e) ->
  match old with
  | None => (forall m, ~ counted_at s (ml_types ml) m u) /\ full_url e = u
  | Some o => get_entry_by_full_url s u = Ok o /\ (exists c0 b0, e_kind o = Content c0 b0) /\ kind_consistent o /\ (full_url e = u \/ forall m, ~ counted_at s (ml_types ml) m (full_url e))
  end ->
  get_entry_by_full_url s' (full_url e) = Ok e -> (u <> full_url e -> forall d, get_entry_by_full_url s' u <> Ok d) ->
  (forall m x, x <> u -> x <> full_url e -> (counted_at s' (ml_types ml) m x <-> counted_at s (ml_types ml) m x)) ->
  note_write ml old e ct = (Ok tt, ct') -> tally (counted_at s' (ml_types ml)) (ct_counts ct').
Proof.
  intros ml s s' old u e c ct ct' b T ST KC K IC OLD GN GO OTH E. unfold note_write in E.
  assert (CN : forall m, counted_at s' (ml_types ml) m (full_url e) <-> in_C (full_url e) = true /\ (do t <- mt_get (e_mimetype e) (ml_types ml) ;; decode t) = Ok m).
  { intro m. split.
    - intros (Q & e1 & c1 & b1 & t & G1 & K1 & M1 & D1). split; [exact Q|]. rewrite GN in G1. injection G1 as <-. rewrite M1. exact D1.
    - intros (Q & M1). split; [exact Q|]. destruct (mt_get (e_mimetype e) (ml_types ml)) as [t|] eqn:EM; [|discriminate M1]. exists e, c, b, t. auto. }
  assert (CO : u <> full_url e -> forall m, ~ counted_at s' (ml_types ml) m u) by (intros N m (_ & d & _ & _ & _ & Gd & _); exact (GO N d Gd)).
  destruct (counts_entry e) eqn:EC; cbn [negb] in E.
  - apply (counts_entry_iff e ST KC) in EC as (IN & _). rewrite (mime_of_content ml e c b KC K) in E. destruct (do t <- mt_get (e_mimetype e) (ml_types ml) ;; decode t) as [m|x] eqn:EM; [|discriminate E].
    cbn [bind] in E. destruct old as [o|].
    + destruct OLD as (Go & (c0 & b0 & Ko) & KCo & FR). rewrite (mime_of_content ml o c0 b0 KCo Ko) in E. destruct (do t <- mt_get (e_mimetype o) (ml_types ml) ;; decode t) as [m0|x] eqn:EM0; [|discriminate E].
      cbn [bind] in E. unfold after_write in E. cbn [should_count ce_redirect ce_ns negb andb ce_mime] in E. change (67 =? 67) with true in E. cbv iota in E.
      destruct (decrement m0 (increment m (ct_counts ct))) as [n'|] eqn:ED; [|discriminate E]. injection E as <-. cbn [ct_counts].
      assert (HU : forall m', counted_at s (ml_types ml) m' u <-> m' = m0).
      { intro m'. split.
        - intros (_ & e1 & c1 & b1 & t & G1 & K1 & M1 & D1). rewrite Go in G1. injection G1 as <-. rewrite M1 in EM0. cbn [bind] in EM0. congruence.
        - intros ->. split; [rewrite IC; exact IN|]. destruct (mt_get (e_mimetype o) (ml_types ml)) as [t|] eqn:EMo; [|discriminate EM0]. exists o, c0, b0, t. auto. }
      eapply tally_ext; [|exact (tally_moved _ _ u (full_url e) m0 m n' T HU FR ED)]. intros m' x. cbn.
      destruct (list_eq_dec Z.eq_dec x (full_url e)) as [ -> |Nx].
      * rewrite CN. split; [intros [(_ & _ & Q)|(_ & ->)]; [congruence|auto]|]. intros (_ & Q). right. split; [reflexivity|congruence].
      * destruct (list_eq_dec Z.eq_dec x u) as [ -> |Nu].
        -- split; [intros [(_ & Q & _)|(Q & _)]; congruence|]. intro Q. exfalso. exact (CO Nx m' Q).
        -- rewrite (OTH m' x Nu Nx). split; [intros [(Q & _)|(Q & _)]; [exact Q|congruence]|auto].
    + destruct OLD as (HU & EU). cbn [bind] in E. unfold after_write in E. cbn [should_count ce_redirect ce_ns negb andb ce_mime] in E. change (67 =? 67) with true in E. cbv iota in E. injection E as <-. cbn [ct_counts].
      eapply tally_ext; [|exact (tally_new _ _ T u m HU)]. intros m' x. cbn. destruct (list_eq_dec Z.eq_dec x (full_url e)) as [ -> |Nx].
      * rewrite CN. split; [intros [(_ & Q)|(_ & ->)]; [congruence|auto]|]. intros (_ & Q). right. split; [exact EU|congruence].
      * rewrite <- EU. rewrite (OTH m' x ltac:(congruence) Nx). split; [intros [(Q & _)|(Q & _)]; [exact Q|congruence]|auto].
  - injection E as <-. assert (IN : in_C (full_url e) = false).
    { destruct (in_C (full_url e)) eqn:Q; [|reflexivity]. assert (Q2 : counts_entry e = true) by (apply (counts_entry_iff e ST KC); split; [exact Q|eauto]). congruence. }
    eapply tally_ext; [|exact T]. intros m x. destruct (list_eq_dec Z.eq_dec x (full_url e)) as [ -> |Nx]; [split; intros (Q & _); congruence|]. destruct (list_eq_dec Z.eq_dec x u) as [ -> |Nu]; [split; intros (Q & _); congruence|].
    symmetry. apply OTH; assumption.
Qed.

(** The mimetypes of the entries that are counted are in the list. *)
Definition mimed (s : zim) (types : list bytes) : Prop :=
  forall u e c b, in_C u = true -> get_entry_by_full_url s u = Ok e -> e_kind e = Content c b -> exists t, mt_get (e_mimetype e) types = Ok t.
Lemma mt_get_app : forall i types t x, mt_get i types = Ok x -> mt_get i (types ++ t) = Ok x.
Proof.
  intros i types t0 x M. unfold mt_get in *. destruct ((zlen types <=? i) || (i <? 0)) eqn:EB; [discriminate M|]. pose proof (zlen_nonneg t0). rewrite zlen_app. replace ((zlen types + zlen t0 <=? i) || (i <? 0)) with false by lia.
  destruct (nth_error types (Z.to_nat i)) eqn:EN; [|discriminate M]. rewrite nth_error_app1 by (apply nth_error_Some; congruence). rewrite EN. exact M.
Qed.
Definition accounted (s : zim) (types : list bytes) (n : Counter.counts) : Prop := tally (counted_at s types) n /\ mimed s types.
Lemma accounted_more : forall s types t n, accounted s types n -> accounted s (types ++ t) n.
Proof.
  intros s types t n (T & M). split.
  - eapply tally_ext; [|exact T]. intros m u. split; intros (IC & e & c & b & x & G & K & Q & DE); split; try exact IC; exists e, c, b, x; (split; [exact G|]); (split; [exact K|]); (split; [|exact DE]).
    + apply mt_get_app. exact Q.
    + destruct (M u e c b IC G K) as (y & Y). rewrite (mt_get_app _ _ t _ Y) in Q. congruence.
  - intros u e c b IC G K. destruct (M u e c b IC G K) as (y & Y). exists y. apply mt_get_app. exact Y.
Qed.
Lemma accounted_same : forall s s' types n, (forall u, get_entry_by_full_url s' u = get_entry_by_full_url s u) -> accounted s types n -> accounted s' types n.
Proof.
  intros s s' types n LK (T & M). split.
  - eapply tally_ext; [|exact T]. intros m u. unfold counted_at. rewrite LK. reflexivity.
  - intros u e c b IC G K. rewrite LK in G. eauto.
Qed.

(** ** Writing items *)
Lemma only_others : forall s u e s' types m x, only_changes s u e s' -> x <> u -> (counted_at s' types m x <-> counted_at s types m x).
Proof.
  intros s u e s' types m x (_ & GO & TB) N. split; intros (IC & e1 & c & b & t & G & K & M & DE); split; try exact IC.
  - destruct (TB x N) as (e0 & G0); [exists e1; exact G|]. destruct (GO x e0 N G0) as (e2 & G2 & S2). rewrite G in G2. injection G2 as <-.
    assert (e0 = e1).
    { symmetry. apply (ArchiveFacts.same_content e0 e1 S2). intros r Q. destruct S2 as (_ & _ & _ & _ & S2). rewrite Q, K in S2. exact S2. }
    subst e0. exists e1, c, b, t. auto.
  - destruct (GO x e1 N G) as (e2 & G2 & S2). rewrite (CompressionStrategyProofs.same_content e1 e2 c b K S2) in G2. exists e1, c, b, t. auto.
Qed.
Lemma item_counted : forall fuel n s cells X ml W R V p c k bl s' ct ct', core s cells -> consistent s (map snd cells) -> anchored s ->
  wtable s (map snd cells) X (ml_types ml) (pair_of p :: W) R V -> typed fuel ml p -> zlen (ml_types ml) <= 65535 -> 0 <= c < 2 ^ 32 -> 0 <= k < 2 ^ 32 -> zlen cells + 1 < 2 ^ 32 ->
  znth X c = Some (Some bl) -> znth bl k = Some (p_data p) -> ~ listing_blob s c k -> accounted s (ml_types ml) (ct_counts ct) ->
  count_write n ml (p_went c k p) (s, ct) = (Ok tt, (s', ct')) ->
  write_entry (S (S n)) (p_went c k p) s = (Ok tt, s') /\ accounted s' (ml_types ml) (ct_counts ct') /\ (ct_dirty ct' = false -> ct' = ct).
Proof.
  intros fuel n s cells X ml W R V p c k bl s' ct ct' CO C AN T TY MZ HC HK HZ Z1 Z2 NLB (TL & MI) E. unfold count_write in E. change (w_old_url (p_went c k p)) with (p_url p) in E.
  destruct (old_of s (p_url p)) as [old|x] eqn:EO; [|discriminate E]. destruct (write_entry (S (S n)) (p_went c k p) s) as [[[]|x] s1] eqn:WE; [|discriminate E].
  destruct (note_write ml old (w_entry (p_went c k p)) ct) as [r ct1] eqn:EN. injection E as -> <- <-. split; [reflexivity|].
  destruct (item_written fuel n s cells X ml W R V p c k bl s1 CO C AN T TY MZ HC HK HZ Z1 Z2 NLB WE) as (cells' & ES & SD & T1 & ZC & OC).
  change (w_entry (p_went c k p)) with (p_entry c k p) in EN. split; [split|].
  2:{ destruct OC as (GN & GO & TB). intros y e cy by_ IC G K. destruct (list_eq_dec Z.eq_dec y (p_url p)) as [ -> |N].
      - rewrite GN in G. injection G as <-. destruct TY as (_ & t & M1 & _). exists t. exact M1.
      - destruct (TB y N) as (e0 & G0); [exists e; exact G|]. destruct (GO y e0 N G0) as (e2 & G2 & S2). rewrite G in G2. injection G2 as <-. pose proof S2 as (SM & _ & _ & _ & SK). rewrite K in SK.
        destruct (e_kind e0) as [c1 b1|] eqn:K0; [|contradiction]. rewrite <- SM. eauto. }
  - destruct OC as (GN & GO & TB). pose proof (es_consistent _ _ _ _ ES) as C'. pose proof GN as GN2. apply (lookup_iff _ _ _ _ C') in GN2 as (HI & _).
    eapply (write_tally ml s s1 old (p_url p) (p_entry c k p)); try eassumption.
    + exact (ArchiveFacts.consistent_storable _ _ _ C' HI).
    + exact (consistent_kind _ _ _ C' HI).
    + reflexivity.
    + reflexivity.
    + unfold old_of in EO. destruct (wt_waiting _ _ _ _ _ _ _ T (p_item p) (p_data p) (or_introl eq_refl)) as (VU & TK & NLU & NMU). change (item_url (p_item p)) with (p_url p) in *.
      destruct (get_entry_by_full_url s (p_url p)) as [o|x] eqn:GU.
      * injection EO as <-. destruct TK as [AB|((e0 & c0 & b0 & G0 & K0) & NK)]; [exfalso; apply (not_both s (map snd cells) (p_url p) C); [exists o; exact GU|exact AB]|]. rewrite GU in G0. injection G0 as <-.
        split; [reflexivity|]. split; [eauto|]. split; [|left; reflexivity]. apply (lookup_iff _ _ _ _ C) in GU as (GU & _). exact (consistent_kind _ _ _ C GU).
      * assert (old = None) by (destruct x; congruence). subst old. split; [|reflexivity]. intros m (_ & e & _ & _ & _ & G & _). congruence.
    + intros Q. exfalso. apply Q. reflexivity.
    + intros m x N _. eapply only_others; [|exact N]. split; [exact GN|]. split; [exact GO|exact TB].
  - unfold note_write in EN. destruct (negb (counts_entry (p_entry c k p))); [congruence|]. destruct (bind _ _) as [[m o]|]; [|discriminate EN]. destruct (after_write o _ _) as [n' r']. injection EN as _ <-. discriminate.
Qed.
Lemma items_counted : forall fuel n X ml W R V c bl P k c0 s cells l' s' ct ct', core s cells -> consistent s (map snd cells) -> anchored s ->
  wtable s (map snd cells) X (ml_types ml) (map pair_of P ++ W) R V -> Forall (typed fuel ml) P -> zlen (ml_types ml) <= 65535 -> 0 <= c < 2 ^ 32 -> 0 <= k -> k + zlen P < 2 ^ 32 -> zlen cells + zlen P < 2 ^ 32 ->
  znth X c = Some (Some bl) -> (forall j p, znth P j = Some p -> znth bl (k + j) = Some (p_data p)) -> (forall b, ~ listing_blob s c b) -> accounted s (ml_types ml) (ct_counts ct) ->
  count_entries n ml c (entries_of c0 k P) (s, ct) = (Ok tt, (l', (s', ct'))) ->
  write_entries n c (entries_of c0 k P) s = (Ok tt, (l', s')) /\ accounted s' (ml_types ml) (ct_counts ct') /\ (ct_dirty ct' = false -> ct' = ct).
Proof.
  intros fuel n X ml W R V c bl. induction P as [|p P IH]; intros k c0 s cells l' s' ct ct' CO C AN T TY MZ HC HK HKP HZ Z1 Z2 NLB TL E; cbn [entries_of count_entries write_entries] in *.
  - injection E as <- <- <-. auto.
  - rewrite zlen_cons in *. pose proof (zlen_nonneg P). unfold set_cluster_number in *. replace (c <? 0) with false in * by lia. cbn [w_entry p_went e_kind p_entry] in *.
    change (set_kind (Content c k) (p_went c0 k p)) with (p_went c k p) in *.
    destruct (count_write n ml (p_went c k p) (s, ct)) as [[[]|e] [s1 ct1]] eqn:E1; [|discriminate E].
    destruct (count_entries n ml c (entries_of c0 (k + 1) P) (s1, ct1)) as [r [l2 [s2 ct2]]] eqn:E2. injection E as -> <- <- <-. inversion TY as [|? ? TY1 TY2]; subst. cbn [map app] in T.
    assert (HB : znth bl k = Some (p_data p)) by (replace k with (k + 0) by lia; apply Z2; reflexivity).
    destruct (item_counted fuel n s cells X ml _ R V p c k bl s1 ct ct1 CO C AN T TY1 MZ HC ltac:(lia) ltac:(lia) Z1 HB (NLB k) TL E1) as (W1 & TL1 & D1).
    destruct (item_written fuel n s cells X ml _ R V p c k bl s1 CO C AN T TY1 MZ HC ltac:(lia) ltac:(lia) Z1 HB (NLB k) W1) as (cells1 & ES & SD & T1 & ZC & _). rewrite W1.
    destruct (IH (k + 1) c0 s1 cells1 l2 s2 ct1 ct2) as (W2 & TL2 & D2).
    + exact (es_core _ _ _ _ ES).
    + exact (es_consistent _ _ _ _ ES).
    + eapply steady_anchored; eassumption.
    + exact T1.
    + exact TY2.
    + exact MZ.
    + exact HC.
    + lia.
    + lia.
    + lia.
    + exact Z1.
    + intros j q Hj. pose proof (znth_some _ _ _ Hj). replace (k + 1 + j) with (k + (1 + j)) by lia. apply Z2.
      unfold znth in *. replace (1 + j <? 0) with false by lia. replace (j <? 0) with false in Hj by lia. replace (Z.to_nat (1 + j)) with (S (Z.to_nat j)) by lia. exact Hj.
    + intros b Q. exact (NLB b (steady_blob _ _ _ _ AN SD Q)).
    + exact TL1.
    + exact E2.
    + rewrite W2. split; [reflexivity|]. split; [exact TL2|]. intro Q. pose proof (D2 Q). subst ct2. auto.
Qed.
