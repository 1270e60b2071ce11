(** Proofs about what writes and removals may touch, whatever they return or
    raise: an invariant of the layout that every step keeps. *)
From Coq Require Import List ZArith Bool Lia Sorting.Sorted.
From Coq Require Import ZifyBool ZifyNat.
From Verif Require Import Base BaseProofs Utf8 Utf8Proofs Entry EntrySpec EntryProofs PointerList PointerListSpec PointerListProofs
  SpaceAllocator SpaceAllocatorSpec SpaceAllocatorProofs Cluster Archive ArchiveSpec ArchiveProofs ArchiveWriteProofs ArchiveMoveProofs
  ArchiveSafeSpec.
Import ListNotations.
Open Scope Z_scope.

(** The archive without its titles and main page, on which the url list does not depend. *)
Definition bare (s : zim) : zim := mkZim (z_file s) (z_upl s) None (mkPlist [] false true 0) None (z_alloc s).
Lemma bare_core : forall s cells,
  pl_ptrs (z_upl s) = map fst cells -> Forall (fun c => stored (z_file s) (fst c) (snd c)) cells ->
  Forall (fun c => forall x, occupies c x -> in_use (z_alloc s) x) cells -> StronglySorted apart cells -> StronglySorted url_lt (map snd cells) ->
  canonical (z_alloc s) -> 0 <= file_end (z_alloc s) -> pl_mutable (z_upl s) = true -> core (bare s) cells.
Proof.
  intros s cells H1 H2 H3 H4 H5 H6 H7 H8. constructor; cbn [bare z_file z_upl z_alloc z_atpl z_etpl pl_ptrs pl_mutable]; try assumption; try reflexivity.
  - split; [constructor|]. exists []. split; constructor.
  - intros i e [].
  - intros t Ht. discriminate Ht.
  - intros t Ht. discriminate Ht.
Qed.
Lemma sound_core : forall s, sound s <-> exists cells, core (bare s) cells /\ pl_mutable (z_atpl s) = true /\ (forall t, z_etpl s = Some t -> pl_mutable t = true).
Proof.
  intro s. split.
  - intros (cells & H1 & H2 & H3 & H4 & H5 & H6 & H7 & H8 & H9 & H10). exists cells. split; [apply bare_core; assumption|]. split; assumption.
  - intros (cells & C & Ma & Me). exists cells. exact (conj (co_locs _ _ C) (conj (co_stored _ _ C) (conj (co_used _ _ C) (conj (co_apart _ _ C)
      (conj (co_sorted _ _ C) (conj (co_canonical _ _ C) (conj (co_end _ _ C) (conj (co_mut_u _ _ C) (conj Ma Me))))))))).
Qed.

(** Only titles, or the main page, differ. *)
Record same_base (s s' : zim) : Prop := mkBase {
  sb_file : z_file s' = z_file s; sb_upl : z_upl s' = z_upl s; sb_alloc : z_alloc s' = z_alloc s;
  sb_a : pl_mutable (z_atpl s) = true -> pl_mutable (z_atpl s') = true;
  sb_e : (forall t, z_etpl s = Some t -> pl_mutable t = true) -> forall t, z_etpl s' = Some t -> pl_mutable t = true }.
Lemma sb_refl : forall s, same_base s s. Proof. intro s. constructor; auto. Qed.
Lemma sb_bare : forall s s', same_base s s' -> bare s' = bare s.
Proof. intros s s' []. unfold bare. congruence. Qed.

(** *** steps that only touch titles or the main page *)
Definition light {A} (m : M zim A) : Prop := forall s r s', m s = (r, s') -> same_base s s'.
Lemma l_update : forall u, (forall s s', u s = Ok s' -> same_base s s') -> light (update u).
Proof. intros u Hu s r s' H. unfold update in H. destruct (u s) as [s1|e] eqn:E; injection H as _ <-; [apply Hu; exact E|apply sb_refl]. Qed.
Ltac bok H := let E := fresh "E" in match type of H with bind ?m _ = Ok _ => destruct m eqn:E; cbn [bind] in H; [|discriminate H] end.
Lemma change_mutable : forall o l, pl_mutable (pl_change o l) = pl_mutable o. Proof. reflexivity. Qed.
Lemma remove_mutable : forall i o o', pl_remove_by_index i o = Ok o' -> pl_mutable o' = pl_mutable o.
Proof.
  intros i o o' H. unfold pl_remove_by_index in H. destruct (i <? 0); [discriminate H|]. destruct (negb (pl_mutable o)); [discriminate H|].
  destruct (py_index _ _); [|discriminate H]. injection H as <-. reflexivity.
Qed.
Lemma add_mutable : forall keyf k p o i o', pl_add keyf k p o = Ok (i, o') -> pl_mutable o' = pl_mutable o.
Proof.
  intros keyf k p o i o' H. unfold pl_add in H. destruct (p <? 0); [discriminate H|]. destruct (negb (pl_mutable o)); [discriminate H|].
  destruct (binarysearch _ _ _) as [j|]; cbn [bind] in H; [|discriminate H]. injection H as _ <-. reflexivity.
Qed.
Lemma mass_mutable : forall diff a b o o', pl_mass_update diff a b o = Ok o' -> pl_mutable o' = pl_mutable o.
Proof.
  intros diff a b o o' H. unfold pl_mass_update in H. destruct (match a with Some _ => _ | None => _ end); [discriminate H|].
  destruct (mass_loop diff a b (pl_ptrs o)) as [l m] eqn:E. injection H as <-. reflexivity.
Qed.
Lemma sb_etpl : forall s t t', z_etpl s = Some t -> pl_mutable t' = pl_mutable t -> same_base s (set_etpl (Some t') s).
Proof. intros s t t' H M. constructor; try reflexivity; [auto|]. cbn. intros Q t1 [= <-]. rewrite M. apply Q. exact H. Qed.
Lemma sb_atpl : forall s t', pl_mutable t' = pl_mutable (z_atpl s) -> same_base s (set_atpl t' s).
Proof. intros s t' M. constructor; try reflexivity; [cbn; congruence|auto]. Qed.
Lemma l_shift_etpl : forall d a, light (shift_etpl d a).
Proof.
  intros d a. apply l_update. intros s s' H. destruct (z_etpl s) as [t|] eqn:T; [|injection H as <-; apply sb_refl]. bok H. injection H as <-.
  eapply sb_etpl; [exact T|]. eapply mass_mutable. eassumption.
Qed.
Lemma l_shift_atpl : forall d a, light (shift_atpl d a).
Proof. intros d a. apply l_update. intros s s' H. bok H. injection H as <-. apply sb_atpl. eapply mass_mutable. eassumption. Qed.
Lemma l_drop_etitle : forall k, light (drop_etitle k).
Proof.
  intros k. apply l_update. intros s s' H. destruct k as [k|]; [|injection H as <-; apply sb_refl]. destruct (z_etpl s) as [t|] eqn:T; [|injection H as <-; apply sb_refl].
  bok H. injection H as <-. eapply sb_etpl; [exact T|]. eapply remove_mutable. eassumption.
Qed.
Lemma l_drop_atitle : forall k, light (drop_atitle k).
Proof.
  intros k. apply l_update. intros s s' H. destruct k as [k|]; [|injection H as <-; apply sb_refl]. bok H. injection H as <-. apply sb_atpl. eapply remove_mutable. eassumption.
Qed.
Lemma l_bind : forall A B (m : M zim A) (k : A -> M zim B), light m -> (forall x, light (k x)) -> light (let* x := m in k x).
Proof.
  intros A B m k Hm Hk s r s' H. unfold mbind in H. destruct (m s) as [[x|e] s1] eqn:E.
  - apply Hm in E. apply Hk in H. destruct E, H. constructor; try congruence; auto.
  - injection H as _ <-. eapply Hm. exact E.
Qed.
Lemma l_ret : forall A (x : A), light (ret x). Proof. intros A x s r s' H. injection H as _ <-. apply sb_refl. Qed.
Lemma l_raise : forall A e, light (@raise zim A e). Proof. intros A e s r s' H. injection H as _ <-. apply sb_refl. Qed.
Lemma l_query : forall A (q : zim -> res A), light (query q). Proof. intros A q s r s' H. injection H as _ <-. apply sb_refl. Qed.
Lemma l_add_titles : forall e a i, light (add_titles e a i).
Proof.
  intros e a i. unfold add_titles. apply l_bind; [|intros _]; apply l_update; intros s s' H.
  - destruct (z_etpl s) as [t|] eqn:T; [|injection H as <-; apply sb_refl]. bok H. bok H. destruct a1 as [j t']. injection H as <-.
    eapply sb_etpl; [exact T|]. cbn [snd]. eapply add_mutable. eassumption.
  - destruct a; [|injection H as <-; apply sb_refl]. bok H. bok H. destruct a0 as [j t']. injection H as <-.
    apply sb_atpl. cbn [snd]. eapply add_mutable. eassumption.
Qed.
Lemma l_main : forall f : zim -> option Z, light (update (fun s => Ok (set_main (f s) s))).
Proof. intro f. apply l_update. intros s s' [= <-]. constructor; auto. Qed.

Lemma same_refl : forall e, same_entry e e.
Proof. intro e. unfold same_entry. destruct (e_kind e); repeat split. Qed.
Lemma same_trans : forall a b c, same_entry a b -> same_entry b c -> same_entry a c.
Proof.
  intros a b c (A1 & A2 & A3 & A4 & A5) (B1 & B2 & B3 & B4 & B5). unfold same_entry. do 4 (split; [congruence|]).
  destruct (e_kind a), (e_kind b), (e_kind c); try tauto. destruct A5, B5. split; congruence.
Qed.
Lemma same_url : forall a b, same_entry a b -> full_url b = full_url a.
Proof. intros a b (_ & A2 & A3 & _). unfold full_url. congruence. Qed.
Lemma same_wri : forall e r v, e_kind e = Redirect r -> same_entry e (with_redirect_index e v).
Proof. intros e r v H. unfold same_entry. cbn. rewrite H. auto. Qed.

Section Invariant.
(** [T]: the urls of the entries that may be touched; [F]: the bytes that must
    not be; [f0]: the file at the start. *)
Variable T : ustr -> Prop.
Variable F : Z -> Prop.
Variable f0 : bytes.

(** [X]: space in use by entries that no pointer leads to (yet, or any more);
    [Y]: entries that survive at their place, up to the numbering of redirect targets. *)
Record inv (X Y cells : list (Z * entry)) (s : zim) : Prop := mkInv {
  iv_core : core (bare s) cells;
  iv_mut_a : pl_mutable (z_atpl s) = true;
  iv_mut_e : forall t, z_etpl s = Some t -> pl_mutable t = true;
  iv_xs : forall c, In c X -> stored (z_file s) (fst c) (snd c);
  iv_xu : forall c x, In c X -> occupies c x -> in_use (z_alloc s) x;
  iv_xa : forall c d, In c X -> In d cells -> apart c d;
  iv_xn : forall c d, In c X -> In d cells -> full_url (snd d) <> full_url (snd c);
  iv_xt : forall c, In c X -> T (full_url (snd c));
  iv_y : forall c, In c Y -> exists d, In d cells /\ fst d = fst c /\ same_entry (snd c) (snd d) /\ span (snd d) = span (snd c);
  iv_rt : forall c, In c cells -> is_redirect (snd c) = true -> T (full_url (snd c));
  iv_tf : forall c x, In c cells -> T (full_url (snd c)) -> occupies c x -> ~ F x;
  iv_xf : forall c x, In c X -> occupies c x -> ~ F x;
  iv_fu : forall x, F x -> in_use (z_alloc s) x;
  iv_keep : keeps f0 (z_file s) F;
  iv_len : zlen f0 <= zlen (z_file s) }.

Lemma inv_base : forall X Y cells s s', inv X Y cells s -> same_base s s' -> inv X Y cells s'.
Proof.
  intros X Y cells s s' [] B. pose proof (sb_bare _ _ B) as E. destruct B as [B1 B2 B3 B4 B5].
  constructor; try (rewrite ?B1, ?B3; assumption); [rewrite E; assumption|auto|auto].
Qed.

Lemma inv_inplace : forall X Y A p e0 B e b s, inv X Y (A ++ (p, e0) :: B) s -> full_url e = full_url e0 -> entry_storable e -> kind_consistent e ->
  entry_to_bytes e = Ok b -> span e = span e0 -> T (full_url e0) -> (forall c, In c Y -> full_url (snd c) = full_url e0 -> same_entry e0 e) -> inv X Y (A ++ (p, e) :: B) (set_file (fwrite (z_file s) p b) s).
Proof.
  intros X Y A p e0 B e b s I Hu Hs Hk Hb Hsp HT HY. pose proof (iv_core _ _ _ _ I) as C.
  pose proof (co_stored _ _ C) as Fs. cbn [bare z_file] in Fs. apply Forall_mid in Fs as (_ & St & _). cbn [fst snd] in St.
  pose proof St as (Hp0 & Hs0 & _ & b0 & Hb0 & Hf0).
  assert (Lb : zlen b = zlen b0) by (rewrite <- (span_ok _ _ Hb), <- (span_ok _ _ Hb0); exact Hsp).
  assert (K1 : keeps (z_file s) (fwrite (z_file s) p b) (fun x => ~ occupies (p, e0) x)).
  { eapply keeps_weaken; [apply keeps_fwrite; exact Hp0|]. intros x Hx Hc. apply Hx. unfold occupies. cbn [fst snd].
    rewrite (span_ok _ _ Hb0), <- Lb. exact Hc. }
  assert (Eo : forall x, occupies (p, e) x <-> occupies (p, e0) x) by (intro x; unfold occupies; cbn [fst snd]; rewrite Hsp; tauto).
  assert (In0 : In (p, e0) (A ++ (p, e0) :: B)) by (apply in_or_app; right; left; reflexivity).
  assert (InX : forall c, In c (A ++ (p, e) :: B) -> c = (p, e) \/ In c (A ++ (p, e0) :: B)).
  { intros c Hc. apply in_app_or in Hc as [Hc|[<-|Hc]]; [right; apply in_or_app; auto|auto|right; apply in_or_app; right; right; exact Hc]. }
  assert (KF : forall x, F x -> ~ occupies (p, e0) x) by (intros x Hx Ho; exact (iv_tf _ _ _ _ I _ _ In0 HT Ho Hx)).
  assert (Lf : zlen (z_file s) <= zlen (fwrite (z_file s) p b)) by (rewrite fwrite_len by exact Hp0; lia).
  constructor; cbn [set_file z_file z_upl z_alloc z_atpl z_etpl].
  - apply bare_core; cbn [set_file z_file z_upl z_alloc].
    + rewrite (co_locs _ _ C : pl_ptrs (z_upl s) = _), !map_mid. reflexivity.
    + destruct (stored_others _ _ _ _ _ (co_stored _ _ C) (co_apart _ _ C) K1) as [FA FB].
      apply Forall_mid. split; [exact FA|]. split; [|exact FB]. cbn [fst snd]. apply stored_fwrite; assumption.
    + pose proof (co_used _ _ C) as Fu. apply Forall_mid in Fu as (F1 & F2 & F3). apply Forall_mid. split; [exact F1|]. split; [|exact F3].
      intros x Hx. apply F2. apply Eo. exact Hx.
    + eapply apart_replace; [apply (co_apart _ _ C)|]. intros x Hx. apply Eo. exact Hx.
    + eapply url_sorted_replace; [apply (co_sorted _ _ C)|]. exact Hu.
    + apply (co_canonical _ _ C).
    + apply (co_end _ _ C).
    + apply (co_mut_u _ _ C).
  - apply (iv_mut_a _ _ _ _ I).
  - apply (iv_mut_e _ _ _ _ I).
  - intros c Hc. eapply stored_keeps; [apply (iv_xs _ _ _ _ I); exact Hc|]. destruct c as [q d]. cbn [fst snd]. eapply keeps_weaken; [exact K1|].
    intros x Hx Ho. exact (iv_xa _ _ _ _ I _ _ Hc In0 x (conj Hx Ho)).
  - apply (iv_xu _ _ _ _ I).
  - intros c d Hc Hd x [H1 H2]. apply InX in Hd as [-> | Hd]; [|exact (iv_xa _ _ _ _ I _ _ Hc Hd x (conj H1 H2))].
    exact (iv_xa _ _ _ _ I _ _ Hc In0 x (conj H1 (proj1 (Eo x) H2))).
  - intros c d Hc Hd. apply InX in Hd as [-> | Hd]; [cbn [snd]; rewrite Hu; exact (iv_xn _ _ _ _ I _ _ Hc In0)|exact (iv_xn _ _ _ _ I _ _ Hc Hd)].
  - apply (iv_xt _ _ _ _ I).
  - intros c Hc. destruct (iv_y _ _ _ _ I c Hc) as (d & Hd & E1 & E2 & E3). apply in_app_or in Hd. destruct Hd as [Hd|[<-|Hd]].
    + exists d. split; [apply in_or_app; auto|auto].
    + exists (p, e). cbn [fst snd] in *. split; [apply in_or_app; right; left; reflexivity|]. split; [exact E1|].
      split; [|congruence]. eapply same_trans; [exact E2|]. apply (HY c Hc). symmetry. apply same_url. exact E2.
    + exists d. split; [apply in_or_app; right; right; exact Hd|auto].
  - intros c Hc Hr. apply InX in Hc as [-> | Hc]; [|exact (iv_rt _ _ _ _ I _ Hc Hr)]. cbn [snd]. rewrite Hu. exact HT.
  - intros c x Hc Ht Ho. apply InX in Hc as [-> | Hc]; [|exact (iv_tf _ _ _ _ I _ _ Hc Ht Ho)]. apply Eo in Ho. exact (iv_tf _ _ _ _ I _ _ In0 HT Ho).
  - apply (iv_xf _ _ _ _ I).
  - apply (iv_fu _ _ _ _ I).
  - eapply keeps_weaken; [eapply keeps_trans; [apply (iv_keep _ _ _ _ I)|exact K1|apply (iv_len _ _ _ _ I)]|]. intros x Hx. split; [exact Hx|apply KF; exact Hx].
  - pose proof (iv_len _ _ _ _ I). lia.
Qed.

(** *** the invariant along a program *)
Definition ok (X Y : list (Z * entry)) (s : zim) : Prop := exists cells, inv X Y cells s.
Definition safe {A} (X Y : list (Z * entry)) (m : M zim A) (s : zim) : Prop := forall r s', m s = (r, s') -> ok X Y s'.
Lemma s_light : forall A X Y (m : M zim A) s, light m -> ok X Y s -> safe X Y m s.
Proof. intros A X Y m s Hm [cells I] r s' H. exists cells. eapply inv_base; [exact I|]. eapply Hm. exact H. Qed.
Lemma s_bind : forall A B X Y (m : M zim A) (k : A -> M zim B) s, safe X Y m s -> (forall x s1, m s = (Ok x, s1) -> ok X Y s1 -> safe X Y (k x) s1) -> safe X Y (let* x := m in k x) s.
Proof.
  intros A B X Y m k s Hm Hk r s' H. unfold mbind in H. destruct (m s) as [[x|e] s1] eqn:E.
  - eapply Hk; [reflexivity|eapply Hm; exact E|exact H].
  - injection H as _ <-. eapply Hm. exact E.
Qed.
Lemma s_lbind : forall A B X Y (m : M zim A) (k : A -> M zim B) s, light m -> ok X Y s -> (forall x s1, ok X Y s1 -> safe X Y (k x) s1) -> safe X Y (let* x := m in k x) s.
Proof. intros A B X Y m k s Hm O Hk. apply s_bind; [apply s_light; assumption|]. intros x s1 _ O1. apply Hk. exact O1. Qed.
Lemma s_qbind : forall A B X Y (q : zim -> res A) (k : A -> M zim B) s, ok X Y s -> (forall x, q s = Ok x -> safe X Y (k x) s) -> safe X Y (let* x := query q in k x) s.
Proof.
  intros A B X Y q k s O Hk r s' H. unfold mbind, query in H. destruct (q s) as [x|e] eqn:E; [eapply Hk; [reflexivity|exact H]|]. injection H as _ <-. exact O.
Qed.

Lemma s_cbind : forall A B X Y cells (m : M zim A) (k : A -> M zim B) s, light m -> inv X Y cells s -> (forall x s1, inv X Y cells s1 -> safe X Y (k x) s1) -> safe X Y (let* x := m in k x) s.
Proof.
  intros A B X Y cells m k s Hm I Hk. apply s_bind; [apply s_light; [exact Hm|exists cells; exact I]|]. intros x s1 E _. apply Hk. eapply inv_base; [exact I|eapply Hm; exact E].
Qed.

(** The position, the place and the entry for a url of the archive. *)
Lemma index_cell : forall s cells u i, core (bare s) cells -> url_index s u = Ok i -> exists A c B, cells = A ++ c :: B /\ i = zlen A /\ full_url (snd c) = u.
Proof.
  intros s cells u i C H. change (url_index (bare s) u = Ok i) in H.
  assert (Hu : exists b, utf8_encode u = Some b). { unfold url_index in H. destruct (encode u) as [b|] eqn:E; [|discriminate H]. exists b. apply encode_inv. exact E. }
  destruct Hu as [b Hb].
  assert (D : (exists c, In c cells /\ full_url (snd c) = u) \/ forall c, In c cells -> full_url (snd c) <> u).
  { clear. induction cells as [|c cells IH]; [right; intros c []|]. destruct (ueqb (full_url (snd c)) u) eqn:E.
    - apply ueqb_eq in E. left. exists c. split; [left; reflexivity|exact E].
    - destruct IH as [(d & Hd & Ed)|IH]; [left; exists d; split; [right; exact Hd|exact Ed]|right]. intros d [<-|Hd]; [|apply IH; exact Hd].
      intro Q. apply ueqb_eq in Q. congruence. }
  destruct D as [(c & Hc & Ec)|D]; [|rewrite (url_index_missing _ _ _ _ C Hb D) in H; discriminate H].
  apply in_split in Hc as (A & B & ->). exists A, c, B. split; [reflexivity|]. split; [|exact Ec].
  rewrite <- Ec, (url_index_found _ _ (zlen A) c C (znth_mid A B c)) in H. congruence.
Qed.
Lemma in_get : forall l i (p : Z), get_by_index l i = Ok p -> In p l.
Proof.
  intros l i p H. unfold get_by_index in H. destruct (py_index (zlen l) i) as [k|]; [|discriminate H]. destruct (nth_error l k) as [q|] eqn:E; [|discriminate H].
  injection H as <-. eapply nth_error_In. exact E.
Qed.
Lemma read_cell : forall s cells p e, core (bare s) cells -> In p (pl_ptrs (z_upl s)) -> get_entry_at s p = Ok e -> In (p, e) cells.
Proof.
  intros s cells p e C Hp H. rewrite (co_locs _ _ C : pl_ptrs (z_upl s) = _) in Hp. apply in_map_iff in Hp as (c & <- & Hc).
  pose proof (co_stored _ _ C) as Fs. rewrite Forall_forall in Fs. specialize (Fs c Hc). pose proof (stored_read (bare s) _ _ Fs) as R.
  change (get_entry_at s (fst c) = Ok (snd c)) in R. rewrite R in H. injection H as <-. destruct c; exact Hc.
Qed.
Lemma url_cell : forall s cells u e, core (bare s) cells -> get_entry_by_full_url s u = Ok e -> exists p, In (p, e) cells /\ full_url e = u.
Proof.
  intros s cells u e C H. unfold get_entry_by_full_url in H. rewrite url_pointer_index in H. destruct (url_index s u) as [i|x] eqn:E; cbn [bind] in H; [|destruct x; discriminate H].
  destruct (index_cell _ _ _ _ C E) as (A & [p d] & B & -> & -> & Ed). 
  rewrite (by_index_ok (bare s) _ (zlen A) (p, d) C (znth_mid A B (p, d)) : get_by_index (pl_ptrs (z_upl s)) _ = _) in H.
  assert (R : In (p, e) (A ++ (p, d) :: B)).
  { eapply read_cell; [exact C| |exact H]. rewrite (co_locs _ _ C : pl_ptrs (z_upl s) = _). apply in_map_iff. exists (p, d). split; [reflexivity|]. apply in_or_app. right. left. reflexivity. }
  pose proof (co_stored _ _ C) as Fs. apply Forall_mid in Fs as (_ & Fs & _). apply stored_read in Fs. change (get_entry_at s p = Ok d) in Fs. cbn [fst] in H. rewrite Fs in H. injection H as <-.
  exists p. split; [exact R|exact Ed].
Qed.
Lemma cell_storable : forall s cells p e, core (bare s) cells -> In (p, e) cells -> entry_storable e /\ kind_consistent e.
Proof. intros s cells p e C Hc. pose proof (co_stored _ _ C) as Fs. rewrite Forall_forall in Fs. specialize (Fs _ Hc). destruct Fs as (_ & H1 & H2 & _). auto. Qed.

(** Stage 1 tells where the entry is. *)
Lemma find_old_safe : forall s cells w old, core (bare s) cells -> find_old s w = Ok old ->
  match old with
  | Some o => exists A p e0 B, cells = A ++ (p, e0) :: B /\ full_url e0 = w_old_url w /\ o_index o = zlen A /\ o_offset o = p /\ o_size o = span e0 /\
      match o_etitle o with Some k => forall t, z_etpl s = Some t -> get_by_pointer (pl_ptrs t) (zlen A) = Ok k | None => True end /\
      match o_atitle o with Some k => get_by_pointer (pl_ptrs (z_atpl s)) (zlen A) = Ok k | None => True end
  | None => url_index s (w_old_url w) = Err KeyError
  end.
Proof.
  intros s cells w old C H. unfold find_old in H. destruct (url_index s (w_old_url w)) as [i|x] eqn:E.
  - destruct (index_cell _ _ _ _ C E) as (A & [p e0] & B & -> & -> & Eu). cbn [snd] in Eu.
    assert (Hz : znth (A ++ (p, e0) :: B) (zlen A) = Some (p, e0)) by apply znth_mid.
    rewrite (by_index_ok (bare s) _ (zlen A) (p, e0) C Hz : get_by_index (pl_ptrs (z_upl s)) _ = _) in H. cbn [bind fst] in H.
    pose proof (core_nth _ _ _ _ C Hz) as St. pose proof (stored_read _ _ _ St) as R. cbn [fst snd] in R. change (get_entry_at s p = Ok e0) in R. rewrite R in H. cbn [bind] in H.
    destruct St as (_ & Hs & _). cbn [snd] in Hs. destruct (storable_span e0 Hs) as [Hsz _]. rewrite Hsz in H. cbn [bind] in H.
    match type of H with bind ?m _ = _ => destruct m as [et|] eqn:Et end; cbn [bind] in H; [|discriminate H].
    match type of H with bind ?m _ = _ => destruct m as [at_|] eqn:Ea end; cbn [bind] in H; [|discriminate H].
    injection H as <-. exists A, p, e0, B. cbn. do 5 (split; [first [reflexivity|exact Eu]|]). split.
    + destruct et as [k|]; [|exact Logic.I]. intros t Ht. rewrite Ht in Et. destruct (get_by_pointer (pl_ptrs t) (zlen A)) as [k'|x]; [injection Et as ->; reflexivity|].
      destruct x; try discriminate Et. destruct (is_redirect (w_entry w)); discriminate Et.
    + destruct at_ as [k|]; [|exact Logic.I]. destruct (get_by_pointer (pl_ptrs (z_atpl s)) (zlen A)) as [k'|x]; [injection Ea as ->; reflexivity|]. destruct x; discriminate Ea.
  - destruct x; try discriminate H. injection H as <-. reflexivity.
Qed.

Lemma s_step : forall A B X Y (m : M zim A) (k : A -> M zim B) s x s1, m s = (Ok x, s1) -> safe X Y (k x) s1 -> safe X Y (let* x := m in k x) s.
Proof. intros A B X Y m k s x s1 E H r s' R. rewrite (mbind_ok _ _ _ _ _ E) in R. exact (H r s' R). Qed.
Lemma same_split : forall (A A' B B' : list (Z * entry)) c c', StronglySorted url_lt (map snd (A ++ c :: B)) -> A ++ c :: B = A' ++ c' :: B' -> full_url (snd c) = full_url (snd c') ->
  A = A' /\ c = c' /\ B = B'.
Proof.
  intros A A' B B' c c' Hso E Hu.
  assert (L : zlen A = zlen A').
  { apply (url_unique (map snd (A ++ c :: B)) (zlen A) (zlen A') (snd c) (snd c') Hso); [rewrite znth_map, znth_mid; reflexivity|rewrite E, znth_map, znth_mid; reflexivity|exact Hu]. }
  assert (L' : length A = length A') by (unfold zlen in L; lia).
  apply app_eq_app in E as [l [[-> E]|[-> E]]]; rewrite app_length in L'; assert (l = []) by (destruct l; [reflexivity|cbn in L'; lia]); subst l; cbn in E; injection E as -> ->; rewrite ?app_nil_r; auto.
Qed.

Lemma others : forall A c0 B, StronglySorted url_lt (map snd (A ++ c0 :: B)) -> forall c : Z * entry, In c (A ++ B) -> full_url (snd c) <> full_url (snd c0).
Proof.
  intros A c0 B Hso c Hc E. apply in_app_or in Hc as [Hc|Hc]; apply in_split in Hc as (l1 & l2 & ->).
  - destruct (same_split l1 (l1 ++ c :: l2) (l2 ++ c0 :: B) B c c0) as (Q1 & _ & _); [|rewrite <- app_assoc; reflexivity|exact E|].
    + rewrite <- app_assoc in Hso. exact Hso.
    + apply (f_equal (@length _)) in Q1. rewrite app_length in Q1. cbn in Q1. lia.
  - destruct (same_split A (A ++ c0 :: l1) (l1 ++ c :: l2) l2 c0 c) as (Q1 & _ & _); [exact Hso|rewrite <- app_assoc; reflexivity|symmetry; exact E|].
    apply (f_equal (@length _)) in Q1. rewrite app_length in Q1. cbn in Q1. lia.
Qed.
Lemma write_inplace_safe : forall X Y rec w upd t s A p e0 B, inv X Y (A ++ (p, e0) :: B) s -> w_old_url w = full_url e0 -> full_url (w_entry w) = full_url e0 ->
  (forall n, entry_disk_size (w_entry w) = Ok n -> n = span e0) -> kind_consistent (w_entry w) ->
  (forall b, entry_to_bytes (w_entry w) = Ok b -> entry_storable (w_entry w)) -> T (full_url e0) ->
  (forall c, In c Y -> full_url (snd c) = full_url e0 -> same_entry e0 (w_entry w)) -> safe X Y (write_body rec w upd t) s.
Proof.
  intros X Y rec w upd t s A p e0 B I Ho Hu Hn Hk Hb HT HY. pose proof (iv_core _ _ _ _ I) as C. assert (O : ok X Y s) by (exists (A ++ (p, e0) :: B); exact I).
  unfold write_body. apply s_qbind; [exact O|]. intros article _. apply s_qbind; [exact O|]. intros n Hsz. apply Hn in Hsz as ->.
  apply s_qbind; [exact O|]. intros old Hold. apply (find_old_safe _ _ _ _ C) in Hold. destruct old as [o|].
  2: { exfalso. rewrite Ho in Hold. pose proof (url_index_found _ _ (zlen A) (p, e0) C (znth_mid A B (p, e0))) as Q. change (url_index s (full_url e0) = Ok (zlen A)) in Q. congruence. }
  destruct Hold as (A' & p' & e1 & B' & E & Eu & E1 & E2 & E3 & _). 
  assert (Eq : A = A' /\ (p, e0) = (p', e1) /\ B = B') by (eapply same_split; [exact (co_sorted _ _ C)|exact E|cbn [snd]; congruence]).
  destruct Eq as (<- & [= <- <-] & <-). cbv zeta.
  replace (negb (o_size o =? span e0)) with false by (rewrite E3; lia).
  replace (negb (ueqb (w_old_url w) (full_url (w_entry w)))) with false by (rewrite Ho, Hu, ueqb_refl; reflexivity).
  rewrite andb_false_r. cbn [orb].
  eapply s_step; [reflexivity|]. eapply s_step; [reflexivity|]. eapply s_step; [reflexivity|]. rewrite E2.
  apply s_bind.
  { intros r s' H. unfold write_at, update in H. destruct (entry_to_bytes (w_entry w)) as [b|x] eqn:Eb; cbn [bind] in H; injection H as _ <-; [|exact O].
    exists (A ++ (p, w_entry w) :: B). eapply inv_inplace; [exact I|exact Hu|apply (Hb b eq_refl)|exact Hk|exact Eb| |exact HT|exact HY].
    apply Hn. rewrite (entry_size_exact _ _ Eb), (span_ok _ _ Eb). reflexivity. }
  intros _ s1 _ O1. apply s_light; [|exact O1].
  apply l_bind; [apply l_drop_etitle|intros _]. apply l_bind; [apply l_drop_atitle|intros _]. apply l_bind; [apply l_ret|intros _]. apply l_bind; [apply l_ret|]. intros [j e'].
  apply l_bind; [destruct t; [apply l_add_titles|apply l_ret]|intros _].
  apply l_bind; [|intros _; destruct (is_redirect e'); [apply l_bind; [apply l_query|intros _; apply l_ret]|apply l_ret]].
  destruct (opt_eqb _ _); [apply l_ret|]. cbn [retarget]. apply l_ret.
Qed.

(** Rewriting a redirect with another target is safe. *)
Definition good (X Y : list (Z * entry)) (wr : went -> M zim unit) : Prop := forall s cells p e v,
  inv X Y cells s -> In (p, e) cells -> is_redirect e = true -> safe X Y (wr (fresh (with_redirect_index e v))) s.
Lemma redirect_kind : forall e, kind_consistent e -> is_redirect e = true -> exists r, e_kind e = Redirect r.
Proof. intros e Hk Hr. unfold kind_consistent, is_redirect, MIMETYPE_ID_REDIRECT in *. destruct (e_kind e); [lia|eauto]. Qed.
Lemma wri_size : forall e r v n, entry_storable e -> e_kind e = Redirect r -> entry_disk_size (with_redirect_index e v) = Ok n -> n = span e.
Proof. intros e r v n Hs Hk H. destruct (storable_span e Hs) as [Hz _]. assert (E : entry_disk_size (with_redirect_index e v) = entry_disk_size e) by (unfold entry_disk_size; cbn [with_redirect_index e_url e_title e_kind]; rewrite Hk; reflexivity). congruence. Qed.
Lemma wri_bytes : forall e r v b, entry_storable e -> e_kind e = Redirect r -> entry_to_bytes (with_redirect_index e v) = Ok b -> entry_storable (with_redirect_index e v).
Proof.
  intros e r v b Hs Hk H. destruct Hs as (_ & _ & (_ & H1) & (t & Ht & _ & H2) & _). eapply entry_to_bytes_inv; [exact H|exact H1|]. cbn. intros t' E. rewrite Ht in E. injection E as <-. exact H2.
Qed.
Lemma good_body : forall X Y rec upd t, good X Y (fun w => write_body rec w upd t).
Proof.
  intros X Y rec upd t s cells p e v I Hin Hr. destruct (cell_storable _ _ _ _ (iv_core _ _ _ _ I) Hin) as [Hs Hk]. destruct (redirect_kind e Hk Hr) as [r Er].
  pose proof (iv_rt _ _ _ _ I _ Hin Hr) as HT. apply in_split in Hin as (A & B & ->).
  eapply write_inplace_safe; [exact I|reflexivity|reflexivity| | | |exact HT|intros c _ _; eapply same_wri; exact Er]; cbn [fresh w_entry].
  - intros n. eapply wri_size; eassumption.
  - eapply wri_consistent; eassumption.
  - intros b. eapply wri_bytes; eassumption.
Qed.
Lemma good_rec : forall X Y n upd t, good X Y (fun w => write_entry_rec n w upd t).
Proof.
  intros X Y n upd t. destruct n as [|n]; [|apply good_body]. intros s cells p e v I _ _. apply s_light; [apply l_raise|]. exists cells. exact I.
Qed.

Lemma s_for : forall X Y n i body s, (forall s cells p e, inv X Y cells s -> In (p, e) cells -> safe X Y (body e) s) -> ok X Y s -> safe X Y (for_entries n i body) s.
Proof.
  intros X Y. induction n as [|n IH]; intros i body s Hb O; cbn [for_entries]; [apply s_light; [apply l_ret|exact O]|].
  apply s_qbind; [exact O|]. intros e He. destruct O as [cells I]. apply s_bind.
  - destruct (get_by_index (pl_ptrs (z_upl s)) i) as [p|] eqn:G; cbn [bind] in He; [|discriminate He]. eapply Hb; [exact I|]. eapply read_cell; [exact (iv_core _ _ _ _ I)|eapply in_get; exact G|exact He].
  - intros _ s1 _ O1. apply IH; assumption.
Qed.
Lemma s_update_redirect : forall X Y wr start diff skip s cells p e, good X Y wr -> inv X Y cells s -> In (p, e) cells -> safe X Y (update_redirect wr start diff skip e) s.
Proof.
  intros X Y wr start diff skip s cells p e Hw I Hin. assert (O : ok X Y s) by (exists cells; exact I). unfold update_redirect.
  destruct (is_redirect e) eqn:Er; cbn [andb]; [|apply s_light; [apply l_ret|exact O]]. destruct (negb _); [|apply s_light; [apply l_ret|exact O]].
  destruct (e_kind e) as [c n|r] eqn:Ek; [apply s_light; [apply l_raise|exact O]|]. destruct (start <=? r); [|apply s_light; [apply l_ret|exact O]].
  apply s_qbind; [exact O|]. intros e' He'. unfold set_redirect_index in He'. destruct (_ <? 0); [discriminate He'|]. injection He' as <-.
  apply s_qbind; [exact O|]. intros q _. destruct (_ =? q); [apply s_light; [apply l_raise|exact O]|]. eapply Hw; eassumption.
Qed.
Lemma s_uup : forall X Y wr start diff edit skip s, good X Y wr -> ok X Y s -> safe X Y (update_url_pointers wr start diff edit skip) s.
Proof.
  intros X Y wr start diff edit skip s Hw O. unfold update_url_pointers. apply s_lbind; [apply l_shift_etpl|exact O|]. intros _ s1 O1.
  apply s_lbind; [destruct edit; [apply l_shift_atpl|apply l_ret]|exact O1|]. intros _ s2 O2. apply s_qbind; [exact O2|]. intros n _.
  apply s_bind; [apply s_for; [|exact O2]; intros; eapply s_update_redirect; eassumption|]. intros _ s3 _ O3. apply s_light; [|exact O3].
  apply l_update. intros s4 s' H. destruct (z_main s4); injection H as <-; [|apply sb_refl]. destruct (start <? z); [|apply sb_refl]. constructor; auto.
Qed.
Lemma s_retarget : forall X Y wr urls i s, good X Y wr -> ok X Y s -> safe X Y (retarget wr urls i) s.
Proof.
  intros X Y wr urls i s Hw. revert s. induction urls as [|u urls IH]; intros s O; cbn [retarget]; [apply s_light; [apply l_ret|exact O]|].
  apply s_qbind; [exact O|]. intros e He. destruct O as [cells I]. assert (O : ok X Y s) by (exists cells; exact I).
  destruct (url_cell _ _ _ _ (iv_core _ _ _ _ I) He) as (p & Hp & _). apply s_qbind; [exact O|]. intros e' He'. destruct (e_kind e) as [c n|r] eqn:Ek; [discriminate He'|].
  unfold set_redirect_index in He'. destruct (i <? 0); [discriminate He'|]. injection He' as <-. apply s_bind.
  - eapply Hw; [exact I|exact Hp|]. destruct (cell_storable _ _ _ _ (iv_core _ _ _ _ I) Hp) as [_ Hk]. unfold kind_consistent in Hk. rewrite Ek in Hk. unfold is_redirect, MIMETYPE_ID_REDIRECT. lia.
  - intros _ s1 _ O1. apply IH. exact O1.
Qed.
Lemma ok_drop : forall X Y s, ok X Y s -> forall Y', incl Y' Y -> ok [] Y' s.
Proof. intros X Y s [cells []] Y' H. exists cells. constructor; try assumption; try (intros c; cbn; tauto). intros c Hc. apply iv_y0. apply H. exact Hc. Qed.
Lemma safe_drop : forall A X Y (m : M zim A) s, safe X Y m s -> forall Y', incl Y' Y -> safe [] Y' m s.
Proof. intros A X Y m s H Y' HY r s' E. eapply ok_drop; [eapply H; exact E|exact HY]. Qed.

Lemma remove_mid : forall o (A B : list (Z * entry)) p e, pl_ptrs o = map fst (A ++ (p, e) :: B) -> pl_mutable o = true ->
  exists o', pl_remove_by_index (zlen A) o = Ok o' /\ pl_ptrs o' = map fst (A ++ B) /\ pl_mutable o' = true.
Proof.
  intros o A B p e E M. unfold pl_remove_by_index. pose proof (zlen_nonneg A). replace (zlen A <? 0) with false by lia. rewrite M. cbn [negb].
  assert (L : zlen (pl_ptrs o) = zlen A + zlen B + 1) by (rewrite E, zlen_map, zlen_app, zlen_cons; lia). pose proof (zlen_nonneg B).
  unfold py_index. replace ((0 <=? zlen A) && (zlen A <? zlen (pl_ptrs o))) with true by lia. eexists. split; [reflexivity|]. cbn [pl_change pl_ptrs pl_mutable].
  split; [|exact M]. rewrite E, (map_mid fst A (p, e) B), map_app. apply list_pop_mid. rewrite map_length. unfold zlen. lia.
Qed.

(** The space of the old version given back, that of the new one taken and written. *)
Lemma stage2_steps : forall s A p0 e0 B e, core (bare s) (A ++ (p0, e0) :: B) -> entry_storable e -> kind_consistent e ->
  exists off f1 al sa sb,
    update (fun s => if negb (span e0 =? span e) then do a <- mark_free (z_alloc s) p0 (span e0) ;; Ok (set_alloc a s) else Ok s) s = (Ok tt, sa) /\
    (if negb (span e0 =? span e) then match allocate (z_alloc sa) (span e) with Ok (p, a) => (Ok p, set_alloc a sa) | Err x => (Err x, sa) end else (Ok p0, sa)) = (Ok off, sb) /\
    write_at off e sb = (Ok tt, set_file f1 (set_alloc al s)) /\
    stored f1 off e /\ Forall (fun c => stored f1 (fst c) (snd c)) (A ++ B) /\
    Forall (fun c => forall x, occupies c x -> in_use al x) (A ++ B) /\ canonical al /\ 0 <= file_end al /\
    (forall x, occupies (off, e) x -> in_use al x) /\ Forall (apart (off, e)) (A ++ B) /\
    keeps (z_file s) f1 (fun x => in_use (z_alloc s) x /\ ~ occupies (p0, e0) x) /\
    (forall x, in_use al x <-> (in_use (z_alloc s) x /\ ~ occupies (p0, e0) x) \/ occupies (off, e) x) /\
    (forall x, occupies (off, e) x -> ~ (in_use (z_alloc s) x /\ ~ occupies (p0, e0) x)) /\
    zlen (z_file s) <= zlen f1.
Proof.
  intros s A p0 e0 B e C Hs Hk. destruct (stage2_ok (bare s) A p0 e0 B e None None C Hs Hk) as (off & f1 & al & H2 & R).
  destruct (entry_size_storable e Hs) as (b & Hb & _).
  assert (Q : exists sa sb,
    update (fun s => if negb (span e0 =? span e) then do a <- mark_free (z_alloc s) p0 (span e0) ;; Ok (set_alloc a s) else Ok s) s = (Ok tt, sa) /\
    (if negb (span e0 =? span e) then match allocate (z_alloc sa) (span e) with Ok (p, a) => (Ok p, set_alloc a sa) | Err x => (Err x, sa) end else (Ok p0, sa)) = (Ok off, sb) /\
    write_at off e sb = (Ok tt, set_file f1 (set_alloc al s))).
  { unfold stage2 in H2. cbn [o_offset o_size] in H2. destruct (negb (span e0 =? span e)).
    - unfold mbind, update, write_at, ret in H2. cbn [bare z_alloc] in H2. destruct (mark_free (z_alloc s) p0 (span e0)) as [a1|] eqn:Em; cbn [bind] in H2; [|discriminate H2].
      cbn [set_alloc z_alloc] in H2. destruct (allocate a1 (span e)) as [[q a2]|] eqn:Ea; [|discriminate H2]. rewrite Hb in H2. cbn [update bind] in H2. unfold update in H2. cbn [bind] in H2.
      injection H2 as -> <- <-.
      exists (set_alloc a1 s), (set_alloc a2 (set_alloc a1 s)). unfold update. rewrite Em. cbn [bind]. split; [reflexivity|]. cbn [set_alloc z_alloc]. rewrite Ea. split; [reflexivity|].
      unfold write_at, update. rewrite Hb. reflexivity.
    - unfold mbind, update, write_at, ret in H2. rewrite Hb in H2. unfold update in H2. cbn [bind] in H2. injection H2 as <- <- <-.
      exists s, s. split; [reflexivity|]. split; [reflexivity|]. unfold write_at, update. rewrite Hb. destruct s; reflexivity. }
  destruct Q as (sa & sb & Q1 & Q2 & Q3). exists off, f1, al, sa, sb. split; [exact Q1|]. split; [exact Q2|]. split; [exact Q3|exact R].
Qed.

(** Titles at positions that were found can be dropped. *)
Lemma drop_etitle_total : forall s k i, (forall t, z_etpl s = Some t -> pl_mutable t = true) ->
  match k with Some k => forall t, z_etpl s = Some t -> get_by_pointer (pl_ptrs t) i = Ok k | None => True end -> exists s', drop_etitle k s = (Ok tt, s').
Proof.
  intros s k i M H. unfold drop_etitle, update. destruct k as [k|]; [|eauto]. destruct (z_etpl s) as [t|] eqn:E; [|eauto].
  destruct (drop_at t i k (H t eq_refl) (M t eq_refl)) as (_ & _ & o' & _ & _ & R & _). rewrite R. cbn [bind]. eauto.
Qed.
Lemma drop_atitle_total : forall s k i, pl_mutable (z_atpl s) = true ->
  match k with Some k => get_by_pointer (pl_ptrs (z_atpl s)) i = Ok k | None => True end -> exists s', drop_atitle k s = (Ok tt, s').
Proof.
  intros s k i M H. unfold drop_atitle, update. destruct k as [k|]; [|eauto].
  destruct (drop_at (z_atpl s) i k H M) as (_ & _ & o' & _ & _ & R & _). rewrite R. cbn [bind]. eauto.
Qed.
Lemma drop_etitle_atpl : forall k s s', drop_etitle k s = (Ok tt, s') -> z_atpl s' = z_atpl s.
Proof.
  intros k s s' H. unfold drop_etitle, update in H. destruct k as [k|]; [|injection H as <-; reflexivity]. destruct (z_etpl s) as [t|]; [|injection H as <-; reflexivity].
  destruct (pl_remove_by_index k t); cbn [bind] in H; [|discriminate H]. injection H as <-. reflexivity.
Qed.

(** The second half of a write: the pointer to the new place is added. *)
Lemma attach_safe : forall Y rec e offset (to_update : list ustr) (add article : bool) (old : option Z) s,
  (forall X Y u, good X Y (fun w => rec w u)) -> ok [(offset, e)] Y s ->
  safe [] Y (let* ie := (let* i := (fun s => match encode (full_url e) with
                                    | Err x => (Err x, s)
                                    | Ok k => match pl_add (url_key s) k offset (z_upl s) with
                                              | Ok (i, u) => (Ok i, set_upl u s)
                                              | Err x => (Err x, s)
                                              end
                                    end) in
                let* _ := update_url_pointers (fun w => rec w true) i 1 true [full_url e] in
                let* e' := query (fun _ => bump_own i e) in
                let* _ := match e_kind e with
                          | Redirect r => if is_redirect e && (i <=? r) then write_at offset e' else ret tt
                          | Content _ _ => ret tt
                          end in
                match e_kind e' with
                | Redirect r => if is_redirect e' && (r =? i) then raise AssertionError else ret (i, e')
                | Content _ _ => ret (i, e')
                end) in
  let (new_index, e') := (ie : Z * entry) in
  let* _ := (if add then add_titles e' article new_index else ret tt) in
  let* _ := (if opt_eqb old (Some new_index) then ret tt
             else retarget (fun w => rec w false) to_update new_index) in
  if is_redirect e' then let* _ := query (fun s => follow s e') in ret tt else ret tt) s.
Proof.
  intros Y rec e offset to_update add article old s Hg [cells I].
  assert (Hx : In (offset, e) [(offset, e)]) by (left; reflexivity).
  pose proof (iv_xs _ _ _ _ I _ Hx) as St. cbn [fst snd] in St.
  destruct (url_add_ok (bare s) cells offset e (iv_core _ _ _ _ I) St (fun c Hc => iv_xn _ _ _ _ I _ _ Hx Hc)) as (A & B & u' & -> & He & Ha & Eu & Mu & HA & HB).
  change (pl_add (url_key s) (enc (full_url e)) offset (z_upl s) = Ok (zlen A, u')) in Ha.
  pose proof (iv_core _ _ _ _ I) as C.
  assert (I1 : inv [] ((offset, e) :: Y) (A ++ (offset, e) :: B) (set_upl u' s)).
  { constructor; cbn [set_upl z_file z_upl z_alloc z_atpl z_etpl]; try (intros c; cbn; tauto).
    - apply bare_core; cbn [set_upl z_file z_upl z_alloc].
      + rewrite map_mid. exact Eu.
      + apply Forall_mid. pose proof (co_stored _ _ C) as Fs. apply Forall_app in Fs as [F1 F2]. auto.
      + apply Forall_mid. pose proof (co_used _ _ C) as Fs. apply Forall_app in Fs as [F1 F2]. split; [exact F1|]. split; [|exact F2]. intros x Ho. exact (iv_xu _ _ _ _ I _ _ Hx Ho).
      + apply apart_insert; [exact (co_apart _ _ C)|]. apply Forall_forall. intros d Hd. exact (iv_xa _ _ _ _ I _ _ Hx Hd).
      + rewrite map_mid. pose proof (co_sorted _ _ C) as Hso. rewrite map_app in Hso. apply ssorted_app in Hso as (S1 & S2 & S3).
        apply ssorted_app. split; [exact S1|]. split.
        * apply ssorted_cons. split; [exact S2|]. apply Forall_forall. intros x Hx1. apply in_map_iff in Hx1 as (c & <- & Hc). auto.
        * intros x y Hx1 [ <- | Hy]; [|auto]. apply in_map_iff in Hx1 as (c & <- & Hc). cbn [snd]. auto.
      + apply (co_canonical _ _ C).
      + apply (co_end _ _ C).
      + exact Mu.
    - apply (iv_mut_a _ _ _ _ I).
    - apply (iv_mut_e _ _ _ _ I).
    - intros c [<-|Hc].
      + exists (offset, e). split; [apply in_or_app; right; left; reflexivity|]. split; [reflexivity|]. split; [apply same_refl|reflexivity].
      + destruct (iv_y _ _ _ _ I c Hc) as (d & Hd & Ed). exists d. split; [|exact Ed]. apply in_app_or in Hd as [Hd|Hd]; apply in_or_app; [left|right; right]; exact Hd.
    - intros c Hc Hr. apply in_app_or in Hc as [Hc|[<-|Hc]]; [| exact (iv_xt _ _ _ _ I _ Hx) |]; apply (iv_rt _ _ _ _ I); try assumption; apply in_or_app; auto.
    - intros c x Hc Ht Ho. apply in_app_or in Hc as [Hc|[<-|Hc]]; [| exact (iv_xf _ _ _ _ I _ _ Hx Ho) |]; eapply (iv_tf _ _ _ _ I); try eassumption; apply in_or_app; auto.
    - apply (iv_fu _ _ _ _ I).
    - apply (iv_keep _ _ _ _ I).
    - apply (iv_len _ _ _ _ I). }
  destruct St as (Hof & Hs & Hk & _).
  apply (safe_drop _ [] ((offset, e) :: Y)); [|apply incl_tl, incl_refl]. apply s_bind.
  { eapply s_step; [rewrite He, Ha; reflexivity|]. set (i := zlen A). apply s_bind; [apply s_uup; [apply Hg|exists (A ++ (offset, e) :: B); exact I1]|].
    intros _ s2 _ O2. apply s_qbind; [exact O2|]. intros e' He'. apply s_bind.
    - destruct (e_kind e) as [c n|r] eqn:Ek; [apply s_light; [apply l_ret|exact O2]|]. destruct (is_redirect e && (i <=? r)) eqn:Q; [|apply s_light; [apply l_ret|exact O2]].
      unfold bump_own in He'. rewrite Ek, Q in He'. unfold set_redirect_index in He'. destruct (_ <? 0); [discriminate He'|]. injection He' as <-.
      intros r0 s' H. unfold write_at, update in H. destruct (entry_to_bytes (with_redirect_index e (r + 1))) as [b|x] eqn:Eb; cbn [bind] in H; injection H as _ <-; [|exact O2].
      destruct O2 as [cells2 I2]. destruct (iv_y _ _ _ _ I2 (offset, e) (or_introl eq_refl)) as ([q e1] & Hd & E1 & E2 & E3). cbn [fst snd] in *. subst q.
      apply in_split in Hd as (A2 & B2 & ->). exists (A2 ++ (offset, with_redirect_index e (r + 1)) :: B2). eapply inv_inplace; [exact I2| | | |exact Eb| | |].
      + rewrite (same_url _ _ E2). reflexivity.
      + eapply wri_bytes; eassumption.
      + eapply wri_consistent; eassumption.
      + rewrite E3. eapply wri_size; [exact Hs|exact Ek|]. rewrite (entry_size_exact _ _ Eb), (span_ok _ _ Eb). reflexivity.
      + rewrite (same_url _ _ E2). exact (iv_xt _ _ _ _ I _ Hx).
      + intros _ _ _. destruct E2 as (Q1 & Q2 & Q3 & Q4 & Q5). unfold same_entry. cbn. do 4 (split; [congruence|]). rewrite Ek in Q5. destruct (e_kind e1); tauto.
    - intros _ s3 _ O3. apply s_light; [|exact O3]. destruct (e_kind e'); [apply l_ret|]. destruct (_ && _); [apply l_raise|apply l_ret]. }
  intros [j e'] s2 _ O2. apply s_lbind; [destruct add; [apply l_add_titles|apply l_ret]|exact O2|]. intros _ s3 O3.
  apply s_bind; [destruct (opt_eqb _ _); [apply s_light; [apply l_ret|exact O3]|apply s_retarget; [apply Hg|exact O3]]|]. intros _ s4 _ O4.
  apply s_light; [|exact O4]. destruct (is_redirect e'); [apply l_bind; [apply l_query|intros _; apply l_ret]|apply l_ret].
Qed.

Lemma write_safe : forall Y rec w upd add s cells, (forall X Y u, good X Y (fun w => rec w u)) -> inv [] Y cells s -> (forall c, In c Y -> full_url (snd c) <> w_old_url w) ->
  entry_storable (w_entry w) -> kind_consistent (w_entry w) ->
  (forall c, In c cells -> full_url (snd c) = full_url (w_entry w) -> full_url (snd c) = w_old_url w) ->
  T (w_old_url w) -> T (full_url (w_entry w)) -> safe [] Y (write_body rec w upd add) s.
Proof.
  intros Y rec w upd add s cells Hg I HY Hs Hk Hfree To Tn. pose proof (iv_core _ _ _ _ I) as C. assert (O : ok [] Y s) by (exists cells; exact I).
  destruct (storable_span _ Hs) as [Hsz Hpos]. destruct (entry_size_storable _ Hs) as (b & Hb & _).
  destruct (find_old s w) as [old|x] eqn:Hold.
  2: { unfold write_body. apply s_qbind; [exact O|]. intros article _. apply s_qbind; [exact O|]. intros n _. apply s_qbind; [exact O|]. congruence. }
  pose proof (find_old_safe _ _ _ _ C Hold) as Ho. destruct old as [o|].
  - destruct Ho as (A & p & e0 & B & -> & Eu & E1 & E2 & E3 & Pe & Pa).
    destruct (negb (ueqb (w_old_url w) (full_url (w_entry w))) || negb (span e0 =? span (w_entry w))) eqn:Q.
    2: { (* in place *)
      apply orb_false_iff in Q as [Qu Qs].
      assert (Hu : full_url (w_entry w) = full_url e0). { rewrite Eu. symmetry. apply ueqb_eq. destruct (ueqb _ _); [reflexivity|discriminate Qu]. }
      eapply write_inplace_safe; [exact I|auto|exact Hu| |exact Hk|intros; exact Hs|rewrite Eu; exact To|intros c Hc Ec; exfalso; apply (HY c Hc); congruence]. intros n Hn. rewrite Hsz in Hn. injection Hn as <-. lia. }
    unfold write_body. apply s_qbind; [exact O|]. intros article _. apply s_qbind; [exact O|]. intros n Hn. rewrite Hsz in Hn. injection Hn as <-.
    eapply s_step; [unfold query; rewrite Hold; reflexivity|]. cbv beta iota zeta. rewrite E3, Q. apply s_qbind; [exact O|]. intros to_update _.
    destruct (stage2_steps s A p e0 B (w_entry w) C Hs Hk) as (off & f1 & al & sa & sb & S1 & S2 & S3 & St & FS & FU & Ca & En & Us & Ap & K1 & Hu & Hnew & L1).
    eapply s_step; [rewrite E2; exact S1|]. eapply s_step.
    { rewrite E2. destruct (negb (span e0 =? span (w_entry w))); exact S2. }
    eapply s_step; [exact S3|]. set (s2 := set_file f1 (set_alloc al s)).
    destruct (drop_etitle_total s2 (o_etitle o) (zlen A) (iv_mut_e _ _ _ _ I) Pe) as [s3 D3].
    pose proof (l_drop_etitle _ _ _ _ D3) as B3. pose proof (drop_etitle_atpl _ _ _ D3) as A3.
    destruct (drop_atitle_total s3 (o_atitle o) (zlen A)) as [s4 D4].
    { rewrite A3. exact (iv_mut_a _ _ _ _ I). } { rewrite A3. exact Pa. }
    pose proof (l_drop_atitle _ _ _ _ D4) as B4.
    eapply s_step; [exact D3|]. eapply s_step; [exact D4|].
    destruct (remove_mid (z_upl s) A B p e0 (co_locs _ _ C) (co_mut_u _ _ C)) as (u' & R1 & R2 & R3).
    assert (F4 : z_file s4 = f1) by (rewrite (sb_file _ _ B4), (sb_file _ _ B3); reflexivity).
    assert (G4 : z_alloc s4 = al) by (rewrite (sb_alloc _ _ B4), (sb_alloc _ _ B3); reflexivity).
    assert (U4 : z_upl s4 = z_upl s) by (rewrite (sb_upl _ _ B4), (sb_upl _ _ B3); reflexivity).
    assert (In0 : In (p, e0) (A ++ (p, e0) :: B)) by (apply in_or_app; right; left; reflexivity).
    assert (Sub : forall c, In c (A ++ B) -> In c (A ++ (p, e0) :: B)).
    { intros c Hc. apply in_app_or in Hc as [Hc|Hc]; apply in_or_app; [auto|right; right; exact Hc]. }
    pose proof (others _ _ _ (co_sorted _ _ C)) as Oth. cbn [snd] in Oth.
    assert (FN : forall x, F x -> in_use (z_alloc s) x /\ ~ occupies (p, e0) x).
    { intros x Hx. split; [exact (iv_fu _ _ _ _ I _ Hx)|]. intro Hc. eapply (iv_tf _ _ _ _ I (p, e0)); [exact In0|cbn [snd]; rewrite Eu; exact To|exact Hc|exact Hx]. }
    assert (I5 : inv [(off, w_entry w)] Y (A ++ B) (set_upl u' s4)).
    { constructor; cbn [set_upl z_file z_upl z_alloc z_atpl z_etpl]; rewrite ?F4, ?G4.
      - apply bare_core; cbn [set_upl z_file z_upl z_alloc]; rewrite ?F4, ?G4; try assumption.
        + exact (ssorted_delete_gen _ _ _ _ (co_apart _ _ C)).
        + pose proof (co_sorted _ _ C) as Q1. rewrite map_mid in Q1. rewrite map_app. exact (ssorted_delete_gen _ _ _ _ Q1).
      - apply (sb_a _ _ B4), (sb_a _ _ B3). exact (iv_mut_a _ _ _ _ I).
      - apply (sb_e _ _ B4), (sb_e _ _ B3). exact (iv_mut_e _ _ _ _ I).
      - intros c [<-|[]]. exact St.
      - intros c x [<-|[]] Hc. exact (Us x Hc).
      - intros c d [<-|[]] Hd. rewrite Forall_forall in Ap. exact (Ap d Hd).
      - intros c d [<-|[]] Hd E. cbn [snd] in E. apply (Oth d Hd). rewrite Eu. apply Hfree; [apply Sub; exact Hd|exact E].
      - intros c [<-|[]]. exact Tn.
      - intros c Hc. destruct (iv_y _ _ _ _ I c Hc) as (d & Hd & Ed). exists d. split; [|exact Ed]. apply in_app_or in Hd as [Hd|[<-|Hd]]; [apply in_or_app; auto| |apply in_or_app; auto].
        exfalso. apply (HY c Hc). rewrite <- Eu. symmetry. apply same_url. apply Ed.
      - intros c Hc. apply (iv_rt _ _ _ _ I). apply Sub. exact Hc.
      - intros c x Hc. apply (iv_tf _ _ _ _ I). apply Sub. exact Hc.
      - intros c x [<-|[]] Hc Hx. exact (Hnew x Hc (FN x Hx)).
      - intros x Hx. apply Hu. left. apply FN. exact Hx.
      - eapply keeps_weaken; [eapply keeps_trans; [apply (iv_keep _ _ _ _ I)|exact K1|apply (iv_len _ _ _ _ I)]|]. intros x Hx. split; [exact Hx|apply FN; exact Hx].
      - pose proof (iv_len _ _ _ _ I). lia. }
    apply s_bind.
    { apply (safe_drop _ [(off, w_entry w)] Y); [|apply incl_refl]. eapply s_step; [apply update_ok; rewrite E1, U4, R1; reflexivity|]. apply s_uup; [apply Hg|]. exists (A ++ B). exact I5. }
    intros [] s6 W6 _. eapply attach_safe; [exact Hg|].
    rewrite (mbind_ok _ _ _ tt (set_upl u' s4)) in W6 by (apply update_ok; rewrite E1, U4, R1; reflexivity).
    eapply s_uup; [apply (Hg _ _ true)| |exact W6]. exists (A ++ B). exact I5.
  - unfold write_body. apply s_qbind; [exact O|]. intros article _. apply s_qbind; [exact O|]. intros n Hn. rewrite Hsz in Hn. injection Hn as <-.
    eapply s_step; [unfold query; rewrite Hold; reflexivity|]. cbv beta iota zeta. cbn [orb]. apply s_qbind; [exact O|]. intros to_update _.
    eapply s_step; [reflexivity|].
    destruct (allocate_total (z_alloc s) (span (w_entry w)) ltac:(lia)) as (off & al & Ha).
    destruct (alloc_write (bare s) cells (w_entry w) b off al C Hs Hk Hb Ha) as (C1 & St & Us & Ap & K1 & L1 & Hu & Hnew).
    set (s2 := set_file (fwrite (z_file s) off b) (set_alloc al s)).
    eapply s_step; [rewrite Ha; reflexivity|]. eapply s_step with (s1 := s2); [unfold write_at; apply update_ok; rewrite Hb; reflexivity|].
    cbn [bare z_file set_alloc z_alloc set_file] in *.
    do 3 (eapply s_step; [reflexivity|]). eapply (attach_safe Y rec (w_entry w) off to_update add article None); [exact Hg|]. exists cells.
    constructor; cbn [s2 set_file set_alloc z_file z_upl z_alloc z_atpl z_etpl].
    + exact C1.
    + apply (iv_mut_a _ _ _ _ I).
    + apply (iv_mut_e _ _ _ _ I).
    + intros c [<-|[]]. exact St.
    + intros c x [<-|[]] Hc. exact (Us x Hc).
    + intros c d [<-|[]] Hd. rewrite Forall_forall in Ap. exact (Ap d Hd).
    + intros c d [<-|[]] Hd E. cbn [snd] in E. pose proof (Hfree d Hd E) as E'. apply in_split in Hd as (l1 & l2 & ->).
      pose proof (url_index_found _ _ (zlen l1) d C (znth_mid l1 l2 d)) as Q. rewrite E' in Q. change (url_index s (w_old_url w) = Ok (zlen l1)) in Q. congruence.
    + intros c [<-|[]]. exact Tn.
    + apply (iv_y _ _ _ _ I).
    + apply (iv_rt _ _ _ _ I).
    + apply (iv_tf _ _ _ _ I).
    + intros c x [<-|[]] Hc Hx. exact (Hnew x Hc (iv_fu _ _ _ _ I _ Hx)).
    + intros x Hx. apply Hu. left. exact (iv_fu _ _ _ _ I _ Hx).
    + eapply keeps_weaken; [eapply keeps_trans; [apply (iv_keep _ _ _ _ I)|exact K1|apply (iv_len _ _ _ _ I)]|]. intros x Hx. split; [exact Hx|exact (iv_fu _ _ _ _ I _ Hx)].
    + pose proof (iv_len _ _ _ _ I). lia.
Qed.

Lemma mark_free_ok : forall Y c cells s a, inv [c] Y cells s -> mark_free (z_alloc s) (fst c) (span (snd c)) = Ok a -> inv [] Y cells (set_alloc a s).
Proof.
  intros Y [p e] cells s a I Hm. pose proof (iv_core _ _ _ _ I) as C. cbn [fst snd] in Hm.
  assert (Hc : In (p, e) [(p, e)]) by (left; reflexivity).
  pose proof (iv_xs _ _ _ _ I _ Hc) as (Hp & Hs & _). cbn [fst snd] in *. destruct (storable_span e Hs) as [_ Hpos].
  assert (Hend : p + span e <= file_end (z_alloc s)).
  { assert (Ho : occupies (p, e) (p + span e - 1)) by (unfold occupies; cbn [fst snd]; lia). apply (iv_xu _ _ _ _ I _ _ Hc) in Ho as [Ho _]. lia. }
  destruct (mark_free_spec _ _ _ _ (co_canonical _ _ C) Hend Hm) as (C1 & _ & _ & E1 & L1).
  cbn [bare z_alloc] in *.
  assert (H1 : forall x, in_use (z_alloc s) x -> ~ occupies (p, e) x -> in_use a x).
  { intros x [Hx Hn] Ho. split; [rewrite E1; exact Hx|]. rewrite L1. unfold occupies in Ho. cbn [fst snd] in Ho. tauto. }
  constructor; cbn [set_alloc z_file z_upl z_alloc z_atpl z_etpl]; try (intros c; cbn; tauto).
  - apply bare_core; cbn [set_alloc z_file z_upl z_alloc]; try apply C; try assumption.
    + pose proof (co_used _ _ C) as Fu. rewrite Forall_forall in *. intros d Hd x Ho. apply H1; [exact (Fu d Hd x Ho)|]. intro Q. exact (iv_xa _ _ _ _ I _ _ Hc Hd x (conj Q Ho)).
    + pose proof (co_end _ _ C) as En. cbn [bare z_alloc] in En. lia.
  - apply (iv_mut_a _ _ _ _ I).
  - apply (iv_mut_e _ _ _ _ I).
  - apply (iv_y _ _ _ _ I).
  - apply (iv_rt _ _ _ _ I).
  - apply (iv_tf _ _ _ _ I).
  - intros x Hx. apply H1; [exact (iv_fu _ _ _ _ I _ Hx)|]. intro Q. exact (iv_xf _ _ _ _ I _ _ Hc Q Hx).
  - apply (iv_keep _ _ _ _ I).
  - apply (iv_len _ _ _ _ I).
Qed.

Lemma removable_in : forall s i L us, removable_redirects s i L = Ok us -> forall u, In u us -> exists e, In e L /\ is_redirect e = true /\ full_url e = u.
Proof.
  intros s i. induction L as [|e L IH]; intros us H u Hu; cbn [removable_redirects] in H; [injection H as <-; destruct Hu|].
  match type of H with bind ?m _ = _ => destruct m as [k|] eqn:Ek end; cbn [bind] in H; [|discriminate H].
  destruct (removable_redirects s i L) as [rest|] eqn:Er; cbn [bind] in H; [|discriminate H]. injection H as <-.
  assert (Q : In u rest \/ (k = true /\ u = full_url e)) by (destruct k; [destruct Hu as [<-|Hu]; auto|auto]).
  destruct Q as [Q|[-> ->]].
  - destruct (IH rest eq_refl u Q) as (d & Hd & Ed). exists d. split; [right; exact Hd|exact Ed].
  - exists e. split; [left; reflexivity|]. split; [|reflexivity]. destruct (is_redirect e); [reflexivity|discriminate Ek].
Qed.
Lemma s_fold : forall Y (rc : ustr -> M zim unit) us m s, (forall u s, In u us -> ok [] Y s -> safe [] Y (rc u) s) -> safe [] Y m s ->
  safe [] Y (fold_left (fun m u => let* _ := m in rc u) us m) s.
Proof.
  intros Y rc us. induction us as [|u us IH]; intros m s Hr Hm; cbn [fold_left]; [exact Hm|]. apply IH; [intros v s1 Hv; apply Hr; right; exact Hv|].
  apply s_bind; [exact Hm|]. intros _ s1 _ O1. apply Hr; [left; reflexivity|exact O1].
Qed.

Lemma remove_safe : forall Y, (forall c, In c Y -> ~ T (full_url (snd c))) -> forall n u s, T u -> ok [] Y s -> safe [] Y (remove_entry keep_blob n u) s.
Proof.
  intros Y HY. induction n as [|n IH]; intros u s HT O; cbn [remove_entry]; [apply s_light; [apply l_raise|exact O]|].
  unfold remove_body. apply s_qbind; [exact O|]. intros i Hi. assert (Hi' : url_index s u = Ok i) by (destruct (url_index s u) as [|[]]; congruence).
  destruct O as [cells I]. assert (O : ok [] Y s) by (exists cells; exact I). pose proof (iv_core _ _ _ _ I) as C.
  destruct (index_cell _ _ _ _ C Hi') as (A & [p e0] & B & -> & -> & Eu). cbn [snd] in Eu.
  assert (Hz : znth (A ++ (p, e0) :: B) (zlen A) = Some (p, e0)) by apply znth_mid.
  eapply s_step; [unfold query; rewrite (by_index_ok (bare s) _ (zlen A) (p, e0) C Hz : get_by_index (pl_ptrs (z_upl s)) _ = _); reflexivity|].
  pose proof (core_nth _ _ _ _ C Hz) as St. cbn [fst snd] in *. pose proof (stored_read _ _ _ St) as Rd. change (get_entry_at s p = Ok e0) in Rd.
  eapply s_step; [unfold query; rewrite Rd; reflexivity|]. pose proof St as (Hp & Hs & _). destruct (storable_span e0 Hs) as [Hsz _].
  eapply s_step; [unfold query; rewrite Hsz; reflexivity|]. eapply s_step; [instantiate (1 := s); destruct (is_redirect e0); reflexivity|].
  apply s_qbind; [exact O|]. intros us Hus.
  assert (Hred : forall v, In v us -> T v).
  { change (iter_entries s None None) with (iter_entries (bare s) None None) in Hus. rewrite (iter_entries_ok _ _ C) in Hus. cbn [bind] in Hus. intros v Hv.
    destruct (removable_in _ _ _ _ Hus v Hv) as (e & He & Hr & <-). apply in_map_iff in He as (c & <- & Hc). exact (iv_rt _ _ _ _ I c Hc Hr). }
  apply s_qbind; [exact O|]. intros article _.
  apply (s_cbind _ _ _ _ (A ++ (p, e0) :: B)); [destruct article; [apply l_bind; [apply l_query|intro; apply l_drop_atitle]|apply l_ret]|exact I|]. intros _ s1 I1.
  apply (s_cbind _ _ _ _ (A ++ (p, e0) :: B)); [|exact I1|].
  { intros s0 r s' H. destruct (z_etpl s0) as [t|]; [|injection H as _ <-; apply sb_refl].
    revert H. apply (l_bind _ _ (query (fun _ => get_by_pointer (pl_ptrs t) (zlen A))) (fun k => drop_etitle (Some k))); [apply l_query|intro; apply l_drop_etitle]. }
  intros _ s2 I2. pose proof (iv_core _ _ _ _ I2) as C2.
  destruct (remove_mid (z_upl s2) A B p e0 (co_locs _ _ C2) (co_mut_u _ _ C2)) as (u' & R1 & R2 & R3).
  eapply s_step; [apply update_ok; rewrite R1; reflexivity|].
  assert (In0 : In (p, e0) (A ++ (p, e0) :: B)) by (apply in_or_app; right; left; reflexivity).
  assert (Sub : forall c, In c (A ++ B) -> In c (A ++ (p, e0) :: B)).
  { intros c Hc. apply in_app_or in Hc as [Hc|Hc]; apply in_or_app; [auto|right; right; exact Hc]. }
  assert (I3 : inv [(p, e0)] Y (A ++ B) (set_upl u' s2)).
  { constructor; cbn [set_upl z_file z_upl z_alloc z_atpl z_etpl].
    - pose proof (co_stored _ _ C2) as F1. pose proof (co_used _ _ C2) as F2. apply bare_core; cbn [set_upl z_file z_upl z_alloc]; try assumption.
      + rewrite Forall_forall in *. intros c Hc. apply F1. apply Sub. exact Hc.
      + rewrite Forall_forall in *. intros c Hc. apply F2. apply Sub. exact Hc.
      + exact (ssorted_delete_gen _ _ _ _ (co_apart _ _ C2)).
      + pose proof (co_sorted _ _ C2) as Q1. rewrite map_mid in Q1. rewrite map_app. exact (ssorted_delete_gen _ _ _ _ Q1).
      + apply (co_canonical _ _ C2).
      + apply (co_end _ _ C2).
    - apply (iv_mut_a _ _ _ _ I2).
    - apply (iv_mut_e _ _ _ _ I2).
    - intros c [<-|[]]. exact (core_nth _ _ _ _ C2 Hz).
    - intros c x [<-|[]] Hc. pose proof (co_used _ _ C2) as F2. rewrite Forall_forall in F2. exact (F2 _ In0 x Hc).
    - intros c d [<-|[]] Hd. apply (apart_mid _ _ _ (co_apart _ _ C2)). apply in_app_or. exact Hd.
    - intros c d [<-|[]] Hd. exact (others _ _ _ (co_sorted _ _ C2) d Hd).
    - intros c [<-|[]]. cbn [snd]. rewrite Eu. exact HT.
    - intros c Hc. destruct (iv_y _ _ _ _ I2 c Hc) as (d & Hd & Ed). exists d. split; [|exact Ed]. apply in_app_or in Hd as [Hd|[<-|Hd]]; [apply in_or_app; auto| |apply in_or_app; auto].
      exfalso. apply (HY c Hc). destruct Ed as (_ & Ed & _). apply same_url in Ed. cbn [snd] in Ed. rewrite <- Ed, Eu. exact HT.
    - intros c Hc. apply (iv_rt _ _ _ _ I2). apply Sub. exact Hc.
    - intros c x Hc. apply (iv_tf _ _ _ _ I2). apply Sub. exact Hc.
    - intros c x [<-|[]] Hc. apply (iv_tf _ _ _ _ I2 (p, e0) x In0); [cbn [snd]; rewrite Eu; exact HT|exact Hc].
    - apply (iv_fu _ _ _ _ I2).
    - apply (iv_keep _ _ _ _ I2).
    - apply (iv_len _ _ _ _ I2). }
  eapply s_step; [reflexivity|]. set (s4 := if opt_eqb (z_main (set_upl u' s2)) (Some (zlen A)) then _ else _).
  assert (I4 : inv [(p, e0)] Y (A ++ B) s4).
  { eapply inv_base; [exact I3|]. unfold s4. destruct (opt_eqb _ _); [constructor; auto|apply sb_refl]. }
  assert (U : forall r s5, update_url_pointers (write_entry n) (zlen A) (-1) article [] s4 = (r, s5) -> ok [(p, e0)] Y s5).
  { apply s_uup; [apply good_rec|]. exists (A ++ B). exact I4. }
  apply s_bind; [intros r s5 H; eapply ok_drop; [eapply U; exact H|apply incl_refl]|]. intros [] s5 W5 _. apply U in W5 as [cells5 I5].
  apply s_bind.
  - intros r s6 H. unfold update in H. destruct (mark_free (z_alloc s5) p (span e0)) as [a|] eqn:Em; cbn [bind] in H; injection H as _ <-.
    + exists cells5. eapply (mark_free_ok Y (p, e0)); [exact I5|exact Em].
    + eapply ok_drop; [exists cells5; exact I5|apply incl_refl].
  - intros _ s6 _ O6. apply s_fold; [|apply s_light; [apply l_ret|exact O6]]. intros v s7 Hv O7. apply IH; [apply Hred; exact Hv|exact O7].
Qed.
End Invariant.

(** ** What a call keeps *)
Lemma start_inv : forall (T : ustr -> Prop) s cells, core (bare s) cells -> pl_mutable (z_atpl s) = true -> (forall t, z_etpl s = Some t -> pl_mutable t = true) ->
  (forall c, In c cells -> is_redirect (snd c) = true -> T (full_url (snd c))) ->
  forall Y, incl Y cells -> inv T (fun x => in_use (z_alloc s) x /\ forall c, In c cells -> T (full_url (snd c)) -> ~ occupies c x) (z_file s) [] Y cells s.
Proof.
  intros T s cells C Ma Me HT Y HY. constructor; try assumption; try (intros c; cbn; tauto).
  - intros c Hc. exists c. split; [apply HY; exact Hc|]. split; [reflexivity|]. split; [apply same_refl|reflexivity].
  - intros c x Hc Ht Ho [_ Hf]. exact (Hf c Hc Ht Ho).
  - lia.
Qed.
Lemma cell_read : forall s cells p e, core (bare s) cells -> In (p, e) cells -> In p (pl_ptrs (z_upl s)) /\ get_entry_at s p = Ok e.
Proof.
  intros s cells p e C Hc. split; [rewrite (co_locs _ _ C : pl_ptrs (z_upl s) = _); exact (in_map fst _ _ Hc)|].
  pose proof (co_stored _ _ C) as Fs. rewrite Forall_forall in Fs. exact (stored_read (bare s) _ _ (Fs _ Hc)).
Qed.
Lemma inv_sound : forall T F f0 X Y cells s, inv T F f0 X Y cells s -> sound s.
Proof. intros T F f0 X Y cells s []. apply sound_core. exists cells. auto. Qed.

Lemma save_safe : forall n w s r s', sound s -> savable s w -> write_entry n w s = (r, s') ->
  sound s' /\ preserves (outside s (w_old_url w)) s s' /\ forall p e, at_place s p e -> full_url e <> w_old_url w -> survives s' p e.
Proof.
  intros n w s r s' H0 [Hs Hk Hu] H. apply sound_core in H0 as (cells & C & Ma & Me).
  set (T := fun u => u = w_old_url w \/ u = full_url (w_entry w) \/ exists c, In c cells /\ is_redirect (snd c) = true /\ full_url (snd c) = u).
  set (F := fun x => in_use (z_alloc s) x /\ forall c, In c cells -> T (full_url (snd c)) -> ~ occupies c x).
  set (Y := filter (fun c => negb (ueqb (full_url (snd c)) (w_old_url w))) cells).
  assert (I : inv T F (z_file s) [] Y cells s).
  { apply start_inv; try assumption; [intros c Hc Hr; right; right; eauto|]. intros c Hc. apply filter_In in Hc. apply Hc. }
  assert (R : ok T F (z_file s) [] Y s').
  { unfold write_entry in H. destruct n as [|n]; cbn [write_entry_rec] in H; [injection H as _ <-; exists cells; exact I|].
    refine (write_safe T F (z_file s) Y _ w true true s cells _ I _ Hs Hk _ _ _ r s' H).
    - intros X0 Y0 u. apply good_rec.
    - intros c Hc E. apply filter_In in Hc as [_ Hc]. apply ueqb_eq in E. rewrite E in Hc. discriminate Hc.
    - intros [p e] Hc E. destruct (cell_read _ _ _ _ C Hc) as [H1 H2]. eapply Hu; eassumption.
    - left. reflexivity.
    - right. left. reflexivity. }
  destruct R as [cells' I']. split; [eapply inv_sound; exact I'|]. split.
  - intros x Ho Hx. assert (HF : F x).
    { split; [exact Hx|]. intros [p e] Hc Ht. destruct (cell_read _ _ _ _ C Hc) as [H1 H2]. apply (Ho p e H1 H2). cbn [snd] in Ht.
      destruct Ht as [Ht|[Ht|([q d] & Hd & Hr & Ed)]]; [left; exact Ht|left; eapply Hu; eassumption|right].
      cbn [snd] in *. apply in_split in Hc as (A & B & ->). apply in_app_or in Hd as [Hd|[[= <- <-]|Hd]]; [exfalso|exact Hr|exfalso];
        (eapply (others _ _ _ (co_sorted _ _ C) (q, d)); [apply in_or_app; auto|exact Ed]). }
    split; [exact (iv_fu _ _ _ _ _ _ _ I' _ HF)|]. intros b Hb. rewrite <- Hb. destruct Hx as [Hx _]. apply (iv_keep _ _ _ _ _ _ _ I' x); [|exact HF].
    assert (N : nth_error (z_file s) (Z.to_nat x) <> None) by congruence. apply nth_error_Some in N. unfold zlen. lia.
  - intros p e [H1 H2] Hne. assert (Hc : In (p, e) Y).
    { apply filter_In. split; [eapply read_cell; eassumption|]. cbn [snd]. destruct (ueqb _ _) eqn:E; [apply ueqb_eq in E; contradiction|reflexivity]. }
    destruct (iv_y _ _ _ _ _ _ _ I' _ Hc) as ([q d] & Hd & E1 & E2 & _). cbn [fst snd] in *. subst q. exists d. split; [|exact E2].
    eapply cell_read; [exact (iv_core _ _ _ _ _ _ _ I')|exact Hd].
Qed.

Lemma delete_safe : forall n u s r s', sound s -> remove_entry keep_blob n u s = (r, s') ->
  sound s' /\ preserves (outside s u) s s' /\ forall p e, at_place s p e -> full_url e <> u -> is_redirect e = false -> survives s' p e.
Proof.
  intros n u s r s' H0 H. apply sound_core in H0 as (cells & C & Ma & Me).
  set (T := fun v => v = u \/ exists c, In c cells /\ is_redirect (snd c) = true /\ full_url (snd c) = v).
  set (F := fun x => in_use (z_alloc s) x /\ forall c, In c cells -> T (full_url (snd c)) -> ~ occupies c x).
  set (Y := filter (fun c => negb (ueqb (full_url (snd c)) u) && negb (is_redirect (snd c))) cells).
  assert (HR : forall p e, In (p, e) cells -> T (full_url e) -> full_url e = u \/ is_redirect e = true).
  { intros p e Hc [Ht|([q d] & Hd & Hr & Ed)]; [left; exact Ht|right].
    cbn [snd] in *. apply in_split in Hc as (A & B & ->). apply in_app_or in Hd as [Hd|[[= <- <-]|Hd]]; [exfalso|exact Hr|exfalso];
      (eapply (others _ _ _ (co_sorted _ _ C) (q, d)); [apply in_or_app; auto|exact Ed]). }
  assert (I : inv T F (z_file s) [] Y cells s).
  { apply start_inv; try assumption; [intros c Hc Hr; right; eauto|]. intros c Hc. apply filter_In in Hc. apply Hc. }
  assert (R : ok T F (z_file s) [] Y s').
  { refine (remove_safe T F (z_file s) Y _ n u s _ _ r s' H).
    - intros [p e] Hc Ht. apply filter_In in Hc as [Hc E]. cbn [snd] in *. destruct (HR p e Hc Ht) as [Q|Q]; [apply ueqb_eq in Q|]; rewrite Q in E; [discriminate E|rewrite andb_false_r in E; discriminate E].
    - left. reflexivity.
    - exists cells. exact I. }
  destruct R as [cells' I']. split; [eapply inv_sound; exact I'|]. split.
  - intros x Ho Hx. assert (HF : F x).
    { split; [exact Hx|]. intros [p e] Hc Ht. destruct (cell_read _ _ _ _ C Hc) as [H1 H2]. apply (Ho p e H1 H2). exact (HR p e Hc Ht). }
    split; [exact (iv_fu _ _ _ _ _ _ _ I' _ HF)|]. intros b Hb. rewrite <- Hb. destruct Hx as [Hx _]. apply (iv_keep _ _ _ _ _ _ _ I' x); [|exact HF].
    assert (N : nth_error (z_file s) (Z.to_nat x) <> None) by congruence. apply nth_error_Some in N. unfold zlen. lia.
  - intros p e [H1 H2] Hne Hr. assert (Hc : In (p, e) Y).
    { apply filter_In. split; [eapply read_cell; eassumption|]. cbn [snd]. rewrite Hr. destruct (ueqb _ _) eqn:E; [apply ueqb_eq in E; contradiction|reflexivity]. }
    destruct (iv_y _ _ _ _ _ _ _ I' _ Hc) as ([q d] & Hd & E1 & E2 & _). cbn [fst snd] in *. subst q. exists d. split; [|exact E2].
    eapply cell_read; [exact (iv_core _ _ _ _ _ _ _ I')|exact Hd].
Qed.

(** The bytes that belong to no entry. *)
Lemma call_spare : forall n c s r s', sound s -> permitted s c -> perform n c s = (r, s') ->
  sound s' /\ (forall x, in_use (z_alloc s) x -> no_entry s x -> no_entry s' x) /\ preserves (no_entry s) s s'.
Proof.
  intros n c s r s' H0 Hp H. apply sound_core in H0 as (cells & C & Ma & Me).
  set (T := fun _ : ustr => True). set (F := fun x => in_use (z_alloc s) x /\ forall c, In c cells -> T (full_url (snd c)) -> ~ occupies c x).
  assert (I : inv T F (z_file s) [] [] cells s) by (apply start_inv; try assumption; [intros d _ _; exact Logic.I|intros d []]).
  assert (R : ok T F (z_file s) [] [] s').
  { destruct c as [w|u]; cbn [permitted perform] in *.
    - unfold write_entry in H. destruct n as [|n]; cbn [write_entry_rec] in H; [injection H as _ <-; exists cells; exact I|]. destruct Hp as [Hs Hk Hu].
      refine (write_safe T F (z_file s) [] _ w true true s cells _ I _ Hs Hk _ Logic.I Logic.I r s' H); [intros X0 Y0 u; apply good_rec|intros d []|].
      intros [p e] Hd E. destruct (cell_read _ _ _ _ C Hd) as [H1 H2]. eapply Hu; eassumption.
    - refine (remove_safe T F (z_file s) [] _ n u s Logic.I _ r s' H); [intros d []|exists cells; exact I]. }
  destruct R as [cells' I'].
  assert (HF : forall x, in_use (z_alloc s) x -> no_entry s x -> F x).
  { intros x Hx Hn. split; [exact Hx|]. intros [p e] Hd _. destruct (cell_read _ _ _ _ C Hd) as [H1 H2]. exact (Hn p e H1 H2). }
  split; [eapply inv_sound; exact I'|]. split.
  - intros x Hx Hn p e H1 H2 Ho. assert (Hd : In (p, e) cells') by (eapply read_cell; [exact (iv_core _ _ _ _ _ _ _ I')|exact H1|exact H2]).
    exact (iv_tf _ _ _ _ _ _ _ I' _ _ Hd Logic.I Ho (HF x Hx Hn)).
  - intros x Hn Hx. pose proof (HF x Hx Hn) as Q. split; [exact (iv_fu _ _ _ _ _ _ _ I' _ Q)|]. intros b Hb. rewrite <- Hb. destruct Hx as [Hx _]. apply (iv_keep _ _ _ _ _ _ _ I' x); [|exact Q].
    assert (N : nth_error (z_file s) (Z.to_nat x) <> None) by congruence. apply nth_error_Some in N. unfold zlen. lia.
Qed.
Lemma calls_spare : forall n s cs s', calls n s cs s' -> sound s ->
  sound s' /\ (forall x, in_use (z_alloc s) x -> no_entry s x -> no_entry s' x) /\ preserves (no_entry s) s s'.
Proof.
  intros n s cs s' H. induction H as [s|s c r s1 cs s' Hp Hc _ IH]; intro H0.
  - split; [exact H0|]. split; [auto|]. intros x _ Hx. auto.
  - destruct (call_spare _ _ _ _ _ H0 Hp Hc) as (H1 & N1 & P1). destruct (IH H1) as (H2 & N2 & P2). split; [exact H2|]. split.
    + intros x Hx Hn. apply N2; [|apply N1; assumption]. apply P1; assumption.
    + intros x Hn Hx. destruct (P1 x Hn Hx) as [U1 B1]. destruct (P2 x (N1 x Hx Hn) U1) as [U2 B2]. split; [exact U2|]. auto.
Qed.
Lemma calls_content : forall n s cs s', calls n s cs s' -> sound s -> forall p e, at_place s p e -> is_redirect e = false -> ~ named cs (full_url e) ->
  at_place s' p e /\ forall x, occupies (p, e) x -> in_use (z_alloc s') x.
Proof.
  intros n s cs s' H. induction H as [s|s c r s1 cs s' Hp Hc _ IH]; intros H0 p e Ha Hr Hn.
  - split; [exact Ha|]. intros x Hx. destruct Ha as [H1 H2]. apply sound_core in H0 as (cells & C & _). pose proof (co_used _ _ C) as U. rewrite Forall_forall in U.
    apply (U (p, e)); [eapply read_cell; eassumption|exact Hx].
  - assert (Q : sound s1 /\ survives s1 p e).
    { destruct c as [w|u]; cbn [permitted perform] in *.
      - destruct (save_safe _ _ _ _ _ H0 Hp Hc) as (H1 & _ & Hv). split; [exact H1|]. apply Hv; [exact Ha|]. intro E. apply Hn. exists (Save w). split; [left; reflexivity|symmetry; exact E].
      - destruct (delete_safe _ _ _ _ _ H0 Hc) as (H1 & _ & Hv). split; [exact H1|]. apply Hv; [exact Ha| |exact Hr]. intro E. apply Hn. exists (Delete u). split; [left; reflexivity|symmetry; exact E]. }
    destruct Q as (H1 & e' & Ha' & E).
    assert (e' = e).
    { pose proof Ha as [G1 G2]. apply sound_core in H0 as (cells & C & _). destruct (cell_storable _ _ _ _ C (read_cell _ _ _ _ C G1 G2)) as [_ Hk].
      destruct E as (E1 & E2 & E3 & E4 & E5). destruct e as [m1 n1 u1 t1 k1], e' as [m2 n2 u2 t2 k2]. cbn in *. subst. destruct k1; [|unfold kind_consistent, is_redirect, MIMETYPE_ID_REDIRECT in *; cbn in *; lia].
      destruct k2; [|contradiction]. destruct E5 as [-> ->]. reflexivity. }
    subst e'. apply IH; [exact H1|exact Ha'|exact Hr|]. intros (c0 & Hc0 & E0). apply Hn. exists c0. split; [right; exact Hc0|exact E0].
Qed.
Lemma consistent_sound : forall s L, consistent s L -> sound s.
Proof.
  intros s L CS. destruct (cs_core _ _ CS) as (cells & _ & C). exists cells.
  exact (conj (co_locs _ _ C) (conj (co_stored _ _ C) (conj (co_used _ _ C) (conj (co_apart _ _ C)
      (conj (co_sorted _ _ C) (conj (co_canonical _ _ C) (conj (co_end _ _ C) (conj (co_mut_u _ _ C) (conj (co_mut_a _ _ C) (co_mut_e _ _ C)))))))))).
Qed.
