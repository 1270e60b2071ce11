(** Facts about consistent archives, in terms of what a user observes. *)
From Coq Require Import List ZArith Bool Lia Sorting.Sorted Sorting.Permutation.
From Coq Require Import ZifyBool ZifyNat.
From Verif Require Import Base BaseProofs Utf8 Utf8Proofs Entry EntrySpec EntryProofs PointerList PointerListSpec PointerListProofs
  SpaceAllocator SpaceAllocatorSpec SpaceAllocatorProofs Cluster Archive ArchiveSpec ArchiveProofs ArchiveWriteProofs ArchiveMoveProofs ArchiveRemoveProofs.
Import ListNotations.
Open Scope Z_scope.

(** ** Observing a consistent archive *)
Lemma index_iff : forall s L i e, consistent s L -> (get_entry_by_url_index s i = Ok e <-> znth L i = Some e).
Proof.
  intros s L i e [(cells & <- & C) _ _ _ _]. split; intro H.
  - destruct (znth (map snd cells) i) as [e'|] eqn:E.
    + rewrite (entry_by_index_L _ _ _ _ C E) in H. congruence.
    + exfalso. unfold get_entry_by_url_index in H. destruct (Z.ltb_spec i 0); [discriminate|].
      rewrite (co_locs _ _ C), get_by_index_znth, znth_map in H by lia.
      rewrite znth_map in E. destruct (znth cells i); discriminate.
  - exact (entry_by_index_L _ _ _ _ C H).
Qed.

Lemma lookup_iff : forall s L u e, consistent s L -> (get_entry_by_full_url s u = Ok e <-> In e L /\ full_url e = u).
Proof.
  intros s L u e [(cells & <- & C) _ _ _ _]. split; intro H.
  - destruct (in_dec (list_eq_dec Z.eq_dec) u (map (fun c : Z * entry => full_url (snd c)) cells)) as [Hin|Hout].
    + apply in_map_iff in Hin as (c & <- & Hc). destruct (in_znth _ _ Hc) as [i Hi]. rewrite (lookup_found _ _ _ _ C Hi) in H. injection H as <-.
      split; [|reflexivity]. apply in_map. exact Hc.
    + exfalso. destruct (utf8_encode u) as [b|] eqn:Eb.
      * rewrite (lookup_missing s cells u b C Eb) in H; [discriminate|]. intros c Hc Hu. apply Hout. apply in_map_iff. exists c. auto.
      * unfold get_entry_by_full_url, url_pointer, encode in H. rewrite Eb in H. discriminate.
  - destruct H as [Hin <-]. apply in_map_iff in Hin as (c & <- & Hc). destruct (in_znth _ _ Hc) as [i Hi]. eapply lookup_found; eauto.
Qed.

Lemma missing_iff : forall s L u b, consistent s L -> utf8_encode u = Some b -> (get_entry_by_full_url s u = Err EntryNotFound <-> absent L u).
Proof.
  intros s L u b H Hb. split; intro G.
  - intros e He Hu. assert (get_entry_by_full_url s u = Ok e) by (apply (lookup_iff _ _ _ _ H); auto). congruence.
  - destruct H as [(cells & <- & C) _ _ _ _]. apply (lookup_missing s cells u b C Hb). intros c Hc. apply G. apply in_map. exact Hc.
Qed.

Lemma lookup_unencodable : forall s u, utf8_encode u = None -> get_entry_by_full_url s u = Err UnicodeErr.
Proof. intros s u Hu. unfold get_entry_by_full_url, url_pointer, encode. rewrite Hu. reflexivity. Qed.

Lemma target_iff : forall s L e v, consistent s L ->
  (target_url s e = Some v <-> exists r t, e_kind e = Redirect r /\ znth L r = Some t /\ full_url t = v).
Proof.
  intros s L e v H. unfold target_url. split.
  - destruct (e_kind e) as [|r] eqn:Ek; [discriminate|]. destruct (get_entry_by_url_index s r) as [t|] eqn:Et; [|discriminate].
    intro E. injection E as <-. exists r, t. split; [reflexivity|]. split; [|reflexivity]. apply (index_iff _ _ _ _ H). exact Et.
  - intros (r & t & -> & Hr & <-). apply (index_iff _ _ _ _ H) in Hr. rewrite Hr. reflexivity.
Qed.

Lemma main_iff : forall s L e, consistent s L -> (get_mainpage_entry s = Ok e <-> exists m, z_main s = Some m /\ znth L m = Some e).
Proof.
  intros s L e H. unfold get_mainpage_entry. split.
  - destruct (z_main s) as [m|] eqn:Em; [|discriminate]. intro G. exists m. split; [reflexivity|].
    pose proof (cs_main _ _ H m Em) as Hm. destruct H as [(cells & <- & C) _ _ _ _].
    destruct (znth_ex cells m) as [c Hc]; [rewrite zlen_map in Hm; exact Hm|].
    rewrite (by_index_ok _ _ _ _ C Hc) in G. cbn [bind] in G. rewrite (stored_read _ _ _ (core_nth _ _ _ _ C Hc)) in G. injection G as <-.
    rewrite znth_map, Hc. reflexivity.
  - intros (m & -> & Hm). destruct H as [(cells & <- & C) _ _ _ _]. rewrite znth_map in Hm. destruct (znth cells m) as [c|] eqn:Hc; [|discriminate].
    injection Hm as <-. rewrite (by_index_ok _ _ _ _ C Hc). cbn [bind]. apply stored_read. eapply core_nth; eauto.
Qed.

Lemma entries_ok : forall s L, consistent s L -> iter_entries s None None = Ok L.
Proof. intros s L [(cells & <- & C) _ _ _ _]. apply iter_entries_ok. exact C. Qed.

Lemma forall2_znth_r : forall {A B} (R : A -> B -> Prop) l m, Forall2 R l m -> forall i b, znth m i = Some b -> exists a, znth l i = Some a /\ R a b.
Proof.
  intros A B R l m H i b Hb. unfold znth in *. destruct (i <? 0); [discriminate|]. revert Hb. generalize (Z.to_nat i) as n. clear i.
  induction H as [|x y l m Hxy H IH]; intros n Hb; [destruct n; discriminate|]. destruct n as [|n]; cbn in *; [injection Hb as <-; eauto|]. apply IH. exact Hb.
Qed.
Lemma forall2_impl : forall {A B} (R S : A -> B -> Prop) l m, (forall a b, R a b -> S a b) -> Forall2 R l m -> Forall2 S l m.
Proof. intros A B R S l m H F. induction F; constructor; auto. Qed.
Lemma forall2_len : forall {A B} (R : A -> B -> Prop) l m, Forall2 R l m -> zlen l = zlen m.
Proof. intros A B R l m H. unfold zlen. f_equal. induction H; cbn; congruence. Qed.

Lemma articles_ok : forall s L, consistent s L -> exists es, iter_articles s None None = Ok es /\
  Forall2 (fun i e => znth L i = Some e) (pl_ptrs (z_atpl s)) es /\ NoDup (pl_ptrs (z_atpl s)) /\ StronglySorted title_le es.
Proof.
  intros s L H. pose proof H as [(cells & <- & C) _ _ _ _]. destruct (co_atpl _ _ C) as (Nd & es & F & So). exists es. split; [|auto].
  unfold iter_articles. apply iter_all; [apply (forall2_len _ _ _ F)|].
  intros k x Hk. destruct (forall2_znth_r _ _ _ F _ _ Hk) as (p & Hp & Hx). pose proof (znth_some _ _ _ Hp) as Hb.
  rewrite get_by_index_znth, Hp by lia. cbn [bind].
  apply (index_iff _ _ _ _ H). exact Hx.
Qed.

(** urls in a list of indices without repetition do not repeat *)
Lemma forall2_in_r : forall {A B} (R : A -> B -> Prop) l m, Forall2 R l m -> forall b, In b m -> exists a, In a l /\ R a b.
Proof. intros A B R l m H. induction H as [|x y l m Hxy H IH]; intros b []; [subst; exists x; split; [left; reflexivity|exact Hxy]|]. destruct (IH b H0) as (a & Ha & Hr). exists a. split; [right; exact Ha|exact Hr]. Qed.
Lemma forall2_in_l : forall {A B} (R : A -> B -> Prop) l m, Forall2 R l m -> forall a, In a l -> exists b, In b m /\ R a b.
Proof. intros A B R l m H. induction H as [|x y l m Hxy H IH]; intros a []; [subst; exists y; split; [left; reflexivity|exact Hxy]|]. destruct (IH a H0) as (b & Hb & Hr). exists b. split; [right; exact Hb|exact Hr]. Qed.

Lemma urls_nodup : forall L t es, StronglySorted url_lt L -> NoDup t -> Forall2 (fun i e => znth L i = Some e) t es -> NoDup (map full_url es).
Proof.
  intros L t es So Nd F. induction F as [|i e t es H F IH]; [constructor|]. inversion Nd as [|? ? Hni Nd']; subst. cbn [map]. constructor; [|auto].
  intro Hin. apply in_map_iff in Hin as (e' & Hu & He'). destruct (forall2_in_r _ _ _ F _ He') as (j & Hj & Hz).
  assert (j = i) by (eapply url_unique; eauto). subst. contradiction.
Qed.

Lemma consistent_sorted : forall s L, consistent s L -> StronglySorted url_lt L.
Proof. intros s L [(cells & <- & C) _ _ _ _]. apply (co_sorted _ _ C). Qed.
Lemma consistent_storable : forall s L e, consistent s L -> In e L -> entry_storable e.
Proof. intros s L e [(cells & <- & C) _ _ _ _] H. eapply core_storable_L; eauto. Qed.
Lemma consistent_kind : forall s L e, consistent s L -> In e L -> kind_consistent e.
Proof.
  intros s L e [(cells & <- & C) _ _ _ _] H. apply in_map_iff in H as (c & <- & Hc). pose proof (co_stored _ _ C) as F. rewrite Forall_forall in F.
  destruct (F c Hc) as (_ & _ & K & _). exact K.
Qed.

Lemma entry_titles_ok : forall s L t, consistent s L -> z_etpl s = Some t -> exists es, entry_titles s es /\ Permutation es L /\ StronglySorted nstitle_le es.
Proof.
  intros s L t H Ht. pose proof H as [(cells & <- & C) Hc _ _ _]. destruct (co_etpl _ _ C t Ht) as (Nd & es & F & So). exists es.
  assert (F' : Forall2 (fun i e => get_entry_by_url_index s i = Ok e) (pl_ptrs t) es).
  { revert F. apply forall2_impl. intros i e Hi. apply (index_iff _ _ _ _ H). exact Hi. }
  split; [exists t; auto|]. split; [|exact So].
  pose proof (co_sorted _ _ C) as Us.
  assert (HN : NoDup es).
  { apply (NoDup_map_inv full_url). eapply urls_nodup; eauto. }
  assert (HL : NoDup (map snd cells)).
  { clear - Us. induction Us as [|e L So IH H]; constructor; [|exact IH]. intro Hin. rewrite Forall_forall in H. exact (url_lt_irrefl e (H e Hin)). }
  apply NoDup_Permutation; [exact HN|exact HL|]. intro e. split; intro He.
  - destruct (forall2_in_r _ _ _ F _ He) as (i & _ & Hi). eapply znth_in; eauto.
  - destruct (in_znth _ _ He) as [i Hi]. assert (Hin : In i (pl_ptrs t)) by (apply (Hc t Ht); eapply znth_some; eauto).
    destruct (forall2_in_l _ _ _ F _ Hin) as (e' & He' & Hz). congruence.
Qed.

(** ** Renumbering *)
(** [L'] contains the entries of [L] with an index in [keep], moved by [f],
    with their redirects renumbered accordingly. *)
Definition renumbers (f : Z -> Z) (keep : Z -> Prop) (L L' : list entry) : Prop :=
  forall i e, znth L i = Some e -> keep i ->
    exists e', znth L' (f i) = Some e' /\ same_entry e e' /\ (forall r, e_kind e = Redirect r -> keep r -> e_kind e' = Redirect (f r)).

Lemma same_url : forall a b, same_entry a b -> full_url b = full_url a.
Proof. intros a b (_ & H1 & H2 & _). unfold full_url. congruence. Qed.
Lemma same_refl : forall a, same_entry a a.
Proof. intro a. unfold same_entry. repeat (split; [reflexivity|]). destruct (e_kind a); auto. Qed.
Lemma same_trans : forall a b c, same_entry a b -> same_entry b c -> same_entry a c.
Proof.
  unfold same_entry. intros a b c (H1 & H2 & H3 & H4 & H5) (G1 & G2 & G3 & G4 & G5). repeat (split; [congruence|]).
  destruct (e_kind a), (e_kind b), (e_kind c); try contradiction; try exact I. destruct H5, G5. split; congruence.
Qed.
Lemma same_wri : forall e r v, e_kind e = Redirect r -> same_entry e (with_redirect_index e v).
Proof. intros e r v H. unfold same_entry, with_redirect_index. cbn. repeat (split; [reflexivity|]). rewrite H. exact I. Qed.
Lemma same_shift : forall p d skip e, same_entry e (shift_entry p d skip e).
Proof.
  intros p d skip e. unfold shift_entry. destruct (touched p skip e); [|apply same_refl]. destruct (e_kind e) eqn:Ek; [apply same_refl|]. eapply same_wri; eauto.
Qed.
Lemma same_bumped : forall p e, same_entry e (bumped p e).
Proof. intros p e. unfold bumped. destruct (e_kind e) as [|r] eqn:Ek; [apply same_refl|]. destruct (p <=? r); [eapply same_wri; eauto|apply same_refl]. Qed.
Lemma same_content : forall a b, same_entry a b -> (forall r, e_kind a <> Redirect r) -> b = a.
Proof.
  intros [m n u t k] [m' n' u' t' k'] (H1 & H2 & H3 & H4 & H5) H. cbn in *. subst. destruct k as [c b|r]; [|exfalso; eapply H; reflexivity].
  destruct k'; [|contradiction]. destruct H5. subst. reflexivity.
Qed.

Section Renumber.
Variables (s s' : zim) (L L' : list entry) (f : Z -> Z) (keep : Z -> Prop).
Hypothesis C : consistent s L.
Hypothesis C' : consistent s' L'.
Hypothesis R : renumbers f keep L L'.

Lemma renumber_lookup : forall u e i, get_entry_by_full_url s u = Ok e -> znth L i = Some e -> keep i ->
  exists e', get_entry_by_full_url s' u = Ok e' /\ same_entry e e' /\
    forall r, e_kind e = Redirect r -> keep r -> target_url s' e' = target_url s e.
Proof.
  intros u e i H Hi Hk. apply (lookup_iff _ _ _ _ C) in H as [_ Hu]. destruct (R i e Hi Hk) as (e' & Hz & Hs & Hr). exists e'. split; [|split; [exact Hs|]].
  - apply (lookup_iff _ _ _ _ C'). split; [eapply znth_in; eauto|]. rewrite (same_url _ _ Hs). exact Hu.
  - intros r Hrk Hkr. pose proof (cs_targets _ _ C e r (znth_in _ _ _ Hi) Hrk) as Hb. destruct (znth_ex L r Hb) as [t Ht].
    destruct (R r t Ht Hkr) as (t' & Ht' & Hst & _).
    rewrite (proj2 (target_iff s L e (full_url t) C)) by (exists r, t; auto).
    apply (target_iff _ _ _ _ C'). exists (f r), t'. split; [exact (Hr r Hrk Hkr)|]. split; [exact Ht'|]. apply same_url. exact Hst.
Qed.

Lemma renumber_main : forall m, z_main s = Some m -> keep m -> z_main s' = Some (f m) -> main_url s' = main_url s.
Proof.
  intros m Hm Hk Hm'. destruct (znth_ex L m (cs_main _ _ C m Hm)) as [e He]. destruct (R m e He Hk) as (e' & He' & Hs & _).
  unfold main_url. rewrite (proj2 (main_iff s L e C)) by eauto. rewrite (proj2 (main_iff s' L' e' C')) by eauto. rewrite (same_url _ _ Hs). reflexivity.
Qed.
End Renumber.

Lemma article_urls_in : forall s L us, consistent s L -> article_urls s = Some us ->
  forall u, In u us <-> exists i e, In i (pl_ptrs (z_atpl s)) /\ znth L i = Some e /\ full_url e = u.
Proof.
  intros s L us C H u. destruct (articles_ok s L C) as (es & E & F & _ & _). unfold article_urls in H. rewrite E in H. injection H as <-. split.
  - intro Hin. apply in_map_iff in Hin as (e & <- & He). destruct (forall2_in_r _ _ _ F _ He) as (i & Hi & Hz). eauto.
  - intros (i & e & Hi & Hz & <-). destruct (forall2_in_l _ _ _ F _ Hi) as (e' & He' & Hz'). rewrite Hz in Hz'. injection Hz' as <-. apply in_map. exact He'.
Qed.
Lemma article_urls_ok : forall s L, consistent s L -> exists us, article_urls s = Some us /\ NoDup us.
Proof.
  intros s L C. destruct (articles_ok s L C) as (es & E & F & Nd & _). unfold article_urls. rewrite E. exists (map full_url es). split; [reflexivity|].
  eapply urls_nodup; [eapply consistent_sorted; eauto|exact Nd|exact F].
Qed.
