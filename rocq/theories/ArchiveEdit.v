(** Edits of content entries, stated with what a user sees of the archive. *)
From Coq Require Import List ZArith Bool Lia Sorting.Sorted Sorting.Permutation.
From Coq Require Import ZifyBool ZifyNat.
From Verif Require Import Base BaseProofs Utf8 Utf8Proofs Entry EntrySpec EntryProofs PointerList PointerListSpec PointerListProofs
  SpaceAllocator SpaceAllocatorSpec SpaceAllocatorProofs Cluster Archive ArchiveSpec ArchiveProofs ArchiveRemoveProofs ArchiveFacts ArchiveObserve ArchiveLaws.
Import ListNotations.
Open Scope Z_scope.

(** Entry objects [w] that may replace the entry at [u]: content, representable,
    the new url is free; the entry at [u] is not the target of a redirect, and
    not the main page if it is renamed.  (An entry can be moved into namespace C
    only if its article status was assigned.) *)
Record editable (s : zim) (u : ustr) (w : went) : Prop := mkEditable {
  ed_old : w_old_url w = u;
  ed_storable : entry_storable (w_entry w);
  ed_kind : kind_consistent (w_entry w);
  ed_content : exists c b, e_kind (w_entry w) = Content c b;
  ed_found : exists e0, get_entry_by_full_url s u = Ok e0;
  ed_free : full_url (w_entry w) = u \/ get_entry_by_full_url s (full_url (w_entry w)) = Err EntryNotFound;
  ed_unlinked : forall x, ~ points s x u;
  ed_main : full_url (w_entry w) = u \/ main_url s <> Some u;
  ed_article : w_force w = Some true -> e_ns (w_entry w) = NS_C;
  ed_ns : w_force w = None -> e_ns (w_entry w) = NS_C -> in_C u = true }.

(** The entry object counts as an article: assigned, or kept. *)
Definition stays_article (s : zim) (u : ustr) (w : went) : Prop :=
  match w_force w with
  | Some b => b = true
  | None => e_ns (w_entry w) = NS_C /\ exists us, article_urls s = Some us /\ In u us
  end.

(** The archive after the entry at [u] was replaced by [w]. *)
Record edited (s : zim) (u : ustr) (w : went) (s' : zim) : Prop := mkEdited {
  ei_consistent : exists L', consistent s' L';
  ei_new : get_entry_by_full_url s' (full_url (w_entry w)) = Ok (w_entry w);
  ei_old : u <> full_url (w_entry w) -> get_entry_by_full_url s' u = Err EntryNotFound;
  ei_others : forall v d, v <> u -> get_entry_by_full_url s v = Ok d ->
    exists d', get_entry_by_full_url s' v = Ok d' /\ same_entry d d' /\ target_url s' d' = target_url s d;
  ei_missing : forall v, v <> full_url (w_entry w) -> get_entry_by_full_url s v = Err EntryNotFound -> get_entry_by_full_url s' v = Err EntryNotFound;
  ei_articles : forall us, article_urls s = Some us -> exists us', article_urls s' = Some us' /\ NoDup us' /\
    forall x, In x us' <-> (x = full_url (w_entry w) /\ stays_article s u w) \/ (x <> u /\ In x us) }.

Lemma full_url_in_C : forall e, entry_storable e -> in_C (full_url e) = true -> e_ns e = NS_C.
Proof.
  intros e S H. destruct (ns_char e S) as [c E]. unfold full_url in H. rewrite E in *. cbn in H. apply Z.eqb_eq in H. subst c. reflexivity.
Qed.
Lemma ns_C_full_url : forall e, e_ns e = NS_C -> in_C (full_url e) = true.
Proof. intros e H. unfold full_url. rewrite H. reflexivity. Qed.

(** The bookkeeping shared by the laws below. *)
Lemma edit_setup : forall s L u w, consistent s L -> editable s u w ->
  exists i e0 a, znth L i = Some e0 /\ full_url e0 = u /\ rewritable s L i e0 w /\ movable s L i e0 (w_entry w) /\
    is_article s w = Ok a /\ (a = true <-> stays_article s u w).
Proof.
  intros s L u w C []. destruct ed_found0 as (e0 & G). pose proof G as G0. apply (lookup_iff _ _ _ _ C) in G as [Hin Hu]. apply in_znth in Hin as [i Hi].
  pose proof (consistent_sorted _ _ C) as So. pose proof C as [(cells & EC & Co) _ _ _ _].
  assert (Hst : entry_storable e0) by (eapply consistent_storable; [exact C|eapply znth_in; eauto]).
  destruct ed_content0 as (c & b & Ek).
  assert (exists a, is_article s w = Ok a /\ (a = true <-> stays_article s u w)) as (a & Ha & HaS).
  { unfold is_article, stays_article. destruct (w_force w) as [f|] eqn:Ef; [exists f; split; reflexivity|].
    destruct (ueqb (e_ns (w_entry w)) NS_C) eqn:En; cbn [negb].
    2: { exists false. split; [reflexivity|]. split; [discriminate|]. intros [H _]. apply ueqb_neq in En. contradiction. }
    apply ueqb_eq in En. rewrite <- EC in Hi. rewrite znth_map in Hi. destruct (znth cells i) as [cc|] eqn:Hc; [|discriminate]. cbn in Hi. injection Hi as Hi.
    assert (Hns : e_ns (snd cc) = NS_C). { rewrite Hi. apply full_url_in_C; [exact Hst|]. rewrite Hu. apply (ed_ns0 eq_refl En). }
    destruct (entry_at_url_article s cells i cc Co Hc Hns) as (a & Ha & Hai). rewrite ed_old0, <- Hu, <- Hi. exists a. split; [exact Ha|].
    rewrite Hai. destruct (article_urls_ok s L C) as (us & Hus & _). split.
    - intro Hin. split; [exact En|]. exists us. split; [exact Hus|]. apply (article_urls_in s L us C Hus). exists i, (snd cc). split; [exact Hin|]. split; [rewrite <- EC, znth_map, Hc; reflexivity|reflexivity].
    - intros [_ (us1 & H1 & H2)]. apply (article_urls_in s L us1 C H1) in H2 as (k & e & Hk & He & Hue).
      assert (k = i). { eapply url_unique; [exact So|exact He| |rewrite Hue; reflexivity]. rewrite <- EC, znth_map, Hc. reflexivity. } subst k. exact Hk. }
  exists i, e0, a. split; [exact Hi|]. split; [exact Hu|]. split; [|split; [|auto]].
  - constructor; auto.
    + congruence.
    + destruct ed_free0 as [H|H]; [left; congruence|right]. intros e He Hue. assert (get_entry_by_full_url s (full_url (w_entry w)) = Ok e) by (apply (lookup_iff _ _ _ _ C); auto). congruence.
    + intros r Hr. congruence.
    + exists a. split; [exact Ha|]. intro Ht. unfold stays_article in HaS. destruct (w_force w) as [f|] eqn:Ef.
      * apply ed_article0. f_equal. apply HaS. exact Ht.
      * apply HaS. exact Ht.
  - assert (NP : forall d, In d L -> e_kind d <> Redirect i).
    { intros d Hd Hk. apply (ed_unlinked0 (full_url d)). exists d. split; [apply (lookup_iff _ _ _ _ C); auto|]. apply (target_iff _ _ _ _ C). exists i, e0. auto. }
    constructor.
    + apply NP. eapply znth_in; eauto.
    + intros r Hr. congruence.
    + intros d Hd _ Hk. exfalso. exact (NP d Hd Hk).
    + intro Hm. destruct ed_main0 as [H|H]; [congruence|]. exfalso. apply H. unfold main_url. rewrite (proj2 (main_iff s L e0 C)); [congruence|]. eauto.
Qed.

Lemma move_ptr_onto : forall n i j k, 0 <= i < n -> 0 <= j < n -> 0 <= k < n -> k <> j -> exists k0, 0 <= k0 < n /\ k0 <> i /\ move_ptr i j k0 = k.
Proof.
  intros n i j k Hi Hj Hk Hne. set (k1 := if j <? k then k - 1 else k). exists (if i <=? k1 then k1 + 1 else k1). unfold move_ptr, shift_ptr, k1 in *.
  destruct (Z.ltb_spec j k), (Z.leb_spec i (if j <? k then k - 1 else k)); repeat match goal with |- context [?a <? ?b] => destruct (Z.ltb_spec a b) end; try lia.
  all: destruct (Z.leb_spec i (k - 1)), (Z.leb_spec i k); try lia.
  all: repeat match goal with |- context [?a =? ?b] => destruct (Z.eqb_spec a b) | |- context [?a <=? ?b] => destruct (Z.leb_spec a b) end; lia.
Qed.

Theorem edit_law : forall s L u w n s', consistent s L -> editable s u w -> write_entry (S (S n)) w s = (Ok tt, s') -> edited s u w s'.
Proof.
  intros s L u w n s' C ED W. destruct (edit_setup s L u w C ED) as (i & e0 & a & Hz & Hu & RW & MV & Ha & HaS).
  pose proof (consistent_sorted _ _ C) as So. destruct (ed_content _ _ _ ED) as (cl & bl & Ek).
  assert (NR : forall r, e_kind (w_entry w) <> Redirect r) by (intros r Hr; congruence).
  destruct (Z.eq_dec (span (w_entry w)) (span e0)) as [Hsp|Hsp]; [destruct (list_eq_dec Z.eq_dec (full_url (w_entry w)) (full_url e0)) as [Huu|Huu]|].
  1: { destruct (rewrite_ok s L i e0 w (S n) C RW (conj Huu Hsp)) as (a' & s1 & Ha' & W1 & D). rewrite W in W1. injection W1 as <-. rewrite Ha in Ha'. injection Ha' as <-.
    destruct (edit_in_place s L i e0 w (S n) C RW (conj Huu Hsp)) as (s1 & W1 & CC & G & _ & O & MS & _). rewrite W in W1. injection W1 as <-.
    destruct D as (LA & e1 & LB & EL & Hi & C' & _ & _ & _ & Hat & _). pose proof Hz as Hz'. rewrite EL, <- Hi, znth_mid in Hz'. injection Hz' as ->.
    constructor; auto.
    - rewrite Huu. exact G.
    - intro H. exfalso. apply H. congruence.
    - intros v d Hv Hd. destruct (O v d) as (O1 & O2); [congruence|exact Hd|]. exists d. split; [exact O1|]. split; [apply same_refl|exact O2].
    - intros us Hus. destruct (article_urls_ok s' _ C') as (us' & Hus' & Nd'). exists us'. split; [exact Hus'|]. split; [exact Nd'|].
      intro x. rewrite (article_urls_in s' _ us' C' Hus'), (article_urls_in s L us C Hus). split.
      + intros (k & e & Hk & He & <-). apply Hat in Hk as [[-> Ht]|[Hne Hk]].
        * left. rewrite <- Hi, znth_mid in He. injection He as <-. split; [reflexivity|]. apply HaS. exact Ht.
        * right. rewrite <- Hi in Hne. assert (Hk' : znth L k = Some e) by (rewrite EL; rewrite <- He; apply znth_mid_other; exact Hne).
          split; [|exists k, e; auto]. intro Hx. apply Hne. rewrite Hi. eapply url_unique; [exact So|exact Hk'|exact Hz|congruence].
      + intros [[-> Hst]|[Hne (k & e & Hk & He & <-)]].
        * exists i, (w_entry w). split; [apply Hat; left; split; [reflexivity|apply HaS; exact Hst]|]. split; [rewrite <- Hi; apply znth_mid|reflexivity].
        * exists k, e. assert (k <> i) by (intros ->; rewrite Hz in He; injection He as <-; congruence). split; [apply Hat; right; auto|]. split; [|reflexivity].
          rewrite EL in He. eapply rewritten_nth; [exact He|congruence]. }
  all: assert (NS : ~ stays e0 (w_entry w)) by (intros [H1 H2]; contradiction).
  all: destruct (edit_moved s L i e0 w n s' C RW NS MV W) as ((L1 & C1) & (e' & G & Hs & _) & O).
  all: destruct (move_ok s L i e0 w n C RW NS MV) as (LA & LB & (MA & MB & EM & Hi & EML) & _ & _ & a' & Ha' & [(s1 & W1 & D)|(s1 & p & Hp & Hl & W1)]); rewrite W in W1; [|discriminate W1];
    injection W1 as <-; rewrite Ha in Ha'; injection Ha' as <-.
  all: destruct D as (L' & p0 & e00 & off & Hz2 & _ & _ & C' & Ln & Hoth & Hmid & Hat & _); rewrite Hz in Hz2; injection Hz2 as <-.
  all: set (j := zlen LA) in *; assert (Hjb : 0 <= j < zlen L).
  1, 3: assert (zlen L = zlen (LA ++ LB) + 1) by (rewrite EM, <- EML, !zlen_app, zlen_cons; lia); unfold j; rewrite zlen_app in *; pose proof (zlen_nonneg LA); pose proof (zlen_nonneg LB); lia.
  all: assert (Hib : 0 <= i < zlen L) by (eapply znth_some; exact Hz).
  all: assert (ONTO : forall e1, In e1 L' -> full_url e1 = full_url (w_entry w) \/ exists k e, k <> i /\ znth L k = Some e /\ full_url e = full_url e1).
  1, 3: intros e1 H1; apply in_znth in H1 as [k Hk]; destruct (Z.eq_dec k j) as [->|Hkj];
    [left; destruct Hmid as (e2 & H2 & Hs2 & _); rewrite Hk in H2; injection H2 as <-; apply same_url; exact Hs2
    |right; pose proof (znth_some _ _ _ Hk) as Hb; rewrite Ln in Hb; destruct (move_ptr_onto (zlen L) i j k Hib Hjb Hb Hkj) as (k0 & B0 & N0 & E0);
     destruct (znth_ex L k0 B0) as [e He]; destruct (Hoth k0 e He N0) as (e2 & H2 & Hs2 & _); rewrite E0, Hk in H2; injection H2 as <-;
     exists k0, e; split; [exact N0|]; split; [exact He|]; symmetry; apply same_url; exact Hs2].
  all: assert (ABS : forall v, v <> full_url (w_entry w) -> (forall k e, k <> i -> znth L k = Some e -> full_url e <> v) -> forall b, utf8_encode v = Some b -> get_entry_by_full_url s' v = Err EntryNotFound).
  1, 3: intros v Hv Hk b Hb; apply (missing_iff _ _ _ _ C' Hb); intros e1 H1 Hue; destruct (ONTO e1 H1) as [E|(k & e & Hne & He & E)]; [congruence|]; exact (Hk k e Hne He ltac:(congruence)).
  all: rewrite (same_content _ _ Hs NR) in G.
  all: constructor; [eauto|exact G| | | | ].
  all: try (intros v d Hv Hd; destruct (O v d) as (d' & O1 & O2 & O3); [congruence|exact Hd|]; exists d'; split; [exact O1|]; split; [exact O2|]; rewrite O3;
    destruct (target_url s d) as [t|] eqn:Et; [|reflexivity]; cbn [option_map]; f_equal; unfold renamed; destruct (ueqb t (full_url e0)) eqn:Eq; [|reflexivity];
    apply ueqb_eq in Eq; exfalso; apply (ed_unlinked _ _ _ ED v); exists d; split; [exact Hd|congruence]).
  all: try (intro Hne; assert (Hst : entry_storable e0) by (eapply consistent_storable; [exact C|eapply znth_in; eauto]); pose proof (enc_full_url e0 Hst) as He; rewrite Hu in He;
    apply (ABS u Hne) with (2 := He); intros k e Hk Hke Hx; apply Hk; eapply url_unique; [exact So|exact Hke|exact Hz|congruence]).
  all: try (intros v Hv H; destruct (utf8_encode v) as [b|] eqn:Eb; [|rewrite (lookup_unencodable s v Eb) in H; discriminate];
    apply (ABS v Hv) with (2 := Eb); intros k e _ Hke; apply (missing_iff _ _ _ _ C Eb) in H; apply H; eapply znth_in; eauto).
  all: intros us Hus; destruct (article_urls_ok s' _ C') as (us' & Hus' & Nd'); exists us'; split; [exact Hus'|]; split; [exact Nd'|];
    intro x; rewrite (article_urls_in s' _ us' C' Hus'), (article_urls_in s L us C Hus); split.
  all: try (intros (k & e & Hk & He & <-); apply Hat in Hk as [[-> Ht]|(k0 & Hk0 & Hne & ->)];
    [left; destruct Hmid as (e2 & H2 & Hs2 & _); rewrite H2 in He; injection He as <-; split; [apply same_url; exact Hs2|apply HaS; exact Ht]
    |right; pose proof C as [(cells & EC & Co) _ _ _ _]; destruct (lists_in _ _ _ _ (co_atpl _ _ Co) Hk0) as [e1 He1]; rewrite EC in He1;
     destruct (Hoth k0 e1 He1 Hne) as (e2 & H2 & Hs2 & _); rewrite H2 in He; injection He as <-; rewrite (same_url _ _ Hs2); split;
     [intro Hx; apply Hne; eapply url_unique; [exact So|exact He1|exact Hz|congruence]|exists k0, e1; auto]]).
  all: intros [[-> Hst]|[Hne (k & e & Hk & He & <-)]];
    [destruct Hmid as (e2 & H2 & Hs2 & _); exists j, e2; split; [apply Hat; left; split; [reflexivity|apply HaS; exact Hst]|]; split; [exact H2|apply same_url; exact Hs2]
    |assert (Hki : k <> i) by (intros ->; rewrite Hz in He; injection He as <-; congruence); destruct (Hoth k e He Hki) as (e2 & H2 & Hs2 & _);
     exists (move_ptr i j k), e2; split; [apply Hat; right; exists k; auto|]; split; [exact H2|apply same_url; exact Hs2]].
Qed.

(** Such an edit only fails by the assertion of line 981. *)
Theorem edit_succeeds : forall s L u w n, consistent s L -> editable s u w -> roomy s L -> exists s', write_entry (S (S n)) w s = (Ok tt, s').
Proof.
  intros s L u w n C ED R. destruct (edit_setup s L u w C ED) as (i & e0 & a & Hz & Hu & RW & MV & _).
  destruct (edit_outcome s L i e0 w n C RW MV) as [H|[H _]]; [exact H|contradiction].
Qed.

(** ** Removal *)
(** Nothing redirects to the entry at [u], and it is an article or no article follows it. *)
Record deletable (s : zim) (u : ustr) : Prop := mkDeletable {
  de_found : exists e0, get_entry_by_full_url s u = Ok e0;
  de_unlinked : forall x, x <> u -> ~ points s x u;
  de_article : forall us, article_urls s = Some us -> In u us \/ forall x, In x us -> ultb x u = true }.

Lemma delete_setup : forall s L u, consistent s L -> deletable s u -> exists i e0, znth L i = Some e0 /\ full_url e0 = u /\ removable s L i e0.
Proof.
  intros s L u C []. destruct de_found0 as (e0 & G). apply (lookup_iff _ _ _ _ C) in G as [Hin Hu]. apply in_znth in Hin as [i Hi].
  pose proof (consistent_sorted _ _ C) as So. exists i, e0. split; [exact Hi|]. split; [exact Hu|]. constructor; [exact Hi| |].
  - intros d Hd Hne Hk. apply (de_unlinked0 (full_url d)).
    + intro E. apply Hne. apply in_znth in Hd as [k Hk']. assert (k = i) by (eapply url_unique; [exact So|exact Hk'|exact Hi|congruence]). subst k. congruence.
    + exists d. split; [apply (lookup_iff _ _ _ _ C); auto|]. apply (target_iff _ _ _ _ C). exists i, e0. auto.
  - destruct (article_urls_ok s L C) as (us & Hus & _). destruct (de_article0 us Hus) as [H|H].
    + left. apply (article_urls_in s L us C Hus) in H as (k & e & Hk & He & E). assert (k = i) by (eapply url_unique; [exact So|exact He|exact Hi|congruence]). subst k. exact Hk.
    + right. intros j Hj. pose proof C as [(cells & EC & Co) _ _ _ _]. destruct (lists_in _ _ _ _ (co_atpl _ _ Co) Hj) as [e He]. rewrite EC in He.
      assert (Hl : ultb (full_url e) u = true). { apply H. apply (article_urls_in s L us C Hus). eauto. }
      destruct (Z.lt_trichotomy j i) as [Hlt|[->|Hgt]]; [exact Hlt| |].
      * rewrite Hi in He. injection He as <-. rewrite Hu in Hl. exfalso. clear - Hl. assert (X : forall x, ultb x x = true -> False) by (intros x Hx; exact (ultb_asym _ _ Hx Hx)). exact (X _ Hl).
      * exfalso. assert (url_lt e0 e) by (eapply (ssorted_znth url_lt _ So i j); eauto). rewrite <- Hu in Hl. exact (ultb_asym _ _ Hl H0).
Qed.

Record deleted (s : zim) (u : ustr) (s' : zim) : Prop := mkDeleted {
  dl_consistent : exists L', consistent s' L';
  dl_gone : get_entry_by_full_url s' u = Err EntryNotFound;
  dl_others : forall v d, v <> u -> get_entry_by_full_url s v = Ok d ->
    exists d', get_entry_by_full_url s' v = Ok d' /\ same_entry d d' /\ target_url s' d' = target_url s d;
  dl_missing : forall v, get_entry_by_full_url s v = Err EntryNotFound -> get_entry_by_full_url s' v = Err EntryNotFound;
  dl_articles : forall us, article_urls s = Some us -> exists us', article_urls s' = Some us' /\ NoDup us' /\ forall x, In x us' <-> In x us /\ x <> u }.

Theorem delete_law : forall s L u n s', consistent s L -> deletable s u -> remove_entry keep_blob (S (S n)) u s = (Ok tt, s') -> deleted s u s'.
Proof.
  intros s L u n s' C DE W. destruct (delete_setup s L u C DE) as (i & e0 & Hz & <- & RM).
  destruct (remove_observed s L i e0 n s' C RM W) as (H1 & H2 & H3 & H4 & _ & H6). constructor; auto.
Qed.
