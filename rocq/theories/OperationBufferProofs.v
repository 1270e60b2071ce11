(** Resolving buffered redirects. *)
From Coq Require Import List ZArith Bool Lia Sorting.Sorted Sorting.Permutation.
From Coq Require Import ZifyBool ZifyNat.
From Verif Require Import Base BaseProofs Utf8 Utf8Proofs Entry EntrySpec EntryProofs PointerList PointerListSpec PointerListProofs SpaceAllocator SpaceAllocatorSpec Cluster Archive ArchiveSpec
  ArchiveProofs ArchiveWriteProofs ArchiveMoveProofs ArchiveRemoveProofs ArchiveFacts ArchiveObserve ArchiveLaws OperationBuffer OperationBufferSpec.
Import ListNotations.
Open Scope Z_scope.

(** ** Termination *)
Lemma opt_ueqb_eq : forall a b, opt_ueqb a b = true <-> a = b.
Proof. intros [a|] [b|]; cbn; [rewrite ueqb_eq|..]; split; intro H; try congruence. Qed.
Lemma rop_eqb_eq : forall a b, rop_eqb a b = true <-> a = b.
Proof.
  intros [[s t] l] [[s' t'] l']. unfold rop_eqb. rewrite !andb_true_iff, !ueqb_eq, opt_ueqb_eq. split; [intros [[-> ->] ->]; reflexivity|intro H; injection H; auto].
Qed.
Lemma rops_eqb_eq : forall a b, rops_eqb a b = true <-> a = b.
Proof.
  induction a as [|x a IH]; intros [|y b]; cbn [rops_eqb]; try (split; [discriminate|intro H; discriminate H]); [tauto|].
  rewrite andb_true_iff, rop_eqb_eq, IH. split; [intros [-> ->]; reflexivity|intro H; injection H; auto].
Qed.

Lemma parts_length : forall {A} (l a b : list A), parts l a b -> (length l = length a + length b)%nat.
Proof. intros A l a b P. induction P; cbn; lia. Qed.
Lemma parts_perm : forall {A} (l a b : list A), parts l a b -> Permutation l (a ++ b).
Proof. intros A l a b P. induction P; cbn; [constructor|constructor; assumption|]. apply Permutation_cons_app. assumption. Qed.
Lemma parts_in : forall {A} (l a b : list A) x, parts l a b -> (In x l <-> In x a \/ In x b).
Proof. intros A l a b x P. induction P; cbn; [tauto|tauto|tauto]. Qed.
Lemma parts_all : forall {A} (l a : list A), parts l a l -> a = [].
Proof. intros A l a P. apply parts_length in P. destruct a; [reflexivity|cbn in P; lia]. Qed.

Lemma add_redirect_parts : forall fuel r o x o', add_redirect fuel r o = (x, o') -> b_redirects o' = b_redirects o \/ b_redirects o' = b_redirects o ++ [r].
Proof.
  intros fuel [[s t] l] o x o' H. unfold add_redirect, mbind, lift in H. destruct (add_full_url_redirect fuel s t l (b_zim o)) as [[[]|e] z]; cbn in H; injection H as <- <-; cbn; auto.
Qed.
Lemma add_redirects_parts : forall fuel l o x o', add_redirects fuel l o = (x, o') -> exists a b, (x = Ok tt -> parts l a b) /\ (length b <= length l)%nat /\ b_redirects o' = b_redirects o ++ b.
Proof.
  intros fuel. induction l as [|r l IH]; intros o x o' H; cbn [add_redirects] in H.
  - injection H as <- <-. exists [], []. rewrite app_nil_r. split; [intros _; constructor|auto].
  - unfold mbind in H. destruct (add_redirect fuel r o) as [[[]|e] o1] eqn:E; pose proof (add_redirect_parts _ _ _ _ _ E) as D.
    + destruct (IH _ _ _ H) as (a & b & P & Hl & Eb). destruct D as [D|D]; rewrite Eb, D.
      * exists (r :: a), b. split; [intro Q; constructor; auto|]. cbn. split; [lia|reflexivity].
      * exists a, (r :: b). split; [intro Q; constructor; auto|]. cbn. split; [lia|]. rewrite <- app_assoc. reflexivity.
    + injection H as <- <-. destruct D as [D|D]; rewrite D; [exists [], []|exists [], [r]]; (split; [discriminate|]); cbn; rewrite ?app_nil_r; split; auto; lia.
Qed.

(** The number of rounds is bounded by the number of buffered redirects. *)
Lemma apply_loop_rounds : forall fuel m n o, (length (b_redirects o) < m)%nat -> (m <= n)%nat -> apply_loop (S n) fuel o = apply_loop (S m) fuel o.
Proof.
  intros fuel. induction m as [|m IH]; intros n o Hm Hn; [lia|]. destruct n as [|n]; [lia|].
  change (apply_loop (S (S n)) fuel o) with ((let* _ := add_redirects fuel (b_redirects o) in
       fun o1 => if rops_eqb (b_redirects o1) (b_redirects o) then (Ok tt, o1) else apply_loop (S n) fuel o1) (b_set_redirects [] o)).
  change (apply_loop (S (S m)) fuel o) with ((let* _ := add_redirects fuel (b_redirects o) in
       fun o1 => if rops_eqb (b_redirects o1) (b_redirects o) then (Ok tt, o1) else apply_loop (S m) fuel o1) (b_set_redirects [] o)).
  unfold mbind. destruct (add_redirects fuel (b_redirects o) (b_set_redirects [] o)) as [[[]|e] o1] eqn:E; [|reflexivity].
  destruct (rops_eqb (b_redirects o1) (b_redirects o)) eqn:Q; [reflexivity|].
  destruct (add_redirects_parts _ _ _ _ _ E) as (a & b & P & _ & Eb). specialize (P eq_refl). cbn in Eb. apply IH; [|lia].
  assert (a <> []). { intros ->. pose proof (parts_length _ _ _ P) as Hl. cbn in Hl. assert (b = b_redirects o).
    { clear -P. remember [] as n eqn:En. revert En. induction P; intro; [reflexivity|discriminate|f_equal; auto]. }
    assert (T : rops_eqb (b_redirects o1) (b_redirects o) = true) by (apply rops_eqb_eq; congruence). congruence. }
  pose proof (parts_length _ _ _ P) as Hl. rewrite Eb. destruct a; [contradiction|]. cbn in Hl. lia.
Qed.

(** ** One redirect *)
Lemma same_entry_refl : forall e, same_entry e e.
Proof. intro e. unfold same_entry. destruct (e_kind e); repeat split; auto. Qed.
Lemma extends_refl : forall s, extends s s.
Proof. intros s u e H. exists e. split; [exact H|]. split; [apply same_entry_refl|reflexivity]. Qed.
Lemma extends_trans : forall a b c, extends a b -> extends b c -> extends a c.
Proof.
  intros a b c H1 H2 u e H. destruct (H1 _ _ H) as (e1 & G1 & S1 & T1). destruct (H2 _ _ G1) as (e2 & G2 & S2 & T2).
  exists e2. split; [exact G2|]. split; [eapply same_trans; eauto|congruence].
Qed.
Lemma same_title : forall a b, same_entry a b -> title a = title b.
Proof. intros a b (_ & _ & H3 & H4 & _). unfold title. rewrite H3, H4. reflexivity. Qed.
Lemma same_redirect : forall a b, same_entry a b -> is_redirect a = is_redirect b.
Proof. intros a b (H & _). unfold is_redirect. rewrite H. reflexivity. Qed.
Lemma has_redirect_extends : forall s s' r, extends s s' -> has_redirect s r -> has_redirect s' r.
Proof.
  intros s s' r X (e & G & Hr & T & Ht). destruct (X _ _ G) as (e' & G' & S' & T'). exists e'. split; [exact G'|]. split; [rewrite <- (same_redirect _ _ S'); exact Hr|].
  split; [congruence|]. assert (Et : e_title e' = e_title e) by (destruct S' as (_ & _ & _ & Q & _); congruence). destruct (wanted_title r) as [t|]; [congruence|].
  destruct Ht as (d & Gd & Hd). destruct (X _ _ Gd) as (d' & Gd' & Sd & _). exists d'. split; [exact Gd'|]. rewrite Et, Hd, (same_title _ _ Sd). reflexivity.
Qed.

Lemma title_storable : forall e, entry_storable e -> storable (title e).
Proof. intros e (_ & _ & Hu & (t & Et & Ht) & _). unfold title. rewrite Et. destruct t; [exact Hu|exact Ht]. Qed.

Lemma consistent_storable : forall s L e, consistent s L -> In e L -> entry_storable e.
Proof.
  intros s L e [(cells & <- & C) _ _ _ _] Hin. apply in_map_iff in Hin as (c & <- & Hc). pose proof (co_stored _ _ C) as F. rewrite Forall_forall in F. destruct (F _ Hc) as (_ & H & _). exact H.
Qed.

Lemma encode_storable_app : forall ns u x, utf8_encode [ns] = Some [x] -> storable u -> exists b, utf8_encode (ns :: u) = Some b.
Proof. intros ns u x H [[b Hb] _]. cbn [utf8_encode] in *. destruct (enc1 ns) as [a|]; [|discriminate]. rewrite Hb. eauto. Qed.

Lemma url_index_in : forall s L i d, consistent s L -> znth L i = Some d -> url_index s (full_url d) = Ok i.
Proof.
  intros s L i d [(cells & <- & C) _ _ _ _] H. rewrite znth_map in H. destruct (znth cells i) as [c|] eqn:Hc; [|discriminate]. injection H as <-. eapply url_index_found; eauto.
Qed.
Lemma url_index_absent : forall s L u b, consistent s L -> utf8_encode u = Some b -> absent L u -> url_index s u = Err KeyError.
Proof.
  intros s L u b [(cells & <- & C) _ _ _ _] Hb H. apply (url_index_missing s cells u b C Hb). intros c Hc. apply H. apply in_map. exact Hc.
Qed.

Lemma exists_at_iff : forall s L u, consistent s L -> (exists_at s u <-> exists e, In e L /\ full_url e = u).
Proof. intros s L u C. split; intros (e & H); exists e; apply (lookup_iff _ _ _ _ C); exact H. Qed.
Lemma exists_at_dec : forall s L u, consistent s L -> exists_at s u \/ absent L u.
Proof.
  intros s L u C. destruct (in_dec (list_eq_dec Z.eq_dec) u (map full_url L)) as [H|H].
  - left. apply (exists_at_iff _ _ _ C). apply in_map_iff in H as (e & H1 & H2). eauto.
  - right. intros e He Hu. apply H. apply in_map_iff. eauto.
Qed.
Lemma not_both : forall s L u, consistent s L -> exists_at s u -> absent L u -> False.
Proof. intros s L u C H A. apply (exists_at_iff _ _ _ C) in H as (e & He & Hu). exact (A e He Hu). Qed.

Lemma reserved_roomy : forall s L k, reserved s k -> zlen L <= k -> roomy s L.
Proof. intros s L k [H _] Hk p Hp. specialize (H p Hp). lia. Qed.


(** the outcome of adding redirect [r] *)
Record grew (s : zim) (L : list entry) (k : Z) (r : rop) (s' : zim) (L' : list entry) : Prop := mkGrew {
  gr_ok : consistent s' L';
  gr_len : zlen L' = zlen L + 1;
  gr_reserved : reserved s' k;
  gr_has : has_redirect s' r;
  gr_ext : extends s s';
  gr_only : forall u, exists_at s' u -> exists_at s u \/ u = source r }.

Lemma add_present : forall n s L k r, consistent s L -> reserved s k -> zlen L <= k -> zlen L + 1 < 2 ^ 32 -> sound r -> absent L (source r) -> exists_at s (target r) ->
  exists s' L', add_full_url_redirect (S (S n)) (source r) (target r) (wanted_title r) s = (Ok true, s') /\ grew s L k r s' L'.
Proof.
  intros n s L k r C R Hk Hc [(ns & u & x & Es & Hns & Hu) [Ht0 [tb Htb]] Hd Hti] A E.
  apply (exists_at_iff _ _ _ C) in E as (d & Hd1 & Hd2). destruct (in_znth _ _ Hd1) as [i Hi].
  assert (Gd : get_entry_by_full_url s (target r) = Ok d) by (apply (lookup_iff _ _ _ _ C); auto).
  set (t := match wanted_title r with Some t => t | None => title d end).
  assert (Hst : storable t).
  { unfold t. destruct (wanted_title r) as [t0|]; [auto|]. apply title_storable. eapply consistent_storable; eauto. }
  set (e := mkEntry MIMETYPE_ID_REDIRECT [ns] u (Some t) (Redirect i)).
  assert (MR : make_redirect s (source r) (target r) (wanted_title r) = Ok (Some e)).
  { unfold make_redirect. replace (ueqb (source r) (target r)) with false by (symmetry; apply ueqb_neq; exact Hd).
    rewrite Es. destruct (target r) as [|t0 tr] eqn:Et; [contradiction|]. rewrite <- Et in *. rewrite <- Hd2 at 1. rewrite (url_index_in _ _ _ _ C Hi). rewrite Gd.
    unfold e, t. destruct (wanted_title r); reflexivity. }
  pose proof (znth_some _ _ _ Hi) as Hib.
  assert (AD : addable L (fresh e)).
  { constructor; cbn [fresh w_entry w_old_url w_force e].
    - split; [cbn; unfold MIMETYPE_ID_REDIRECT; lia|]. cbn. split; [eauto|]. split; [exact Hu|]. split; [eauto|lia].
    - reflexivity.
    - unfold full_url. cbn. rewrite <- Es. exact A.
    - unfold full_url. cbn. rewrite <- Es. exact A.
    - unfold full_url. cbn [e_ns e_url app]. eapply encode_storable_app; eauto.
    - cbn. intros r0 Q. injection Q as <-. exact Hib.
    - discriminate.
    - intros _ Q. cbn in Q. injection Q as ->. reflexivity.
    - exact Hc. }
  destruct (write_entry (S (S n)) (fresh e) s) as [w s'] eqn:W.
  destruct (add_cases _ _ _ _ _ _ C AD W) as [(-> & LA & LB & a & EL & H1 & H2 & _ & D)|(-> & p & Hp & Hl)].
  2:{ exfalso. pose proof (reserved_roomy _ _ _ R Hk p Hp). lia. }
  destruct (add_lookup _ _ _ _ _ C AD W) as ((e' & Ge' & Se' & Te') & Lo & Lm).
  pose proof D as (L' & off & C' & Ln & _ & _ & _ & _ & Hu' & Hnew & _ & _ & _ & Hq).
  exists s', L'. split.
  - unfold add_full_url_redirect, query, mbind. rewrite MR. cbv beta iota. rewrite W. reflexivity.
  - constructor; [exact C'|exact Ln| | |exact Lo|].
    + destruct R as [R1 R2]. split.
      * intros q Hin. destruct (Hq q Hin) as [Hin'| ->]; [auto|]. destruct (storable_span (w_entry (fresh e)) (ad_storable _ _ AD)) as [_ Hsp].
        assert (O : occupies (off, w_entry (fresh e)) off) by (unfold occupies; cbn [fst snd]; lia).
        assert (U : in_use (z_alloc s') off) by (apply Hu'; auto). destruct U as [[U1 _] _].
        destruct (Z.lt_ge_cases k off) as [|Hge]; [assumption|]. exfalso. apply (Hnew off O). apply R2. lia.
      * intros y Hy. apply Hu'. left. apply R2. exact Hy.
    + exists e'. replace (source r) with (full_url (w_entry (fresh e))) by (rewrite Es; reflexivity). split; [exact Ge'|].
      split; [rewrite <- (same_redirect _ _ Se'); reflexivity|]. split.
      * rewrite Te'. unfold target_url. cbn. rewrite (proj2 (index_iff _ _ _ _ C) Hi). congruence.
      * assert (Et : e_title e' = Some t) by (destruct Se' as (_ & _ & _ & Q & _); rewrite <- Q; reflexivity). unfold t in Et. destruct (wanted_title r); [exact Et|].
        destruct (Lo _ _ Gd) as (d' & Gd' & Sd & _). exists d'. split; [exact Gd'|]. rewrite Et, (same_title _ _ Sd). reflexivity.
    + intros v (ev & Hv). destruct (list_eq_dec Z.eq_dec v (source r)) as [Q|Q]; [auto|left].
      destruct (exists_at_dec s L v C) as [G|G]; [exact G|]. exfalso. destruct (utf8_encode v) as [b|] eqn:Eb.
      * rewrite (Lm v) in Hv; [discriminate| |apply (missing_iff _ _ _ _ C Eb); exact G]. intro Q'. apply Q. rewrite Q', Es. reflexivity.
      * rewrite (lookup_unencodable s' v Eb) in Hv. discriminate.
Qed.

Lemma add_missing : forall n s L r, consistent s L -> sound r -> absent L (target r) ->
  add_full_url_redirect n (source r) (target r) (wanted_title r) s = (Ok false, s).
Proof.
  intros n s L r C [(ns & u & x & Es & Hns & Hu) [Ht0 [tb Htb]] Hd Hti] A.
  unfold add_full_url_redirect, query, mbind, make_redirect. replace (ueqb (source r) (target r)) with false by (symmetry; apply ueqb_neq; exact Hd).
  rewrite Es. destruct (target r) as [|t0 tr] eqn:Et; [contradiction|]. rewrite <- Et in *. rewrite (url_index_absent _ _ _ _ C Htb A). reflexivity.
Qed.

(** ** One round *)
(** the archive after the redirects [W] have been added to [s0] *)
Record state (s0 : zim) (L0 : list entry) (k : Z) (W : list rop) (s : zim) : Prop := mkState {
  st_ok : exists L, consistent s L /\ zlen L = zlen L0 + zlen W;
  st_reserved : reserved s k;
  st_has : forall r, In r W -> has_redirect s r;
  st_ext : extends s0 s;
  st_only : forall u, exists_at s u <-> exists_at s0 u \/ In u (map source W) }.

Lemma rop_eta : forall r : rop, r = (source r, target r, wanted_title r).
Proof. intros [[a b] c]. reflexivity. Qed.

Lemma has_exists : forall s r, has_redirect s r -> exists_at s (source r).
Proof. intros s r (e & H & _). exists e. exact H. Qed.
Lemma extends_exists : forall s s' u, extends s s' -> exists_at s u -> exists_at s' u.
Proof. intros s s' u X (e & H). destruct (X _ _ H) as (e' & H' & _). exists e'. exact H'. Qed.

Lemma zlen_app1 : forall {A} (l : list A) x, zlen (l ++ [x]) = zlen l + 1.
Proof. intros A l x. rewrite zlen_app. reflexivity. Qed.

Lemma round_ok : forall n s0 L0 k rs W o, consistent s0 L0 -> state s0 L0 k W (b_zim o) -> zlen L0 + zlen W + zlen rs <= k -> zlen L0 + zlen W + zlen rs < 2 ^ 32 ->
  (forall r, In r rs -> sound r /\ absent L0 (source r)) -> NoDup (map source (W ++ rs)) ->
  exists W' rest s', add_redirects (S (S n)) rs o = (Ok tt, mkBuffered s' (b_redirects o ++ rest) (b_main o)) /\ parts rs W' rest /\ state s0 L0 k (W ++ W') s' /\
    (W' = [] -> s' = b_zim o /\ forall r, In r rs -> ~ exists_at s' (target r)) /\
    (forall l, (forall r, In r W -> resolvable s0 l r) -> incl (W ++ rs) l -> forall r, In r W' -> resolvable s0 l r).
Proof.
  intros n s0 L0 k. induction rs as [|r rs IH]; intros W o C0 St Hk Hc Hs ND.
  - exists [], [], (b_zim o). rewrite app_nil_r, app_nil_r. split; [destruct o; reflexivity|]. split; [constructor|]. split; [exact St|]. split; [intros _; split; [reflexivity|intros r []]|intros l _ _ r []].
  - rewrite zlen_cons in Hk, Hc. pose proof (zlen_nonneg rs) as Hr0. destruct (Hs r (or_introl eq_refl)) as [So Ab]. destruct (st_ok _ _ _ _ _ St) as (L & C & Ln).
    destruct (exists_at_dec (b_zim o) L (target r) C) as [E|E].
    + assert (Ab' : absent L (source r)).
      { intros d Hd1 Hd2. assert (X : exists_at (b_zim o) (source r)) by (apply (exists_at_iff _ _ _ C); eauto). apply (st_only _ _ _ _ _ St) in X as [X|X].
        - exact (not_both _ _ _ C0 X Ab).
        - rewrite map_app in ND. cbn [map] in ND. apply NoDup_remove_2 in ND. apply ND. apply in_or_app. left. exact X. }
      destruct (add_present n (b_zim o) L k r C (st_reserved _ _ _ _ _ St) ltac:(lia) ltac:(lia) So Ab' E) as (s1 & L1 & W1 & [G1 G2 G3 G4 G5 G6]).
      assert (St1 : state s0 L0 k (W ++ [r]) s1).
      { constructor.
        - exists L1. rewrite zlen_app1. split; [exact G1|lia].
        - exact G3.
        - intros q Hq. apply in_app_or in Hq as [Hq|[<-|[]]]; [|exact G4]. apply (has_redirect_extends (b_zim o)); [exact G5|]. apply (st_has _ _ _ _ _ St). exact Hq.
        - eapply extends_trans; [apply (st_ext _ _ _ _ _ St)|exact G5].
        - intro u. rewrite map_app, in_app_iff. cbn [map In]. split.
          + intro H. destruct (G6 u H) as [H1| ->]; [|auto]. apply (st_only _ _ _ _ _ St) in H1. tauto.
          + intros [H|[H|[<-|[]]]]; [apply (extends_exists (b_zim o)); [exact G5|apply (st_only _ _ _ _ _ St); auto]..|apply has_exists; exact G4]. }
      destruct (IH (W ++ [r]) (b_set_zim s1 o) C0 St1) as (W' & rest & s' & R1 & R2 & R3 & R4 & R5).
      * rewrite zlen_app1. lia.
      * rewrite zlen_app1. lia.
      * intros q Hq. apply Hs. right. exact Hq.
      * rewrite <- app_assoc. exact ND.
      * exists (r :: W'), rest, s'. split.
        { cbn [add_redirects]. unfold mbind at 1. rewrite (rop_eta r). unfold add_redirect, mbind at 1, lift. rewrite W1. cbv beta iota. exact R1. }
        split; [constructor; exact R2|]. split; [rewrite <- app_assoc in R3; exact R3|]. split; [discriminate|].
        intros l HW Hin. assert (Rr : resolvable s0 l r).
        { assert (Il : In r l) by (apply Hin, in_or_app; right; left; reflexivity).
          apply (st_only _ _ _ _ _ St) in E as [E|E]; [apply to_entry; assumption|]. apply in_map_iff in E as (r' & Es & Hr'). apply to_redirect with r'; auto. apply Hin, in_or_app. left. exact Hr'. }
        intros q [<-|Hq]; [exact Rr|]. apply (R5 l); [|intros y Hy; apply Hin; rewrite <- app_assoc in Hy; exact Hy|exact Hq].
        intros y Hy. apply in_app_or in Hy as [Hy|[<-|[]]]; auto.
    + pose proof (add_missing (S (S n)) (b_zim o) L r C So E) as W1.
      destruct (IH W (b_set_redirects (b_redirects o ++ [r]) o) C0) as (W' & rest & s' & R1 & R2 & R3 & R4 & R5).
      * exact St.
      * lia.
      * lia.
      * intros q Hq. apply Hs. right. exact Hq.
      * rewrite map_app in *. cbn [map] in ND. apply NoDup_remove_1 in ND. exact ND.
      * exists W', (r :: rest), s'. split.
        { cbn [add_redirects]. unfold mbind at 1. rewrite (rop_eta r) at 1. unfold add_redirect, mbind at 1, lift. rewrite W1. cbv beta iota. unfold buffer_add_redirect. rewrite <- (rop_eta r).
          replace (b_set_redirects (b_redirects (b_set_zim (b_zim o) o) ++ [r]) (b_set_zim (b_zim o) o)) with (b_set_redirects (b_redirects o ++ [r]) o) by (destruct o; reflexivity).
          rewrite R1. cbn [b_redirects b_set_redirects b_main]. rewrite <- app_assoc. reflexivity. }
        split; [constructor; exact R2|]. split; [exact R3|]. split.
        { intros ->. destruct (R4 eq_refl) as [Q1 Q2]. cbn in Q1. split; [exact Q1|]. intros q [<-|Hq]; [|auto]. rewrite Q1. intro X. exact (not_both _ _ _ C X E). }
        intros l HW Hin. apply R5; [exact HW|]. intros y Hy. apply Hin. apply in_app_or in Hy. apply in_or_app. destruct Hy; [auto|right; right; assumption].
Qed.

(** ** All rounds *)
Lemma resolvable_perm : forall s l l' r, Permutation l l' -> resolvable s l r -> resolvable s l' r.
Proof.
  intros s l l' r P R. induction R as [r Hin E|r r' Hin Hin' Et R IH]; [apply to_entry; [eapply Permutation_in; eauto|exact E]|].
  apply to_redirect with r'; auto; eapply Permutation_in; eauto.
Qed.
Lemma state_perm : forall s0 L0 k W W' s, Permutation W W' -> state s0 L0 k W s -> state s0 L0 k W' s.
Proof.
  intros s0 L0 k W W' s P [H1 H2 H3 H4 H5]. constructor; auto.
  - destruct H1 as (L & C & Ln). exists L. split; [exact C|]. unfold zlen in *. rewrite <- (Permutation_length P). exact Ln.
  - intros r Hr. apply H3. eapply Permutation_in; [symmetry; exact P|exact Hr].
  - intro u. rewrite H5. assert (Pm : Permutation (map source W) (map source W')) by (apply Permutation_map; exact P).
    split; intros [H|H]; auto; right; [apply (Permutation_in _ Pm H)|apply (Permutation_in _ (Permutation_sym Pm) H)].
Qed.
Lemma parts_compose : forall {A} (l a b : list A), parts l a b -> forall c d, parts b c d -> exists e, parts l e d /\ Permutation e (a ++ c).
Proof.
  intros A l a b P. induction P as [|x l a b P IH|x l a b P IH]; intros c d Q.
  - inversion Q; subst. exists []. split; constructor.
  - destruct (IH c d Q) as (e & P1 & P2). exists (x :: e). split; [constructor; exact P1|]. cbn. constructor. exact P2.
  - inversion Q; subst.
    + match goal with H : parts b _ _ |- _ => destruct (IH _ _ H) as (e & P1 & P2) end. exists (x :: e). split; [constructor; exact P1|]. apply Permutation_cons_app. exact P2.
    + match goal with H : parts b _ _ |- _ => destruct (IH _ _ H) as (e & P1 & P2) end. exists e. split; [constructor; exact P1|exact P2].
Qed.
Lemma parts_none : forall {A} (l b : list A), parts l [] b -> b = l.
Proof. intros A l b P. remember [] as n eqn:En. revert En. induction P; intro; [reflexivity|discriminate|f_equal; auto]. Qed.

Lemma loop_ok : forall n s0 L0 k m W o, consistent s0 L0 -> state s0 L0 k W (b_zim o) -> (length (b_redirects o) < m)%nat ->
  zlen L0 + zlen W + zlen (b_redirects o) <= k -> zlen L0 + zlen W + zlen (b_redirects o) < 2 ^ 32 ->
  (forall r, In r (b_redirects o) -> sound r /\ absent L0 (source r)) -> NoDup (map source (W ++ b_redirects o)) ->
  (forall r, In r W -> resolvable s0 (W ++ b_redirects o) r) ->
  exists W' rest s', apply_loop (S m) (S (S n)) o = (Ok tt, mkBuffered s' rest (b_main o)) /\ parts (b_redirects o) W' rest /\
    state s0 L0 k (W ++ W') s' /\ (forall r, In r rest -> ~ exists_at s' (target r)) /\ (forall r, In r W' -> resolvable s0 (W ++ b_redirects o) r).
Proof.
  intros n s0 L0 k. induction m as [|m IH]; intros W o C0 St Hm Hk Hc Hs ND HW; [lia|].
  set (rs := b_redirects o) in *.
  destruct (round_ok n s0 L0 k rs W (b_set_redirects [] o) C0 St Hk Hc Hs ND) as (W1 & rest & s1 & R1 & R2 & R3 & R4 & R5).
  cbn [b_redirects b_set_redirects app b_main] in R1.
  assert (Res1 : forall r, In r W1 -> resolvable s0 (W ++ rs) r) by (apply R5; [exact HW|apply incl_refl]).
  assert (Step : apply_loop (S (S m)) (S (S n)) o =
    if rops_eqb rest rs then (Ok tt, mkBuffered s1 rest (b_main o)) else apply_loop (S m) (S (S n)) (mkBuffered s1 rest (b_main o))).
  { change (apply_loop (S (S m)) (S (S n)) o) with ((let* _ := add_redirects (S (S n)) rs in
       fun o1 => if rops_eqb (b_redirects o1) rs then (Ok tt, o1) else apply_loop (S m) (S (S n)) o1) (b_set_redirects [] o)).
    unfold mbind. rewrite R1. reflexivity. }
  rewrite Step. destruct (rops_eqb rest rs) eqn:Q.
  - apply rops_eqb_eq in Q. subst rest. pose proof (parts_all _ _ R2) as ->. destruct (R4 eq_refl) as [_ Hno].
    exists [], rs, s1. split; [reflexivity|]. split; [exact R2|]. split; [exact R3|]. split; [exact Hno|intros r []].
  - assert (Hne : W1 <> []). { intros ->. apply parts_none in R2. subst rest. assert (rops_eqb rs rs = true) by (apply rops_eqb_eq; reflexivity). congruence. }
    pose proof (parts_length _ _ _ R2) as Hl. assert (Hz : zlen rs = zlen W1 + zlen rest) by (unfold zlen; lia).
    pose proof (parts_perm _ _ _ R2) as Pm.
    destruct (IH (W ++ W1) (mkBuffered s1 rest (b_main o)) C0 R3) as (W2 & rest2 & s2 & S1 & S2 & S3 & S4 & S5); cbn [b_redirects] in *.
    + destruct W1; [contradiction|]. cbn in Hl. fold rs in Hm. lia.
    + rewrite zlen_app. lia.
    + rewrite zlen_app. lia.
    + intros r Hr. apply Hs. apply (parts_in _ _ _ r R2). auto.
    + rewrite <- app_assoc. eapply Permutation_NoDup; [|exact ND]. apply Permutation_map. apply Permutation_app_head. exact Pm.
    + intros r Hr. rewrite <- app_assoc. assert (resolvable s0 (W ++ rs) r) as Hx by (apply in_app_or in Hr as [Hr|Hr]; auto).
      revert Hx. apply resolvable_perm. apply Permutation_app_head. exact Pm.
    + destruct (parts_compose _ _ _ R2 _ _ S2) as (W3 & P1 & P2). exists W3, rest2, s2. split; [exact S1|]. split; [exact P1|]. split.
      { eapply state_perm; [|exact S3]. rewrite <- app_assoc. apply Permutation_app_head. symmetry. exact P2. }
      split; [exact S4|]. intros r Hr. apply (Permutation_in _ P2) in Hr. apply in_app_or in Hr as [Hr|Hr]; [auto|].
      apply S5 in Hr. revert Hr. rewrite <- app_assoc. apply resolvable_perm. apply Permutation_app_head. symmetry. exact Pm.
Qed.

Lemma state_start : forall s L k, consistent s L -> reserved s k -> state s L k [] s.
Proof.
  intros s L k C R. constructor; [exists L; split; [exact C|change (zlen (@nil rop)) with 0; lia]|exact R|intros r []|apply extends_refl|].
  intro u. cbn. tauto.
Qed.

Lemma finished : forall s L k l W rest s', consistent s L -> acceptable L l -> parts l W rest -> state s L k W s' ->
  (forall r, In r rest -> ~ exists_at s' (target r)) -> (forall r, In r W -> resolvable s l r) -> resolved s l s' rest.
Proof.
  intros s L k l W rest s' C A P St Hno Hres.
  assert (HW : forall r, resolvable s l r -> In r W).
  { intros r R. induction R as [r Hin E|r r' Hin Hin' Et R IH].
    - apply (parts_in _ _ _ r P) in Hin as [Hin|Hin]; [exact Hin|]. exfalso. apply (Hno r Hin). apply (st_only _ _ _ _ _ St). auto.
    - apply (parts_in _ _ _ r P) in Hin as [Hin|Hin]; [exact Hin|]. exfalso. apply (Hno r Hin). apply (st_only _ _ _ _ _ St). right. rewrite Et. apply in_map. exact IH. }
  assert (Disj : forall r, In r W -> In r rest -> False).
  { intros r H1 H2. pose proof (ac_distinct _ _ A) as ND. assert (ND' : NoDup (map source (W ++ rest))) by (eapply Permutation_NoDup; [apply Permutation_map; apply (parts_perm _ _ _ P)|exact ND]).
    rewrite map_app in ND'. clear -ND' H1 H2. induction W as [|a W IH]; [exact H1|]. cbn in ND'. inversion ND'; subst. destruct H1 as [->|H1].
    - apply H3. apply in_or_app. right. apply in_map. exact H2.
    - apply IH; assumption. }
  constructor.
  - intro r. split.
    + intro Hr. split; [apply (parts_in _ _ _ r P); auto|]. intro R. exact (Disj r (HW r R) Hr).
    + intros [Hin Hn]. apply (parts_in _ _ _ r P) in Hin as [Hin|Hin]; [exfalso; apply Hn; auto|exact Hin].
  - exists W. exact P.
  - intros r R. apply (st_has _ _ _ _ _ St). auto.
  - apply (st_ext _ _ _ _ _ St).
  - intro u. rewrite (st_only _ _ _ _ _ St u). split; intros [H|H]; auto; right.
    + apply in_map_iff in H as (r & <- & Hr). exists r. auto.
    + destruct H as (r & R & ->). apply in_map. auto.
  - destruct (st_ok _ _ _ _ _ St) as (L' & C' & _). eauto.
Qed.

Theorem apply_ok : forall s L l m n rounds, consistent s L -> acceptable L l -> reserved s (zlen L + zlen l) -> (length l < rounds)%nat ->
  exists s' l', apply_redirects (S rounds) (S (S n)) (mkBuffered s l m) = (verdict l', mkBuffered s' l' m) /\ resolved s l s' l'.
Proof.
  intros s L l m n rounds C A R Hr.
  destruct (loop_ok n s L (zlen L + zlen l) rounds [] (mkBuffered s l m) C (state_start _ _ _ C R)) as (W & rest & s' & E & P & St & Hno & Hres); cbn [b_redirects b_zim b_main app] in *.
  - exact Hr.
  - change (zlen (@nil rop)) with 0. lia.
  - change (zlen (@nil rop)) with 0. pose proof (ac_count _ _ A). lia.
  - intros r H. split; [apply (ac_sound _ _ A); exact H|apply (ac_new _ _ A); exact H].
  - apply (ac_distinct _ _ A).
  - intros r [].
  - exists s', rest. split; [|eapply finished; eauto]. unfold apply_redirects, mbind. rewrite E. cbn [b_redirects]. destruct rest; reflexivity.
Qed.

(** Adding the redirects one by one to an archive with an empty buffer, then flushing. *)
Theorem add_then_apply_ok : forall s L l m n rounds, consistent s L -> acceptable L l -> reserved s (zlen L + zlen l) -> (length l < rounds)%nat ->
  exists s' l', (let* _ := add_redirects (S (S n)) l in apply_redirects (S rounds) (S (S n))) (mkBuffered s [] m) = (verdict l', mkBuffered s' l' m) /\ resolved s l s' l'.
Proof.
  intros s L l m n rounds C A R Hr. pose proof (ac_count _ _ A) as Hc.
  assert (Hs : forall r, In r l -> sound r /\ absent L (source r)) by (intros r H; split; [apply (ac_sound _ _ A); exact H|apply (ac_new _ _ A); exact H]).
  destruct (round_ok n s L (zlen L + zlen l) l [] (mkBuffered s [] m) C (state_start _ _ _ C R)) as (W1 & rest & s1 & R1 & R2 & R3 & R4 & R5); cbn [b_redirects b_zim b_main app] in *.
  { change (zlen (@nil rop)) with 0. lia. }
  { change (zlen (@nil rop)) with 0. lia. }
  { exact Hs. }
  { apply (ac_distinct _ _ A). }
  assert (Res1 : forall r, In r W1 -> resolvable s l r) by (apply R5; [intros r []|apply incl_refl]).
  pose proof (parts_length _ _ _ R2) as Hl. assert (Hz : zlen l = zlen W1 + zlen rest) by (unfold zlen; lia). pose proof (parts_perm _ _ _ R2) as Pm.
  destruct (loop_ok n s L (zlen L + zlen l) rounds W1 (mkBuffered s1 rest m) C R3) as (W2 & rest2 & s2 & S1 & S2 & S3 & S4 & S5); cbn [b_redirects b_main] in *.
  - lia.
  - lia.
  - lia.
  - intros r H. apply Hs. apply (parts_in _ _ _ r R2). auto.
  - eapply Permutation_NoDup; [apply Permutation_map; exact Pm|apply (ac_distinct _ _ A)].
  - intros r H. apply (resolvable_perm s l); [exact Pm|auto].
  - exists s2, rest2. split.
    + unfold mbind at 1. rewrite R1. cbv beta iota. unfold apply_redirects, mbind. rewrite S1. cbn [b_redirects]. destruct rest2; reflexivity.
    + destruct (parts_compose _ _ _ R2 _ _ S2) as (W3 & P1 & P2). apply (finished s L (zlen L + zlen l) l W3 rest2 s2); auto.
      * eapply state_perm; [|exact S3]. symmetry. exact P2.
      * intros r Hr'. apply (Permutation_in _ P2) in Hr'. apply in_app_or in Hr' as [Hr'|Hr']; [auto|]. apply S5 in Hr'. revert Hr'. apply resolvable_perm. symmetry. exact Pm.
Qed.

Lemma same_source : forall l (a b : rop), NoDup (map source l) -> In a l -> In b l -> source b = source a -> a = b.
Proof.
  induction l as [|x l IH]; intros a b ND Ha Hb E; [contradiction|]. cbn in ND. inversion ND as [|? ? Hx ND']; subst. destruct Ha as [->|Ha], Hb as [->|Hb]; auto.
  - exfalso. apply Hx. rewrite <- E. apply in_map. exact Hb.
  - exfalso. apply Hx. rewrite E. apply in_map. exact Ha.
Qed.
