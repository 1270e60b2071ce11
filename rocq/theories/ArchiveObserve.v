(** Adding, rewriting and removing entries of a consistent archive, in terms of
    the entries it holds. *)
From Coq Require Import List ZArith Bool Lia Sorting.Sorted Sorting.Permutation.
From Coq Require Import ZifyBool ZifyNat.
From Verif Require Import Base BaseProofs Utf8 Utf8Proofs Entry EntrySpec EntryProofs PointerList PointerListSpec PointerListProofs
  SpaceAllocator SpaceAllocatorSpec SpaceAllocatorProofs Cluster Archive ArchiveSpec ArchiveProofs ArchiveWriteProofs ArchiveMoveProofs ArchiveRemoveProofs ArchiveFacts.
Import ListNotations.
Open Scope Z_scope.

(** ** More recursion depth does not change a result *)
Definition le_m {A} (m1 m2 : M zim A) : Prop := forall s, fst (m1 s) = Err Diverge \/ m2 s = m1 s.
Lemma le_refl : forall {A} (m : M zim A), le_m m m.
Proof. intros A m s. right. reflexivity. Qed.
Lemma le_bind : forall {A B} (m1 m2 : M zim A) (k1 k2 : A -> M zim B), le_m m1 m2 -> (forall a, le_m (k1 a) (k2 a)) -> le_m (mbind m1 k1) (mbind m2 k2).
Proof.
  intros A B m1 m2 k1 k2 Hm Hk s. unfold mbind. destruct (Hm s) as [H|H].
  - left. destruct (m1 s) as [[a|x] s1]; cbn in H; [discriminate|]. injection H as ->. reflexivity.
  - rewrite H. destruct (m1 s) as [[a|x] s1]; [apply Hk|right; reflexivity].
Qed.

Section Deeper.
Variables rec1 rec2 : went -> bool -> M zim unit.
Hypothesis Hrec : forall w u, le_m (rec1 w u) (rec2 w u).

Lemma le_update_redirect : forall start diff skip e,
  le_m (update_redirect (fun w => rec1 w true) start diff skip e) (update_redirect (fun w => rec2 w true) start diff skip e).
Proof.
  intros start diff skip e. unfold update_redirect. destruct (is_redirect e && negb (umem (full_url e) skip)); [|apply le_refl].
  destruct (e_kind e) as [c b|r]; [apply le_refl|]. destruct (start <=? r); [|apply le_refl].
  apply le_bind; [apply le_refl|]. intro e'. apply le_bind; [apply le_refl|]. intro p. destruct (r + diff =? p); [apply le_refl|apply Hrec].
Qed.
Lemma le_for : forall b1 b2 : entry -> M zim unit, (forall e, le_m (b1 e) (b2 e)) -> forall n i, le_m (for_entries n i b1) (for_entries n i b2).
Proof.
  intros b1 b2 Hb. induction n as [|n IH]; intro i; cbn [for_entries]; [apply le_refl|].
  apply le_bind; [apply le_refl|]. intro e. apply le_bind; [apply Hb|]. intros _. apply IH.
Qed.
Lemma le_uup : forall start diff edit skip,
  le_m (update_url_pointers (fun w => rec1 w true) start diff edit skip) (update_url_pointers (fun w => rec2 w true) start diff edit skip).
Proof.
  intros start diff edit skip. unfold update_url_pointers.
  apply le_bind; [apply le_refl|]. intros _. apply le_bind; [apply le_refl|]. intros _. apply le_bind; [apply le_refl|]. intro n.
  apply le_bind; [|intros _; apply le_refl]. apply le_for. intro e. apply le_update_redirect.
Qed.
Lemma le_retarget : forall j urls, le_m (retarget (fun w => rec1 w false) urls j) (retarget (fun w => rec2 w false) urls j).
Proof.
  intros j. induction urls as [|u urls IH]; cbn [retarget]; [apply le_refl|].
  apply le_bind; [apply le_refl|]. intro e. apply le_bind; [apply le_refl|]. intro e'. apply le_bind; [apply Hrec|]. intros _. exact IH.
Qed.
Lemma le_write_body : forall w u a, le_m (write_body rec1 w u a) (write_body rec2 w u a).
Proof.
  intros w u a. unfold write_body.
  repeat (apply le_bind; [solve [apply le_refl]|]; intro).
  apply le_bind.
  { destruct a2 as [o|]; [|apply le_refl]. destruct (_ || _); [|apply le_refl]. apply le_bind; [apply le_refl|]. intros _. apply le_uup. }
  intros _. apply le_bind.
  { destruct (_ || _); [|apply le_refl]. apply le_bind; [apply le_refl|]. intro i. apply le_bind; [apply le_uup|]. intros _. apply le_refl. }
  intros [ni e']. apply le_bind; [apply le_refl|]. intros _. apply le_bind; [|intros _; apply le_refl].
  destruct (opt_eqb _ _); [apply le_refl|apply le_retarget].
Qed.
End Deeper.

Lemma write_fuel_step : forall n w u a, le_m (write_entry_rec n w u a) (write_entry_rec (S n) w u a).
Proof.
  induction n as [|n IH]; intros w u a; [intro s; left; reflexivity|].
  change (write_entry_rec (S n) w u a) with (write_body (fun w u => write_entry_rec n w u true) w u a).
  change (write_entry_rec (S (S n)) w u a) with (write_body (fun w u => write_entry_rec (S n) w u true) w u a).
  apply le_write_body. intros w' u'. apply IH.
Qed.

(** The depth of the recursion does not matter once a result is reached. *)
Theorem write_entry_depth : forall n m w s, (n <= m)%nat -> fst (write_entry n w s) <> Err Diverge -> write_entry m w s = write_entry n w s.
Proof.
  intros n m w s Hnm H. induction Hnm as [|m Hnm IH]; [reflexivity|]. rewrite <- IH. unfold write_entry in *.
  destruct (write_fuel_step m w true true s) as [D|D]; [|exact D]. rewrite IH in D. contradiction.
Qed.

(** ** Adding *)
Lemma addable_article : forall s L w, consistent s L -> addable L w -> exists a, is_article s w = Ok a /\ (a = true -> e_ns (w_entry w) = NS_C) /\
  (a = true <-> w_force w = Some true).
Proof.
  intros s L w [(cells & <- & C) _ _ _ _] A. destruct (ad_enc _ _ A) as [b Hb]. unfold is_article. destruct (w_force w) as [f|] eqn:Ef.
  - exists f. split; [reflexivity|]. split; [intros ->; apply (ad_article _ _ A); exact Ef|]. split; [intros ->; reflexivity|congruence].
  - exists false. split; [|split; [discriminate|split; discriminate]]. destruct (ueqb (e_ns (w_entry w)) NS_C) eqn:En; cbn [negb]; [|reflexivity].
    apply ueqb_eq in En. unfold entry_at_url_is_article. rewrite (ad_ns _ _ A Ef En). cbn [negb].
    rewrite (url_index_missing s cells _ b C Hb); [reflexivity|]. intros c Hc. apply (ad_old _ _ A). apply in_map. exact Hc.
Qed.

Lemma shift_kind_ptr : forall p d skip e r, kind_consistent e -> e_kind e = Redirect r -> umem (full_url e) skip = false ->
  e_kind (shift_entry p d skip e) = Redirect (shift_ptr p d r).
Proof.
  intros p d skip e r K Hr Hm. unfold shift_entry, touched, shift_ptr. rewrite (kind_redirect _ _ K Hr), Hm, Hr. cbn [andb negb].
  destruct (p <=? r); [reflexivity|exact Hr].
Qed.

(** the state after adding [w] at position [p] *)
Definition added (s : zim) (L : list entry) (w : went) (p : Z) (a : bool) (s' : zim) : Prop :=
  exists L' off, consistent s' L' /\ zlen L' = zlen L + 1 /\ renumbers (shift_ptr p 1) (fun _ => True) L L' /\ znth L' p = Some (bumped p (w_entry w)) /\
    (forall j, In j (pl_ptrs (z_atpl s')) <-> (j = p /\ a = true) \/ exists i, In i (pl_ptrs (z_atpl s)) /\ j = shift_ptr p 1 i) /\
    z_main s' = shift_main p 1 (z_main s) /\
    (forall x, in_use (z_alloc s') x <-> in_use (z_alloc s) x \/ occupies (off, w_entry w) x) /\
    (forall x, occupies (off, w_entry w) x -> ~ in_use (z_alloc s) x) /\
    keeps (z_file s) (z_file s') (fun x => in_use (z_alloc s) x /\ outside s (full_url (w_entry w)) x) /\ zlen (z_file s) <= zlen (z_file s') /\
    (z_etpl s = None <-> z_etpl s' = None) /\ (forall q, In q (pl_ptrs (z_upl s')) -> In q (pl_ptrs (z_upl s)) \/ q = off).

Lemma outside_cells : forall s cells u x, core s cells -> outside s u x ->
  forall c, In c cells -> full_url (snd c) = u \/ is_redirect (snd c) = true -> ~ occupies c x.
Proof.
  intros s cells u x C O [p e] Hc Hr. apply (O p e); [|apply stored_read|exact Hr].
  - rewrite (co_locs _ _ C). apply in_map_iff. exists (p, e). auto.
  - pose proof (co_stored _ _ C) as F. rewrite Forall_forall in F. exact (F _ Hc).
Qed.

Theorem add_ok : forall s L w n, consistent s L -> addable L w ->
  exists LA LB, L = LA ++ LB /\ (forall e, In e LA -> url_lt e (w_entry w)) /\ (forall e, In e LB -> url_lt (w_entry w) e) /\
  exists a, is_article s w = Ok a /\ (a = true <-> w_force w = Some true) /\
   ((exists s', write_entry (S (S n)) w s = (Ok tt, s') /\ added s L w (zlen LA) a s') \/
    (exists s' p, In p (pl_ptrs (z_upl s)) /\ p <= zlen L /\ write_entry (S (S n)) w s = (Err AssertionError, s'))).
Proof.
  intros s L w n CS AD. destruct (addable_article _ _ _ CS AD) as (a & Ha & HaC & Haf).
  pose proof CS as [(cells & EL & C) Hcomp Htg Hmain Hcnt].
  assert (Ln : zlen cells = zlen L) by (subst L; rewrite zlen_map; reflexivity).
  destruct (ad_enc _ _ AD) as [b Hb].
  destruct (write_new (fun w u => write_entry_rec (S n) w u true) true w s cells a) as (A & B & off & EC & [Ho1 Ho2] & Hout).
  - exists (fun w u => write_entry_rec n w u true). intro w'. reflexivity.
  - exact C.
  - rewrite Ln. exact Hcomp.
  - intros c r Hc Hr. rewrite Ln. apply (Htg (snd c) r); [subst L; apply in_map; exact Hc|exact Hr].
  - rewrite Ln. apply (ad_count _ _ AD).
  - apply (ad_storable _ _ AD).
  - apply (ad_kind _ _ AD).
  - intros c Hc. apply (ad_url _ _ AD). subst L. apply in_map. exact Hc.
  - intros r Hr. rewrite Ln. apply (ad_target _ _ AD r Hr).
  - apply (find_old_new s cells w b C Hb). intros c Hc. apply (ad_old _ _ AD). subst L. apply in_map. exact Hc.
  - exact Ha.
  - exact HaC.
  - exists (map snd A), (map snd B). split; [subst L cells; apply map_app|].
    split. { intros e He. apply in_map_iff in He as (c & <- & Hc). auto. }
    split. { intros e He. apply in_map_iff in He as (c & <- & Hc). auto. }
    exists a. split; [exact Ha|]. split; [exact Haf|]. cbv zeta in Hout. rewrite zlen_map.
    set (p := zlen A) in *. set (u := full_url (w_entry w)) in *. set (sh := shift_cell p 1 [u]) in *.
    assert (Hp : 0 <= p <= zlen cells). { subst cells. rewrite zlen_app. pose proof (zlen_nonneg A). pose proof (zlen_nonneg B). lia. }
    assert (Hsk : forall e, In e L -> umem (full_url e) [u] = false).
    { intros e He. unfold umem. cbn [existsb]. rewrite orb_false_r. apply ueqb_neq. apply (ad_url _ _ AD). exact He. }
    destruct Hout as [(s' & W & C' & Hc' & Hat & Hm & Hu & Hnew & K & Le & He & _)|(s' & c & Hc & [T Hcl] & W)].
    + left. exists s'. split; [exact W|]. exists (map snd (map sh A ++ (off, bumped p (w_entry w)) :: map sh B)), off.
      assert (EL' : map snd (map sh A ++ (off, bumped p (w_entry w)) :: map sh B) =
                    map (shift_entry p 1 [u]) (map snd A) ++ bumped p (w_entry w) :: map (shift_entry p 1 [u]) (map snd B)).
      { rewrite map_app. cbn [map snd]. rewrite !map_map. reflexivity. }
      assert (Ln' : zlen (map snd (map sh A ++ (off, bumped p (w_entry w)) :: map sh B)) = zlen L + 1).
      { rewrite zlen_map, zlen_app, zlen_cons, !zlen_map. rewrite <- Ln, EC, zlen_app. lia. }
      assert (RN : renumbers (shift_ptr p 1) (fun _ => True) L (map snd (map sh A ++ (off, bumped p (w_entry w)) :: map sh B))).
      { intros i e Hi _. exists (shift_entry p 1 [u] e). rewrite EL'. split.
        - pose proof (znth_insert (map (shift_entry p 1 [u]) (map snd A)) (map (shift_entry p 1 [u]) (map snd B)) (bumped p (w_entry w)) i) as Z1.
          rewrite !zlen_map in Z1. fold p in Z1. rewrite Z1, <- map_app, <- map_app, <- EC, EL, znth_map, Hi. reflexivity.
        - split; [apply same_shift|]. intros r Hr _. apply shift_kind_ptr; [|exact Hr|apply Hsk; eapply znth_in; eauto].
          eapply consistent_kind; [exact CS|]. eapply znth_in; eauto. }
      split.
      { constructor.
        - eauto.
        - rewrite Ln', <- Ln. exact Hc'.
        - intros e r Hin Hr. rewrite Ln'. rewrite EL' in Hin. apply in_app_or in Hin.
          assert (Hold : forall e0, In e0 L -> e = shift_entry p 1 [u] e0 -> 0 <= r < zlen L + 1).
          { intros e0 He0 ->. pose proof (consistent_kind _ _ _ CS He0) as Kc. destruct (e_kind e0) as [cc bb|r0] eqn:Ek.
            - unfold shift_entry, touched in Hr. rewrite Ek, andb_false_r, Ek in Hr. discriminate.
            - rewrite (shift_kind_ptr _ _ _ _ _ Kc Ek (Hsk _ He0)) in Hr. injection Hr as <-. pose proof (Htg e0 r0 He0 Ek). unfold shift_ptr. destruct (p <=? r0); lia. }
          destruct Hin as [Hin|[<-|Hin]].
          + apply in_map_iff in Hin as (e0 & <- & He0). apply (Hold e0); [|reflexivity]. rewrite <- EL, EC, map_app. apply in_or_app. left. exact He0.
          + unfold bumped in Hr. destruct (e_kind (w_entry w)) as [|r0] eqn:Ek; [congruence|]. pose proof (ad_target _ _ AD r0 Ek).
            destruct (p <=? r0); [cbn in Hr; injection Hr as <-; lia|]. rewrite Ek in Hr. injection Hr as <-. lia.
          + apply in_map_iff in Hin as (e0 & <- & He0). apply (Hold e0); [|reflexivity]. rewrite <- EL, EC, map_app. apply in_or_app. right. exact He0.
        - intros m Hm'. rewrite Ln'. rewrite Hm in Hm'. unfold shift_main in Hm'. destruct (z_main s) as [m0|] eqn:Em; [|discriminate].
          injection Hm' as <-. pose proof (Hmain m0 eq_refl). destruct (p <? m0); lia.
        - rewrite Ln'. apply (ad_count _ _ AD). }
      split; [exact Ln'|]. split; [exact RN|]. split.
      { rewrite EL'. pose proof (znth_mid (map (shift_entry p 1 [u]) (map snd A)) (map (shift_entry p 1 [u]) (map snd B)) (bumped p (w_entry w))) as Z1.
        rewrite !zlen_map in Z1. exact Z1. }
      split; [exact Hat|]. split; [exact Hm|]. split; [exact Hu|]. split; [exact Hnew|]. split; [|split; [exact Le|split; [exact He|]]].
      { eapply keeps_weaken; [exact K|]. intros x [Hx Ho]. split; [exact Hx|]. intros c Hc T. apply (outside_cells s cells u x C Ho c Hc). right. eapply touched_redirect; eauto. }
      intros q Hq. rewrite (co_locs _ _ C'), map_app in Hq. cbn [map fst] in Hq. rewrite !map_map in Hq. cbn [sh shift_cell fst] in Hq.
      rewrite (co_locs _ _ C), EC, map_app. apply in_app_or in Hq as [Hq|[Hq|Hq]]; [left; apply in_or_app; left; exact Hq|right; auto|left; apply in_or_app; right; exact Hq].
    + right. exists s', (fst c). split; [rewrite (co_locs _ _ C); apply in_map; exact Hc|]. split; [|exact W].
      assert (HcL : In (snd c) L) by (subst L; apply in_map; exact Hc).
      destruct (e_kind (snd c)) as [|r] eqn:Ek; [unfold touched in T; rewrite Ek, andb_false_r in T; discriminate|].
      rewrite (shift_kind_ptr _ _ _ _ _ (consistent_kind _ _ _ CS HcL) Ek (Hsk _ HcL)) in Hcl. injection Hcl as Hcl.
      pose proof (Htg _ _ HcL Ek). unfold shift_ptr in Hcl. destruct (p <=? r); lia.
Qed.

(** ** Rewriting in place *)
Lemma znth_split : forall {A} (l : list A) i x, znth l i = Some x -> exists a b, l = a ++ x :: b /\ zlen a = i.
Proof.
  intros A l i x H. pose proof (znth_some _ _ _ H) as Hb. unfold znth in H. replace (i <? 0) with false in H by lia.
  apply nth_error_split in H as (a & b & -> & Hl). exists a, b. split; [reflexivity|]. unfold zlen. lia.
Qed.

(** the state after rewriting in place *)
Definition rewritten (s : zim) (L : list entry) (w : went) (i : Z) (a : bool) (s' : zim) : Prop :=
  exists LA e0 LB, L = LA ++ e0 :: LB /\ zlen LA = i /\ consistent s' (LA ++ w_entry w :: LB) /\
    z_upl s' = z_upl s /\ z_main s' = z_main s /\ z_alloc s' = z_alloc s /\
    (forall j, In j (pl_ptrs (z_atpl s')) <-> (j = i /\ a = true) \/ (j <> i /\ In j (pl_ptrs (z_atpl s)))) /\
    keeps (z_file s) (z_file s') (outside s (full_url (w_entry w))) /\ zlen (z_file s') = zlen (z_file s) /\
    (z_etpl s = None <-> z_etpl s' = None).

Theorem rewrite_ok : forall s L i e0 w n, consistent s L -> rewritable s L i e0 w -> stays e0 (w_entry w) ->
  exists a s', is_article s w = Ok a /\ write_entry (S n) w s = (Ok tt, s') /\ rewritten s L w i a s'.
Proof.
  intros s L i e0 w n CS RW [Hu Hsp]. pose proof CS as [(cells & EL & C) Hcomp Htg Hmain Hcnt].
  destruct (rw_article _ _ _ _ _ RW) as (a & Ha & HaC). exists a.
  pose proof (rw_at _ _ _ _ _ RW) as Hz. rewrite <- EL, znth_map in Hz. destruct (znth cells i) as [[p e00]|] eqn:Hc; [|discriminate]. cbn in Hz. injection Hz as ->.
  destruct (znth_split _ _ _ Hc) as (A & B & EC & HA). subst i.
  destruct (write_in_place (fun w u => write_entry_rec n w u true) true s A p e0 B w a) as (s' & W & C' & Eu & Em & Eal & K & Le & Re & Hat).
  - rewrite <- EC. exact C.
  - apply (rw_old _ _ _ _ _ RW).
  - exact Hu.
  - apply (rw_storable _ _ _ _ _ RW).
  - apply (rw_kind _ _ _ _ _ RW).
  - exact Hsp.
  - exact Ha.
  - exact HaC.
  - intros t Ht. apply (Hcomp t Ht). rewrite <- EL, zlen_map, EC, zlen_app, zlen_cons. pose proof (zlen_nonneg A). pose proof (zlen_nonneg B). lia.
  - intros r Hr. rewrite <- EC. pose proof (rw_target _ _ _ _ _ RW r Hr) as Hb. rewrite <- EL, zlen_map in Hb. exact Hb.
  - exists s'. split; [exact Ha|]. split; [exact W|]. exists (map snd A), e0, (map snd B).
    assert (Ln : zlen (map snd A ++ w_entry w :: map snd B) = zlen L).
    { rewrite <- EL, EC, !zlen_map, !zlen_app, !zlen_cons, !zlen_map. reflexivity. }
    split; [rewrite <- EL, EC, map_mid; reflexivity|]. split; [apply zlen_map|]. split.
    { constructor.
      - exists (A ++ (p, w_entry w) :: B). split; [rewrite map_mid; reflexivity|exact C'].
      - rewrite Ln. intros t Ht j Hj. destruct (z_etpl s) as [t0|] eqn:Et; rewrite Ht in Re; cbn [etpl_rel] in Re; [|contradiction].
        eapply Permutation_in; [apply Permutation_sym; exact Re|]. apply (Hcomp t0 Et). exact Hj.
      - intros e r Hin Hr. rewrite Ln. apply in_app_or in Hin. destruct Hin as [Hin|[<-|Hin]].
        + apply (Htg e r); [|exact Hr]. rewrite <- EL, EC, map_app. apply in_or_app. left. exact Hin.
        + apply (rw_target _ _ _ _ _ RW r Hr).
        + apply (Htg e r); [|exact Hr]. rewrite <- EL, EC, map_app. apply in_or_app. right. right. exact Hin.
      - intros m Hm. rewrite Ln. apply Hmain. congruence.
      - rewrite Ln. exact Hcnt. }
    split; [exact Eu|]. split; [exact Em|]. split; [exact Eal|]. split; [exact Hat|]. split.
    { eapply keeps_weaken; [exact K|]. intros x Ho. apply (outside_cells s cells _ x C Ho (p, e0)); [rewrite EC; apply in_or_app; right; left; reflexivity|].
      left. symmetry. exact Hu. }
    split; [exact Le|]. destruct (z_etpl s), (z_etpl s'); cbn [etpl_rel] in Re; try contradiction; split; congruence.
Qed.

(** ** Relocating and renaming *)
Lemma ultb_asym : forall a b, ultb a b = true -> ultb b a = true -> False.
Proof.
  induction a as [|x a IH]; intros [|y b] H1 H2; cbn [ultb] in *; try discriminate.
  apply orb_prop in H1. apply orb_prop in H2. destruct H1 as [H1|H1], H2 as [H2|H2]; try lia.
  apply andb_prop in H1 as [_ H1]. apply andb_prop in H2 as [_ H2]. eapply IH; eauto.
Qed.

Lemma app_len_inj : forall {A} (a b c d : list A), a ++ b = c ++ d -> zlen a = zlen c -> a = c /\ b = d.
Proof.
  intros A a. induction a as [|x a IH]; intros b [|y c] d H Hl.
  - auto.
  - rewrite zlen_cons in Hl. pose proof (zlen_nonneg c). change (zlen (@nil A)) with 0 in Hl. lia.
  - rewrite zlen_cons in Hl. pose proof (zlen_nonneg a). change (zlen (@nil A)) with 0 in Hl. lia.
  - rewrite !zlen_cons in Hl. cbn in H. injection H as -> H. destruct (IH b c d H ltac:(lia)) as [-> ->]. auto.
Qed.

Definition move_ptr (i j k : Z) : Z := if k =? i then j else shift_ptr j 1 (shift_ptr i (-1) k).

(** the state after moving entry [i] to position [j] *)
Definition moved (s : zim) (L : list entry) (w : went) (i j : Z) (a : bool) (s' : zim) : Prop :=
  exists L' p0 e0 off, znth L i = Some e0 /\ In p0 (pl_ptrs (z_upl s)) /\ get_entry_at s p0 = Ok e0 /\
    consistent s' L' /\ zlen L' = zlen L /\
    (forall k e, znth L k = Some e -> k <> i -> exists e', znth L' (move_ptr i j k) = Some e' /\ same_entry e e' /\
       (forall r, e_kind e = Redirect r -> e_kind e' = Redirect (move_ptr i j r))) /\
    (exists e', znth L' j = Some e' /\ same_entry (w_entry w) e' /\
       (forall r, e_kind (w_entry w) = Redirect r -> e_kind e' = Redirect (move_ptr i j r))) /\
    (forall k, In k (pl_ptrs (z_atpl s')) <-> (k = j /\ a = true) \/ exists k0, In k0 (pl_ptrs (z_atpl s)) /\ k0 <> i /\ k = move_ptr i j k0) /\
    z_main s' = shift_main j 1 (shift_main i (-1) (z_main s)) /\
    (forall x, in_use (z_alloc s') x <-> (in_use (z_alloc s) x /\ ~ occupies (p0, e0) x) \/ occupies (off, w_entry w) x) /\
    (forall x, occupies (off, w_entry w) x -> ~ (in_use (z_alloc s) x /\ ~ occupies (p0, e0) x)) /\
    keeps (z_file s) (z_file s') (fun x => in_use (z_alloc s) x /\ outside s (full_url e0) x) /\ zlen (z_file s) <= zlen (z_file s') /\
    (z_etpl s = None <-> z_etpl s' = None).

Lemma same_moved : forall i j u U (c : Z * entry), (forall v, In v U -> full_url (snd c) = v -> exists r, e_kind (snd c) = Redirect r) ->
  same_entry (snd c) (snd (moved_cell i j u U c)).
Proof.
  intros i j u U c H. unfold moved_cell, retarget_cell.
  assert (S2 : same_entry (snd c) (snd (shift_cell j 1 [u] (shift_cell i (-1) [] c)))).
  { unfold shift_cell. cbn [snd]. eapply same_trans; apply same_shift. }
  destruct (umem (full_url (snd (shift_cell j 1 [u] (shift_cell i (-1) [] c)))) U) eqn:Em; [|exact S2]. cbn [snd].
  eapply same_trans; [exact S2|]. apply umem_in in Em. destruct (H _ Em) as [r Hr].
  - unfold shift_cell. cbn [snd]. rewrite !shift_full_url. reflexivity.
  - destruct S2 as (_ & _ & _ & _ & K). rewrite Hr in K.
    destruct (e_kind (snd (shift_cell j 1 [u] (shift_cell i (-1) [] c)))) as [|r2] eqn:E2; [contradiction|]. eapply same_wri; exact E2.
Qed.

Lemma kind_consistent_same : forall a b, same_entry a b -> kind_consistent a -> kind_consistent b.
Proof. intros a b (H1 & _ & _ & _ & H5) K. unfold kind_consistent in *. rewrite <- H1. destruct (e_kind a), (e_kind b); try contradiction; exact K. Qed.

Theorem move_ok : forall s L i e0 w n, consistent s L -> rewritable s L i e0 w -> ~ stays e0 (w_entry w) -> movable s L i e0 (w_entry w) ->
  exists LA LB, (exists MA MB, L = MA ++ e0 :: MB /\ zlen MA = i /\ MA ++ MB = LA ++ LB) /\
    (forall e, In e LA -> url_lt e (w_entry w)) /\ (forall e, In e LB -> url_lt (w_entry w) e) /\
  exists a, is_article s w = Ok a /\
   ((exists s', write_entry (S (S n)) w s = (Ok tt, s') /\ moved s L w i (zlen LA) a s') \/
    (exists s' p, In p (pl_ptrs (z_upl s)) /\ p <= zlen L /\ write_entry (S (S n)) w s = (Err AssertionError, s'))).
Proof.
  intros s L i e0 w n CS RW NS MV. pose proof CS as [(cells & EL & C) Hcomp Htg Hmain Hcnt].
  destruct (rw_article _ _ _ _ _ RW) as (a & Ha & HaC).
  pose proof (rw_at _ _ _ _ _ RW) as HzL. pose proof HzL as Hz. rewrite <- EL, znth_map in Hz. destruct (znth cells i) as [[p e00]|] eqn:Hc; [|discriminate]. cbn in Hz. injection Hz as ->.
  destruct (znth_split _ _ _ Hc) as (A & B & EC & HA).
  assert (Ln : zlen cells = zlen L) by (subst L; rewrite zlen_map; reflexivity).
  assert (HinL : forall c, In c (A ++ B) -> In (snd c) L).
  { intros c Hc'. rewrite <- EL. apply in_map. rewrite EC. apply in_app_or in Hc'. apply in_or_app. destruct Hc'; [auto|right; right; auto]. }
  assert (Hne : forall c, In c (A ++ B) -> full_url (snd c) <> full_url e0).
  { intros c Hc' Hu. apply in_znth in Hc' as [k Hk].
    assert (Hk' : znth (A ++ (p, e0) :: B) (shift_ptr (zlen A) 1 k) = Some c) by (rewrite znth_insert; exact Hk).
    assert (shift_ptr (zlen A) 1 k = i).
    { apply (url_unique L) with (a := snd c) (b := e0); [eapply consistent_sorted; eauto| | exact HzL|exact Hu]. rewrite <- EL, EC, znth_map, Hk'. reflexivity. }
    unfold shift_ptr in H. destruct (zlen A <=? k) eqn:Ek; lia. }
  assert (Hfr : forall c, In c (A ++ B) -> full_url (snd c) <> full_url (w_entry w)).
  { intros c Hc'. destruct (rw_url _ _ _ _ _ RW) as [Hu|Hu]; [rewrite Hu; apply Hne; exact Hc'|]. apply Hu. apply HinL. exact Hc'. }
  assert (Hi0 : 0 <= i) by (apply znth_some in HzL; lia).
  destruct (write_move (fun w u => write_entry_rec (S n) w u true) w s A p e0 B a) as (A' & B' & off & EAB & Ho1 & Ho2 & Hout).
  - exists (fun w u => write_entry_rec n w u true). intro w'. reflexivity.
  - exists (fun w u => write_entry_rec n w u true). intro w'. reflexivity.
  - rewrite <- EC. exact C.
  - rewrite <- EC, Ln. exact Hcomp.
  - intros c r Hc' Hr. rewrite <- EC, Ln. apply (Htg (snd c) r); [apply HinL; exact Hc'|exact Hr].
  - rewrite <- EC, Ln. exact Hcnt.
  - apply (rw_old _ _ _ _ _ RW).
  - rewrite HA. apply (mv_self _ _ _ _ _ MV).
  - apply (rw_storable _ _ _ _ _ RW).
  - apply (rw_kind _ _ _ _ _ RW).
  - destruct (list_eq_dec Z.eq_dec (full_url (w_entry w)) (full_url e0)) as [Hu|Hu]; [right|left; exact Hu]. intro Hsp. apply NS. split; assumption.
  - exact Hfr.
  - intros r Hr. rewrite HA. pose proof (rw_target _ _ _ _ _ RW r Hr). pose proof (mv_own _ _ _ _ _ MV r Hr). lia.
  - intros d Hd Hr. rewrite HA. destruct (Z.eq_dec i 0) as [E0|]; [|lia]. rewrite E0 in MV.
    destruct (mv_in _ _ _ _ _ MV (snd d) (HinL d Hd)) as [H0 _]; [|exact Hr|lia]. intro E. apply (Hne d Hd). rewrite E. reflexivity.
  - exact Ha.
  - exact HaC.
  - exists (map snd A'), (map snd B'). split.
    { exists (map snd A), (map snd B). split; [rewrite <- EL, EC, map_mid; reflexivity|]. split; [rewrite zlen_map; exact HA|]. rewrite <- !map_app, EAB. reflexivity. }
    split. { intros e He. apply in_map_iff in He as (c & <- & Hc'). auto. }
    split. { intros e He. apply in_map_iff in He as (c & <- & Hc'). auto. }
    exists a. split; [exact Ha|]. cbv zeta in Hout. rewrite zlen_map. rewrite HA in Hout. set (j := zlen A') in *. set (u := full_url (w_entry w)) in *.
    rewrite <- EC in Hout. rewrite EL in Hout.
    set (U := if negb (ueqb (full_url e0) u) && negb (i =? j) then redirects_to i L else []) in *.
    set (g := moved_cell i j u U) in *.
    assert (Hj : 0 <= j < zlen cells).
    { assert (zlen (A ++ B) = zlen (A' ++ B')) as E by (rewrite EAB; reflexivity). rewrite !zlen_app in E. rewrite EC, zlen_app, zlen_cons.
      pose proof (zlen_nonneg A'). pose proof (zlen_nonneg B'). unfold j. lia. }
    pose proof (consistent_sorted _ _ CS) as So. rewrite <- EL, EC, map_mid in So.
    assert (HloA : forall c, In c A -> url_lt (snd c) e0).
    { intros c Hc'. apply in_znth in Hc' as [k Hk]. pose proof (znth_some _ _ _ Hk). apply (ssorted_znth url_lt _ So k (zlen (map snd A))); [|apply znth_mid|rewrite zlen_map; lia].
      rewrite znth_app_l by (rewrite zlen_map; lia). rewrite znth_map, Hk. reflexivity. }
    assert (HloB : forall c, In c B -> url_lt e0 (snd c)).
    { intros c Hc'. apply in_znth in Hc' as [k Hk]. pose proof (znth_some _ _ _ Hk). pose proof (zlen_nonneg A).
      apply (ssorted_znth url_lt _ So (zlen (map snd A)) (zlen (map snd A) + (k + 1))); [apply znth_mid| |lia].
      rewrite znth_app_r by (rewrite zlen_map; lia). replace (zlen (map snd A) + (k + 1) - zlen (map snd A)) with (k + 1) by lia.
      change (snd (p, e0) :: map snd B) with ([e0] ++ map snd B). rewrite znth_app_r by (change (zlen [e0]) with 1; lia). change (zlen [e0]) with 1.
      replace (k + 1 - 1) with k by lia. rewrite znth_map, Hk. reflexivity. }
    assert (Hsamepos : u = full_url e0 -> j = i).
    { intro Eu. destruct (Z.lt_trichotomy j i) as [Hlt|[Heq|Hgt]]; [|exact Heq|]; exfalso.
      - (* the entry at j is in A and in B' *)
        destruct (znth_ex A j) as [c Hcj]; [lia|].
        assert (E1 : znth (A ++ B) j = Some c) by (rewrite znth_app_l by lia; exact Hcj).
        rewrite EAB, znth_app_r in E1 by (unfold j; lia). apply znth_in in E1. apply znth_in in Hcj.
        pose proof (HloA c Hcj) as Q1. pose proof (Ho2 c E1) as Q2. unfold url_lt in *. unfold u in Eu. rewrite Eu in Q2. exact (ultb_asym _ _ Q1 Q2).
      - destruct (znth_ex A' i) as [c Hcj]; [unfold j in Hgt; lia|].
        assert (E1 : znth (A' ++ B') i = Some c) by (rewrite znth_app_l by (unfold j in Hgt; lia); exact Hcj).
        rewrite <- EAB, znth_app_r in E1 by lia. apply znth_in in E1. apply znth_in in Hcj.
        pose proof (HloB c E1) as Q1. pose proof (Ho1 c Hcj) as Q2. unfold url_lt in *. unfold u in Eu. rewrite Eu in Q2. exact (ultb_asym _ _ Q1 Q2). }
    (* the kind of the other entries *)
    assert (Hin_i : forall c, In c (A ++ B) -> e_kind (snd c) = Redirect i -> U = redirects_to i L).
    { intros c Hc' Hr. destruct (mv_in _ _ _ _ _ MV (snd c) (HinL c Hc')) as [H0 (x & Hx & Hbt)]; [|exact Hr|].
      { intro E. apply (Hne c Hc'). rewrite E. reflexivity. }
      unfold U. assert (Hue : ueqb (full_url e0) u = false).
      { apply ueqb_neq. intro E. unfold u in E. unfold between in Hbt. rewrite <- E in Hbt. destruct Hbt as [[b1 b2]|[b1 b2]]; exact (ultb_asym _ _ b1 b2). }
      rewrite Hue. cbn [negb andb]. destruct (Z.eqb_spec i j) as [Eij|]; [|reflexivity]. exfalso.
      destruct (app_len_inj A B A' B' EAB) as [-> ->]; [rewrite HA; exact Eij|].
      rewrite <- EL, EC, map_mid in Hx. apply in_app_or in Hx. destruct Hx as [Hx|[<-|Hx]].
      - apply in_map_iff in Hx as (c' & <- & Hc''). specialize (Ho1 c' Hc''). pose proof (HloA c' Hc'') as Q. unfold url_lt in *.
        destruct Hbt as [[b1 b2]|[b1 b2]]; [exact (ultb_asym _ _ Q b1)|exact (ultb_asym _ _ Ho1 b1)].
      - cbn [snd] in Hbt. destruct Hbt as [[b1 b2]|[b1 b2]]; [rewrite ultb_irrefl in b1|rewrite ultb_irrefl in b2]; discriminate.
      - apply in_map_iff in Hx as (c' & <- & Hc''). specialize (Ho2 c' Hc''). pose proof (HloB c' Hc'') as Q. unfold url_lt in *.
        destruct Hbt as [[b1 b2]|[b1 b2]]; [exact (ultb_asym _ _ Ho2 b2)|exact (ultb_asym _ _ Q b2)]. }
    assert (HU : forall c v, In c (A ++ B) -> In v U -> full_url (snd c) = v -> e_kind (snd c) = Redirect i).
    { intros c v Hc' Hv Hu. unfold U in Hv. destruct (_ && _); [|contradiction]. apply in_redirects_to in Hv as (e1 & He1 & Hu1 & _ & Hk1).
      assert (e1 = snd c).
      { apply in_znth in He1 as [k1 Hk1']. pose proof (HinL c Hc') as H2. apply in_znth in H2 as [k2 Hk2'].
        assert (k1 = k2) by (eapply (url_unique L); [eapply consistent_sorted; eauto|exact Hk1'|exact Hk2'|congruence]). subst. congruence. }
      subst. exact Hk1. }
    assert (Hkind : forall c r, In c (A ++ B) -> e_kind (snd c) = Redirect r -> e_kind (snd (g c)) = Redirect (move_ptr i j r)).
    { intros c r Hc' Hr. pose proof (consistent_kind _ _ _ CS (HinL c Hc')) as Kc. unfold g, moved_cell, retarget_cell, shift_cell. cbn [fst snd].
      rewrite !shift_full_url. destruct (umem (full_url (snd c)) U) eqn:Em.
      - apply umem_in in Em. assert (r = i). { pose proof (HU c _ Hc' Em eq_refl). congruence. } subst r. cbn [snd with_redirect_index e_kind].
        unfold move_ptr. rewrite Z.eqb_refl. reflexivity.
      - cbn [snd]. assert (Hri : r <> i).
        { intros ->. rewrite (Hin_i c Hc' Hr) in Em. assert (In (full_url (snd c)) (redirects_to i L)).
          { apply in_redirects_to. exists (snd c). split; [apply HinL; exact Hc'|]. split; [reflexivity|]. split; [eapply kind_redirect; eauto|exact Hr]. }
          apply umem_in in H. congruence. }
        unfold move_ptr. replace (r =? i) with false by lia.
        apply shift_kind_ptr.
        + eapply kind_consistent_same; [apply same_shift|exact Kc].
        + apply shift_kind_ptr; [exact Kc|exact Hr|reflexivity].
        + rewrite shift_full_url. unfold umem. cbn [existsb]. rewrite orb_false_r. apply ueqb_neq. apply Hfr. exact Hc'. }
    assert (Hsame : forall c, In c (A ++ B) -> same_entry (snd c) (snd (g c))).
    { intros c Hc'. apply same_moved. intros v Hv Hu. exists i. eapply HU; eauto. }
    destruct Hout as [(s' & W & C' & Hc' & Hat & Hm & Hus & Hnew & K & Le & He)|(s' & c & Hc1 & Hrd & Hcl & W)].
    + left. exists s'. split; [exact W|]. exists (map snd (map g A' ++ (off, bumped j (w_entry w)) :: map g B')), p, e0, off.
      assert (Ln' : zlen (map snd (map g A' ++ (off, bumped j (w_entry w)) :: map g B')) = zlen L).
      { rewrite zlen_map, zlen_app, zlen_cons, !zlen_map. rewrite <- Ln, EC, zlen_app, zlen_cons.
        assert (zlen (A ++ B) = zlen (A' ++ B')) as E by (rewrite EAB; reflexivity). rewrite !zlen_app in E. lia. }
      assert (Hnth : forall k c, znth (A ++ (p, e0) :: B) k = Some c -> k <> i ->
                znth (map snd (map g A' ++ (off, bumped j (w_entry w)) :: map g B')) (move_ptr i j k) = Some (snd (g c))).
      { intros k c Hk Hki. unfold move_ptr. replace (k =? i) with false by lia.
        rewrite znth_map. pose proof (znth_insert (map g A') (map g B') (off, bumped j (w_entry w)) (shift_ptr i (-1) k)) as Z1.
        rewrite zlen_map in Z1. fold j in Z1. rewrite Z1, <- map_app, <- EAB, znth_map, <- HA, (znth_delete A B (p, e0)) by lia. rewrite Hk. reflexivity. }
      assert (Hmid : znth (map snd (map g A' ++ (off, bumped j (w_entry w)) :: map g B')) j = Some (bumped j (w_entry w))).
      { rewrite znth_map. pose proof (znth_mid (map g A') (map g B') (off, bumped j (w_entry w))) as Z1. rewrite zlen_map in Z1. fold j in Z1. rewrite Z1. reflexivity. }
      assert (Hown : forall r, e_kind (w_entry w) = Redirect r -> e_kind (bumped j (w_entry w)) = Redirect (move_ptr i j r)).
      { intros r Hr. pose proof (rw_target _ _ _ _ _ RW r Hr). pose proof (mv_own _ _ _ _ _ MV r Hr).
        unfold bumped, move_ptr, shift_ptr. rewrite Hr. replace (r =? i) with false by lia. replace (i <=? r) with false by lia. destruct (j <=? r); [reflexivity|exact Hr]. }
      assert (Hmp : forall r, 0 <= r < zlen L -> 0 <= move_ptr i j r < zlen L).
      { intros r Hr. unfold move_ptr, shift_ptr. destruct (Z.eqb_spec r i); [lia|]. pose proof (znth_some _ _ _ HzL).
        destruct (Z.leb_spec i r); [destruct (Z.leb_spec j (r + -1))|destruct (Z.leb_spec j r)]; lia. }
      split; [exact HzL|]. split; [rewrite (co_locs _ _ C), EC; apply in_map_iff; exists (p, e0); split; [reflexivity|apply in_or_app; right; left; reflexivity]|].
      split. { apply stored_read. exact (core_nth _ _ _ _ C Hc). }
      split.
      { constructor.
        - eauto.
        - rewrite Ln', <- Ln. exact Hc'.
        - intros e r Hin Hr. rewrite Ln'. rewrite map_app in Hin. cbn [map snd] in Hin. apply in_app_or in Hin.
          assert (Hold : forall c, In c (A ++ B) -> e = snd (g c) -> 0 <= r < zlen L).
          { intros c Hcc ->. destruct (e_kind (snd c)) as [cc bb|r0] eqn:Ek.
            - destruct (Hsame c Hcc) as (_ & _ & _ & _ & KK). rewrite Ek, Hr in KK. contradiction.
            - rewrite (Hkind c r0 Hcc Ek) in Hr. injection Hr as <-. apply Hmp. apply (Htg (snd c) r0 (HinL c Hcc) Ek). }
          destruct Hin as [Hin|[<-|Hin]].
          + rewrite map_map in Hin. apply in_map_iff in Hin as (c & <- & Hcc). apply (Hold c); [|reflexivity]. rewrite EAB. apply in_or_app. left. exact Hcc.
          + destruct (e_kind (w_entry w)) as [cc bb|r0] eqn:Ek; [unfold bumped in Hr; rewrite Ek in Hr; congruence|].
            rewrite (Hown r0 eq_refl) in Hr. injection Hr as <-. apply Hmp. apply (rw_target _ _ _ _ _ RW r0 Ek).
          + rewrite map_map in Hin. apply in_map_iff in Hin as (c & <- & Hcc). apply (Hold c); [|reflexivity]. rewrite EAB. apply in_or_app. right. exact Hcc.
        - intros m Hm'. rewrite Ln'. rewrite Hm in Hm'. unfold shift_main in Hm'. destruct (z_main s) as [m0|] eqn:Em; [|discriminate].
          injection Hm' as <-. pose proof (Hmain m0 eq_refl). pose proof (znth_some _ _ _ HzL).
          destruct (Z.eq_dec m0 i) as [->|].
          + rewrite (Hsamepos (mv_main _ _ _ _ _ MV Em)). rewrite !Z.ltb_irrefl. lia.
          + destruct (Z.ltb_spec i m0); [destruct (Z.ltb_spec j (m0 + -1))|destruct (Z.ltb_spec j m0)]; lia.
        - rewrite Ln'. exact Hcnt. }
      split; [exact Ln'|]. split.
      { intros k e Hk Hki. rewrite <- EL, EC, znth_map in Hk. destruct (znth (A ++ (p, e0) :: B) k) as [c|] eqn:Ek; [|discriminate]. injection Hk as <-.
        assert (HcAB : In c (A ++ B)).
        { rewrite <- (znth_delete A B (p, e0) k) in Ek by lia. eapply znth_in; eauto. }
        exists (snd (g c)). split; [apply Hnth; [exact Ek|exact Hki]|]. split; [apply Hsame; exact HcAB|]. intros r Hr. apply Hkind; assumption. }
      split. { exists (bumped j (w_entry w)). split; [exact Hmid|]. split; [apply same_bumped|exact Hown]. }
      split.
      { intro k. rewrite Hat. split; (intros [H|(k0 & H1 & H2 & H3)]; [left; exact H|right; exists k0; split; [exact H1|split; [exact H2|]]]);
          [rewrite H3|rewrite H3]; unfold move_ptr; replace (k0 =? i) with false by lia; reflexivity. }
      split; [exact Hm|]. split; [exact Hus|]. split; [exact Hnew|]. split; [|split; [exact Le|exact He]].
      eapply keeps_weaken; [exact K|]. intros x [Hx Ho]. split; [exact Hx|]. split.
      * apply (outside_cells s cells (full_url e0) x C Ho (p, e0)); [rewrite EC; apply in_or_app; right; left; reflexivity|left; reflexivity].
      * intros c Hcc Hr. apply (outside_cells s cells (full_url e0) x C Ho c); [|right; exact Hr]. rewrite EC. apply in_app_or in Hcc. apply in_or_app. destruct Hcc; [auto|right; right; auto].
    + right. exists s', (fst c). split; [rewrite (co_locs _ _ C), EC; apply in_map; apply in_app_or in Hc1; apply in_or_app; destruct Hc1; [auto|right; right; auto]|].
      split; [lia|exact W].
Qed.

(** ** Removing *)
Definition removed_as (s : zim) (L : list entry) (i : Z) (s' : zim) (L' : list entry) (p0 : Z) (e0 : entry) : Prop :=
  znth L i = Some e0 /\ In p0 (pl_ptrs (z_upl s)) /\ get_entry_at s p0 = Ok e0 /\
    consistent s' L' /\ zlen L' = zlen L - 1 /\ renumbers (shift_ptr i (-1)) (fun k => k <> i) L L' /\
    (forall e', In e' L' -> exists e, In e L /\ e <> e0 /\ same_entry e e') /\
    (forall k, In k (pl_ptrs (z_atpl s')) <-> exists k0, In k0 (pl_ptrs (z_atpl s)) /\ k0 <> i /\ k = shift_ptr i (-1) k0) /\
    z_main s' = (if opt_eqb (z_main s) (Some i) then None else shift_main i (-1) (z_main s)) /\
    (forall x, in_use (z_alloc s') x <-> in_use (z_alloc s) x /\ ~ occupies (p0, e0) x) /\
    keeps (z_file s) (z_file s') (outside s (full_url e0)) /\ zlen (z_file s') = zlen (z_file s) /\
    (z_etpl s = None <-> z_etpl s' = None) /\ (forall q, In q (pl_ptrs (z_upl s')) -> In q (pl_ptrs (z_upl s))).
Definition removed (s : zim) (L : list entry) (i : Z) (s' : zim) : Prop := exists L' p0 e0, removed_as s L i s' L' p0 e0.

(** Everything but the removal of the redirects to the entry. *)
Theorem detach_any : forall s L i e0 n rc RS, consistent s L -> znth L i = Some e0 ->
  (forall d, In d L -> d <> e0 -> e_kind d = Redirect i -> 0 < i) ->
  (In i (pl_ptrs (z_atpl s)) \/ forall j, In j (pl_ptrs (z_atpl s)) -> j < i) -> removable_redirects s i L = Ok RS ->
  (exists s' L' p0, remove_body keep_blob (write_entry (S n)) rc (full_url e0) s = remove_all rc RS s' /\ removed_as s L i s' L' p0 e0 /\
     (forall k e, znth L k = Some e -> k <> i -> forall r, e_kind e = Redirect r -> exists e', znth L' (shift_ptr i (-1) k) = Some e' /\ e_kind e' = Redirect (shift_ptr i (-1) r))) \/
  (exists s' p, In p (pl_ptrs (z_upl s)) /\ p <= zlen L /\ remove_body keep_blob (write_entry (S n)) rc (full_url e0) s = (Err AssertionError, s')).
Proof.
  intros s L i e0 n rc RS CS HzL Hfirst Hart HRS. pose proof CS as [(cells & EL & C) Hcomp Htg Hmain Hcnt].
  pose proof HzL as Hz. rewrite <- EL, znth_map in Hz. destruct (znth cells i) as [[p e00]|] eqn:Hc; [|discriminate]. cbn in Hz. injection Hz as ->.
  destruct (znth_split _ _ _ Hc) as (A & B & EC & HA).
  assert (Ln : zlen cells = zlen L) by (subst L; rewrite zlen_map; reflexivity).
  assert (HinL : forall c, In c (A ++ B) -> In (snd c) L).
  { intros c Hc'. rewrite <- EL. apply in_map. rewrite EC. apply in_app_or in Hc'. apply in_or_app. destruct Hc'; [auto|right; right; auto]. }
  assert (Hne : forall c, In c (A ++ B) -> snd c <> e0).
  { intros c Hc' Hu. apply in_znth in Hc' as [k Hk].
    assert (Hk' : znth (A ++ (p, e0) :: B) (shift_ptr (zlen A) 1 k) = Some c) by (rewrite znth_insert; exact Hk).
    assert (shift_ptr (zlen A) 1 k = i).
    { apply (url_unique L) with (a := snd c) (b := e0); [eapply consistent_sorted; eauto| | exact HzL|congruence]. rewrite <- EL, EC, znth_map, Hk'. reflexivity. }
    unfold shift_ptr in H. destruct (zlen A <=? k) eqn:Ek; lia. }
  pose proof (remove_head (write_entry (S n)) (fun w u => write_entry_rec n w u true) rc s A p e0 B RS) as RP.
  cbv zeta in RP. rewrite HA, <- EC, Ln in RP.
  destruct RP as [(s' & W & C' & Hc' & Hat & Hm & Hus & K & Le & He)|(s' & c & Hc1 & Hrd & Hcl & W)].
  - intro w. reflexivity.
  - exact Hcnt.
  - exact C.
  - exact Hcomp.
  - intros c r Hc' Hr. apply (Htg (snd c) r); [apply HinL; exact Hc'|exact Hr].
  - intros d Hd Hr. assert (0 <= i) by (rewrite <- HA; apply zlen_nonneg). destruct (Z.eq_dec i 0) as [E|]; [|lia]. apply (Hfirst (snd d)); [apply HinL; exact Hd|apply Hne; exact Hd|]. rewrite E. exact Hr.
  - rewrite EL. exact HRS.
  - exact Hart.
  - left. set (sh := shift_cell i (-1) []) in *. exists s', (map snd (map sh (A ++ B))), p. split; [exact W|].
    assert (Ln' : zlen (map snd (map sh (A ++ B))) = zlen L - 1).
    { rewrite !zlen_map, zlen_app, <- Ln, EC, zlen_app, zlen_cons. lia. }
    assert (Hshift : forall c r, In c (A ++ B) -> e_kind (snd c) = Redirect r -> e_kind (snd (sh c)) = Redirect (shift_ptr i (-1) r)).
    { intros c r Hcc Hr. apply shift_kind_ptr; [eapply consistent_kind; eauto|exact Hr|reflexivity]. }
    split.
    2: { intros k e Hk Hki r Hr. rewrite <- EL, EC, znth_map in Hk. destruct (znth (A ++ (p, e0) :: B) k) as [c|] eqn:Ek; [|discriminate]. injection Hk as <-.
      rewrite <- (znth_delete A B (p, e0) k), HA in Ek by lia. pose proof (znth_in _ _ _ Ek) as HcAB.
      exists (snd (sh c)). split; [rewrite !znth_map, Ek; reflexivity|]. apply Hshift; assumption. }
    split; [exact HzL|]. split; [rewrite (co_locs _ _ C), EC; apply in_map_iff; exists (p, e0); split; [reflexivity|apply in_or_app; right; left; reflexivity]|].
    split. { apply stored_read. exact (core_nth _ _ _ _ C Hc). }
    split.
    { constructor.
      - eauto.
      - rewrite Ln'. rewrite zlen_app in Hc'. rewrite <- Ln, EC, zlen_app, zlen_cons. replace (zlen A + (1 + zlen B) - 1) with (zlen A + zlen B) by lia. exact Hc'.
      - intros e r Hin Hr. rewrite Ln'. rewrite map_map in Hin. apply in_map_iff in Hin as (c & <- & Hcc).
        destruct (e_kind (snd c)) as [cc bb|r0] eqn:Ek.
        + destruct (same_shift i (-1) [] (snd c)) as (_ & _ & _ & _ & KK). unfold sh, shift_cell in Hr. cbn [snd] in Hr. rewrite Ek, Hr in KK. contradiction.
        + rewrite (Hshift c r0 Hcc Ek) in Hr. injection Hr as <-. pose proof (Htg _ _ (HinL c Hcc) Ek).
          assert (r0 = i -> 0 < i). { intros ->. apply (Hfirst _ (HinL c Hcc) (Hne c Hcc) Ek). }
          pose proof (znth_some _ _ _ HzL). unfold shift_ptr. destruct (Z.leb_spec i r0); lia.
      - intros m Hm'. rewrite Ln'. rewrite Hm in Hm'. destruct (z_main s) as [m0|] eqn:Em; [|discriminate]. cbn [opt_eqb] in Hm'.
        destruct (Z.eqb_spec m0 i); [discriminate|]. cbn [shift_main] in Hm'. injection Hm' as <-. pose proof (Hmain m0 eq_refl). pose proof (znth_some _ _ _ HzL).
        destruct (Z.ltb_spec i m0); lia.
      - rewrite Ln'. lia. }
    split; [exact Ln'|]. split.
    { intros k e Hk Hki. rewrite <- EL, EC, znth_map in Hk. destruct (znth (A ++ (p, e0) :: B) k) as [c|] eqn:Ek; [|discriminate]. injection Hk as <-.
      rewrite <- (znth_delete A B (p, e0) k), HA in Ek by lia. pose proof (znth_in _ _ _ Ek) as HcAB.
      exists (snd (sh c)). split; [rewrite !znth_map, Ek; reflexivity|]. split; [apply same_shift|]. intros r Hr _. apply Hshift; assumption. }
    split.
    { intros e' Hin. rewrite map_map in Hin. apply in_map_iff in Hin as (c & <- & Hcc). exists (snd c). split; [apply HinL; exact Hcc|]. split; [apply Hne; exact Hcc|apply same_shift]. }
    split; [exact Hat|]. split; [exact Hm|]. split; [exact Hus|]. split; [|split; [exact Le|split; [exact He|]]].
    { eapply keeps_weaken; [exact K|]. intros x Ho c Hcc Hr. apply (outside_cells s cells (full_url e0) x C Ho c); [|right; exact Hr].
      rewrite EC. apply in_app_or in Hcc. apply in_or_app. destruct Hcc; [auto|right; right; auto]. }
    intros q Hq. rewrite (co_locs _ _ C'), map_map in Hq. cbn [sh shift_cell fst] in Hq. rewrite (co_locs _ _ C), EC. rewrite map_app in *. apply in_app_or in Hq. apply in_or_app. cbn [map In]. tauto.
  - right. exists s', (fst c). split; [rewrite (co_locs _ _ C), EC; apply in_map; apply in_app_or in Hc1; apply in_or_app; destruct Hc1; [auto|right; right; auto]|].
    split; [lia|exact W].
Qed.

Theorem detach_ok : forall s L i e0 n RS, consistent s L -> znth L i = Some e0 ->
  (forall d, In d L -> d <> e0 -> e_kind d = Redirect i -> 0 < i) ->
  (In i (pl_ptrs (z_atpl s)) \/ forall j, In j (pl_ptrs (z_atpl s)) -> j < i) -> removable_redirects s i L = Ok RS ->
  (exists s' L' p0, remove_entry keep_blob (S (S n)) (full_url e0) s = remove_all (remove_entry keep_blob (S n)) RS s' /\ removed_as s L i s' L' p0 e0 /\
     (forall k e, znth L k = Some e -> k <> i -> forall r, e_kind e = Redirect r -> exists e', znth L' (shift_ptr i (-1) k) = Some e' /\ e_kind e' = Redirect (shift_ptr i (-1) r))) \/
  (exists s' p, In p (pl_ptrs (z_upl s)) /\ p <= zlen L /\ remove_entry keep_blob (S (S n)) (full_url e0) s = (Err AssertionError, s')).
Proof. intros s L i e0 n RS. exact (detach_any s L i e0 n (remove_entry keep_blob (S n)) RS). Qed.

Theorem remove_ok : forall s L i e0 n, consistent s L -> removable s L i e0 ->
  (exists s', remove_entry keep_blob (S (S n)) (full_url e0) s = (Ok tt, s') /\ removed s L i s') \/
  (exists s' p, In p (pl_ptrs (z_upl s)) /\ p <= zlen L /\ remove_entry keep_blob (S (S n)) (full_url e0) s = (Err AssertionError, s')).
Proof.
  intros s L i e0 n CS RM. pose proof CS as [(cells & EL & C) Hcomp Htg Hmain Hcnt]. pose proof (rm_at _ _ _ _ RM) as HzL.
  assert (exists c, znth cells i = Some c /\ snd c = e0) as (c & Hc & Es).
  { rewrite <- EL, znth_map in HzL. destruct (znth cells i) as [c|]; [|discriminate]. exists c. split; [reflexivity|]. cbn in HzL. congruence. }
  destruct (detach_ok s L i e0 n [] CS HzL) as [(s' & L' & p0 & W & D & _)|R]; [| | |left; exists s'; split; [exact W|]; exists L', p0, e0; exact D|right; exact R].
  - intros d Hd Hne Hk. exfalso. exact (rm_in _ _ _ _ RM d Hd Hne Hk).
  - apply (rm_article _ _ _ _ RM).
  - apply (no_removable s cells i c C Hc); [rewrite EL; auto|]. intros e He Hr. rewrite Es.
    destruct (list_eq_dec Z.eq_dec (full_url e) (full_url e0)) as [E|N]; [exact E|]. exfalso. apply (rm_in _ _ _ _ RM e He); [intros ->; contradiction|exact Hr].
Qed.
