(** Proofs about writing, renaming and removing entries: insertion into and
    removal from the url list with the renumbering that follows. *)
From Coq Require Import List ZArith Bool Lia Sorting.Sorted Sorting.Permutation.
From Coq Require Import ZifyBool ZifyNat.
From Verif Require Import Base BaseProofs Utf8 Utf8Proofs Entry EntrySpec EntryProofs PointerList PointerListSpec PointerListProofs
  SpaceAllocator SpaceAllocatorSpec SpaceAllocatorProofs Cluster Archive ArchiveSpec ArchiveProofs.
Import ListNotations.
Open Scope Z_scope.


Lemma znth_insert : forall {A} (a b : list A) x i, znth (a ++ x :: b) (shift_ptr (zlen a) 1 i) = znth (a ++ b) i.
Proof.
  intros A a b x i. unfold shift_ptr. destruct (Z.leb_spec (zlen a) i).
  - pose proof (zlen_nonneg a). rewrite (znth_app_r a b) by lia. rewrite znth_app_r by lia.
    change (x :: b) with ([x] ++ b). rewrite znth_app_r by (change (zlen [x]) with 1; lia). f_equal. change (zlen [x]) with 1. lia.
  - rewrite !znth_app_l by lia. reflexivity.
Qed.

Lemma znth_delete : forall {A} (a b : list A) x i, i <> zlen a -> znth (a ++ b) (shift_ptr (zlen a) (-1) i) = znth (a ++ x :: b) i.
Proof.
  intros A a b x i Hi. unfold shift_ptr. destruct (Z.leb_spec (zlen a) i).
  - pose proof (zlen_nonneg a). rewrite (znth_app_r a b) by lia. rewrite (znth_app_r a (x :: b)) by lia.
    change (x :: b) with ([x] ++ b). rewrite (znth_app_r [x]) by (change (zlen [x]) with 1; lia). f_equal. change (zlen [x]) with 1. lia.
  - rewrite !znth_app_l by lia. reflexivity.
Qed.

Lemma shift_up_inj : forall p i j, shift_ptr p 1 i = shift_ptr p 1 j -> i = j.
Proof. intros p i j. unfold shift_ptr. destruct (Z.leb_spec p i), (Z.leb_spec p j); lia. Qed.
Lemma shift_up_ne : forall p i, shift_ptr p 1 i <> p.
Proof. intros p i. unfold shift_ptr. destruct (Z.leb_spec p i); lia. Qed.
Lemma shift_down_inj : forall p i j, i <> p -> j <> p -> shift_ptr p (-1) i = shift_ptr p (-1) j -> i = j.
Proof. intros p i j. unfold shift_ptr. destruct (Z.leb_spec p i), (Z.leb_spec p j); lia. Qed.
Lemma shift_up_down : forall p i, i <> p -> shift_ptr p 1 (shift_ptr p (-1) i) = i.
Proof.
  intros p i H. unfold shift_ptr. destruct (Z.leb_spec p i).
  - destruct (Z.leb_spec p (i + -1)); lia.
  - destruct (Z.leb_spec p i); lia.
Qed.
Lemma shift_down_up : forall p i, shift_ptr p (-1) (shift_ptr p 1 i) = i.
Proof. intros p i. unfold shift_ptr. destruct (Z.leb_spec p i); [destruct (Z.leb_spec p (i + 1))|destruct (Z.leb_spec p i)]; lia. Qed.

Lemma shift_lists_atpl : forall start diff edit s,
  z_atpl (shift_lists start diff edit s) = if edit then shift_pl start diff (z_atpl s) else z_atpl s.
Proof. intros. unfold shift_lists. destruct edit, (z_etpl s); reflexivity. Qed.
Lemma shift_lists_etpl : forall start diff edit s,
  z_etpl (shift_lists start diff edit s) = option_map (shift_pl start diff) (z_etpl s).
Proof. intros. unfold shift_lists. destruct edit; destruct (z_etpl s) eqn:E; cbn; auto. Qed.
Lemma shift_lists_rest : forall start diff edit s, let s2 := shift_lists start diff edit s in
  z_upl s2 = z_upl s /\ z_main s2 = z_main s /\ z_alloc s2 = z_alloc s /\ z_file s2 = z_file s.
Proof. intros. unfold s2, shift_lists. destruct edit, (z_etpl s); repeat split. Qed.

Lemma apart_insert : forall A c B, StronglySorted apart (A ++ B) -> Forall (apart c) (A ++ B) -> StronglySorted apart (A ++ c :: B).
Proof.
  intros A c B S F. apply ssorted_app in S as (S1 & S2 & S3). apply Forall_app in F as [F1 F2]. apply ssorted_app.
  split; [exact S1|]. split; [apply ssorted_cons; split; assumption|]. intros x y Hx [ <- | Hy]; [|auto].
  apply apart_sym. rewrite Forall_forall in F1. auto.
Qed.
Lemma ssorted_delete_gen : forall {A} (R : A -> A -> Prop) a x b, StronglySorted R (a ++ x :: b) -> StronglySorted R (a ++ b).
Proof.
  intros A R a x b S. apply ssorted_app in S as (S1 & S2 & S3). apply ssorted_cons in S2 as [S2 _]. apply ssorted_app.
  split; [exact S1|]. split; [exact S2|]. intros y z Hy Hz. apply S3; cbn; auto.
Qed.

Lemma core_insert : forall s A B off e u', core s (A ++ B) -> pl_ptrs u' = map fst A ++ off :: map fst B -> pl_mutable u' = true ->
  stored (z_file s) off e -> (forall x, occupies (off, e) x -> in_use (z_alloc s) x) -> Forall (apart (off, e)) (A ++ B) ->
  (forall c, In c A -> url_lt (snd c) e) -> (forall c, In c B -> url_lt e (snd c)) ->
  core (shift_lists (zlen A) 1 true (set_upl u' s)) (A ++ (off, e) :: B).
Proof.
  intros s A B off e u' C Eu Mu St Us Ap HA HB.
  set (s2 := shift_lists (zlen A) 1 true (set_upl u' s)).
  destruct (shift_lists_rest (zlen A) 1 true (set_upl u' s)) as (E1 & E2 & E3 & E4). fold s2 in E1, E2, E3, E4.
  pose proof (shift_lists_atpl (zlen A) 1 true (set_upl u' s)) as E5. fold s2 in E5.
  pose proof (shift_lists_etpl (zlen A) 1 true (set_upl u' s)) as E6. fold s2 in E6.
  cbn [z_upl set_upl z_main z_alloc z_file z_atpl z_etpl] in *.
  assert (Zi : forall i, znth (map snd (A ++ (off, e) :: B)) (shift_ptr (zlen A) 1 i) = znth (map snd (A ++ B)) i).
  { intro i. rewrite !znth_map, znth_insert. reflexivity. }
  constructor.
  - rewrite E1, map_mid. exact Eu.
  - rewrite E4. apply Forall_mid. pose proof (co_stored _ _ C) as F. apply Forall_app in F as [F1 F2]. auto.
  - rewrite E3. apply Forall_mid. pose proof (co_used _ _ C) as F. apply Forall_app in F as [F1 F2]. auto.
  - apply apart_insert; [exact (co_apart _ _ C)|exact Ap].
  - rewrite E3. exact (co_canonical _ _ C).
  - rewrite E3. exact (co_end _ _ C).
  - rewrite map_mid. pose proof (co_sorted _ _ C) as S. rewrite map_app in S. apply ssorted_app in S as (S1 & S2 & S3).
    apply ssorted_app. split; [exact S1|]. split.
    + apply ssorted_cons. split; [exact S2|]. apply Forall_forall. intros x Hx. apply in_map_iff in Hx as (c & <- & Hc). auto.
    + intros x y Hx [ <- | Hy]; [|auto]. apply in_map_iff in Hx as (c & <- & Hc). cbn [snd]. auto.
  - rewrite E5. cbn [pl_ptrs shift_pl]. eapply lists_renumber; [| |exact (co_atpl _ _ C)].
    + intros i _. apply Zi.
    + intros i j _ _. apply shift_up_inj.
  - rewrite E5. cbn [pl_ptrs shift_pl]. intros i e1 Hi He. apply in_map_iff in Hi as (j & <- & Hj). rewrite Zi in He.
    exact (co_articles _ _ C j e1 Hj He).
  - intros t Ht. rewrite E6 in Ht. destruct (z_etpl s) as [t0|] eqn:Et; [|discriminate]. injection Ht as <-.
    cbn [pl_ptrs shift_pl]. eapply lists_renumber; [| |exact (co_etpl _ _ C t0 Et)].
    + intros i _. apply Zi.
    + intros i j _ _. apply shift_up_inj.
  - rewrite E1. exact Mu.
  - rewrite E5. cbn. exact (co_mut_a _ _ C).
  - intros t Ht. rewrite E6 in Ht. destruct (z_etpl s) as [t0|] eqn:Et; [|discriminate]. injection Ht as <-.
    cbn. exact (co_mut_e _ _ C t0 Et).
Qed.

(** [s] is [s0] after the cell [c] has been given up: its titles dropped, its
    pointer removed, its bytes possibly reused. *)
Lemma core_remove : forall s0 s A c B edit, core s0 (A ++ c :: B) ->
  pl_ptrs (z_upl s) = map fst A ++ map fst B -> pl_mutable (z_upl s) = true ->
  Forall (fun c => stored (z_file s) (fst c) (snd c)) (A ++ B) ->
  Forall (fun c => forall x, occupies c x -> in_use (z_alloc s) x) (A ++ B) ->
  canonical (z_alloc s) -> 0 <= file_end (z_alloc s) ->
  minus (zlen A) (pl_ptrs (z_atpl s0)) (pl_ptrs (z_atpl s)) -> pl_mutable (z_atpl s) = true ->
  etpl_rel (minus (zlen A)) (z_etpl s0) (z_etpl s) -> (forall t, z_etpl s = Some t -> pl_mutable t = true) ->
  (edit = true \/ forall j, In j (pl_ptrs (z_atpl s)) -> j < zlen A) ->
  core (shift_lists (zlen A) (-1) edit s) (A ++ B).
Proof.
  intros s0 s A c B edit C Eu Mu St Us Ca En (Na & La & Ia) Ma Re Me Hed.
  set (s2 := shift_lists (zlen A) (-1) edit s).
  destruct (shift_lists_rest (zlen A) (-1) edit s) as (E1 & E2 & E3 & E4). fold s2 in E1, E2, E3, E4.
  pose proof (shift_lists_atpl (zlen A) (-1) edit s) as E5. fold s2 in E5.
  pose proof (shift_lists_etpl (zlen A) (-1) edit s) as E6. fold s2 in E6.
  assert (Zi : forall i, i <> zlen A -> znth (map snd (A ++ B)) (shift_ptr (zlen A) (-1) i) = znth (map snd (A ++ c :: B)) i).
  { intros i Hi. rewrite !znth_map, (znth_delete A B c) by exact Hi. reflexivity. }
  assert (Eat : pl_ptrs (z_atpl s2) = map (shift_ptr (zlen A) (-1)) (pl_ptrs (z_atpl s))).
  { rewrite E5. destruct edit; [reflexivity|]. destruct Hed as [Hed|Hed]; [discriminate|].
    rewrite <- (map_id (pl_ptrs (z_atpl s))) at 1. apply map_ext_in. intros j Hj. specialize (Hed j Hj). unfold shift_ptr.
    destruct (Z.leb_spec (zlen A) j); lia. }
  constructor.
  - rewrite E1, map_app. exact Eu.
  - rewrite E4. exact St.
  - rewrite E3. exact Us.
  - exact (ssorted_delete_gen _ _ _ _ (co_apart _ _ C)).
  - rewrite E3. exact Ca.
  - rewrite E3. exact En.
  - pose proof (co_sorted _ _ C) as S. rewrite map_mid in S. rewrite map_app. exact (ssorted_delete_gen _ _ _ _ S).
  - rewrite Eat. eapply lists_renumber; [| |exact (La _ _ (co_atpl _ _ C))].
    + intros i Hi. apply Zi. intros ->. contradiction.
    + intros i j Hi Hj. apply shift_down_inj; intros ->; contradiction.
  - rewrite Eat. intros i e1 Hi He. apply in_map_iff in Hi as (j & <- & Hj).
    rewrite Zi in He by (intros ->; contradiction). apply (co_articles _ _ C j e1); [|exact He]. apply Ia. exact Hj.
  - intros t Ht. rewrite E6 in Ht. destruct (z_etpl s) as [t1|] eqn:Et; [|discriminate]. injection Ht as <-.
    destruct (z_etpl s0) as [t0|] eqn:Et0; cbn [etpl_rel] in Re; [|contradiction]. destruct Re as (Ne & Le & Ie).
    cbn [pl_ptrs shift_pl]. eapply lists_renumber; [| |exact (Le _ _ (co_etpl _ _ C t0 Et0))].
    + intros i Hi. apply Zi. intros ->. contradiction.
    + intros i j Hi Hj. apply shift_down_inj; intros ->; contradiction.
  - rewrite E1. exact Mu.
  - rewrite E5. destruct edit; exact Ma.
  - intros t Ht. rewrite E6 in Ht. destruct (z_etpl s) as [t1|] eqn:Et; [|discriminate]. injection Ht as <-. cbn. exact (Me t1 eq_refl).
Qed.

(** *** inserting into the url list *)
Lemma split_map : forall {A B} (f : A -> B) l a b, map f l = a ++ b -> exists la lb, l = la ++ lb /\ map f la = a /\ map f lb = b.
Proof.
  intros A B f l a. revert l. induction a as [|x a IH]; intros l b H.
  - exists [], l. auto.
  - destruct l as [|y l]; [discriminate|]. cbn in H. injection H as H1 H2. destruct (IH l b H2) as (la & lb & -> & E1 & E2).
    exists (y :: la), lb. cbn. rewrite H1, E1. auto.
Qed.

Lemma ultb_total : forall a b, ultb a b = false -> a <> b -> ultb b a = true.
Proof.
  induction a as [|x a IH]; intros [|y b] H Hne; cbn in *; try congruence.
  destruct (Z.ltb_spec x y); cbn in H; [discriminate|]. destruct (Z.ltb_spec y x); cbn; [reflexivity|].
  assert (x = y) by lia. subst y. rewrite Z.eqb_refl in *. cbn in *. apply IH; [exact H|]. intros ->. apply Hne. reflexivity.
Qed.

Lemma url_add_ok : forall s cells off e, core s cells -> stored (z_file s) off e -> (forall c, In c cells -> full_url (snd c) <> full_url e) ->
  exists A B u', cells = A ++ B /\ encode (full_url e) = Ok (enc (full_url e)) /\
    pl_add (url_key s) (enc (full_url e)) off (z_upl s) = Ok (zlen A, u') /\
    pl_ptrs u' = map fst A ++ off :: map fst B /\ pl_mutable u' = true /\
    (forall c, In c A -> url_lt (snd c) e) /\ (forall c, In c B -> url_lt e (snd c)).
Proof.
  intros s cells off e C St Hf. pose proof (stored_read _ _ _ St) as Hrd. destruct St as (Hoff & Hs & _).
  pose proof (enc_full_url e Hs) as He.
  pose proof (core_url_sorted s cells C) as Hso.
  destruct (pl_add_total _ (z_upl s) (enc (full_url e)) off Hso Hoff (co_mut_u _ _ C)) as (i & u' & Ha).
  assert (Hk : url_key s off = Ok (enc (full_url e))).
  { unfold url_key. rewrite Hrd. cbn [bind]. apply encode_some. exact He. }
  destruct (pl_add_spec _ (z_upl s) _ _ _ _ Hso Hk Ha) as (_ & _ & a & b & E1 & E2 & E3 & Hlo & Hhi).
  rewrite (co_locs _ _ C) in E1. destruct (split_map _ _ _ _ E1) as (A & B & -> & <- & <-).
  assert (Kc : forall c, In c (A ++ B) -> url_key s (fst c) = Ok (enc (full_url (snd c))) /\ entry_storable (snd c)).
  { intros c Hc. pose proof (co_stored _ _ C) as F. rewrite Forall_forall in F. specialize (F c Hc). split; [|apply F].
    unfold url_key. rewrite (stored_read _ _ _ F). cbn [bind]. apply encode_some. apply enc_full_url. apply F. }
  exists A, B, u'. split; [reflexivity|]. split; [apply encode_some; exact He|]. split.
  { rewrite Ha. rewrite zlen_map in E3. rewrite E3. reflexivity. }
  split; [exact E2|]. split.
  { unfold pl_add in Ha. destruct (off <? 0); [discriminate|]. rewrite (co_mut_u _ _ C) in Ha. cbn [negb] in Ha.
    destruct (binarysearch _ _ _) as [r|]; [|discriminate]. cbn [bind] in Ha. injection Ha as _ <-. cbn. first [reflexivity | exact (co_mut_u _ _ C)]. }
  split.
  - intros c Hc. destruct (Kc c ltac:(apply in_or_app; auto)) as [Kc1 Kc2].
    specialize (Hlo (fst c) _ (in_map fst _ _ Hc) Kc1). rewrite (utf8_order _ _ _ _ (enc_full_url _ Kc2) He) in Hlo. exact Hlo.
  - intros c Hc. destruct (Kc c ltac:(apply in_or_app; auto)) as [Kc1 Kc2].
    specialize (Hhi (fst c) _ (in_map fst _ _ Hc) Kc1). rewrite (utf8_order _ _ _ _ (enc_full_url _ Kc2) He) in Hhi.
    unfold url_lt. apply ultb_total; [exact Hhi|]. apply Hf. apply in_or_app; auto.
Qed.

Lemma umem_single : forall u v, umem u [v] = true <-> u = v.
Proof. intros. unfold umem. cbn. rewrite orb_false_r. apply ueqb_eq. Qed.

Definition targets_in (n : Z) (cells : list (Z * entry)) : Prop :=
  forall c r, In c cells -> e_kind (snd c) = Redirect r -> 0 <= r < n.

Definition image_shift (p d : Z) (t t' : list Z) : Prop := forall j, In j t' <-> exists i, In i t /\ j = shift_ptr p d i.

Lemma insert_ok : forall rec wr s cells off e,
  (forall w, wr w = write_body rec w true true) -> zlen cells + 1 < 2 ^ 32 ->
  core s cells -> stored (z_file s) off e -> (forall x, occupies (off, e) x -> in_use (z_alloc s) x) -> Forall (apart (off, e)) cells ->
  (forall c, In c cells -> full_url (snd c) <> full_url e) -> etitles_complete s (zlen cells) -> targets_in (zlen cells) cells ->
  exists A B u', cells = A ++ B /\ ((forall c, In c A -> url_lt (snd c) e) /\ (forall c, In c B -> url_lt e (snd c))) /\
    encode (full_url e) = Ok (enc (full_url e)) /\
    pl_add (url_key s) (enc (full_url e)) off (z_upl s) = Ok (zlen A, u') /\
    let p := zlen A in let sh := shift_cell p 1 [full_url e] in
    ((exists s', update_url_pointers wr p 1 true [full_url e] (set_upl u' s) = (Ok tt, s') /\
       core s' (map sh A ++ (off, e) :: map sh B) /\
       z_main s' = shift_main p 1 (z_main s) /\ z_alloc s' = z_alloc s /\
       keeps (z_file s) (z_file s') (fun x => forall c, In c cells -> touched p [full_url e] (snd c) = true -> ~ occupies c x) /\ zlen (z_file s') = zlen (z_file s) /\
       etpl_rel (image_shift p 1) (z_etpl s) (z_etpl s') /\
       image_shift p 1 (pl_ptrs (z_atpl s)) (pl_ptrs (z_atpl s')) /\
       Forall (fun c => ~ clashes p 1 [full_url e] c) cells) \/
     (exists s' c, In c cells /\ clashes p 1 [full_url e] c /\
       update_url_pointers wr p 1 true [full_url e] (set_upl u' s) = (Err AssertionError, s'))).
Proof.
  intros rec wr s cells off e Hwr Hn C St Us Ap Hf Hcomp Ht.
  destruct (url_add_ok s cells off e C St Hf) as (A & B & u' & -> & He & Ha & Eu & Mu & HA & HB).
  exists A, B, u'. split; [reflexivity|]. split; [split; assumption|]. split; [exact He|]. split; [exact Ha|]. cbv zeta.
  set (p := zlen A) in *. set (sk := [full_url e]).
  pose proof (core_insert s A B off e u' C Eu Mu St Us Ap HA HB) as C2. fold p in C2.
  assert (Ln : zlen (A ++ (off, e) :: B) = zlen (A ++ B) + 1) by (rewrite !zlen_app, zlen_cons; lia).
  assert (Tn : touched p sk e = false).
  { unfold touched, sk. replace (umem (full_url e) [full_url e]) with true by (symmetry; apply umem_single; reflexivity).
    cbn. rewrite andb_false_r. reflexivity. }
  assert (Se : shift_cell p 1 sk (off, e) = (off, e)).
  { unfold shift_cell, shift_entry. cbn [fst snd]. rewrite Tn. reflexivity. }
  destruct (uup_ok rec wr p 1 true sk [p] (zlen (A ++ (off, e) :: B)) (set_upl u' s) (A ++ (off, e) :: B) Hwr)
    as [(s' & W & C3 & U & Mn & Al & K & Le & R & I & N)|(s' & c & Hc & Hcl & W)].
  - lia.
  - exact C2.
  - reflexivity.
  - intros t Htt j Hj HX. rewrite shift_lists_etpl in Htt. cbn [z_etpl set_upl] in Htt.
    destruct (z_etpl s) as [t0|] eqn:Et; [|discriminate]. injection Htt as <-. cbn [pl_ptrs shift_pl].
    assert (j <> p) by (intros ->; apply HX; left; reflexivity).
    rewrite <- (shift_up_down p j) by assumption. apply in_map. apply (Hcomp t0 Et).
    assert (0 <= p <= zlen (A ++ B)) by (unfold p; rewrite zlen_app; pose proof (zlen_nonneg A); pose proof (zlen_nonneg B); lia).
    unfold shift_ptr. destruct (Z.leb_spec p j); lia.
  - intros j c Hj [<-|[]]. unfold p in Hj. rewrite znth_mid in Hj. injection Hj as <-. apply umem_single. reflexivity.
  - apply Forall_forall. intros c Hc r T Hr. apply in_app_or in Hc. destruct Hc as [Hc|[<-|Hc]].
    + specialize (Ht c r ltac:(apply in_or_app; auto) Hr). lia.
    + cbn [snd] in T. congruence.
    + specialize (Ht c r ltac:(apply in_or_app; auto) Hr). lia.
  - left. exists s'. split; [exact W|]. split; [rewrite map_mid, Se in C3; exact C3|]. cbn [z_main z_alloc z_file set_upl] in *.
    split; [exact Mn|]. split; [exact Al|]. split.
    {
      eapply keeps_weaken; [exact K|]. intros x Hx c Hc T. apply in_app_or in Hc. destruct Hc as [Hc|[<-|Hc]];
        [apply (Hx c); [apply in_or_app; auto|exact T]|cbn [snd] in T; fold sk in T; congruence|apply (Hx c); [apply in_or_app; auto|exact T]]. }
    split; [exact Le|]. split.
    { rewrite shift_lists_etpl in R. cbn [z_etpl set_upl] in R. destruct (z_etpl s) as [t|], (z_etpl s') as [t'|]; cbn [etpl_rel option_map] in *; try contradiction; [|exact R].
      intro j. split.
      - intro Hj. apply (Permutation_in _ R) in Hj. cbn [pl_ptrs shift_pl] in Hj. apply in_map_iff in Hj as (i & <- & Hi). eauto.
      - intros (i & Hi & ->). apply (Permutation_in _ (Permutation_sym R)). cbn [pl_ptrs shift_pl]. apply in_map. exact Hi. }
    split.
    { intro j. rewrite I, shift_lists_atpl. cbn [z_atpl set_upl pl_ptrs shift_pl]. rewrite in_map_iff. split; intros (i & H1 & H2); eauto. }
    apply Forall_mid in N as (N1 & _ & N2). apply Forall_app. auto.
  - right. exists s', c. split; [|auto]. apply in_app_or in Hc. destruct Hc as [Hc|[<-|Hc]]; [apply in_or_app; auto| |apply in_or_app; auto].
    destruct Hcl as [T _]. cbn [snd] in T. congruence.
Qed.

(** *** rewriting one cell whose titles are not listed *)
Lemma core_rewrite : forall s A p e0 e B b, core s (A ++ (p, e0) :: B) -> full_url e = full_url e0 -> span e = span e0 ->
  entry_storable e -> kind_consistent e -> entry_to_bytes e = Ok b ->
  ~ In (zlen A) (pl_ptrs (z_atpl s)) -> (forall t, z_etpl s = Some t -> ~ In (zlen A) (pl_ptrs t)) ->
  core (set_file (fwrite (z_file s) p b) s) (A ++ (p, e) :: B) /\
  keeps (z_file s) (fwrite (z_file s) p b) (fun x => ~ occupies (p, e0) x) /\ zlen (fwrite (z_file s) p b) = zlen (z_file s).
Proof.
  intros s A p e0 e B b C Hu Hsp Hs Hk Hb Na Ne.
  assert (Hz : znth (A ++ (p, e0) :: B) (zlen A) = Some (p, e0)) by apply znth_mid.
  pose proof (core_nth _ _ _ _ C Hz) as St. cbn [fst snd] in St. pose proof St as (Hp0 & Hs0 & _ & b0 & Hb0 & Hf0).
  destruct (storable_span e Hs) as [_ Hpos].
  assert (Lb : zlen b = zlen b0) by (rewrite <- (span_ok _ _ Hb), <- (span_ok _ _ Hb0); exact Hsp).
  assert (K1 : keeps (z_file s) (fwrite (z_file s) p b) (fun x => ~ occupies (p, e0) x)).
  { eapply keeps_weaken; [apply keeps_fwrite; exact Hp0|]. intros x Hx Hc. apply Hx. unfold occupies. cbn [fst snd].
    rewrite (span_ok _ _ Hb0), <- Lb. exact Hc. }
  assert (Lf : zlen (fwrite (z_file s) p b) = zlen (z_file s)).
  { rewrite fwrite_len by exact Hp0. rewrite <- (span_ok _ _ Hb), Hsp in *. rewrite (span_ok _ _ Hb0) in *.
    pose proof (fread_full _ _ _ Hp0 Hf0 Hpos). lia. }
  split; [|split; assumption].
  assert (Lext : forall j, j <> zlen A -> znth (map snd (A ++ (p, e) :: B)) j = znth (map snd (A ++ (p, e0) :: B)) j).
  { intros j Hj. rewrite !map_mid. apply znth_mid_other. rewrite zlen_map. exact Hj. }
  constructor; cbn [set_file z_file z_upl z_alloc z_atpl z_etpl].
  - rewrite (co_locs _ _ C). rewrite !map_mid. reflexivity.
  - destruct (stored_others _ _ _ _ _ (co_stored _ _ C) (co_apart _ _ C) K1) as [FA FB].
    apply Forall_mid. split; [exact FA|]. split; [|exact FB]. cbn [fst snd]. apply stored_fwrite; assumption.
  - pose proof (co_used _ _ C) as F. apply Forall_mid in F as (F1 & F2 & F3). apply Forall_mid. split; [exact F1|]. split; [|exact F3].
    intros x Hx. apply F2. unfold occupies in *. cbn [fst snd] in *. rewrite <- Hsp. exact Hx.
  - eapply apart_replace; [apply (co_apart _ _ C)|]. intros x Hx. unfold occupies in *. cbn [fst snd] in *. rewrite <- Hsp. exact Hx.
  - apply (co_canonical _ _ C).
  - apply (co_end _ _ C).
  - eapply url_sorted_replace; [apply (co_sorted _ _ C)|]. exact Hu.
  - eapply lists_ext; [|apply (co_atpl _ _ C)]. intros j Hj. apply Lext. intros ->. tauto.
  - intros j d Hj Hd. rewrite Lext in Hd by (intros ->; tauto). eapply (co_articles _ _ C); eauto.
  - intros t Ht. eapply lists_ext; [|apply (co_etpl _ _ C); exact Ht]. intros j Hj. apply Lext. intros ->. exact (Ne t Ht Hj).
  - apply (co_mut_u _ _ C).
  - apply (co_mut_a _ _ C).
  - apply (co_mut_e _ _ C).
Qed.

(** *** stage 3 of [write_entry], insertion part (1394-1414) *)
Definition ins (rec : went -> bool -> M zim unit) (offset : Z) (e : entry) : M zim (Z * entry) :=
  let* i := (fun s => match encode (full_url e) with
                      | Err x => (Err x, s)
                      | Ok k => match pl_add (url_key s) k offset (z_upl s) with
                                | Ok (i, u) => (Ok i, set_upl u s)
                                | Err x => (Err x, s)
                                end
                      end) in
  let* _ := update_url_pointers (fun w => rec w true) i 1 true [full_url e] in
  let* e' := query (fun _ => bump_own i e) in
  let* _ := match e_kind e with
            | Redirect r => if is_redirect e && (i <=? r) then write_at offset e' else ret tt
            | Content _ _ => ret tt
            end in
  match e_kind e' with
  | Redirect r => if is_redirect e' && (r =? i) then raise AssertionError else ret (i, e')
  | Content _ _ => ret (i, e')
  end.

(** What [bump_own] computes. *)
Definition bumped (p : Z) (e : entry) : entry :=
  match e_kind e with Redirect r => if p <=? r then with_redirect_index e (r + 1) else e | Content _ _ => e end.

Lemma kind_redirect : forall e r, kind_consistent e -> e_kind e = Redirect r -> is_redirect e = true.
Proof. intros e r H Hk. unfold kind_consistent, is_redirect, MIMETYPE_ID_REDIRECT in *. rewrite Hk in H. lia. Qed.
Lemma kind_content : forall e c b, kind_consistent e -> e_kind e = Content c b -> is_redirect e = false.
Proof. intros e c b H Hk. unfold kind_consistent, is_redirect, MIMETYPE_ID_REDIRECT in *. rewrite Hk in H. lia. Qed.

Lemma bumped_full_url : forall p e, full_url (bumped p e) = full_url e.
Proof. intros. unfold bumped. destruct (e_kind e); [reflexivity|]. destruct (p <=? _); reflexivity. Qed.
Lemma bumped_title : forall p e, title (bumped p e) = title e /\ e_ns (bumped p e) = e_ns e.
Proof. intros. unfold bumped. destruct (e_kind e); [auto|]. destruct (p <=? _); auto. Qed.
Lemma bumped_kind : forall p e r, e_kind e = Redirect r -> e_kind (bumped p e) = Redirect (shift_ptr p 1 r).
Proof. intros p e r H. unfold bumped, shift_ptr. rewrite H. destruct (p <=? r); [reflexivity|exact H]. Qed.

Lemma ins_ok : forall rec s cells off e,
  (exists rec', forall w, rec w true = write_body rec' w true true) ->
  zlen cells + 1 < 2 ^ 32 ->
  core s cells -> stored (z_file s) off e -> (forall x, occupies (off, e) x -> in_use (z_alloc s) x) -> Forall (apart (off, e)) cells ->
  (forall c, In c cells -> full_url (snd c) <> full_url e) -> etitles_complete s (zlen cells) -> targets_in (zlen cells) cells ->
  (forall r, e_kind e = Redirect r -> 0 <= r < zlen cells) ->
  exists A B, cells = A ++ B /\ ((forall c, In c A -> url_lt (snd c) e) /\ (forall c, In c B -> url_lt e (snd c))) /\
    let p := zlen A in let sh := shift_cell p 1 [full_url e] in
    ((exists s', ins rec off e s = (Ok (p, bumped p e), s') /\
       core s' (map sh A ++ (off, bumped p e) :: map sh B) /\
       z_main s' = shift_main p 1 (z_main s) /\ z_alloc s' = z_alloc s /\
       keeps (z_file s) (z_file s') (fun x => ~ occupies (off, e) x /\
         forall c, In c cells -> touched p [full_url e] (snd c) = true -> ~ occupies c x) /\ zlen (z_file s') = zlen (z_file s) /\
       etpl_rel (image_shift p 1) (z_etpl s) (z_etpl s') /\
       image_shift p 1 (pl_ptrs (z_atpl s)) (pl_ptrs (z_atpl s')) /\
       Forall (fun c => ~ clashes p 1 [full_url e] c) cells) \/
     (exists s' c, In c cells /\ clashes p 1 [full_url e] c /\ ins rec off e s = (Err AssertionError, s'))).
Proof.
  intros rec s cells off e Hrec Hn C St Us Ap Hf Hcomp Ht Hown.
  destruct Hrec as [rec' Hwr].
  destruct (insert_ok rec' (fun w => rec w true) s cells off e Hwr Hn C St Us Ap Hf Hcomp Ht)
    as (A & B & u' & EC & Hord & He & Ha & [(s' & W & C3 & Mn & Al & K & Le & R & I & N)|(s' & c & Hc & Hcl & W)]);
    exists A, B; (split; [exact EC|]); (split; [exact Hord|]); cbv zeta; set (p := zlen A) in *; set (sh := shift_cell p 1 [full_url e]) in *.
  2: { right. exists s', c. split; [exact Hc|]. split; [exact Hcl|]. unfold ins.
       rewrite (mbind_ok _ _ _ p (set_upl u' s)) by (rewrite He, Ha; reflexivity).
       apply mbind_err with (s := set_upl u' s). exact W. }
  left. destruct St as (Hoff & Hs & Hkc & b & Hb & Hfr).
  assert (Hhead : forall {X} (k : Z -> M zim X), mbind (fun s => match encode (full_url e) with
                      | Err x => (Err x, s)
                      | Ok k => match pl_add (url_key s) k off (z_upl s) with
                                | Ok (i, u) => (Ok i, set_upl u s)
                                | Err x => (Err x, s)
                                end
                      end) k s = k p (set_upl u' s)).
  { intros X k. apply mbind_ok. rewrite He, Ha. reflexivity. }
  assert (Lz : zlen (map sh A) = p) by apply zlen_map.
  assert (Na : ~ In p (pl_ptrs (z_atpl s'))).
  { intro Hi. apply I in Hi as (j & _ & Hj). symmetry in Hj. exact (shift_up_ne _ _ Hj). }
  assert (Ne : forall t, z_etpl s' = Some t -> ~ In p (pl_ptrs t)).
  { intros t Ht' Hi. rewrite Ht' in R. destruct (z_etpl s); cbn [etpl_rel] in R; [|contradiction].
    apply R in Hi as (j & _ & Hj). symmetry in Hj. exact (shift_up_ne _ _ Hj). }
  destruct (e_kind e) as [cn bn|r] eqn:Ek.
  - (* content *)
    assert (Eb : bumped p e = e) by (unfold bumped; rewrite Ek; reflexivity). rewrite Eb.
    exists s'. split.
    { unfold ins. rewrite Hhead. rewrite (mbind_ok _ _ _ tt s') by exact W.
      rewrite (mbind_ok _ _ _ e s').
      2: { apply query_ok. unfold bump_own. rewrite Ek, (kind_content e cn bn Hkc Ek). reflexivity. }
      rewrite Ek. rewrite (mbind_ok _ _ _ tt s') by reflexivity. reflexivity. }
    split; [exact C3|]. do 2 (split; [assumption|]). split; [eapply keeps_weaken; [exact K|tauto]|]. auto.
  - specialize (Hown r eq_refl). pose proof (kind_redirect e r Hkc Ek) as Er.
    destruct (Z.leb_spec p r) as [Hle|Hgt].
    + set (e' := with_redirect_index e (r + 1)).
      assert (Eb : bumped p e = e') by (unfold bumped; rewrite Ek; replace (p <=? r) with true by lia; reflexivity). rewrite Eb.
      assert (Hs' : entry_storable e') by (eapply wri_storable; eauto; lia).
      destruct (entry_size_storable e' Hs') as (b' & Hb' & _).
      assert (Hsp' : span e' = span e) by (eapply wri_span; eauto; lia).
      destruct (core_rewrite s' (map sh A) off e e' (map sh B) b') as (C4 & K4 & L4); try assumption; try reflexivity.
      { eapply wri_consistent; eauto. } { rewrite Lz. exact Na. } { rewrite Lz. exact Ne. }
      exists (set_file (fwrite (z_file s') off b') s'). split.
      { unfold ins. rewrite Hhead. rewrite (mbind_ok _ _ _ tt s') by exact W.
        rewrite (mbind_ok _ _ _ e' s').
        2: { apply query_ok. unfold bump_own. rewrite Ek, Er. replace (p <=? r) with true by lia. cbn [andb].
             unfold set_redirect_index. replace (r + 1 <? 0) with false by lia. reflexivity. }
        rewrite Ek, Er. replace (p <=? r) with true by lia. cbn [andb].
        rewrite (mbind_ok _ _ _ tt (set_file (fwrite (z_file s') off b') s')).
        2: { unfold write_at. apply update_ok. rewrite Hb'. reflexivity. }
        unfold e' at 1. cbn [with_redirect_index e_kind]. replace (r + 1 =? p) with false by lia. rewrite andb_false_r. reflexivity. }
      split; [exact C4|]. cbn [set_file z_main z_alloc z_file z_etpl z_atpl]. do 2 (split; [assumption|]). split.
      { eapply keeps_weaken; [eapply keeps_trans; [exact K|exact K4|lia]|]. cbv beta. tauto. }
      split; [lia|]. auto.
    + assert (Eb : bumped p e = e) by (unfold bumped; rewrite Ek; replace (p <=? r) with false by lia; reflexivity). rewrite Eb.
      exists s'. split.
      { unfold ins. rewrite Hhead. rewrite (mbind_ok _ _ _ tt s') by exact W.
        rewrite (mbind_ok _ _ _ e s').
        2: { apply query_ok. unfold bump_own. rewrite Ek, Er. replace (p <=? r) with false by lia. reflexivity. }
        rewrite Ek, Er. replace (p <=? r) with false by lia. cbn [andb]. rewrite (mbind_ok _ _ _ tt s') by reflexivity.
        replace (r =? p) with false by lia. reflexivity. }
      split; [exact C3|]. do 2 (split; [assumption|]). split; [eapply keeps_weaken; [exact K|tauto]|]. auto.
Qed.

(** *** allocating and writing the bytes of an entry *)
Lemma allocate_total : forall a n, 0 <= n -> exists p a', allocate a n = Ok (p, a').
Proof.
  intros s n Hn. unfold allocate. replace (n <? 0) with false by lia.
  destruct (n =? 0); [eauto|]. pose proof (find_best_correct n (free_blocks s)) as Hb.
  destruct (find_best (free_blocks s) 0 n None) as [[i m]|].
  - destruct Hb as (st & Hn' & _). rewrite Hn'. destruct (n <? m); eauto.
  - destruct (rev (free_blocks s)) as [|[st len] rr]; [eauto|]. destruct (st + len =? file_end s); eauto.
Qed.

Lemma allocate_in_use : forall a n p a', canonical a -> 0 <= file_end a -> allocate a n = Ok (p, a') ->
  0 <= p /\ canonical a' /\ 0 <= file_end a' /\
  (forall x, in_use a' x <-> in_use a x \/ (p <= x < p + n) \/ (file_end a <= x < p /\ p <= file_end a)) /\
  (forall x, p <= x < p + n -> ~ in_use a x).
Proof.
  intros a n p a' Ca En H. destruct (allocate_spec _ _ _ _ Ca H) as (C1 & Hn & Hp & He & Hreg & Hfree). specialize (Hp En).
  split; [lia|]. split; [exact C1|]. split; [lia|]. split.
  - intro x. unfold in_use. rewrite Hfree, He. split.
    + intros [Hx Hnf]. destruct (listed_free_dec a x) as [F|F].
      * assert (p <= x < p + n) by (destruct (Z_le_dec p x), (Z_lt_dec x (p + n)); try lia; exfalso; apply Hnf; (split; [exact F|lia])). auto.
      * destruct (Z_lt_dec x (file_end a)); [left; split; [lia|exact F]|]. right. left. lia.
    + intros [[Hx F]|[Hx|Hx]]; [|split; [lia|tauto]|lia]. split; [lia|tauto].
  - intros x Hx [Hr Hf]. destruct (Hreg x Hx); [contradiction|lia].
Qed.

Lemma alloc_write : forall s cells e b off a, core s cells -> entry_storable e -> kind_consistent e -> entry_to_bytes e = Ok b ->
  allocate (z_alloc s) (span e) = Ok (off, a) ->
  let s1 := set_file (fwrite (z_file s) off b) (set_alloc a s) in
  core s1 cells /\ stored (z_file s1) off e /\ (forall x, occupies (off, e) x -> in_use (z_alloc s1) x) /\
  Forall (apart (off, e)) cells /\ keeps (z_file s) (z_file s1) (in_use (z_alloc s)) /\ zlen (z_file s) <= zlen (z_file s1) /\
  (forall x, in_use a x <-> in_use (z_alloc s) x \/ occupies (off, e) x) /\
  (forall x, occupies (off, e) x -> ~ in_use (z_alloc s) x).
Proof.
  intros s cells e b off a C Hs Hk Hb Ha s1.
  destruct (allocate_in_use _ _ _ _ (co_canonical _ _ C) (co_end _ _ C) Ha) as (Hoff & Ca & En & Hu & Hnew).
  assert (Hu' : forall x, in_use a x <-> in_use (z_alloc s) x \/ occupies (off, e) x).
  { intro x. rewrite Hu. unfold occupies. cbn [fst snd]. split; [|tauto]. intros [H|[H|H]]; auto. lia. }
  assert (Hsp : span e = zlen b) by (apply span_ok; exact Hb).
  assert (K : keeps (z_file s) (z_file s1) (in_use (z_alloc s))).
  { eapply keeps_weaken; [apply keeps_fwrite; exact Hoff|]. intros x Hx Hc. apply (Hnew x); [lia|exact Hx]. }
  assert (Ap : Forall (apart (off, e)) cells).
  { apply Forall_forall. intros c Hc x [H1 H2]. pose proof (co_used _ _ C) as F. rewrite Forall_forall in F.
    exact (Hnew x H1 (F c Hc x H2)). }
  split; [|split; [apply stored_fwrite; assumption|split; [intros x Hx; apply Hu'; auto|]]].
  - constructor; cbn [s1 set_file set_alloc z_file z_upl z_alloc z_atpl z_etpl].
    + apply (co_locs _ _ C).
    + pose proof (co_stored _ _ C) as F. pose proof (co_used _ _ C) as G. rewrite Forall_forall in *. intros c Hc.
      eapply stored_keeps; [apply F; exact Hc|]. eapply keeps_weaken; [exact K|]. intros x Hx. apply (G c Hc). destruct c; exact Hx.
    + pose proof (co_used _ _ C) as G. rewrite Forall_forall in *. intros c Hc x Hx. apply Hu'. left. exact (G c Hc x Hx).
    + apply (co_apart _ _ C).
    + exact Ca.
    + exact En.
    + apply (co_sorted _ _ C).
    + apply (co_atpl _ _ C).
    + apply (co_articles _ _ C).
    + apply (co_etpl _ _ C).
    + apply (co_mut_u _ _ C).
    + apply (co_mut_a _ _ C).
    + apply (co_mut_e _ _ C).
  - split; [exact Ap|]. split; [exact K|]. split; [|split; [exact Hu'|]].
    + cbn [s1 set_file z_file]. rewrite fwrite_len by exact Hoff. lia.
    + intros x Hx. apply Hnew. exact Hx.
Qed.

(** *** [write_entry] of a new entry *)
Lemma write_new : forall rec upd w s cells a, let e := w_entry w in
  (exists rec', forall w, rec w true = write_body rec' w true true) ->
  core s cells -> etitles_complete s (zlen cells) -> targets_in (zlen cells) cells -> zlen cells + 1 < 2 ^ 32 ->
  entry_storable e -> kind_consistent e -> (forall c, In c cells -> full_url (snd c) <> full_url e) ->
  (forall r, e_kind e = Redirect r -> 0 <= r < zlen cells) ->
  find_old s w = Ok None -> is_article s w = Ok a -> (a = true -> e_ns e = NS_C) ->
  exists A B off, cells = A ++ B /\ ((forall c, In c A -> url_lt (snd c) e) /\ (forall c, In c B -> url_lt e (snd c))) /\
    let p := zlen A in let sh := shift_cell p 1 [full_url e] in
    ((exists s', write_body rec w upd true s = (Ok tt, s') /\
       core s' (map sh A ++ (off, bumped p e) :: map sh B) /\ etitles_complete s' (zlen cells + 1) /\
       (forall j, In j (pl_ptrs (z_atpl s')) <-> (j = p /\ a = true) \/ exists i, In i (pl_ptrs (z_atpl s)) /\ j = shift_ptr p 1 i) /\
       z_main s' = shift_main p 1 (z_main s) /\
       (forall x, in_use (z_alloc s') x <-> in_use (z_alloc s) x \/ occupies (off, e) x) /\
       (forall x, occupies (off, e) x -> ~ in_use (z_alloc s) x) /\
       keeps (z_file s) (z_file s') (fun x => in_use (z_alloc s) x /\
         forall c, In c cells -> touched p [full_url e] (snd c) = true -> ~ occupies c x) /\ zlen (z_file s) <= zlen (z_file s') /\
       (z_etpl s = None <-> z_etpl s' = None) /\
       Forall (fun c => ~ clashes p 1 [full_url e] c) cells) \/
     (exists s' c, In c cells /\ clashes p 1 [full_url e] c /\ write_body rec w upd true s = (Err AssertionError, s'))).
Proof.
  intros rec upd w s cells a e Hrec C Hcomp Ht Hn Hs Hk Hf Hown Hfo Har HaC.
  destruct (storable_span e Hs) as [Hsz Hpos]. destruct (entry_size_storable e Hs) as (b & Hb & _).
  destruct (allocate_total (z_alloc s) (span e) ltac:(lia)) as (off & al & Hal).
  destruct (alloc_write s cells e b off al C Hs Hk Hb Hal) as (C1 & St & Us & Ap & K1 & L1 & Hu & Hnew).
  set (s1 := set_file (fwrite (z_file s) off b) (set_alloc al s)) in *.
  assert (Hcomp1 : etitles_complete s1 (zlen cells)) by exact Hcomp.
  destruct (ins_ok rec s1 cells off e Hrec Hn C1 St Us Ap Hf Hcomp1 Ht Hown)
    as (A & B & EC & Hord & Hout). exists A, B, off. split; [exact EC|]. split; [exact Hord|]. cbv zeta in *.
  set (p := zlen A) in *. set (sh := shift_cell p 1 [full_url e]) in *.
  assert (Hhead : forall res, ins rec off e s1 = res -> write_body rec w upd true s =
     mbind (fun _ => res) (fun ie : Z * entry => let (new_index, e') := ie in
       let* _ := add_titles e' a new_index in
       let* _ := ret tt in
       if is_redirect e' then let* _ := query (fun s => follow s e') in ret tt else ret tt) s1).
  { intros res Hres. unfold write_body. fold e.
    rewrite (mbind_ok _ _ _ a s) by (apply query_ok; exact Har).
    rewrite (mbind_ok _ _ _ (span e) s) by (apply query_ok; exact Hsz).
    rewrite (mbind_ok _ _ _ None s) by (apply query_ok; exact Hfo).
    cbv beta iota zeta. cbn [option_map orb].
    rewrite (mbind_ok _ _ _ [] s) by reflexivity.
    rewrite (mbind_ok _ _ _ tt s) by reflexivity.
    rewrite (mbind_ok _ _ _ off (set_alloc al s)) by (rewrite Hal; reflexivity).
    rewrite (mbind_ok _ _ _ tt s1) by (unfold write_at; apply update_ok; rewrite Hb; reflexivity).
    rewrite (mbind_ok _ _ _ tt s1).
    2: { unfold drop_etitle. apply update_ok. reflexivity. }
    rewrite (mbind_ok _ _ _ tt s1) by (unfold drop_atitle; apply update_ok; reflexivity).
    rewrite (mbind_ok _ _ _ tt s1) by reflexivity.
    cbn [opt_eqb]. unfold retarget. fold (ins rec off e). unfold mbind at 1. rewrite Hres.
    destruct res as [[[i e']|x] s2]; reflexivity. }
  destruct Hout as [(s2 & W & C2 & M2 & A2 & K2 & L2 & R2 & I2 & N2)|(s2 & c & Hc & Hcl & W)].
  2: { right. exists s2, c. split; [exact Hc|]. split; [exact Hcl|]. rewrite (Hhead _ W). reflexivity. }
  left. rewrite (Hhead _ W). set (e' := bumped p e) in *.
  assert (Lz : zlen (map sh A) = p) by apply zlen_map.
  assert (Hz : znth (map snd (map sh A ++ (off, e') :: map sh B)) p = Some e').
  { rewrite map_mid. rewrite <- Lz, <- (zlen_map (@snd Z entry)). apply znth_mid. }
  assert (Na : ~ In p (pl_ptrs (z_atpl s2))).
  { intro Hi. apply I2 in Hi as (j & _ & Hj). symmetry in Hj. exact (shift_up_ne _ _ Hj). }
  assert (Ne : forall t, z_etpl s2 = Some t -> ~ In p (pl_ptrs t)).
  { intros t Ht' Hi. rewrite Ht' in R2. destruct (z_etpl s1); cbn [etpl_rel] in R2; [|contradiction].
    apply R2 in Hi as (j & _ & Hj). symmetry in Hj. exact (shift_up_ne _ _ Hj). }
  destruct (add_titles_ok s2 _ p e' a C2 Hz Ne Na) as (s3 & Ad & C3 & U3 & M3 & A3 & F3 & R3 & P3).
  { intro. unfold e'. rewrite (proj2 (bumped_title p e)). auto. }
  exists s3. split.
  { erewrite (mbind_ok (fun _ => (Ok (p, e'), s2))) by reflexivity. cbv beta iota. rewrite (mbind_ok _ _ _ tt s3) by exact Ad. rewrite (mbind_ok _ _ _ tt s3) by reflexivity.
    destruct (is_redirect e') eqn:Er; [|reflexivity].
    destruct (e_kind e) as [cn bn|r] eqn:Ek.
    { exfalso. assert (Ee : e' = e) by (unfold e', bumped; rewrite Ek; reflexivity). rewrite Ee in Er.
      rewrite (kind_content e cn bn Hk Ek) in Er. discriminate. }
    pose proof (Hown r eq_refl) as Hr. pose proof (bumped_kind p e r Ek) as Ek'. fold e' in Ek'.
    assert (exists d, znth (map sh A ++ (off, e') :: map sh B) (shift_ptr p 1 r) = Some d) as [d Hd].
    { apply znth_ex. rewrite zlen_app, zlen_cons, !zlen_map. rewrite EC, zlen_app in Hr. unfold shift_ptr. fold p in Hr |- *.
      destruct (Z.leb_spec p r); lia. }
    rewrite (mbind_ok _ _ _ (snd d) s3); [reflexivity|]. apply query_ok. unfold follow. rewrite Ek'. eapply entry_by_index; eauto. }
  split; [exact C3|]. split.
  { intros t Ht' j Hj. rewrite Ht' in R3. destruct (z_etpl s2) as [t2|] eqn:E2; cbn [etpl_rel] in R3; [|contradiction].
    apply (Permutation_in _ (Permutation_sym R3)). destruct (Z.eq_dec j p) as [->|Hne]; [left; reflexivity|right].
    destruct (z_etpl s1) as [t1|] eqn:E1; cbn [etpl_rel] in R2; [|contradiction].
    apply R2. exists (shift_ptr p (-1) j). rewrite shift_up_down by exact Hne. split; [|reflexivity].
    apply (Hcomp1 t1 E1). unfold shift_ptr. pose proof (zlen_nonneg A). pose proof (zlen_nonneg B).
    rewrite EC, zlen_app in Hj |- *. fold p in Hj, H |- *. destruct (Z.leb_spec p j); lia. }
  split.
  { intro j. split.
    - intro Hj. apply (Permutation_in _ P3) in Hj. destruct a.
      + destruct Hj as [ <- | Hj]; [auto|]. right. apply I2 in Hj. exact Hj.
      + right. apply I2 in Hj. exact Hj.
    - intros Hj. apply (Permutation_in _ (Permutation_sym P3)). destruct Hj as [[ -> -> ]|Hj].
      + left. reflexivity.
      + apply I2 in Hj. destruct a; [right|]; exact Hj. }
  split; [rewrite M3; exact M2|]. rewrite A3, F3. rewrite A2. split; [exact Hu|]. split; [exact Hnew|]. split.
  { eapply keeps_weaken; [eapply keeps_trans; [exact K1|exact K2|lia]|]. cbv beta. intros x [Hx1 Hx2]. split; [exact Hx1|].
    split; [|exact Hx2]. intro Ho. exact (Hnew x Ho Hx1). }
  split; [lia|]. split; [|exact N2]. change (z_etpl s) with (z_etpl s1).
  destruct (z_etpl s1), (z_etpl s2), (z_etpl s3); cbn [etpl_rel] in *; try contradiction; split; congruence.
Qed.

(** *** removing from the url list *)
Lemma shift_span : forall start diff skip e, entry_storable e ->
  (forall r, touched start skip e = true -> e_kind e = Redirect r -> 0 <= r + diff < 2 ^ 32) ->
  span (shift_entry start diff skip e) = span e.
Proof.
  intros start diff skip e Hs Hr. unfold shift_entry. destruct (touched start skip e) eqn:T; [|reflexivity].
  destruct (e_kind e) as [|r] eqn:Ek; [reflexivity|]. eapply wri_span; eauto.
Qed.

Lemma remove_upl : forall s (c : Z * entry) A B, pl_ptrs (z_upl s) = map fst (A ++ c :: B) -> pl_mutable (z_upl s) = true ->
  exists u, pl_remove_by_index (zlen A) (z_upl s) = Ok u /\ pl_ptrs u = map fst A ++ map fst B /\ pl_mutable u = true.
Proof.
  intros s c A B E M. unfold pl_remove_by_index. pose proof (zlen_nonneg A). replace (zlen A <? 0) with false by lia.
  rewrite M. cbn [negb]. unfold py_index. rewrite E, zlen_map, zlen_app, zlen_cons. pose proof (zlen_nonneg B).
  replace ((0 <=? zlen A) && (zlen A <? zlen A + (1 + zlen B))) with true by lia.
  eexists. split; [reflexivity|]. cbn. split; [|exact M]. rewrite map_mid.
  apply list_pop_mid. rewrite map_length. unfold zlen. lia.
Qed.

Definition rem (wr : went -> M zim unit) (i : Z) (edit : bool) : M zim unit :=
  let* _ := update (fun s => do u <- pl_remove_by_index i (z_upl s) ;; Ok (set_upl u s)) in
  update_url_pointers wr i (-1) edit [].

Lemma rem_ok : forall rec wr s0 s A c B edit,
  (forall w, wr w = write_body rec w true true) -> zlen (A ++ c :: B) < 2 ^ 32 ->
  core s0 (A ++ c :: B) -> etitles_complete s0 (zlen (A ++ c :: B)) -> targets_in (zlen (A ++ c :: B)) (A ++ B) ->
  (forall d, In d (A ++ B) -> e_kind (snd d) = Redirect 0 -> 0 < zlen A) ->
  z_upl s = z_upl s0 ->
  Forall (fun c => stored (z_file s) (fst c) (snd c)) (A ++ B) ->
  Forall (fun c => forall x, occupies c x -> in_use (z_alloc s) x) (A ++ B) ->
  canonical (z_alloc s) -> 0 <= file_end (z_alloc s) ->
  minus (zlen A) (pl_ptrs (z_atpl s0)) (pl_ptrs (z_atpl s)) -> pl_mutable (z_atpl s) = true ->
  etpl_rel (minus (zlen A)) (z_etpl s0) (z_etpl s) -> (forall t, z_etpl s = Some t -> pl_mutable t = true) ->
  (edit = true \/ forall j, In j (pl_ptrs (z_atpl s)) -> j < zlen A) ->
  let i := zlen A in let sh := shift_cell i (-1) [] in
  (exists s', rem wr i edit s = (Ok tt, s') /\ core s' (map sh (A ++ B)) /\
     etitles_complete s' (zlen (A ++ B)) /\ image_shift i (-1) (pl_ptrs (z_atpl s)) (pl_ptrs (z_atpl s')) /\
     z_main s' = shift_main i (-1) (z_main s) /\ z_alloc s' = z_alloc s /\
     keeps (z_file s) (z_file s') (fun x => forall c, In c (A ++ B) -> touched i [] (snd c) = true -> ~ occupies c x) /\
     zlen (z_file s') = zlen (z_file s) /\ (z_etpl s = None <-> z_etpl s' = None) /\
     Forall (fun c => ~ clashes i (-1) [] c) (A ++ B)) \/
  (exists s' c, In c (A ++ B) /\ clashes i (-1) [] c /\ rem wr i edit s = (Err AssertionError, s')).
Proof.
  intros rec wr s0 s A c B edit Hwr Hn C0 Hcomp Ht Hz Eu St Us Ca En Ra Ma Re Me Hed i sh.
  destruct (remove_upl s0 c A B (co_locs _ _ C0) (co_mut_u _ _ C0)) as (u & Hu & Pu & Mu).
  assert (Hrm : update (fun s => do u <- pl_remove_by_index i (z_upl s) ;; Ok (set_upl u s)) s = (Ok tt, set_upl u s)).
  { apply update_ok. rewrite Eu. unfold i. rewrite Hu. reflexivity. }
  pose proof (core_remove s0 (set_upl u s) A c B edit C0 Pu Mu St Us Ca En Ra Ma Re Me Hed) as C2.
  assert (Ln : zlen (A ++ c :: B) = zlen (A ++ B) + 1) by (rewrite !zlen_app, zlen_cons; lia).
  destruct (uup_ok rec wr i (-1) edit [] [] (zlen (A ++ B)) (set_upl u s) (A ++ B) Hwr)
    as [(s' & W & C3 & U & Mn & Al & K & Le & R & I & N)|(s' & d & Hd & Hcl & W)].
  - lia.
  - exact C2.
  - reflexivity.
  - intros t Htt j Hj _. rewrite shift_lists_etpl in Htt. cbn [z_etpl set_upl] in Htt.
    destruct (z_etpl s) as [t1|] eqn:Et1; [|discriminate]. injection Htt as <-. cbn [pl_ptrs shift_pl].
    destruct (z_etpl s0) as [t0|] eqn:Et0; cbn [etpl_rel] in Re; [|contradiction]. destruct Re as (Rn & Rl & Ri).
    rewrite <- (shift_down_up i j). apply in_map. apply Ri. split; [|apply shift_up_ne].
    apply (Hcomp t0 Et0). unfold shift_ptr. destruct (Z.leb_spec i j); lia.
  - intros j d Hj [].
  - apply Forall_forall. intros d Hd r T Hr. pose proof (Ht d r Hd Hr) as Hb.
    unfold touched in T. rewrite Hr in T. apply andb_prop in T as [_ T].
    assert (r <> 0). { intros ->. specialize (Hz d Hd Hr). unfold i in T. lia. }
    lia.
  - left. exists s'. split; [unfold rem; rewrite (mbind_ok _ _ _ _ _ Hrm); exact W|]. split; [exact C3|].
    cbn [z_main z_alloc z_file set_upl] in *. rewrite shift_lists_etpl in R. cbn [z_etpl set_upl] in R. split.
    { intros t Htt j Hj. rewrite Htt in R. destruct (z_etpl s) as [t1|] eqn:Et1; cbn [option_map etpl_rel] in R; [|contradiction].
      apply (Permutation_in _ (Permutation_sym R)). cbn [pl_ptrs shift_pl].
      destruct (z_etpl s0) as [t0|] eqn:Et0; cbn [etpl_rel] in Re; [|contradiction]. destruct Re as (Rn & Rl & Ri).
      rewrite <- (shift_down_up i j). apply in_map. apply Ri. split; [|apply shift_up_ne].
      apply (Hcomp t0 Et0). unfold shift_ptr. destruct (Z.leb_spec i j); lia. }
    split.
    { intro j. rewrite I, shift_lists_atpl. cbn [z_atpl set_upl]. destruct edit.
      - cbn [pl_ptrs shift_pl]. rewrite in_map_iff. split; intros (k & H1 & H2); eauto.
      - destruct Hed as [Hed|Hed]; [discriminate|]. split.
        + intro Hj. exists j. split; [exact Hj|]. specialize (Hed j Hj). unfold shift_ptr, i. destruct (Z.leb_spec (zlen A) j); lia.
        + intros (k & Hk & ->). specialize (Hed k Hk). unfold shift_ptr, i. destruct (Z.leb_spec (zlen A) k); [lia|exact Hk]. }
    split; [exact Mn|]. split; [exact Al|]. split; [exact K|]. split; [exact Le|]. split; [|exact N].
    destruct (z_etpl s), (z_etpl s'); cbn [etpl_rel option_map] in *; try contradiction; split; congruence.
  - right. exists s', d. split; [exact Hd|]. split; [exact Hcl|]. unfold rem. rewrite (mbind_ok _ _ _ _ _ Hrm). exact W.
Qed.
