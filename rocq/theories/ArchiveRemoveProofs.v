(** Proofs about removing entries. *)
From Coq Require Import List ZArith Bool Lia Sorting.Sorted Sorting.Permutation.
From Coq Require Import ZifyBool ZifyNat.
From Verif Require Import Base BaseProofs Utf8 Utf8Proofs Entry EntrySpec EntryProofs PointerList PointerListSpec PointerListProofs
  SpaceAllocator SpaceAllocatorSpec SpaceAllocatorProofs Cluster Archive ArchiveSpec ArchiveProofs ArchiveWriteProofs ArchiveMoveProofs.
Import ListNotations.
Open Scope Z_scope.

Lemma entry_at_url_article : forall s cells i c, core s cells -> znth cells i = Some c -> e_ns (snd c) = NS_C ->
  exists a, entry_at_url_is_article s (full_url (snd c)) = Ok a /\ (a = true <-> In i (pl_ptrs (z_atpl s))).
Proof.
  intros s cells i c C H Hns. unfold entry_at_url_is_article.
  replace (in_C (full_url (snd c))) with true by (unfold full_url; rewrite Hns; reflexivity). cbn [negb].
  rewrite (url_index_found _ _ _ _ C H). pose proof (get_by_pointer_spec (pl_ptrs (z_atpl s)) i) as G.
  destruct (get_by_pointer (pl_ptrs (z_atpl s)) i) as [k|x].
  - exists true. split; [reflexivity|]. split; [|reflexivity]. intros _. destruct G as [G _]. eapply znth_in; eauto.
  - destruct G as [-> G]. exists false. split; [reflexivity|]. split; [discriminate|contradiction].
Qed.

Lemma no_removable : forall s cells i c, core s cells -> znth cells i = Some c ->
  forall L, (forall e, In e L -> In e (map snd cells)) ->
  (forall e, In e L -> e_kind e = Redirect i -> full_url e = full_url (snd c)) -> removable_redirects s i L = Ok [].
Proof.
  intros s cells i c C H. induction L as [|e L IH]; intros HL Hno; [reflexivity|]. cbn [removable_redirects].
  assert (Hk : (if is_redirect e && match e_kind e with Redirect j => j =? i | Content _ _ => false end
                then do t <- get_entry_by_url_index s i ;; Ok (negb (ueqb (full_url t) (full_url e))) else Ok false) = Ok false).
  { destruct (is_redirect e); [|reflexivity]. cbn [andb]. destruct (e_kind e) as [|r] eqn:Ek; [reflexivity|].
    destruct (Z.eqb_spec r i) as [->|]; [|reflexivity]. rewrite (entry_by_index _ _ _ _ C H). cbn [bind].
    rewrite (Hno e (or_introl eq_refl) Ek). replace (ueqb (full_url (snd c)) (full_url (snd c))) with true by (symmetry; apply ueqb_eq; reflexivity).
    reflexivity. }
  rewrite Hk. cbn [bind]. rewrite IH; [reflexivity| |].
  - intros e' He'. apply HL. right. exact He'.
  - intros e' He'. apply Hno. right. exact He'.
Qed.

(** [remove_body] up to the recursive calls for the redirects [T] to the entry. *)
Definition remove_all (rc : ustr -> M zim unit) (T : list ustr) : M zim unit := fold_left (fun m u => let* _ := m in rc u) T (ret tt).
Lemma remove_head : forall wr rec rc s A p0 e0 B RS, let i := zlen A in let cells := A ++ (p0, e0) :: B in
  (forall w, wr w = write_body rec w true true) -> zlen cells < 2 ^ 32 ->
  core s cells -> etitles_complete s (zlen cells) -> targets_in (zlen cells) (A ++ B) ->
  (forall d, In d (A ++ B) -> e_kind (snd d) = Redirect 0 -> 0 < i) -> removable_redirects s i (map snd cells) = Ok RS ->
  (In i (pl_ptrs (z_atpl s)) \/ forall j, In j (pl_ptrs (z_atpl s)) -> j < i) ->
  let sh := shift_cell i (-1) [] in
  (exists s', remove_body keep_blob wr rc (full_url e0) s = remove_all rc RS s' /\ core s' (map sh (A ++ B)) /\
     etitles_complete s' (zlen (A ++ B)) /\
     (forall k, In k (pl_ptrs (z_atpl s')) <-> exists k0, In k0 (pl_ptrs (z_atpl s)) /\ k0 <> i /\ k = shift_ptr i (-1) k0) /\
     z_main s' = (if opt_eqb (z_main s) (Some i) then None else shift_main i (-1) (z_main s)) /\
     (forall x, in_use (z_alloc s') x <-> in_use (z_alloc s) x /\ ~ occupies (p0, e0) x) /\
     keeps (z_file s) (z_file s') (fun x => forall c, In c (A ++ B) -> is_redirect (snd c) = true -> ~ occupies c x) /\
     zlen (z_file s') = zlen (z_file s) /\ (z_etpl s = None <-> z_etpl s' = None)) \/
  (exists s' c, In c (A ++ B) /\ is_redirect (snd c) = true /\ fst c < zlen cells /\
     remove_body keep_blob wr rc (full_url e0) s = (Err AssertionError, s')).
Proof.
  intros wr rec rc s A p0 e0 B RS i cells Hwr Hn C Hcomp Ht Hz0 HT Hart sh.
  assert (Hz : znth cells i = Some (p0, e0)) by apply znth_mid.
  assert (Hi : 0 <= i < zlen cells) by (eapply znth_some; eauto).
  pose proof (core_nth _ _ _ _ C Hz) as St. cbn [fst snd] in St. pose proof St as (Hp0 & Hs0 & Hk0 & _).
  destruct (storable_span e0 Hs0) as [Hsz0 Hpos0].
  assert (LAB : zlen cells = zlen (A ++ B) + 1) by (unfold cells; rewrite !zlen_app, zlen_cons; lia).
  (* is it an article? *)
  assert (exists a, (if ueqb (e_ns e0) NS_C then entry_at_url_is_article s (full_url e0) else Ok false) = Ok a /\ (a = true <-> In i (pl_ptrs (z_atpl s)))) as (a & Ha & Hai).
  { destruct (ueqb (e_ns e0) NS_C) eqn:En.
    - apply ueqb_eq in En. exact (entry_at_url_article s cells i (p0, e0) C Hz En).
    - exists false. split; [reflexivity|]. split; [discriminate|]. intro Hin. exfalso.
      assert (e_ns e0 = NS_C) by (eapply (co_articles _ _ C); [exact Hin|rewrite znth_map, Hz; reflexivity]).
      rewrite H in En. discriminate. }
  (* dropping titles *)
  set (ka := if a then match get_by_pointer (pl_ptrs (z_atpl s)) i with Ok k => Some k | Err _ => None end else None).
  assert (Pa : is_position ka (pl_ptrs (z_atpl s)) i /\ (a = true -> exists k, get_by_pointer (pl_ptrs (z_atpl s)) i = Ok k /\ ka = Some k)).
  { unfold ka. destruct a.
    - pose proof (get_by_pointer_spec (pl_ptrs (z_atpl s)) i) as G. destruct (get_by_pointer (pl_ptrs (z_atpl s)) i) as [k|x] eqn:E.
      + split; [exact E|eauto].
      + destruct G as [_ G]. exfalso. apply G. apply Hai. reflexivity.
    - split; [|discriminate]. intro Hin. apply Hai in Hin. discriminate. }
  destruct Pa as [Pa Hka].
  destruct (drop_atitle_ok s ka i (map snd cells) (co_atpl _ _ C) (co_mut_a _ _ C) Pa) as (at' & Da & Ra & Ma).
  set (s1 := set_atpl at' s) in *.
  assert (Hstep1 : (if a then let* k := query (fun s => get_by_pointer (pl_ptrs (z_atpl s)) i) in drop_atitle (Some k) else ret tt) s = (Ok tt, s1)).
  { destruct a.
    - destruct (Hka eq_refl) as (k & Ek & Ek'). rewrite (mbind_ok _ _ _ k s) by (apply query_ok; exact Ek). rewrite <- Ek'. exact Da.
    - unfold ka, drop_atitle, update in Da. injection Da as Da. unfold ret. rewrite <- Da. reflexivity. }
  assert (exists et' s2, (match z_etpl s1 with
                      | None => (Ok tt, s1)
                      | Some t => (let* k := query (fun _ => get_by_pointer (pl_ptrs t) i) in drop_etitle (Some k)) s1
                      end) = (Ok tt, s2) /\ s2 = set_etpl et' s1 /\ etpl_rel (minus i) (z_etpl s) et' /\ (forall t, et' = Some t -> pl_mutable t = true))
    as (et' & s2 & Hstep2 & Es2 & Re & Me).
  { change (z_etpl s1) with (z_etpl s). destruct (z_etpl s) as [t|] eqn:Et.
    - pose proof (get_by_pointer_spec (pl_ptrs t) i) as G. destruct (get_by_pointer (pl_ptrs t) i) as [k|x] eqn:E.
      + destruct (drop_etitle_ok s1 (Some k) i (map snd cells)) as (et' & De & Re & Me).
        { intros t' Ht'. cbn in Ht'. rewrite Et in Ht'. injection Ht' as <-. split; [apply (co_etpl _ _ C); exact Et|]. split; [apply (co_mut_e _ _ C); exact Et|exact E]. }
        change (z_etpl s1) with (z_etpl s) in Re. rewrite Et in Re. exists et', (set_etpl et' s1). split; [|auto].
        rewrite (mbind_ok _ _ _ k s1) by reflexivity. exact De.
      + destruct G as [_ G]. exfalso. apply G. apply (Hcomp t Et). exact Hi.
    - exists None, s1. split; [reflexivity|]. split; [|split; [exact I|discriminate]]. rewrite <- Et. unfold s1. destruct s; reflexivity. }
  (* removal of the pointer; the main page is changed in between *)
  pose proof (co_stored _ _ C) as F. apply Forall_mid in F as (F1 & F2 & F3).
  pose proof (co_used _ _ C) as U. apply Forall_mid in U as (U1 & U2 & U3).
  set (m' := if opt_eqb (z_main s) (Some i) then None else z_main s).
  set (s3 := set_main m' s2).
  assert (Hed : a = true \/ forall j, In j (pl_ptrs (z_atpl s3)) -> j < i).
  { destruct Hart as [Hart|Hart]; [left; apply Hai; exact Hart|]. right. intros j Hj. apply Hart. subst s2. cbn in Hj. apply Ra in Hj. tauto. }
  assert (Es3 : z_upl s3 = z_upl s /\ z_file s3 = z_file s /\ z_alloc s3 = z_alloc s /\ z_atpl s3 = at' /\ z_etpl s3 = et' /\ z_main s3 = m').
  { unfold s3. subst s2. repeat split. }
  destruct Es3 as (Eu3 & Ef3 & Ea3 & Et3 & Ee3 & Em3).
  pose proof (rem_ok rec wr s s3 A (p0, e0) B a Hwr Hn C Hcomp Ht Hz0 Eu3) as Hrem. rewrite Ef3, Ea3, Et3, Ee3, Em3 in Hrem. rewrite Et3 in Hed.
  specialize (Hrem (proj2 (Forall_app _ _ _) (conj F1 F3)) (proj2 (Forall_app _ _ _) (conj U1 U3)) (co_canonical _ _ C) (co_end _ _ C) Ra Ma Re Me Hed).
  cbv zeta in Hrem. fold i in Hrem. fold sh in Hrem.
  assert (Hend : p0 + span e0 <= file_end (z_alloc s)).
  { assert (O : occupies (p0, e0) (p0 + span e0 - 1)) by (unfold occupies; cbn [fst snd]; lia). apply U2 in O as [O _]. lia. }
  destruct (mark_free_total (z_alloc s) p0 (span e0) Hp0 ltac:(lia)) as [al Hm].
  destruct (mark_free_spec _ _ _ _ (co_canonical _ _ C) Hend Hm) as (C1 & _ & _ & E1 & L1).
  assert (Hhead : forall r, rem wr i a s3 = r -> remove_body keep_blob wr rc (full_url e0) s =
     mbind (fun _ => r) (fun _ => let* _ := update (fun s => do a <- mark_free (z_alloc s) p0 (span e0) ;; Ok (set_alloc a s)) in remove_all rc RS) s3).
  { intros r Hr. unfold remove_body.
    rewrite (mbind_ok _ _ _ i s).
    2: { apply query_ok. change (full_url e0) with (full_url (snd (p0, e0))). rewrite (url_index_found _ _ _ _ C Hz). reflexivity. }
    rewrite (mbind_ok _ _ _ p0 s) by (apply query_ok; exact (by_index_ok _ _ _ _ C Hz)).
    rewrite (mbind_ok _ _ _ e0 s) by (apply query_ok; apply stored_read; exact St).
    rewrite (mbind_ok _ _ _ (span e0) s) by (apply query_ok; exact Hsz0).
    rewrite (mbind_ok _ _ _ tt s) by (destruct (is_redirect e0); reflexivity).
    rewrite (mbind_ok _ _ _ RS s) by (apply query_ok; rewrite (iter_entries_ok _ _ C); cbn [bind]; exact HT).
    rewrite (mbind_ok _ _ _ a s) by (apply query_ok; exact Ha).
    rewrite (mbind_ok _ _ _ tt s1) by exact Hstep1.
    rewrite (mbind_ok _ _ _ tt s2) by exact Hstep2.
    destruct (remove_upl s (p0, e0) A B (co_locs _ _ C) (co_mut_u _ _ C)) as (u & Hu & _).
    rewrite (mbind_ok _ _ _ tt (set_upl u s2)).
    2: { apply update_ok. rewrite Es2. cbn [z_upl set_etpl s1 set_atpl]. unfold i. rewrite Hu. reflexivity. }
    rewrite (mbind_ok _ _ _ tt (set_upl u s3)).
    2: { apply update_ok. unfold s3, m'. rewrite Es2. cbn [z_main set_upl set_etpl s1 set_atpl]. destruct (opt_eqb (z_main s) (Some i)); reflexivity. }
    unfold rem in Hr. rewrite (mbind_ok _ _ _ tt (set_upl u s3)) in Hr.
    2: { apply update_ok. rewrite Eu3. unfold i. rewrite Hu. reflexivity. }
    unfold mbind at 1 5. rewrite Hr. destruct r as [[[]|x] s5]; reflexivity. }
  destruct Hrem as [(s4 & W4 & C4 & Hc4 & I4 & M4 & A4 & K4 & L4 & E4 & N4)|(s4 & d & Hd & [T Hcl] & W4)].
  - left. exists (set_alloc al s4). split.
    { rewrite (Hhead _ W4). erewrite (mbind_ok (fun _ => (Ok tt, s4))) by reflexivity. rewrite (mbind_ok _ _ _ tt (set_alloc al s4)); [reflexivity|]. apply update_ok. rewrite A4, Hm. reflexivity. }
    assert (Hus : forall x, in_use al x <-> in_use (z_alloc s) x /\ ~ occupies (p0, e0) x).
    { intro x. unfold in_use. rewrite E1, L1. unfold occupies. cbn [fst snd]. tauto. }
    split.
    { destruct C4. constructor; cbn [set_alloc z_file z_upl z_alloc z_atpl z_etpl]; try assumption.
      - rewrite Forall_forall in *. intros c Hc x Hx. apply Hus. rewrite A4 in co_used. split; [exact (co_used c Hc x Hx)|].
        apply in_map_iff in Hc as (d & <- & Hd). intro Ho.
        pose proof (apart_mid _ _ _ (ArchiveSpec.co_apart _ _ C)) as Ap0. apply (Ap0 d) with (x := x); [apply in_app_or in Hd; tauto|].
        split; [exact Ho|]. unfold occupies, sh, shift_cell in Hx |- *. cbn [fst snd] in Hx. rewrite shift_span in Hx; [exact Hx| |].
        + apply in_app_or in Hd. destruct Hd as [Hd|Hd]; [destruct (F1 d Hd) as (_ & H & _)|destruct (F3 d Hd) as (_ & H & _)]; exact H.
        + intros r T Hr. pose proof (Ht d r Hd Hr) as Hb. unfold touched in T. rewrite Hr in T. apply andb_prop in T as [_ T].
          assert (r <> 0). { intros ->. specialize (Hz0 d Hd Hr). lia. } lia.
      - lia. }
    split; [exact Hc4|]. split.
    { intro k. cbn [set_alloc z_atpl]. rewrite (I4 k). destruct Ra as (Rn & Rl & Ri). split.
      - intros (k0 & Hk' & ->). apply Ri in Hk' as [H1 H2]. eauto.
      - intros (k0 & H1 & H2 & ->). exists k0. split; [|reflexivity]. apply Ri. auto. }
    split. { cbn [set_alloc z_main]. rewrite M4. unfold m'. destruct (opt_eqb (z_main s) (Some i)); reflexivity. }
    split; [exact Hus|]. split.
    { cbn [set_alloc z_file]. eapply keeps_weaken; [exact K4|]. intros x Hx c Hc T. apply (Hx c Hc). eapply touched_redirect; eauto. }
    split; [exact L4|]. cbn [set_alloc z_etpl]. rewrite <- E4. destruct (z_etpl s), et'; cbn [etpl_rel] in Re; try contradiction; split; congruence.
  - right. exists s4, d. split; [exact Hd|]. split; [eapply touched_redirect; eauto|]. split.
    + destruct (e_kind (snd d)) as [cn bn|r] eqn:Ek; [unfold touched in T; rewrite Ek, andb_false_r in T; discriminate|].
      destruct (shift_kind i (-1) [] (snd d) r Ek) as (r' & Hr' & ->). rewrite T in Hr'. rewrite Hr' in Hcl. injection Hcl as Hcl.
      pose proof (Ht d r Hd Ek). lia.
    + rewrite (Hhead _ W4). reflexivity.
Qed.

Lemma remove_plain : forall wr rec rc s A p0 e0 B, let i := zlen A in let cells := A ++ (p0, e0) :: B in
  (forall w, wr w = write_body rec w true true) -> zlen cells < 2 ^ 32 ->
  core s cells -> etitles_complete s (zlen cells) -> targets_in (zlen cells) (A ++ B) ->
  (forall d, In d (A ++ B) -> e_kind (snd d) <> Redirect i) ->
  (In i (pl_ptrs (z_atpl s)) \/ forall j, In j (pl_ptrs (z_atpl s)) -> j < i) ->
  let sh := shift_cell i (-1) [] in
  (exists s', remove_body keep_blob wr rc (full_url e0) s = (Ok tt, s') /\ core s' (map sh (A ++ B)) /\
     etitles_complete s' (zlen (A ++ B)) /\
     (forall k, In k (pl_ptrs (z_atpl s')) <-> exists k0, In k0 (pl_ptrs (z_atpl s)) /\ k0 <> i /\ k = shift_ptr i (-1) k0) /\
     z_main s' = (if opt_eqb (z_main s) (Some i) then None else shift_main i (-1) (z_main s)) /\
     (forall x, in_use (z_alloc s') x <-> in_use (z_alloc s) x /\ ~ occupies (p0, e0) x) /\
     keeps (z_file s) (z_file s') (fun x => forall c, In c (A ++ B) -> is_redirect (snd c) = true -> ~ occupies c x) /\
     zlen (z_file s') = zlen (z_file s) /\ (z_etpl s = None <-> z_etpl s' = None)) \/
  (exists s' c, In c (A ++ B) /\ is_redirect (snd c) = true /\ fst c < zlen cells /\
     remove_body keep_blob wr rc (full_url e0) s = (Err AssertionError, s')).
Proof.
  intros wr rec rc s A p0 e0 B i cells Hwr Hn C Hcomp Ht Hno Hart sh.
  assert (Hz : znth cells i = Some (p0, e0)) by apply znth_mid.
  apply (remove_head wr rec rc s A p0 e0 B []); auto.
  - intros d Hd Hr. assert (0 <= zlen A) by apply zlen_nonneg. destruct (Z.eq_dec i 0) as [E|]; [|fold i in H; fold i; lia]. exfalso. apply (Hno d Hd). rewrite E. exact Hr.
  - apply (no_removable s cells i (p0, e0) C Hz); [auto|].
    intros e He Hr'. apply in_map_iff in He as (d & <- & Hd). unfold cells in Hd. apply in_app_or in Hd. destruct Hd as [Hd|[<-|Hd]]; [| reflexivity|];
      exfalso; (apply (Hno d); [apply in_or_app; auto|exact Hr']).
Qed.
