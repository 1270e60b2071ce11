(** Editing and removing entries leaves the clusters of the archive, and all
    bytes that belong to no entry, alone. *)
From Coq Require Import List ZArith Bool Lia Sorting.Sorted.
From Coq Require Import ZifyBool ZifyNat.
From Verif Require Import Base BaseProofs Utf8 Utf8Proofs Entry EntrySpec EntryProofs PointerList PointerListProofs SpaceAllocator SpaceAllocatorSpec Cluster
  Archive ArchiveSpec ArchiveProofs ArchiveWriteProofs ArchiveMoveProofs ArchiveRemoveProofs ArchiveFacts ArchiveObserve ArchiveLaws
  ArchiveCluster ArchiveClusterSpec ArchiveClusterProofs ArchiveFrame ArchiveEntryCluster ArchiveEdit.
Import ListNotations.
Open Scope Z_scope.

(** The number of bytes of an entry does not depend on the number of its target. *)
Lemma same_span : forall a b, same_entry a b -> entry_storable a -> entry_storable b -> span b = span a.
Proof.
  intros a b (_ & _ & E2 & E3 & E4) Sa Sb. destruct (storable_span a Sa) as (Ha & _). destruct (storable_span b Sb) as (Hb & _).
  assert (X : entry_disk_size b = entry_disk_size a). { unfold entry_disk_size. rewrite E2, E3. destruct (e_kind a), (e_kind b); try contradiction; reflexivity. }
  rewrite Ha, Hb in X. injection X as ->. reflexivity.
Qed.

(** A change of the entries from [cells] to [cells'] that takes only the space of
    entries and free space. *)
Record entry_step (s : zim) (cells : list (Z * entry)) (s' : zim) (cells' : list (Z * entry)) : Prop := mkEntryStep {
  es_core : core s' cells';
  es_consistent : consistent s' (map snd cells');
  es_cells : forall c' x, In c' cells' -> occupies c' x -> (exists c, In c cells /\ occupies c x) \/ ~ in_use (z_alloc s) x;
  es_used : forall x, in_use (z_alloc s) x -> (forall c, In c cells -> ~ occupies c x) -> in_use (z_alloc s') x;
  es_keeps : keeps (z_file s) (z_file s') (fun x => in_use (z_alloc s) x /\ forall c, In c cells -> ~ occupies c x);
  es_len : zlen (z_file s) <= zlen (z_file s');
  es_tracks : ztracks s s';
  es_clean : pl_dirty (z_upl s') = false -> z_alloc s' = z_alloc s /\ z_main s' = z_main s }.

(** Operations after which the url list is marked as modified. *)
Definition marks {A} (m : M zim A) : Prop := forall s x s', m s = (Ok x, s') -> pl_dirty (z_upl s') = true.
Lemma m_then : forall A B (m : M zim A) (k : A -> M zim B), (forall x, marks (k x)) -> marks (let* x := m in k x).
Proof. intros A B m k Hk s r s' H. unfold mbind in H. destruct (m s) as [[x|e] s1] eqn:E; [|discriminate H]. eapply Hk. exact H. Qed.
Lemma still_dirty : forall s s', ztracks s s' -> pl_dirty (z_upl s) = true -> pl_dirty (z_upl s') = true.
Proof. intros s s' [(_ & _ & T) _ _] H. destruct (pl_dirty (z_upl s')) eqn:E; [reflexivity|]. rewrite (T eq_refl) in E. congruence. Qed.
Lemma m_first : forall A B (m : M zim A) (k : A -> M zim B), marks m -> (forall x, quiet (k x)) -> marks (let* x := m in k x).
Proof.
  intros A B m k Hm Hk s r s' H. unfold mbind in H. destruct (m s) as [[x|e] s1] eqn:E; [|discriminate H]. eapply still_dirty; [eapply Hk; exact H|]. eapply Hm. exact E.
Qed.
Lemma query_inv : forall A B (q : zim -> res A) (k : A -> M zim B) s x s', (let* y := query q in k y) s = (Ok x, s') -> exists y, q s = Ok y /\ k y s = (Ok x, s').
Proof. intros A B q k s x s' H. unfold mbind, query in H. destruct (q s) as [y|e]; [eauto|discriminate H]. Qed.
Lemma remove_url_marks : forall i, marks (update (fun s => do u <- pl_remove_by_index i (z_upl s) ;; Ok (set_upl u s))).
Proof.
  intros i s x s' H. unfold update in H. destruct (pl_remove_by_index i (z_upl s)) as [u|e] eqn:E; cbn [bind] in H; [|discriminate H]. injection H as _ <-. cbn [z_upl set_upl].
  unfold pl_remove_by_index in E. destruct (i <? 0); [discriminate E|]. destruct (negb _); [discriminate E|]. destruct (py_index _ _); [|discriminate E]. injection E as <-. reflexivity.
Qed.
Lemma add_dirty : forall keyf k p o i o', pl_add keyf k p o = Ok (i, o') -> pl_dirty o' = true.
Proof.
  intros keyf k p o i o' H. unfold pl_add in H. destruct (p <? 0); [discriminate H|]. destruct (negb (pl_mutable o)); [discriminate H|].
  destruct (binarysearch _ _ _) as [j|]; cbn [bind] in H; [|discriminate H]. injection H as _ <-. reflexivity.
Qed.
Lemma write_marks : forall rec w u t s x s' old size, (forall w u, quiet (rec w u)) -> write_body rec w u t s = (Ok x, s') -> find_old s w = Ok old ->
  entry_disk_size (w_entry w) = Ok size -> (match old with None => True | Some o => o_size o <> size \/ w_old_url w <> full_url (w_entry w) end) -> pl_dirty (z_upl s') = true.
Proof.
  intros rec w u t s x s' old size Hr H FO ES CH. unfold write_body in H.
  apply query_inv in H as (article & _ & H). apply query_inv in H as (sz & E1 & H). rewrite ES in E1. injection E1 as <-. apply query_inv in H as (o' & E2 & H). rewrite FO in E2. injection E2 as <-.
  set (uc := match old with None => true | Some _ => negb (ueqb (w_old_url w) (full_url (w_entry w))) end) in *.
  set (sc := match old with None => true | Some o => negb (o_size o =? size) end) in *.
  assert (CT : uc || sc = true).
  { unfold uc, sc. destruct old as [o|]; [|reflexivity]. destruct CH as [CH|CH]; [apply orb_true_iff; right|apply orb_true_iff; left].
    - destruct (Z.eqb_spec (o_size o) size); [contradiction|reflexivity].
    - destruct (ueqb (w_old_url w) (full_url (w_entry w))) eqn:E; [apply ueqb_eq in E; contradiction|reflexivity]. }
  rewrite CT in H. revert s' x H. revert s FO. intros s _ s' x H. revert s x s' H.
  match goal with |- forall s x s', ?m s = _ -> _ => change (marks m) end.
  apply m_then. intro us. apply m_then. intros _. apply m_then. intro off. apply m_then. intros _. apply m_then. intros _. apply m_then. intros _. apply m_then. intros _.
  apply m_first.
  - apply m_first.
    + intros s x s' H. cbv beta in H. destruct (encode (full_url (w_entry w))) as [k|y]; [|congruence]. destruct (pl_add _ _ _ _) as [[i l]|] eqn:EA; [|congruence]. injection H as _ <-. cbn [z_upl set_upl].
      eapply add_dirty. exact EA.
    + intro i. apply q_bind; [apply q_update_url_pointers; intro; apply Hr|]. intros _. apply q_bind; [apply q_query|]. intro e'. apply q_bind.
      * destruct (e_kind (w_entry w)); [apply q_ret|]. destruct (_ && _); [apply q_write_at|apply q_ret].
      * intros _. destruct (e_kind e'); [apply q_ret|]. destruct (_ && _); [apply q_raise|apply q_ret].
  - intros [ni e']. apply q_bind; [destruct t; [apply q_add_titles|apply q_ret]|]. intros _.
    apply q_bind; [destruct (opt_eqb _ _); [apply q_ret|apply q_retarget; intro; apply Hr]|]. intros _.
    destruct (is_redirect e'); [|apply q_ret]. apply q_bind; [apply q_query|]. intros _. apply q_ret.
Qed.

Lemma write_entry_marks : forall n w s x s' old size, write_entry (S n) w s = (Ok x, s') -> find_old s w = Ok old ->
  entry_disk_size (w_entry w) = Ok size -> (match old with None => True | Some o => o_size o <> size \/ w_old_url w <> full_url (w_entry w) end) -> pl_dirty (z_upl s') = true.
Proof.
  intros n w s x s' old size H. exact (write_marks (fun w u => write_entry_rec n w u true) w true true s x s' old size (fun w u => q_write_rec n w u true) H).
Qed.
Lemma occupies_dec : forall (cells : list (Z * entry)) x, (exists c, In c cells /\ occupies c x) \/ forall c, In c cells -> ~ occupies c x.
Proof.
  induction cells as [|c cells IH]; intro x; [right; intros c []|]. destruct (IH x) as [(d & H1 & H2)|N]; [left; exists d; split; [right; exact H1|exact H2]|].
  unfold occupies in *. destruct (Z_le_gt_dec (fst c) x) as [A|A], (Z_lt_ge_dec x (fst c + span (snd c))) as [B|B];
    try (left; exists c; split; [left; reflexivity|lia]); right; intros d [<-|Hd]; try lia; exact (N d Hd).
Qed.
Lemma step_trans : forall s cells s1 cells1 s2 cells2, entry_step s cells s1 cells1 -> entry_step s1 cells1 s2 cells2 -> entry_step s cells s2 cells2.
Proof.
  intros s cells s1 cells1 s2 cells2 [C1 _ O1 U1 K1 L1 T1 X1] [C2 CS2 O2 U2 K2 L2 T2 X2].
  assert (ST : forall x, in_use (z_alloc s) x -> (forall c, In c cells -> ~ occupies c x) -> in_use (z_alloc s1) x /\ forall c, In c cells1 -> ~ occupies c x).
  { intros x Hx N. split; [exact (U1 x Hx N)|]. intros c Hc Ho. destruct (O1 c x Hc Ho) as [(d & Hd & Hy)|Q]; [exact (N d Hd Hy)|exact (Q Hx)]. }
  constructor; [exact C2|exact CS2| | | |lia|eapply ztracks_trans; eassumption|].
  4: { intro D. destruct (X2 D) as (A1 & A2). assert (D1 : pl_dirty (z_upl s1) = false). { destruct (pl_dirty (z_upl s1)) eqn:E; [|reflexivity]. rewrite (still_dirty _ _ T2 E) in D. discriminate D. }
       destruct (X1 D1) as (B1 & B2). split; congruence. }
  - intros c' x Hc Hx. destruct (O2 c' x Hc Hx) as [(c & H1 & H2)|N]; [exact (O1 c x H1 H2)|]. destruct (occupies_dec cells x) as [E|E]; [left; exact E|right].
    intro Q. apply N. exact (U1 x Q E).
  - intros x Hx N. destruct (ST x Hx N) as (H1 & H2). exact (U2 x H1 H2).
  - eapply keeps_weaken; [eapply keeps_trans; [exact K1|exact K2|exact L1]|]. cbv beta. intros x (Hx & N). split; [auto|]. exact (ST x Hx N).
Qed.

Lemma step_frame : forall Stream a cells L s' cells', archive_ok Stream a cells L -> entry_step (ca_zim a) cells s' cells' ->
  archive_ok Stream (mkCa s' (ca_ptrs a) (ca_next a)) cells' L /\ framed a cells L (mkCa s' (ca_ptrs a) (ca_next a)) cells' L.
Proof.
  intros Stream a cells L s' cells' AO [C' CS' O U K LE T _]. split.
  - apply (entries_frame Stream a cells); try assumption.
    + intros i d Hd. eapply keeps_weaken; [exact K|]. cbv beta. intros x Hx. split; [eapply (ao_used _ _ _ _ AO); eassumption|].
      intros c Hc Hy. apply (ao_apart _ _ _ _ AO c i d x Hc Hd). auto.
    + intros i d x Hd Hx. apply U; [eapply (ao_used _ _ _ _ AO); eassumption|]. intros c Hc Hy. apply (ao_apart _ _ _ _ AO c i d x Hc Hd). auto.
  - constructor; cbn [ca_zim ca_ptrs]; [|eapply keeps_weaken; [exact K|]|exact LE|exact T|apply tracks_refl].
    + intros x (S1 & S2 & S3). split; [apply U; assumption|]. split; [|exact S3]. intros c' Hc' Hx. destruct (O c' x Hc' Hx) as [(c & Hc & Hy)|N]; [exact (S2 c Hc Hy)|exact (N S1)].
    + intros x (S1 & S2 & _). auto.
Qed.

(** ** Adding *)
Lemma add_step : forall s cells w n s', core s cells -> consistent s (map snd cells) -> addable (map snd cells) w ->
  write_entry (S (S n)) w s = (Ok tt, s') -> exists cells', entry_step s cells s' cells'.
Proof.
  intros s cells w n s' C CS AD W. destruct (add_cells s cells w n s' C CS AD W) as (cells' & C' & CS' & O & U & K & LE & _). exists cells'.
  constructor; try assumption; [intros x Hx _; auto|eapply write_tracks; exact W|]. intro D.
  destruct (storable_span _ (ad_storable _ _ AD)) as (SZ & _). destruct (ad_enc _ _ AD) as [b Hb].
  rewrite (write_entry_marks _ _ _ _ _ None (span (w_entry w)) W) in D; [discriminate D| |exact SZ|exact Logic.I].
  apply (find_old_new s cells w b C Hb). intros c Hc. apply (ad_old _ _ AD). apply in_map. exact Hc.
Qed.

(** ** Rewriting in place, moving *)
Lemma with_consistent : forall s' cells' L', core s' cells' -> consistent s' L' -> consistent s' (map snd cells').
Proof. intros s' cells' L' C CS. pose proof CS as [(cells2 & E2 & Co2) _ _ _ _]. rewrite (core_unique _ _ _ C Co2), E2. exact CS. Qed.

Lemma in_place_step : forall s cells i e0 w n s', core s cells -> consistent s (map snd cells) -> rewritable s (map snd cells) i e0 w -> stays e0 (w_entry w) ->
  write_entry (S n) w s = (Ok tt, s') -> exists cells', entry_step s cells s' cells'.
Proof.
  intros s cells i e0 w n s' C CS RW ST W. pose proof ST as (Hu & Hsp). pose proof CS as [_ Hcomp Htg Hmain Hcnt].
  destruct (rw_article _ _ _ _ _ RW) as (a & Ha & HaC).
  pose proof (rw_at _ _ _ _ _ RW) as Hz. rewrite znth_map in Hz. destruct (znth cells i) as [[p e00]|] eqn:Hc; [|discriminate]. cbn in Hz. injection Hz as ->.
  destruct (znth_split _ _ _ Hc) as (A & B & EC & HA). subst i.
  destruct (write_in_place (fun w u => write_entry_rec n w u true) true s A p e0 B w a) as (s1 & W1 & C' & Eu & Em & Eal & K & Le & Re & Hat).
  - rewrite <- EC. exact C.
  - apply (rw_old _ _ _ _ _ RW).
  - exact Hu.
  - apply (rw_storable _ _ _ _ _ RW).
  - apply (rw_kind _ _ _ _ _ RW).
  - exact Hsp.
  - exact Ha.
  - exact HaC.
  - intros t Ht. apply (Hcomp t Ht). rewrite zlen_map, EC, zlen_app, zlen_cons. pose proof (zlen_nonneg A). pose proof (zlen_nonneg B). lia.
  - intros r Hr. rewrite <- EC. pose proof (rw_target _ _ _ _ _ RW r Hr) as Hb. rewrite zlen_map in Hb. exact Hb.
  - change (write_entry (S n) w s = (Ok tt, s1)) in W1. rewrite W in W1. injection W1 as <-. exists (A ++ (p, w_entry w) :: B).
    assert (IN : In (p, e0) cells) by (rewrite EC; apply in_or_app; right; left; reflexivity).
    constructor.
    + exact C'.
    + destruct (rewrite_ok s _ _ e0 w n CS RW ST) as (a' & s2 & _ & W2 & D). rewrite W in W2. injection W2 as <-. destruct D as (LA & e1 & LB & _ & _ & C2 & _).
      eapply with_consistent; [exact C'|exact C2].
    + intros c' x H1 Hx. left. apply in_app_or in H1 as [H1|[<-|H1]].
      * exists c'. split; [rewrite EC; apply in_or_app; auto|exact Hx].
      * exists (p, e0). split; [exact IN|]. unfold occupies in *. cbn [fst snd] in *. rewrite Hsp in Hx. exact Hx.
      * exists c'. split; [rewrite EC; apply in_or_app; right; right; exact H1|exact Hx].
    + intros x Hx _. rewrite Eal. exact Hx.
    + eapply keeps_weaken; [exact K|]. cbv beta. intros x (_ & N). exact (N _ IN).
    + lia.
    + eapply write_tracks. exact W.
    + intros _. split; assumption.
Qed.

Lemma move_step : forall s cells i e0 w n s', core s cells -> consistent s (map snd cells) -> rewritable s (map snd cells) i e0 w -> ~ stays e0 (w_entry w) ->
  movable s (map snd cells) i e0 (w_entry w) -> write_entry (S (S n)) w s = (Ok tt, s') -> exists cells', entry_step s cells s' cells'.
Proof.
  intros s cells i e0 w n s' C CS RW NS MV W. pose proof CS as [_ Hcomp Htg Hmain Hcnt]. set (L := map snd cells) in *.
  destruct (rw_article _ _ _ _ _ RW) as (a & Ha & HaC).
  pose proof (rw_at _ _ _ _ _ RW) as HzL. pose proof HzL as Hz. unfold L in Hz. rewrite znth_map in Hz. destruct (znth cells i) as [[p e00]|] eqn:Hc; [|discriminate]. cbn in Hz. injection Hz as ->.
  destruct (znth_split _ _ _ Hc) as (A & B & EC & HA).
  assert (Ln : zlen cells = zlen L) by (unfold L; rewrite zlen_map; reflexivity).
  assert (Hin : forall c, In c (A ++ B) -> In c cells).
  { intros c Hc'. rewrite EC. apply in_app_or in Hc'. apply in_or_app. destruct Hc'; [auto|right; right; auto]. }
  assert (HinL : forall c, In c (A ++ B) -> In (snd c) L) by (intros c Hc'; apply in_map; apply Hin; exact Hc').
  assert (Hne : forall c, In c (A ++ B) -> full_url (snd c) <> full_url e0).
  { intros c Hc' Hu. apply in_znth in Hc' as [k Hk].
    assert (Hk' : znth (A ++ (p, e0) :: B) (shift_ptr (zlen A) 1 k) = Some c) by (rewrite znth_insert; exact Hk).
    assert (shift_ptr (zlen A) 1 k = i).
    { apply (url_unique L) with (a := snd c) (b := e0); [eapply consistent_sorted; eauto| | exact HzL|exact Hu]. unfold L. rewrite EC, znth_map, Hk'. reflexivity. }
    unfold shift_ptr in H. destruct (zlen A <=? k) eqn:Ek; lia. }
  assert (Hfr : forall c, In c (A ++ B) -> full_url (snd c) <> full_url (w_entry w)).
  { intros c Hc'. destruct (rw_url _ _ _ _ _ RW) as [Hu|Hu]; [rewrite Hu; apply Hne; exact Hc'|]. apply Hu. apply HinL. exact Hc'. }
  assert (Hi0 : 0 <= i) by (apply znth_some in HzL; lia).
  destruct (write_move (fun w u => write_entry_rec (S n) w u true) w s A p e0 B a) as (A' & B' & off & EAB & Ho1 & Ho2 & Hout).
  - exists (fun w u => write_entry_rec n w u true). intro w'. reflexivity.
  - exists (fun w u => write_entry_rec n w u true). intro w'. reflexivity.
  - rewrite <- EC. exact C.
  - rewrite <- EC, Ln. exact Hcomp.
  - intros c r Hc' Hr. rewrite <- EC, Ln. apply (Htg (snd c) r); [apply HinL; exact Hc'|exact Hr].
  - rewrite <- EC, Ln. exact Hcnt.
  - apply (rw_old _ _ _ _ _ RW).
  - rewrite HA. apply (mv_self _ _ _ _ _ MV).
  - apply (rw_storable _ _ _ _ _ RW).
  - apply (rw_kind _ _ _ _ _ RW).
  - destruct (list_eq_dec Z.eq_dec (full_url (w_entry w)) (full_url e0)) as [Hu|Hu]; [right|left; exact Hu]. intro Hsp. apply NS. split; assumption.
  - exact Hfr.
  - intros r Hr. rewrite HA. pose proof (rw_target _ _ _ _ _ RW r Hr). pose proof (mv_own _ _ _ _ _ MV r Hr). lia.
  - intros d Hd Hr. rewrite HA. destruct (Z.eq_dec i 0) as [E0|]; [|lia]. rewrite E0 in MV.
    destruct (mv_in _ _ _ _ _ MV (snd d) (HinL d Hd)) as [H0 _]; [|exact Hr|lia]. intro E. apply (Hne d Hd). rewrite E. reflexivity.
  - exact Ha.
  - exact HaC.
  - cbv zeta in Hout. rewrite HA in Hout. set (j := zlen A') in *. set (u := full_url (w_entry w)) in *. rewrite <- EC in Hout. fold L in Hout.
    set (U := if negb (ueqb (full_url e0) u) && negb (i =? j) then redirects_to i L else []) in *. set (g := moved_cell i j u U) in *.
    destruct Hout as [(s1 & W1 & C' & _ & _ & _ & Hu & Hnew & K & Le & _)|(s1 & c & _ & _ & _ & W1)]; change (write_body (fun w u => write_entry_rec (S n) w u true) w true true s) with (write_entry (S (S n)) w s) in W1;
      rewrite W in W1; [|discriminate W1]. injection W1 as <-.
    set (cells' := map g A' ++ (off, bumped j (w_entry w)) :: map g B') in *.
    assert (ST : forall c', In c' cells' -> entry_storable (snd c')).
    { intros c' Hc'. pose proof (co_stored _ _ C') as F. rewrite Forall_forall in F. destruct (F c' Hc') as (_ & G & _). exact G. }
    assert (ST0 : forall c, In c cells -> entry_storable (snd c)).
    { intros c' Hc'. pose proof (co_stored _ _ C) as F. rewrite Forall_forall in F. destruct (F c' Hc') as (_ & G & _). exact G. }
    assert (OLD : forall c x, In c (A' ++ B') -> In (g c) cells' -> occupies (g c) x -> occupies c x).
    { intros c x Hc1 Hc2 Hx. rewrite <- EAB in Hc1. assert (SE : same_entry (snd c) (snd (g c))).
      { apply same_moved. intros v Hv Hcv. assert (Hv' : In v (redirects_to i L)) by (unfold U in Hv; destruct (_ && _); [exact Hv|destruct Hv]).
        apply in_redirects_to in Hv' as (e & He & Heu & _ & Hek). exists i. apply in_znth in He as [k Hk]. pose proof (HinL c Hc1) as Hm. apply in_znth in Hm as [k' Hk'].
        assert (k' = k) by (apply (url_unique L) with (a := snd c) (b := e); [eapply consistent_sorted; exact CS|exact Hk'|exact Hk|congruence]). subst k'. congruence. }
      unfold occupies in *. rewrite (same_span _ _ SE (ST0 c (Hin c Hc1)) (ST _ Hc2)) in Hx. replace (fst (g c)) with (fst c) in Hx; [exact Hx|].
      unfold g, moved_cell, retarget_cell. cbn [shift_cell snd fst]. destruct (umem _ _); reflexivity. }
    exists cells'. constructor.
    + exact C'.
    + destruct (move_ok s L i e0 w n CS RW NS MV) as (LA & LB & _ & _ & _ & a' & _ & [(s2 & W2 & D)|(s2 & q & _ & _ & W2)]); rewrite W in W2; [|discriminate W2]. injection W2 as <-.
      destruct D as (L' & p0 & e1 & off' & _ & _ & _ & C2 & _). eapply with_consistent; [exact C'|exact C2].
    + intros c' x Hc' Hx. pose proof Hc' as Hc2. unfold cells' in Hc2. apply in_app_or in Hc2 as [Hc2|[Hc2|Hc2]].
      * left. apply in_map_iff in Hc2 as (c & <- & Hc2). exists c. assert (Q : In c (A' ++ B')) by (apply in_or_app; auto). split; [apply Hin; rewrite EAB; exact Q|exact (OLD c x Q Hc' Hx)].
      * subst c'. assert (Q : occupies (off, w_entry w) x).
        { unfold occupies in *. cbn [fst snd] in *. rewrite (same_span _ _ (same_bumped j (w_entry w)) (rw_storable _ _ _ _ _ RW) (ST _ Hc')) in Hx. exact Hx. }
        destruct (occupies_dec cells x) as [E|E]; [left; exact E|right]. intro I0. apply (Hnew x Q). split; [exact I0|]. apply E. rewrite EC. apply in_or_app. right. left. reflexivity.
      * left. apply in_map_iff in Hc2 as (c & <- & Hc2). exists c. assert (Q : In c (A' ++ B')) by (apply in_or_app; auto). split; [apply Hin; rewrite EAB; exact Q|exact (OLD c x Q Hc' Hx)].
    + intros x Hx N. apply Hu. left. split; [exact Hx|]. apply N. rewrite EC. apply in_or_app. right. left. reflexivity.
    + eapply keeps_weaken; [exact K|]. cbv beta. intros x (Hx & N). split; [exact Hx|]. split; [apply N; rewrite EC; apply in_or_app; right; left; reflexivity|]. intros c Hc1 _. apply N. apply Hin. exact Hc1.
    + exact Le.
    + eapply write_tracks. exact W.
    + intro D. destruct (storable_span _ (rw_storable _ _ _ _ _ RW)) as (SZ & _).
      destruct (find_old_found s cells i (p, e0) w C Hc (rw_old _ _ _ _ _ RW)) as (et & at_ & Hfo & _). { intros t Ht. apply (Hcomp t Ht). rewrite <- Ln. apply (znth_some _ _ _ Hc). }
      rewrite (write_entry_marks _ _ _ _ _ _ _ W Hfo SZ) in D; [discriminate D|]. cbn [o_size fst snd].
      destruct (Z.eq_dec (span e0) (span (w_entry w))) as [Q|Q]; [right|left; exact Q]. rewrite (rw_old _ _ _ _ _ RW). intro Q2. apply NS. split; congruence.
Qed.

Lemma rewrite_step : forall s cells i e0 w n s', core s cells -> consistent s (map snd cells) -> rewritable s (map snd cells) i e0 w ->
  movable s (map snd cells) i e0 (w_entry w) -> write_entry (S (S n)) w s = (Ok tt, s') -> exists cells', entry_step s cells s' cells'.
Proof.
  intros s cells i e0 w n s' C CS RW MV W.
  destruct (Z.eq_dec (span (w_entry w)) (span e0)) as [Hsp|Hsp]; [destruct (list_eq_dec Z.eq_dec (full_url (w_entry w)) (full_url e0)) as [Huu|Huu]|].
  1: eapply in_place_step; [exact C|exact CS|exact RW|split; assumption|exact W].
  all: eapply move_step; [exact C|exact CS|exact RW|intros [H1 H2]; contradiction|exact MV|exact W].
Qed.
Lemma edit_step : forall s cells u w n s', core s cells -> consistent s (map snd cells) -> editable s u w ->
  write_entry (S (S n)) w s = (Ok tt, s') -> exists cells', entry_step s cells s' cells'.
Proof.
  intros s cells u w n s' C CS ED W. destruct (edit_setup s _ u w CS ED) as (i & e0 & a & _ & _ & RW & MV & _). eapply rewrite_step; eassumption.
Qed.

(** ** Removing *)
Lemma q_remove_body : forall pb wr rec u, (forall e, quiet (pb e)) -> (forall w, quiet (wr w)) -> (forall u, quiet (rec u)) -> quiet (remove_body pb wr rec u).
Proof.
  intros pb wr rec u Hp Hw Hr. unfold remove_body. apply q_bind; [apply q_query|]. intro i. apply q_bind; [apply q_query|]. intro off. apply q_bind; [apply q_query|]. intro e.
  apply q_bind; [apply q_query|]. intro size. apply q_bind; [destruct (is_redirect e); [apply q_ret|apply Hp]|]. intros _. apply q_bind; [apply q_query|]. intro rs.
  apply q_bind; [apply q_query|]. intro article. apply q_bind; [destruct article; [apply q_bind; [apply q_query|intro; apply q_drop_atitle]|apply q_ret]|]. intros _.
  apply q_bind.
  { intros s r s' H. destruct (z_etpl s) as [t|]; [|injection H as _ <-; apply ztracks_refl]. revert H. apply (q_bind _ _ (query (fun _ => get_by_pointer (pl_ptrs t) i)) (fun k => drop_etitle (Some k))); [apply q_query|intro; apply q_drop_etitle]. }
  intros _. apply q_bind; [apply q_remove_url|]. intros _. apply q_bind.
  { apply q_update. intros s s' H. injection H as <-. destruct (opt_eqb _ _); [constructor; [apply tracks_refl..|apply otracks_refl]|apply ztracks_refl]. }
  intros _. apply q_bind; [apply q_update_url_pointers; exact Hw|]. intros _. apply q_bind.
  { apply q_update. intros s s' H. destruct (mark_free _ _ _); cbn [bind] in H; [|discriminate H]. injection H as <-. constructor; [apply tracks_refl..|apply otracks_refl]. }
  intros _. assert (G : forall l m, quiet m -> quiet (fold_left (fun m u => let* _ := m in rec u) l m)).
  { induction l as [|v l IH]; intros m Hm; cbn [fold_left]; [exact Hm|]. apply IH. apply q_bind; [exact Hm|]. intros _. apply Hr. }
  apply G. apply q_ret.
Qed.
Lemma remove_tracks_all : forall pb n u s r s', (forall e, quiet (pb e)) -> remove_entry pb n u s = (r, s') -> ztracks s s'.
Proof.
  intros pb n u s r s' Hp. revert u s r s'. change (forall u, quiet (remove_entry pb n u)). induction n as [|n IH]; intro u; cbn [remove_entry]; [apply q_raise|].
  apply q_remove_body; [exact Hp| |exact IH]. intros w s r s' H. eapply write_tracks. exact H.
Qed.

Lemma remove_marks : forall pb wr rec u, (forall e, quiet (pb e)) -> (forall w, quiet (wr w)) -> (forall u, quiet (rec u)) -> marks (remove_body pb wr rec u).
Proof.
  intros pb wr rec u Hp Hw Hr. unfold remove_body. do 9 (apply m_then; intro). apply m_first; [apply remove_url_marks|]. intros _. apply q_bind.
  { apply q_update. intros s s' H. injection H as <-. destruct (opt_eqb _ _); [constructor; [apply tracks_refl..|apply otracks_refl]|apply ztracks_refl]. }
  intros _. apply q_bind; [apply q_update_url_pointers; exact Hw|]. intros _. apply q_bind.
  { apply q_update. intros s s' H. destruct (mark_free _ _ _); cbn [bind] in H; [|discriminate H]. injection H as <-. constructor; [apply tracks_refl..|apply otracks_refl]. }
  intros _. assert (G : forall l m, quiet m -> quiet (fold_left (fun m u => let* _ := m in rec u) l m)).
  { induction l as [|v l IH]; intros m Hm; cbn [fold_left]; [exact Hm|]. apply IH. apply q_bind; [exact Hm|]. intros _. apply Hr. }
  apply G. apply q_ret.
Qed.
Lemma remove_step : forall s cells i e0 n s', core s cells -> consistent s (map snd cells) -> removable s (map snd cells) i e0 ->
  remove_entry keep_blob (S (S n)) (full_url e0) s = (Ok tt, s') -> exists cells', entry_step s cells s' cells'.
Proof.
  intros s cells i e0 n s' C CS RM W. pose proof CS as [_ Hcomp Htg Hmain Hcnt]. set (L := map snd cells) in *.
  pose proof (rm_at _ _ _ _ RM) as HzL. pose proof HzL as Hz. unfold L in Hz. rewrite znth_map in Hz. destruct (znth cells i) as [[p e00]|] eqn:Hc; [|discriminate]. cbn in Hz. injection Hz as ->.
  destruct (znth_split _ _ _ Hc) as (A & B & EC & HA).
  assert (Ln : zlen cells = zlen L) by (unfold L; rewrite zlen_map; reflexivity).
  assert (Hin : forall c, In c (A ++ B) -> In c cells).
  { intros c Hc'. rewrite EC. apply in_app_or in Hc'. apply in_or_app. destruct Hc'; [auto|right; right; auto]. }
  assert (HinL : forall c, In c (A ++ B) -> In (snd c) L) by (intros c Hc'; apply in_map; apply Hin; exact Hc').
  assert (Hne : forall c, In c (A ++ B) -> snd c <> e0).
  { intros c Hc' Hu. apply in_znth in Hc' as [k Hk].
    assert (Hk' : znth (A ++ (p, e0) :: B) (shift_ptr (zlen A) 1 k) = Some c) by (rewrite znth_insert; exact Hk).
    assert (shift_ptr (zlen A) 1 k = i).
    { apply (url_unique L) with (a := snd c) (b := e0); [eapply consistent_sorted; eauto| | exact HzL|congruence]. unfold L. rewrite EC, znth_map, Hk'. reflexivity. }
    unfold shift_ptr in H. destruct (zlen A <=? k) eqn:Ek; lia. }
  pose proof (remove_plain (write_entry (S n)) (fun w u => write_entry_rec n w u true) (remove_entry keep_blob (S n)) s A p e0 B) as RP.
  cbv zeta in RP. rewrite HA, <- EC, Ln in RP.
  destruct RP as [(s1 & W1 & C' & _ & _ & _ & Hus & K & Le & _)|(s1 & c & _ & _ & _ & W1)].
  - intro w. reflexivity.
  - exact Hcnt.
  - exact C.
  - exact Hcomp.
  - intros c r Hc' Hr. apply (Htg (snd c) r); [apply HinL; exact Hc'|exact Hr].
  - intros d Hd. apply (rm_in _ _ _ _ RM); [apply HinL; exact Hd|apply Hne; exact Hd].
  - apply (rm_article _ _ _ _ RM).
  - change (remove_entry keep_blob (S (S n)) (full_url e0) s = (Ok tt, s1)) in W1. rewrite W in W1. injection W1 as <-. set (sh := shift_cell i (-1) []) in *.
    assert (ST : forall c', In c' (map sh (A ++ B)) -> entry_storable (snd c')).
    { intros c' Hc'. pose proof (co_stored _ _ C') as F. rewrite Forall_forall in F. destruct (F c' Hc') as (_ & G & _). exact G. }
    assert (ST0 : forall c, In c cells -> entry_storable (snd c)).
    { intros c' Hc'. pose proof (co_stored _ _ C) as F. rewrite Forall_forall in F. destruct (F c' Hc') as (_ & G & _). exact G. }
    assert (INP : In (p, e0) cells) by (rewrite EC; apply in_or_app; right; left; reflexivity).
    exists (map sh (A ++ B)). constructor.
    + exact C'.
    + destruct (remove_ok s L i e0 n CS RM) as [(s2 & W2 & D)|(s2 & q & _ & _ & W2)]; rewrite W in W2; [|discriminate W2]. injection W2 as <-.
      destruct D as (L' & p0 & e1 & _ & _ & _ & C2 & _). eapply with_consistent; [exact C'|exact C2].
    + intros c' x Hc' Hx. left. pose proof Hc' as Hc2. apply in_map_iff in Hc2 as (c & <- & Hc2). exists c. split; [apply Hin; exact Hc2|].
      unfold occupies in *. unfold sh, shift_cell in Hx. cbn [fst snd] in Hx. rewrite (same_span (snd c) _ (same_shift _ _ _ _) (ST0 c (Hin c Hc2)) (ST _ Hc')) in Hx. exact Hx.
    + intros x Hx N. apply Hus. split; [exact Hx|]. exact (N _ INP).
    + eapply keeps_weaken; [exact K|]. cbv beta. intros x (_ & N) c Hc1 _. apply N. apply Hin. exact Hc1.
    + lia.
    + eapply remove_tracks_all; [|exact W]. intros e. apply q_ret.
    + intro D. assert (Q : pl_dirty (z_upl s') = true); [|congruence]. refine (remove_marks keep_blob (write_entry (S n)) (remove_entry keep_blob (S n)) (full_url e0) (fun e => q_ret _ _) _ _ s tt s' W).
      * intros w s0 r s1 X. eapply write_tracks. exact X.
      * intros u s0 r s1 X. eapply remove_tracks_all; [|exact X]. intro e. apply q_ret.
  - change (remove_entry keep_blob (S (S n)) (full_url e0) s = (Err AssertionError, s1)) in W1. rewrite W in W1. discriminate W1.
Qed.
Lemma delete_step : forall s cells u n s', core s cells -> consistent s (map snd cells) -> deletable s u ->
  remove_entry keep_blob (S (S n)) u s = (Ok tt, s') -> exists cells', entry_step s cells s' cells'.
Proof.
  intros s cells u n s' C CS DE W. destruct (delete_setup s _ u CS DE) as (i & e0 & _ & <- & RM). eapply remove_step; eassumption.
Qed.
