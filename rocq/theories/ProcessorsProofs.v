(** Proofs about processors. *)
From Coq Require Import List ZArith Bool Lia Sorting.Sorted Sorting.Permutation.
From Coq Require Import ZifyBool ZifyNat.
From Verif Require Import Base BaseProofs Utf8 Utf8Proofs Entry EntrySpec EntryProofs PointerList PointerListSpec PointerListProofs
  SpaceAllocator SpaceAllocatorSpec SpaceAllocatorProofs Cluster Archive ArchiveSpec ArchiveProofs ArchiveWriteProofs ArchiveMoveProofs
  ArchiveRemoveProofs ArchiveFacts ArchiveObserve ArchiveLaws ArchiveEdit ArchiveSever Processors ProcessorsSpec.
Import ListNotations.
Open Scope Z_scope.

(** ** The processor does not change what is done to the archive *)
Definition erases {A} (mt : M watched A) (m : M zim A) : Prop := forall s l, exists l', mt (s, l) = (fst (m s), (snd (m s), l')).

Lemma er_quiet : forall {A} (m : M zim A), erases (quiet m) m.
Proof. intros A m s l. exists l. unfold quiet. destruct (m s); reflexivity. Qed.
Lemma er_ret : forall {A} (a : A), erases (ret a) (ret a).
Proof. intros A a s l. exists l. reflexivity. Qed.
Lemma er_raise : forall {A} x, erases (raise x : M watched A) (raise x).
Proof. intros A x s l. exists l. reflexivity. Qed.
Lemma er_bind : forall {A B} (mt : M watched A) m (kt : A -> M watched B) k, erases mt m -> (forall a, erases (kt a) (k a)) -> erases (mbind mt kt) (mbind m k).
Proof.
  intros A B mt m kt k Hm Hk s l. destruct (Hm s l) as [l1 E]. unfold mbind. rewrite E. destruct (m s) as [[a|x] s1]; cbn [fst snd].
  - apply Hk.
  - exists l1. reflexivity.
Qed.
Lemma er_tell : forall {A} n (kt : M watched A) k, erases kt k -> erases (mbind (tell n) (fun _ => kt)) k.
Proof. intros A n kt k H s l. unfold mbind, tell. apply H. Qed.

Lemma mbind_assoc : forall {St A B C} (m : M St A) (k : A -> M St B) (h : B -> M St C) s, mbind (mbind m k) h s = mbind m (fun a => mbind (k a) h) s.
Proof. intros. unfold mbind. destruct (m s) as [[a|x] s1]; reflexivity. Qed.
Lemma mbind_ext : forall {St A B} (m : M St A) (k h : A -> M St B) s, (forall a s', m s = (Ok a, s') -> k a s' = h a s') -> mbind m k s = mbind m h s.
Proof. intros St A B m k h s H. unfold mbind. destruct (m s) as [[a|x] s1]; [apply H; reflexivity|reflexivity]. Qed.
Lemma query_inv : forall {A} (f : zim -> res A) s a s', query f s = (Ok a, s') -> f s = Ok a /\ s' = s.
Proof. intros A f s a s0 H. unfold query in H. injection H as H1 H2. auto. Qed.

Section Erase.
Variables (rect : went -> bool -> M watched unit) (rec : went -> bool -> M zim unit).
Hypothesis Hrec : forall w u, erases (rect w u) (rec w u).

Lemma er_update : forall wrt wr start diff skip e, (forall w, erases (wrt w) (wr w)) -> erases (update_redirect_t wrt start diff skip e) (update_redirect wr start diff skip e).
Proof.
  clear. intros wrt wr start diff skip e H. unfold update_redirect_t, update_redirect. destruct (_ && _); [|apply er_ret].
  destruct (e_kind e); [apply er_raise|]. destruct (start <=? _); [|apply er_ret].
  apply er_bind; [apply er_quiet|]. intro e'. apply er_bind; [apply er_quiet|]. intro p. destruct (_ =? p); [apply er_raise|apply H].
Qed.
Lemma er_for : forall bt b, (forall e, erases (bt e) (b e)) -> forall n i, erases (for_entries_t n i bt) (for_entries n i b).
Proof.
  clear. intros bt b H. induction n as [|n IH]; intro i; [apply er_ret|]. cbn [for_entries_t for_entries].
  apply er_bind; [apply er_quiet|]. intro e. apply er_bind; [apply H|]. intros _. apply IH.
Qed.
Lemma er_uup : forall wrt wr start diff ed skip, (forall w, erases (wrt w) (wr w)) ->
  erases (update_url_pointers_t wrt start diff ed skip) (update_url_pointers wr start diff ed skip).
Proof.
  clear. intros wrt wr start diff ed skip H. unfold update_url_pointers_t, update_url_pointers.
  apply er_bind; [apply er_quiet|]. intros _. apply er_bind; [apply er_quiet|]. intros _. apply er_bind; [apply er_quiet|]. intro n.
  apply er_bind; [|intros _; apply er_quiet]. apply er_for. intro e. apply er_update. exact H.
Qed.
Lemma er_retarget : forall wrt wr i, (forall w, erases (wrt w) (wr w)) -> forall urls, erases (retarget_t wrt urls i) (retarget wr urls i).
Proof.
  clear. intros wrt wr i H. induction urls as [|u r IH]; [apply er_ret|]. cbn [retarget_t retarget].
  apply er_bind; [apply er_quiet|]. intro e. apply er_bind; [apply er_quiet|]. intro e'. apply er_bind; [apply H|]. intros _. exact IH.
Qed.

(** [write_body] is [write_begin] and the rest. *)
Definition write_rest (w : went) (add_to_titles : bool) (x : bool * option old_info * option entry * list ustr * Z * bool) : M zim unit :=
  let e := w_entry w in
  let '(article, old, old_entry, to_update, offset, changed) := x in
  let* _ := match old with
            | Some o => if changed then let* _ := drop_pointer (o_index o) in update_url_pointers (fun w => rec w true) (o_index o) (-1) true [] else ret tt
            | None => ret tt
            end in
  let* ie := (if changed
              then let* i := add_pointer offset e in
                   let* _ := update_url_pointers (fun w => rec w true) i 1 true [full_url e] in
                   own_index offset e i
              else ret (match old with Some o => o_index o | None => 0 end, e)) in
  let (new_index, e') := (ie : Z * entry) in
  let* _ := (if add_to_titles then add_titles e' article new_index else ret tt) in
  let* _ := (if opt_eqb (option_map o_index old) (Some new_index) then ret tt else retarget (fun w => rec w false) to_update new_index) in
  if is_redirect e' then let* _ := query (fun s => follow s e') in ret tt else ret tt.
Lemma find_old_entry : forall s w o, find_old s w = Ok (Some o) -> exists e0, get_entry_at s (o_offset o) = Ok e0.
Proof.
  clear. intros s w o H. unfold find_old in H. destruct (url_index s (w_old_url w)) as [i|x]; [|destruct x; discriminate].
  destruct (get_by_index _ i) as [off|]; [cbn [bind] in H|discriminate]. destruct (get_entry_at s off) as [old|] eqn:E; [cbn [bind] in H|discriminate].
  destruct (entry_disk_size old); [cbn [bind] in H|discriminate].
  destruct (match z_etpl s with Some t => _ | None => _ end); [cbn [bind] in H|discriminate].
  destruct (match get_by_pointer (pl_ptrs (z_atpl s)) i with Ok _ => _ | Err _ => _ end); [cbn [bind] in H|discriminate].
  injection H as <-. cbn. eauto.
Qed.
Lemma write_split : forall w u a s, write_body rec w u a s = mbind (write_begin w u) (write_rest w a) s.
Proof.
  clear. intros w u a s. unfold write_body, write_begin.
  rewrite mbind_assoc. apply mbind_ext. intros ar s0 H. apply query_inv in H as [_ ->].
  rewrite mbind_assoc. apply mbind_ext. intros sz s0 H. apply query_inv in H as [_ ->].
  rewrite mbind_assoc. apply mbind_ext. intros old s0 H. apply query_inv in H as [Ho ->].
  rewrite mbind_assoc.
  assert (exists oe, query (fun s => match old with Some o => do e0 <- get_entry_at s (o_offset o) ;; Ok (Some e0) | None => Ok None end) s = (Ok oe, s)) as [oe Eo].
  { destruct old as [o|]; [|exists None; reflexivity]. destruct (find_old_entry _ _ _ Ho) as [e0 E]. exists (Some e0). apply query_ok. rewrite E. reflexivity. }
  rewrite (mbind_ok _ _ _ _ _ Eo).
  rewrite mbind_assoc. apply mbind_ext. intros tu s0 H. apply query_inv in H as [_ ->].
  rewrite mbind_assoc. apply mbind_ext. intros [] s1 _.
  rewrite mbind_assoc. apply mbind_ext. intros off s2 _.
  rewrite mbind_assoc. apply mbind_ext. intros [] s3 _.
  rewrite mbind_assoc. apply mbind_ext. intros [] s4 _.
  rewrite mbind_assoc. apply mbind_ext. intros [] s5 _.
  reflexivity.
Qed.
Lemma er_write_body : forall w u a, erases (write_body_t rect w u a) (write_body rec w u a).
Proof.
  intros w u a s l. rewrite write_split. revert s l. change (erases (write_body_t rect w u a) (mbind (write_begin w u) (write_rest w a))).
  unfold write_body_t. apply er_bind; [apply er_quiet|]. intros [[[[[ar old] oe] tu] off] ch]. unfold write_rest.
  apply er_bind. { destruct old; [|apply er_ret]. destruct ch; [|apply er_ret]. apply er_bind; [apply er_quiet|]. intros _. apply er_uup. intro. apply Hrec. }
  intros _. apply er_bind.
  { destruct ch; [|apply er_ret]. apply er_bind; [apply er_quiet|]. intro i. apply er_bind; [apply er_uup; intro; apply Hrec|]. intros _. apply er_quiet. }
  intros [ni e']. apply er_bind; [apply er_quiet|]. intros _. apply er_bind.
  { destruct (opt_eqb _ _); [apply er_ret|]. apply er_retarget. intro. apply Hrec. }
  intros _. apply er_tell. apply er_quiet.
Qed.
End Erase.

Lemma er_write_rec : forall n w u a, erases (write_entry_rec_t n w u a) (write_entry_rec n w u a).
Proof.
  induction n as [|n IH]; intros w u a; [apply er_raise|]. cbn [write_entry_rec_t write_entry_rec]. apply er_write_body. intros w' u'. apply IH.
Qed.
Lemma er_write : forall n w, erases (write_entry_t n w) (write_entry n w).
Proof. intros. apply er_write_rec. Qed.

Section EraseRemove.
Variable pb : entry -> M zim unit.
Definition remove_rest (wr : went -> M zim unit) (rec : ustr -> M zim unit) (x : Z * Z * entry * Z * list ustr * bool) : M zim unit :=
  let '(i, offset, e, size, to_remove, article) := x in
  let* _ := update_url_pointers wr i (-1) article [] in
  let* _ := update (fun s => do a <- mark_free (z_alloc s) offset size ;; Ok (set_alloc a s)) in
  fold_left (fun m u => let* _ := m in rec u) to_remove (ret tt).
Lemma remove_split : forall wr rec url s, remove_body pb wr rec url s = mbind (remove_begin pb url) (remove_rest wr rec) s.
Proof.
  intros wr rec url s. unfold remove_body, remove_begin.
  repeat (rewrite mbind_assoc; apply mbind_ext; intros ? ? _). reflexivity.
Qed.
Lemma er_fold : forall rect rec, (forall u, erases (rect u) (rec u)) -> forall (T : list ustr) mt (m : M zim unit), erases mt m ->
  erases (fold_left (fun m u => let* _ := m in rect u) T mt) (fold_left (fun m u => let* _ := m in rec u) T m).
Proof. intros rect rec H. induction T as [|u T IH]; intros mt m Hm; [exact Hm|]. cbn [fold_left]. apply IH. apply er_bind; [exact Hm|]. intros _. apply H. Qed.
Lemma er_remove : forall n u, erases (remove_entry_t pb n u) (remove_entry pb n u).
Proof.
  induction n as [|n IH]; intro u; [apply er_raise|]. cbn [remove_entry_t remove_entry].
  intros s l. rewrite remove_split. revert s l.
  change (erases (remove_body_t pb (write_entry_t n) (remove_entry_t pb n) u) (mbind (remove_begin pb u) (remove_rest (write_entry n) (remove_entry pb n)))).
  unfold remove_body_t. apply er_bind; [apply er_quiet|]. intros [[[[[i off] e] sz] tr] ar]. unfold remove_rest.
  apply er_bind; [apply er_uup; intro; apply er_write|]. intros _. apply er_bind; [apply er_quiet|]. intros _.
  intros s l. destruct (er_fold (remove_entry_t pb n) (remove_entry pb n) IH tr (ret tt) (ret tt) (er_ret tt) s l) as [l1 E].
  unfold mbind at 1. rewrite E. destruct (fold_left _ tr (ret tt) s) as [[[]|x] s1]; cbn [fst snd]; eexists; reflexivity.
Qed.
End EraseRemove.

(** ** What notices do to a picture *)
Definition urls (L : list entry) : list ustr := map full_url L.
Definition agrees (X : list ustr) (m : picture) (L : list entry) : Prop := forall e, In e L -> ~ In (full_url e) X -> m (full_url e) = Some e.
(** The notices [l] are true, take a picture of [L] to one of [L'] (urls in [X]
    do not matter), and touch no other urls. *)
Definition carries (X : list ustr) (L : list entry) (l : list notice) (L' : list entry) : Prop :=
  forall m, agrees X m L -> all_true m l /\ agrees X (hear_all m l) L' /\ (forall u, In u X \/ ~ In u (urls L) -> hear_all m l u = m u).

Lemma hear_all_app : forall l1 l2 m, hear_all m (l1 ++ l2) = hear_all (hear_all m l1) l2.
Proof. intros. unfold hear_all. apply fold_left_app. Qed.
Lemma all_true_app : forall l1 l2 m, all_true m (l1 ++ l2) <-> all_true m l1 /\ all_true (hear_all m l1) l2.
Proof.
  induction l1 as [|n l1 IH]; intros l2 m; cbn [app all_true]; [cbn; tauto|]. rewrite IH. cbn [hear_all fold_left]. unfold hear_all. tauto.
Qed.
Lemma carries_nil : forall X L, carries X L [] L.
Proof. intros X L m H. cbn. auto. Qed.
Lemma carries_app : forall X L l1 L1 l2 L2, carries X L l1 L1 -> carries X L1 l2 L2 -> (forall u, In u (urls L1) -> In u (urls L)) -> carries X L (l1 ++ l2) L2.
Proof.
  intros X L l1 L1 l2 L2 H1 H2 Hu m Hm. destruct (H1 m Hm) as (T1 & G1 & U1). destruct (H2 _ G1) as (T2 & G2 & U2).
  rewrite hear_all_app, all_true_app. split; [auto|]. split; [exact G2|]. intros u H. rewrite U2; [apply U1; exact H|]. destruct H as [H|H]; [auto|right; auto].
Qed.
Lemma ueqb_refl : forall u, ueqb u u = true.
Proof. intro u. apply ueqb_eq. reflexivity. Qed.
Lemma ueqb_neq : forall u v, u <> v -> ueqb u v = false.
Proof. intros u v H. destruct (ueqb u v) eqn:E; [|reflexivity]. apply ueqb_eq in E. contradiction. Qed.
Lemma carries_one : forall X A e0 B e, full_url e = full_url e0 -> ~ In (full_url e0) X -> NoDup (urls (A ++ e0 :: B)) ->
  carries X (A ++ e0 :: B) [Wrote e (Some e0) false] (A ++ e :: B).
Proof.
  intros X A e0 B e Hu Hx Nd m Hm. cbn [all_true hear_all fold_left true_notice]. split.
  { split; [|exact I]. split; [reflexivity|]. split; [|auto]. apply Hm; [apply in_or_app; right; left; reflexivity|exact Hx]. }
  unfold urls in Nd. rewrite map_app in Nd. cbn [map] in Nd. apply NoDup_remove_2 in Nd. rewrite <- map_app in Nd. split.
  - intros d Hd Hdx. unfold hear. rewrite Hu. apply in_app_or in Hd. 
    assert (Hd' : d = e \/ In d (A ++ B)) by (destruct Hd as [Hd|[ <- | Hd]]; [right; apply in_or_app; auto|left; reflexivity|right; apply in_or_app; auto]).
    destruct Hd' as [->|Hd']; [rewrite Hu, ueqb_refl; reflexivity|].
    rewrite ueqb_neq. 2: { intro E. apply Nd. rewrite <- E. apply in_map. exact Hd'. }
    apply Hm; [|exact Hdx]. apply in_app_or in Hd'. apply in_or_app. destruct Hd'; [left|right; right]; assumption.
  - intros u H. unfold hear. rewrite Hu. rewrite ueqb_neq; [reflexivity|]. intros ->. destruct H as [H|H]; [contradiction|].
    apply H. apply in_map. apply in_or_app. right. left. reflexivity.
Qed.
Lemma core_nodup : forall s cells, core s cells -> NoDup (urls (map snd cells)).
Proof.
  intros s cells C. pose proof (co_sorted _ _ C) as S0. unfold urls. revert S0. generalize (map snd cells) as L. clear.
  induction L as [|e L IH]; intro S0; [constructor|]. inversion S0 as [|? ? Hs Hf]; subst. cbn [map]. constructor; [|apply IH; exact Hs].
  intro Hin. apply in_map_iff in Hin as (d & E & Hd). rewrite Forall_forall in Hf. specialize (Hf d Hd). unfold url_lt in Hf. rewrite E in Hf.
  exact (ultb_asym _ _ Hf Hf).
Qed.

Lemma quiet_inv : forall {A} (m : M zim A) s l r y, quiet m (s, l) = (r, y) -> m s = (r, fst y) /\ snd y = l.
Proof. intros A m s l r y H. unfold quiet in H. destruct (m s) as [r' s']. injection H as <- <-. auto. Qed.

(** *** Rewriting in place *)
Lemma write_begin_inv : forall w u s ar old oe tu off ch s', write_begin w u s = (Ok (ar, old, oe, tu, off, ch), s') ->
  exists sz, entry_disk_size (w_entry w) = Ok sz /\ find_old s w = Ok old /\
    match old with Some o => exists e0, get_entry_at s (o_offset o) = Ok e0 /\ oe = Some e0 | None => oe = None end /\
    ch = match old with None => true | Some _ => negb (ueqb (w_old_url w) (full_url (w_entry w))) end ||
         match old with None => true | Some o => negb (o_size o =? sz) end.
Proof.
  intros w u s ar old oe tu off ch s' H. unfold write_begin in H.
  apply mbind_inv in H as (ar' & s0 & H0 & H). apply query_inv in H0 as [_ ->].
  apply mbind_inv in H as (sz & s0 & H0 & H). apply query_inv in H0 as [Hsz ->].
  apply mbind_inv in H as (old' & s0 & H0 & H). apply query_inv in H0 as [Hfo ->].
  apply mbind_inv in H as (oe' & s0 & H0 & H). apply query_inv in H0 as [Hoe ->].
  apply mbind_inv in H as (tu' & s0 & H0 & H). apply query_inv in H0 as [_ ->].
  apply mbind_inv in H as ([] & s1 & _ & H). apply mbind_inv in H as (off' & s2 & _ & H).
  apply mbind_inv in H as ([] & s3 & _ & H). apply mbind_inv in H as ([] & s4 & _ & H). apply mbind_inv in H as ([] & s5 & _ & H).
  unfold ret in H. injection H as <- <- <- <- <- <- _. exists sz. split; [exact Hsz|]. split; [exact Hfo|]. split; [|reflexivity].
  destruct old' as [o|]; [|injection Hoe as <-; reflexivity]. destruct (get_entry_at s (o_offset o)) as [e0|]; [|discriminate].
  injection Hoe as <-. eauto.
Qed.
Lemma place_told : forall rect upd s A p e0 B w l s' l', let e := w_entry w in
  core s (A ++ (p, e0) :: B) -> w_old_url w = full_url e0 -> full_url e = full_url e0 -> entry_storable e -> span e = span e0 ->
  (forall t, z_etpl s = Some t -> In (zlen A) (pl_ptrs t)) ->
  write_body_t rect w upd true (s, l) = (Ok tt, (s', l')) -> l' = l ++ [Wrote e (Some e0) false].
Proof.
  intros rect upd s A p e0 B w l s' l' e C Hou Hu Hs Hsp Hcov H.
  assert (Hz : znth (A ++ (p, e0) :: B) (zlen A) = Some (p, e0)) by apply znth_mid.
  destruct (find_old_found s _ (zlen A) (p, e0) w C Hz Hou Hcov) as (et & at_ & Hfo & _). cbn [fst snd] in Hfo.
  pose proof (core_nth _ _ _ _ C Hz) as St. cbn [fst snd] in St.
  unfold write_body_t in H. apply mbind_inv in H as (x & [s1 l1] & H1 & H). apply quiet_inv in H1 as [H1 E1]. cbn [fst snd] in H1, E1. subst l1.
  destruct x as [[[[[ar old] oe] tu] off] ch]. destruct (write_begin_inv _ _ _ _ _ _ _ _ _ _ H1) as (sz & Hsz & Hfo' & Hoe & Hch).
  rewrite Hfo in Hfo'. injection Hfo' as <-. cbn [o_offset o_size] in Hoe, Hch. destruct Hoe as (e00 & Hg & ->).
  rewrite (stored_read _ _ _ St) in Hg. injection Hg as <-.
  destruct (storable_span e Hs) as [Hsz' _]. fold e in Hsz. rewrite Hsz' in Hsz. injection Hsz as <-.
  fold e in Hch. rewrite Hou, Hu, ueqb_refl, Hsp, Z.eqb_refl in Hch. cbn in Hch. subst ch.
  apply mbind_inv in H as ([] & [s2 l2] & H2 & H). unfold ret in H2. injection H2 as <- <-.
  apply mbind_inv in H as ([ni e'] & [s2 l2] & H2 & H). unfold ret in H2. cbn [o_index] in H2. injection H2 as <- <- <- <-.
  apply mbind_inv in H as ([] & [s2 l2] & H2 & H). apply quiet_inv in H2 as [_ E2]. cbn [snd] in E2. subst l2.
  apply mbind_inv in H as ([] & [s3 l3] & H2 & H). cbn [option_map o_index opt_eqb] in H2. rewrite Z.eqb_refl in H2. unfold ret in H2. injection H2 as <- <-.
  apply mbind_inv in H as ([] & [s3 l3] & H2 & H). unfold tell in H2. injection H2 as <- <-.
  apply quiet_inv in H as [_ E]. cbn [snd] in E. exact E.
Qed.

(** *** Renumbering redirects *)
Lemma urls_mid : forall (A B : list (Z * entry)) p e e0 , full_url e = full_url e0 -> urls (map snd (A ++ (p, e) :: B)) = urls (map snd (A ++ (p, e0) :: B)).
Proof. intros A B p e e0 H. unfold urls. rewrite !map_map, !map_app. cbn [map snd]. rewrite H. reflexivity. Qed.

Section LoopTold.
Variables (rect : went -> bool -> M watched unit) (rec : went -> bool -> M zim unit).
Hypothesis Hrec : forall w u, erases (rect w u) (rec w u).
Variables (wrt : went -> M watched unit) (wr : went -> M zim unit) (start diff : Z) (skip : list ustr) (X : list Z) (n : Z).
Hypothesis Hwrt : forall w, wrt w = write_body_t rect w true true.
Hypothesis Hn : n < 2 ^ 32.

Lemma loop_told : forall B s A l s' l', core s (A ++ B) -> zlen (A ++ B) = n -> covered X n s ->
  (forall j c, znth (A ++ B) j = Some c -> In j X -> umem (full_url (snd c)) skip = true) ->
  Forall (in_bounds start diff skip n) B ->
  for_entries_t (length B) (zlen A) (update_redirect_t wrt start diff skip) (s, l) = (Ok tt, (s', l')) ->
  exists l2, l' = l ++ l2 /\ carries skip (map snd (A ++ B)) l2 (map snd (A ++ map (shift_cell start diff skip) B)).
Proof.
  induction B as [|c B IH]; intros s A l s' l' C Ln Cov Hex Hb H.
  - cbn in H. injection H as <- <-. exists []. rewrite app_nil_r. split; [reflexivity|]. apply carries_nil.
  - inversion Hb as [|? ? Hbc HbB]; subst.
    assert (Hz : znth (A ++ c :: B) (zlen A) = Some c) by apply znth_mid.
    cbn [length for_entries_t] in H. apply mbind_inv in H as (e & [s1 l1] & H1 & H). apply quiet_inv in H1 as [H1 E1]. cbn [fst snd] in H1, E1. subst l1.
    apply query_inv in H1 as [H1 ->]. rewrite (by_index_ok _ _ _ _ C Hz) in H1. cbn [bind] in H1.
    rewrite (stored_read _ _ _ (core_nth _ _ _ _ C Hz)) in H1. injection H1 as <-.
    apply mbind_inv in H as ([] & [s1 l1] & H1 & H).
    assert (EA : forall d, A ++ d :: B = (A ++ [d]) ++ B) by (intro; rewrite <- app_assoc; reflexivity).
    assert (LA : forall d : Z * entry, zlen (A ++ [d]) = zlen A + 1) by (intro; rewrite zlen_app; reflexivity).
    destruct (touched start skip (snd c)) eqn:T.
    + pose proof T as T'. unfold touched in T'. apply andb_prop in T' as [T1 T2]. apply andb_prop in T1 as [T0 T1].
      destruct (e_kind (snd c)) as [?|r] eqn:Ek; [discriminate|].
      destruct (core_nth _ _ _ _ C Hz) as (Hp & Hs & Hkc & _).
      pose proof (Hbc r T Ek) as Hr.
      set (e' := with_redirect_index (snd c) (r + diff)).
      assert (Sh : shift_entry start diff skip (snd c) = e') by (unfold shift_entry; rewrite T, Ek; reflexivity).
      unfold update_redirect_t in H1. rewrite T0, T1 in H1. cbn [andb] in H1. rewrite Ek, T2 in H1.
      apply mbind_inv in H1 as (e1 & [s2 l2] & H2 & H1). apply quiet_inv in H2 as [H2 E2]. cbn [fst snd] in H2, E2. subst l2.
      apply query_inv in H2 as [H2 ->]. unfold set_redirect_index in H2. replace (r + diff <? 0) with false in H2 by lia. injection H2 as <-. fold e' in H1.
      apply mbind_inv in H1 as (q & [s2 l2] & H2 & H1). apply quiet_inv in H2 as [H2 E2]. cbn [fst snd] in H2, E2. subst l2.
      apply query_inv in H2 as [_ ->]. destruct (r + diff =? q); [discriminate|].
      destruct c as [p e0]. cbn [fst snd] in *.
      assert (Hv : 0 <= r + diff < 2 ^ 32) by lia.
      destruct (is_article_found s _ (zlen A) (p, e0) (fresh e') C Hz) as (a & Ha & Hai); try reflexivity.
      assert (HcovA : forall t, z_etpl s = Some t -> In (zlen A) (pl_ptrs t)).
      { intros t Ht. apply (Cov t Ht); [apply znth_some in Hz; lia|]. intro HX. specialize (Hex _ _ Hz HX). cbn [snd] in Hex. rewrite Hex in T1. discriminate. }
      assert (Hs' : entry_storable e') by (eapply wri_storable; eauto).
      assert (Hsp' : span e' = span e0) by (eapply wri_span; eauto).
      destruct (write_in_place rec true s A p e0 B (fresh e') a) as (s1' & W1 & C1 & U1 & M1 & A1 & K1 & L1 & R1 & I1); try assumption; try reflexivity.
      { cbn [fresh w_entry]. eapply wri_consistent; eauto. }
      { cbn [fresh w_entry]. intro At. apply Hai in At. unfold e'; cbn. eapply (co_articles _ _ C); [exact At|].
        rewrite znth_map, Hz. reflexivity. }
      { cbn [fresh w_entry]. intros r' Hr'. unfold e' in Hr'. cbn in Hr'. injection Hr' as <-. lia. }
      rewrite Hwrt in H1.
      assert (s1' = s1). { destruct (er_write_body rect rec Hrec (fresh e') true true s l) as [lx Ex]. rewrite H1, W1 in Ex. cbn [fst snd] in Ex. congruence. } subst s1'.
      apply (place_told rect true s A p e0 B (fresh e')) in H1; try assumption; try reflexivity. cbn [fresh w_entry] in H1, C1. subst l1.
      rewrite EA in C1. rewrite <- (LA (p, e')) in H.
      edestruct (IH s1 (A ++ [(p, e')])) as (l2 & -> & K2); [exact C1| | | | |exact H|].
      { rewrite <- EA. rewrite !zlen_app, !zlen_cons. lia. }
      { intros t Ht j Hj HX. destruct (z_etpl s) as [t0|] eqn:E0; rewrite Ht in R1; cbn [etpl_rel] in R1; [|contradiction].
        eapply Permutation_in; [symmetry; exact R1|]. apply (Cov t0 E0); assumption. }
      { intros j d Hj HX. rewrite <- EA in Hj. destruct (Z.eq_dec j (zlen A)) as [->|Hne].
        - rewrite znth_mid in Hj. injection Hj as <-. exact (Hex _ _ Hz HX).
        - rewrite (znth_mid_other A B (p, e') (p, e0)) in Hj by exact Hne. eauto. }
      { exact HbB. }
      exists ([Wrote e' (Some e0) false] ++ l2). split; [rewrite <- app_assoc; reflexivity|].
      eapply carries_app.
      * rewrite map_app. cbn [map snd]. apply carries_one with (e := e').
        -- reflexivity.
        -- intro Hin. apply umem_in in Hin. rewrite Hin in T1. discriminate.
        -- pose proof (core_nodup _ _ C) as Nd. rewrite map_app in Nd. exact Nd.
      * rewrite <- !app_assoc in K2. cbn [app] in K2. rewrite map_app in K2. cbn [map snd] in K2.
        cbn [map]. unfold shift_cell at 1. cbn [fst snd]. rewrite Sh. exact K2.
      * intros u Hu. unfold urls in *. rewrite map_app in Hu |- *. rewrite map_app. cbn [map snd] in *. exact Hu.
    + assert (Sh : shift_cell start diff skip c = c).
      { unfold shift_cell, shift_entry. rewrite T. destruct c; reflexivity. }
      assert (Hbody : update_redirect_t wrt start diff skip (snd c) (s, l) = (Ok tt, (s, l))).
      { unfold update_redirect_t. unfold touched in T. destruct (is_redirect (snd c)) eqn:Er; [|reflexivity].
        destruct (negb (umem (full_url (snd c)) skip)); [|reflexivity]. cbn [andb] in *.
        destruct (core_nth _ _ _ _ C Hz) as (_ & _ & Hkc & _).
        destruct (e_kind (snd c)) as [?|r] eqn:Ek; [|rewrite T; reflexivity].
        unfold kind_consistent, is_redirect, MIMETYPE_ID_REDIRECT in *. rewrite Ek in Hkc. lia. }
      rewrite Hbody in H1. injection H1 as <- <-. rewrite <- (LA c) in H. rewrite EA in C.
      edestruct (IH s (A ++ [c])) as (l2 & -> & K2); [exact C| |exact Cov| |exact HbB|exact H|].
      { rewrite <- EA. reflexivity. }
      { rewrite <- EA. exact Hex. }
      exists l2. split; [reflexivity|]. cbn [map]. rewrite Sh. rewrite <- !app_assoc in K2. exact K2.
Qed.

Lemma uup_told : forall edit s1 cells l s' l',
  let s2 := shift_lists start diff edit s1 in
  core s2 cells -> zlen cells = n -> covered X n s2 ->
  (forall j c, znth cells j = Some c -> In j X -> umem (full_url (snd c)) skip = true) ->
  Forall (in_bounds start diff skip n) cells ->
  update_url_pointers_t wrt start diff edit skip (s1, l) = (Ok tt, (s', l')) ->
  exists l2, l' = l ++ l2 /\ carries skip (map snd cells) l2 (map snd (map (shift_cell start diff skip) cells)).
Proof.
  intros edit s1 cells l s' l' s2 C Ln Cov Hex Hb H. unfold update_url_pointers_t in H.
  set (sa := match z_etpl s1 with None => s1 | Some t => set_etpl (Some (shift_pl start diff t)) s1 end).
  assert (H1 : shift_etpl diff start s1 = (Ok tt, sa)).
  { unfold shift_etpl, sa. apply update_ok. destruct (z_etpl s1); [rewrite mass_shift|]; reflexivity. }
  assert (H2 : (if edit then shift_atpl diff start else ret tt) sa = (Ok tt, s2)).
  { unfold s2, shift_lists. fold sa. destruct edit; [|reflexivity]. unfold shift_atpl. apply update_ok. rewrite mass_shift. reflexivity. }
  apply mbind_inv in H as ([] & [t1 l1] & Q & H). apply quiet_inv in Q as [Q E]. cbn [fst snd] in Q, E. subst l1. rewrite H1 in Q. injection Q as <-.
  apply mbind_inv in H as ([] & [t1 l1] & Q & H). apply quiet_inv in Q as [Q E]. cbn [fst snd] in Q, E. subst l1. rewrite H2 in Q. injection Q as <-.
  apply mbind_inv in H as (k & [t1 l1] & Q & H). apply quiet_inv in Q as [Q E]. cbn [fst snd] in Q, E. subst l1. apply query_inv in Q as [Q ->].
  injection Q as <-. rewrite (co_locs _ _ C), zlen_map in H. replace (Z.to_nat (zlen cells)) with (length cells) in H by (unfold zlen; lia).
  apply mbind_inv in H as ([] & [s3 l3] & H3 & H). apply quiet_inv in H as [_ E]. cbn [snd] in E. subst l3.
  exact (loop_told cells s2 [] l s3 l' C Ln Cov Hex Hb H3).
Qed.
End LoopTold.

(** *** Pointing redirects to the new place *)
Section RetargetTold.
Variables (rect : went -> bool -> M watched unit) (rec : went -> bool -> M zim unit).
Hypothesis Hrec : forall w u, erases (rect w u) (rec w u).
Lemma retarget_told : forall wrt j (X : list ustr), (forall w, wrt w = write_body_t rect w false true) ->
  forall us s cells l s' l', core s cells -> zlen cells < 2 ^ 32 -> 0 <= j < zlen cells -> etitles_complete s (zlen cells) ->
  (forall u, In u us -> exists c r, In c cells /\ full_url (snd c) = u /\ e_kind (snd c) = Redirect r) ->
  (forall u, In u us -> ~ In u X) ->
  retarget_t wrt us j (s, l) = (Ok tt, (s', l')) ->
  exists l2, l' = l ++ l2 /\ carries X (map snd cells) l2 (map snd (map (retarget_cell us j) cells)).
Proof.
  intros wrt j X Hwr. induction us as [|u us IH]; intros s cells l s' l' C Hn Hj Hcomp Hu HX H.
  - cbn in H. injection H as <- <-. exists []. rewrite app_nil_r. split; [reflexivity|].
    replace (map (retarget_cell [] j) cells) with cells; [apply carries_nil|]. symmetry. erewrite map_ext; [apply map_id|]. intro. reflexivity.
  - destruct (Hu u (or_introl eq_refl)) as (c & r & Hc & Ec & Ek).
    destruct (in_split _ _ Hc) as (A & B & ->). destruct c as [p e0]. cbn [fst snd] in *.
    assert (Hz : znth (A ++ (p, e0) :: B) (zlen A) = Some (p, e0)) by apply znth_mid.
    destruct (core_nth _ _ _ _ C Hz) as (Hp & Hs & Hkc & _). cbn [fst snd] in Hs, Hkc.
    set (e' := with_redirect_index e0 j).
    assert (Hs' : entry_storable e') by (eapply wri_storable; eauto; lia).
    assert (Hsp' : span e' = span e0) by (eapply wri_span; eauto; lia).
    assert (HcovA : forall t, z_etpl s = Some t -> In (zlen A) (pl_ptrs t)).
    { intros t Ht. apply (Hcomp t Ht). apply znth_some in Hz. exact Hz. }
    destruct (is_article_found s _ (zlen A) (p, e0) (fresh e') C Hz) as (a & Ha & Hai); try reflexivity.
    destruct (write_in_place rec false s A p e0 B (fresh e') a) as (s1 & W1 & C1 & U1 & M1 & A1 & K1 & L1 & R1 & I1); try assumption; try reflexivity.
    { cbn [fresh w_entry]. eapply wri_consistent; eauto. }
    { cbn [fresh w_entry]. intro At. apply Hai in At. unfold e'; cbn. eapply (co_articles _ _ C); [exact At|].
      rewrite znth_map, Hz. reflexivity. }
    { cbn [fresh w_entry]. intros r' Hr'. unfold e' in Hr'. cbn in Hr'. injection Hr' as <-. exact Hj. }
    cbn [fresh w_entry] in C1.
    assert (Ln : zlen (A ++ (p, e') :: B) = zlen (A ++ (p, e0) :: B)) by (rewrite !zlen_app, !zlen_cons; reflexivity).
    cbn [retarget_t] in H.
    apply mbind_inv in H as (e1 & [t1 l1] & Q & H). apply quiet_inv in Q as [Q E]. cbn [fst snd] in Q, E. subst l1. apply query_inv in Q as [Q ->].
    rewrite <- Ec in Q. change e0 with (snd (p, e0)) in Q. rewrite (lookup_found _ _ _ _ C Hz) in Q. cbn [snd] in Q. injection Q as <-.
    apply mbind_inv in H as (e1 & [t1 l1] & Q & H). apply quiet_inv in Q as [Q E]. cbn [fst snd] in Q, E. subst l1. apply query_inv in Q as [Q ->].
    rewrite Ek in Q. unfold set_redirect_index in Q. replace (j <? 0) with false in Q by lia. injection Q as <-. fold e' in H.
    apply mbind_inv in H as ([] & [t1 l1] & Q & H). rewrite Hwr in Q.
    assert (t1 = s1). { destruct (er_write_body rect rec Hrec (fresh e') false true s l) as [lx Ex]. rewrite Q, W1 in Ex. cbn [fst snd] in Ex. congruence. } subst t1.
    apply (place_told rect false s A p e0 B (fresh e')) in Q; try assumption; try reflexivity. cbn [fresh w_entry] in Q. subst l1.
    edestruct (IH s1 (A ++ (p, e') :: B)) as (l2 & -> & K2); [exact C1| | | | | |exact H|].
    { lia. } { lia. }
    { intros t Ht k Hk. destruct (z_etpl s) as [t0|] eqn:E0; rewrite Ht in R1; cbn [etpl_rel] in R1; [|contradiction].
      apply (Permutation_in _ (Permutation_sym R1)). apply (Hcomp t0 E0). lia. }
    { intros v Hv. destruct (Hu v (or_intror Hv)) as (d & r' & Hd & Ed & Ekd). apply in_app_or in Hd. destruct Hd as [Hd|[<-|Hd]].
      - exists d, r'. split; [apply in_or_app; auto|auto].
      - exists (p, e'), j. split; [apply in_or_app; right; left; reflexivity|]. split; [exact Ed|reflexivity].
      - exists d, r'. split; [apply in_or_app; right; right; exact Hd|auto]. }
    { intros v Hv. apply HX. right. exact Hv. }
    exists ([Wrote e' (Some e0) false] ++ l2). split; [rewrite <- app_assoc; reflexivity|].
    pose proof (core_nodup _ _ C) as Nd.
    assert (Nu : forall d, In d (A ++ B) -> full_url (snd d) <> u).
    { intros d Hd E. unfold urls in Nd. rewrite map_map, map_app in Nd. cbn [map snd] in Nd. apply NoDup_remove_2 in Nd. apply Nd.
      rewrite <- map_app. rewrite Ec, <- E. apply (in_map (fun x => full_url (snd x))). exact Hd. }
    assert (Hm : forall d, full_url (snd d) <> u -> retarget_cell (u :: us) j d = retarget_cell us j d).
    { intros d Hd. unfold retarget_cell, umem. cbn [existsb]. rewrite (ueqb_neq _ _ Hd). reflexivity. }
    assert (Hue : umem (full_url e0) (u :: us) = true) by (apply umem_in; left; congruence).
    eapply carries_app.
    + rewrite map_app. cbn [map snd]. apply carries_one with (e := e'); [reflexivity| |rewrite map_app in Nd; exact Nd].
      rewrite Ec. apply HX. left. reflexivity.
    + replace (map (retarget_cell (u :: us) j) (A ++ (p, e0) :: B)) with (map (retarget_cell us j) (A ++ (p, e') :: B)).
      * rewrite map_app in K2 at 1. cbn [map snd] in K2. exact K2.
      * rewrite !map_mid. f_equal; [|f_equal].
        -- apply map_ext_in. intros d Hd. symmetry. apply Hm. apply Nu. apply in_or_app; auto.
        -- unfold retarget_cell. cbn [fst snd]. rewrite Hue. fold e'. destruct (umem (full_url e') us); reflexivity.
        -- apply map_ext_in. intros d Hd. symmetry. apply Hm. apply Nu. apply in_or_app; auto.
    + intros v Hv. unfold urls in *. rewrite map_app in Hv |- *. rewrite map_app. cbn [map snd] in *. exact Hv.
Qed.
End RetargetTold.

(** *** Inserting and removing *)
Lemma carries_restrict : forall A e B l A' e' B', full_url e' = full_url e -> carries [full_url e] (A ++ e :: B) l (A' ++ e' :: B') -> carries [full_url e] (A ++ B) l (A' ++ B').
Proof.
  intros A e B l A' e' B' Hu H m Hm.
  destruct (H m) as (T & G & U).
  { intros d Hd Hx. apply in_app_or in Hd. destruct Hd as [Hd|[ <- |Hd]]; [apply Hm; [apply in_or_app; auto|exact Hx]| |apply Hm; [apply in_or_app; auto|exact Hx]].
    exfalso. apply Hx. left. reflexivity. }
  split; [exact T|]. split.
  - intros d Hd Hx. apply G; [|exact Hx]. apply in_app_or in Hd. apply in_or_app. destruct Hd; [left|right; right]; assumption.
  - intros u Hux. apply U. destruct Hux as [Hux|Hux]; [auto|]. destruct (ueqb u (full_url e)) eqn:E.
    + apply ueqb_eq in E. left. left. congruence.
    + right. intro Hin. apply Hux. unfold urls in *. rewrite map_app in *. cbn [map] in Hin. apply in_app_or in Hin. apply in_or_app.
      destruct Hin as [Hin|[Hin|Hin]]; [auto| |auto]. subst u. rewrite ueqb_refl in E. discriminate.
Qed.
Lemma carries_weaken : forall u L l L', ~ In u (urls L) -> carries [] L l L' -> carries [u] L l L'.
Proof.
  intros u L l L' Hu H m Hm. destruct (H m) as (T & G & U).
  { intros d Hd _. apply Hm; [exact Hd|]. intros [E|[]]. apply Hu. rewrite E. apply in_map. exact Hd. }
  split; [exact T|]. split; [intros d Hd _; apply G; [exact Hd|intros []]|]. intros v [[ <- |[]]|Hv]; apply U; right; assumption.
Qed.
Lemma split_unique : forall (A B A' B' : list (Z * entry)) e, A ++ B = A' ++ B' ->
  (forall c, In c A -> url_lt (snd c) e) -> (forall c, In c B -> url_lt e (snd c)) ->
  (forall c, In c A' -> url_lt (snd c) e) -> (forall c, In c B' -> url_lt e (snd c)) -> A = A' /\ B = B'.
Proof.
  induction A as [|x A IH]; intros B [|y A'] B' e E H1 H2 H3 H4.
  - auto.
  - exfalso. cbn in E. apply (ultb_asym (full_url (snd y)) (full_url e)); [apply H3; left; reflexivity|]. apply (H2 y). rewrite E. left. reflexivity.
  - exfalso. cbn in E. apply (ultb_asym (full_url (snd x)) (full_url e)); [apply H1; left; reflexivity|]. apply (H4 x). rewrite <- E. left. reflexivity.
  - cbn in E. injection E as -> E. destruct (IH B A' B' e E) as [-> ->]; auto; intros c Hc; [apply H1|apply H3]; right; exact Hc.
Qed.
Lemma urls_shift : forall start diff skip cells, urls (map snd (map (shift_cell start diff skip) cells)) = urls (map snd cells).
Proof. intros. unfold urls. rewrite !map_map. apply map_ext. intros [p e]. unfold shift_cell. cbn [snd]. apply shift_full_url. Qed.
Lemma urls_retarget : forall us j cells, urls (map snd (map (retarget_cell us j) cells)) = urls (map snd cells).
Proof. intros. unfold urls. rewrite !map_map. apply map_ext. intros [p e]. unfold retarget_cell. cbn [snd]. destruct (umem _ us); reflexivity. Qed.

Section Told.
Variables (rect1 : went -> bool -> M watched unit) (rec1 : went -> bool -> M zim unit).
Hypothesis Hrec1 : forall w u, erases (rect1 w u) (rec1 w u).
Let rect w u := write_body_t rect1 w u true.
Let rec w u := write_body rec1 w u true.
Lemma Hrec_ : forall w u, erases (rect w u) (rec w u).
Proof. intros w u. apply er_write_body. exact Hrec1. Qed.

Lemma Hrec_body : exists rec', forall w, rec w true = write_body rec' w true true.
Proof. exists rec1. reflexivity. Qed.

Definition ins_t (off : Z) (e : entry) : M watched (Z * entry) :=
  let* i := quiet (add_pointer off e) in
  let* _ := update_url_pointers_t (fun w => rect w true) i 1 true [full_url e] in
  quiet (own_index off e i).

Lemma ins_told : forall s cells off e l i e' s' l',
  zlen cells + 1 < 2 ^ 32 ->
  core s cells -> stored (z_file s) off e -> (forall x, occupies (off, e) x -> in_use (z_alloc s) x) -> Forall (apart (off, e)) cells ->
  (forall c, In c cells -> full_url (snd c) <> full_url e) -> etitles_complete s (zlen cells) -> targets_in (zlen cells) cells ->
  ins_t off e (s, l) = (Ok (i, e'), (s', l')) ->
  exists l2, l' = l ++ l2 /\ carries [full_url e] (map snd cells) l2 (map snd (map (shift_cell i 1 [full_url e]) cells)).
Proof.
  intros s cells off e l i e' s' l' Hn C St Us Ap Hf Hcomp Ht H.
  destruct (url_add_ok s cells off e C St Hf) as (A & B & u' & -> & He & Ha & Eu & Mu & HA & HB).
  unfold ins_t in H. apply mbind_inv in H as (i0 & [s1 l1] & H1 & H). apply quiet_inv in H1 as [H1 E1]. cbn [fst snd] in H1, E1. subst l1.
  unfold add_pointer in H1. rewrite He, Ha in H1. injection H1 as <- <-.
  apply mbind_inv in H as ([] & [s1 l1] & H1 & H). apply quiet_inv in H as [H E]. cbn [fst snd] in H, E. subst l1.
  assert (Ei : i = zlen A).
  { unfold own_index in H. apply mbind_inv in H as (e1 & s2 & _ & H). apply mbind_inv in H as ([] & s3 & _ & H).
    destruct (e_kind e1) as [|r]; [|destruct (_ && _); [discriminate|]]; unfold ret in H; congruence. }
  set (p := zlen A) in *. set (sk := [full_url e]) in *.
  pose proof (core_insert s A B off e u' C Eu Mu St Us Ap HA HB) as C2. fold p in C2.
  assert (Ln : zlen (A ++ (off, e) :: B) = zlen (A ++ B) + 1) by (rewrite !zlen_app, zlen_cons; lia).
  assert (Tn : touched p sk e = false).
  { unfold touched, sk. replace (umem (full_url e) [full_url e]) with true by (symmetry; apply umem_single; reflexivity).
    cbn. rewrite andb_false_r. reflexivity. }
  assert (Se : shift_cell p 1 sk (off, e) = (off, e)).
  { unfold shift_cell, shift_entry. cbn [fst snd]. rewrite Tn. reflexivity. }
  edestruct (uup_told rect1 rec1 Hrec1 (fun w => rect w true) p 1 sk [p] (zlen (A ++ (off, e) :: B))) as (l2 & -> & K);
    [intro; reflexivity|lia|exact C2|reflexivity| | | |exact H1|].
  - intros t Htt j Hj HX. rewrite shift_lists_etpl in Htt. cbn [z_etpl set_upl] in Htt.
    destruct (z_etpl s) as [t0|] eqn:Et; [|discriminate]. injection Htt as <-. cbn [pl_ptrs shift_pl].
    assert (j <> p) by (intros ->; apply HX; left; reflexivity).
    rewrite <- (shift_up_down p j) by assumption. apply in_map. apply (Hcomp t0 Et).
    assert (0 <= p <= zlen (A ++ B)) by (unfold p; rewrite zlen_app; pose proof (zlen_nonneg A); pose proof (zlen_nonneg B); lia).
    unfold shift_ptr. destruct (Z.leb_spec p j); lia.
  - intros j c Hj [<-|[]]. unfold p in Hj. rewrite znth_mid in Hj. injection Hj as <-. apply umem_single. reflexivity.
  - apply Forall_forall. intros c Hc r T Hr. apply in_app_or in Hc. destruct Hc as [Hc|[<-|Hc]].
    + specialize (Ht c r ltac:(apply in_or_app; auto) Hr). lia.
    + cbn [snd] in T. congruence.
    + specialize (Ht c r ltac:(apply in_or_app; auto) Hr). lia.
  - exists l2. split; [reflexivity|]. rewrite Ei. rewrite (map_mid (shift_cell p 1 sk)), Se in K. rewrite !(map_app snd) in K. cbn [map snd] in K.
    rewrite (map_app (shift_cell p 1 sk)), !(map_app snd). eapply carries_restrict; [|exact K]. reflexivity.
Qed.

Lemma rem_told : forall s0 s A c B edit l s' l', zlen (A ++ c :: B) < 2 ^ 32 ->
  core s0 (A ++ c :: B) -> etitles_complete s0 (zlen (A ++ c :: B)) -> targets_in (zlen (A ++ c :: B)) (A ++ B) ->
  (forall d, In d (A ++ B) -> e_kind (snd d) = Redirect 0 -> 0 < zlen A) ->
  pl_ptrs (z_upl s) = map fst A ++ map fst B -> pl_mutable (z_upl s) = true ->
  Forall (fun c => stored (z_file s) (fst c) (snd c)) (A ++ B) ->
  Forall (fun c => forall x, occupies c x -> in_use (z_alloc s) x) (A ++ B) ->
  canonical (z_alloc s) -> 0 <= file_end (z_alloc s) ->
  minus (zlen A) (pl_ptrs (z_atpl s0)) (pl_ptrs (z_atpl s)) -> pl_mutable (z_atpl s) = true ->
  etpl_rel (minus (zlen A)) (z_etpl s0) (z_etpl s) -> (forall t, z_etpl s = Some t -> pl_mutable t = true) ->
  (edit = true \/ forall j, In j (pl_ptrs (z_atpl s)) -> j < zlen A) ->
  update_url_pointers_t (fun w => rect w true) (zlen A) (-1) edit [] (s, l) = (Ok tt, (s', l')) ->
  exists l2, l' = l ++ l2 /\ carries [] (map snd (A ++ B)) l2 (map snd (map (shift_cell (zlen A) (-1) []) (A ++ B))).
Proof.
  intros s0 s A c B edit l s' l' Hn C0 Hcomp Ht Hz Pu Mu St Us Ca En Ra Ma Re Me Hed H.
  pose proof (core_remove s0 s A c B edit C0 Pu Mu St Us Ca En Ra Ma Re Me Hed) as C2. set (i := zlen A) in *.
  assert (Ln : zlen (A ++ c :: B) = zlen (A ++ B) + 1) by (rewrite !zlen_app, zlen_cons; lia).
  edestruct (uup_told rect1 rec1 Hrec1 (fun w => rect w true) i (-1) [] [] (zlen (A ++ B))) as (l2 & -> & K);
    [intro; reflexivity|lia|exact C2|reflexivity| | | |exact H|].
  - intros t Htt j Hj _. rewrite shift_lists_etpl in Htt.
    destruct (z_etpl s) as [t1|] eqn:Et1; [|discriminate]. injection Htt as <-. cbn [pl_ptrs shift_pl].
    destruct (z_etpl s0) as [t0|] eqn:Et0; cbn [etpl_rel] in Re; [|contradiction]. destruct Re as (Rn & Rl & Ri).
    rewrite <- (shift_down_up i j). apply in_map. apply Ri. split; [|apply shift_up_ne].
    apply (Hcomp t0 Et0). unfold shift_ptr. destruct (Z.leb_spec i j); lia.
  - intros j d Hj [].
  - apply Forall_forall. intros d Hd r T Hr. pose proof (Ht d r Hd Hr) as Hb.
    unfold touched in T. rewrite Hr in T. apply andb_prop in T as [_ T].
    assert (r <> 0). { intros ->. specialize (Hz d Hd Hr). lia. }
    lia.
  - eauto.
Qed.

(** *** A new entry *)
Lemma new_told : forall w s cells a l s' l', let e := w_entry w in
  core s cells -> etitles_complete s (zlen cells) -> targets_in (zlen cells) cells -> zlen cells + 1 < 2 ^ 32 ->
  entry_storable e -> kind_consistent e -> (forall c, In c cells -> full_url (snd c) <> full_url e) ->
  (forall r, e_kind e = Redirect r -> 0 <= r < zlen cells) ->
  find_old s w = Ok None -> is_article s w = Ok a ->
  write_body_t rect w true true (s, l) = (Ok tt, (s', l')) ->
  exists A B l2, cells = A ++ B /\ (forall c, In c A -> url_lt (snd c) e) /\ (forall c, In c B -> url_lt e (snd c)) /\
    l' = l ++ l2 ++ [Wrote (bumped (zlen A) e) None true] /\
    carries [full_url e] (map snd cells) l2 (map snd (map (shift_cell (zlen A) 1 [full_url e]) cells)).
Proof.
  intros w s cells a l s' l' e C Hcomp Ht Hn Hs Hk Hf Hown Hfo Har H.
  destruct (storable_span e Hs) as [Hsz Hpos]. destruct (entry_size_storable e Hs) as (b & Hb & _).
  destruct (allocate_total (z_alloc s) (span e) ltac:(lia)) as (off & al & Hal).
  destruct (alloc_write s cells e b off al C Hs Hk Hb Hal) as (C1 & St & Us & Ap & K1 & L1 & Hu & Hnew).
  set (s1 := set_file (fwrite (z_file s) off b) (set_alloc al s)) in *.
  assert (Hcomp1 : etitles_complete s1 (zlen cells)) by exact Hcomp.
  assert (Hw : write_begin w true s = (Ok (a, None, None, [], off, true), s1)).
  { unfold write_begin. fold e.
    rewrite (mbind_ok _ _ _ a s) by (apply query_ok; exact Har).
    rewrite (mbind_ok _ _ _ (span e) s) by (apply query_ok; exact Hsz).
    rewrite (mbind_ok _ _ _ None s) by (apply query_ok; exact Hfo).
    rewrite (mbind_ok _ _ _ None s) by reflexivity.
    rewrite (mbind_ok _ _ _ [] s) by reflexivity.
    rewrite (mbind_ok _ _ _ tt s) by reflexivity.
    rewrite (mbind_ok _ _ _ off (set_alloc al s)) by (rewrite Hal; reflexivity).
    rewrite (mbind_ok _ _ _ tt s1) by (unfold write_at; apply update_ok; rewrite Hb; reflexivity).
    rewrite (mbind_ok _ _ _ tt s1).
    2: { unfold drop_etitle. apply update_ok. reflexivity. }
    rewrite (mbind_ok _ _ _ tt s1) by (unfold drop_atitle; apply update_ok; reflexivity). reflexivity. }
  unfold write_body_t in H. apply mbind_inv in H as (x & [s2 l2] & H1 & H). apply quiet_inv in H1 as [H1 E1]. cbn [fst snd] in H1, E1. subst l2.
  rewrite Hw in H1. injection H1 as <- <-.
  apply mbind_inv in H as ([] & [s2 l2] & H2 & H). unfold ret in H2. injection H2 as <- <-.
  apply mbind_inv in H as ([ni e'] & [s2 l2] & H2 & H). fold e in H2. fold (ins_t off e) in H2.
  destruct (ins_told s1 cells off e l ni e' s2 l2 Hn C1 St Us Ap Hf Hcomp1 Ht H2) as (l3 & -> & K).
  assert (Hins : erases (ins_t off e) (ins rec off e)).
  { unfold ins_t, ins. apply er_bind; [apply er_quiet|]. intro i. apply er_bind; [apply er_uup; intro; apply Hrec_|]. intros _. apply er_quiet. }
  destruct (Hins s1 l) as [lx Ex]. rewrite H2 in Ex.
  destruct (ins_ok rec s1 cells off e Hrec_body Hn C1 St Us Ap Hf Hcomp1 Ht Hown) as (A & B & EC & (HA & HB) & Hout).
  destruct Hout as [(s3 & W & _)|(s3 & c & _ & _ & W)]; rewrite W in Ex; cbn [fst snd] in Ex; [|discriminate]. injection Ex as -> -> _ _.
  exists A, B, l3. split; [exact EC|]. split; [exact HA|]. split; [exact HB|]. split; [|exact K].
  apply mbind_inv in H as ([] & [s4 l4] & H3 & H). apply quiet_inv in H3 as [_ E3]. cbn [snd] in E3. subst l4.
  apply mbind_inv in H as ([] & [s5 l5] & H3 & H). cbn [option_map opt_eqb retarget_t] in H3. unfold ret in H3. injection H3 as <- <-.
  apply mbind_inv in H as ([] & [s5 l5] & H3 & H). unfold tell in H3. injection H3 as <- <-.
  apply quiet_inv in H as [_ E]. cbn [snd] in E. rewrite E, <- app_assoc. reflexivity.
Qed.

(** *** An entry that moves *)
Lemma move_told : forall w s A p0 e0 B a l s' l', let e := w_entry w in let i := zlen A in let cells := A ++ (p0, e0) :: B in
  core s cells -> etitles_complete s (zlen cells) -> targets_in (zlen cells) (A ++ B) -> zlen cells < 2 ^ 32 ->
  w_old_url w = full_url e0 -> e_kind e0 <> Redirect i -> entry_storable e -> kind_consistent e ->
  (full_url e <> full_url e0 \/ span e <> span e0) ->
  (forall c, In c (A ++ B) -> full_url (snd c) <> full_url e) ->
  (forall r, e_kind e = Redirect r -> 0 <= r < i) ->
  (forall d, In d (A ++ B) -> e_kind (snd d) = Redirect 0 -> 0 < i) ->
  is_article s w = Ok a -> (a = true -> e_ns e = NS_C) ->
  write_body_t rect w true true (s, l) = (Ok tt, (s', l')) ->
  exists A' B' l2, A ++ B = A' ++ B' /\ (forall c, In c A' -> url_lt (snd c) e) /\ (forall c, In c B' -> url_lt e (snd c)) /\
    let j := zlen A' in
    let U := if negb (ueqb (full_url e0) (full_url e)) && negb (i =? j) then redirects_to i (map snd cells) else [] in
    let g := moved_cell i j (full_url e) U in
    l' = l ++ l2 ++ [Wrote (bumped j e) (Some e0) false] /\
    carries [full_url e] (map snd (A ++ B)) l2 (map snd (map g (A ++ B))).
Proof.
  intros w s A p0 e0 B a l s' l' e i cells C Hcomp Ht Hn Hou Hself Hs Hk Hmv Hf Hown Hz0 Har HaC H.
  assert (Hz : znth cells i = Some (p0, e0)) by apply znth_mid.
  assert (Hi : 0 <= i < zlen cells) by (eapply znth_some; eauto).
  assert (Hcov : forall t, z_etpl s = Some t -> In i (pl_ptrs t)) by (intros t Htt; apply (Hcomp t Htt); exact Hi).
  destruct (find_old_found s cells i (p0, e0) w C Hz Hou Hcov) as (et & at_ & Hfo & Pe & Pa). cbn [fst snd] in Hfo.
  destruct (storable_span e Hs) as [Hsz Hpos].
  destruct (stage2_ok s A p0 e0 B e et at_ C Hs Hk) as (off & f1 & al & H2 & St & FS & FU & Ca & En & Us & Ap & K1 & Hu & Hnew & L1).
  fold i in H2. set (s1 := set_file f1 (set_alloc al s)) in *.
  destruct (drop_etitle_ok s1 et i (map snd cells)) as (et' & De & Re & Me).
  { intros t Htt. cbn in Htt. split; [apply (co_etpl _ _ C); exact Htt|]. split; [apply (co_mut_e _ _ C); exact Htt|apply Pe; exact Htt]. }
  change (z_etpl s1) with (z_etpl s) in Re.
  destruct (drop_atitle_ok (set_etpl et' s1) at_ i (map snd cells)) as (at' & Da & Ra & Ma).
  { apply (co_atpl _ _ C). } { apply (co_mut_a _ _ C). } { exact Pa. }
  change (z_atpl (set_etpl et' s1)) with (z_atpl s) in Ra.
  set (s3 := set_atpl at' (set_etpl et' s1)) in *.
  assert (LAB : zlen cells = zlen (A ++ B) + 1) by (unfold cells; rewrite !zlen_app, zlen_cons; lia).
  pose proof (rem_ok rec1 (fun w => rec w true) s s3 A (p0, e0) B true (fun w => eq_refl) Hn C Hcomp Ht Hz0 eq_refl FS FU Ca En Ra Ma Re Me (or_introl eq_refl)) as Hrem.
  cbv zeta in Hrem. fold i in Hrem. set (sh0 := shift_cell i (-1) []) in *.
  set (uc := negb (ueqb (full_url e0) (full_url e))) in *.
  assert (Huc : uc || negb (span e0 =? span e) = true).
  { unfold uc. destruct (ueqb (full_url e0) (full_url e)) eqn:Eq; [|reflexivity]. apply ueqb_eq in Eq. destruct Hmv as [Hmv|Hmv]; [congruence|]. cbn. lia. }
  set (tu := if uc then redirects_to i (map snd cells) else []).
  pose proof (core_nth _ _ _ _ C Hz) as St0. cbn [fst snd] in St0.
  assert (Hw : write_begin w true s = (Ok (a, Some (mkOld i p0 (span e0) et at_), Some e0, tu, off, true), s3)).
  { unfold write_begin. fold e.
    rewrite (mbind_ok _ _ _ a s) by (apply query_ok; exact Har).
    rewrite (mbind_ok _ _ _ (span e) s) by (apply query_ok; exact Hsz).
    rewrite (mbind_ok _ _ _ (Some (mkOld i p0 (span e0) et at_)) s) by (apply query_ok; exact Hfo).
    rewrite (mbind_ok _ _ _ (Some e0) s) by (apply query_ok; cbn [o_offset]; rewrite (stored_read _ _ _ St0); reflexivity).
    cbv beta iota zeta. cbn [o_index o_etitle o_atitle option_map]. rewrite Hou. fold uc.
    rewrite (mbind_ok _ _ _ tu s).
    2: { apply query_ok. cbn [andb]. unfold tu. destruct uc; [|reflexivity]. rewrite (iter_entries_ok _ _ C). reflexivity. }
    unfold stage2 in H2. apply mbind_inv in H2 as ([] & sa & Ha1 & H2). apply mbind_inv in H2 as (off' & sb & Hb1 & H2).
    apply mbind_inv in H2 as ([] & sc & Hc1 & H2). unfold ret in H2. injection H2 as -> ->.
    rewrite (mbind_ok _ _ _ tt sa) by exact Ha1.
    rewrite (mbind_ok _ _ _ off sb). 2: { rewrite <- Hb1. cbn [o_size o_offset]. destruct (negb (span e0 =? span e)); reflexivity. }
    rewrite (mbind_ok _ _ _ tt s1) by exact Hc1.
    rewrite (mbind_ok _ _ _ tt (set_etpl et' s1)) by exact De.
    rewrite (mbind_ok _ _ _ tt s3) by exact Da.
    cbn [o_size]. rewrite Huc. reflexivity. }
  assert (Hbnd : forall d r, In d (A ++ B) -> e_kind (snd d) = Redirect r -> touched i [] (snd d) = true -> 0 <= r + -1 < zlen (A ++ B)).
  { intros d r Hd Hr T. pose proof (Ht d r Hd Hr). unfold touched in T. rewrite Hr in T. apply andb_prop in T as [_ T].
    assert (r <> 0). { intros ->. specialize (Hz0 d Hd Hr). lia. } lia. }
  assert (HstAB : forall d, In d (A ++ B) -> entry_storable (snd d) /\ kind_consistent (snd d)).
  { intros d Hd. rewrite Forall_forall in FS. destruct (FS d Hd) as (_ & H1 & H3 & _). auto. }
  assert (Occ : forall d x, In d (A ++ B) -> occupies (sh0 d) x <-> occupies d x).
  { intros d x Hd. unfold occupies, sh0, shift_cell. cbn [fst snd]. rewrite shift_span; [tauto|apply HstAB; exact Hd|].
    intros r T Hr. pose proof (Hbnd d r Hd Hr T). lia. }
  (* the run *)
  unfold write_body_t in H. apply mbind_inv in H as (x & [sx lx] & H1 & H). apply quiet_inv in H1 as [H1 E1]. cbn [fst snd] in H1, E1. subst lx.
  rewrite Hw in H1. injection H1 as <- <-.
  apply mbind_inv in H as ([] & [s4 l4] & H4 & H). cbn [o_index] in H4.
  assert (Hremt : erases (let* _ := quiet (drop_pointer i) in update_url_pointers_t (fun w => rect w true) i (-1) true []) (Verif.ArchiveWriteProofs.rem (fun w => rec w true) i true)).
  { unfold Verif.ArchiveWriteProofs.rem. apply er_bind; [apply er_quiet|]. intros _. apply er_uup. intro. apply Hrec_. }
  destruct (Hremt s3 l) as [lx Ex]. rewrite H4 in Ex. clear Hremt.
  destruct Hrem as [(s4' & W4 & C4 & Hc4 & I4 & M4 & A4 & K4 & L4 & E4 & N4)|(s4' & d & Hd & Hcl & W4)];
    rewrite W4 in Ex; cbn [fst snd] in Ex; [|discriminate]. injection Ex as Ex <-. subst s4'.
  assert (exists l2, l4 = l ++ l2 /\ carries [] (map snd (A ++ B)) l2 (map snd (map sh0 (A ++ B)))) as (l2 & -> & Kr).
  { apply mbind_inv in H4 as ([] & [sq lq] & Q & H4). apply quiet_inv in Q as [Q E]. cbn [fst snd] in Q, E. subst lq.
    destruct (remove_upl s (p0, e0) A B (co_locs _ _ C) (co_mut_u _ _ C)) as (u & Hur & Pu & Mu).
    unfold drop_pointer in Q. rewrite (update_ok _ s3 (set_upl u s3)) in Q.
    2: { change (z_upl s3) with (z_upl s). unfold i. rewrite Hur. reflexivity. }
    injection Q as <-.
    exact (rem_told s (set_upl u s3) A (p0, e0) B true l s4 l4 Hn C Hcomp Ht Hz0 Pu Mu FS FU Ca En Ra Ma Re Me (or_introl eq_refl) H4). }
  assert (St4 : stored (z_file s4) off e).
  { eapply stored_keeps; [exact St|]. eapply keeps_weaken; [exact K4|]. intros x Hx d Hd _ Ho. rewrite Forall_forall in Ap. exact (Ap d Hd x (conj Hx Ho)). }
  assert (Us4 : forall x, occupies (off, e) x -> in_use (z_alloc s4) x) by (intros x Hx; rewrite A4; apply Us; exact Hx).
  assert (Ap4 : Forall (apart (off, e)) (map sh0 (A ++ B))).
  { apply Forall_forall. intros d Hd x [H1 H3]. apply in_map_iff in Hd as (d0 & <- & Hd0). rewrite (Occ d0 x Hd0) in H3.
    rewrite Forall_forall in Ap. exact (Ap d0 Hd0 x (conj H1 H3)). }
  assert (Hf4 : forall d, In d (map sh0 (A ++ B)) -> full_url (snd d) <> full_url e).
  { intros d Hd. apply in_map_iff in Hd as (d0 & <- & Hd0). unfold sh0, shift_cell. cbn [snd]. rewrite shift_full_url. auto. }
  assert (Ht4 : targets_in (zlen (map sh0 (A ++ B))) (map sh0 (A ++ B))).
  { intros d r Hd Hr. apply in_map_iff in Hd as (d0 & <- & Hd0). unfold sh0, shift_cell in Hr. cbn [snd] in Hr. rewrite zlen_map.
    destruct (e_kind (snd d0)) as [cn bn|r0] eqn:Ek; [rewrite (shift_content i (-1) [] _ cn bn Ek), Ek in Hr; discriminate|].
    destruct (shift_kind i (-1) [] (snd d0) r0 Ek) as (r' & Hr' & E). rewrite Hr in Hr'. injection Hr' as <-.
    destruct (touched i [] (snd d0)) eqn:T; [rewrite E; exact (Hbnd d0 r0 Hd0 Ek T)|]. subst r.
    pose proof (Ht d0 r0 Hd0 Ek) as Hr0. unfold touched in T. rewrite Ek, (kind_redirect _ _ (proj2 (HstAB d0 Hd0)) Ek) in T.
    cbn [umem existsb negb andb] in T. lia. }
  assert (Hc4' : etitles_complete s4 (zlen (map sh0 (A ++ B)))) by (rewrite zlen_map; exact Hc4).
  assert (Hn4 : zlen (map sh0 (A ++ B)) + 1 < 2 ^ 32) by (rewrite zlen_map; lia).
  assert (Hown4 : forall r, e_kind e = Redirect r -> 0 <= r < zlen (map sh0 (A ++ B))) by (intros r Hr; rewrite zlen_map; specialize (Hown r Hr); lia).
  apply mbind_inv in H as ([ni e'] & [s5 l5] & H5 & H). fold e in H5. fold (ins_t off e) in H5.
  destruct (ins_told s4 (map sh0 (A ++ B)) off e _ ni e' s5 l5 Hn4 C4 St4 Us4 Ap4 Hf4 Hc4' Ht4 H5) as (l3 & -> & Ki).
  assert (Hins : erases (ins_t off e) (ins rec off e)).
  { unfold ins_t, ins. apply er_bind; [apply er_quiet|]. intro k. apply er_bind; [apply er_uup; intro; apply Hrec_|]. intros _. apply er_quiet. }
  destruct (Hins s4 (l ++ l2)) as [lx Ex]. rewrite H5 in Ex. clear Hins.
  destruct (ins_ok rec s4 (map sh0 (A ++ B)) off e Hrec_body Hn4 C4 St4 Us4 Ap4 Hf4 Hc4' Ht4 Hown4) as (A1 & B1 & EC & Hord & Hout).
  cbv zeta in Hout.
  destruct (split_map _ _ _ _ EC) as (A' & B' & EAB & EA1 & EB1).
  assert (Hlen : zlen A1 = zlen A') by (rewrite <- EA1; apply zlen_map).
  assert (HltA : (forall c, In c A' -> url_lt (snd c) e) /\ (forall c, In c B' -> url_lt e (snd c))).
  { destruct Hord as [H1 H3]. split; intros c Hc.
    - specialize (H1 (sh0 c)). rewrite <- EA1 in H1. specialize (H1 (in_map sh0 _ _ Hc)).
      unfold url_lt, sh0, shift_cell in H1. cbn [snd] in H1. rewrite shift_full_url in H1. exact H1.
    - specialize (H3 (sh0 c)). rewrite <- EB1 in H3. specialize (H3 (in_map sh0 _ _ Hc)).
      unfold url_lt, sh0, shift_cell in H3. cbn [snd] in H3. rewrite shift_full_url in H3. exact H3. }
  rewrite Hlen in Hout. set (j := zlen A') in *. set (sh1 := shift_cell j 1 [full_url e]) in *.
  destruct Hout as [(s5' & W5 & C5 & M5 & A5 & K5 & L5 & R5 & I5 & N5)|(s5' & d & Hd & [T Hcl] & W5)];
    rewrite W5 in Ex; cbn [fst snd] in Ex; [|discriminate]. injection Ex as -> -> <- <-. set (e' := bumped j e) in *.
  set (cells5 := map sh1 A1 ++ (off, e') :: map sh1 B1) in *.
  assert (Lz : zlen (map sh1 A1) = j) by (rewrite zlen_map; exact Hlen).
  assert (L5c : zlen cells5 = zlen cells).
  { unfold cells5. rewrite LAB. rewrite zlen_app, zlen_cons, !zlen_map, <- EA1, <- EB1, !zlen_map, EAB, zlen_app. lia. }
  assert (Hz5 : znth (map snd cells5) j = Some e').
  { unfold cells5. rewrite map_mid. rewrite <- Lz, <- (zlen_map (@snd Z entry)). apply znth_mid. }
  assert (Na : ~ In j (pl_ptrs (z_atpl s5))).
  { intro Hj. apply I5 in Hj as (k & _ & Hk'). symmetry in Hk'. exact (shift_up_ne _ _ Hk'). }
  assert (Ne : forall t, z_etpl s5 = Some t -> ~ In j (pl_ptrs t)).
  { intros t Ht' Hj. rewrite Ht' in R5. destruct (z_etpl s4); cbn [etpl_rel] in R5; [|contradiction].
    apply R5 in Hj as (k & _ & Hk'). symmetry in Hk'. exact (shift_up_ne _ _ Hk'). }
  destruct (add_titles_ok s5 cells5 j e' a C5 Hz5 Ne Na) as (s6 & Ad & C6 & U6 & M6 & A6 & F6 & R6 & P6).
  { intro. unfold e'. rewrite (proj2 (bumped_title j e)). auto. }
  assert (Hc6 : etitles_complete s6 (zlen cells)).
  { intros t Ht' k Hk'. rewrite Ht' in R6. destruct (z_etpl s5) as [t5|] eqn:E5; cbn [etpl_rel] in R6; [|contradiction].
    apply (Permutation_in _ (Permutation_sym R6)). destruct (Z.eq_dec k j) as [->|Hne]; [left; reflexivity|right].
    destruct (z_etpl s4) as [t4|] eqn:E4'; cbn [etpl_rel] in R5; [|contradiction].
    apply R5. exists (shift_ptr j (-1) k). rewrite shift_up_down by exact Hne. split; [|reflexivity].
    apply (Hc4 t4 E4'). assert (0 <= j <= zlen (A ++ B)) by (unfold j; rewrite EAB, zlen_app; pose proof (zlen_nonneg A'); pose proof (zlen_nonneg B'); lia).
    unfold shift_ptr. destruct (Z.leb_spec j k); lia. }
  set (U := if uc && negb (i =? j) then redirects_to i (map snd cells) else []).
  assert (HU : forall u, In u U -> exists d0, In d0 (A ++ B) /\ full_url (snd d0) = u /\ is_redirect (snd d0) = true /\ e_kind (snd d0) = Redirect i).
  { intros u Hu'. unfold U in Hu'. destruct (uc && negb (i =? j)); [|contradiction]. apply in_redirects_to in Hu' as (d & Hd & E1 & E2 & E3).
    apply in_map_iff in Hd as (d0 & <- & Hd0). unfold cells in Hd0. apply in_app_or in Hd0. destruct Hd0 as [Hd0|[<-|Hd0]].
    - exists d0. split; [apply in_or_app; auto|auto].
    - cbn [snd] in E3. contradiction.
    - exists d0. split; [apply in_or_app; auto|auto]. }
  assert (HnU : ~ In (full_url e) U).
  { intro E. apply HU in E as (d0 & Hd0 & E1 & _). exact (Hf d0 Hd0 E1). }
  assert (Hin5 : forall d0, In d0 (A ++ B) -> In (sh1 (sh0 d0)) cells5).
  { intros d0 Hd0. rewrite EAB in Hd0. apply in_app_or in Hd0. unfold cells5. apply in_or_app. rewrite <- EA1, <- EB1.
    destruct Hd0 as [Hd0|Hd0]; [left|right; right]; apply in_map; apply in_map; exact Hd0. }
  assert (Hsh_url : forall d0, full_url (snd (sh1 (sh0 d0))) = full_url (snd d0)).
  { intro d0. unfold sh1, sh0, shift_cell. cbn [snd]. rewrite !shift_full_url. reflexivity. }
  apply mbind_inv in H as ([] & [sy ly] & H6 & H). apply quiet_inv in H6 as [H6 E6]. cbn [fst snd] in H6, E6. subst ly.
  rewrite Ad in H6. injection H6 as <-.
  apply mbind_inv in H as ([] & [s7 l7] & H7 & H). cbn [option_map opt_eqb o_index] in H7.
  assert (exists l8, l7 = ((l ++ l2) ++ l3) ++ l8 /\ carries [full_url e] (map snd cells5) l8 (map snd (map (retarget_cell U j) cells5))) as (l8 & -> & Kt).
  { destruct (Z.eqb_spec i j) as [Eij|Eij].
    - unfold ret in H7. injection H7 as <- <-. exists []. rewrite app_nil_r. split; [reflexivity|]. unfold U. rewrite andb_false_r.
      replace (map (retarget_cell [] j) cells5) with cells5; [apply carries_nil|]. symmetry. erewrite map_ext; [apply map_id|]. intro. reflexivity.
    - assert (EU : U = tu) by (unfold U, tu; destruct uc; reflexivity). rewrite EU in *.
      eapply (retarget_told rect1 rec1 Hrec1 (fun w => rect w false) j [full_url e] (fun w => eq_refl) tu s6 cells5); [exact C6|lia| | | | |exact H7].
      + apply znth_some in Hz5. rewrite zlen_map in Hz5. exact Hz5.
      + rewrite L5c. exact Hc6.
      + intros u Hu'. destruct (HU u Hu') as (d0 & Hd0 & E1 & _ & E3).
        destruct (shift_kind i (-1) [] _ _ E3) as (r1 & Er1 & _). destruct (shift_kind j 1 [full_url e] _ _ Er1) as (r2 & Er2 & _).
        exists (sh1 (sh0 d0)), r2. split; [apply Hin5; exact Hd0|]. split; [rewrite Hsh_url; exact E1|exact Er2].
      + intros u Hu' [E|[]]. subst u. exact (HnU Hu'). }
  apply mbind_inv in H as ([] & [s8 l9] & H8 & H). unfold tell in H8. injection H8 as <- <-.
  apply quiet_inv in H as [_ E]. cbn [snd] in E. subst l'.
  exists A', B', (l2 ++ l3 ++ l8). split; [exact EAB|]. split; [apply HltA|]. split; [apply HltA|]. cbv zeta. fold j. fold i. fold uc. fold U.
  split; [rewrite <- !app_assoc; reflexivity|].
  assert (Hnot : ~ In (full_url e) (urls (map snd (A ++ B)))).
  { intro Hin. unfold urls in Hin. rewrite map_map in Hin. apply in_map_iff in Hin as (d & E & Hd). exact (Hf d Hd E). }
  eapply carries_app; [apply carries_weaken; [exact Hnot|exact Kr]| |].
  2: { intros u. unfold sh0. rewrite urls_shift. auto. }
  eapply carries_app; [exact Ki| |].
  2: { intros u. fold sh1. unfold sh1. rewrite urls_shift. auto. }
  fold sh1.
  assert (Kt2 : carries [full_url e] (map snd (map sh1 A1 ++ map sh1 B1)) l8 (map snd (map (retarget_cell U j) (map sh1 A1 ++ map sh1 B1)))).
  { unfold cells5 in Kt. rewrite (map_mid (retarget_cell U j)) in Kt. rewrite !(map_app snd) in Kt. cbn [map snd] in Kt.
    rewrite (map_app (retarget_cell U j)), !(map_app snd).
    assert (Ee' : full_url e' = full_url e) by (unfold e'; apply bumped_full_url). rewrite <- Ee' in Kt |- *.
    eapply carries_restrict; [|exact Kt]. unfold retarget_cell. cbn [snd]. destruct (umem (full_url e') U); reflexivity. }
  rewrite EC, map_app. rewrite <- EA1, <- EB1 in Kt2 |- *. rewrite EAB. rewrite <- !map_app in Kt2. rewrite <- !map_app.
  replace (map (moved_cell i j (full_url e) U) (A' ++ B')) with (map (retarget_cell U j) (map sh1 (map sh0 (A' ++ B')))) by (rewrite !map_map; reflexivity).
  exact Kt2.
Qed.

(** *** Removing *)
Lemma detach_told : forall rct s A p0 e0 B RS l s' l', let i := zlen A in let cells := A ++ (p0, e0) :: B in
  zlen cells < 2 ^ 32 -> core s cells -> etitles_complete s (zlen cells) -> targets_in (zlen cells) (A ++ B) ->
  (forall d, In d (A ++ B) -> e_kind (snd d) = Redirect 0 -> 0 < i) -> removable_redirects s i (map snd cells) = Ok RS ->
  (In i (pl_ptrs (z_atpl s)) \/ forall j, In j (pl_ptrs (z_atpl s)) -> j < i) ->
  remove_body_t keep_blob (fun w => rect w true) rct (full_url e0) (s, l) = (Ok tt, (s', l')) ->
  exists l2 a s6 l7, l' = l7 ++ [Removed (full_url e0) e0 a] /\
    fold_left (fun m u => let* _ := m in rct u) RS (ret tt) (s6, l ++ l2) = (Ok tt, (s', l7)) /\
    (forall rc, remove_body keep_blob (fun w => rec w true) rc (full_url e0) s = remove_all rc RS s6) /\
    carries [] (map snd (A ++ B)) l2 (map snd (map (shift_cell i (-1) []) (A ++ B))).
Proof.
  intros rct s A p0 e0 B RS l s' l' i cells Hn C Hcomp Ht Hz0 HT Hart H.
  assert (Hz : znth cells i = Some (p0, e0)) by apply znth_mid.
  assert (Hi : 0 <= i < zlen cells) by (eapply znth_some; eauto).
  pose proof (core_nth _ _ _ _ C Hz) as St. cbn [fst snd] in St. pose proof St as (Hp0 & Hs0 & Hk0 & _).
  destruct (storable_span e0 Hs0) as [Hsz0 Hpos0].
  assert (exists a, (if ueqb (e_ns e0) NS_C then entry_at_url_is_article s (full_url e0) else Ok false) = Ok a /\ (a = true <-> In i (pl_ptrs (z_atpl s)))) as (a & Ha & Hai).
  { destruct (ueqb (e_ns e0) NS_C) eqn:En.
    - apply ueqb_eq in En. exact (entry_at_url_article s cells i (p0, e0) C Hz En).
    - exists false. split; [reflexivity|]. split; [discriminate|]. intro Hin. exfalso.
      assert (e_ns e0 = NS_C) by (eapply (co_articles _ _ C); [exact Hin|rewrite znth_map, Hz; reflexivity]).
      rewrite H0 in En. discriminate. }
  set (ka := if a then match get_by_pointer (pl_ptrs (z_atpl s)) i with Ok k => Some k | Err _ => None end else None).
  assert (Pa : is_position ka (pl_ptrs (z_atpl s)) i /\ (a = true -> exists k, get_by_pointer (pl_ptrs (z_atpl s)) i = Ok k /\ ka = Some k)).
  { unfold ka. destruct a.
    - pose proof (get_by_pointer_spec (pl_ptrs (z_atpl s)) i) as G. destruct (get_by_pointer (pl_ptrs (z_atpl s)) i) as [k|x] eqn:E.
      + split; [exact E|eauto].
      + destruct G as [_ G]. exfalso. apply G. apply Hai. reflexivity.
    - split; [|discriminate]. intro Hin. apply Hai in Hin. discriminate. }
  destruct Pa as [Pa Hka].
  destruct (drop_atitle_ok s ka i (map snd cells) (co_atpl _ _ C) (co_mut_a _ _ C) Pa) as (at' & Da & Ra & Ma).
  set (s1 := set_atpl at' s) in *.
  assert (Hstep1 : (if a then let* k := query (fun s => get_by_pointer (pl_ptrs (z_atpl s)) i) in drop_atitle (Some k) else ret tt) s = (Ok tt, s1)).
  { destruct a.
    - destruct (Hka eq_refl) as (k & Ek & Ek'). rewrite (mbind_ok _ _ _ k s) by (apply query_ok; exact Ek). rewrite <- Ek'. exact Da.
    - unfold ka, drop_atitle, update in Da. injection Da as Da. unfold ret. rewrite <- Da. reflexivity. }
  assert (exists et' s2, (match z_etpl s1 with
                      | None => (Ok tt, s1)
                      | Some t => (let* k := query (fun _ => get_by_pointer (pl_ptrs t) i) in drop_etitle (Some k)) s1
                      end) = (Ok tt, s2) /\ s2 = set_etpl et' s1 /\ etpl_rel (minus i) (z_etpl s) et' /\ (forall t, et' = Some t -> pl_mutable t = true))
    as (et' & s2 & Hstep2 & Es2 & Re & Me).
  { change (z_etpl s1) with (z_etpl s). destruct (z_etpl s) as [t|] eqn:Et.
    - pose proof (get_by_pointer_spec (pl_ptrs t) i) as G. destruct (get_by_pointer (pl_ptrs t) i) as [k|x] eqn:E.
      + destruct (drop_etitle_ok s1 (Some k) i (map snd cells)) as (et' & De & Re & Me).
        { intros t' Ht'. cbn in Ht'. rewrite Et in Ht'. injection Ht' as <-. split; [apply (co_etpl _ _ C); exact Et|]. split; [apply (co_mut_e _ _ C); exact Et|exact E]. }
        change (z_etpl s1) with (z_etpl s) in Re. rewrite Et in Re. exists et', (set_etpl et' s1). split; [|auto].
        rewrite (mbind_ok _ _ _ k s1) by reflexivity. exact De.
      + destruct G as [_ G]. exfalso. apply G. apply (Hcomp t Et). exact Hi.
    - exists None, s1. split; [reflexivity|]. split; [|split; [exact I|discriminate]]. rewrite <- Et. unfold s1. destruct s; reflexivity. }
  pose proof (co_stored _ _ C) as F. apply Forall_mid in F as (F1 & F2 & F3).
  pose proof (co_used _ _ C) as U. apply Forall_mid in U as (U1 & U2 & U3).
  set (m' := if opt_eqb (z_main s) (Some i) then None else z_main s).
  destruct (remove_upl s (p0, e0) A B (co_locs _ _ C) (co_mut_u _ _ C)) as (u & Hu & Pu & Mu).
  set (s4 := set_main m' (set_upl u s2)).
  assert (Hw : remove_begin keep_blob (full_url e0) s = (Ok (i, p0, e0, span e0, RS, a), s4)).
  { unfold remove_begin.
    rewrite (mbind_ok _ _ _ i s).
    2: { apply query_ok. change (full_url e0) with (full_url (snd (p0, e0))). rewrite (url_index_found _ _ _ _ C Hz). reflexivity. }
    rewrite (mbind_ok _ _ _ p0 s) by (apply query_ok; exact (by_index_ok _ _ _ _ C Hz)).
    rewrite (mbind_ok _ _ _ e0 s) by (apply query_ok; apply stored_read; exact St).
    rewrite (mbind_ok _ _ _ (span e0) s) by (apply query_ok; exact Hsz0).
    rewrite (mbind_ok _ _ _ tt s) by (destruct (is_redirect e0); reflexivity).
    rewrite (mbind_ok _ _ _ RS s) by (apply query_ok; rewrite (iter_entries_ok _ _ C); cbn [bind]; exact HT).
    rewrite (mbind_ok _ _ _ a s) by (apply query_ok; exact Ha).
    rewrite (mbind_ok _ _ _ tt s1) by exact Hstep1.
    rewrite (mbind_ok _ _ _ tt s2) by exact Hstep2.
    rewrite (mbind_ok _ _ _ tt (set_upl u s2)).
    2: { unfold drop_pointer. apply update_ok. rewrite Es2. cbn [z_upl set_etpl s1 set_atpl]. unfold i. rewrite Hu. reflexivity. }
    rewrite (mbind_ok _ _ _ tt s4); [reflexivity|].
    apply update_ok. unfold s4, m'. rewrite Es2. cbn [z_main set_upl set_etpl s1 set_atpl]. destruct (opt_eqb (z_main s) (Some i)); reflexivity. }
  assert (Hed : a = true \/ forall j, In j (pl_ptrs at') -> j < i).
  { destruct Hart as [Hart|Hart]; [left; apply Hai; exact Hart|]. right. intros j Hj. apply Hart. apply Ra in Hj. tauto. }
  unfold remove_body_t in H. apply mbind_inv in H as (x & [sx lx] & H1 & H). apply quiet_inv in H1 as [H1 E1]. cbn [fst snd] in H1, E1. subst lx.
  rewrite Hw in H1. injection H1 as <- <-.
  apply mbind_inv in H as ([] & [s5 l5] & H5 & H).
  assert (Es4 : z_upl s4 = u /\ z_file s4 = z_file s /\ z_alloc s4 = z_alloc s /\ z_atpl s4 = at' /\ z_etpl s4 = et').
  { unfold s4. subst s2. repeat split. }
  destruct Es4 as (Eu4 & Ef4 & Ea4 & Et4 & Ee4).
  pose proof (rem_told s s4 A (p0, e0) B a l s5 l5 Hn C Hcomp Ht Hz0) as Hr. rewrite Eu4, Ef4, Ea4, Et4, Ee4 in Hr.
  destruct (Hr Pu Mu (proj2 (Forall_app _ _ _) (conj F1 F3)) (proj2 (Forall_app _ _ _) (conj U1 U3)) (co_canonical _ _ C) (co_end _ _ C) Ra Ma Re Me Hed H5) as (l2 & -> & K).
  apply mbind_inv in H as ([] & [s6 l6] & H6 & H). apply quiet_inv in H6 as [H6 E6]. cbn [fst snd] in H6, E6. subst l6.
  apply mbind_inv in H as ([] & [s7 l7] & H7 & H). unfold tell in H. injection H as <- <-.
  exists l2, a, s6, l7. split; [reflexivity|]. split; [exact H7|]. split; [|exact K].
  intro rc. rewrite remove_split. rewrite (mbind_ok _ _ _ _ _ Hw). unfold remove_rest.
  destruct (er_uup (fun w => rect w true) (fun w => rec w true) i (-1) a [] (fun w => Hrec_ w true) s4 l) as [lx Ex]. rewrite H5 in Ex. destruct (update_url_pointers _ i (-1) a [] s4) as [r sx] eqn:Eu. cbn [fst snd] in Ex. injection Ex as <- <- _.
  rewrite (mbind_ok _ _ _ _ _ Eu). rewrite (mbind_ok _ _ _ _ _ H6). reflexivity.
Qed.
End Told.

(** ** Whole changes *)
Definition shows (m : picture) (L : list entry) : Prop :=
  (forall e, In e L -> m (full_url e) = Some e) /\ (forall u, ~ In u (urls L) -> m u = None).

Lemma shows_core : forall s cells, core s cells -> shows (looked_up s) (map snd cells).
Proof.
  intros s cells C. split.
  - intros e He. apply in_map_iff in He as (c & <- & Hc). apply in_znth in Hc as [k Hk]. unfold looked_up. rewrite (lookup_found _ _ _ _ C Hk). reflexivity.
  - intros u Hu. unfold looked_up. destruct (utf8_encode u) as [b|] eqn:E.
    + rewrite (lookup_missing _ _ _ _ C E); [reflexivity|]. intros c Hc Hc'. apply Hu. unfold urls. rewrite map_map. apply in_map_iff. eauto.
    + rewrite lookup_unencodable by exact E. reflexivity.
Qed.
Lemma shows_same : forall m m' L, shows m L -> shows m' L -> forall u, m u = m' u.
Proof.
  intros m m' L [H1 H2] [H3 H4] u. destruct (in_dec (list_eq_dec Z.eq_dec) u (urls L)) as [Hin|Hout].
  - apply in_map_iff in Hin as (e & <- & He). rewrite H1, H3 by exact He. reflexivity.
  - rewrite H2, H4 by exact Hout. reflexivity.
Qed.
Lemma shows_ext : forall m m' L, (forall u, m u = m' u) -> shows m L -> shows m' L.
Proof. intros m m' L E [H1 H2]. split; intros; rewrite <- E; auto. Qed.

Lemma urls_app : forall A B, urls (A ++ B) = urls A ++ urls B.
Proof. intros. apply map_app. Qed.

(** A write of [e'], whose old version is [o], after the notices [l]. *)
Lemma shows_wrote : forall m A o B L0 l L3 A' e' B' b u,
  (match o with Some e0 => shows m (A ++ e0 :: B) /\ ~ In (full_url e0) (urls L0) /\ b = false /\ (u = full_url e0 \/ ~ In u (urls (A ++ e0 :: B)))
           | None => shows m (A ++ B) /\ b = true /\ ~ In u (urls (A ++ B)) end) ->
  L0 = A ++ B -> carries [u] L0 l L3 -> urls L3 = urls L0 -> full_url e' = u -> L3 = A' ++ B' -> ~ In u (urls L0) ->
  all_true m (l ++ [Wrote e' o b]) /\ shows (hear_all m (l ++ [Wrote e' o b])) (A' ++ e' :: B').
Proof.
  intros m A o B L0 l L3 A' e' B' b u Ho EL0 K Eu Ee EL3 Hu.
  assert (Hm : agrees [u] m L0).
  { intros d Hd _. destruct o as [e0|]; destruct Ho as [[H1 _] _]; apply H1; rewrite EL0 in Hd; [|exact Hd].
    apply in_app_or in Hd. apply in_or_app. destruct Hd; [left|right; right]; assumption. }
  destruct (K m Hm) as (T & G & U).
  assert (Hmu : hear_all m l u = m u) by (apply U; left; left; reflexivity).
  rewrite all_true_app, hear_all_app. split.
  - split; [exact T|]. cbn [all_true]. split; [|exact Logic.I]. cbn [true_notice]. destruct o as [e0|].
    + destruct Ho as ([H1 H2] & Hn & Hb & Hf). split; [exact Hb|]. rewrite Ee. split.
      * rewrite U by (right; exact Hn). apply H1. apply in_or_app. right. left. reflexivity.
      * destruct Hf as [Hf|Hf]; [left; exact Hf|]. right. rewrite Hmu. apply H2. exact Hf.
    + destruct Ho as ([H1 H2] & Hb & Hf). split; [exact Hb|]. rewrite Ee, Hmu. apply H2. exact Hf.
  - cbn [hear_all fold_left]. split.
    + intros d Hd. unfold hear. rewrite Ee.
      destruct (ueqb (full_url d) u) eqn:Ed.
      * apply ueqb_eq in Ed. assert (d = e'); [|congruence].
        apply in_app_or in Hd. assert (Hd' : d = e' \/ In d L3) by (rewrite EL3; destruct Hd as [Hd|[ <- |Hd]]; [right; apply in_or_app; auto|auto|right; apply in_or_app; auto]).
        destruct Hd' as [Hd'|Hd']; [exact Hd'|]. exfalso. apply Hu. rewrite <- Eu, <- Ed. apply in_map. exact Hd'.
      * assert (Hd' : In d L3). { rewrite EL3. apply in_app_or in Hd. apply in_or_app. destruct Hd as [Hd|[ <- |Hd]]; [auto| |auto]. rewrite Ee, ueqb_refl in Ed. discriminate. }
        assert (Hg : hear_all m l (full_url d) = Some d).
        { apply G; [exact Hd'|]. intros [E|[]]. rewrite <- E, ueqb_refl in Ed. discriminate. }
        destruct o as [e0|]; [|exact Hg]. rewrite ueqb_neq; [exact Hg|]. intro E. destruct Ho as (_ & Hn & _). apply Hn. rewrite <- E, <- Eu. apply in_map. exact Hd'.
    + intros v Hv. unfold hear. rewrite Ee. rewrite urls_app in Hv. cbn [urls map] in Hv.
      assert (v <> u). { intros ->. apply Hv. apply in_or_app. right. left. exact Ee. }
      rewrite ueqb_neq by assumption.
      assert (Hv0 : ~ In v (urls L0)). { rewrite <- Eu, EL3, urls_app. intro Hin. apply Hv. apply in_app_or in Hin. apply in_or_app. destruct Hin; [left|right; right]; assumption. }
      assert (Hmv : hear_all m l v = m v) by (apply U; right; exact Hv0).
      destruct o as [e0|].
      * destruct (ueqb v (full_url e0)) eqn:E; [reflexivity|]. destruct Ho as ([_ H2] & _). rewrite Hmv. apply H2. rewrite urls_app. cbn [urls map].
        intro Hin. apply in_app_or in Hin. apply Hv0. rewrite EL0, urls_app. apply in_or_app. destruct Hin as [Hin|[Hin|Hin]]; [auto| |auto].
        rewrite Hin, ueqb_refl in E. discriminate.
      * destruct Ho as ([_ H2] & _). rewrite Hmv. apply H2. rewrite <- EL0. exact Hv0.
Qed.
Definition told (s : zim) (L : list entry) (l : list notice) (s' : zim) : Prop :=
  forall m, shows m L -> all_true m l /\ (forall u, hear_all m l u = looked_up s' u).

Lemma add_told : forall n s L w l s' l', consistent s L -> addable L w -> write_entry_t (S (S n)) w (s, l) = (Ok tt, (s', l')) ->
  exists l2 x, l' = l ++ l2 ++ [x] /\ announces (Write w) x /\ told s L (l2 ++ [x]) s'.
Proof.
  intros n s L w l s' l' CS AD H. destruct (addable_article _ _ _ CS AD) as (a & Ha & HaC & _).
  pose proof CS as [(cells & EL & C) Hcomp Htg Hmain Hcnt].
  assert (Ln : zlen cells = zlen L) by (subst L; rewrite zlen_map; reflexivity).
  destruct (ad_enc _ _ AD) as [b Hb].
  assert (Hc1 : etitles_complete s (zlen cells)) by (rewrite Ln; exact Hcomp).
  assert (Ht1 : targets_in (zlen cells) cells) by (intros c r Hc Hr; rewrite Ln; apply (Htg (snd c) r); [subst L; apply in_map; exact Hc|exact Hr]).
  assert (Hn1 : zlen cells + 1 < 2 ^ 32) by (rewrite Ln; apply (ad_count _ _ AD)).
  assert (Hf1 : forall c, In c cells -> full_url (snd c) <> full_url (w_entry w)) by (intros c Hc; apply (ad_url _ _ AD); subst L; apply in_map; exact Hc).
  assert (Ho1 : forall r, e_kind (w_entry w) = Redirect r -> 0 <= r < zlen cells) by (intros r Hr; rewrite Ln; apply (ad_target _ _ AD r Hr)).
  assert (Hfo : find_old s w = Ok None) by (apply (find_old_new s cells w b C Hb); intros c Hc; apply (ad_old _ _ AD); subst L; apply in_map; exact Hc).
  destruct (write_new (fun w u => write_entry_rec (S n) w u true) true w s cells a) as (A & B & off & EC & [HA HB] & Hout); try assumption;
    try apply (ad_storable _ _ AD); try apply (ad_kind _ _ AD).
  { exists (fun w u => write_entry_rec n w u true). intro w'. reflexivity. }
  cbv zeta in Hout. destruct (er_write (S (S n)) w s l) as [lx Ex]. pose proof H as H'. rewrite H in Ex. unfold write_entry in Ex. cbn [write_entry_rec] in Ex.
  destruct Hout as [(s1 & W & C' & _)|(s1 & c & _ & _ & W)]; cbn [write_entry_rec] in W; rewrite W in Ex; cbn [fst snd] in Ex; [|discriminate]. injection Ex as <- _.
  destruct (new_told (fun w u => write_entry_rec_t n w u true) (fun w u => write_entry_rec n w u true) (fun w u => er_write_rec n w u true) w s cells a l s' l') as (A1 & B1 & l2 & EC1 & HA1 & HB1 & -> & K);
    try assumption; try apply (ad_storable _ _ AD); try apply (ad_kind _ _ AD).
  rewrite EC1 in EC. destruct (split_unique A1 B1 A B (w_entry w) EC HA1 HB1 HA HB) as [<- <-]. subst cells.
  do 2 eexists. split; [reflexivity|]. split; [cbn [announces]; apply bumped_full_url|]. intros m Hm. set (e' := bumped (zlen A1) (w_entry w)) in *. set (sh := shift_cell (zlen A1) 1 [full_url (w_entry w)]) in *.
  assert (Hnot : ~ In (full_url (w_entry w)) (urls (map snd (A1 ++ B1)))).
  { intro Hin. unfold urls in Hin. rewrite map_map in Hin. apply in_map_iff in Hin as (d & E & Hd). exact (Hf1 d Hd E). }
  destruct (shows_wrote m (map snd A1) None (map snd B1) (map snd (A1 ++ B1)) l2 (map snd (map sh (A1 ++ B1))) (map snd (map sh A1)) e' (map snd (map sh B1)) true (full_url (w_entry w))) as [T Sh].
  - rewrite <- (map_app snd). rewrite EL. split; [exact Hm|]. split; [reflexivity|]. rewrite <- EL. exact Hnot.
  - apply map_app.
  - exact K.
  - unfold sh. apply urls_shift.
  - apply bumped_full_url.
  - rewrite (map_app sh). apply map_app.
  - exact Hnot.
  - split; [exact T|]. apply (shows_same _ _ _ Sh).
    pose proof (shows_core _ _ C') as Sc. rewrite (map_mid (@snd Z entry)) in Sc. exact Sc.
Qed.
Lemma replace_told : forall n s L i e0 w l s' l', consistent s L -> rewritable s L i e0 w -> stays e0 (w_entry w) ->
  write_entry_t (S (S n)) w (s, l) = (Ok tt, (s', l')) -> exists l2 x, l' = l ++ l2 ++ [x] /\ announces (Write w) x /\ told s L (l2 ++ [x]) s'.
Proof.
  intros n s L i e0 w l s' l' CS RW [Hu Hsp] H. pose proof CS as [(cells & EL & C) Hcomp Htg Hmain Hcnt].
  destruct (rw_article _ _ _ _ _ RW) as (a & Ha & HaC).
  pose proof (rw_at _ _ _ _ _ RW) as Hz. rewrite <- EL, znth_map in Hz. destruct (znth cells i) as [[p e00]|] eqn:Hc; [|discriminate]. cbn in Hz. injection Hz as ->.
  destruct (znth_split _ _ _ Hc) as (A & B & EC & HA). subst cells.
  assert (Hcov : forall t, z_etpl s = Some t -> In (zlen A) (pl_ptrs t)).
  { intros t Ht. apply (Hcomp t Ht). rewrite HA. apply znth_some in Hc. rewrite <- EL, zlen_map. exact Hc. }
  destruct (write_in_place (fun w u => write_entry_rec (S n) w u true) true s A p e0 B w a) as (s1 & W & C' & _); try assumption;
    try apply (rw_old _ _ _ _ _ RW); try apply (rw_storable _ _ _ _ _ RW); try apply (rw_kind _ _ _ _ _ RW).
  { intros r Hr. rewrite <- (zlen_map (@snd Z entry)), EL. apply (rw_target _ _ _ _ _ RW r Hr). }
  destruct (er_write (S (S n)) w s l) as [lx Ex]. rewrite H in Ex. unfold write_entry in Ex. cbn [write_entry_rec] in Ex, W. rewrite W in Ex. cbn [fst snd] in Ex. injection Ex as <- _.
  apply (place_told _ true s A p e0 B w) in H; try assumption; try apply (rw_old _ _ _ _ _ RW); try apply (rw_storable _ _ _ _ _ RW). subst l'.
  exists [], (Wrote (w_entry w) (Some e0) false). split; [reflexivity|]. split; [cbn [announces]; reflexivity|]. intros m Hm.
  pose proof (core_nodup _ _ C) as Nd. rewrite (map_mid (@snd Z entry)) in Nd.
  assert (Hnot : ~ In (full_url e0) (urls (map snd A ++ map snd B))).
  { unfold urls in *. rewrite map_app in *. cbn [map] in Nd. apply NoDup_remove_2 in Nd. exact Nd. }
  destruct (shows_wrote m (map snd A) (Some e0) (map snd B) (map snd A ++ map snd B) [] (map snd A ++ map snd B) (map snd A) (w_entry w) (map snd B) false (full_url e0)) as [T Sh]; try assumption; try reflexivity.
  - replace (map snd A ++ e0 :: map snd B) with L by (rewrite <- EL; apply (map_mid (@snd Z entry))). split; [exact Hm|]. split; [exact Hnot|]. auto.
  - apply carries_nil.
  - split; [exact T|]. apply (shows_same _ _ _ Sh). pose proof (shows_core _ _ C') as Sc. rewrite (map_mid (@snd Z entry)) in Sc. exact Sc.
Qed.
Lemma moving_told : forall n s L i e0 w l s' l', consistent s L -> rewritable s L i e0 w -> ~ stays e0 (w_entry w) -> movable s L i e0 (w_entry w) ->
  write_entry_t (S (S n)) w (s, l) = (Ok tt, (s', l')) -> exists l2 x, l' = l ++ l2 ++ [x] /\ announces (Write w) x /\ told s L (l2 ++ [x]) s'.
Proof.
  intros n s L i e0 w l s' l' CS RW NS MV H. pose proof CS as [(cells & EL & C) Hcomp Htg Hmain Hcnt].
  destruct (rw_article _ _ _ _ _ RW) as (a & Ha & HaC).
  pose proof (rw_at _ _ _ _ _ RW) as HzL. pose proof HzL as Hz. rewrite <- EL, znth_map in Hz. destruct (znth cells i) as [[p e00]|] eqn:Hc; [|discriminate]. cbn in Hz. injection Hz as ->.
  destruct (znth_split _ _ _ Hc) as (A & B & EC & HA). subst cells i.
  assert (Ln : zlen (A ++ (p, e0) :: B) = zlen L) by (subst L; rewrite zlen_map; reflexivity).
  pose proof (core_nodup _ _ C) as Nd. rewrite (map_mid (@snd Z entry)) in Nd.
  assert (Hnot0 : ~ In (full_url e0) (urls (map snd (A ++ B)))).
  { rewrite map_app. unfold urls in *. rewrite map_app in *. cbn [map] in Nd. apply NoDup_remove_2 in Nd. exact Nd. }
  assert (HinL : forall c, In c (A ++ B) -> In (snd c) L).
  { intros c Hc'. rewrite <- EL. apply in_map. apply in_app_or in Hc'. apply in_or_app. destruct Hc'; [auto|right; right; auto]. }
  assert (Hne : forall c, In c (A ++ B) -> full_url (snd c) <> full_url e0).
  { intros c Hc' E. apply Hnot0. rewrite <- E. unfold urls. rewrite map_map. apply (in_map (fun x => full_url (snd x))). exact Hc'. }
  assert (Hfr : forall c, In c (A ++ B) -> full_url (snd c) <> full_url (w_entry w)).
  { intros c Hc'. destruct (rw_url _ _ _ _ _ RW) as [Hu|Hu]; [rewrite Hu; apply Hne; exact Hc'|]. apply Hu. apply HinL. exact Hc'. }
  assert (Hc1 : etitles_complete s (zlen (A ++ (p, e0) :: B))) by (rewrite Ln; exact Hcomp).
  assert (Ht1 : targets_in (zlen (A ++ (p, e0) :: B)) (A ++ B)) by (intros c r Hc' Hr; rewrite Ln; apply (Htg (snd c) r); [apply HinL; exact Hc'|exact Hr]).
  assert (Hn1 : zlen (A ++ (p, e0) :: B) < 2 ^ 32) by (rewrite Ln; exact Hcnt).
  assert (Hmv : full_url (w_entry w) <> full_url e0 \/ span (w_entry w) <> span e0).
  { destruct (list_eq_dec Z.eq_dec (full_url (w_entry w)) (full_url e0)) as [Hu|Hu]; [right|left; exact Hu]. intro Hsp. apply NS. split; assumption. }
  assert (Ho1 : forall r, e_kind (w_entry w) = Redirect r -> 0 <= r < zlen A).
  { intros r Hr. pose proof (rw_target _ _ _ _ _ RW r Hr). pose proof (mv_own _ _ _ _ _ MV r Hr). lia. }
  assert (Hz1 : forall d, In d (A ++ B) -> e_kind (snd d) = Redirect 0 -> 0 < zlen A).
  { intros d Hd Hr. destruct (Z.eq_dec (zlen A) 0) as [E0|]; [|pose proof (zlen_nonneg A); lia]. rewrite E0 in MV.
    destruct (mv_in _ _ _ _ _ MV (snd d) (HinL d Hd)) as [H0 _]; [|exact Hr|lia]. intro E. apply (Hne d Hd). rewrite E. reflexivity. }
  destruct (write_move (fun w u => write_entry_rec (S n) w u true) w s A p e0 B a) as (A' & B' & off & EAB & HA' & HB' & Hout); try assumption;
    try apply (rw_old _ _ _ _ _ RW); try apply (rw_storable _ _ _ _ _ RW); try apply (rw_kind _ _ _ _ _ RW); try apply (mv_self _ _ _ _ _ MV).
  { exists (fun w u => write_entry_rec n w u true). intro w'. reflexivity. }
  { exists (fun w u => write_entry_rec n w u true). intro w'. reflexivity. }
  cbv zeta in Hout. destruct (er_write (S (S n)) w s l) as [lx Ex]. rewrite H in Ex. unfold write_entry in Ex. cbn [write_entry_rec] in Ex.
  destruct Hout as [(s1 & W & C' & _)|(s1 & c & _ & _ & _ & W)]; cbn [write_entry_rec] in W; rewrite W in Ex; cbn [fst snd] in Ex; [|discriminate]. injection Ex as <- _.
  destruct (move_told (fun w u => write_entry_rec_t n w u true) (fun w u => write_entry_rec n w u true) (fun w u => er_write_rec n w u true) w s A p e0 B a l s' l') as (A1 & B1 & l2 & EC1 & HA1 & HB1 & Hl & K);
    try assumption; try apply (rw_old _ _ _ _ _ RW); try apply (rw_storable _ _ _ _ _ RW); try apply (rw_kind _ _ _ _ _ RW); try apply (mv_self _ _ _ _ _ MV).
  assert (A1 = A' /\ B1 = B') as [-> ->] by (apply (split_unique A1 B1 A' B' (w_entry w)); auto; congruence).
  cbv zeta in Hl, K. set (g := moved_cell _ _ _ _) in *. subst l'.
  do 2 eexists. split; [reflexivity|]. split; [cbn [announces]; apply bumped_full_url|]. intros m Hm. set (e' := bumped (zlen A') (w_entry w)) in *.
  assert (Hnot : ~ In (full_url (w_entry w)) (urls (map snd (A ++ B)))).
  { intro Hin. unfold urls in Hin. rewrite map_map in Hin. apply in_map_iff in Hin as (d & E & Hd). exact (Hfr d Hd E). }
  destruct (shows_wrote m (map snd A) (Some e0) (map snd B) (map snd (A ++ B)) l2 (map snd (map g (A ++ B))) (map snd (map g A')) e' (map snd (map g B')) false (full_url (w_entry w))) as [T Sh].
  - replace (map snd A ++ e0 :: map snd B) with L by (rewrite <- EL; apply (map_mid (@snd Z entry))). split; [exact Hm|]. split; [exact Hnot0|]. split; [reflexivity|].
    destruct (rw_url _ _ _ _ _ RW) as [Hu|Hu]; [left; exact Hu|right]. intro Hin. apply in_map_iff in Hin as (d & E & Hd). exact (Hu d Hd E).
  - apply map_app.
  - exact K.
  - unfold g, moved_cell, urls. rewrite !map_map. apply map_ext. intros c. unfold retarget_cell. destruct (umem _ _); unfold shift_cell; cbn [snd].
    + change (full_url (shift_entry (zlen A') 1 [full_url (w_entry w)] (shift_entry (zlen A) (-1) [] (snd c))) = full_url (snd c)). rewrite !shift_full_url. reflexivity.
    + rewrite !shift_full_url. reflexivity.
  - apply bumped_full_url.
  - rewrite EAB, (map_app g). apply map_app.
  - exact Hnot.
  - split; [exact T|]. apply (shows_same _ _ _ Sh).
    pose proof (shows_core _ _ C') as Sc. rewrite (map_mid (@snd Z entry)) in Sc. exact Sc.
Qed.

(** *** Removals *)
(** On the urls of [L] the picture becomes [p]; nothing else changes. *)
Definition takes (L : list entry) (l : list notice) (p : picture) : Prop :=
  forall m, agrees [] m L -> all_true m l /\ (forall v, In v (urls L) -> hear_all m l v = p v) /\ (forall v, ~ In v (urls L) -> hear_all m l v = m v).
Lemma shows_agrees : forall m L, shows m L -> agrees [] m L.
Proof. intros m L [H _] e He _. apply H. exact He. Qed.
Lemma takes_told : forall s L l s', takes L l (looked_up s') -> (forall v, ~ In v (urls L) -> looked_up s' v = None) -> told s L l s'.
Proof.
  intros s L l s' K N m Hm. destruct (K m (shows_agrees _ _ Hm)) as (T & H1 & H2). split; [exact T|]. intro u.
  destruct (in_dec (list_eq_dec Z.eq_dec) u (urls L)) as [I|O]; [apply H1; exact I|]. rewrite H2, N by exact O. apply Hm. exact O.
Qed.
Lemma takes_nil : forall s L, shows (looked_up s) L -> takes L [] (looked_up s).
Proof.
  intros s L [H _] m Hm. split; [exact Logic.I|]. split; [|reflexivity]. intros v Hv. apply in_map_iff in Hv as (e & <- & He). cbn. rewrite H by exact He. apply Hm; [exact He|intros []].
Qed.
Lemma takes_app : forall L l1 p1 L1 l2 p2, takes L l1 p1 -> shows p1 L1 -> incl (urls L1) (urls L) -> takes L1 l2 p2 -> (forall v, ~ In v (urls L1) -> p2 v = None) ->
  takes L (l1 ++ l2) p2.
Proof.
  intros L l1 p1 L1 l2 p2 K1 [S1 S2] I K2 N m Hm. destruct (K1 m Hm) as (T1 & A1 & B1).
  destruct (K2 (hear_all m l1)) as (T2 & A2 & B2).
  { intros e He _. rewrite A1; [apply S1; exact He|]. apply I. apply in_map. exact He. }
  rewrite all_true_app, hear_all_app. split; [split; assumption|]. split.
  - intros v Hv. destruct (in_dec (list_eq_dec Z.eq_dec) v (urls L1)) as [J|O]; [apply A2; exact J|]. rewrite B2, A1, S2, N by assumption. reflexivity.
  - intros v Hv. rewrite B2, B1; [reflexivity|exact Hv|]. intro J. apply Hv. apply I. exact J.
Qed.
(** The entry [e0] goes after the notices [l1] and [l2]. *)
Lemma takes_removed : forall L e0 L0 l1 L1 p1 L1' l2 p2 a,
  (forall e, In e L <-> In e L0 \/ e = e0) -> ~ In (full_url e0) (urls L0) -> carries [] L0 l1 L1 -> urls L1 = urls L0 -> shows p1 L1 -> shows p1 L1' ->
  takes L1' l2 p2 -> (forall v, ~ In v (urls L1') -> p2 v = None) ->
  takes L (l1 ++ l2 ++ [Removed (full_url e0) e0 a]) p2.
Proof.
  intros L e0 L0 l1 L1 p1 L1' l2 p2 a HL N K E [S1 S2] [S3 S4] K2 N2 m Hm.
  assert (HU : forall v, In v (urls L1') <-> In v (urls L0)).
  { intro v. rewrite <- E. split; intro H; apply in_map_iff in H as (e & <- & He).
    - destruct (in_dec (list_eq_dec Z.eq_dec) (full_url e) (urls L1)) as [I|O]; [exact I|]. apply S2 in O. rewrite S3 in O by exact He. discriminate.
    - destruct (in_dec (list_eq_dec Z.eq_dec) (full_url e) (urls L1')) as [I|O]; [exact I|]. apply S4 in O. rewrite S1 in O by exact He. discriminate. }
  destruct (K m) as (T1 & A1 & B1). { intros e He. apply Hm. apply HL. auto. }
  destruct (K2 (hear_all m l1)) as (T2 & A2 & B2).
  { intros e He _. assert (Hu : In (full_url e) (urls L1)) by (rewrite E; apply HU; apply in_map; exact He). apply in_map_iff in Hu as (d & Ed & Hd).
    assert (d = e). { pose proof (S1 d Hd) as Q1. pose proof (S3 e He) as Q2. rewrite Ed in Q1. congruence. } subst d. apply A1; [exact Hd|intros []]. }
  assert (Hk : hear_all (hear_all m l1) l2 (full_url e0) = m (full_url e0)).
  { rewrite B2 by (rewrite HU; exact N). apply B1. right. exact N. }
  rewrite !all_true_app, !hear_all_app. split; [split; [exact T1|split; [exact T2|]]|].
  - cbn [all_true true_notice]. split; [|exact Logic.I]. split; [reflexivity|]. rewrite Hk. apply Hm; [apply HL; auto|intros []].
  - cbn [hear_all fold_left]. split.
    + intros v Hv. unfold hear. destruct (ueqb v (full_url e0)) eqn:Ev.
      * apply ueqb_eq in Ev. subst v. symmetry. apply N2. rewrite HU. exact N.
      * change (hear_all (hear_all m l1) l2 v = p2 v). destruct (in_dec (list_eq_dec Z.eq_dec) v (urls L1')) as [J|O]; [apply A2; exact J|]. exfalso.
        apply O. apply HU. apply in_map_iff in Hv as (e & <- & He). apply HL in He as [He| ->]; [apply in_map; exact He|]. rewrite ueqb_refl in Ev. discriminate.
    + intros v Hv. assert (Hn : ~ In v (urls L0)). { intro J. apply Hv. apply in_map_iff in J as (e & <- & He). apply in_map. apply HL. auto. }
      unfold hear. rewrite ueqb_neq. 2: { intros ->. apply Hv. apply in_map. apply HL. auto. }
      change (hear_all (hear_all m l1) l2 v = m v). rewrite B2 by (rewrite HU; exact Hn). apply B1. right. exact Hn.
Qed.
Lemma shows_consistent : forall s L, consistent s L -> shows (looked_up s) L.
Proof. intros s L [(cells & <- & C) _ _ _ _]. apply shows_core. exact C. Qed.

(** [remove_all] with a processor. *)
Definition remove_all_t (rc : ustr -> M watched unit) (T : list ustr) : M watched unit := fold_left (fun m u => let* _ := m in rc u) T (ret tt).
Lemma remove_all_t_from : forall rc T m x, fold_left (fun m u => let* _ := m in rc u) T m x =
  match m x with (Ok _, y) => remove_all_t rc T y | (Err e, y) => (Err e, y) end.
Proof.
  intros rc T. induction T as [|u T IH]; intros m x; cbn [fold_left].
  - unfold remove_all_t, ret. cbn [fold_left]. destruct (m x) as [[[]|e] y]; reflexivity.
  - rewrite IH. unfold mbind at 1. destruct (m x) as [[[]|e] y]; [|reflexivity]. unfold remove_all_t. cbn [fold_left]. rewrite IH. unfold mbind, ret. reflexivity.
Qed.
Lemma remove_all_t_cons : forall rc u T x y, remove_all_t rc (u :: T) x = (Ok tt, y) -> exists z, rc u x = (Ok tt, z) /\ remove_all_t rc T z = (Ok tt, y).
Proof.
  intros rc u T x y H. unfold remove_all_t in H. cbn [fold_left] in H. rewrite remove_all_t_from in H. unfold mbind, ret in H.
  destruct (rc u x) as [[[]|e] z]; [eauto|discriminate].
Qed.

Lemma stop_all : forall RS s, snd (remove_all (fun _ s => (Err Diverge, s)) RS s) = s /\ (RS <> [] -> fst (remove_all (fun _ s => (Err Diverge, s)) RS s) = Err Diverge) /\
  (RS = [] -> fst (remove_all (fun _ s => (Err Diverge, s)) RS s) = Ok tt).
Proof.
  intros [|x RS] s; [repeat split; congruence|]. rewrite remove_all_cons. cbn [fst snd]. repeat split; congruence.
Qed.

Definition renumbered (L : list entry) (i : Z) (L1 : list entry) : Prop :=
  forall k e, znth L k = Some e -> k <> i -> forall r, e_kind e = Redirect r -> exists e', znth L1 (shift_ptr i (-1) k) = Some e' /\ e_kind e' = Redirect (shift_ptr i (-1) r).
Lemma detach_takes : forall n s L i e0 RS rct l s' l' , consistent s L -> znth L i = Some e0 ->
  (forall d, In d L -> d <> e0 -> e_kind d = Redirect i -> 0 < i) ->
  (In i (pl_ptrs (z_atpl s)) \/ forall j, In j (pl_ptrs (z_atpl s)) -> j < i) -> removable_redirects s i L = Ok RS ->
  remove_body_t keep_blob (write_entry_t (S n)) rct (full_url e0) (s, l) = (Ok tt, (s', l')) ->
  exists l1 a s1 L1 p0 l7, l' = l7 ++ [Removed (full_url e0) e0 a] /\ remove_all_t rct RS (s1, l ++ l1) = (Ok tt, (s', l7)) /\
    removed_as s L i s1 L1 p0 e0 /\ renumbered L i L1 /\
    (forall lr p2, l7 = (l ++ l1) ++ lr -> takes L1 lr p2 -> (forall v, ~ In v (urls L1) -> p2 v = None) ->
       l' = l ++ (l1 ++ lr) ++ [Removed (full_url e0) e0 a] /\ takes L ((l1 ++ lr) ++ [Removed (full_url e0) e0 a]) p2).
Proof.
  intros n s L i e0 RS rct l s' l' CS HzL Hf Hart HRS H. pose proof CS as [(cells & EL & C) Hcomp Htg Hmain Hcnt].
  pose proof HzL as Hz. rewrite <- EL, znth_map in Hz. destruct (znth cells i) as [[p e00]|] eqn:Hc; [|discriminate]. cbn in Hz. injection Hz as ->.
  destruct (znth_split _ _ _ Hc) as (A & B & EC & HA). subst cells i.
  assert (Ln : zlen (A ++ (p, e0) :: B) = zlen L) by (subst L; rewrite zlen_map; reflexivity).
  pose proof (core_nodup _ _ C) as Nd. rewrite (map_mid (@snd Z entry)) in Nd.
  assert (Hnot0 : ~ In (full_url e0) (urls (map snd (A ++ B)))).
  { rewrite map_app. unfold urls in *. rewrite map_app in *. cbn [map] in Nd. apply NoDup_remove_2 in Nd. exact Nd. }
  assert (HinL : forall c, In c (A ++ B) -> In (snd c) L).
  { intros c Hc'. rewrite <- EL. apply in_map. apply in_app_or in Hc'. apply in_or_app. destruct Hc'; [auto|right; right; auto]. }
  assert (Hne : forall c, In c (A ++ B) -> snd c <> e0).
  { intros c Hc' E. apply Hnot0. rewrite <- E. unfold urls. rewrite map_map. apply (in_map (fun x => full_url (snd x))). exact Hc'. }
  assert (Hn1 : zlen (A ++ (p, e0) :: B) < 2 ^ 32) by (rewrite Ln; exact Hcnt).
  assert (Hc1 : etitles_complete s (zlen (A ++ (p, e0) :: B))) by (rewrite Ln; exact Hcomp).
  assert (Ht1 : targets_in (zlen (A ++ (p, e0) :: B)) (A ++ B)) by (intros c r Hc' Hr; rewrite Ln; apply (Htg (snd c) r); [apply HinL; exact Hc'|exact Hr]).
  assert (Hf1 : forall d, In d (A ++ B) -> e_kind (snd d) = Redirect 0 -> 0 < zlen A).
  { intros d Hd Hr. destruct (Z.eq_dec (zlen A) 0) as [E0|]; [|pose proof (zlen_nonneg A); lia]. apply (Hf (snd d)); [apply HinL; exact Hd|apply Hne; exact Hd|]. rewrite E0. exact Hr. }
  assert (HRS1 : removable_redirects s (zlen A) (map snd (A ++ (p, e0) :: B)) = Ok RS) by (rewrite EL; exact HRS).
  destruct (detach_told (fun w u => write_entry_rec_t n w u true) (fun w u => write_entry_rec n w u true) (fun w u => er_write_rec n w u true) rct s A p e0 B RS l s' l' Hn1 C Hc1 Ht1 Hf1 HRS1 Hart H)
    as (l1 & a & s6 & l7 & El & F & Hany & K).
  set (stop := fun (_ : ustr) (s : zim) => (Err Diverge : res unit, s)). specialize (Hany stop).
  destruct (stop_all RS s6) as (X1 & X2 & X3). fold stop in X1, X2, X3.
  assert (NA : forall sx, remove_body keep_blob (write_entry (S n)) stop (full_url e0) s <> (Err AssertionError, sx)).
  { intros sx E. change (write_entry (S n)) with (fun w => write_body (fun w u => write_entry_rec n w u true) w true true) in E. rewrite Hany in E. destruct (list_eq_dec (list_eq_dec Z.eq_dec) RS []) as [Q|Q].
    - apply X3 in Q. rewrite E in Q. discriminate.
    - apply X2 in Q. rewrite E in Q. discriminate. }
  assert (ID : forall sx, remove_body keep_blob (write_entry (S n)) stop (full_url e0) s = remove_all stop RS sx -> sx = s6).
  { intros sx E. destruct (stop_all RS sx) as (Y1 & _). fold stop in Y1. rewrite <- X1, <- Y1. f_equal. rewrite <- E. exact Hany. }
  destruct (detach_any s L (zlen A) e0 n stop RS CS HzL Hf Hart HRS) as [(s1 & L1 & p0 & W & RA & Hre)|(s1 & q & _ & _ & W)]; [|exfalso; exact (NA _ W)].
  apply ID in W. subst s1.
  destruct (remove_head (write_entry (S n)) (fun w u => write_entry_rec n w u true) stop s A p e0 B RS (fun w => eq_refl) Hn1 C Hc1 Ht1 Hf1 HRS1 Hart) as [(s2 & W2 & C2 & _)|(s2 & c & _ & _ & _ & W2)]; [|exfalso; exact (NA _ W2)].
  apply ID in W2. subst s2.
  exists l1, a, s6, L1, p0, l7. split; [exact El|]. split; [exact F|]. split; [exact RA|]. split; [exact Hre|].
  intros lr p2 E7 K2 N2. split; [rewrite El, E7; repeat rewrite <- app_assoc; reflexivity|]. rewrite <- app_assoc.
  apply (takes_removed L e0 (map snd (A ++ B)) l1 (map snd (map (shift_cell (zlen A) (-1) []) (A ++ B))) (looked_up s6) L1); try assumption.
  - intro e. rewrite <- EL, (map_mid (@snd Z entry)), map_app. cbn [snd]. rewrite !in_app_iff. cbn [In]. split; [intros [?|[?|?]]|intros [[?|?]|?]]; auto.
  - apply urls_shift.
  - apply shows_core. exact C2.
  - apply shows_consistent. apply RA.
Qed.
Lemma removed_urls : forall s L i s1 L1 p0 e0, removed_as s L i s1 L1 p0 e0 -> incl (urls L1) (urls L) /\ (roomy s L -> roomy s1 L1).
Proof.
  intros s L i s1 L1 p0 e0 (_ & _ & _ & _ & Ln & _ & Hin & _ & _ & _ & _ & _ & _ & Hsub). split.
  - intros v Hv. apply in_map_iff in Hv as (e' & <- & He'). destruct (Hin e' He') as (e & He & _ & Hs). rewrite (same_url _ _ Hs). apply in_map. exact He.
  - intros R q Hq. specialize (R q (Hsub q Hq)). lia.
Qed.
Lemma looked_none : forall s L, consistent s L -> forall v, ~ In v (urls L) -> looked_up s v = None.
Proof. intros s L CS. apply shows_consistent. exact CS. Qed.

Lemma gone_takes : forall n s L i e0 l s' l', consistent s L -> removable s L i e0 ->
  remove_entry_t keep_blob (S (S n)) (full_url e0) (s, l) = (Ok tt, (s', l')) ->
  exists l2 a L' p0, l' = l ++ l2 ++ [Removed (full_url e0) e0 a] /\ removed_as s L i s' L' p0 e0 /\ renumbered L i L' /\
    takes L (l2 ++ [Removed (full_url e0) e0 a]) (looked_up s').
Proof.
  intros n s L i e0 l s' l' CS RM H. pose proof (rm_at _ _ _ _ RM) as HzL.
  assert (HRS : removable_redirects s i L = Ok []).
  { pose proof CS as [(cells & EL & Co) _ _ _ _]. assert (exists c, znth cells i = Some c /\ snd c = e0) as (c & Hc & Es).
    { rewrite <- EL, znth_map in HzL. destruct (znth cells i) as [c|]; [|discriminate]. exists c. split; [reflexivity|]. cbn in HzL. congruence. }
    apply (no_removable s cells i c Co Hc); [rewrite EL; auto|]. intros e He Hr. rewrite Es.
    destruct (list_eq_dec Z.eq_dec (full_url e) (full_url e0)) as [E|N]; [exact E|]. exfalso. apply (rm_in _ _ _ _ RM e He); [intros ->; contradiction|exact Hr]. }
  destruct (detach_takes n s L i e0 [] (remove_entry_t keep_blob (S n)) l s' l' CS HzL) as (l1 & a & s1 & L1 & p0 & l7 & El & F & RA & Hre & K); try assumption.
  { intros d Hd Hne Hk. exfalso. exact (rm_in _ _ _ _ RM d Hd Hne Hk). }
  { apply (rm_article _ _ _ _ RM). }
  unfold remove_all_t, ret in F. cbn [fold_left] in F. injection F as -> <-.
  assert (CS1 : consistent s' L1) by apply RA.
  destruct (K [] (looked_up s')) as [E1 E2]; [rewrite app_nil_r; reflexivity|apply takes_nil; apply shows_consistent; exact CS1|apply looked_none; exact CS1|].
  exists (l1 ++ []), a, L1, p0. auto.
Qed.
Lemma gone_told : forall n s L i e0 l s' l', consistent s L -> removable s L i e0 ->
  remove_entry_t keep_blob (S (S n)) (full_url e0) (s, l) = (Ok tt, (s', l')) ->
  exists l2 x, l' = l ++ l2 ++ [x] /\ announces (Remove (full_url e0)) x /\ told s L (l2 ++ [x]) s'.
Proof.
  intros n s L i e0 l s' l' CS RM H. destruct (gone_takes n s L i e0 l s' l' CS RM H) as (l2 & a & L' & p0 & El & RA & _ & K).
  do 2 eexists. split; [exact El|]. split; [reflexivity|]. apply takes_told; [exact K|]. intros v Hv. apply (looked_none s' L'); [apply RA|].
  intro I. apply Hv. apply (proj1 (removed_urls _ _ _ _ _ _ _ RA)). exact I.
Qed.
Lemma sweep_told : forall n T s L l s' l', consistent s L -> roomy s L -> NoDup T -> (forall x, In x T -> deletable s x) ->
  remove_all_t (remove_entry_t keep_blob (S (S n))) T (s, l) = (Ok tt, (s', l')) ->
  exists l2 L', l' = l ++ l2 /\ consistent s' L' /\ incl (urls L') (urls L) /\ takes L l2 (looked_up s').
Proof.
  intro n. induction T as [|x T IH]; intros s L l s' l' CS R N HD H.
  { unfold remove_all_t, ret in H. cbn [fold_left] in H. injection H as <- <-. exists [], L. rewrite app_nil_r. split; [reflexivity|]. split; [exact CS|]. split; [apply incl_refl|].
    apply takes_nil. apply shows_consistent. exact CS. }
  apply remove_all_t_cons in H as ([s1 l1] & H1 & H). inversion N as [|? ? N1 N2]; subst.
  destruct (deletable_found s L x CS (HD x (or_introl eq_refl))) as (i & e0 & Hz & Ex & RM & Hf). subst x.
  destruct (gone_takes n s L i e0 l s1 l1 CS RM H1) as (l2 & a & L1 & p0 & -> & RA & Hre & K1).
  assert (CS1 : consistent s1 L1) by apply RA. destruct (removed_urls _ _ _ _ _ _ _ RA) as [I1 R1].
  pose proof (removed_observed s L i s1 L1 p0 e0 CS RA Hf Hre) as D1.
  assert (HD1 : forall y, In y T -> deletable s1 y).
  { intros y Hy. apply (still_deletable s L s1 L1 (full_url e0) y CS CS1 D1); [apply HD; left; reflexivity|apply HD; right; exact Hy|]. intros ->. contradiction. }
  destruct (IH s1 L1 _ s' l' CS1 (R1 R) N2 HD1 H) as (l3 & L' & -> & CS' & I2 & K2).
  eexists _, L'. split; [rewrite <- app_assoc; reflexivity|]. split; [exact CS'|]. split; [eapply incl_tran; eauto|].
  eapply takes_app; [exact K1|apply shows_consistent; exact CS1|exact I1|exact K2|]. intros v Hv. apply (looked_none s' L' CS'). intro Q. apply Hv. apply I2. exact Q.
Qed.
Lemma sever_told : forall n s L u l s' l', consistent s L -> severable s u -> roomy s L ->
  remove_entry_t keep_blob (S (S (S n))) u (s, l) = (Ok tt, (s', l')) ->
  exists l2 x, l' = l ++ l2 ++ [x] /\ announces (Remove u) x /\ told s L (l2 ++ [x]) s'.
Proof.
  intros n s L u l s' l' CS SV R H. destruct (sever_facts s L u CS SV) as (i & e0 & RS & Hz & Eu & Hf & Hart & HRS & HN & RI & Haf). subst u.
  destruct (detach_takes (S n) s L i e0 RS (remove_entry_t keep_blob (S (S n))) l s' l' CS Hz Hf Hart HRS H) as (l1 & a & s1 & L1 & p0 & l7 & El & F & RA & Hre & K).
  destruct (Haf s1 L1 p0 RA Hre) as [_ HD]. assert (CS1 : consistent s1 L1) by apply RA. destruct (removed_urls _ _ _ _ _ _ _ RA) as [I1 R1].
  destruct (sweep_told n RS s1 L1 _ s' l7 CS1 (R1 R) HN HD F) as (lr & L' & E7 & CS' & I2 & K2).
  destruct (K lr (looked_up s') E7 K2) as [E1 E2]. { intros v Hv. apply (looked_none s' L' CS'). intro Q. apply Hv. apply I2. exact Q. }
  do 2 eexists. split; [exact E1|]. split; [reflexivity|]. apply takes_told; [exact E2|]. intros v Hv. apply (looked_none s' L' CS'). intro Q. apply Hv. apply I1. apply I2. exact Q.
Qed.

Lemma change_told : forall n s L c l s' l', consistent s L -> allowed s L c -> do_change (S (S (S n))) c (s, l) = (Ok tt, (s', l')) ->
  exists l2 x, l' = l ++ l2 ++ [x] /\ announces c x /\ told s L (l2 ++ [x]) s'.
Proof.
  intros n s L [w|u] l s' l' CS AL H; cbn [allowed do_change] in *.
  - destruct AL as [AD|(i & e0 & RW & SM)]; [eapply add_told; eauto|].
    assert ((stays e0 (w_entry w)) \/ ~ stays e0 (w_entry w)) as [ST|NS].
    { unfold stays. destruct (list_eq_dec Z.eq_dec (full_url (w_entry w)) (full_url e0)), (Z.eq_dec (span (w_entry w)) (span e0)); tauto. }
    + eapply replace_told; eauto.
    + destruct SM as [SM|SM]; [contradiction|]. eapply moving_told; eauto.
  - destruct AL as [(i & e0 & RM & ->)|[SV R]]; [eapply gone_told; eauto|eapply sever_told; eauto].
Qed.

Lemma hear_ext : forall m m' n, (forall u, m u = m' u) -> forall u, hear m n u = hear m' n u.
Proof. intros m m' [e o b|v e a] E u; unfold hear; destruct (ueqb u _); try reflexivity; [|apply E]. destruct o; [destruct (ueqb u _)|]; try reflexivity; apply E. Qed.
Lemma true_ext : forall m m' n, (forall u, m u = m' u) -> true_notice m n -> true_notice m' n.
Proof. intros m m' [e [o|] b|v e a] E; cbn [true_notice]; rewrite <- !E; auto. Qed.
Lemma hear_all_ext : forall l m m', (forall u, m u = m' u) -> forall u, hear_all m l u = hear_all m' l u.
Proof. induction l as [|n l IH]; intros m m' E u; [apply E|]. cbn [hear_all fold_left]. apply IH. apply hear_ext. exact E. Qed.
Lemma all_true_ext : forall l m m', (forall u, m u = m' u) -> all_true m l -> all_true m' l.
Proof.
  induction l as [|n l IH]; intros m m' E H; [exact Logic.I|]. cbn [all_true] in *. destruct H as [H1 H2]. split; [eapply true_ext; eauto|].
  eapply IH; [|exact H2]. apply hear_ext. exact E.
Qed.
Lemma history_told : forall n x y, history (S (S (S n))) x y -> forall L0, consistent (fst x) L0 ->
  exists l2, snd y = snd x ++ l2 /\ all_true (looked_up (fst x)) l2 /\ forall u, hear_all (looked_up (fst x)) l2 u = looked_up (fst y) u.
Proof.
  intros n x y H L0 CS0. induction H as [x|x s l c y L H IH CS AL W].
  - exists []. rewrite app_nil_r. split; [reflexivity|]. split; [exact Logic.I|reflexivity].
  - destruct (IH CS0) as (l2 & E & T & P). cbn [fst snd] in E, P. destruct y as [s' l']. destruct (change_told n s L c l s' l' CS AL W) as (l3 & z & E3 & _ & K).
    destruct CS as [(cells & EL & C) _ _ _ _]. pose proof (shows_core _ _ C) as Sh. rewrite EL in Sh.
    destruct (K _ Sh) as [T3 P3]. exists (l2 ++ l3 ++ [z]). cbn [fst snd]. split; [rewrite E3, E, <- app_assoc; reflexivity|]. rewrite all_true_app, hear_all_app. split.
    + split; [exact T|]. eapply all_true_ext; [|exact T3]. intro u. symmetry. apply P.
    + intro u. rewrite <- P3. apply hear_all_ext. exact P.
Qed.
