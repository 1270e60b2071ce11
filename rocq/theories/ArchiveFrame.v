(** What operations leave alone besides entries and clusters: the bytes that
    belong to neither, and pointer lists that are not marked as modified. *)
From Coq Require Import List ZArith Bool Lia.
From Coq Require Import ZifyBool ZifyNat.
From Verif Require Import Base BaseProofs Utf8 Entry PointerList PointerListProofs SpaceAllocator Cluster
  Archive ArchiveSpec ArchiveProofs ArchiveCluster ArchiveClusterSpec.
Import ListNotations.
Open Scope Z_scope.

(** ** Pointer lists *)
(** [q] comes from [p] by modifications; if it is not marked as modified, it is [p]. *)
Definition tracks (p q : plist) : Prop :=
  pl_old_size q = pl_old_size p /\ pl_mutable q = pl_mutable p /\ (pl_dirty q = false -> q = p).
Definition otracks (p q : option plist) : Prop :=
  match p, q with Some p, Some q => tracks p q | None, None => True | _, _ => False end.
Record ztracks (s s' : zim) : Prop := mkZtracks {
  zt_upl : tracks (z_upl s) (z_upl s'); zt_atpl : tracks (z_atpl s) (z_atpl s'); zt_etpl : otracks (z_etpl s) (z_etpl s') }.

Lemma tracks_refl : forall p, tracks p p. Proof. intro p. split; [reflexivity|split; auto]. Qed.
Lemma tracks_trans : forall p q r, tracks p q -> tracks q r -> tracks p r.
Proof.
  intros p q r (A1 & A2 & A3) (B1 & B2 & B3). split; [congruence|]. split; [congruence|]. intro H. pose proof (B3 H) as E. subst r. apply A3. exact H.
Qed.
Lemma otracks_refl : forall p, otracks p p. Proof. intros [p|]; [apply tracks_refl|exact Logic.I]. Qed.
Lemma otracks_trans : forall p q r, otracks p q -> otracks q r -> otracks p r.
Proof. intros [p|] [q|] [r|]; cbn; try tauto. apply tracks_trans. Qed.
Lemma ztracks_refl : forall s, ztracks s s. Proof. intro s. constructor; [apply tracks_refl..|apply otracks_refl]. Qed.
Lemma ztracks_trans : forall a b c, ztracks a b -> ztracks b c -> ztracks a c.
Proof. intros a b c [] []. constructor; [eapply tracks_trans; eassumption..|eapply otracks_trans; eassumption]. Qed.

Lemma change_tracks : forall o l, tracks o (pl_change o l).
Proof. intros o l. split; [reflexivity|]. split; [reflexivity|]. intro H. discriminate H. Qed.
Lemma remove_tracks : forall i o o', pl_remove_by_index i o = Ok o' -> tracks o o'.
Proof.
  intros i o o' H. unfold pl_remove_by_index in H. destruct (i <? 0); [discriminate H|]. destruct (negb (pl_mutable o)); [discriminate H|].
  destruct (py_index _ _); [|discriminate H]. injection H as <-. apply change_tracks.
Qed.
Lemma add_tracks : forall keyf k p o i o', pl_add keyf k p o = Ok (i, o') -> tracks o o'.
Proof.
  intros keyf k p o i o' H. unfold pl_add in H. destruct (p <? 0); [discriminate H|]. destruct (negb (pl_mutable o)); [discriminate H|].
  destruct (binarysearch _ _ _) as [j|]; cbn [bind] in H; [|discriminate H]. injection H as _ <-. apply change_tracks.
Qed.
Lemma mass_loop_same : forall diff a b l r, mass_loop diff a b l = (r, false) -> r = l.
Proof.
  induction l as [|p l IH]; intros r H; cbn [mass_loop] in H; [congruence|]. destruct (mass_loop diff a b l) as [r' m] eqn:E.
  destruct (in_range a b p); [discriminate H|]. injection H as <- ->. rewrite (IH r'); reflexivity.
Qed.
Lemma mass_tracks : forall diff a b o o', pl_mass_update diff a b o = Ok o' -> tracks o o'.
Proof.
  intros diff a b o o' H. unfold pl_mass_update in H. destruct (match a with Some _ => _ | None => _ end); [discriminate H|].
  destruct (mass_loop diff a b (pl_ptrs o)) as [l m] eqn:E. injection H as <-. split; [reflexivity|]. split; [reflexivity|]. cbn [pl_dirty].
  destruct m; intro X; [discriminate X|]. apply mass_loop_same in E. subst l. destruct o; cbn in *. congruence.
Qed.

(** ** The entry layer *)
Definition quiet {A} (m : M zim A) : Prop := forall s r s', m s = (r, s') -> ztracks s s'.
Lemma q_bind : forall A B (m : M zim A) (k : A -> M zim B), quiet m -> (forall x, quiet (k x)) -> quiet (let* x := m in k x).
Proof.
  intros A B m k Hm Hk s r s' H. unfold mbind in H. destruct (m s) as [[x|e] s1] eqn:E.
  - eapply ztracks_trans; [eapply Hm; exact E|eapply Hk; exact H].
  - injection H as _ <-. eapply Hm. exact E.
Qed.
Lemma q_ret : forall A (x : A), quiet (ret x). Proof. intros A x s r s' H. injection H as _ <-. apply ztracks_refl. Qed.
Lemma q_raise : forall A e, quiet (@raise zim A e). Proof. intros A e s r s' H. injection H as _ <-. apply ztracks_refl. Qed.
Lemma q_query : forall A (q : zim -> res A), quiet (query q). Proof. intros A q s r s' H. injection H as _ <-. apply ztracks_refl. Qed.
Lemma q_update : forall u, (forall s s', u s = Ok s' -> ztracks s s') -> quiet (update u).
Proof. intros u Hu s r s' H. unfold update in H. destruct (u s) as [s1|e] eqn:E; injection H as _ <-; [apply Hu; exact E|apply ztracks_refl]. Qed.

Ltac bok H := let E := fresh "E" in match type of H with bind ?m _ = Ok _ => destruct m eqn:E; cbn [bind] in H; [|discriminate H] end.
Lemma q_write_at : forall off e, quiet (write_at off e).
Proof. intros off e. apply q_update. intros s s' H. bok H. injection H as <-. constructor; [apply tracks_refl..|apply otracks_refl]. Qed.
Lemma q_shift_etpl : forall d a, quiet (shift_etpl d a).
Proof.
  intros d a. apply q_update. intros s s' H. destruct (z_etpl s) as [t|] eqn:T; [|injection H as <-; apply ztracks_refl]. bok H. injection H as <-.
  constructor; [apply tracks_refl..|]. cbn [z_etpl set_etpl]. rewrite T. cbn. eapply mass_tracks. eassumption.
Qed.
Lemma q_shift_atpl : forall d a, quiet (shift_atpl d a).
Proof. intros d a. apply q_update. intros s s' H. bok H. injection H as <-. constructor; [apply tracks_refl|cbn; eapply mass_tracks; eassumption|apply otracks_refl]. Qed.
Lemma q_drop_etitle : forall k, quiet (drop_etitle k).
Proof.
  intros k. apply q_update. intros s s' H. destruct k as [k|]; [|injection H as <-; apply ztracks_refl]. destruct (z_etpl s) as [t|] eqn:T; [|injection H as <-; apply ztracks_refl].
  bok H. injection H as <-. constructor; [apply tracks_refl..|]. cbn [z_etpl set_etpl]. rewrite T. cbn. eapply remove_tracks. eassumption.
Qed.
Lemma q_drop_atitle : forall k, quiet (drop_atitle k).
Proof.
  intros k. apply q_update. intros s s' H. destruct k as [k|]; [|injection H as <-; apply ztracks_refl]. bok H. injection H as <-.
  constructor; [apply tracks_refl|cbn; eapply remove_tracks; eassumption|apply otracks_refl].
Qed.
Lemma q_add_titles : forall e a i, quiet (add_titles e a i).
Proof.
  intros e a i. unfold add_titles. apply q_bind; [|intros _]; apply q_update; intros s s' H.
  - destruct (z_etpl s) as [t|] eqn:T; [|injection H as <-; apply ztracks_refl]. bok H. bok H. destruct a1 as [j t']. injection H as <-.
    constructor; [apply tracks_refl..|]. cbn [z_etpl set_etpl snd]. rewrite T. cbn. eapply add_tracks. eassumption.
  - destruct a; [|injection H as <-; apply ztracks_refl]. bok H. bok H. destruct a0 as [j t']. injection H as <-.
    constructor; [apply tracks_refl|cbn; eapply add_tracks; eassumption|apply otracks_refl].
Qed.
Lemma q_for : forall n i body, (forall e, quiet (body e)) -> quiet (for_entries n i body).
Proof.
  induction n as [|n IH]; intros i body Hb; cbn [for_entries]; [apply q_ret|]. apply q_bind; [apply q_query|]. intro e. apply q_bind; [apply Hb|]. intros _. apply IH. exact Hb.
Qed.
Lemma q_update_redirect : forall wr a d skip e, (forall w, quiet (wr w)) -> quiet (update_redirect wr a d skip e).
Proof.
  intros wr a d skip e Hw. unfold update_redirect. destruct (_ && _); [|apply q_ret]. destruct (e_kind e); [apply q_raise|]. destruct (_ <=? _); [|apply q_ret].
  apply q_bind; [apply q_query|]. intro e'. apply q_bind; [apply q_query|]. intro p. destruct (_ =? _); [apply q_raise|apply Hw].
Qed.
Lemma q_update_url_pointers : forall wr a d b skip, (forall w, quiet (wr w)) -> quiet (update_url_pointers wr a d b skip).
Proof.
  intros wr a d b skip Hw. unfold update_url_pointers. apply q_bind; [apply q_shift_etpl|]. intros _. apply q_bind; [destruct b; [apply q_shift_atpl|apply q_ret]|]. intros _.
  apply q_bind; [apply q_query|]. intro n. apply q_bind; [apply q_for; intro e; apply q_update_redirect; exact Hw|]. intros _. apply q_update. intros s s' H.
  destruct (z_main s) as [m|]; injection H as <-; [|apply ztracks_refl]. destruct (_ <? _); [|apply ztracks_refl]. constructor; [apply tracks_refl..|apply otracks_refl].
Qed.
Lemma q_retarget : forall wr us i, (forall w, quiet (wr w)) -> quiet (retarget wr us i).
Proof.
  intros wr us i Hw. induction us as [|u us IH]; cbn [retarget]; [apply q_ret|]. apply q_bind; [apply q_query|]. intro e. apply q_bind; [apply q_query|]. intro e'.
  apply q_bind; [apply Hw|]. intros _. exact IH.
Qed.
Lemma q_remove_url : forall i, quiet (update (fun s => do u <- pl_remove_by_index i (z_upl s) ;; Ok (set_upl u s))).
Proof. intro i. apply q_update. intros s s' H. bok H. injection H as <-. constructor; [cbn; eapply remove_tracks; eassumption|apply tracks_refl|apply otracks_refl]. Qed.

Lemma q_write_body : forall rec w u t, (forall w u, quiet (rec w u)) -> quiet (write_body rec w u t).
Proof.
  intros rec w u t Hr. unfold write_body. apply q_bind; [apply q_query|]. intro article. apply q_bind; [apply q_query|]. intro new_size. apply q_bind; [apply q_query|]. intro old.
  apply q_bind; [apply q_query|]. intro to_update.
  apply q_bind.
  { apply q_update. intros s s' H. destruct old as [o|]; [|injection H as <-; apply ztracks_refl]. destruct (negb _); [|injection H as <-; apply ztracks_refl]. bok H. injection H as <-.
    constructor; [apply tracks_refl..|apply otracks_refl]. }
  intros _. apply q_bind.
  { intros s r s' H.
    assert (AL : forall n, (match allocate (z_alloc s) n with Ok (p, a) => (Ok p, set_alloc a s) | Err x => (Err x, s) end) = (r, s') -> ztracks s s').
    { intros n X. destruct (allocate (z_alloc s) n) as [[p a]|e]; injection X as _ <-; [constructor; [apply tracks_refl..|apply otracks_refl]|apply ztracks_refl]. }
    destruct old as [o|]; [|eapply AL; exact H]. destruct (negb _); [eapply AL; exact H|]. injection H as _ <-. apply ztracks_refl. }
  intro off. apply q_bind; [apply q_write_at|]. intros _. apply q_bind; [apply q_drop_etitle|]. intros _. apply q_bind; [apply q_drop_atitle|]. intros _.
  apply q_bind.
  { destruct old as [o|]; [|apply q_ret]. destruct (_ || _); [|apply q_ret]. apply q_bind; [apply q_remove_url|]. intros _. apply q_update_url_pointers. intro w0. apply Hr. }
  intros _. apply q_bind.
  { destruct (_ || _); [|apply q_ret]. apply q_bind.
    - intros s r s' H. destruct (encode _) as [k|x]; [|injection H as _ <-; apply ztracks_refl]. destruct (pl_add _ _ _ _) as [[i l]|x] eqn:EA; injection H as _ <-; [|apply ztracks_refl].
      constructor; [cbn; eapply add_tracks; exact EA|apply tracks_refl|apply otracks_refl].
    - intro i. apply q_bind; [apply q_update_url_pointers; intro w0; apply Hr|]. intros _. apply q_bind; [apply q_query|]. intro e'. apply q_bind.
      + destruct (e_kind _); [apply q_ret|]. destruct (_ && _); [apply q_write_at|apply q_ret].
      + intros _. destruct (e_kind e'); [apply q_ret|]. destruct (_ && _); [apply q_raise|apply q_ret]. }
  intros [ni e']. apply q_bind; [destruct t; [apply q_add_titles|apply q_ret]|]. intros _.
  apply q_bind; [destruct (opt_eqb _ _); [apply q_ret|apply q_retarget; intro w0; apply Hr]|]. intros _.
  destruct (is_redirect e'); [|apply q_ret]. apply q_bind; [apply q_query|]. intros _. apply q_ret.
Qed.
Lemma q_write_rec : forall n w u t, quiet (write_entry_rec n w u t).
Proof. induction n as [|n IH]; intros w u t; cbn [write_entry_rec]; [apply q_raise|]. apply q_write_body. intros w0 u0. apply IH. Qed.
Lemma write_tracks : forall n w s r s', write_entry n w s = (r, s') -> ztracks s s'.
Proof. intros n w s r s' H. eapply q_write_rec. exact H. Qed.

(** ** Bytes that belong to no entry and to no cluster *)
Definition spare (a : carchive) (cells : list (Z * entry)) (L : list (option (Z * ccell))) (x : Z) : Prop :=
  in_use (ca_alloc a) x /\ (forall c, In c cells -> ~ occupies c x) /\ (forall i d, at_number L i d -> ~ covers d x).
Record framed (a : carchive) cells L (a' : carchive) cells' L' : Prop := mkFramed {
  fr_spare : forall x, spare a cells L x -> spare a' cells' L' x;
  fr_keeps : keeps (ca_file a) (ca_file a') (spare a cells L);
  fr_len : zlen (ca_file a) <= zlen (ca_file a');
  fr_zim : ztracks (ca_zim a) (ca_zim a');
  fr_ptrs : tracks (ca_ptrs a) (ca_ptrs a') }.
Lemma framed_refl : forall a cells L, framed a cells L a cells L.
Proof. intros a cells L. constructor; [auto|apply keeps_refl|lia|apply ztracks_refl|apply tracks_refl]. Qed.
Lemma framed_trans : forall a cells L a1 cells1 L1 a2 cells2 L2, framed a cells L a1 cells1 L1 -> framed a1 cells1 L1 a2 cells2 L2 -> framed a cells L a2 cells2 L2.
Proof.
  intros a cells L a1 cells1 L1 a2 cells2 L2 [] []. constructor.
  - auto.
  - eapply keeps_weaken; [eapply keeps_trans; eassumption|]. cbv beta. intros x Hx. split; [exact Hx|]. auto.
  - lia.
  - eapply ztracks_trans; eassumption.
  - eapply tracks_trans; eassumption.
Qed.
