(** With [NoOpCache], writing and removing entries through objects does what
    Archive.v says. *)
From Coq Require Import List ZArith Bool Lia ZifyBool ZifyNat.
From Verif Require Import Base Utf8 Entry PointerList PointerListProofs SpaceAllocator Cluster Archive Cache EntryCache EntryCacheProofs EntryCacheReadProofs.
Import ListNotations.
Open Scope Z_scope.

Section NoOp.
Variables writable autoflush : bool.
Notation cw := (cstate ecache).
Definition no_cache (w : cw) : Prop := cs_cache _ w = ENone.
Definition has_obj (r : nat) (o : cobj) (w : cw) : Prop := nth_error (cs_objs _ w) r = Some o.
(** Objects stay as they are, except one. *)
Definition keep (x : option nat) (w w' : cw) : Prop :=
  forall r o, x <> Some r -> has_obj r o w -> has_obj r o w'.
Definition just_read (o : cobj) (e : entry) : Prop := o = obj_new e.
Notation Refers := (refers ecache just_read).
Notation Reads := (reads ecache no_cache (keep None)).

Lemma keep_refl : forall x w, keep x w w.
Proof. intros x w r o _ H. exact H. Qed.
Lemma keep_trans : forall x a b c, keep x a b -> keep x b c -> keep x a c.
Proof. intros x a b c H1 H2 r o N H. apply H2; [exact N|]. apply H1; assumption. Qed.
Lemma keep_less : forall x w w', keep None w w' -> keep x w w'.
Proof. intros x w w' H r o _ Ho. apply H; [discriminate|exact Ho]. Qed.
Lemma has_stable : forall r o, stable ecache (keep None) (has_obj r o).
Proof. intros r o w w' K H. apply K; [discriminate|exact H]. Qed.

(** [cm] does what [m] does. *)
Definition sim {A B} (x : option nat) (P : cw -> Prop) (m : M zim A) (cm : M cw B) (R : A -> B -> cw -> Prop) : Prop :=
  forall w, no_cache w -> P w ->
  let '(r0, s) := m (cs_zim _ w) in
  let '(r, w') := cm w in
  cs_zim _ w' = s /\ no_cache w' /\ keep x w w' /\
  match r0, r with
  | Ok a, Ok b => R a b w'
  | Err a, Err b => a = b
  | _, _ => False
  end.

Lemma sim_bind : forall {A B A' B'} x P (m : M zim A) (cm : M cw B) R (m2 : A -> M zim A') (cm2 : B -> M cw B') R2,
  sim x P m cm R -> (forall a b, sim x (R a b) (m2 a) (cm2 b) R2) -> sim x P (mbind m m2) (mbind cm cm2) R2.
Proof.
  intros A B A' B' x P m cm R m2 cm2 R2 H1 H2 w HI HP. unfold mbind. specialize (H1 w HI HP).
  destruct (m (cs_zim _ w)) as [[a|e] s1]; destruct (cm w) as [[b|y] w1]; destruct H1 as (Z1 & I1 & K1 & M1); try contradiction.
  - specialize (H2 a b w1 I1 M1). rewrite Z1 in H2. destruct (m2 a s1) as [r0 s2]. destruct (cm2 b w1) as [r w2].
    destruct H2 as (Z2 & I2 & K2 & M2). split; [exact Z2|]. split; [exact I2|]. split; [eapply keep_trans; eassumption|exact M2].
  - split; [exact Z1|]. split; [exact I1|]. split; [exact K1|exact M1].
Qed.
(** A step that gives the same value and does not concern the object in use. *)
Definition kept {A} (P : cw -> Prop) (a b : A) (w : cw) : Prop := a = b /\ P w.
Lemma sim_step : forall {A A' B'} x P (m : M zim A) (cm : M cw A) (m2 : A -> M zim A') (cm2 : A -> M cw B') R2,
  sim x P m cm (kept P) -> (forall a, sim x P (m2 a) (cm2 a) R2) -> sim x P (mbind m m2) (mbind cm cm2) R2.
Proof. intros A A' B' x P m cm m2 cm2 R2 H1 H2. eapply sim_bind; [exact H1|]. intros a b w HI [<- HP]. exact (H2 a w HI HP). Qed.
Lemma sim_ret : forall {A B} x (P : cw -> Prop) (a : A) (b : B) (R : A -> B -> cw -> Prop), (forall w, P w -> R a b w) -> sim x P (ret a) (ret b) R.
Proof. intros A B x P a b R H w HI HP. cbn. split; [reflexivity|]. split; [exact HI|]. split; [apply keep_refl|apply H; exact HP]. Qed.
Lemma sim_raise : forall {A B} x P e (R : A -> B -> cw -> Prop), sim x P (raise e) (raise e) R.
Proof. intros A B x P e R w HI HP. cbn. split; [reflexivity|]. split; [exact HI|]. split; [apply keep_refl|reflexivity]. Qed.
Lemma sim_weak : forall {A B} x x' (P P' : cw -> Prop) (m : M zim A) (cm : M cw B) (R R' : A -> B -> cw -> Prop),
  (x = None \/ x = x') -> (forall w, P' w -> P w) -> (forall a b w, R a b w -> R' a b w) -> sim x P m cm R -> sim x' P' m cm R'.
Proof.
  intros A B x x' P P' m cm R R' X HP HR H w HI H0. specialize (H w HI (HP w H0)). destruct (m (cs_zim _ w)) as [r0 s]. destruct (cm w) as [r w'].
  destruct H as (Z1 & I1 & K1 & M1). split; [exact Z1|]. split; [exact I1|]. split; [destruct X as [-> | ->]; [apply keep_less|]; exact K1|].
  destruct r0, r; auto.
Qed.
(** What leaves the objects alone keeps them. *)
Lemma sim_frame : forall {A B} x P r o (m : M zim A) (cm : M cw B) R,
  sim None P m cm R -> sim x (fun w => P w /\ has_obj r o w) m cm (fun a b w => R a b w /\ has_obj r o w).
Proof.
  intros A B x P r o m cm R H w HI [HP Ho]. specialize (H w HI HP). destruct (m (cs_zim _ w)) as [r0 s]. destruct (cm w) as [r1 w'].
  destruct H as (Z1 & I1 & K1 & M1). split; [exact Z1|]. split; [exact I1|]. split; [apply keep_less; exact K1|].
  destruct r0, r1; try exact M1. split; [exact M1|apply K1; [discriminate|exact Ho]].
Qed.
Lemma sim_none : forall {A} x r o (m : M zim A) (cm : M cw A),
  sim None (any ecache) m cm (same ecache) -> sim x (has_obj r o) m cm (kept (has_obj r o)).
Proof.
  intros A x r o m cm H. eapply sim_weak; [right; reflexivity| | |exact (sim_frame x _ r o _ _ _ H)].
  - intros w Ho. split; [exact Logic.I|exact Ho].
  - intros a b w [E Ho]. split; [exact E|exact Ho].
Qed.
Lemma reads_sim : forall {A B} P (q : zim -> res A) (cm : M cw B) R, Reads P q cm R -> sim None P (query q) cm R.
Proof.
  intros A B P q cm R H w HI HP. specialize (H w HI HP). unfold query. destruct (cm w) as [r w']. exact H.
Qed.
Lemma reads_kept : forall {A} x r o (q : zim -> res A) (cm : M cw A), Reads (has_obj r o) q cm (same ecache) -> sim x (has_obj r o) (query q) cm (kept (has_obj r o)).
Proof.
  intros A x r o q cm H. eapply sim_weak; [right; reflexivity| | |exact (sim_frame x _ r o _ _ _ (reads_sim _ _ _ _ H))].
  - intros w Ho. split; exact Ho.
  - intros a b w [E Ho]. split; [exact E|exact Ho].
Qed.
Lemma sim_archive : forall {A} x r o (m : M zim A), sim x (has_obj r o) m (on_archive ecache m) (kept (has_obj r o)).
Proof.
  intros A x r o m w HI Ho. unfold on_archive. destruct (m (cs_zim _ w)) as [r0 s]. destruct w as [z c l]. cbn.
  split; [reflexivity|]. split; [exact HI|]. split; [intros ? ? _ X; exact X|]. destruct r0; [split; [reflexivity|exact Ho]|reflexivity].
Qed.
Lemma sim_archive_any : forall {A} (m : M zim A), sim None (any ecache) m (on_archive ecache m) (same ecache).
Proof.
  intros A m w HI Ho. unfold on_archive. destruct (m (cs_zim _ w)) as [r0 s]. destruct w as [z c l]. cbn.
  split; [reflexivity|]. split; [exact HI|]. split; [intros ? ? _ X; exact X|]. destruct r0; reflexivity.
Qed.
Lemma sim_obj : forall {A B} x r o (m : M zim A) (cm : cobj -> M cw B) R, sim x (has_obj r o) m (cm o) R -> sim x (has_obj r o) m (let* o := obj ecache r in cm o) R.
Proof. intros A B x r o m cm R H w HI Ho. specialize (H w HI Ho). unfold mbind, obj. unfold has_obj in Ho. rewrite Ho. exact H. Qed.
Lemma sim_entry : forall {A B} x r o (m : M zim A) (cm : entry -> M cw B) R, sim x (has_obj r o) m (cm (co_now o)) R -> sim x (has_obj r o) m (let* e := entry_of ecache r in cm e) R.
Proof. intros A B x r o m cm R H w HI Ho. specialize (H w HI Ho). unfold mbind, entry_of, mbind, obj. unfold has_obj in Ho. rewrite Ho. exact H. Qed.
Lemma sim_ext : forall {A B} x P (m m' : M zim A) (cm : M cw B) R, (forall s, m' s = m s) -> sim x P m cm R -> sim x P m' cm R.
Proof. intros A B x P m m' cm R E H w HI HP. specialize (H w HI HP). rewrite E. exact H. Qed.

Lemma sim_ext_r : forall {A B} x P (m : M zim A) (cm cm' : M cw B) R, (forall w, cm' w = cm w) -> sim x P m cm R -> sim x P m cm' R.
Proof. intros A B x P m cm cm' R E H w HI HP. specialize (H w HI HP). rewrite E. exact H. Qed.
Lemma mbind_assoc : forall {A B D} (m : M cw A) (f : A -> M cw B) (g : B -> M cw D) w, mbind (mbind m f) g w = mbind m (fun a => mbind (f a) g) w.
Proof. intros A B D m f g w. unfold mbind. destruct (m w) as [[a|x] w1]; reflexivity. Qed.

Section Body.
Variable write : nat -> bool -> M cw unit.
Variable rec : went -> bool -> M zim unit.
(** The recursive calls. *)
Hypothesis REC : forall r o u, sim (Some r) (has_obj r o) (rec (obj_went o) u) (write r u) (fun _ _ _ => True).
Notation cget_at := (cget_entry_at ecache estep writable autoflush write).

Lemma get_at_eq : forall p allow w, no_cache w ->
  cget_at p allow w = match get_entry_at (cs_zim _ w) p with
                      | Ok e => (Ok (length (cs_objs _ w)), with_objs _ (cs_objs _ w ++ [obj_new e]) w)
                      | Err x => (Err x, w)
                      end.
Proof.
  intros p allow [s c objs] HI. unfold no_cache in HI. cbn in HI. subst c. unfold cget_entry_at, get_entry_at. cbn [cs_zim cs_objs]. destruct (p <? 0); [reflexivity|].
  unfold mbind at 1, cache_call. cbn. unfold mbind, on_archive, query. cbn. destruct (entry_at (z_file s) p); reflexivity.
Qed.
Lemma fresh_keep : forall w o, keep None w (with_objs _ (cs_objs _ w ++ [o]) w).
Proof.
  intros w o r o' _ H. unfold has_obj in *. destruct w as [s c l]. cbn in *. rewrite nth_error_app1; [exact H|apply nth_error_Some; congruence].
Qed.
Lemma fresh_has : forall w o, has_obj (length (cs_objs _ w)) o (with_objs _ (cs_objs _ w ++ [o]) w).
Proof. intros [s c l] o. unfold has_obj. cbn. rewrite nth_error_app2, Nat.sub_diag by lia. reflexivity. Qed.

Lemma noop_get : forall P, stable ecache (keep None) P -> forall p allow, True -> Reads P (fun s => get_entry_at s p) (cget_at p allow) Refers.
Proof.
  intros P SP p allow _ w HI HP. rewrite (get_at_eq p allow w HI). destruct (get_entry_at (cs_zim _ w) p) as [e|x].
  - split; [destruct w; reflexivity|]. split; [destruct w; exact HI|]. split; [apply fresh_keep|]. exists (obj_new e). split; [apply fresh_has|reflexivity].
  - split; [reflexivity|]. split; [exact HI|]. split; [apply keep_refl|reflexivity].
Qed.
Lemma read_url : forall o e, just_read o e -> full_url (co_now o) = full_url e.
Proof. intros o e ->. reflexivity. Qed.
Lemma read_now : forall o e, just_read o e -> co_now o = e.
Proof. intros o e ->. reflexivity. Qed.

(** A new object is used by a part that may change it. *)
Lemma sim_get : forall {A B} p allow (m2 : entry -> M zim A) (cm2 : nat -> M cw B) (R : A -> B -> cw -> Prop),
  (forall e r, sim (Some r) (has_obj r (obj_new e)) (m2 e) (cm2 r) R) ->
  sim None (any ecache) (let* e := query (fun s => get_entry_at s p) in m2 e) (let* r := cget_at p allow in cm2 r) R.
Proof.
  intros A B p allow m2 cm2 R H w HI _. unfold mbind, query. rewrite (get_at_eq p allow w HI). destruct (get_entry_at (cs_zim _ w) p) as [e|x].
  - assert (HI' : no_cache (with_objs _ (cs_objs _ w ++ [obj_new e]) w)) by (destruct w; exact HI).
    specialize (H e (length (cs_objs _ w)) _ HI' (fresh_has w (obj_new e))).
    replace (cs_zim _ (with_objs _ (cs_objs _ w ++ [obj_new e]) w)) with (cs_zim _ w) in H by (destruct w; reflexivity).
    destruct (m2 e (cs_zim _ w)) as [r0 s]. destruct (cm2 _ _) as [r w']. destruct H as (Z1 & I1 & K1 & M1).
    split; [exact Z1|]. split; [exact I1|]. split; [|exact M1].
    intros r' o' _ Ho. apply K1.
    + intros [= <-]. unfold has_obj in Ho. assert (X : nth_error (cs_objs _ w) (length (cs_objs _ w)) <> None) by congruence. apply nth_error_Some in X. lia.
    + apply fresh_keep; [discriminate|exact Ho].
  - split; [reflexivity|]. split; [exact HI|]. split; [apply keep_refl|reflexivity].
Qed.

Definition St {r o} : stable ecache (keep None) (has_obj r o) := has_stable r o.
Notation kr := (keep_refl None).
Notation kt := (keep_trans None).
Lemma any_st0 : stable ecache (keep None) (any ecache).
Proof. intros ? ? _ _. exact Logic.I. Qed.
Lemma r_index : forall P, stable ecache (keep None) P -> forall u, Reads P (fun s => url_index s u) (curl_index ecache estep writable autoflush write u) (same ecache).
Proof. intros P SP u. exact (reads_url_index ecache estep writable autoflush write no_cache (keep None) kr kt just_read P SP (fun _ => True) Logic.I (noop_get P SP) read_url u). Qed.
Lemma r_pointer : forall P, stable ecache (keep None) P -> forall u, Reads P (fun s => url_pointer s u) (curl_pointer ecache estep writable autoflush write u) (same ecache).
Proof. intros P SP u. exact (reads_url_pointer ecache estep writable autoflush write no_cache (keep None) kr kt just_read P SP (fun _ => True) Logic.I (noop_get P SP) read_url u). Qed.
Lemma r_article : forall P, stable ecache (keep None) P -> forall u, Reads P (fun s => entry_at_url_is_article s u) (centry_at_url_is_article ecache estep writable autoflush write u) (same ecache).
Proof. intros P SP u. exact (reads_is_article ecache estep writable autoflush write no_cache (keep None) kr kt just_read P SP (fun _ => True) Logic.I (noop_get P SP) read_url u). Qed.
Lemma r_by_index : forall P, stable ecache (keep None) P -> forall i al, Reads P (fun s => get_entry_by_url_index s i) (cget_entry_by_url_index ecache estep writable autoflush write i al) Refers.
Proof. intros P SP i al. exact (reads_by_index ecache estep writable autoflush write no_cache (keep None) kr kt just_read P SP (fun _ => True) (noop_get P SP) i al Logic.I). Qed.
Lemma r_url_key : forall P, stable ecache (keep None) P -> forall p, Reads P (fun s => url_key s p) (curl_key ecache estep writable autoflush write p) (same ecache).
Proof. intros P SP p. exact (reads_url_key ecache estep writable autoflush write no_cache (keep None) kr kt just_read P SP (fun _ => True) Logic.I (noop_get P SP) read_url p). Qed.
Lemma r_nstitle_key : forall P, stable ecache (keep None) P -> forall p, Reads P (fun s => nstitle_key s p) (cnstitle_key ecache estep writable autoflush write p) (same ecache).
Proof. intros P SP p. exact (reads_nstitle_key ecache estep writable autoflush write no_cache (keep None) kr kt just_read P SP (fun _ => True) Logic.I (noop_get P SP) read_now p). Qed.
Lemma r_title_key : forall P, stable ecache (keep None) P -> forall p, Reads P (fun s => title_key s p) (ctitle_key ecache estep writable autoflush write p) (same ecache).
Proof. intros P SP p. exact (reads_title_key ecache estep writable autoflush write no_cache (keep None) kr kt just_read P SP (fun _ => True) Logic.I (noop_get P SP) read_now p). Qed.

(** *** Reading parts *)
Lemma r_is_article : forall r o, Reads (has_obj r o) (fun s => is_article s (obj_went o)) (cis_article ecache estep writable autoflush write r) (same ecache).
Proof.
  intros r o w HI Ho. unfold cis_article, mbind, obj. unfold has_obj in Ho. rewrite Ho. unfold is_article, obj_went. cbn [w_force w_entry w_old_url].
  destruct (co_force o) as [b|].
  - exact (reads_ret ecache no_cache (keep None) kr (has_obj r o) b b _ (fun _ _ => eq_refl) w HI Ho).
  - destruct (negb _).
    + exact (reads_ret ecache no_cache (keep None) kr (has_obj r o) false false _ (fun _ _ => eq_refl) w HI Ho).
    + exact (r_article _ St _ w HI Ho).
Qed.

Lemma old_size : forall e, just_read (obj_new e) e.
Proof. reflexivity. Qed.
Lemma r_find_old : forall r o, Reads (has_obj r o) (fun s => find_old s (obj_went o)) (cfind_old ecache estep writable autoflush write r) (same ecache).
Proof.
  intros r o w HI Ho. unfold cfind_old, mbind at 1, obj. pose proof Ho as Ho'. unfold has_obj in Ho'. rewrite Ho'. unfold find_old, obj_went. cbn [w_old_url w_entry].
  pose proof (r_index _ St (full_url (co_disk o)) w HI Ho) as H.
  destruct (curl_index _ _ _ _ _ _ w) as [[b|y] w1]; destruct H as (Z1 & I1 & E1 & M1); destruct (url_index (cs_zim _ w) _) as [a|x]; try contradiction.
  - unfold same in M1. subst b.
    assert (Ho1 : has_obj r o w1) by (apply E1; [discriminate|exact Ho]).
    match goal with |- let '(_, _) := ?cm w1 in _ => assert (G : Reads (has_obj r o) (fun s =>
      do l <- Ok (pl_ptrs (z_upl s)) ;; do off <- get_by_index l a ;; do old <- get_entry_at s off ;; do size <- entry_disk_size old ;;
      do et <- match z_etpl s with None => Ok None | Some t => match get_by_pointer (pl_ptrs t) a with Ok k => Ok (Some k)
                | Err KeyError => if is_redirect (co_now o) then Ok None else Err KeyError | Err e => Err e end end ;;
      do at_ <- match get_by_pointer (pl_ptrs (z_atpl s)) a with Ok k => Ok (Some k) | Err KeyError => Ok None | Err e => Err e end ;;
      Ok (Some (mkOld a off size et at_))) cm (same ecache)) end.
    { eapply (reads_step ecache no_cache (keep None) kt (has_obj r o) (fun s => Ok (pl_ptrs (z_upl s)))); [exact St|apply reads_query; exact kr|]. intro l.
      eapply (reads_step ecache no_cache (keep None) kt (has_obj r o) (fun _ => get_by_index l a)); [exact St|apply reads_pure; exact kr|]. intro off.
      eapply (reads_bind ecache no_cache (keep None) kt (has_obj r o) (fun s => get_entry_at s off)); [exact St|apply noop_get; [exact St|exact Logic.I]|].
      intros e r' w2 HI2 [(oo & Hoo & ->) Ho2]. unfold mbind at 1, obj. rewrite Hoo. cbn [co_disk obj_new]. revert w2 HI2 Hoo Ho2.
      assert (G : Reads (has_obj r o) (fun s => do size <- entry_disk_size e ;;
        do et <- match z_etpl s with None => Ok None | Some t => match get_by_pointer (pl_ptrs t) a with Ok k => Ok (Some k)
                | Err KeyError => if is_redirect (co_now o) then Ok None else Err KeyError | Err e => Err e end end ;;
        do at_ <- match get_by_pointer (pl_ptrs (z_atpl s)) a with Ok k => Ok (Some k) | Err KeyError => Ok None | Err e => Err e end ;;
        Ok (Some (mkOld a off size et at_))) (let* size := pure (entry_disk_size e) in
         let* et := on_archive ecache (query (fun s => match z_etpl s with None => Ok None | Some t => match get_by_pointer (pl_ptrs t) a with Ok k => Ok (Some k)
                | Err KeyError => if is_redirect (co_now o) then Ok None else Err KeyError | Err e => Err e end end)) in
         let* at_ := on_archive ecache (query (fun s => match get_by_pointer (pl_ptrs (z_atpl s)) a with Ok k => Ok (Some k) | Err KeyError => Ok None | Err e => Err e end)) in
         ret (Some (mkOld a off size et at_))) (same ecache)).
      { eapply (reads_step ecache no_cache (keep None) kt (has_obj r o) (fun _ => entry_disk_size e)); [exact St|apply reads_pure; exact kr|]. intro size.
        eapply (reads_step ecache no_cache (keep None) kt (has_obj r o) (fun s => match z_etpl s with None => Ok None | Some t => match get_by_pointer (pl_ptrs t) a with Ok k => Ok (Some k)
                | Err KeyError => if is_redirect (co_now o) then Ok None else Err KeyError | Err e => Err e end end)); [exact St|apply reads_query; exact kr|]. intro et.
        eapply (reads_step ecache no_cache (keep None) kt (has_obj r o) (fun s => match get_by_pointer (pl_ptrs (z_atpl s)) a with Ok k => Ok (Some k) | Err KeyError => Ok None | Err e => Err e end)); [exact St|apply reads_query; exact kr|]. intro at_.
        apply reads_ret; [exact kr|reflexivity]. }
      intros w2 HI2 _ Ho2. exact (G w2 HI2 Ho2). }
    specialize (G w1 I1 Ho1). rewrite Z1 in G. cbn [bind] in G. match goal with |- let '(_, _) := ?c in _ => destruct c as [r2 w2] end.
    destruct G as (Z2 & I2 & E2 & M2). split; [exact Z2|]. split; [exact I2|]. split; [eapply kt; eassumption|exact M2].
  - subst y. destruct x; (split; [exact Z1|]; split; [exact I1|]; split; [exact E1|]; reflexivity).
Qed.

Definition points (i : Z) (e : entry) : bool := is_redirect e && match e_kind e with Redirect j => j =? i | Content _ _ => false end.
Definition nth_entry (s : zim) (k : Z) : res entry := do p <- get_by_index (pl_ptrs (z_upl s)) k ;; get_entry_at s p.
Lemma r_redirects : forall P, stable ecache (keep None) P -> forall i n k,
  Reads P (fun s => do l <- iter_range (nth_entry s) k n ;; Ok (redirects_to i l)) (credirects_to ecache estep writable autoflush write i n k) (same ecache).
Proof.
  intros P SP i. induction n as [|n IH]; intro k; cbn [iter_range credirects_to]; [apply reads_ret; [exact kr|reflexivity]|].
  apply (reads_ext ecache no_cache (keep None) P (fun s => do l <- Ok (pl_ptrs (z_upl s)) ;; do p <- get_by_index l k ;; do e <- get_entry_at s p ;;
     do rest <- (do l <- iter_range (nth_entry s) (k + 1) n ;; Ok (redirects_to i l)) ;; Ok (if points i e then full_url e :: rest else rest))).
  { intro s. unfold nth_entry at 1. cbn [bind]. destruct (get_by_index _ k) as [p|]; [|reflexivity]. cbn [bind]. destruct (get_entry_at s p) as [e|]; [|reflexivity]. cbn [bind].
    destruct (iter_range (nth_entry s) (k + 1) n); [|reflexivity]. cbn [bind]. unfold redirects_to. cbn [filter]. unfold points.
    match goal with |- context [if ?b then _ else _] => destruct b end; reflexivity. }
  eapply (reads_step ecache no_cache (keep None) kt P (fun s => Ok (pl_ptrs (z_upl s))) _ (fun l s => do p <- get_by_index l k ;; do e <- get_entry_at s p ;;
     do rest <- (do l <- iter_range (nth_entry s) (k + 1) n ;; Ok (redirects_to i l)) ;; Ok (if points i e then full_url e :: rest else rest))); [exact SP|apply reads_query; exact kr|]. intro l.
  eapply (reads_step ecache no_cache (keep None) kt P (fun _ => get_by_index l k) _ (fun p s => do e <- get_entry_at s p ;;
     do rest <- (do l <- iter_range (nth_entry s) (k + 1) n ;; Ok (redirects_to i l)) ;; Ok (if points i e then full_url e :: rest else rest))); [exact SP|apply reads_pure; exact kr|]. intro p.
  eapply (reads_bind ecache no_cache (keep None) kt P (fun s => get_entry_at s p) _ Refers (fun e s =>
     do rest <- (do l <- iter_range (nth_entry s) (k + 1) n ;; Ok (redirects_to i l)) ;; Ok (if points i e then full_url e :: rest else rest))); [exact SP|apply noop_get; [exact SP|exact Logic.I]|].
  intros e r. eapply reads_attrs; [exact read_now|]. eapply reads_less.
  eapply (reads_step ecache no_cache (keep None) kt P (fun s => do l <- iter_range (nth_entry s) (k + 1) n ;; Ok (redirects_to i l)) _ (fun rest _ => Ok (if points i e then full_url e :: rest else rest))); [exact SP|apply IH|].
  intro rest. apply reads_ret; [exact kr|reflexivity].
Qed.
Lemma iter_all : forall s, iter_entries s None None = iter_range (nth_entry s) 0 (Z.to_nat (zlen (pl_ptrs (z_upl s)))).
Proof.
  intro s. unfold iter_entries, iter_bounds. cbv zeta. assert (H : 0 <= zlen (pl_ptrs (z_upl s))) by (unfold zlen; lia).
  replace (zlen (pl_ptrs (z_upl s)) <? zlen (pl_ptrs (z_upl s))) with false by lia. replace (zlen (pl_ptrs (z_upl s)) <? 0) with false by lia.
  change (0 <? 0) with false. rewrite Z.sub_0_r. reflexivity.
Qed.
Lemma r_all_redirects : forall P, stable ecache (keep None) P -> forall i,
  Reads P (fun s => do l <- iter_entries s None None ;; Ok (redirects_to i l))
    (let* l := urls ecache in credirects_to ecache estep writable autoflush write i (Z.to_nat (zlen l)) 0) (same ecache).
Proof.
  intros P SP i. apply (reads_ext ecache no_cache (keep None) P (fun s => do l0 <- Ok (pl_ptrs (z_upl s)) ;; do l <- iter_range (nth_entry s) 0 (Z.to_nat (zlen l0)) ;; Ok (redirects_to i l))).
  { intro s. cbn [bind]. rewrite iter_all. reflexivity. }
  eapply (reads_step ecache no_cache (keep None) kt P (fun s => Ok (pl_ptrs (z_upl s))) _ (fun l0 s => do l <- iter_range (nth_entry s) 0 (Z.to_nat (zlen l0)) ;; Ok (redirects_to i l))); [exact SP|apply reads_query; exact kr|].
  intro l. apply r_redirects. exact SP.
Qed.

(** *** Changing parts *)
Lemma kept_any : forall {A} x (m : M zim A) cm, sim x (any ecache) m cm (same ecache) -> sim x (any ecache) m cm (kept (any ecache)).
Proof. intros A x m cm H. eapply sim_weak; [right; reflexivity|intros w X; exact X| |exact H]. intros a b w E. split; [exact E|exact Logic.I]. Qed.
Lemma sim_set : forall {A B} r o o' (m : M zim A) (cm : M cw B) R, sim (Some r) (has_obj r o') m cm R ->
  sim (Some r) (has_obj r o) m (let* _ := set_obj ecache r o' in cm) R.
Proof.
  intros A B r o o' m cm R H w HI Ho. unfold mbind, set_obj. set (w1 := with_objs _ (list_set (cs_objs _ w) r o') w).
  assert (L : (r < length (cs_objs _ w))%nat) by (apply nth_error_Some; unfold has_obj in Ho; congruence).
  assert (K1 : keep (Some r) w w1).
  { intros r' o1 N X. unfold has_obj, w1 in *. destruct w as [z c l]. cbn in *. rewrite list_set_nth by exact L. destruct (Nat.eqb_spec r' r); [congruence|exact X]. }
  assert (H1 : has_obj r o' w1).
  { unfold has_obj, w1. destruct w as [z c l]. cbn in *. rewrite list_set_nth, Nat.eqb_refl by exact L. reflexivity. }
  assert (I1 : no_cache w1) by (destruct w; exact HI). specialize (H w1 I1 H1). replace (cs_zim _ w1) with (cs_zim _ w) in H by (destruct w; reflexivity).
  destruct (m (cs_zim _ w)) as [r0 s]. destruct (cm w1) as [r1 w']. destruct H as (Z2 & I2 & K2 & M2).
  split; [exact Z2|]. split; [exact I2|]. split; [eapply keep_trans; eassumption|exact M2].
Qed.
(** A call of [set_redirect_index] on the object. *)
Lemma redirect_eq : forall o v, match e_kind (co_now o) with
  | Content _ _ => obj_redirect v o = Err AttributeError
  | Redirect _ => match set_redirect_index (co_now o) v with
                  | Err x => obj_redirect v o = Err x
                  | Ok e' => exists o', obj_redirect v o = Ok o' /\ co_now o' = e' /\ co_disk o' = co_disk o /\ co_force o' = co_force o
                  end
  end.
Proof.
  intros o v. unfold obj_redirect, set_redirect_index. destruct (e_kind (co_now o)) as [c b|t] eqn:E; [reflexivity|]. destruct (v <? 0); [reflexivity|].
  destruct (v =? t) eqn:Ev; eexists; (split; [reflexivity|]); [|auto]. split; [|auto].
  apply Z.eqb_eq in Ev. subst v. unfold with_redirect_index. rewrite <- E. destruct (co_now o); reflexivity.
Qed.
Lemma sim_redirect : forall {A B} r o v (m : entry -> M zim A) (cm : cobj -> M cw B) R t, e_kind (co_now o) = Redirect t ->
  (forall o', co_now o' = with_redirect_index (co_now o) v -> co_disk o' = co_disk o -> co_force o' = co_force o ->
     sim (Some r) (has_obj r o') (m (co_now o')) (cm o') R) ->
  sim (Some r) (has_obj r o) (let* e' := query (fun _ => set_redirect_index (co_now o) v) in m e')
    (let* o' := pure (obj_redirect v o) in let* _ := set_obj ecache r o' in cm o') R.
Proof.
  intros A B r o v m cm R t E H. pose proof (redirect_eq o v) as X. rewrite E in X. intros w HI Ho. unfold mbind at 1 2, query, pure.
  destruct (set_redirect_index (co_now o) v) as [e'|x] eqn:Es.
  - destruct X as (o' & -> & E1 & E2 & E3). assert (Ee : e' = with_redirect_index (co_now o) v) by (unfold set_redirect_index in Es; destruct (v <? 0); congruence).
    pose proof (sim_set r o o' _ _ _ (H o' (eq_trans E1 Ee) E2 E3)) as G. rewrite E1 in G. exact (G w HI Ho).
  - rewrite X. split; [reflexivity|]. split; [exact HI|]. split; [apply keep_refl|reflexivity].
Qed.

Lemma s_update_redirect : forall start diff skip e r,
  sim (Some r) (has_obj r (obj_new e)) (update_redirect (fun w => rec w true) start diff skip e)
    (cupdate_redirect ecache estep writable autoflush write start diff skip r) (fun _ _ _ => True).
Proof.
  intros start diff skip e r. unfold update_redirect, cupdate_redirect. apply sim_obj. cbn [co_now obj_new].
  destruct (is_redirect e && negb (umem (full_url e) skip)); [|apply sim_ret; auto]. destruct (e_kind e) as [c b|t] eqn:Ek; [apply sim_raise|].
  destruct (start <=? t); [|apply sim_ret; auto].
  apply (sim_redirect r (obj_new e) (t + diff) (fun e' => let* p := query (fun s => url_pointer s (full_url e')) in if t + diff =? p then raise AssertionError else rec (fresh e') true)
    (fun o' => let* p := curl_pointer ecache estep writable autoflush write (full_url (co_now o')) in if t + diff =? p then raise AssertionError else write r true) _ t); [exact Ek|].
  intros o' E1 E2 E3. eapply sim_step; [apply reads_kept; apply r_pointer; exact St|]. intro p. destruct (t + diff =? p); [apply sim_raise|].
  replace (fresh (co_now o')) with (obj_went o'); [apply REC|]. unfold obj_went, fresh. rewrite E1, E2, E3. reflexivity.
Qed.
Lemma s_for : forall body cbody, (forall e r, sim (Some r) (has_obj r (obj_new e)) (body e) (cbody r) (fun _ _ _ => True)) ->
  forall n i, sim None (any ecache) (for_entries n i body) (cfor_entries ecache estep writable autoflush write n i cbody) (same ecache).
Proof.
  intros body cbody H. induction n as [|n IH]; intro i; cbn [for_entries cfor_entries]; [apply sim_ret; reflexivity|].
  apply (sim_ext None (any ecache) (let* l := query (fun s => Ok (pl_ptrs (z_upl s))) in let* p := query (fun _ => get_by_index l i) in
    let* e := query (fun s => get_entry_at s p) in let* _ := body e in for_entries n (i + 1) body)).
  { intro s. unfold mbind, query. destruct (get_by_index _ i); reflexivity. }
  eapply sim_step; [apply kept_any; exact (reads_sim _ _ _ _ (reads_query ecache no_cache (keep None) kr (any ecache) _))|]. intro l.
  eapply sim_step; [apply kept_any; exact (reads_sim _ _ _ _ (reads_pure ecache no_cache (keep None) kr (any ecache) _))|]. intro p.
  apply sim_get. intros e r. eapply sim_bind; [apply H|]. intros a b. eapply sim_weak; [left; reflexivity| | |apply IH]; [intros; exact Logic.I|intros ? ? ? X; exact X].
Qed.
Lemma s_update_url : forall start diff ea skip,
  sim None (any ecache) (update_url_pointers (fun w => rec w true) start diff ea skip)
    (cupdate_url_pointers ecache estep writable autoflush write start diff ea skip) (same ecache).
Proof.
  intros start diff ea skip. unfold update_url_pointers, cupdate_url_pointers.
  eapply sim_step; [apply kept_any; apply sim_archive_any|]. intro u1.
  eapply sim_step; [destruct ea; [apply kept_any; apply sim_archive_any|apply sim_ret; intros; split; [reflexivity|exact Logic.I]]|]. intro u2.
  apply (sim_ext None (any ecache) (let* l := query (fun s => Ok (pl_ptrs (z_upl s))) in
    let* _ := for_entries (Z.to_nat (zlen l)) 0 (update_redirect (fun w => rec w true) start diff skip) in
    update (fun s => match z_main s with Some m => Ok (if start <? m then set_main (Some (m + diff)) s else s) | None => Ok s end))).
  { intro s. reflexivity. }
  eapply sim_step; [apply kept_any; apply sim_archive_any|]. intro l.
  eapply sim_step; [apply kept_any; apply s_for; intros; apply s_update_redirect|]. intro u3. apply sim_archive_any.
Qed.

Lemma s_write_at : forall off r o,
  sim (Some r) (has_obj r o) (write_at off (co_now o)) (cwrite_at ecache estep writable autoflush write off r) (fun _ _ => has_obj r (obj_flushed o)).
Proof.
  intros off r o. unfold cwrite_at. apply sim_obj.
  apply (sim_ext _ _ (let* u := write_at off (co_now o) in ret u)).
  { intro s. unfold mbind. destruct (write_at off (co_now o) s) as [[[]|x] s1]; reflexivity. }
  eapply sim_step; [apply sim_archive|]. intro u. apply sim_set. intros w HI Ho. destruct w as [z c l]. unfold no_cache in HI. cbn in HI. subst c. cbn.
  split; [reflexivity|]. split; [reflexivity|]. split; [apply keep_refl|exact Ho].
Qed.

Lemma s_add : forall P, stable ecache (keep None) P -> forall (kf : zim -> Z -> res bytes) mkf, (forall i, Reads P (fun s => kf s i) (mkf i) (same ecache)) ->
  forall k i t, Reads P (fun s => pl_add (kf s) k i t) (mpl_add mkf k i t) (same ecache).
Proof. intros P SP kf mkf H k i t. exact (reads_add ecache no_cache (keep None) kr kt P SP kf mkf H k i t). Qed.
Lemma s_titles : forall r o article i,
  sim (Some r) (has_obj r o) (add_titles (co_now o) article i) (cadd_titles ecache estep writable autoflush write r article i) (kept (has_obj r o)).
Proof.
  intros r o article i. unfold cadd_titles. apply sim_entry. set (e := co_now o).
  apply (sim_ext _ _ (let* t := query (fun s => Ok (z_etpl s)) in
    let* _ := match t with
              | None => ret tt
              | Some t => let* k := query (fun _ => encode (e_ns e ++ title e)) in
                          let* it := query (fun s => pl_add (nstitle_key s) k i t) in
                          update (fun s => Ok (set_etpl (Some (snd it)) s))
              end in
    if article then
      let* k := query (fun _ => encode (title e)) in
      let* t := query (fun s => Ok (z_atpl s)) in
      let* it := query (fun s => pl_add (title_key s) k i t) in
      update (fun s => Ok (set_atpl (snd it) s))
    else ret tt)).
  { intro s. unfold add_titles, mbind, query, update.
    assert (G : forall s1, (match (if article then do k <- encode (title e) ;; do it <- pl_add (title_key s1) k i (z_atpl s1) ;; Ok (set_atpl (snd it) s1) else Ok s1) with Ok s' => (Ok tt, s') | Err e => (Err e, s1) end) =
      (if article then fun s0 => let (r0, s2) := (encode (title e), s0) in match r0 with Ok k => (let (r1, s3) := (Ok (z_atpl s2), s2) in match r1 with Ok t => (let (r2, s4) := (pl_add (title_key s3) k i t, s3) in
         match r2 with Ok it => match Ok (set_atpl (snd it) s4) with Ok s' => (Ok tt, s') | Err e => (Err e, s4) end | Err x => (Err x, s4) end) | Err x => (Err x, s3) end) | Err x => (Err x, s2) end else ret tt) s1).
    { intro s1. destruct article; [|reflexivity]. destruct (encode (title e)); [|reflexivity]. cbn [bind]. destruct (pl_add _ _ _ _); reflexivity. }
    destruct (z_etpl s) as [t|] eqn:Et; cbn [bind].
    - destruct (encode (e_ns e ++ title e)) as [k|]; [|reflexivity]. cbn [bind]. destruct (pl_add (nstitle_key s) k i t) as [it|]; [|reflexivity]. cbn [bind]. apply G.
    - apply G. }
  eapply sim_step; [apply sim_archive|]. intro t. eapply sim_step.
  - destruct t as [t|]; [|apply sim_ret; intros; split; [reflexivity|assumption]].
    eapply sim_step; [apply reads_kept; apply reads_pure; exact kr|]. intro k.
    eapply sim_step; [apply reads_kept; apply s_add; [exact St|apply r_nstitle_key; exact St]|]. intro it. apply sim_archive.
  - intros _. destruct article; [|apply sim_ret; intros; split; [reflexivity|assumption]].
    eapply sim_step; [apply reads_kept; apply reads_pure; exact kr|]. intro k.
    eapply sim_step; [apply sim_archive|]. intro t'.
    eapply sim_step; [apply reads_kept; apply s_add; [exact St|apply r_title_key; exact St]|]. intro it. apply sim_archive.
Qed.

Lemma sim_by_url : forall {A B} u (m2 : entry -> M zim A) (cm2 : nat -> M cw B) (R : A -> B -> cw -> Prop),
  (forall e r, sim (Some r) (has_obj r (obj_new e)) (m2 e) (cm2 r) R) ->
  sim None (any ecache) (let* e := query (fun s => get_entry_by_full_url s u) in m2 e)
    (let* r := cget_entry_by_full_url ecache estep writable autoflush write u in cm2 r) R.
Proof.
  intros A B u m2 cm2 R H w HI HP. unfold mbind at 2, cget_entry_by_full_url. pose proof (r_pointer _ any_st0 u w HI HP) as X.
  unfold mbind at 1, query, get_entry_by_full_url.
  destruct (curl_pointer _ _ _ _ _ u w) as [[b|y] w1]; destruct X as (Z1 & I1 & E1 & M1); destruct (url_pointer (cs_zim _ w) u) as [a|x]; try contradiction.
  - unfold same in M1. subst b. pose proof (sim_get a true m2 cm2 R H w1 I1 Logic.I) as G. rewrite Z1 in G. unfold mbind, query in G.
    destruct (get_entry_at (cs_zim _ w) a) as [e|x].
    + destruct (m2 e (cs_zim _ w)) as [r0 s]. destruct (cget_at a true w1) as [[rr|xx] w2]; [destruct (cm2 rr w2) as [r3 w3]|];
        (destruct G as (Z2 & I2 & K2 & M2); split; [exact Z2|]; split; [exact I2|]; split; [eapply kt; eassumption|exact M2]).
    + destruct (cget_at a true w1) as [[rr|xx] w2]; [destruct (cm2 rr w2) as [r3 w3]|];
        (destruct G as (Z2 & I2 & K2 & M2); split; [exact Z2|]; split; [exact I2|]; split; [eapply kt; eassumption|exact M2]).
  - subst y. destruct x; (split; [exact Z1|]; split; [exact I1|]; split; [exact E1|reflexivity]).
Qed.
Lemma s_retarget : forall i us, sim None (any ecache) (retarget (fun w => rec w false) us i) (cretarget ecache estep writable autoflush write us i) (same ecache).
Proof.
  intro i. induction us as [|u us IH]; cbn [retarget cretarget]; [apply sim_ret; reflexivity|]. apply sim_by_url. intros e r. apply sim_obj.
  destruct (e_kind e) as [c b|t] eqn:Ek.
  - intros w HI Ho. unfold mbind, query, pure. pose proof (redirect_eq (obj_new e) i) as X. cbn [co_now obj_new] in X. rewrite Ek in X. rewrite X.
    split; [reflexivity|]. split; [exact HI|]. split; [apply keep_refl|reflexivity].
  - apply (sim_redirect r (obj_new e) i (fun e' => let* _ := rec (fresh e') false in retarget (fun w => rec w false) us i)
      (fun _ => let* _ := write r false in cretarget ecache estep writable autoflush write us i) _ t); [exact Ek|].
    intros o' E1 E2 E3. eapply sim_bind.
    + replace (fresh (co_now o')) with (obj_went o'); [apply REC|]. unfold obj_went, fresh. rewrite E1, E2, E3. reflexivity.
    + intros a b. eapply sim_weak; [left; reflexivity| | |apply IH]; [intros; exact Logic.I|intros ? ? ? X; exact X].
Qed.

(** What the object is when the write is over. *)
Definition settled (r : nat) (e : entry) (w : cw) : Prop := exists o, has_obj r o w /\ co_now o = e.
Lemma s_end : forall r e,
  sim (Some r) (settled r e) (if is_redirect e then let* _ := query (fun s => follow s e) in ret tt else ret tt)
    (let* e := entry_of ecache r in if is_redirect e then let* t := cfollow ecache estep writable autoflush write r in let* _ := entry_of ecache t in ret tt else ret tt)
    (fun _ _ _ => True).
Proof.
  intros r e w HI (o & Ho & <-). revert w HI Ho. change (sim (Some r) (has_obj r o) (if is_redirect (co_now o) then let* _ := query (fun s => follow s (co_now o)) in ret tt else ret tt)
    (let* e := entry_of ecache r in if is_redirect e then let* t := cfollow ecache estep writable autoflush write r in let* _ := entry_of ecache t in ret tt else ret tt) (fun _ _ _ => True)).
  apply sim_entry. destruct (is_redirect (co_now o)); [|apply sim_ret; auto].
  eapply (sim_bind (Some r) (has_obj r o) _ _ (fun e t w => Refers e t w)).
  - eapply sim_weak; [left; reflexivity|intros w H; exact H| |].
    2:{ unfold cfollow, follow. apply sim_entry. apply reads_sim. destruct (e_kind (co_now o)) as [c b|t].
        - intros w HI Ho. split; [reflexivity|]. split; [exact HI|]. split; [apply keep_refl|reflexivity].
        - apply r_by_index. exact St. }
    intros a b w H. exact H.
  - intros a b w HI (ob & Hb & ->). unfold mbind, entry_of, mbind, obj. rewrite Hb. cbn. split; [reflexivity|]. split; [exact HI|]. split; [apply keep_refl|exact Logic.I].
Qed.

Lemma s_any : forall {A} r o (m : M zim A) cm, sim None (any ecache) m cm (same ecache) -> sim (Some r) (has_obj r o) m cm (kept (has_obj r o)).
Proof. intros A r o m cm H. apply sim_none. exact H. Qed.
Lemma s_ret : forall {A} r o (a : A), sim (Some r) (has_obj r o) (ret a) (ret a) (kept (has_obj r o)).
Proof. intros A r o a. apply sim_ret. intros w H. split; [reflexivity|exact H]. Qed.

Theorem s_write_body : forall r o u t,
  sim (Some r) (has_obj r o) (write_body rec (obj_went o) u t) (cwrite_body ecache estep writable autoflush write r u t) (fun _ _ _ => True).
Proof.
  intros r o u t. unfold write_body, cwrite_body. apply sim_obj. cbv zeta. change (w_entry (obj_went o)) with (co_now o). change (w_old_url (obj_went o)) with (full_url (co_disk o)).
  eapply sim_step; [apply reads_kept; apply r_is_article|]. intro article.
  eapply sim_step; [apply reads_kept; apply reads_pure; exact kr|]. intro new_size.
  eapply sim_step; [apply reads_kept; apply r_find_old|]. intro old.
  set (sc := match old with None => true | Some o => negb (o_size o =? new_size) end).
  set (uc := match old with None => true | Some _ => negb (ueqb (full_url (co_disk o)) (full_url (co_now o))) end).
  eapply sim_step.
  { destruct old as [x|]; [destruct (u && uc)|].
    - apply reads_kept. apply r_all_redirects. exact St.
    - apply reads_kept. apply reads_ret; [exact kr|reflexivity].
    - apply reads_kept. apply reads_ret; [exact kr|reflexivity]. }
  intro to_update. eapply sim_step.
  { destruct old as [x|]; [destruct sc|]; [apply sim_archive|apply s_ret|apply s_ret]. }
  intros _. eapply sim_step.
  { destruct old as [x|]; [destruct sc|]; [apply sim_archive|apply s_ret|apply sim_archive]. }
  intro offset. eapply sim_bind; [apply s_write_at|]. intros ? ?; cbv beta. set (o1 := obj_flushed o).
  change (co_now o) with (co_now o1).
  eapply sim_step; [apply sim_archive|]. intros _. eapply sim_step; [apply sim_archive|]. intros _.
  eapply sim_step.
  { destruct old as [x|]; [destruct (uc || sc)|]; [|apply s_ret|apply s_ret].
    eapply sim_step; [apply sim_archive|]. intros _. apply s_any. apply s_update_url. }
  intros _.
  eapply (sim_bind (Some r) (has_obj r o1) _ _ (fun ie i w => i = fst ie /\ settled r (snd ie) w)).
  { destruct (uc || sc).
    2:{ apply sim_ret. intros w Ho. split; [reflexivity|]. exists o1. split; [exact Ho|reflexivity]. }
    apply sim_obj.
    apply (sim_ext _ _ (let* k := query (fun _ => encode (full_url (co_now o1))) in let* ul := query (fun s => Ok (z_upl s)) in
      let* iu := query (fun s => pl_add (url_key s) k offset ul) in let* _ := update (fun s => Ok (set_upl (snd iu) s)) in
      let* _ := update_url_pointers (fun w => rec w true) (fst iu) 1 true [full_url (co_now o1)] in
      let* e' := query (fun _ => bump_own (fst iu) (co_now o1)) in
      let* _ := match e_kind (co_now o1) with
                | Redirect r => if is_redirect (co_now o1) && (fst iu <=? r) then write_at offset e' else ret tt
                | Content _ _ => ret tt end in
      match e_kind e' with
      | Redirect r => if is_redirect e' && (r =? fst iu) then raise AssertionError else ret (fst iu, e')
      | Content _ _ => ret (fst iu, e') end)).
    { intro s. unfold mbind, query, update. destruct (encode (full_url (co_now o1))) as [k|]; [|reflexivity].
      destruct (pl_add (url_key s) k offset (z_upl s)) as [[i ul]|]; reflexivity. }
    eapply sim_step; [apply reads_kept; apply reads_pure; exact kr|]. intro k.
    eapply sim_step; [apply sim_archive|]. intro ul.
    eapply sim_step; [apply reads_kept; apply s_add; [exact St|apply r_url_key; exact St]|]. intro iu. set (i := fst iu).
    eapply sim_step; [apply sim_archive|]. intros _.
    eapply sim_step; [apply s_any; apply s_update_url|]. intros _. apply sim_obj.
    assert (FIN : forall o2, sim (Some r) (has_obj r o2) (match e_kind (co_now o2) with
      | Redirect r => if is_redirect (co_now o2) && (r =? i) then raise AssertionError else ret (i, co_now o2)
      | Content _ _ => ret (i, co_now o2) end) (let* e := entry_of ecache r in match e_kind e with
                | Redirect t => if is_redirect e && (t =? i) then raise AssertionError else ret i
                | Content _ _ => ret i end) (fun ie i0 w => i0 = fst ie /\ settled r (snd ie) w)).
    { intro o2. apply sim_entry. destruct (e_kind (co_now o2)) as [cx bx|t2]; [|destruct (_ && _); [apply sim_raise|]];
        (apply sim_ret; intros w Ho; split; [reflexivity|]; exists o2; split; [exact Ho|reflexivity]). }
    unfold bump_own. destruct (e_kind (co_now o1)) as [cx bx|t1] eqn:Ek; destruct (is_redirect (co_now o1)) eqn:Er; cbn [andb].
    - intros w HI Ho. split; [reflexivity|]. split; [exact HI|]. split; [apply keep_refl|reflexivity].
    - eapply sim_ext; [intro s; unfold mbind, query; reflexivity|]. eapply (sim_ext _ _ (match e_kind (co_now o1) with
        | Redirect r => if is_redirect (co_now o1) && (r =? i) then raise AssertionError else ret (i, co_now o1) | Content _ _ => ret (i, co_now o1) end)); [reflexivity|].
      exact (FIN o1).
    - destruct (i <=? t1).
      + apply (sim_ext_r _ _ _ (let* o' := pure (obj_redirect (t1 + 1) o1) in let* _ := set_obj ecache r o' in
          let* _ := cwrite_at ecache estep writable autoflush write offset r in let* e := entry_of ecache r in match e_kind e with
                | Redirect t => if is_redirect e && (t =? i) then raise AssertionError else ret i
                | Content _ _ => ret i end)).
        { intro w. rewrite mbind_assoc. unfold pure. unfold mbind at 1 4. destruct (obj_redirect (t1 + 1) o1) as [o'|]; [|reflexivity]. rewrite mbind_assoc. reflexivity. }
        apply (sim_redirect r o1 (t1 + 1) (fun e' => let* _ := write_at offset e' in match e_kind e' with
          | Redirect r => if is_redirect e' && (r =? i) then raise AssertionError else ret (i, e') | Content _ _ => ret (i, e') end)
          (fun _ => let* _ := cwrite_at ecache estep writable autoflush write offset r in let* e := entry_of ecache r in match e_kind e with
                | Redirect t => if is_redirect e && (t =? i) then raise AssertionError else ret i
                | Content _ _ => ret i end) _ t1 Ek).
        intros o' _ _ _. eapply sim_bind; [apply s_write_at|]. intros ? ?; cbv beta. exact (FIN (obj_flushed o')).
      + exact (FIN o1).
    - exact (FIN o1). }
  intros [i e'] i'. cbn [fst snd]. intros w HI [-> HS]. revert w HI HS.
  match goal with |- forall w, no_cache w -> settled r e' w -> let '(_, _) := ?m (cs_zim _ w) in let '(_, _) := ?cm w in _ => change (sim (Some r) (settled r e') m cm (fun _ _ _ => True)) end.
  assert (KS : forall (m : M zim unit) cm, (forall o, co_now o = e' -> sim (Some r) (has_obj r o) m cm (kept (has_obj r o))) -> sim (Some r) (settled r e') m cm (fun _ _ => settled r e')).
  { intros m cm H w HI (o2 & H2 & E2). specialize (H o2 E2 w HI H2). destruct (m (cs_zim _ w)) as [r0 s]. destruct (cm w) as [r1 w']. destruct H as (Z1 & I1 & K1 & M1).
    split; [exact Z1|]. split; [exact I1|]. split; [exact K1|]. destruct r0, r1; try exact M1. destruct M1 as [_ M1]. exists o2. split; assumption. }
  eapply sim_bind.
  { apply KS. intros o2 E2. destruct t; [|apply s_ret]. rewrite <- E2. apply s_titles. }
  intros ? ?; cbv beta. eapply sim_bind.
  { apply KS. intros o2 E2. destruct (opt_eqb _ _); [apply s_ret|]. apply s_any. apply s_retarget. }
  intros ? ?; cbv beta. apply s_end.
Qed.

(** *** Removing *)
Fixpoint removable_loop (s : zim) (i : Z) (n : nat) (k : Z) : res (list ustr) :=
  match n with
  | O => Ok []
  | S n =>
      do e <- nth_entry s k ;;
      do keep <- (if points i e then do t <- get_entry_by_url_index s i ;; Ok (negb (ueqb (full_url t) (full_url e))) else Ok false) ;;
      do rest <- removable_loop s i n (k + 1) ;;
      Ok (if keep then full_url e :: rest else rest)
  end.
Lemma removable_same : forall s i t, get_entry_by_url_index s i = Ok t -> forall n k,
  (do l <- iter_range (nth_entry s) k n ;; removable_redirects s i l) = removable_loop s i n k.
Proof.
  intros s i t Ht. induction n as [|n IH]; intro k; [reflexivity|]. cbn [iter_range removable_loop]. destruct (nth_entry s k) as [e|]; [|reflexivity]. cbn [bind].
  rewrite <- IH, Ht. destruct (iter_range (nth_entry s) (k + 1) n) as [l|]; cbn [bind removable_redirects]; [fold (points i e); rewrite Ht; reflexivity|].
  destruct (points i e); reflexivity.
Qed.
Lemma r_removable : forall P, stable ecache (keep None) P -> forall i n k,
  Reads P (fun s => removable_loop s i n k) (cremovable_redirects ecache estep writable autoflush write i n k) (same ecache).
Proof.
  intros P SP i. induction n as [|n IH]; intro k; cbn [removable_loop cremovable_redirects]; [apply reads_ret; [exact kr|reflexivity]|].
  apply (reads_ext ecache no_cache (keep None) P (fun s => do l <- Ok (pl_ptrs (z_upl s)) ;; do p <- get_by_index l k ;; do e <- get_entry_at s p ;;
     do keep <- (if points i e then do t <- get_entry_by_url_index s i ;; Ok (negb (ueqb (full_url t) (full_url e))) else Ok false) ;;
     do rest <- removable_loop s i n (k + 1) ;; Ok (if keep then full_url e :: rest else rest))).
  { intro s. unfold nth_entry at 1. cbn [bind]. destruct (get_by_index _ k) as [p|]; reflexivity. }
  eapply (reads_step ecache no_cache (keep None) kt P (fun s => Ok (pl_ptrs (z_upl s))) _ (fun l s => do p <- get_by_index l k ;; do e <- get_entry_at s p ;;
     do keep <- (if points i e then do t <- get_entry_by_url_index s i ;; Ok (negb (ueqb (full_url t) (full_url e))) else Ok false) ;;
     do rest <- removable_loop s i n (k + 1) ;; Ok (if keep then full_url e :: rest else rest))); [exact SP|apply reads_query; exact kr|]. intro l.
  eapply (reads_step ecache no_cache (keep None) kt P (fun _ => get_by_index l k) _ (fun p s => do e <- get_entry_at s p ;;
     do keep <- (if points i e then do t <- get_entry_by_url_index s i ;; Ok (negb (ueqb (full_url t) (full_url e))) else Ok false) ;;
     do rest <- removable_loop s i n (k + 1) ;; Ok (if keep then full_url e :: rest else rest))); [exact SP|apply reads_pure; exact kr|]. intro p.
  eapply (reads_bind ecache no_cache (keep None) kt P (fun s => get_entry_at s p) _ Refers (fun e s =>
     do keep <- (if points i e then do t <- get_entry_by_url_index s i ;; Ok (negb (ueqb (full_url t) (full_url e))) else Ok false) ;;
     do rest <- removable_loop s i n (k + 1) ;; Ok (if keep then full_url e :: rest else rest))); [exact SP|apply noop_get; [exact SP|exact Logic.I]|].
  intros e r. eapply reads_attrs; [exact read_now|]. eapply reads_less.
  eapply (reads_step ecache no_cache (keep None) kt P (fun s => if points i e then do t <- get_entry_by_url_index s i ;; Ok (negb (ueqb (full_url t) (full_url e))) else Ok false) _
    (fun keep s => do rest <- removable_loop s i n (k + 1) ;; Ok (if keep then full_url e :: rest else rest))); [exact SP| |].
  - fold (points i e). destruct (points i e); [|apply reads_ret; [exact kr|reflexivity]].
    eapply (reads_bind ecache no_cache (keep None) kt P (fun s => get_entry_by_url_index s i) _ Refers (fun t _ => Ok (negb (ueqb (full_url t) (full_url e))))); [exact SP|apply r_by_index; exact SP|].
    intros t rt. eapply reads_attrs; [exact read_now|]. apply reads_ret; [exact kr|reflexivity].
  - intro kp. eapply (reads_step ecache no_cache (keep None) kt P (fun s => removable_loop s i n (k + 1)) _ (fun rest _ => Ok (if kp then full_url e :: rest else rest))); [exact SP|apply IH|].
    intro rest. apply reads_ret; [exact kr|reflexivity].
Qed.

Variable rmrec : ustr -> M zim unit.
Variable crmrec : ustr -> M cw unit.
Hypothesis RMREC : forall u, sim None (any ecache) (rmrec u) (crmrec u) (same ecache).

Lemma s_fold : forall l (m : M zim unit) (cm : M cw unit) r o, sim (Some r) (has_obj r o) m cm (fun _ _ _ => True) ->
  sim (Some r) (has_obj r o) (fold_left (fun m u => let* _ := m in rmrec u) l m) (fold_left (fun m u => let* _ := m in crmrec u) l cm) (fun _ _ _ => True).
Proof.
  induction l as [|u l IH]; intros m cm r o H; [exact H|]. cbn [fold_left]. apply IH. eapply sim_bind; [exact H|]. intros a b.
  eapply sim_weak; [left; reflexivity| | |apply RMREC]; [intros; exact Logic.I|intros; exact Logic.I].
Qed.

(** Steps that remember what was read. *)
Definition zp (Q : zim -> Prop) (w : cw) : Prop := Q (cs_zim _ w).
Lemma sim_known : forall {A A' B'} Q (q : zim -> res A) (cm : M cw A) (m2 : A -> M zim A') (cm2 : A -> M cw B') R,
  Reads (any ecache) q cm (same ecache) -> (forall a, sim None (zp (fun s => Q s /\ q s = Ok a)) (m2 a) (cm2 a) R) ->
  sim None (zp Q) (mbind (query q) m2) (mbind cm cm2) R.
Proof.
  intros A A' B' Q q cm m2 cm2 R H1 H2 w HI HQ. specialize (H1 w HI Logic.I). unfold mbind, query.
  destruct (cm w) as [[b|y] w1]; destruct H1 as (Z1 & I1 & K1 & M1); destruct (q (cs_zim _ w)) as [a|x] eqn:Eq; try contradiction.
  - unfold same in M1. subst b. specialize (H2 a w1 I1). unfold zp in *. rewrite Z1 in H2. specialize (H2 (conj HQ Eq)).
    destruct (m2 a (cs_zim _ w)) as [r0 s]. destruct (cm2 a w1) as [r1 w2]. destruct H2 as (Z2 & I2 & K2 & M2).
    split; [exact Z2|]. split; [exact I2|]. split; [eapply kt; eassumption|exact M2].
  - split; [exact Z1|]. split; [exact I1|]. split; [exact K1|exact M1].
Qed.
Lemma sim_get_known : forall {A B} Q p allow (m2 : entry -> M zim A) (cm2 : nat -> M cw B) (R : A -> B -> cw -> Prop),
  (forall e r, sim (Some r) (fun w => zp (fun s => Q s /\ get_entry_at s p = Ok e) w /\ has_obj r (obj_new e) w) (m2 e) (cm2 r) R) ->
  sim None (zp Q) (let* e := query (fun s => get_entry_at s p) in m2 e) (let* r := cget_at p allow in cm2 r) R.
Proof.
  intros A B Q p allow m2 cm2 R H w HI HQ. unfold mbind, query. rewrite (get_at_eq p allow w HI). destruct (get_entry_at (cs_zim _ w) p) as [e|x] eqn:Ee.
  - assert (HI' : no_cache (with_objs _ (cs_objs _ w ++ [obj_new e]) w)) by (destruct w; exact HI).
    assert (Zs : cs_zim _ (with_objs _ (cs_objs _ w ++ [obj_new e]) w) = cs_zim _ w) by (destruct w; reflexivity).
    specialize (H e (length (cs_objs _ w)) _ HI'). unfold zp in H. rewrite Zs in H. specialize (H (conj (conj HQ Ee) (fresh_has w (obj_new e)))).
    destruct (m2 e (cs_zim _ w)) as [r0 s]. destruct (cm2 _ _) as [r w']. destruct H as (Z1 & I1 & K1 & M1).
    split; [exact Z1|]. split; [exact I1|]. split; [|exact M1].
    intros r' o' _ Ho. apply K1.
    + intros [= <-]. unfold has_obj in Ho. assert (X : nth_error (cs_objs _ w) (length (cs_objs _ w)) <> None) by congruence. apply nth_error_Some in X. lia.
    + apply fresh_keep; [discriminate|exact Ho].
  - split; [reflexivity|]. split; [exact HI|]. split; [apply keep_refl|reflexivity].
Qed.

Theorem s_remove_body : forall url,
  sim None (any ecache) (remove_body keep_blob (fun w => rec w true) rmrec url) (cremove_body ecache estep writable autoflush write crmrec url) (same ecache).
Proof.
  intro url. unfold remove_body, cremove_body. eapply (sim_weak None None (zp (fun _ => True))); [left; reflexivity|intros; exact Logic.I|intros ? ? ? X; exact X|].
  eapply sim_known.
  { intros w HI _. pose proof (r_index _ any_st0 url w HI Logic.I) as X.
    destruct (curl_index _ _ _ _ _ url w) as [[b|y] w1]; destruct X as (Z1 & I1 & E1 & M1); destruct (url_index (cs_zim _ w) url) as [i|x]; try contradiction.
    - split; [exact Z1|]. split; [exact I1|]. split; [exact E1|exact M1].
    - subst y. destruct x; (split; [exact Z1|]; split; [exact I1|]; split; [exact E1|reflexivity]). }
  intro i.
  apply (sim_ext None _ (let* l := query (fun s => Ok (pl_ptrs (z_upl s))) in let* offset := query (fun s => get_by_index l i) in
    let* e := query (fun s => get_entry_at s offset) in let* size := query (fun _ => entry_disk_size e) in let* _ := (if is_redirect e then ret tt else keep_blob e) in
    let* to_remove := query (fun s => do l <- iter_entries s None None ;; removable_redirects s i l) in
    let* article := query (fun s => if ueqb (e_ns e) NS_C then entry_at_url_is_article s url else Ok false) in
    let* _ := (if article then let* k := query (fun s => get_by_pointer (pl_ptrs (z_atpl s)) i) in drop_atitle (Some k) else ret tt) in
    let* _ := (fun s => match z_etpl s with None => (Ok tt, s) | Some t => (let* k := query (fun _ => get_by_pointer (pl_ptrs t) i) in drop_etitle (Some k)) s end) in
    let* _ := update (fun s => do u <- pl_remove_by_index i (z_upl s) ;; Ok (set_upl u s)) in
    let* _ := update (fun s => Ok (if opt_eqb (z_main s) (Some i) then set_main None s else s)) in
    let* _ := update_url_pointers (fun w => rec w true) i (-1) article [] in
    let* _ := update (fun s => do a <- mark_free (z_alloc s) offset size ;; Ok (set_alloc a s)) in
    fold_left (fun m u => let* _ := m in rmrec u) to_remove (ret tt))); [reflexivity|].
  eapply sim_known; [apply reads_query; exact kr|]. intro l.
  eapply sim_known; [apply reads_pure; exact kr|]. intro offset.
  apply sim_get_known. intros e r w HI [HK Ho].
  assert (T : exists t, get_entry_by_url_index (cs_zim _ w) i = Ok t).
  { destruct HK as ((((_ & Hi) & Hl) & Hp) & He). injection Hl as <-. exists e. unfold get_entry_by_url_index.
    assert (0 <= i).
    { destruct (url_index (cs_zim _ w) url) as [i0|x0] eqn:EU; [|destruct x0; discriminate]. injection Hi as ->. rename EU into Hi. unfold url_index in Hi. destruct (encode url) as [k|]; cbn [bind] in Hi; [|discriminate]. unfold get_index, get_index_gen in Hi.
      pose proof (bsearch_total (zlen (pl_ptrs (z_upl (cs_zim _ w)))) (fun i => do p <- get_by_index (pl_ptrs (z_upl (cs_zim _ w))) i ;; url_key (cs_zim _ w) p) k ltac:(unfold zlen; lia)) as B.
      destruct (binarysearch _ _ k) as [j|x]; cbn [bind] in Hi; [|discriminate].
      destruct (j =? _); [discriminate|]. destruct (get_by_index _ j) as [pj|x]; cbn [bind] in Hi; [|discriminate].
      destruct (url_key _ pj) as [kk|x]; cbn [bind] in Hi; [|discriminate]. destruct (beqb kk k); [|discriminate]. injection Hi as <-. lia. }
    replace (i <? 0) with false by lia. rewrite Hp. exact He. }
  destruct T as (t & Ht). clear HK.
  assert (G : forall tr, removable_loop (cs_zim _ w) i (Z.to_nat (zlen (pl_ptrs (z_upl (cs_zim _ w))))) 0 = tr ->
    (do l <- iter_entries (cs_zim _ w) None None ;; removable_redirects (cs_zim _ w) i l) = tr).
  { intros tr <-. rewrite iter_all. apply (removable_same _ _ t). exact Ht. }
  pose proof (G _ eq_refl) as G0. clear G t Ht.
  revert w HI Ho G0.
  assert (MAIN : sim (Some r) (has_obj r (obj_new e))
    (let* size := query (fun _ => entry_disk_size e) in let* to_remove := (let* l := query (fun s => Ok (pl_ptrs (z_upl s))) in query (fun s => removable_loop s i (Z.to_nat (zlen l)) 0)) in
    let* article := query (fun s => if ueqb (e_ns e) NS_C then entry_at_url_is_article s url else Ok false) in
    let* _ := (if article then let* k := query (fun s => get_by_pointer (pl_ptrs (z_atpl s)) i) in drop_atitle (Some k) else ret tt) in
    let* _ := (fun s => match z_etpl s with None => (Ok tt, s) | Some t => (let* k := query (fun _ => get_by_pointer (pl_ptrs t) i) in drop_etitle (Some k)) s end) in
    let* _ := update (fun s => do u <- pl_remove_by_index i (z_upl s) ;; Ok (set_upl u s)) in
    let* _ := update (fun s => Ok (if opt_eqb (z_main s) (Some i) then set_main None s else s)) in
    let* _ := update_url_pointers (fun w => rec w true) i (-1) article [] in
    let* _ := update (fun s => do a <- mark_free (z_alloc s) offset size ;; Ok (set_alloc a s)) in
    fold_left (fun m u => let* _ := m in rmrec u) to_remove (ret tt))
    (let* o := obj ecache r in let* size := pure (entry_disk_size (co_disk o)) in
     let* to_remove := (let* l := urls ecache in cremovable_redirects ecache estep writable autoflush write i (Z.to_nat (zlen l)) 0) in
     let* o := obj ecache r in
     let* article := (if ueqb (e_ns (co_now o)) NS_C then centry_at_url_is_article ecache estep writable autoflush write url else ret false) in
     let* _ := (if article then on_archive ecache (let* k := query (fun s => get_by_pointer (pl_ptrs (z_atpl s)) i) in drop_atitle (Some k)) else ret tt) in
     let* _ := on_archive ecache (fun s => match z_etpl s with None => (Ok tt, s)
                      | Some t => (let* k := query (fun _ => get_by_pointer (pl_ptrs t) i) in drop_etitle (Some k)) s end) in
     let* _ := on_archive ecache (update (fun s => do u <- pl_remove_by_index i (z_upl s) ;; Ok (set_upl u s))) in
     let* _ := cache_call ecache estep writable autoflush write (CRemove offset true) in
     let* _ := on_archive ecache (update (fun s => Ok (if opt_eqb (z_main s) (Some i) then set_main None s else s))) in
     let* _ := cupdate_url_pointers ecache estep writable autoflush write i (-1) article [] in
     let* _ := on_archive ecache (update (fun s => do a <- mark_free (z_alloc s) offset size ;; Ok (set_alloc a s))) in
     fold_left (fun m u => let* _ := m in crmrec u) to_remove (ret tt)) (fun _ _ _ => True)).
  { apply sim_obj. eapply sim_step; [apply reads_kept; apply reads_pure; exact kr|]. intro size.
    eapply sim_step.
    { eapply sim_step; [apply sim_archive|]. intro l1. apply reads_kept. apply r_removable. exact St. }
    intro to_remove. apply sim_obj. cbn [co_now obj_new].
    eapply sim_step. { destruct (ueqb (e_ns e) NS_C); apply reads_kept; [apply r_article; exact St|apply reads_ret; [exact kr|reflexivity]]. }
    intro article. eapply sim_step; [destruct article; [apply sim_archive|apply s_ret]|]. intros _.
    eapply sim_step; [apply sim_archive|]. intros _.
    eapply sim_step; [apply sim_archive|]. intros _.
    apply (sim_ext _ _ (let* _ := ret tt in let* _ := update (fun s => Ok (if opt_eqb (z_main s) (Some i) then set_main None s else s)) in
      let* _ := update_url_pointers (fun w => rec w true) i (-1) article [] in
      let* _ := update (fun s => do a <- mark_free (z_alloc s) offset size ;; Ok (set_alloc a s)) in
      fold_left (fun m u => let* _ := m in rmrec u) to_remove (ret tt))); [reflexivity|].
    eapply (sim_bind (Some r) (has_obj r (obj_new e)) _ _ (fun _ _ => has_obj r (obj_new e))).
    { intros [z c ol] HI Ho. unfold no_cache in HI. cbn in HI. subst c. cbn. split; [reflexivity|]. split; [reflexivity|]. split; [apply keep_refl|exact Ho]. }
    intros ? ?; cbv beta.
    eapply sim_step; [apply sim_archive|]. intros _.
    eapply sim_step; [apply s_any; apply s_update_url|]. intros _.
    eapply sim_step; [apply sim_archive|]. intros _. apply s_fold. apply sim_ret. auto. }
  intros w HI Ho G0. specialize (MAIN w HI Ho).
  match type of MAIN with let '(_, _) := ?a in let '(_, _) := ?b in _ => match goal with |- let '(_, _) := ?c in let '(_, _) := ?d in _ =>
    replace c with a; [replace d with b; [destruct a as [r0 s]; destruct b as [r1 w']|]|] end end.
  - destruct MAIN as (Z1 & I1 & K1 & M1). split; [exact Z1|]. split; [exact I1|]. split; [exact K1|]. destruct r0 as [[]|], r1 as [[]|]; try exact M1. reflexivity.
  - unfold mbind at 1. unfold obj. rewrite Ho. symmetry. unfold mbind at 1. unfold obj. rewrite Ho. symmetry.
    unfold mbind at 1, pure at 1. symmetry. unfold mbind at 1, pure at 1. symmetry. destruct (entry_disk_size (co_disk (obj_new e))) as [size|]; [|reflexivity]. apply mbind_assoc.
  - unfold mbind at 1, query at 1. symmetry. unfold mbind at 1, query at 1. symmetry. destruct (entry_disk_size e) as [size|]; [|reflexivity].
    symmetry. unfold mbind at 1. replace ((if is_redirect e then ret tt else keep_blob e) (cs_zim _ w)) with (@Ok unit tt, cs_zim _ w) by (destruct (is_redirect e); reflexivity).
    unfold mbind at 1, query at 1. rewrite G0. symmetry. unfold mbind at 1. unfold mbind at 1. unfold query at 1 2. reflexivity.
Qed.
End Body.

Theorem s_write_rec : forall fuel r o u t,
  sim (Some r) (has_obj r o) (write_entry_rec fuel (obj_went o) u t) (cwrite_rec ecache estep writable autoflush fuel r u t) (fun _ _ _ => True).
Proof.
  induction fuel as [|fuel IH]; intros r o u t; cbn [write_entry_rec cwrite_rec]; [apply sim_raise|]. apply s_write_body. intros r' o' u'. apply IH.
Qed.

Theorem s_remove : forall fuel url,
  sim None (any ecache) (remove_entry keep_blob fuel url) (cremove_entry ecache estep writable autoflush fuel url) (same ecache).
Proof.
  induction fuel as [|fuel IH]; intro url; cbn [remove_entry cremove_entry]; [apply sim_raise|].
  apply (s_remove_body (fun r u => cwrite_rec ecache estep writable autoflush fuel r u true) (fun w u => write_entry_rec fuel w u true)).
  - intros r o u. apply s_write_rec.
  - exact IH.
Qed.
End NoOp.
