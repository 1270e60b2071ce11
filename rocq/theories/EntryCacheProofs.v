(** Reading through an entry cache compared with reading the file: the look-ups
    of EntryCache.v give what those of Archive.v give as long as
    [get_entry_at] does. *)
From Coq Require Import List ZArith Bool Lia ZifyBool ZifyNat.
From Verif Require Import Base Utf8 Entry PointerList SpaceAllocator Cluster Archive Cache EntryCache.
Import ListNotations.
Open Scope Z_scope.

Section Reads.
Variable C : Type.
Variable step : C -> cop Z nat -> outcome Z nat C.
Variables writable autoflush : bool.
Variable write : nat -> bool -> M (cstate C) unit.

(** An invariant and what may change from one state to the next. *)
Variable I : cstate C -> Prop.
Variable ext : cstate C -> cstate C -> Prop.
Hypothesis ext_refl : forall w, ext w w.
Hypothesis ext_trans : forall a b c, ext a b -> ext b c -> ext a c.
(** When an object stands for an entry. *)
Variable agree : cobj -> entry -> Prop.
Definition refers (e : entry) (r : nat) (w : cstate C) : Prop :=
  exists o, nth_error (cs_objs C w) r = Some o /\ agree o e.
Hypothesis refers_ext : forall e r w w', ext w w' -> refers e r w -> refers e r w'.

(** [cm] reads what [q] reads, and leaves the archive as it is. *)
Definition reads {A B} (P : cstate C -> Prop) (q : zim -> res A) (cm : M (cstate C) B) (R : A -> B -> cstate C -> Prop) : Prop :=
  forall w, I w -> P w ->
  let '(r, w') := cm w in
  cs_zim C w' = cs_zim C w /\ I w' /\ ext w w' /\
  match q (cs_zim C w), r with
  | Ok a, Ok b => R a b w'
  | Err x, Err y => x = y
  | _, _ => False
  end.
Definition any (w : cstate C) : Prop := True.
Definition same {A} (a b : A) (w : cstate C) : Prop := a = b.
Definition stable (P : cstate C -> Prop) : Prop := forall w w', ext w w' -> P w -> P w'.

Lemma reads_bind : forall {A B A' B'} (P : cstate C -> Prop) (q : zim -> res A) (cm : M (cstate C) B) R (q2 : A -> zim -> res A') (cm2 : B -> M (cstate C) B') R2,
  stable P -> reads P q cm R ->
  (forall a b, reads (fun w => R a b w /\ P w) (q2 a) (cm2 b) R2) ->
  reads P (fun s => do a <- q s ;; q2 a s) (mbind cm cm2) R2.
Proof.
  intros A B A' B' P q cm R q2 cm2 R2 HP H1 H2 w HI HPw. unfold mbind. specialize (H1 w HI HPw).
  destruct (cm w) as [[b|y] w1]; destruct H1 as (Z1 & I1 & E1 & M1); destruct (q (cs_zim C w)) as [a|x] eqn:Eq; try contradiction.
  - specialize (H2 a b w1 I1 (conj M1 (HP _ _ E1 HPw))). destruct (cm2 b w1) as [r w2]. destruct H2 as (Z2 & I2 & E2 & M2).
    cbn [bind]. rewrite Z1 in *. split; [congruence|]. split; [exact I2|]. split; [eapply ext_trans; eassumption|exact M2].
  - cbn [bind]. split; [exact Z1|]. split; [exact I1|]. split; [exact E1|exact M1].
Qed.

Lemma reads_step : forall {A A' B'} (P : cstate C -> Prop) (q : zim -> res A) (cm : M (cstate C) A) (q2 : A -> zim -> res A') (cm2 : A -> M (cstate C) B') R2,
  stable P -> reads P q cm same ->
  (forall a, reads P (q2 a) (cm2 a) R2) ->
  reads P (fun s => do a <- q s ;; q2 a s) (mbind cm cm2) R2.
Proof.
  intros A A' B' P q cm q2 cm2 R2 HP H1 H2. eapply reads_bind; [exact HP|exact H1|].
  intros a b w HI [E HPw]. unfold same in E. subst b. exact (H2 a w HI HPw).
Qed.

Lemma reads_weak : forall {A B} (P P' : cstate C -> Prop) (q : zim -> res A) (cm : M (cstate C) B) (R R' : A -> B -> cstate C -> Prop),
  (forall w, P' w -> P w) -> (forall a b w, R a b w -> R' a b w) -> reads P q cm R -> reads P' q cm R'.
Proof.
  intros A B P P' q cm R R' HP HR H w HI HP'. specialize (H w HI (HP w HP')). destruct (cm w) as [r w'].
  destruct H as (Z1 & I1 & E1 & M1). split; [exact Z1|]. split; [exact I1|]. split; [exact E1|].
  destruct (q (cs_zim C w)), r; auto.
Qed.

Lemma reads_ext : forall {A B} P (q q' : zim -> res A) (cm : M (cstate C) B) R, (forall s, q' s = q s) -> reads P q cm R -> reads P q' cm R.
Proof. intros A B P q q' cm R E H w HI HP. specialize (H w HI HP). destruct (cm w) as [r w']. rewrite E. exact H. Qed.

Lemma reads_pure : forall {A} (P : cstate C -> Prop) (r : res A), reads P (fun _ => r) (pure r) same.
Proof. intros A P r w HI HP. cbn. split; [reflexivity|]. split; [exact HI|]. split; [apply ext_refl|]. destruct r; reflexivity. Qed.
Lemma reads_ret : forall {A B} (P : cstate C -> Prop) (a : A) (b : B) (R : A -> B -> cstate C -> Prop),
  (forall w, P w -> R a b w) -> reads P (fun _ => Ok a) (ret b) R.
Proof. intros A B P a b R H w HI HP. cbn. split; [reflexivity|]. split; [exact HI|]. split; [apply ext_refl|]. apply H. exact HP. Qed.
Lemma reads_raise : forall {A B} (P : cstate C -> Prop) x (R : A -> B -> cstate C -> Prop), reads P (fun _ => Err x) (raise x) R.
Proof. intros A B P x R w HI HP. cbn. split; [reflexivity|]. split; [exact HI|]. split; [apply ext_refl|]. reflexivity. Qed.
Lemma reads_query : forall {A} (P : cstate C -> Prop) (q : zim -> res A), reads P q (on_archive C (query q)) same.
Proof.
  intros A P q w HI HP. unfold on_archive, query. destruct w as [s c o]. cbn.
  split; [reflexivity|]. split; [exact HI|]. split; [apply ext_refl|]. destruct (q s); reflexivity.
Qed.

(** ** Searching *)
Lemma reads_bsearch : forall (P : cstate C -> Prop), stable P -> forall (ka : zim -> Z -> res bytes) (mk : Z -> M (cstate C) bytes) el,
  (forall i, reads P (fun s => ka s i) (mk i) same) ->
  forall fuel st en, reads P (fun s => bsearch_loop fuel (ka s) el st en) (mbsearch_loop fuel mk el st en) same.
Proof.
  intros P SP ka mk el H. induction fuel as [|fuel IH]; intros st en; cbn [bsearch_loop mbsearch_loop].
  - destruct (st <? en); [apply reads_raise|apply reads_ret; intros; reflexivity].
  - destruct (st <? en); [|apply reads_ret; intros; reflexivity].
    eapply (reads_step P (fun s => ka s ((st + en) / 2)) _       (fun k s => if bltb k el then bsearch_loop fuel (ka s) el ((st + en) / 2 + 1) en else bsearch_loop fuel (ka s) el st ((st + en) / 2)));
      [exact SP|apply H|].
    intro a. destruct (bltb a el); apply IH; assumption.
Qed.
Lemma reads_binarysearch : forall (P : cstate C -> Prop), stable P -> forall n (ka : zim -> Z -> res bytes) (mk : Z -> M (cstate C) bytes) el,
  (forall i, reads P (fun s => ka s i) (mk i) same) ->
  reads P (fun s => binarysearch n (ka s) el) (mbinarysearch n mk el) same.
Proof.
  intros P SP n ka mk el H. unfold binarysearch, mbinarysearch. destruct (n =? 0); [apply reads_ret; intros; reflexivity|].
  apply reads_bsearch; assumption.
Qed.

Section Ordered.
Variable P : cstate C -> Prop.
Hypothesis SP : stable P.
Variable kf : zim -> Z -> res bytes.
Variable mkf : Z -> M (cstate C) bytes.
Hypothesis KF : forall i, reads P (fun s => kf s i) (mkf i) same.

Lemma reads_keyat : forall l i, reads P (fun s => keyat (kf s) l i) (mkeyat mkf l i) same.
Proof.
  intros l i. unfold keyat, mkeyat.
  eapply (reads_step P (fun _ => get_by_index l i) _ (fun p s => kf s p)); [exact SP|apply reads_pure|].
  intro a. apply KF; assumption.
Qed.
Lemma reads_get_index : forall l key, reads P (fun s => get_index (kf s) l key) (mget_index mkf l key) same.
Proof.
  intros l key. unfold get_index, get_index_gen, mget_index.
  eapply (reads_step P (fun s => binarysearch (zlen l) (fun i => do p <- get_by_index l i ;; kf s p) key) _     (fun i s => if i =? zlen l then Err KeyError else do p <- get_by_index l i ;; do k <- kf s p ;; if beqb k key then Ok i else Err KeyError)).
  - exact SP.
  - exact (reads_binarysearch P SP (zlen l) (fun s => keyat (kf s) l) (mkeyat mkf l) key (reads_keyat l)).
  - intro a. destruct (a =? zlen l); [apply reads_raise|].
    apply (reads_ext P (fun s => do k <- keyat (kf s) l a ;; if beqb k key then Ok a else Err KeyError)).
    { intro s. unfold keyat. destruct (get_by_index l a); reflexivity. }
    eapply (reads_step P (fun s => keyat (kf s) l a) _ (fun k _ => if beqb k key then Ok a else Err KeyError)); [exact SP|apply reads_keyat|].
    intro k. destruct (beqb k key).
    + apply reads_ret. reflexivity.
    + apply reads_raise.
Qed.
Lemma reads_get : forall l key, reads P (fun s => get (kf s) l key) (mget mkf l key) same.
Proof.
  intros l key. unfold get, get_gen, mget.
  eapply (reads_step P (fun s => get_index (kf s) l key) _ (fun i _ => get_by_index l i)); [exact SP|apply reads_get_index|].
  intro a. apply reads_pure.
Qed.
Lemma reads_has : forall l key, reads P (fun s => has (kf s) l key) (mhas mkf l key) same.
Proof.
  intros l key w HI HP. unfold has, has_gen, mhas. pose proof (reads_get l key w HI HP) as H. unfold get in H.
  destruct (mget mkf l key w) as [[b|y] w1]; destruct H as (Z1 & I1 & E1 & M1).
  - destruct (get_gen _ _ _ _) as [a|x]; [|contradiction]. repeat (split; [assumption|]). reflexivity.
  - destruct (get_gen _ _ _ _) as [a|x]; [contradiction|]. subst y. destruct x; repeat (split; [assumption|]); reflexivity.
Qed.
Lemma reads_find : forall l key, reads P (fun s => find_first_ge (kf s) l key) (mfind_first_ge mkf l key) same.
Proof. intros l key. exact (reads_binarysearch P SP (zlen l) (fun s => keyat (kf s) l) (mkeyat mkf l) key (reads_keyat l)). Qed.
Lemma reads_add : forall key p o, reads P (fun s => pl_add (kf s) key p o) (mpl_add mkf key p o) same.
Proof.
  intros key p o. unfold pl_add, mpl_add. destruct (p <? 0); [apply reads_raise|]. destruct (negb (pl_mutable o)); [apply reads_raise|].
  eapply (reads_step P (fun s => binarysearch (zlen (pl_ptrs o)) (keyat (kf s) (pl_ptrs o)) key) _     (fun i _ => Ok (i, pl_change o (list_insert (pl_ptrs o) (Z.to_nat i) p)))).
  - exact SP.
  - exact (reads_binarysearch P SP _ (fun s => keyat (kf s) (pl_ptrs o)) (mkeyat mkf (pl_ptrs o)) key (reads_keyat (pl_ptrs o))).
  - intro a. apply reads_ret. reflexivity.
Qed.
End Ordered.

(** ** Entries *)
Variable P : cstate C -> Prop.
Hypothesis SP : stable P.
(** Whether the cache may be asked to drop something. *)
Variable allowed : bool -> Prop.
Hypothesis key_allowed : allowed (negb writable).
Hypothesis get_ok : forall location allow, allowed allow ->
  reads P (fun s => get_entry_at s location) (cget_entry_at C step writable autoflush write location allow) refers.
Hypothesis agree_url : forall o e, agree o e -> full_url (co_now o) = full_url e.

Lemma reads_urls : reads P (fun s => Ok (pl_ptrs (z_upl s))) (urls C) same.
Proof. apply reads_query. Qed.

Lemma entry_refers : forall e r w, refers e r w -> exists o, entry_of C r w = (Ok (co_now o), w) /\ agree o e.
Proof. intros e r w (o & Ho & Ag). exists o. unfold entry_of, obj, mbind. rewrite Ho. split; [reflexivity|exact Ag]. Qed.

Lemma reads_by_index : forall i allow, allowed allow ->
  reads P (fun s => get_entry_by_url_index s i) (cget_entry_by_url_index C step writable autoflush write i allow) refers.
Proof.
  intros i allow AL. unfold get_entry_by_url_index, cget_entry_by_url_index. destruct (i <? 0); [apply reads_raise|].
  eapply (reads_step P (fun s => Ok (pl_ptrs (z_upl s))) _ (fun l s => match get_by_index l i with
       | Ok location => get_entry_at s location | Err IndexError => Err EntryNotFound | Err e => Err e end)); [exact SP|apply reads_urls|].
  intro a. destruct (get_by_index a i) as [p|x].
  - apply get_ok; assumption.
  - destruct x; apply reads_raise.
Qed.

Lemma reads_url_key : forall p, reads P (fun s => url_key s p) (curl_key C step writable autoflush write p) same.
Proof.
  intro p. unfold url_key, curl_key.
  eapply (reads_bind P (fun s => get_entry_at s p) _ refers (fun e _ => encode (full_url e))); [exact SP|apply get_ok; exact key_allowed|].
  intros e r w HI [RF HP]. destruct (entry_refers _ _ _ RF) as (o & Ho & Ag). unfold mbind. rewrite Ho, (agree_url _ _ Ag). exact (reads_pure P _ w HI HP).
Qed.

Lemma reads_url_index : forall u, reads P (fun s => url_index s u) (curl_index C step writable autoflush write u) same.
Proof.
  intro u. unfold url_index, curl_index.
  eapply (reads_step P (fun _ => encode u) _ (fun k s => get_index (url_key s) (pl_ptrs (z_upl s)) k)); [exact SP|apply reads_pure|].
  intro k.
  eapply (reads_step P (fun s => Ok (pl_ptrs (z_upl s))) _ (fun l s => get_index (url_key s) l k)); [exact SP|apply reads_urls|].
  intro a. apply (reads_get_index P SP url_key); try assumption. exact reads_url_key.
Qed.
Lemma reads_url_pointer : forall u, reads P (fun s => url_pointer s u) (curl_pointer C step writable autoflush write u) same.
Proof.
  intro u. unfold url_pointer, curl_pointer.
  eapply (reads_step P (fun _ => encode u) _ (fun k s => get (url_key s) (pl_ptrs (z_upl s)) k)); [exact SP|apply reads_pure|].
  intro k.
  eapply (reads_step P (fun s => Ok (pl_ptrs (z_upl s))) _ (fun l s => get (url_key s) l k)); [exact SP|apply reads_urls|].
  intro a. apply (reads_get P SP url_key); try assumption. exact reads_url_key.
Qed.
Lemma reads_has_entry : forall u, reads P (fun s => has_entry_for_full_url s u) (chas_entry_for_full_url C step writable autoflush write u) same.
Proof.
  intro u. unfold has_entry_for_full_url, chas_entry_for_full_url.
  eapply (reads_step P (fun _ => encode u) _ (fun k s => has (url_key s) (pl_ptrs (z_upl s)) k)); [exact SP|apply reads_pure|].
  intro k.
  eapply (reads_step P (fun s => Ok (pl_ptrs (z_upl s))) _ (fun l s => has (url_key s) l k)); [exact SP|apply reads_urls|].
  intro a. apply (reads_has P SP url_key); try assumption. exact reads_url_key.
Qed.
Lemma reads_is_article : forall u, reads P (fun s => entry_at_url_is_article s u) (centry_at_url_is_article C step writable autoflush write u) same.
Proof.
  intro u. unfold entry_at_url_is_article, centry_at_url_is_article. destruct (negb (in_C u)); [apply reads_raise|].
  intros w HI HP. pose proof (reads_url_index u w HI HP) as H.
  destruct (curl_index _ _ _ _ _ u w) as [[b|y] w1]; destruct H as (Z1 & I1 & E1 & M1); destruct (url_index (cs_zim C w) u) as [a|x]; try contradiction.
  - unfold same in M1. subst b. rewrite Z1. destruct (get_by_pointer (pl_ptrs (z_atpl (cs_zim C w))) a) as [k|x].
    + repeat (split; [assumption|]). reflexivity.
    + destruct x; repeat (split; [assumption|]); reflexivity.
  - subst y. destruct x; repeat (split; [assumption|]); reflexivity.
Qed.

(** ** Look-ups that return entries *)
Hypothesis true_allowed : allowed true.

Lemma reads_by_full_url : forall u, reads P (fun s => get_entry_by_full_url s u) (cget_entry_by_full_url C step writable autoflush write u) refers.
Proof.
  intros u w HI HP. unfold get_entry_by_full_url, cget_entry_by_full_url. pose proof (reads_url_pointer u w HI HP) as H.
  destruct (curl_pointer _ _ _ _ _ u w) as [[b|y] w1]; destruct H as (Z1 & I1 & E1 & M1); destruct (url_pointer (cs_zim C w) u) as [a|x]; try contradiction.
  - unfold same in M1. subst b. pose proof (get_ok a true true_allowed w1 I1 (SP _ _ E1 HP)) as H. rewrite Z1 in H.
    destruct (cget_entry_at _ _ _ _ _ a true w1) as [r w2]. destruct H as (Z2 & I2 & E2 & M2).
    split; [congruence|]. split; [exact I2|]. split; [eapply ext_trans; eassumption|exact M2].
  - subst y. destruct x; repeat (split; [assumption|]); reflexivity.
Qed.
Lemma reads_mainpage : reads P get_mainpage_entry (cget_mainpage_entry C step writable autoflush write) refers.
Proof.
  unfold cget_mainpage_entry.
  apply (reads_ext P (fun s => do m <- Ok (z_main s) ;; match m with None => Err EntryNotFound
     | Some i => do l <- Ok (pl_ptrs (z_upl s)) ;; do location <- get_by_index l i ;; get_entry_at s location end)).
  { intro s. unfold get_mainpage_entry. cbn [bind]. reflexivity. }
  eapply (reads_step P (fun s => Ok (z_main s)) _ (fun m s => match m with None => Err EntryNotFound
     | Some i => do l <- Ok (pl_ptrs (z_upl s)) ;; do location <- get_by_index l i ;; get_entry_at s location end)); [exact SP|apply reads_query|].
  intro m. destruct m as [i|]; [|apply reads_raise].
  eapply (reads_step P (fun s => Ok (pl_ptrs (z_upl s))) _ (fun l s => do location <- get_by_index l i ;; get_entry_at s location)); [exact SP|apply reads_urls|].
  intro a.
  eapply (reads_step P (fun _ => get_by_index a i) _ (fun p s => get_entry_at s p)); [exact SP|apply reads_pure|].
  intro p. apply get_ok; assumption.
Qed.

(** Lists of entries. *)
Definition refer_all (es : list entry) (rs : list nat) (w : cstate C) : Prop := Forall2 (fun e r => refers e r w) es rs.

Lemma reads_range : forall (g : zim -> Z -> res entry) (cg : Z -> M (cstate C) nat),
  (forall i, reads P (fun s => g s i) (cg i) refers) ->
  forall n i, reads P (fun s => iter_range (g s) i n) (miter_range cg i n) refer_all.
Proof.
  intros g cg H. induction n as [|n IH]; intro i; cbn [iter_range miter_range]; [apply reads_ret; intros; constructor|].
  eapply (reads_bind P (fun s => g s i) _ refers (fun x s => do r <- iter_range (g s) (i + 1) n ;; Ok (x :: r))); [exact SP|apply H|].
  intros e r.
  eapply (reads_bind (fun w => refers e r w /\ P w) (fun s => iter_range (g s) (i + 1) n) _ refer_all (fun l _ => Ok (e :: l))).
  - intros w w' X [H1 H2]. split; [eapply refers_ext; eassumption|eapply SP; eassumption].
  - eapply reads_weak; [|intros; eassumption|apply IH]. intros w [_ HP]. exact HP.
  - intros es rs w HI (RA & RE & HP). apply (reads_ret (fun w => refer_all es rs w /\ refers e r w)); [|assumption|split; assumption].
    intros w0 [H1 H2]. constructor; assumption.
Qed.
Lemma reads_bounds : forall n (g : zim -> Z -> res entry) (cg : Z -> M (cstate C) nat) start end_,
  (forall i, reads P (fun s => g s i) (cg i) refers) ->
  reads P (fun s => iter_bounds n n (g s) start end_) (miter_bounds C n cg start end_) refer_all.
Proof.
  intros n g cg start end_ H. unfold iter_bounds, miter_bounds.
  destruct (_ <? 0); [apply reads_raise|]. destruct (n <? _); [apply reads_raise|]. destruct (_ <? _); [apply reads_raise|].
  apply reads_range. exact H.
Qed.
Lemma reads_iter : forall start end_, reads P (fun s => iter_entries s start end_) (citer_entries C step writable autoflush write start end_) refer_all.
Proof.
  intros start end_. unfold iter_entries, citer_entries.
  eapply (reads_step P (fun s => Ok (pl_ptrs (z_upl s))) _     (fun l s => iter_bounds (zlen l) (zlen l) (fun i => do p <- get_by_index (pl_ptrs (z_upl s)) i ;; get_entry_at s p) start end_)); [exact SP|apply reads_urls|].
  intro a.
  apply (reads_bounds (zlen a) (fun s i => do p <- get_by_index (pl_ptrs (z_upl s)) i ;; get_entry_at s p)).
  intro i.
  eapply (reads_step P (fun s => Ok (pl_ptrs (z_upl s))) _ (fun l s => do p <- get_by_index l i ;; get_entry_at s p)); [exact SP|apply reads_urls|].
  intro l.
  eapply (reads_step P (fun _ => get_by_index l i) _ (fun p s => get_entry_at s p)); [exact SP|apply reads_pure|].
  intro p. apply get_ok; assumption.
Qed.
Lemma reads_articles : forall start end_, reads P (fun s => iter_articles s start end_) (citer_articles C step writable autoflush write start end_) refer_all.
Proof.
  intros start end_. unfold iter_articles, citer_articles.
  eapply (reads_step P (fun s => Ok (pl_ptrs (z_atpl s))) _     (fun l s => iter_bounds (zlen l) (zlen l) (fun i => do p <- get_by_index (pl_ptrs (z_atpl s)) i ;; get_entry_by_url_index s p) start end_)); [exact SP|apply reads_query|].
  intro a.
  apply (reads_bounds (zlen a) (fun s i => do p <- get_by_index (pl_ptrs (z_atpl s)) i ;; get_entry_by_url_index s p)).
  intro i.
  eapply (reads_step P (fun s => Ok (pl_ptrs (z_atpl s))) _ (fun l s => do p <- get_by_index l i ;; get_entry_by_url_index s p)); [exact SP|apply reads_query|].
  intro l.
  eapply (reads_step P (fun _ => get_by_index l i) _ (fun p s => get_entry_by_url_index s p)); [exact SP|apply reads_pure|].
  intro p. apply reads_by_index; assumption.
Qed.

(** ** What uses the attributes *)
Hypothesis agree_now : forall o e, agree o e -> co_now o = e.

Lemma refers_P_stable : forall e r, stable (fun w => refers e r w /\ P w).
Proof. intros e r w w' X [H1 H2]. split; [eapply refers_ext; eassumption|eapply SP; eassumption]. Qed.

Lemma reads_attrs : forall {A B} e r (q2 : zim -> res A) (cm2 : entry -> M (cstate C) B) R2,
  reads (fun w => refers e r w /\ P w) q2 (cm2 e) R2 ->
  reads (fun w => refers e r w /\ P w) q2 (let* x := entry_of C r in cm2 x) R2.
Proof.
  intros A B e r q2 cm2 R2 H w HI [RF HP]. destruct (entry_refers _ _ _ RF) as (o & Ho & Ag). unfold mbind. rewrite Ho, (agree_now _ _ Ag).
  exact (H w HI (conj RF HP)).
Qed.
Lemma reads_less : forall {A B} e r (q : zim -> res A) (cm : M (cstate C) B) R, reads P q cm R -> reads (fun w => refers e r w /\ P w) q cm R.
Proof. intros A B e r q cm R H. eapply reads_weak; [|intros; eassumption|exact H]. intros w [_ HP]. exact HP. Qed.

Lemma reads_nstitle_key : forall i, reads P (fun s => nstitle_key s i) (cnstitle_key C step writable autoflush write i) same.
Proof.
  intro i. unfold nstitle_key, cnstitle_key.
  eapply (reads_bind P (fun s => get_entry_by_url_index s i) _ refers (fun e _ => encode (e_ns e ++ title e))); [exact SP|apply reads_by_index; exact key_allowed|].
  intros e r. apply reads_attrs. apply reads_pure.
Qed.
Lemma reads_title_key : forall i, reads P (fun s => title_key s i) (ctitle_key C step writable autoflush write i) same.
Proof.
  intro i. unfold title_key, ctitle_key.
  eapply (reads_bind P (fun s => get_entry_by_url_index s i) _ refers (fun e _ => encode (title e))); [exact SP|apply reads_by_index; exact key_allowed|].
  intros e r. apply reads_attrs. apply reads_pure.
Qed.
Lemma reads_follow : forall e r, reads (fun w => refers e r w /\ P w) (fun s => follow s e) (cfollow C step writable autoflush write r) refers.
Proof.
  intros e r. unfold follow, cfollow. apply reads_attrs. apply reads_less. destruct (e_kind e); [apply reads_raise|apply reads_by_index; exact true_allowed].
Qed.
Lemma reads_resolve : forall fuel e r, reads (fun w => refers e r w /\ P w) (fun s => resolve fuel s e) (cresolve C step writable autoflush write fuel r) refers.
Proof.
  induction fuel as [|fuel IH]; intros e r; cbn [resolve cresolve]; [apply reads_raise|]. apply reads_attrs. destruct (is_redirect e).
  - eapply (reads_bind _ (fun s => follow s e) _ refers (fun e' s => resolve fuel s e')); [apply refers_P_stable|apply reads_follow|].
    intros e' r'. eapply reads_weak; [|intros; eassumption|apply IH]. intros w (H1 & _ & H2). split; assumption.
  - apply reads_ret. intros w [H _]. exact H.
Qed.
Lemma reads_metadata_loop : forall n i, reads P (fun s => metadata_loop s n i) (cmetadata_loop C step writable autoflush write n i) same.
Proof.
  induction n as [|n IH]; intro i; cbn [metadata_loop cmetadata_loop]; [apply reads_ret; reflexivity|].
  eapply (reads_step P (fun s => Ok (pl_ptrs (z_upl s))) _ (fun l s => do p <- get_by_index l i ;; do e <- get_entry_at s p ;;
    if ueqb (e_ns e) NS_M then do r <- metadata_loop s n (i + 1) ;; Ok (e_url e :: r) else Ok [])); [exact SP|apply reads_urls|].
  intro l.
  eapply (reads_step P (fun _ => get_by_index l i) _ (fun p s => do e <- get_entry_at s p ;;
    if ueqb (e_ns e) NS_M then do r <- metadata_loop s n (i + 1) ;; Ok (e_url e :: r) else Ok [])); [exact SP|apply reads_pure|].
  intro p.
  eapply (reads_bind P (fun s => get_entry_at s p) _ refers (fun e s =>
    if ueqb (e_ns e) NS_M then do r <- metadata_loop s n (i + 1) ;; Ok (e_url e :: r) else Ok [])); [exact SP|apply get_ok; exact true_allowed|].
  intros e r. apply reads_attrs. apply reads_less. destruct (ueqb (e_ns e) NS_M); [|apply reads_ret; reflexivity].
  eapply (reads_step P (fun s => metadata_loop s n (i + 1)) _ (fun l _ => Ok (e_url e :: l))); [exact SP|apply IH|].
  intro k. apply reads_ret. reflexivity.
Qed.
Lemma reads_metadata : reads P get_metadata_keys (cget_metadata_keys C step writable autoflush write) same.
Proof.
  unfold cget_metadata_keys.
  apply (reads_ext P (fun s => do k <- encode NS_M ;; do l <- Ok (pl_ptrs (z_upl s)) ;; do start <- find_first_ge (url_key s) l k ;;
    metadata_loop s (Z.to_nat (zlen l - start)) start)); [reflexivity|].
  eapply (reads_step P (fun _ => encode NS_M) _ (fun k s => do l <- Ok (pl_ptrs (z_upl s)) ;; do start <- find_first_ge (url_key s) l k ;;
    metadata_loop s (Z.to_nat (zlen l - start)) start)); [exact SP|apply reads_pure|].
  intro k.
  eapply (reads_step P (fun s => Ok (pl_ptrs (z_upl s))) _ (fun l s => do start <- find_first_ge (url_key s) l k ;;
    metadata_loop s (Z.to_nat (zlen l - start)) start)); [exact SP|apply reads_urls|].
  intro l.
  eapply (reads_step P (fun s => find_first_ge (url_key s) l k) _ (fun start s => metadata_loop s (Z.to_nat (zlen l - start)) start)); [exact SP| |].
  - apply (reads_find P SP url_key). exact reads_url_key.
  - intro start. apply reads_metadata_loop.
Qed.
End Reads.
