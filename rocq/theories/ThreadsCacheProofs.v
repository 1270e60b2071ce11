(** Proofs for C84. *)
From Coq Require Import List ZArith Bool Lia Arith Sorting.Sorted Sorting.Permutation.
From Coq Require Import ZifyBool ZifyNat.
From Verif Require Import Base BaseProofs Utf8 Utf8Proofs Entry EntryProofs PointerList PointerListSpec PointerListProofs Dict LinkedList Cache CacheSpec CacheProofs EntryCache Threads ThreadsSpec ThreadsProofs ThreadsCache ThreadsCacheSpec.
Import ListNotations.
Open Scope Z_scope.

(** ** One cache, used for the locations [U] only *)
Section Contents.
Context {V : Type}.
Variable make : Z -> res V.       (* the right object for a location *)
Variable U : list Z.
Notation kvs := (list (Z * V)).
Definition contents (r : kvs) : Prop := forall k v, In (k, v) r -> make k = Ok v /\ In k U.
Definition incl_keys (r r' : kvs) : Prop := forall k, In k (map fst r) -> In k (map fst r').

Lemma dget_right : forall r k, contents r -> In k (map fst r) -> exists v, dget Z.eqb k r = Some v /\ make k = Ok v.
Proof.
  intros r k C H. apply (dget_some_iff Z.eqb Z.eqb_eq) in H. destruct H as (v & H). exists v. split; [exact H|].
  apply (dget_in Z.eqb Z.eqb_eq) in H. apply (C k v H).
Qed.
Lemma room : forall r k, contents r -> NoDup (map fst r) -> ~ In k (map fst r) -> In k U -> zlen r < zlen (nodup Z.eq_dec U).
Proof.
  intros r k C N H HU. assert (I : incl (k :: map fst r) (nodup Z.eq_dec U)).
  { intros x [<-|X]; apply nodup_In; [exact HU|]. apply in_map_iff in X. destruct X as ((k' & v) & <- & X). apply (C k' v X). }
  pose proof (NoDup_incl_length (NoDup_cons k H N) I) as L. cbn in L. rewrite map_length in L. unfold zlen. lia.
Qed.
Lemma in_del : forall (r : kvs) k x, In x (del Z.eqb k r) <-> In x r /\ fst x <> k.
Proof. clear make. intros r k x. unfold del. rewrite filter_In. split; intros (A & B); split; auto; lia. Qed.

Lemma promote_perm : forall acc k (r : kvs), Permutation (promote Z.eqb acc k r) r.
Proof.
  intros acc k r. induction r as [|x r IH]; [reflexivity|]. destruct r as [|y r]; [reflexivity|].
  change (promote Z.eqb acc k (x :: y :: r)) with
    (if Z.eqb k (fst y) then (if acc (fst x) <? acc k then y :: x :: r else x :: y :: r) else x :: promote Z.eqb acc k (y :: r)).
  destruct (k =? fst y); [destruct (acc (fst x) <? acc k); [apply perm_swap|reflexivity]|constructor; exact IH].
Qed.
Lemma contents_perm : forall r r', Permutation r r' -> contents r -> contents r'.
Proof. intros r r' P C k v H. apply C. eapply Permutation_in; [symmetry; exact P|exact H]. Qed.
Lemma keys_perm : forall (r r' : kvs), Permutation r r' -> incl_keys r r'.
Proof. intros r r' P k H. eapply Permutation_in; [apply Permutation_map; exact P|exact H]. Qed.

Lemma last_get : forall l r k, lru_abs l r -> contents r -> In k (map fst r) ->
  exists l' evs v r', lru_step Z.eqb l (CGet k) = (l', evs, Ok (RVal v)) /\ make k = Ok v /\
    lru_abs l' r' /\ contents r' /\ incl_keys r r' /\ l_max l' = l_max l.
Proof.
  intros l r k A C H. destruct (lru_refines Z.eqb Z.eqb_eq l r (CGet k) A) as (l' & evs & ret & r' & E & S & A' & (_ & M)).
  destruct (dget_right r k C H) as (v & D & Mk). cbn [lru_spec] in S. rewrite D in S. injection S as <- <- <-.
  exists l', [], v, ((k, v) :: del Z.eqb k r). split; [exact E|]. split; [exact Mk|]. split; [exact A'|].
  apply (dget_in Z.eqb Z.eqb_eq) in D.
  split; [|split; [|exact M]].
  - intros k' v' [X|X]; [injection X as <- <-; apply C; exact D|]. apply in_del in X. apply C, X.
  - intros k' X. cbn. destruct (Z.eq_dec k k') as [->|N]; [left; reflexivity|right]. apply in_map_iff in X. destruct X as (kv & <- & X).
    apply in_map. apply in_del. auto.
Qed.
Lemma last_push : forall l r k v allow, lru_abs l r -> contents r -> make k = Ok v -> In k U -> zlen (nodup Z.eq_dec U) <= l_max l ->
  exists l' evs b r', lru_step Z.eqb l (CPush k v allow) = (l', evs, Ok (RBool b)) /\
    lru_abs l' r' /\ contents r' /\ incl_keys r r' /\ l_max l' = l_max l.
Proof.
  intros l r k v allow A C Mk HU L. destruct (lru_refines Z.eqb Z.eqb_eq l r (CPush k v allow) A) as (l' & evs & ret & r' & E & S & A' & (_ & M)).
  cbn [lru_spec] in S. destruct (dmem Z.eqb k r) eqn:D.
  - injection S as <- <- <-. exists l', [], true, ((k, v) :: del Z.eqb k r). split; [exact E|]. split; [exact A'|]. split; [|split; [|exact M]].
    + intros k' v' [X|X]; [injection X as <- <-; auto|]. apply in_del in X. apply C, X.
    + intros k' X. cbn. destruct (Z.eq_dec k k') as [->|N]; [left; reflexivity|right]. apply in_map_iff in X. destruct X as (kv & <- & X).
      apply in_map. apply in_del. auto.
  - destruct allow; cbn [negb] in S.
    + assert (NI : ~ In k (map fst r)). { rewrite <- (dmem_iff Z.eqb Z.eqb_eq). congruence. }
      pose proof (room r k C (lru_abs_nodup _ _ A) NI HU). replace (zlen r <? l_max l) with true in S by lia. injection S as <- <- <-.
      exists l', [], true, ((k, v) :: r). split; [exact E|]. split; [exact A'|]. split; [|split; [|exact M]].
      * intros k' v' [X|X]; [injection X as <- <-; auto|apply C; exact X].
      * intros k' X. right. exact X.
    + injection S as <- <- <-. exists l', [], false, r. split; [exact E|]. split; [exact A'|]. split; [exact C|]. split; [intros k' X; exact X|exact M].
Qed.
Lemma top_get_ok : forall t s k, top_abs Z.eqb t s -> contents (fst s) -> In k (map fst (fst s)) ->
  exists t' evs v s', top_step Z.eqb t (CGet k) = (t', evs, Ok (RVal v)) /\ make k = Ok v /\
    top_abs Z.eqb t' s' /\ contents (fst s') /\ incl_keys (fst s) (fst s') /\ t_max t' = t_max t.
Proof.
  intros t (r & acc) k A C H. destruct (top_refines Z.eqb Z.eqb_eq t (r, acc) (CGet k) A) as (t' & evs & ret & s' & E & S & A' & (_ & M)).
  cbn [top_spec fst] in *. set (r1 := promote Z.eqb (bump Z.eqb acc k) k r) in *.
  assert (P : Permutation r1 r) by apply promote_perm. assert (C1 : contents r1) by (eapply contents_perm; [symmetry; exact P|exact C]).
  destruct (dget_right r1 k C1) as (v & D & Mk). { eapply keys_perm; [symmetry; exact P|exact H]. }
  rewrite D in S. injection S as <- <- <-. exists t', [], v, (r1, bump Z.eqb acc k). split; [exact E|]. split; [exact Mk|]. split; [exact A'|]. cbn [fst].
  split; [exact C1|]. split; [apply keys_perm; symmetry; exact P|exact M].
Qed.
Lemma top_push_ok : forall t s k v allow, top_abs Z.eqb t s -> contents (fst s) -> make k = Ok v -> In k U -> zlen (nodup Z.eq_dec U) <= t_max t ->
  exists t' evs s', top_step Z.eqb t (CPush k v allow) = (t', evs, Ok (RBool true)) /\
    top_abs Z.eqb t' s' /\ contents (fst s') /\ incl_keys (fst s) (fst s') /\ t_max t' = t_max t.
Proof.
  intros t (r & acc) k v allow A C Mk HU L. destruct (top_refines Z.eqb Z.eqb_eq t (r, acc) (CPush k v allow) A) as (t' & evs & ret & s' & E & S & A' & (_ & M)).
  pose proof (top_abs_nodup _ _ _ A) as N. cbn [top_spec fst] in *. set (r1 := promote Z.eqb (bump Z.eqb acc k) k r) in *.
  assert (P : Permutation r1 r) by apply promote_perm. assert (C1 : contents r1) by (eapply contents_perm; [symmetry; exact P|exact C]).
  assert (K1 : incl_keys r r1) by (apply keys_perm; symmetry; exact P).
  assert (N1 : NoDup (map fst r1)). { eapply Permutation_NoDup; [apply Permutation_map; symmetry; exact P|exact N]. }
  destruct (dmem Z.eqb k r1) eqn:D.
  - injection S as <- <- <-. exists t', [], (update Z.eqb k v r1, bump Z.eqb acc k). split; [exact E|]. split; [exact A'|]. cbn [fst]. split; [|split; [|exact M]].
    + intros k' v' X. unfold update in X. apply in_map_iff in X. destruct X as ((k2 & v2) & X & I). cbn [fst] in X.
      destruct (Z.eqb_spec k k2) as [E2|E2]; injection X as <- <-; [auto|apply C1; exact I].
    + intros k' X. apply K1 in X. unfold update. rewrite map_map. replace (map _ r1) with (map fst r1); [exact X|].
      apply map_ext. intros (k2 & v2). cbn [fst]. destruct (Z.eqb_spec k k2); cbn; congruence.
  - assert (NI : ~ In k (map fst r1)). { rewrite <- (dmem_iff Z.eqb Z.eqb_eq). congruence. }
    pose proof (room r1 k C1 N1 NI HU). replace (zlen r1 <? t_max t) with true in S by lia. injection S as <- <- <-.
    exists t', [], (r1 ++ [(k, v)], bump Z.eqb acc k). split; [exact E|]. split; [exact A'|]. cbn [fst]. split; [|split; [|exact M]].
    + intros k' v' X. apply in_app_or in X. destruct X as [X|[X|[]]]; [apply C1; exact X|injection X as <- <-; auto].
    + intros k' X. rewrite map_app. apply in_or_app. left. apply K1. exact X.
Qed.

(** What holds of the cache at all times. *)
Definition cgood (cl : cache_class) (c : tcache V) : Prop :=
  match cl, c with
  | NoOpCache, TNone => True
  | LastAccessCache n, TLast l => exists r, lru_abs l r /\ contents r /\ l_max l = n
  | TopAccessCache n, TTop t => exists s, top_abs Z.eqb t s /\ contents (fst s) /\ t_max t = n
  | HybridCache n _, THybrid l t => lru_abs l [] /\ exists s, top_abs Z.eqb t s /\ contents (fst s) /\ t_max t = n
  | _, _ => False
  end.
Definition cached (c : tcache V) (k : Z) : bool :=
  match c with
  | TNone => false
  | TLast l => lru_has Z.eqb l k
  | TTop t | THybrid _ t => top_has Z.eqb t k
  end.
Definition cgrows (c c' : tcache V) : Prop := forall k, cached c k = true -> cached c' k = true.
Lemma cgrows_refl : forall c, cgrows c c. Proof. intros c k H. exact H. Qed.
Lemma cgrows_trans : forall a b c, cgrows a b -> cgrows b c -> cgrows a c. Proof. intros a b c A B k H. auto. Qed.
Lemma cgood_new : forall cl, cgood cl (tcache_new cl).
Proof.
  intros [|n|n|n m]; cbn; auto.
  - exists []. split; [apply lru_new_abs|]. split; [intros k v []|reflexivity].
  - exists ([], fun _ => 0). split; [apply top_new_abs|]. split; [intros k v []|reflexivity].
  - split; [apply lru_new_abs|]. exists ([], fun _ => 0). split; [apply top_new_abs|]. split; [intros k v []|reflexivity].
Qed.
Lemma lru_mem : forall (l : lru Z V) r k, lru_abs l r -> lru_has Z.eqb l k = true <-> In k (map fst r).
Proof. intros l r k A. rewrite (lru_abs_has _ Z.eqb_eq _ _ _ A). apply (dmem_iff Z.eqb Z.eqb_eq). Qed.
Lemma top_mem : forall (t : top Z V) s k, top_abs Z.eqb t s -> top_has Z.eqb t k = true <-> In k (map fst (fst s)).
Proof. intros t s k A. rewrite (top_abs_has _ Z.eqb_eq _ _ _ A). apply (dmem_iff Z.eqb Z.eqb_eq). Qed.
End Contents.

(** ** Programs *)
Definition same (a b : looks) : Prop := lk_pos b = lk_pos a.
Definition blinked (s : looks) : looks := mkLooks (lk_pos s) (fun n => lk_blink s (S n)) (lk_entries s) (lk_clusters s).
Notation never := (fun (_ : bool) (_ _ : bytes) => False).

Section Run.
Variable good : looks -> Prop.
Variable grows : looks -> looks -> Prop.
Hypothesis grows_refl : forall s, grows s s.
Hypothesis grows_trans : forall a b c, grows a b -> grows b c -> grows a c.
Hypothesis good_blinked : forall s, good s -> good (blinked s) /\ grows s (blinked s).
Hypothesis good_seek : forall p s, good s -> good (lk_seek p s) /\ grows s (lk_seek p s).
Definition quiet (s : looks) : Prop := True.
Lemma same_refl : forall s, same s s. Proof. reflexivity. Qed.
Lemma same_trans : forall a b c, same a b -> same b c -> same a c. Proof. unfold same. congruence. Qed.

(** A program run without the lock. *)
Definition run {A} (u : looks) (p : prog looks A) (R : looks -> res A -> Prop) : Prop :=
  safe looks good grows same quiet never true false u [] p (fun h s w x => h = false /\ w = [] /\ R s x).

Lemma run_ret : forall A u (r : res A) (R : looks -> res A -> Prop), (forall s, good s -> grows u s -> R s r) -> run u (Ret r) R.
Proof. intros A u r R H. cbn. intros s G (L & _). auto. Qed.
Lemma run_act : forall A u (k : looks -> prog looks A) g R,
  (forall s, good s -> grows u s -> good (g s) /\ grows s (g s) /\ lk_pos (g s) = lk_pos s /\ run (g s) (k s) R) -> run u (Act k g) R.
Proof.
  intros A u k g R H. cbn. intros s G (L & _). destruct (H s G L) as (H1 & H2 & H3 & H4). split; [exact H1|]. split; [exact H2|].
  split; [intros _; exact H3|exact H4].
Qed.
Lemma run_then : forall A B u (p : prog looks A) (k : res A -> prog looks B) R, good u ->
  run u p (fun s r => good s -> run s (k r) R) -> run u (pthen p k) R.
Proof.
  intros A B u p k R G H. unfold run. apply safe_then; [exact grows_refl|exact same_refl|exact G|].
  eapply safe_impl; [exact H|]. intros h s w r Gs (-> & -> & X). exact (X Gs).
Qed.
Lemma run_impl : forall A u (p : prog looks A) (R R' : looks -> res A -> Prop), run u p R -> (forall s x, good s -> R s x -> R' s x) -> run u p R'.
Proof. intros A u p R R' H I. unfold run. eapply safe_impl; [exact H|]. intros h s w r G (E & F & X). auto. Qed.

(** Programs that return [r], whatever the others do. *)
Definition yields {A} (p : prog looks A) (r : res A) : Prop := forall u, good u -> run u p (fun _ x => x = r).
Lemma yields_ret : forall A (r : res A), yields (Ret r) r.
Proof. intros A r u G. apply run_ret. auto. Qed.
Lemma yields_then : forall A B (p : prog looks A) (k : res A -> prog looks B) r r', yields p r -> yields (k r) r' -> yields (pthen p k) r'.
Proof. intros A B p k r r' H K u G. apply run_then; [exact G|]. eapply run_impl; [apply H; exact G|]. intros s x Gs -> _. apply K. exact Gs. Qed.
Lemma yields_bind : forall A B (p : prog looks A) (k : A -> prog looks B) r (r' : A -> res B), yields p r ->
  (forall a, r = Ok a -> yields (k a) (r' a)) -> yields (pbind p k) (bind r r').
Proof.
  intros A B p k r r' H K. eapply yields_then; [exact H|]. destruct r as [a|e]; cbn; [apply K; reflexivity|apply yields_ret].
Qed.

(** A use of the file: moved to [p], then read. *)
Lemma yields_file : forall A p (rd : Z -> res A) (mv : looks -> looks),
  (forall s, good s -> good (mv s) /\ grows s (mv s)) ->
  yields (locked (let! _ := put (lk_seek p) in Act (fun s => Ret (rd (lk_pos s))) mv)) (rd p).
Proof.
  intros A p rd mv HM u G. unfold run. apply safe_locked; [exact grows_refl|exact same_refl|].
  intros s Gs _ _. apply safe_put. intros s1 G1 _. destruct (good_seek p s1 G1) as (X & Y). split; [exact X|]. split; [exact Y|]. split; [discriminate|].
  cbn [safe]. intros s2 G2 (_ & S2). specialize (S2 eq_refl). unfold same in S2. cbn [lk_seek lk_pos] in S2. rewrite S2.
  destruct (HM s2 G2) as (X2 & Y2). split; [exact X2|]. split; [exact Y2|]. split; [discriminate|].
  intros s3 G3 _. split; [reflexivity|]. split; [exact Logic.I|]. intros s4 _ _. auto.
Qed.

(** *** One cache *)
Section OneCache.
Context {V : Type}.
Variable make : Z -> res V.
Variable U : list Z.
Variable cl : cache_class.
Variable sel : looks -> tcache V.
Variable upd : tcache V -> looks -> looks.
Hypothesis good_sel : forall s, good s -> cgood make U cl (sel s).
Hypothesis grows_sel : forall s s', grows s s' -> cgrows (sel s) (sel s').
Hypothesis sel_upd : forall c s, sel (upd c s) = c.
Hypothesis good_upd : forall c s, good s -> cgood make U cl c -> cgrows (sel s) c -> good (upd c s) /\ grows s (upd c s).
Hypothesis pos_upd : forall c s, lk_pos (upd c s) = lk_pos s.
Hypothesis enough : room_for cl U.

(** A step of the cache that returns something [Rr] allows and leaves [Rs]. *)
Lemma run_step : forall A u (on : tcache V -> tcache V * res (cret V)) (k : cret V -> prog looks A) R,
  (forall s, good s -> grows u s ->
     exists c r, on (sel s) = (c, Ok r) /\ cgood make U cl c /\ cgrows (sel s) c /\ (good (upd c s) -> grows u (upd c s) -> run (upd c s) (k r) R)) ->
  run u (pbind (step_of sel upd on) k) R.
Proof.
  intros A u on k R H. unfold step_of, pbind. cbn [pthen]. apply run_act. intros s G L. destruct (H s G L) as (c & r & E & C & W & X). rewrite E. cbn [fst snd].
  destruct (good_upd c s G C W) as (G1 & G2). split; [exact G1|]. split; [exact G2|]. split; [apply pos_upd|]. apply X; [exact G1|]. eauto.
Qed.

Lemma run_top_has : forall u k, (exists n, cl = TopAccessCache n \/ exists m, cl = HybridCache n m) ->
  run u (p_top_has sel upd k) (fun s x => exists b, x = Ok b /\ (b = true -> cached (sel s) k = true) /\ (cached (sel u) k = true -> b = true)).
Proof.
  intros u k (n & HC). unfold p_top_has. apply run_step. intros s G L. pose proof (good_sel s G) as C. exists (sel s), (RBool (cached (sel s) k)).
  split. { destruct HC as [HC|(m & HC)]; rewrite HC in C; destruct (sel s) as [|l|t|l t]; try contradiction; reflexivity. }
  split; [exact C|]. split; [apply cgrows_refl|]. intros G2 L2. apply run_ret. intros s2 G3 L3. exists (cached (sel s) k). split; [reflexivity|].
  split; [|intro X; apply (grows_sel u s L); exact X]. intro X. apply (grows_sel _ _ L3). rewrite sel_upd. exact X.
Qed.
Lemma run_last_has : forall u k, (exists n, cl = LastAccessCache n \/ exists m, cl = HybridCache n m) ->
  run u (p_last_has sel k) (fun s x => exists b, x = Ok b /\ (b = true -> cached (sel s) k = true)).
Proof.
  intros u k (n & HC). unfold p_last_has. apply run_act. intros s G L. pose proof (good_sel s G) as C. destruct (good_blinked s G) as (G1 & L1).
  split; [exact G1|]. split; [exact L1|]. split; [reflexivity|].
  destruct HC as [HC|(m & HC)]; rewrite HC in C; destruct (sel s) as [|l|t|l t] eqn:ES; try contradiction; cbn [on_last lru_step snd].
  - apply run_ret. intros s2 G3 L3. eexists. split; [reflexivity|]. intro X. apply andb_prop in X. destruct X as (X & _).
    apply (grows_sel _ _ L3). apply (grows_sel _ _ L1). rewrite ES. exact X.
  - apply run_ret. intros s2 G3 L3. eexists. split; [reflexivity|]. intro X. apply andb_prop in X. destruct X as (X & _).
    destruct C as (C & _). rewrite (lru_mem _ _ _ C) in X. destruct X.
Qed.
Lemma run_has : forall u k, good u ->
  run u (p_has sel upd cl k) (fun s x => exists b, x = Ok b /\ (b = true -> cached (sel s) k = true)).
Proof.
  intros u k G. unfold p_has. assert (HC : exists c, c = cl) by eauto. destruct HC as (c & HC). rewrite <- HC. symmetry in HC. destruct c as [|n|n|n m].
  - apply run_ret. intros s _ _. exists false. split; [reflexivity|discriminate].
  - apply run_last_has. eauto.
  - eapply run_impl; [apply run_top_has; eauto|]. intros s x Gs (b & E & X & _). eauto.
  - unfold pbind. apply run_then; [exact G|]. eapply run_impl; [apply run_top_has; eauto|]. intros s x Gs (b & -> & X & _) _. destruct b.
    + apply run_ret. intros s2 G2 L2. exists true. split; [reflexivity|]. intros _. apply (grows_sel _ _ L2). auto.
    + apply run_last_has. eauto.
Qed.
Lemma run_top_get : forall u k, (exists n, cl = TopAccessCache n \/ exists m, cl = HybridCache n m) -> cached (sel u) k = true ->
  run u (pbind (step_of sel upd (on_top (CGet k))) as_val) (fun _ x => x = make k).
Proof.
  intros u k (n & HC) HK. apply run_step. intros s G L. pose proof (good_sel s G) as C. apply (grows_sel u s L) in HK.
  destruct HC as [HC|(m & HC)]; rewrite HC in C |- *; destruct (sel s) as [|l|t|l t]; try contradiction; cbn [cached on_top] in *.
  - destruct C as (q & A & C & M). rewrite (top_mem _ _ _ A) in HK. destruct (top_get_ok make U t q k A C HK) as (t' & evs & v & q' & E & Mk & A' & C' & I' & M').
    exists (TTop t'), (RVal v). rewrite E. split; [reflexivity|]. split; [exists q'; split; [exact A'|]; split; [exact C'|congruence]|].
    split; [intros k' X; cbn in *; rewrite (top_mem _ _ _ A) in X; rewrite (top_mem _ _ _ A'); auto|].
    intros _ _. apply run_ret. intros. symmetry. exact Mk.
  - destruct C as (Z0 & q & A & C & M). rewrite (top_mem _ _ _ A) in HK. destruct (top_get_ok make U t q k A C HK) as (t' & evs & v & q' & E & Mk & A' & C' & I' & M').
    exists (THybrid l t'), (RVal v). rewrite E. split; [reflexivity|]. split; [split; [exact Z0|]; exists q'; split; [exact A'|]; split; [exact C'|congruence]|].
    split; [intros k' X; cbn in *; rewrite (top_mem _ _ _ A) in X; rewrite (top_mem _ _ _ A'); auto|].
    intros _ _. apply run_ret. intros. symmetry. exact Mk.
Qed.
Lemma run_get : forall u k, good u -> cached (sel u) k = true -> run u (p_get sel upd cl k) (fun _ x => x = make k).
Proof.
  intros u k G HK. unfold p_get. assert (HC : exists c, c = cl) by eauto. destruct HC as (c & HC). rewrite <- HC. symmetry in HC. destruct c as [|n|n|n m].
  - pose proof (good_sel u G) as C. rewrite HC in C. destruct (sel u); cbn in *; try contradiction; discriminate.
  - apply run_step. intros s Gs L. pose proof (good_sel s Gs) as C. rewrite HC in C |- *. apply (grows_sel u s L) in HK. destruct (sel s) as [|l|t|l t]; try contradiction. cbn [cached on_last] in *.
    destruct C as (q & A & C & M). rewrite (lru_mem _ _ _ A) in HK. destruct (last_get make U l q k A C HK) as (t' & evs & v & q' & E & Mk & A' & C' & I' & M').
    exists (TLast t'), (RVal v). rewrite E. split; [reflexivity|]. split; [exists q'; split; [exact A'|]; split; [exact C'|congruence]|].
    split; [intros k' X; cbn in *; rewrite (lru_mem _ _ _ A) in X; rewrite (lru_mem _ _ _ A'); auto|].
    intros _ _. apply run_ret. intros. symmetry. exact Mk.
  - apply run_top_get; eauto.
  - unfold pbind at 1. apply run_then; [exact G|]. 
    eapply run_impl; [apply run_top_has; eauto|]. intros s x Gs (b & -> & X1 & X2) _. specialize (X2 HK). subst b. apply run_top_get; eauto.
Qed.
Lemma run_top_push : forall A u k v allow (p : bool -> prog looks A) R, (exists n, cl = TopAccessCache n \/ exists m, cl = HybridCache n m) -> make k = Ok v -> In k U ->
  (forall s, good s -> run s (p true) R) ->
  run u (let! r := step_of sel upd (on_top (CPush k v allow)) in let! b := as_bool r in p b) R.
Proof.
  intros A u k v allow p R (n & HC) Mk HU HP. apply run_step. intros s G L. pose proof (good_sel s G) as C. pose proof enough as E0. unfold room_for in E0.
  destruct HC as [HC|(m & HC)]; rewrite HC in C, E0 |- *; cbn [size_of] in E0; destruct (sel s) as [|l|t|l t]; try contradiction; cbn [on_top] in *.
  - destruct C as (q & A0 & C & M). destruct (top_push_ok make U t q k v allow A0 C Mk HU) as (t' & evs & q' & E & A' & C' & I' & M'); [lia|].
    exists (TTop t'), (RBool true). rewrite E. split; [reflexivity|]. split; [exists q'; split; [exact A'|]; split; [exact C'|congruence]|].
    split; [intros k' X; cbn in *; rewrite (top_mem _ _ _ A0) in X; rewrite (top_mem _ _ _ A'); auto|].
    intros G1 _. apply HP. exact G1.
  - destruct C as (Z0 & q & A0 & C & M). destruct (top_push_ok make U t q k v allow A0 C Mk HU) as (t' & evs & q' & E & A' & C' & I' & M'); [lia|].
    exists (THybrid l t'), (RBool true). rewrite E. split; [reflexivity|]. split; [split; [exact Z0|]; exists q'; split; [exact A'|]; split; [exact C'|congruence]|].
    split; [intros k' X; cbn in *; rewrite (top_mem _ _ _ A0) in X; rewrite (top_mem _ _ _ A'); auto|].
    intros G1 _. apply HP. exact G1.
Qed.
Lemma run_push : forall u k v allow, good u -> make k = Ok v -> In k U ->
  run u (p_push sel upd cl k v allow) (fun _ x => exists b, x = Ok b).
Proof.
  intros u k v allow G Mk HU. unfold p_push. assert (HC : exists c, c = cl) by eauto. destruct HC as (c & HC). rewrite <- HC. symmetry in HC. destruct c as [|n|n|n m].
  - apply run_ret. eauto.
  - apply run_step. intros s Gs L. pose proof (good_sel s Gs) as C. pose proof enough as E0. unfold room_for in E0. rewrite HC in C, E0 |- *. cbn [size_of] in E0.
    destruct (sel s) as [|l|t|l t]; try contradiction. cbn [on_last] in *.
    destruct C as (q & A & C & M). destruct (last_push make U l q k v allow A C Mk HU) as (t' & evs & b & q' & E & A' & C' & I' & M'); [lia|].
    exists (TLast t'), (RBool b). rewrite E. split; [reflexivity|]. split; [exists q'; split; [exact A'|]; split; [exact C'|congruence]|].
    split; [intros k' X; cbn in *; rewrite (lru_mem _ _ _ A) in X; rewrite (lru_mem _ _ _ A'); auto|].
    intros _ _. apply run_ret. eauto.
  - assert (X : run u (let! r := step_of sel upd (on_top (CPush k v allow)) in let! b := as_bool r in pret b) (fun _ x => exists b, x = Ok b)).
    { apply run_top_push; eauto. intros s _. apply run_ret. eauto. }
    revert X. unfold step_of, pbind. cbn [pthen]. unfold run. cbn [safe]. intros X s Gs L. destruct (X s Gs L) as (X1 & X2 & X3 & X4). split; [exact X1|]. split; [exact X2|]. split; [exact X3|].
    destruct (snd (on_top (CPush k v allow) (sel s))) as [[| |]|]; exact X4.
  - apply run_top_push; eauto. intros s _. apply run_ret. eauto.
Qed.

Lemma yields_cached : forall k (load : prog looks V) allow, In k U -> yields load (make k) -> yields (p_cached sel upd cl k load allow) (make k).
Proof.
  intros k load allow HU HL u G. unfold p_cached. unfold pbind at 1. apply run_then; [exact G|].
  eapply run_impl; [apply run_has; exact G|]. intros s x Gs (b & -> & HB) _. destruct b; [apply run_get; auto|].
  unfold pbind at 1. apply run_then; [exact Gs|]. eapply run_impl; [apply HL; exact Gs|]. intros s1 x G1 -> _. destruct (make k) as [v|e] eqn:Mk; [|apply run_ret; auto].
  unfold pbind. apply run_then; [exact G1|]. eapply run_impl; [apply run_push; eauto|]. intros s2 x G2 (b & ->) _. apply run_ret. auto.
Qed.
End OneCache.
End Run.

(** ** Look-ups *)
Definition moves (mv : looks -> looks) : Prop := forall s, mv s = s \/ exists p, mv s = lk_seek p s.
Definition make_cluster (loc : Z) : res Z := if loc <? 0 then Err AssertionError else Ok loc.
Definition UE (base : Z) (es : list (Z * entry)) : list Z := map (Z.add base) (map fst es).

(** [gives p r]: [p] returns [r], in one of the senses below. *)
Section Lookups.
Variables (f : bytes) (base : Z) (urls clusters : ptrlist) (ecl ccl : cache_class) (es : list (Z * entry)) (cs UC : list Z).
Hypothesis AI : archive_is f base urls clusters es cs.
Variable gives : forall A, prog looks A -> res A -> Prop.
Arguments gives {A}.
Hypothesis g_ret : forall A (r : res A), gives (Ret r) r.
Hypothesis g_bind : forall A B (p : prog looks A) (k : A -> prog looks B) r (r' : A -> res B), gives p r ->
  (forall a, r = Ok a -> gives (k a) (r' a)) -> gives (pbind p k) (bind r r').
Hypothesis g_file : forall A p (rd : Z -> res A) (mv : looks -> looks), moves mv ->
  gives (locked (let! _ := put (lk_seek p) in Act (fun s => Ret (rd (lk_pos s))) mv)) (rd p).
Hypothesis g_entries : forall k load, In k (UE base es) -> gives load (entry_at f k) ->
  gives (p_cached lk_entries set_entries ecl k load true) (entry_at f k).
Hypothesis g_clusters : forall k load, In k UC -> gives load (make_cluster k) ->
  gives (p_cached lk_clusters set_clusters ccl k load true) (make_cluster k).

Lemma y_from_file : forall loc, gives (p_from_file f loc) (entry_at f loc).
Proof.
  intro loc. unfold p_from_file. apply (g_file _ loc (fun p => do ef <- entry_from_file (zskip p f) ;; Ok (fst ef))).
  intros s. destruct (entry_from_file (zskip (lk_pos s) f)) as [(e & r)|]; [right; eauto|left; reflexivity].
Qed.
Lemma y_entry_at : forall loc, In loc (map fst es) -> gives (p_entry_at f base ecl loc true) (entry_at f (base + loc)).
Proof.
  intros loc H. unfold p_entry_at. apply in_map_iff in H. destruct H as (le & <- & H). pose proof (ai_entries _ _ _ _ _ _ AI) as FE. rewrite Forall_forall in FE.
  destruct (FE le H) as (P & _). replace (fst le <? 0) with false by lia.
  apply g_entries; [|apply y_from_file]. apply in_map. apply in_map. exact H.
Qed.
Lemma y_cluster_at : forall loc, 0 <= loc -> In (base + loc) UC -> gives (p_cluster_at base ccl loc) (Ok (base + loc)).
Proof.
  intros loc P H. pose proof (ai_base _ _ _ _ _ _ AI) as B. assert (E : make_cluster (base + loc) = Ok (base + loc)). { unfold make_cluster. replace (base + loc <? 0) with false by lia. reflexivity. }
  cut (gives (p_cluster_at base ccl loc) (make_cluster (base + loc))); [rewrite E; auto|].
  unfold p_cluster_at. apply g_clusters; [exact H|]. rewrite E. replace (base + loc <? 0) with false by lia. apply g_ret.
Qed.

Definition pget (p : ptrlist) (i : Z) : res Z := match p with InMemory l => get_by_index l i | OnDisk o => od_get o i end.
Lemma y_ptr : forall p l i, list_is f p l -> gives (p_ptr f p i) (pget p i).
Proof.
  intros [m|o] l i H; cbn [p_ptr pget]; [apply g_ret|]. destruct H as (<- & _). unfold od_get.
  destruct ((od_n o <=? i) || (i <? 0)); [apply g_ret|]. cbv zeta. set (w := Z.of_nat (od_w o)). set (p := od_offset o + i * w).
  change (if zlen (fread (od_file o) p w) =? w then Ok (le_val (fread (od_file o) p w)) else Err StructError) with
    (bind (Ok (fread (od_file o) p w)) (fun data => if zlen data =? w then Ok (le_val data) else Err StructError)).
  apply g_bind.
  - apply (g_file _ p (fun q => Ok (fread (od_file o) q w))). intros s. right. eauto.
  - intros a _. destruct (zlen a =? w); apply g_ret.
Qed.
Lemma pget_len : forall p l, list_is f p l -> ptr_len p = zlen l.
Proof. intros [m|o] l H; cbn in *; [congruence|]. destruct H as (_ & B). apply B. Qed.
Lemma pget_spec : forall p l i, list_is f p l -> 0 <= i -> pget p i = match znth l i with Some x => Ok x | None => Err IndexError end.
Proof.
  intros [m|o] l i H P; cbn in *; [subst m; apply get_by_index_znth; exact P|]. destruct H as (_ & B). rewrite (od_get_same _ _ _ _ B P). apply get_by_index_znth. exact P.
Qed.
Lemma pget_in : forall p l i x, list_is f p l -> pget p i = Ok x -> In x l.
Proof.
  intros p l i x H E. destruct (Z.lt_ge_cases i 0) as [N|N].
  - destruct p as [m|o]; cbn in H, E.
    + subst m. unfold get_by_index in E. destruct (py_index (zlen l) i) as [k|]; [|discriminate].
      destruct (nth_error l k) as [y|] eqn:Q; [|discriminate]. injection E as <-. eapply nth_error_In; exact Q.
    + unfold od_get in E. replace ((od_n o <=? i) || (i <? 0)) with true in E by lia. discriminate.
  - rewrite (pget_spec p l i H) in E by lia. destruct (znth l i) as [y|] eqn:Q; [|discriminate]. injection E as <-. eapply znth_in; exact Q.
Qed.

Definition key (loc : Z) : res bytes := do e <- entry_at f (base + loc) ;; encode (full_url e).
Lemma y_keyat : forall i, gives (p_keyat f base ecl urls i) (do l <- pget urls i ;; key l).
Proof.
  intro i. unfold p_keyat. apply g_bind.
  - eapply y_ptr. exact (ai_urls _ _ _ _ _ _ AI).
  - intros l E. unfold p_url_key, key. apply g_bind; [|intros e _; apply g_ret].
    apply y_entry_at. eapply pget_in; [exact (ai_urls _ _ _ _ _ _ AI)|exact E].
Qed.
Lemma y_bsearch : forall fuel ka kr el a b, (forall i, gives (ka i) (kr i)) -> gives (p_bsearch_loop fuel ka el a b) (bsearch_loop fuel kr el a b).
Proof.
  induction fuel as [|fuel IH]; intros ka kr el a b H; cbn [p_bsearch_loop bsearch_loop]; destruct (a <? b); try apply g_ret.
  cbv zeta. apply g_bind; [apply H|]. intros k _. destruct (bltb k el); apply IH; exact H.
Qed.
Lemma y_index : forall k, gives (p_index f base ecl urls k) (get_index_gen key (ptr_len urls) (pget urls) k).
Proof.
  intro k. unfold p_index, get_index_gen. apply g_bind.
  - unfold p_binarysearch, binarysearch. destruct (ptr_len urls =? 0); [apply g_ret|]. apply y_bsearch. apply y_keyat.
  - intros i _. destruct (i =? ptr_len urls); [apply g_ret|].
    replace (do p <- pget urls i ;; do k0 <- key p ;; if beqb k0 k then Ok i else Err KeyError)
      with (do k0 <- (do p <- pget urls i ;; key p) ;; if beqb k0 k then Ok i else Err KeyError) by (destruct (pget urls i); reflexivity).
    apply g_bind; [apply y_keyat|]. intros k0 _. destruct (beqb k0 k); apply g_ret.
Qed.
Lemma y_find : forall u k, encode u = Ok k -> gives (p_find f base ecl urls u) (get_gen key (ptr_len urls) (pget urls) k).
Proof.
  intros u k E. unfold p_find. rewrite E. change (get_gen key (ptr_len urls) (pget urls) k) with (bind (Ok k) (fun k => get_gen key (ptr_len urls) (pget urls) k)).
  apply g_bind; [apply g_ret|]. intros k' _. unfold get_gen.
  apply g_bind; [apply y_index|]. intros i _. eapply y_ptr. exact (ai_urls _ _ _ _ _ _ AI).
Qed.

(** What the search finds. *)
Lemma in_es : forall l, In l (map fst es) -> exists e, In (l, e) es /\ entry_at f (base + l) = Ok e.
Proof.
  intros l H. apply in_map_iff in H. destruct H as ((l' & e) & <- & H). exists e. split; [exact H|].
  pose proof (ai_entries _ _ _ _ _ _ AI) as FE. rewrite Forall_forall in FE. apply (FE _ H).
Qed.
Lemma key_of : forall l e, In (l, e) es -> key l = encode (full_url e).
Proof.
  intros l e H. unfold key. pose proof (ai_entries _ _ _ _ _ _ AI) as FE. rewrite Forall_forall in FE. destruct (FE _ H) as (_ & E). cbn in E. rewrite E. reflexivity.
Qed.
Lemma key_url : forall l e u k, In (l, e) es -> encode u = Ok k -> key l = Ok k <-> full_url e = u.
Proof.
  intros l e u k H E. rewrite (key_of l e H). split; [|congruence]. intro X. apply encode_inv in X. apply encode_inv in E.
  eapply utf8_encode_inj; [exact X|exact E].
Qed.
Lemma sorted_keys : sorted_by key (map fst es).
Proof.
  destruct (ai_sorted _ _ _ _ _ _ AI) as (ks & F2 & S). exists ks. split; [|exact S]. unfold keys_are. pose proof (ai_entries _ _ _ _ _ _ AI) as FE. clear S.
  revert F2 FE. generalize es as es0. intros es0 F2. induction F2 as [|(l & e) k es' ks' H F2 IH]; cbn [map]; intro FE; [constructor|].
  inversion FE as [|? ? (P & E) FE']; subst. constructor; [|apply IH; exact FE']. cbn [fst snd] in *. unfold key. rewrite E. exact H.
Qed.
Lemma found : forall u k, encode u = Ok k ->
  match get_gen key (ptr_len urls) (pget urls) k with
  | Ok l => exists e, In (l, e) es /\ full_url e = u /\ entry_at f (base + l) = Ok e
  | Err x => x = KeyError /\ forall l e, In (l, e) es -> full_url e <> u
  end.
Proof.
  intros u k E. rewrite (pget_len _ _ (ai_urls _ _ _ _ _ _ AI)).
  assert (AC : accessor_of (map fst es) (pget urls)).
  { intros i p H. rewrite (pget_spec _ _ _ (ai_urls _ _ _ _ _ _ AI)); [rewrite H; reflexivity|]. apply znth_some in H. lia. }
  pose proof (get_gen_spec key _ _ k AC sorted_keys) as H. destruct (get_gen key (zlen (map fst es)) (pget urls) k) as [l|x].
  - destruct H as (i & _ & N & K). apply znth_in in N. destruct (in_es l N) as (e & I & EA). exists e. split; [exact I|]. split; [apply (key_url l e u k I E); exact K|exact EA].
  - destruct H as (-> & H). split; [reflexivity|]. intros l e I X. apply (H l); [apply in_map_iff; exists (l, e); auto|]. apply (key_url l e u k I E). exact X.
Qed.

Hypothesis g_then : forall A B (p : prog looks A) (k : res A -> prog looks B) r r', gives p r -> gives (k r) r' -> gives (pthen p k) r'.
(** One look-up. *)
Definition wrapped {A} (c : A -> seen) (p : prog looks A) : prog looks seen :=
  pthen p (fun r => pret (match r with Ok a => c a | Err e => SRaise e end)).
Lemma y_wrapped : forall A (c : A -> seen) p r, gives p r -> gives (wrapped c p) (Ok (match r with Ok a => c a | Err e => SRaise e end)).
Proof. intros A c p r H. unfold wrapped. eapply g_then; [exact H|apply g_ret]. Qed.
Lemma y_look : forall q, sensible es q -> (forall l, In l (asked cs [q]) -> In (base + l) UC) ->
  exists a, gives (p_look f base urls clusters ecl ccl q) (Ok a) /\ right base es cs q a.
Proof.
  intros q SQ AQ. destruct q as [l|i|u|u|l|i]; cbn [p_look sensible right] in *.
  - destruct (in_es l SQ) as (e & I & E). exists (SEntry e). split; [|eauto]. pose proof (y_wrapped _ SEntry _ _ (y_entry_at l SQ)) as Y. rewrite E in Y. exact Y.
  - exists (match znth es i with Some le => SEntry (snd le) | None => SRaise EntryNotFound end). split; [|reflexivity].
    unfold p_entry_by_index. destruct (Z.ltb_spec i 0) as [N|N].
    + destruct (znth es i) as [le|] eqn:Q; [apply znth_some in Q; lia|]. apply (y_wrapped _ SEntry _ (Err EntryNotFound)). apply g_ret.
    + assert (Q2 : znth (map fst es) i = option_map fst (znth es i)). { unfold znth. destruct (i <? 0); [reflexivity|]. apply nth_error_map. }
      assert (Y : gives (pthen (p_ptr f urls i) (fun r => Ret (match r with Err IndexError => Err EntryNotFound | _ => r end)))
        (match znth es i with Some le => Ok (fst le) | None => Err EntryNotFound end)).
      { eapply g_then; [eapply y_ptr; exact (ai_urls _ _ _ _ _ _ AI)|].
        rewrite (pget_spec _ _ i (ai_urls _ _ _ _ _ _ AI) N), Q2. destruct (znth es i); cbn; apply g_ret. }
      destruct (znth es i) as [(l & e)|] eqn:Q.
      * apply znth_in in Q. pose proof (ai_entries _ _ _ _ _ _ AI) as FE. rewrite Forall_forall in FE. destruct (FE _ Q) as (_ & EA). cbn [fst snd] in *.
        assert (X : gives (p_entry_by_index f base urls ecl i) (bind (Ok l) (fun l => entry_at f (base + l)))).
        { unfold p_entry_by_index. replace (i <? 0) with false by lia. apply g_bind; [exact Y|]. intros l' E'. injection E' as <-.
          apply y_entry_at. apply in_map_iff. exists (l, e). auto. }
        pose proof (y_wrapped _ SEntry _ _ X) as W. cbn [bind] in W. rewrite EA in W. unfold p_entry_by_index in W. replace (i <? 0) with false in W by lia. exact W.
      * assert (X : gives (p_entry_by_index f base urls ecl i) (bind (Err EntryNotFound) (fun l => entry_at f (base + l)))).
        { unfold p_entry_by_index. replace (i <? 0) with false by lia. apply g_bind; [exact Y|]. intros l' E'. discriminate. }
        pose proof (y_wrapped _ SEntry _ _ X) as W. unfold p_entry_by_index in W. replace (i <? 0) with false in W by lia. exact W.
  - destruct SQ as (k & E). pose proof (found u k E) as F. pose proof (y_find u k E) as Y. destruct (get_gen key (ptr_len urls) (pget urls) k) as [l|x].
    + destruct F as (e & I & FU & EA). exists (SEntry e). split; [|left; eauto].
      assert (X : gives (p_entry_by_url f base urls ecl u) (bind (Ok l) (fun l => entry_at f (base + l)))).
      { unfold p_entry_by_url. apply g_bind; [eapply g_then; [exact Y|apply g_ret]|].
        intros l' E'. injection E' as <-. apply y_entry_at. apply in_map_iff. exists (l, e). auto. }
      pose proof (y_wrapped _ SEntry _ _ X) as W. cbn [bind] in W. rewrite EA in W. exact W.
    + destruct F as (-> & F). exists (SRaise EntryNotFound). split; [|right; auto].
      assert (X : gives (p_entry_by_url f base urls ecl u) (bind (Err EntryNotFound) (fun l => entry_at f (base + l)))).
      { unfold p_entry_by_url. apply g_bind; [eapply g_then; [exact Y|apply g_ret]|]. intros l' E'. discriminate. }
      exact (y_wrapped _ SEntry _ _ X).
  - destruct SQ as (k & E). pose proof (found u k E) as F. pose proof (y_find u k E) as Y. destruct (get_gen key (ptr_len urls) (pget urls) k) as [l|x].
    + destruct F as (e & I & FU & EA). exists (SBool true). split; [|exists true; split; [reflexivity|]; split; eauto].
      apply (y_wrapped _ SBool _ (Ok true)). unfold p_has_url. eapply g_then; [exact Y|apply g_ret].
    + destruct F as (-> & F). exists (SBool false). split; [|exists false; split; [reflexivity|]; split; [discriminate|intros (l & e & I & X); exfalso; eapply F; eauto]].
      apply (y_wrapped _ SBool _ (Ok false)). unfold p_has_url. eapply g_then; [exact Y|apply g_ret].
  - exists (SCluster (base + l)). split; [|reflexivity]. apply (y_wrapped _ SCluster _ (Ok (base + l))). apply y_cluster_at; [exact SQ|]. apply AQ. left. reflexivity.
  - eexists. split; [|reflexivity]. unfold p_cluster_by_index. destruct (Z.ltb_spec i 0) as [N|N]; [apply (y_wrapped _ SCluster _ (Err AssertionError)); apply g_ret|].
    assert (X : gives (let! loc := p_ptr f clusters i in p_cluster_at base ccl loc)
      (bind (match znth cs i with Some l => Ok l | None => Err IndexError end) (fun l => Ok (base + l)))).
    { apply g_bind.
      - rewrite <- (pget_spec _ _ i (ai_clusters _ _ _ _ _ _ AI) N). eapply y_ptr. exact (ai_clusters _ _ _ _ _ _ AI).
      - intros l E. destruct (znth cs i) as [l'|] eqn:Q; [|discriminate]. injection E as <-. apply y_cluster_at.
        + pose proof (ai_offsets _ _ _ _ _ _ AI) as FO. rewrite Forall_forall in FO. apply FO. eapply znth_in. exact Q.
        + apply AQ. cbn. rewrite Q. left. reflexivity. }
    pose proof (y_wrapped _ SCluster _ _ X) as W. destruct (znth cs i); exact W.
Qed.
Lemma y_looks : forall qs, Forall (sensible es) qs -> (forall l, In l (asked cs qs) -> In (base + l) UC) ->
  exists l, gives (p_looks f base urls clusters ecl ccl qs) (Ok l) /\ Forall2 (right base es cs) qs l.
Proof.
  induction qs as [|q qs IH]; intros SQ AQ; [exists []; split; [apply g_ret|constructor]|]. inversion SQ as [|? ? S1 S2]; subst.
  destruct (y_look q S1) as (a & Ya & Ra). { intros l H. apply AQ. cbn in H |- *. rewrite app_nil_r in H. apply in_or_app. left. exact H. }
  destruct (IH S2) as (l & Yl & Rl). { intros x H. apply AQ. cbn. apply in_or_app. right. exact H. }
  exists (a :: l). split; [|constructor; assumption]. cbn [p_looks].
  change (Ok (a :: l)) with (bind (Ok a) (fun a => bind (Ok l) (fun l => Ok (a :: l)))).
  apply g_bind; [exact Ya|]. intros a' E. injection E as <-.
  apply g_bind; [exact Yl|]. intros l' E. injection E as <-. apply g_ret.
Qed.
End Lookups.

Lemma room_shift : forall cl base l, room_for cl l -> room_for cl (map (Z.add base) l).
Proof.
  intros cl base l H. unfold room_for in *. destruct (size_of cl) as [n|]; [|exact H].
  assert (L : (length (nodup Z.eq_dec (map (Z.add base) l)) <= length (map (Z.add base) (nodup Z.eq_dec l)))%nat).
  { apply NoDup_incl_length; [apply NoDup_nodup|]. intros x X. apply nodup_In, in_map_iff in X. destruct X as (y & <- & X). apply in_map, nodup_In. exact X. }
  rewrite map_length in L. unfold zlen in *. lia.
Qed.

(** ** Among other threads, with room in the caches *)
Section Among.
Variables (f : bytes) (base : Z) (urls clusters : ptrlist) (ecl ccl : cache_class) (es : list (Z * entry)) (cs UC : list Z).
Hypothesis AI : archive_is f base urls clusters es cs.
Hypothesis room_e : room_for ecl (UE base es).
Hypothesis room_c : room_for ccl UC.
Definition lgood (s : looks) : Prop := cgood (entry_at f) (UE base es) ecl (lk_entries s) /\ cgood make_cluster UC ccl (lk_clusters s).
Definition lgrows (s s' : looks) : Prop := cgrows (lk_entries s) (lk_entries s') /\ cgrows (lk_clusters s) (lk_clusters s').
Lemma lgrows_refl : forall s, lgrows s s. Proof. intro s. split; apply cgrows_refl. Qed.
Lemma lgrows_trans : forall a b c, lgrows a b -> lgrows b c -> lgrows a c.
Proof. intros a b c (A & B) (X & Y). split; eapply cgrows_trans; eauto. Qed.
Lemma lgood_seek : forall p s, lgood s -> lgood (lk_seek p s) /\ lgrows s (lk_seek p s).
Proof. intros p s G. split; [exact G|split; apply cgrows_refl]. Qed.
Notation gives := (yields lgood lgrows).

Lemma among_looks : forall qs, Forall (sensible es) qs -> (forall l, In l (asked cs qs) -> In (base + l) UC) ->
  exists l, gives (p_looks f base urls clusters ecl ccl qs) (Ok l) /\ Forall2 (right base es cs) qs l.
Proof.
  apply (y_looks f base urls clusters ecl ccl es cs UC AI (fun A => @yields lgood lgrows A)).
  - intros A r. apply yields_ret.
  - intros A B p k r r'. apply (yields_bind lgood lgrows lgrows_refl).
  - intros A p rd mv M. apply (yields_file lgood lgrows lgrows_refl lgood_seek). intros s G. destruct (M s) as [->|(q & ->)]; [split; [exact G|apply lgrows_refl]|apply lgood_seek; exact G].
  - intros k load H L. apply (yields_cached lgood lgrows lgrows_refl lgrows_trans) with (U := UE base es); try reflexivity; try assumption.
    + intros s G. split; [exact G|split; apply cgrows_refl].
    + apply lgood_seek.
    + intros s G. apply G.
    + intros s s' G. apply G.
    + intros c s (G1 & G2) C W. split; [split; [exact C|exact G2]|split; [exact W|apply cgrows_refl]].
  - intros k load H L. apply (yields_cached lgood lgrows lgrows_refl lgrows_trans) with (U := UC); try reflexivity; try assumption.
    + intros s G. split; [exact G|split; apply cgrows_refl].
    + apply lgood_seek.
    + intros s G. apply G.
    + intros s s' G. apply G.
    + intros c s (G1 & G2) C W. split; [split; [exact G1|exact C]|split; [apply cgrows_refl|exact W]].
  - intros A B p k r r'. apply (yields_then lgood lgrows lgrows_refl).
Qed.
End Among.

(** ** Caches of any size *)
Section AnySize.
Context {V : Type}.
Variable make : Z -> res V.
Variable U : list Z.
Notation contents := (contents make U).
Definition last_in (c : tcache V) (k : Z) : bool := match c with TLast l | THybrid l _ => lru_has Z.eqb l k | _ => false end.
Definition top_in (c : tcache V) (k : Z) : bool := match c with TTop t | THybrid _ t => top_has Z.eqb t k | _ => false end.
Definition lastok (l : lru Z V) : Prop := exists r, lru_abs l r /\ contents r /\ 0 < l_max l /\ l_cb l = true.
Definition topok (t : top Z V) : Prop := exists s, top_abs Z.eqb t s /\ contents (fst s) /\ 0 < t_max t /\ t_cb t = true.
Definition has_last (cl : cache_class) : Prop := match cl with LastAccessCache _ | HybridCache _ _ => True | _ => False end.
Definition has_top (cl : cache_class) : Prop := match cl with TopAccessCache _ | HybridCache _ _ => True | _ => False end.
Definition cok (cl : cache_class) (c : tcache V) : Prop :=
  match cl, c with
  | NoOpCache, TNone => True
  | LastAccessCache _, TLast l => lastok l
  | TopAccessCache _, TTop t => topok t
  | HybridCache _ _, THybrid l t => lastok l /\ topok t
  | _, _ => False
  end.
Lemma cok_new : forall cl, positive_size cl -> cok cl (tcache_new cl).
Proof.
  assert (L : forall n, 0 < n -> lastok (lru_new true n)). { intros n H. exists []. split; [apply lru_new_abs|]. split; [intros k v []|]. split; [exact H|reflexivity]. }
  assert (T : forall n, 0 < n -> topok (top_new true n)). { intros n H. exists ([], fun _ => 0). split; [apply top_new_abs|]. split; [intros k v []|]. split; [exact H|reflexivity]. }
  intros [|n|n|n m] P; cbn in *; auto.
Qed.

Lemma contents_del : forall r k, contents r -> contents (del Z.eqb k r).
Proof. intros r k C k' v' X. apply in_del in X. destruct X as (X & _). exact (C _ _ X). Qed.
Lemma contents_cons : forall r k v, contents r -> make k = Ok v -> In k U -> contents ((k, v) :: r).
Proof. intros r k v C M H k' v' [X|X]; [injection X as <- <-; auto|apply C; exact X]. Qed.
Lemma contents_sub : forall r r', contents r -> (forall x, In x r' -> In x r) -> contents r'.
Proof. intros r r' C I k v X. exact (C _ _ (I _ X)). Qed.
Lemma in_removelast : forall A (l : list A) x, In x (removelast l) -> In x l.
Proof.
  induction l as [|a l IH]; intros x H; [exact H|]. destruct l as [|b l]; [destruct H|]. cbn [removelast] in H. destruct H as [->|H]; [left; reflexivity|right; apply IH; exact H].
Qed.

Lemma last_get_any : forall l k, lastok l -> exists l' x, lru_step Z.eqb l (CGet k) = (l', [], x) /\ lastok l' /\
  ((exists v, x = Ok (RVal v) /\ make k = Ok v) \/ (x = Err KeyError /\ lru_has Z.eqb l k = false)).
Proof.
  intros l k (r & A & C & P & Cb). destruct (lru_refines Z.eqb Z.eqb_eq l r (CGet k) A) as (l' & evs & ret & r' & E & S & A' & (Cb' & M)).
  cbn [lru_spec] in S. destruct (dget Z.eqb k r) as [v|] eqn:D; injection S as <- <- <-.
  - exists l', (Ok (RVal v)). split; [exact E|]. apply (dget_in Z.eqb Z.eqb_eq) in D. destruct (C _ _ D) as (Mk & HU). split.
    + exists ((k, v) :: del Z.eqb k r). split; [exact A'|]. split; [apply contents_cons; auto; apply contents_del; exact C|]. split; congruence.
    + left. eauto.
  - exists l', (Err KeyError). split; [exact E|]. split; [exists r; split; [exact A'|]; split; [exact C|]; split; congruence|]. right. split; [reflexivity|].
    destruct (lru_has Z.eqb l k) eqn:H; [|reflexivity]. rewrite (lru_mem _ _ _ A) in H. apply (dget_some_iff Z.eqb Z.eqb_eq) in H. destruct H as (v & H). congruence.
Qed.
Lemma last_push_any : forall l k v allow, lastok l -> make k = Ok v -> In k U ->
  exists l' evs b, lru_step Z.eqb l (CPush k v allow) = (l', evs, Ok (RBool b)) /\ lastok l'.
Proof.
  intros l k v allow (r & A & C & P & Cb) Mk HU. destruct (lru_refines Z.eqb Z.eqb_eq l r (CPush k v allow) A) as (l' & evs & ret & r' & E & S & A' & (Cb' & M)).
  cbn [lru_spec] in S.
  assert (X : contents r' /\ exists b, ret = Ok (RBool b)).
  { destruct (dmem Z.eqb k r); [injection S as <- <- <-; split; [apply contents_cons; auto; apply contents_del; exact C|eauto]|].
    destruct allow; cbn [negb] in S; [|injection S as <- <- <-; eauto].
    destruct (Z.ltb_spec (zlen r) (l_max l)) as [L|L]; [injection S as <- <- <-; split; [apply contents_cons; auto|eauto]|].
    destruct (rev r) as [|o q] eqn:R.
    - apply (f_equal (@rev _)) in R. rewrite rev_involutive in R. subst r. cbn in L. lia.
    - injection S as <- <- <-. split; [|eauto]. apply contents_cons; auto. eapply contents_sub; [exact C|]. intros x. apply in_removelast. }
  destruct X as (X & b & ->). exists l', evs, b. split; [exact E|]. exists r'. split; [exact A'|]. split; [exact X|]. split; congruence.
Qed.
Lemma last_remove_any : forall l k, lastok l -> exists l' evs, lru_step Z.eqb l (CRemove k true) = (l', evs, Ok RNone) /\ lastok l'.
Proof.
  intros l k (r & A & C & P & Cb). destruct (lru_refines Z.eqb Z.eqb_eq l r (CRemove k true) A) as (l' & evs & ret & r' & E & S & A' & (Cb' & M)).
  cbn [lru_spec] in S. rewrite Cb in S. cbn in S.
  assert (X : contents r' /\ ret = Ok RNone). { destruct (dget Z.eqb k r); injection S as <- <- <-; split; auto. apply contents_del. exact C. }
  destruct X as (X & ->). exists l', evs. split; [exact E|]. exists r'. split; [exact A'|]. split; [exact X|]. split; congruence.
Qed.
Lemma top_get_any : forall t k, topok t -> exists t' x, top_step Z.eqb t (CGet k) = (t', [], x) /\ topok t' /\
  ((exists v, x = Ok (RVal v) /\ make k = Ok v) \/ (x = Err KeyError /\ top_has Z.eqb t k = false)).
Proof.
  intros t k ((r & acc) & A & C & P & Cb). destruct (top_refines Z.eqb Z.eqb_eq t (r, acc) (CGet k) A) as (t' & evs & ret & s' & E & S & A' & (Cb' & M)).
  cbn [top_spec fst] in *. set (r1 := promote Z.eqb (bump Z.eqb acc k) k r) in *.
  assert (Q : Permutation r1 r) by apply promote_perm. assert (C1 : contents r1) by (eapply contents_perm; [symmetry; exact Q|exact C]).
  injection S as <- <- <-. eexists t', _. split; [exact E|]. split; [exists (r1, bump Z.eqb acc k); split; [exact A'|]; split; [exact C1|]; split; congruence|].
  destruct (dget Z.eqb k r1) as [v|] eqn:D; [left|right].
  - apply (dget_in Z.eqb Z.eqb_eq) in D. destruct (C1 _ _ D) as (Mk & _). eauto.
  - split; [reflexivity|]. destruct (top_has Z.eqb t k) eqn:H; [|reflexivity]. rewrite (top_mem _ _ _ A) in H. cbn [fst] in H. apply (keys_perm _ _ (Permutation_sym Q)) in H.
    apply (dget_some_iff Z.eqb Z.eqb_eq) in H. destruct H as (v & H). congruence.
Qed.
Lemma top_push_any : forall t k v allow, topok t -> make k = Ok v -> In k U ->
  exists t' evs b, top_step Z.eqb t (CPush k v allow) = (t', evs, Ok (RBool b)) /\ topok t'.
Proof.
  intros t k v allow ((r & acc) & A & C & P & Cb) Mk HU. destruct (top_refines Z.eqb Z.eqb_eq t (r, acc) (CPush k v allow) A) as (t' & evs & ret & s' & E & S & A' & (Cb' & M)).
  cbn [top_spec fst] in *. set (r1 := promote Z.eqb (bump Z.eqb acc k) k r) in *.
  assert (Q : Permutation r1 r) by apply promote_perm. assert (C1 : contents r1) by (eapply contents_perm; [symmetry; exact Q|exact C]).
  assert (C2 : forall r2, contents r2 -> contents (r2 ++ [(k, v)])).
  { intros r2 H k' v' X. apply in_app_or in X. destruct X as [X|[X|[]]]; [apply H; exact X|injection X as <- <-; auto]. }
  assert (X : contents (fst s') /\ exists b, ret = Ok (RBool b)).
  { destruct (dmem Z.eqb k r1).
    - injection S as <- <- <-. split; [|eauto]. cbn [fst]. intros k' v' X. unfold update in X. apply in_map_iff in X. destruct X as ((k2 & v2) & X & I). cbn [fst] in X.
      destruct (Z.eqb_spec k k2) as [E2|E2]; injection X as <- <-; [auto|apply C1; exact I].
    - destruct (Z.ltb_spec (zlen r1) (t_max t)) as [L|L]; [injection S as <- <- <-; split; [apply C2; exact C1|eauto]|].
      destruct (rev r1) as [|o q] eqn:R.
      + apply (f_equal (@rev _)) in R. rewrite rev_involutive in R. rewrite R in L. cbn in L. lia.
      + destruct ((_ <? _) && allow); injection S as <- <- <-; split; eauto. cbn [fst]. apply C2. eapply contents_sub; [exact C1|]. intros x. apply in_removelast. }
  destruct X as (X & b & ->). exists t', evs, b. split; [exact E|]. exists s'. split; [exact A'|]. split; [exact X|]. split; congruence.
Qed.

(** The same for the caches of an archive. *)
Lemma on_last_get : forall cl c k, has_last cl -> cok cl c -> exists c' x, on_last (CGet k) c = (c', x) /\ cok cl c' /\ 
  ((exists v, x = Ok (RVal v) /\ make k = Ok v) \/ (x = Err KeyError /\ last_in c k = false)).
Proof.
  intros [|n|n|n m] [|l|t|l t] k HL C; try contradiction; cbn [cok on_last last_in] in *.
  - destruct (last_get_any l k C) as (l' & x & E & C' & X). rewrite E. exists (TLast l'), x. auto.
  - destruct C as (C & Ct). destruct (last_get_any l k C) as (l' & x & E & C' & X). rewrite E. exists (THybrid l' t), x. split; [reflexivity|]. split; [split; assumption|exact X].
Qed.
Lemma on_last_push : forall cl c k v allow, has_last cl -> cok cl c -> make k = Ok v -> In k U -> exists c' b, on_last (CPush k v allow) c = (c', Ok (RBool b)) /\ cok cl c'.
Proof.
  intros [|n|n|n m] [|l|t|l t] k v allow HL C Mk HU; try contradiction; cbn [cok on_last] in *.
  - destruct (last_push_any l k v allow C Mk HU) as (l' & evs & b & E & C'). rewrite E. exists (TLast l'), b. auto.
  - destruct C as (C & Ct). destruct (last_push_any l k v allow C Mk HU) as (l' & evs & b & E & C'). rewrite E. exists (THybrid l' t), b. split; [reflexivity|]. split; assumption.
Qed.
Lemma on_last_remove : forall cl c k, has_last cl -> cok cl c -> exists c', on_last (CRemove k true) c = (c', Ok RNone) /\ cok cl c'.
Proof.
  intros [|n|n|n m] [|l|t|l t] k HL C; try contradiction; cbn [cok on_last] in *.
  - destruct (last_remove_any l k C) as (l' & evs & E & C'). rewrite E. exists (TLast l'). auto.
  - destruct C as (C & Ct). destruct (last_remove_any l k C) as (l' & evs & E & C'). rewrite E. exists (THybrid l' t). split; [reflexivity|]. split; assumption.
Qed.
Lemma on_top_get : forall cl c k, has_top cl -> cok cl c -> exists c' x, on_top (CGet k) c = (c', x) /\ cok cl c' /\
  ((exists v, x = Ok (RVal v) /\ make k = Ok v) \/ (x = Err KeyError /\ top_in c k = false)).
Proof.
  intros [|n|n|n m] [|l|t|l t] k HL C; try contradiction; cbn [cok on_top top_in] in *.
  - destruct (top_get_any t k C) as (t' & x & E & C' & X). rewrite E. exists (TTop t'), x. auto.
  - destruct C as (C & Ct). destruct (top_get_any t k Ct) as (t' & x & E & C' & X). rewrite E. exists (THybrid l t'), x. split; [reflexivity|]. split; [split; assumption|exact X].
Qed.
Lemma on_top_push : forall cl c k v allow, has_top cl -> cok cl c -> make k = Ok v -> In k U -> exists c' b, on_top (CPush k v allow) c = (c', Ok (RBool b)) /\ cok cl c'.
Proof.
  intros [|n|n|n m] [|l|t|l t] k v allow HL C Mk HU; try contradiction; cbn [cok on_top] in *.
  - destruct (top_push_any t k v allow C Mk HU) as (t' & evs & b & E & C'). rewrite E. exists (TTop t'), b. auto.
  - destruct C as (C & Ct). destruct (top_push_any t k v allow Ct Mk HU) as (t' & evs & b & E & C'). rewrite E. exists (THybrid l t'), b. split; [reflexivity|]. split; assumption.
Qed.
Lemma on_top_has : forall cl c k, has_top cl -> cok cl c -> on_top (CHas k) c = (c, Ok (RBool (top_in c k))).
Proof. intros [|n|n|n m] [|l|t|l t] k HL C; try contradiction; reflexivity. Qed.
Lemma on_last_has : forall cl c k, has_last cl -> cok cl c -> snd (on_last (CHas k) c) = Ok (RBool (last_in c k)).
Proof. intros [|n|n|n m] [|l|t|l t] k HL C; try contradiction; reflexivity. Qed.
End AnySize.

(** ** Among other threads, with caches of any size: right, or KeyError *)
Section Mostly.
Variables (f : bytes) (base : Z) (urls clusters : ptrlist) (ecl ccl : cache_class) (es : list (Z * entry)) (cs UC : list Z).
Hypothesis AI : archive_is f base urls clusters es cs.
Definition aok (s : looks) : Prop := cok (entry_at f) (UE base es) ecl (lk_entries s) /\ cok make_cluster UC ccl (lk_clusters s).
Definition anyhow (a b : looks) : Prop := True.
Lemma anyhow_refl : forall s, anyhow s s. Proof. intro s. exact Logic.I. Qed.
Notation runs := (run aok anyhow).
Definition mostly {A} (p : prog looks A) (r : res A) : Prop := forall u, aok u -> runs u p (fun _ x => x = r \/ x = Err KeyError).

Section OneCache.
Context {V : Type}.
Variable make : Z -> res V.
Variable U : list Z.
Variable cl : cache_class.
Variable sel : looks -> tcache V.
Variable upd : tcache V -> looks -> looks.
Hypothesis ok_sel : forall s, aok s -> cok make U cl (sel s).
Hypothesis ok_upd : forall c s, aok s -> cok make U cl c -> aok (upd c s).
Hypothesis pos_upd : forall c s, lk_pos (upd c s) = lk_pos s.

Lemma any_step : forall A u (on : tcache V -> tcache V * res (cret V)) (k : cret V -> prog looks A) (R : res A -> Prop),
  (forall s, aok s -> exists c x, on (sel s) = (c, x) /\ cok make U cl c /\
     match x with Ok r => (forall s', aok s' -> runs s' (k r) (fun _ y => R y)) | Err e => R (Err e) end) ->
  runs u (pbind (step_of sel upd on) k) (fun _ y => R y).
Proof.
  intros A u on k R H. unfold step_of, pbind. cbn [pthen]. apply run_act. intros s G _. destruct (H s G) as (c & x & E & C & X). rewrite E. cbn [fst snd].
  pose proof (ok_upd c s G C) as G1. split; [exact G1|]. split; [exact Logic.I|]. split; [apply pos_upd|]. destruct x as [r|e]; [apply X; exact G1|apply run_ret; auto].
Qed.
Lemma any_top_has : forall u k, has_top cl -> runs u (p_top_has sel upd k) (fun _ x => exists b, x = Ok b).
Proof.
  intros u k H. unfold p_top_has. apply any_step. intros s G. pose proof (ok_sel s G) as C. exists (sel s), (Ok (RBool (top_in (sel s) k))).
  split; [apply (on_top_has make U cl); assumption|]. split; [exact C|]. intros s' _. apply run_ret. eauto.
Qed.
Lemma any_last_has : forall u k, has_last cl -> runs u (p_last_has sel k) (fun _ x => exists b, x = Ok b).
Proof.
  intros u k H. unfold p_last_has. apply run_act. intros s G _. split; [exact G|]. split; [exact Logic.I|]. split; [reflexivity|].
  rewrite (on_last_has make U cl _ k H (ok_sel s G)). apply run_ret. eauto.
Qed.
Lemma any_has : forall u k, aok u -> runs u (p_has sel upd cl k) (fun _ x => exists b, x = Ok b).
Proof.
  intros u k G. unfold p_has. assert (HC : exists c, c = cl) by eauto. destruct HC as (c & HC). rewrite <- HC. symmetry in HC. destruct c as [|n|n|n m].
  - apply run_ret. eauto.
  - apply any_last_has. rewrite HC. exact Logic.I.
  - apply any_top_has. rewrite HC. exact Logic.I.
  - unfold pbind. apply run_then; [unfold anyhow; auto|exact G|]. eapply run_impl; [apply any_top_has; rewrite HC; exact Logic.I|].
    intros s x Gs (b & ->) _. destruct b; [apply run_ret; eauto|apply any_last_has; rewrite HC; exact Logic.I].
Qed.
Lemma any_top_get : forall u k, has_top cl -> runs u (pbind (step_of sel upd (on_top (CGet k))) as_val) (fun _ x => x = make k \/ x = Err KeyError).
Proof.
  intros u k H. apply (any_step V u (on_top (CGet k)) as_val (fun x => x = make k \/ x = Err KeyError)). intros s G.
  destruct (on_top_get make U cl (sel s) k H (ok_sel s G)) as (c & x & E & C & X). exists c, x. split; [exact E|]. split; [exact C|].
  destruct X as [(v & -> & Mk)|(-> & _)]; [|auto]. intros s' _. apply run_ret. intros. left. symmetry. exact Mk.
Qed.
Lemma any_get : forall u k, aok u -> (forall v, make k = Ok v -> In k U) -> runs u (p_get sel upd cl k) (fun _ x => x = make k \/ x = Err KeyError).
Proof.
  intros u k G HU. unfold p_get. assert (HC : exists c, c = cl) by eauto. destruct HC as (c & HC). rewrite <- HC. symmetry in HC. destruct c as [|n|n|n m].
  - apply run_ret. auto.
  - apply (any_step V u (on_last (CGet k)) as_val (fun x => x = make k \/ x = Err KeyError)). intros s Gs.
    destruct (on_last_get make U cl (sel s) k) as (c & x & E & C & X); [rewrite HC; exact Logic.I|apply ok_sel; exact Gs|]. exists c, x. split; [exact E|]. split; [exact C|].
    destruct X as [(v & -> & Mk)|(-> & _)]; [|auto]. intros s' _. apply run_ret. intros. left. symmetry. exact Mk.
  - apply any_top_get. rewrite HC. exact Logic.I.
  - assert (HT : has_top cl) by (rewrite HC; exact Logic.I). assert (HL : has_last cl) by (rewrite HC; exact Logic.I).
    unfold pbind at 1. apply run_then; [unfold anyhow; auto|exact G|]. eapply run_impl; [apply any_top_has; exact HT|]. intros s x Gs (b & ->) _.
    destruct b; [apply any_top_get; exact HT|].
    unfold pbind at 1. apply run_then; [unfold anyhow; auto|exact Gs|]. eapply run_impl; [apply any_last_has; exact HL|]. intros s1 x G1 (b & ->) _.
    destruct b; [|apply run_ret; auto].
    apply (any_step V s1 (on_last (CGet k)) _ (fun x => x = make k \/ x = Err KeyError)). intros s2 G2.
    destruct (on_last_get make U cl (sel s2) k HL (ok_sel s2 G2)) as (c & x & E & C & X). exists c, x. split; [exact E|]. split; [exact C|].
    destruct X as [(v & -> & Mk)|(-> & _)]; [|auto]. intros s3 G3. cbn [as_val pret pbind pthen].
    apply (any_step V s3 (on_top (CPush k v true)) _ (fun x => x = make k \/ x = Err KeyError)). intros s4 G4.
    destruct (on_top_push make U cl (sel s4) k v true HT (ok_sel s4 G4) Mk (HU v Mk)) as (c4 & b & E4 & C4). exists c4, (Ok (RBool b)). split; [exact E4|]. split; [exact C4|].
    intros s5 G5. cbn [as_bool pret pbind pthen]. destruct b; [|apply run_ret; intros; left; symmetry; exact Mk].
    apply (any_step V s5 (on_last (CRemove k true)) _ (fun x => x = make k \/ x = Err KeyError)). intros s6 G6.
    destruct (on_last_remove make U cl (sel s6) k HL (ok_sel s6 G6)) as (c6 & E6 & C6). exists c6, (Ok RNone). split; [exact E6|]. split; [exact C6|].
    intros s7 _. apply run_ret. intros. left. symmetry. exact Mk.
Qed.
Lemma any_push : forall u k v allow, aok u -> make k = Ok v -> In k U -> runs u (p_push sel upd cl k v allow) (fun _ x => exists b, x = Ok b).
Proof.
  intros u k v allow G Mk HU. unfold p_push. assert (HC : exists c, c = cl) by eauto. destruct HC as (c & HC). rewrite <- HC. symmetry in HC.
  assert (LP : forall u, has_last cl -> runs u (pbind (step_of sel upd (on_last (CPush k v allow))) as_bool) (fun _ x => exists b, x = Ok b)).
  { intros u0 HL. apply (any_step bool u0 (on_last (CPush k v allow)) as_bool (fun x => exists b, x = Ok b)). intros s Gs.
    destruct (on_last_push make U cl (sel s) k v allow HL (ok_sel s Gs) Mk HU) as (c0 & b & E & C). exists c0, (Ok (RBool b)). split; [exact E|]. split; [exact C|].
    intros s' _. apply run_ret. eauto. }
  destruct c as [|n|n|n m].
  - apply run_ret. eauto.
  - apply LP. rewrite HC. exact Logic.I.
  - assert (HT : has_top cl) by (rewrite HC; exact Logic.I).
    apply (any_step bool u (on_top (CPush k v allow)) as_bool (fun x => exists b, x = Ok b)). intros s Gs.
    destruct (on_top_push make U cl (sel s) k v allow HT (ok_sel s Gs) Mk HU) as (c0 & b & E & C). exists c0, (Ok (RBool b)). split; [exact E|]. split; [exact C|].
    intros s' _. apply run_ret. eauto.
  - assert (HT : has_top cl) by (rewrite HC; exact Logic.I). assert (HL : has_last cl) by (rewrite HC; exact Logic.I).
    apply (any_step bool u (on_top (CPush k v allow)) _ (fun x => exists b, x = Ok b)). intros s Gs.
    destruct (on_top_push make U cl (sel s) k v allow HT (ok_sel s Gs) Mk HU) as (c0 & b & E & C). exists c0, (Ok (RBool b)). split; [exact E|]. split; [exact C|].
    intros s' _. cbn [as_bool pret pbind pthen]. destruct b; [apply run_ret; eauto|apply LP; exact HL].
Qed.
Lemma mostly_cached : forall k (load : prog looks V) allow, In k U -> mostly load (make k) -> mostly (p_cached sel upd cl k load allow) (make k).
Proof.
  intros k load allow HU HL u G. unfold p_cached. unfold pbind at 1. apply run_then; [unfold anyhow; auto|exact G|].
  eapply run_impl; [apply any_has; exact G|]. intros s x Gs (b & ->) _. destruct b; [apply any_get; auto|].
  unfold pbind at 1. apply run_then; [unfold anyhow; auto|exact Gs|]. eapply run_impl; [apply HL; exact Gs|]. intros s1 x G1 [->| ->] _; [|apply run_ret; auto].
  destruct (make k) as [v|e] eqn:Mk; [|apply run_ret; auto].
  unfold pbind. apply run_then; [unfold anyhow; auto|exact G1|]. eapply run_impl; [apply any_push; eauto|]. intros s2 x G2 (b & ->) _. apply run_ret. auto.
Qed.
End OneCache.

Lemma mostly_ret : forall A (r : res A), mostly (Ret r) r.
Proof. intros A r u G. apply run_ret. auto. Qed.
Lemma mostly_bind : forall A B (p : prog looks A) (k : A -> prog looks B) r (r' : A -> res B), mostly p r ->
  (forall a, r = Ok a -> mostly (k a) (r' a)) -> mostly (pbind p k) (bind r r').
Proof.
  intros A B p k r r' H K u G. unfold pbind. apply run_then; [unfold anyhow; auto|exact G|]. eapply run_impl; [apply H; exact G|].
  intros s x Gs [->| ->] _; [|apply run_ret; auto]. destruct r as [a|e]; [apply K; auto|apply run_ret; auto].
Qed.
(** A program whose result is looked at. *)
Lemma mostly_then : forall A B (p : prog looks A) (t : res A -> res B) r, mostly p r ->
  forall u, aok u -> runs u (pthen p (fun x => Ret (t x))) (fun _ x => x = t r \/ x = t (Err KeyError)).
Proof.
  intros A B p t r H u G. apply run_then; [unfold anyhow; auto|exact G|]. eapply run_impl; [apply H; exact G|].
  intros s x Gs [->| ->] _; apply run_ret; auto.
Qed.
Lemma mostly_file : forall A p (rd : Z -> res A) (mv : looks -> looks), moves mv ->
  mostly (locked (let! _ := put (lk_seek p) in Act (fun s => Ret (rd (lk_pos s))) mv)) (rd p).
Proof.
  intros A p rd mv M u G. eapply run_impl.
  - apply (yields_file aok anyhow); [unfold anyhow; auto| | |exact G].
    + intros q s X. split; [exact X|exact Logic.I].
    + intros s X. destruct (M s) as [->|(q & ->)]; split; try exact X; exact Logic.I.
  - intros s x _ ->. auto.
Qed.
Lemma mostly_entries : forall k load, In k (UE base es) -> mostly load (entry_at f k) -> mostly (p_cached lk_entries set_entries ecl k load true) (entry_at f k).
Proof.
  intros k load. apply mostly_cached; [intros s G; apply G|intros c s G C; split; [exact C|apply G]|reflexivity].
Qed.
Lemma mostly_clusters : forall k load, In k UC -> mostly load (make_cluster k) -> mostly (p_cached lk_clusters set_clusters ccl k load true) (make_cluster k).
Proof.
  intros k load. apply mostly_cached; [intros s G; apply G|intros c s G C; split; [apply G|exact C]|reflexivity].
Qed.
Notation M := (fun A => @mostly A).

Lemma mostly_look : forall q, sensible es q -> (forall l, In l (asked cs [q]) -> In (base + l) UC) ->
  forall u, aok u -> runs u (p_look f base urls clusters ecl ccl q) (fun _ x => exists a, x = Ok a /\ (right base es cs q a \/ missed q a)).
Proof.
  assert (W : forall A (c : A -> seen) (p : prog looks A) r, mostly p r -> forall u, aok u ->
    runs u (pthen p (fun r => pret (match r with Ok a => c a | Err e => SRaise e end)))
      (fun _ x => x = Ok (match r with Ok a => c a | Err e => SRaise e end) \/ x = Ok (SRaise KeyError))).
  { intros A c p r H u G. apply (mostly_then A seen p (fun r => Ok (match r with Ok a => c a | Err e => SRaise e end)) r H u G). }
  intros q SQ AQ u G.
  assert (YE : forall l, In l (map fst es) -> mostly (p_entry_at f base ecl l true) (entry_at f (base + l))).
  { intros l Hl. exact (y_entry_at f base urls clusters ecl ccl es cs UC AI M mostly_file mostly_entries mostly_clusters l Hl). }
  assert (YC : forall l, 0 <= l -> In (base + l) UC -> mostly (p_cluster_at base ccl l) (Ok (base + l))).
  { intros l Hl. exact (y_cluster_at f base urls clusters ecl ccl es cs UC AI M mostly_ret mostly_file mostly_entries mostly_clusters l Hl). }
  assert (YP : forall p l i, list_is f p l -> mostly (p_ptr f p i) (pget p i)).
  { intros p l i HL. exact (y_ptr f base urls clusters ecl es cs AI M mostly_ret mostly_bind mostly_file mostly_entries p l i HL). }
  assert (YF : forall u k, encode u = Ok k -> mostly (p_find f base ecl urls u) (get_gen (key f base) (ptr_len urls) (pget urls) k)).
  { intros u0 k E. exact (y_find f base urls clusters ecl ccl es cs UC AI M mostly_ret mostly_bind mostly_file mostly_entries mostly_clusters u0 k E). }
  destruct q as [l|i|v|v|l|i]; cbn [p_look sensible right missed] in *.
  - destruct (in_es f base urls clusters es cs AI l SQ) as (e & I & E). eapply run_impl; [apply (W entry SEntry _ _ (YE l SQ) u G)|]. rewrite E.
    intros s x _ [->| ->]; eexists; split; eauto.
  - unfold p_entry_by_index. destruct (Z.ltb_spec i 0) as [N|N].
    { eapply run_impl; [apply (W entry SEntry _ _ (mostly_ret _ (Err EntryNotFound)) u G)|].
      intros s x _ [->| ->]; eexists; (split; [reflexivity|]); [left|right; reflexivity].
      destruct (znth es i) as [le|] eqn:Q; [apply znth_some in Q; lia|reflexivity]. }
    assert (Q2 : znth (map fst es) i = option_map fst (znth es i)). { unfold znth. destruct (i <? 0); [reflexivity|]. apply nth_error_map. }
    assert (Y : mostly (let! loc := pthen (p_ptr f urls i) (fun r => Ret (match r with Err IndexError => Err EntryNotFound | _ => r end)) in p_entry_at f base ecl loc true)
      (bind (match znth es i with Some le => Ok (fst le) | None => Err EntryNotFound end) (fun l => entry_at f (base + l)))).
    { apply mostly_bind.
      - intros u0 G0. eapply run_impl; [apply (mostly_then _ _ _ (fun r => match r with Err IndexError => Err EntryNotFound | _ => r end) _ (YP urls _ i (ai_urls _ _ _ _ _ _ AI)) u0 G0)|].
        rewrite (pget_spec _ _ _ i (ai_urls _ _ _ _ _ _ AI) N), Q2. intros s x _ [->| ->]; [left|right; reflexivity]. destruct (znth es i); reflexivity.
      - intros l E. destruct (znth es i) as [le|] eqn:Q; [|discriminate]. injection E as <-. apply YE. apply in_map. eapply znth_in. exact Q. }
    eapply run_impl; [apply (W entry SEntry _ _ Y u G)|]. intros s x _ [->| ->]; eexists; (split; [reflexivity|]); [left|right; reflexivity].
    destruct (znth es i) as [(l & e)|] eqn:Q; [|reflexivity]. apply znth_in in Q. pose proof (ai_entries _ _ _ _ _ _ AI) as FE. rewrite Forall_forall in FE.
    destruct (FE _ Q) as (_ & EA). cbn [fst snd bind] in *. rewrite EA. reflexivity.
  - destruct SQ as (k & E). pose proof (found f base urls clusters ecl ccl es cs UC AI M mostly_file mostly_entries mostly_clusters v k E) as F. specialize (YF v k E). unfold p_entry_by_url.
    apply run_then; [unfold anyhow; auto|exact G|]. unfold pbind. apply run_then; [unfold anyhow; auto|exact G|].
    eapply run_impl; [apply (mostly_then _ _ _ (fun r => match r with Err KeyError => Err EntryNotFound | _ => r end) _ YF u G)|].
    intros s x Gs X _. destruct (get_gen (key f base) (ptr_len urls) (pget urls) k) as [l|x0].
    + destruct F as (e & I & FU & EA). destruct X as [->| ->].
      * eapply run_impl; [apply YE; [apply in_map_iff; exists (l, e); auto|exact Gs]|]. rewrite EA. intros s1 x G1 [->| ->] _; apply run_ret; intros; eexists; (split; [reflexivity|]); eauto.
        left. left. eauto.
      * apply run_ret. intros s1 G1 _ _. apply run_ret. intros. eexists. split; [reflexivity|]. right. auto.
    + destruct F as (-> & F). assert (x = Err EntryNotFound) by (destruct X; assumption). subst x. apply run_ret. intros s1 G1 _ _. apply run_ret. intros. eexists. split; [reflexivity|].
      left. right. auto.
  - destruct SQ as (k & E). pose proof (found f base urls clusters ecl ccl es cs UC AI M mostly_file mostly_entries mostly_clusters v k E) as F. specialize (YF v k E). unfold p_has_url.
    apply run_then; [unfold anyhow; auto|exact G|].
    eapply run_impl; [apply (mostly_then _ _ _ (fun r => match r with Ok _ => Ok true | Err KeyError => Ok false | Err e => Err e end) _ YF u G)|].
    intros s x Gs X _. destruct (get_gen (key f base) (ptr_len urls) (pget urls) k) as [l|x0].
    + destruct F as (e & I & FU & EA). destruct X as [->| ->]; apply run_ret; intros; eexists; (split; [reflexivity|]); [|right; reflexivity].
      left. exists true. split; [reflexivity|]. split; eauto.
    + destruct F as (-> & F). assert (x = Ok false) by (destruct X; assumption). subst x. apply run_ret. intros. eexists. split; [reflexivity|].
      left. exists false. split; [reflexivity|]. split; [discriminate|]. intros (l & e & I & Q). exfalso. eapply F; eauto.
  - eapply run_impl; [apply (W Z SCluster _ _ (YC l SQ (AQ l (or_introl eq_refl))) u G)|]. intros s x _ [->| ->]; eexists; split; eauto.
  - unfold p_cluster_by_index. destruct (Z.ltb_spec i 0) as [N|N].
    { eapply run_impl; [apply (W Z SCluster _ _ (mostly_ret _ (Err AssertionError)) u G)|]. intros s x _ [->| ->]; eexists; split; eauto. }
    assert (Y : mostly (let! loc := p_ptr f clusters i in p_cluster_at base ccl loc)
      (bind (match znth cs i with Some l => Ok l | None => Err IndexError end) (fun l => Ok (base + l)))).
    { apply mostly_bind.
      - rewrite <- (pget_spec _ _ _ i (ai_clusters _ _ _ _ _ _ AI) N). eapply YP. exact (ai_clusters _ _ _ _ _ _ AI).
      - intros l E. destruct (znth cs i) as [l'|] eqn:Q; [|discriminate]. injection E as <-. apply YC.
        + pose proof (ai_offsets _ _ _ _ _ _ AI) as FO. rewrite Forall_forall in FO. apply FO. eapply znth_in. exact Q.
        + apply AQ. cbn. rewrite Q. left. reflexivity. }
    eapply run_impl; [apply (W Z SCluster _ _ Y u G)|]. intros s x _ [->| ->]; eexists; (split; [reflexivity|]); [left|right; reflexivity].
    destruct (znth cs i); reflexivity.
Qed.
Lemma mostly_looks : forall qs, Forall (sensible es) qs -> (forall l, In l (asked cs qs) -> In (base + l) UC) -> forall u, aok u ->
  runs u (p_looks f base urls clusters ecl ccl qs) (fun _ x => exists l, x = Ok l /\ Forall2 (fun q a => right base es cs q a \/ missed q a) qs l).
Proof.
  induction qs as [|q qs IH]; intros SQ AQ u G; [apply run_ret; intros; exists []; split; [reflexivity|constructor]|]. inversion SQ as [|? ? S1 S2]; subst.
  cbn [p_looks]. unfold pbind at 1. apply run_then; [unfold anyhow; auto|exact G|].
  eapply run_impl; [apply (mostly_look q S1); [intros l H; apply AQ; cbn in H |- *; rewrite app_nil_r in H; apply in_or_app; left; exact H|exact G]|].
  intros s x Gs (a & -> & R) _. unfold pbind. apply run_then; [unfold anyhow; auto|exact Gs|].
  eapply run_impl; [apply (IH S2); [intros l H; apply AQ; cbn; apply in_or_app; right; exact H|exact Gs]|].
  intros s1 x G1 (l & -> & F) _. apply run_ret. intros. exists (a :: l). split; [reflexivity|]. constructor; assumption.
Qed.
End Mostly.

(** ** One thread alone, with caches of any size *)
Section Solo.
Context {St : Type}.
(** [p], run alone from [s] on by a thread that holds the lock iff [h]. *)
Fixpoint solo {A} (h : bool) (p : prog St A) (s : St) (Q : St -> res A -> Prop) {struct p} : Prop :=
  match p with
  | Ret r => h = false /\ Q s r
  | Act k g => solo h (k s) (g s) Q
  | Acquire p => h = false /\ solo true p s Q
  | Release p => h = true /\ solo false p s Q
  | Yield _ _ _ => False
  end.
Lemma solo_impl : forall A (p : prog St A) h s (Q Q' : St -> res A -> Prop), solo h p s Q -> (forall s r, Q s r -> Q' s r) -> solo h p s Q'.
Proof.
  induction p as [r|k IH g|p IH|p IH|x c p IH]; cbn [solo]; intros h s Q Q' H I.
  - destruct H. auto.
  - eapply IH; eauto.
  - destruct H as (E & H). split; [exact E|]. eapply IH; eauto.
  - destruct H as (E & H). split; [exact E|]. eapply IH; eauto.
  - exact H.
Qed.
Lemma solo_then : forall A B (p : prog St A) (k : res A -> prog St B) h s Q, solo h p s (fun s r => solo false (k r) s Q) -> solo h (pthen p k) s Q.
Proof.
  induction p as [r|c IH g|p IH|p IH|x c p IH]; cbn [solo pthen]; intros k h s Q H.
  - destruct H as (-> & H). exact H.
  - apply IH. exact H.
  - destruct H as (E & H). split; [exact E|]. apply IH. exact H.
  - destruct H as (E & H). split; [exact E|]. apply IH. exact H.
  - exact H.
Qed.
Lemma solo_step : forall A (p : prog St A) h s Q, solo h p s Q ->
  (exists r, p = Ret r /\ h = false /\ Q s r) \/
  (exists p' (h' : bool) s', tstep 0 (mkConfig [p] (if h then Some 0%nat else None) s) = Some (mkConfig [p'] (if h' then Some 0%nat else None) s') /\ solo h' p' s' Q).
Proof.
  intros A p h s Q H. destruct p as [r|k g|p|p|x c p]; cbn [solo] in H.
  - left. destruct H. eauto.
  - right. exists (k s), h, (g s). split; [reflexivity|exact H].
  - right. destruct H as (-> & H). exists p, true, s. split; [reflexivity|exact H].
  - right. destruct H as (-> & H). exists p, false, s. split; [reflexivity|exact H].
  - contradiction.
Qed.
Definition alone {A} (Q : St -> res A -> Prop) (c : config St A) : Prop :=
  exists p (h : bool) s, c = mkConfig [p] (if h then Some 0%nat else None) s /\ solo h p s Q.
Lemma solo_sched : forall A (Q : St -> res A -> Prop) sched c, alone Q c -> alone Q (tsched sched c).
Proof.
  intros A Q sched. unfold tsched. induction sched as [|i sched IH]; intros c H; [exact H|]. cbn [fold_left]. apply IH.
  destruct H as (p & h & s & -> & H). destruct i as [|i].
  - destruct (solo_step _ p h s Q H) as [(r & -> & E)|(p' & h' & s' & -> & H')]; [cbn; exists (Ret r), h, s; auto|exists p', h', s'; auto].
  - cbn. destruct i; cbn; exists p, h, s; auto.
Qed.
End Solo.

Section Alone.
Variables (f : bytes) (base : Z) (urls clusters : ptrlist) (ecl ccl : cache_class) (es : list (Z * entry)) (cs UC : list Z).
Hypothesis AI : archive_is f base urls clusters es cs.
Definition sok (s : looks) : Prop := aok f base ecl ccl es UC s /\ forall n, lk_blink s n = false.
Definition surely {A} (p : prog looks A) (r : res A) : Prop := forall s, sok s -> solo false p s (fun s' x => sok s' /\ x = r).

Section OneCache.
Context {V : Type}.
Variable make : Z -> res V.
Variable U : list Z.
Variable cl : cache_class.
Variable sel : looks -> tcache V.
Variable upd : tcache V -> looks -> looks.
Hypothesis ok_sel : forall s, sok s -> cok make U cl (sel s).
Hypothesis ok_upd : forall c s, sok s -> cok make U cl c -> sok (upd c s).
Hypothesis sel_upd : forall c s, sel (upd c s) = c.
Hypothesis sel_blinked : forall s, sel (blinked s) = sel s.
Lemma sok_blinked : forall s, sok s -> sok (blinked s).
Proof. intros s (A & B). split; [exact A|]. intro n. apply B. Qed.

Lemma solo_last_has : forall A (k : Z) (p : bool -> prog looks A) s Q, has_last cl -> sok s ->
  (forall s', sok s' -> sel s' = sel s -> solo false (p (last_in (sel s) k)) s' Q) -> solo false (pbind (p_last_has sel k) p) s Q.
Proof.
  intros A k p s Q HL G H. unfold p_last_has, pbind. cbn [pthen solo]. rewrite (on_last_has make U cl _ k HL (ok_sel s G)). destruct G as (G & B). rewrite B.
  rewrite andb_true_r. cbn [pret pthen]. apply (H (blinked s)); [apply sok_blinked; split; assumption|apply sel_blinked].
Qed.
Lemma solo_top_has : forall A (k : Z) (p : bool -> prog looks A) s Q, has_top cl -> sok s ->
  (forall s', sok s' -> sel s' = sel s -> solo false (p (top_in (sel s) k)) s' Q) -> solo false (pbind (p_top_has sel upd k) p) s Q.
Proof.
  intros A k p s Q HT G H. pose proof (ok_sel s G) as C. unfold p_top_has, step_of, pbind. cbn [pthen solo]. rewrite (on_top_has make U cl _ k HT C). cbn [fst snd as_bool pret pthen].
  apply H; [apply ok_upd; assumption|apply sel_upd].
Qed.
Lemma bind_ret : forall A (p : prog looks A) s Q, solo false (pbind p (fun a => pret a)) s Q -> solo false p s Q.
Proof.
  assert (X : forall A (p : prog looks A) h s Q, solo h (pbind p (fun a => pret a)) s Q -> solo h p s Q).
  { induction p as [r|k IH g|p IH|p IH|x c p IH]; unfold pbind; cbn [pthen solo]; intros h s Q H.
    - destruct r as [a|e]; exact H.
    - apply IH. exact H.
    - destruct H as (E & H). split; [exact E|]. apply IH. exact H.
    - destruct H as (E & H). split; [exact E|]. apply IH. exact H.
    - exact H. }
  intros A p. apply X.
Qed.
Definition within (c : tcache V) (k : Z) : Prop := top_in c k = true \/ last_in c k = true.
Lemma solo_has : forall k s, sok s -> solo false (p_has sel upd cl k) s (fun s' x => sok s' /\ exists b, x = Ok b /\ (b = true -> within (sel s') k)).
Proof.
  intros k s G. unfold p_has. assert (HC : exists c, c = cl) by eauto. destruct HC as (c & HC). rewrite <- HC. symmetry in HC. destruct c as [|n|n|n m].
  - cbn. split; [reflexivity|]. split; [exact G|]. exists false. split; [reflexivity|discriminate].
  - apply bind_ret. apply solo_last_has; [rewrite HC; exact Logic.I|exact G|]. intros s' G' E. cbn. split; [reflexivity|]. split; [exact G'|]. eexists. split; [reflexivity|]. intro X. right. rewrite E. exact X.
  - apply bind_ret. apply solo_top_has; [rewrite HC; exact Logic.I|exact G|]. intros s' G' E. cbn. split; [reflexivity|]. split; [exact G'|]. eexists. split; [reflexivity|]. intro X. left. rewrite E. exact X.
  - apply solo_top_has; [rewrite HC; exact Logic.I|exact G|]. intros s' G' E. destruct (top_in (sel s) k) eqn:T.
    + cbn. split; [reflexivity|]. split; [exact G'|]. exists true. split; [reflexivity|]. intros _. left. rewrite E. exact T.
    + apply bind_ret. apply solo_last_has; [rewrite HC; exact Logic.I|exact G'|]. intros s2 G2 E2. cbn. split; [reflexivity|]. split; [exact G2|]. eexists. split; [reflexivity|].
      intro X. right. rewrite E2. exact X.
Qed.
Lemma solo_on : forall A (on : tcache V -> tcache V * res (cret V)) (p : cret V -> prog looks A) s Q c r, sok s -> on (sel s) = (c, Ok r) -> cok make U cl c ->
  (sok (upd c s) -> solo false (p r) (upd c s) Q) -> solo false (pbind (step_of sel upd on) p) s Q.
Proof.
  intros A on p s Q c r G E C H. unfold step_of, pbind. cbn [pthen solo]. rewrite E. cbn [fst snd pthen]. apply H. apply ok_upd; assumption.
Qed.
Lemma solo_get : forall k s, sok s -> within (sel s) k -> (forall v, make k = Ok v -> In k U) -> solo false (p_get sel upd cl k) s (fun s' x => sok s' /\ x = make k).
Proof.
  intros k s G W HU. pose proof (ok_sel s G) as C. unfold p_get. assert (HC : exists c, c = cl) by eauto. destruct HC as (c & HC). rewrite <- HC. symmetry in HC.
  assert (TG : has_top cl -> forall s, sok s -> top_in (sel s) k = true -> solo false (pbind (step_of sel upd (on_top (CGet k))) as_val) s (fun s' x => sok s' /\ x = make k)).
  { intros HT s0 G0 T. destruct (on_top_get make U cl (sel s0) k HT (ok_sel s0 G0)) as (c0 & x & E & C0 & [(v & -> & Mk)|(_ & X)]); [|congruence].
    eapply solo_on; [exact G0|exact E|exact C0|]. intro G1. cbn. split; [reflexivity|]. split; [exact G1|]. symmetry. exact Mk. }
  destruct c as [|n|n|n m].
  - exfalso. rewrite HC in C. destruct (sel s); try contradiction. destruct W; discriminate.
  - assert (HL : has_last cl) by (rewrite HC; exact Logic.I).
    assert (L : last_in (sel s) k = true). { destruct W as [W|W]; [|exact W]. rewrite HC in C. destruct (sel s); try contradiction. discriminate. }
    destruct (on_last_get make U cl (sel s) k HL C) as (c0 & x & E & C0 & [(v & -> & Mk)|(_ & X)]); [|congruence].
    eapply solo_on; [exact G|exact E|exact C0|]. intro G1. cbn. split; [reflexivity|]. split; [exact G1|]. symmetry. exact Mk.
  - apply TG; [rewrite HC; exact Logic.I|exact G|]. destruct W as [W|W]; [exact W|]. rewrite HC in C. destruct (sel s); try contradiction. discriminate.
  - assert (HT : has_top cl) by (rewrite HC; exact Logic.I). assert (HL : has_last cl) by (rewrite HC; exact Logic.I).
    apply solo_top_has; [exact HT|exact G|]. intros s1 G1 E1. destruct (top_in (sel s) k) eqn:T; [apply TG; [exact HT|exact G1|rewrite E1; exact T]|].
    destruct W as [W|W]; [congruence|]. apply solo_last_has; [exact HL|exact G1|]. intros s2 G2 E2. rewrite E1, W.
    destruct (on_last_get make U cl (sel s2) k HL (ok_sel s2 G2)) as (c3 & x & E & C3 & [(v & -> & Mk)|(_ & X)]); [|congruence].
    eapply solo_on; [exact G2|exact E|exact C3|]. intro G3. cbn [as_val pret pbind pthen].
    destruct (on_top_push make U cl (sel (upd c3 s2)) k v true HT (ok_sel _ G3) Mk (HU v Mk)) as (c4 & b & E4 & C4).
    eapply solo_on; [exact G3|exact E4|exact C4|]. intro G4. cbn [as_bool pret pbind pthen].
    destruct b; [|cbn; split; [reflexivity|]; split; [exact G4|symmetry; exact Mk]].
    destruct (on_last_remove make U cl (sel (upd c4 (upd c3 s2))) k HL (ok_sel _ G4)) as (c5 & E5 & C5).
    eapply solo_on; [exact G4|exact E5|exact C5|]. intro G5. cbn. split; [reflexivity|]. split; [exact G5|symmetry; exact Mk].
Qed.
Lemma solo_push : forall k v allow s, sok s -> make k = Ok v -> In k U -> solo false (p_push sel upd cl k v allow) s (fun s' x => sok s' /\ exists b, x = Ok b).
Proof.
  intros k v allow s G Mk HU. unfold p_push. assert (HC : exists c, c = cl) by eauto. destruct HC as (c & HC). rewrite <- HC. symmetry in HC.
  assert (LP : forall s, has_last cl -> sok s -> solo false (pbind (step_of sel upd (on_last (CPush k v allow))) as_bool) s (fun s' x => sok s' /\ exists b, x = Ok b)).
  { intros s0 HL G0. destruct (on_last_push make U cl (sel s0) k v allow HL (ok_sel s0 G0) Mk HU) as (c0 & b & E & C).
    eapply solo_on; [exact G0|exact E|exact C|]. intro G1. cbn. eauto. }
  destruct c as [|n|n|n m].
  - cbn. eauto.
  - apply LP; [rewrite HC; exact Logic.I|exact G].
  - assert (HT : has_top cl) by (rewrite HC; exact Logic.I). destruct (on_top_push make U cl (sel s) k v allow HT (ok_sel s G) Mk HU) as (c0 & b & E & C).
    eapply solo_on; [exact G|exact E|exact C|]. intro G1. cbn. eauto.
  - assert (HT : has_top cl) by (rewrite HC; exact Logic.I). destruct (on_top_push make U cl (sel s) k v allow HT (ok_sel s G) Mk HU) as (c0 & b & E & C).
    eapply solo_on; [exact G|exact E|exact C|]. intro G1. cbn [as_bool pret pbind pthen]. destruct b; [cbn; eauto|]. apply LP; [rewrite HC; exact Logic.I|exact G1].
Qed.
Lemma surely_cached : forall k (load : prog looks V) allow, In k U -> surely load (make k) -> surely (p_cached sel upd cl k load allow) (make k).
Proof.
  intros k load allow HU HL s G. unfold p_cached. unfold pbind at 1. apply solo_then. eapply solo_impl; [apply solo_has; exact G|].
  intros s1 x (G1 & b & -> & W). destruct b; [apply solo_get; auto|]. unfold pbind at 1. apply solo_then. eapply solo_impl; [apply HL; exact G1|].
  intros s2 x (G2 & ->). destruct (make k) as [v|e] eqn:Mk; [|cbn; auto]. unfold pbind. apply solo_then. eapply solo_impl; [apply solo_push; eauto|].
  intros s3 x (G3 & b & ->). cbn. auto.
Qed.
End OneCache.

Lemma surely_ret : forall A (r : res A), surely (Ret r) r.
Proof. intros A r s G. cbn. auto. Qed.
Lemma surely_then : forall A B (p : prog looks A) (k : res A -> prog looks B) r r', surely p r -> surely (k r) r' -> surely (pthen p k) r'.
Proof. intros A B p k r r' H K s G. apply solo_then. eapply solo_impl; [apply H; exact G|]. intros s1 x (G1 & ->). apply K. exact G1. Qed.
Lemma surely_bind : forall A B (p : prog looks A) (k : A -> prog looks B) r (r' : A -> res B), surely p r ->
  (forall a, r = Ok a -> surely (k a) (r' a)) -> surely (pbind p k) (bind r r').
Proof. intros A B p k r r' H K. eapply surely_then; [exact H|]. destruct r as [a|e]; cbn; [apply K; reflexivity|apply surely_ret]. Qed.
Lemma sok_seek : forall p s, sok s -> sok (lk_seek p s). Proof. intros p s G. exact G. Qed.
Lemma surely_file : forall A p (rd : Z -> res A) (mv : looks -> looks), moves mv ->
  surely (locked (let! _ := put (lk_seek p) in Act (fun s => Ret (rd (lk_pos s))) mv)) (rd p).
Proof.
  intros A p rd mv M s G. cbn. split; [reflexivity|]. split; [reflexivity|]. split; [reflexivity|]. split; [|reflexivity].
  destruct (M (lk_seek p s)) as [->|(q & ->)]; exact G.
Qed.
Lemma surely_looks : forall qs, Forall (sensible es) qs -> (forall l, In l (asked cs qs) -> In (base + l) UC) ->
  exists l, surely (p_looks f base urls clusters ecl ccl qs) (Ok l) /\ Forall2 (right base es cs) qs l.
Proof.
  apply (y_looks f base urls clusters ecl ccl es cs UC AI (fun A => @surely A) surely_ret surely_bind surely_file).
  - intros k load. apply surely_cached; [intros s G; apply G|intros c s (G & B) C; split; [split; [exact C|apply G]|exact B]|reflexivity|reflexivity].
  - intros k load. apply surely_cached; [intros s G; apply G|intros c s (G & B) C; split; [split; [apply G|exact C]|exact B]|reflexivity|reflexivity].
  - exact surely_then.
Qed.
End Alone.
