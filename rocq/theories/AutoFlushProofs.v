(** Proofs about the automatic flush of clusters. *)
From Coq Require Import List ZArith Bool Lia Permutation.
From Coq Require Import ZifyBool ZifyNat.
From Verif Require Import Base BaseProofs Dict Cache CacheSpec CacheFacts Cluster ClusterWrapperSpec ClusterWrapperProofs PointerList PointerListProofs SpaceAllocator
  ArchiveCluster ArchiveClusterProofs AutoFlush AutoFlushSpec.
Import ListNotations.
Open Scope Z_scope.

Lemma zspec : forall a b, Z.eqb a b = true <-> a = b.
Proof. intros. apply Z.eqb_eq. Qed.

Definition ptr (s : state) (i p : Z) : Prop := znth (pl_ptrs (s_ptrs s)) i = Some p.
Definition obj (s : state) (id : nat) (o : object) : Prop := nth_error (s_heap s) id = Some o.

(** A cluster object under its key. *)
Definition ordinary (s : state) X (P : list Z) (k : Z) (id : nat) : Prop :=
  exists o m b, obj s id o /\ o_offset o = Some k /\ ptr s m k /\ znth X m = Some b /\ contents (s_disk s) o = Ok b /\
    (o_dirty o = false -> stored_at (s_disk s) k = Some b) /\ (o_dirty o = true -> In m P).
(** An object that is being written: its data is at [q], its number is [m]. *)
Definition suspended (s : state) X (m : Z) (id : nat) (q : Z) : Prop :=
  exists o b, obj s id o /\ znth X m = Some b /\ contents (s_disk s) o = Ok b /\ stored_at (s_disk s) q = Some b /\ 0 <= q /\
    (forall i, ~ ptr s i q) /\
    match o_offset o with
    | None => m = zlen (pl_ptrs (s_ptrs s)) /\ o_new o = true
    | Some p => ptr s m p
    end.

Record good (s : state) X (P : list Z) (U : list (Z * nat * Z)) (C : list (Z * nat)) : Prop := mkGood {
  g_inj : forall i j p, ptr s i p -> ptr s j p -> i = j;
  g_mut : pl_mutable (s_ptrs s) = true;
  g_pos : Forall (fun p => 0 <= p) (pl_ptrs (s_ptrs s));
  g_keys : NoDup (map fst C);
  g_ids : NoDup (map snd C);
  g_each : forall k id, In (k, id) C -> (exists m, In (m, id, k) U) \/ ordinary s X P k id;
  g_susp : forall m id q, In (m, id, q) U -> suspended s X m id q /\ In (q, id) C;
  g_once : forall m id q id' q', In (m, id, q) U -> In (m, id', q') U -> id = id';
  g_rest : forall i k, ptr s i k -> In k (map fst C) \/ (exists id q, In (i, id, q) U) \/ stored_at (s_disk s) k = znth X i;
  g_all : forall i k, ptr s i k -> exists b, stored_at (s_disk s) k = Some b;
  g_apart : forall m id q k id', In (m, id, q) U -> ptr s m k -> ~ In (k, id') C;
  g_dirty : forall id o, obj s id o -> o_dirty o = true -> exists k, In (k, id) C }.

Definition calm (s : state) (p : Z) : Prop := forall id o, obj s id o -> o_dirty o = true -> o_offset o <> Some p.
Record frame (s s' : state) : Prop := mkFrame {
  fr_clean : forall id o, obj s id o -> o_dirty o = false -> obj s' id o;
  fr_dirty : forall id o, obj s' id o -> o_dirty o = true -> obj s id o;
  fr_disk : forall p b, calm s p -> stored_at (s_disk s) p = Some b -> stored_at (s_disk s') p = Some b;
  fr_ptr : forall i p, calm s p -> ptr s i p -> ptr s' i p;
  fr_count : zlen (pl_ptrs (s_ptrs s')) = zlen (pl_ptrs (s_ptrs s));
  fr_next : s_next s' = s_next s;
  fr_saved : s_saved s' = s_saved s;
  fr_noticed : pl_dirty (s_ptrs s) = true -> pl_dirty (s_ptrs s') = true;
  fr_kept : pl_dirty (s_ptrs s') = false -> s_ptrs s' = s_ptrs s }.
Lemma frame_refl : forall s, frame s s.
Proof. intro s. constructor; auto. Qed.
Lemma frame_trans : forall a b c, frame a b -> frame b c -> frame a c.
Proof.
  intros a b c F G.
  assert (CA : forall p, calm a p -> calm b p). { intros p H id o Ho Hd. apply (H id o); [apply (fr_dirty _ _ F); assumption|exact Hd]. }
  constructor.
  - intros id o Ho Hd. apply (fr_clean _ _ G); [apply (fr_clean _ _ F); assumption|exact Hd].
  - intros id o Ho Hd. apply (fr_dirty _ _ F); [apply (fr_dirty _ _ G); assumption|exact Hd].
  - intros p x H E. apply (fr_disk _ _ G); [auto|]. apply (fr_disk _ _ F); assumption.
  - intros i p H E. apply (fr_ptr _ _ G); [auto|]. apply (fr_ptr _ _ F); assumption.
  - rewrite (fr_count _ _ G). apply (fr_count _ _ F).
  - rewrite (fr_next _ _ G). apply (fr_next _ _ F).
  - rewrite (fr_saved _ _ G). apply (fr_saved _ _ F).
  - intro H. apply (fr_noticed _ _ G). apply (fr_noticed _ _ F). exact H.
  - intro H. pose proof (fr_kept _ _ G H) as E. rewrite E. apply (fr_kept _ _ F). rewrite <- E. exact H.
Qed.

(** ** Small facts *)
Lemma obj_fun : forall s id o o', obj s id o -> obj s id o' -> o = o'.
Proof. unfold obj. intros s id o o' H H'. congruence. Qed.
Lemma ptr_fun : forall s i p p', ptr s i p -> ptr s i p' -> p = p'.
Proof. unfold ptr. intros s i p p' H H'. congruence. Qed.
Lemma obj_len : forall s id o, obj s id o -> (id < length (s_heap s))%nat.
Proof. intros s id o H. apply nth_error_Some. unfold obj in H. congruence. Qed.
Lemma stored_key : forall d p b, stored_at d p = Some b -> In p (map fst d).
Proof. intros d p b H. apply (dget_some_iff Z.eqb zspec). exists b. exact H. Qed.
Lemma stored_cons : forall d q b p, stored_at ((q, b) :: d) p = if p =? q then Some b else stored_at d p.
Proof. intros. unfold stored_at. cbn [dget]. reflexivity. Qed.
Lemma stored_del : forall d q p, stored_at (del Z.eqb q d) p = if p =? q then None else stored_at d p.
Proof.
  intros d q p. unfold stored_at, del. induction d as [|(k, b) d IH]; cbn [filter dget fst]; [destruct (p =? q); reflexivity|].
  destruct (Z.eqb_spec q k) as [->|N]; cbn [negb].
  - rewrite IH. destruct (Z.eqb_spec p k); reflexivity.
  - cbn [dget]. rewrite IH. destruct (Z.eqb_spec p k) as [->|]; [|reflexivity]. destruct (Z.eqb_spec k q); [congruence|reflexivity].
Qed.

Lemma contents_offset : forall d d' o, (forall p, o_offset o = Some p -> stored_at d' p = stored_at d p) -> contents d' o = contents d o.
Proof.
  intros d d' o H. unfold contents. destruct (o_new o); [reflexivity|]. destruct (o_offset o) as [p|]; [|reflexivity]. rewrite H; reflexivity.
Qed.

Lemma good_perm : forall s X P U C C', Permutation C C' -> good s X P U C -> good s X P U C'.
Proof.
  intros s X P U C C' PE []. constructor; auto.
  - eapply Permutation_NoDup; [apply Permutation_map; exact PE|assumption].
  - eapply Permutation_NoDup; [apply Permutation_map; exact PE|assumption].
  - intros k id H. apply g_each0. eapply Permutation_in; [symmetry; exact PE|exact H].
  - intros m id q H. destruct (g_susp0 m id q H) as (A & B). split; [exact A|]. eapply Permutation_in; eassumption.
  - intros i k H. destruct (g_rest0 i k H) as [A|A]; [left|auto]. eapply Permutation_in; [apply Permutation_map; exact PE|exact A].
  - intros m id q k id' H1 H2 H3. eapply g_apart0; [exact H1|exact H2|]. eapply Permutation_in; [symmetry; exact PE|exact H3].
  - intros id o Ho Hd. destruct (g_dirty0 id o Ho Hd) as (k & H). exists k. eapply Permutation_in; eassumption.
Qed.
Lemma good_cache : forall s X P U C r, good s X P U C -> good (set_cache r s) X P U C.
Proof. intros s X P U C r []. constructor; assumption. Qed.

Lemma same_id : forall (C : list (Z * nat)) k k' id, NoDup (map snd C) -> In (k, id) C -> In (k', id) C -> k = k'.
Proof.
  induction C as [|(a, b) C IH]; intros k k' id N H H'; [destruct H|]. cbn [map snd] in N. inversion N as [|? ? N1 N2]; subst.
  destruct H as [E|H], H' as [E'|H'].
  - congruence.
  - injection E as -> ->. exfalso. apply N1. apply in_map_iff. exists (k', id). auto.
  - injection E' as -> ->. exfalso. apply N1. apply in_map_iff. exists (k, id). auto.
  - eauto.
Qed.
Lemma same_key : forall (C : list (Z * nat)) k id id', NoDup (map fst C) -> In (k, id) C -> In (k, id') C -> id = id'.
Proof. intros C k id id' N H H'. eapply in_uniq; [exact zspec|exact N|exact H|exact H']. Qed.
Lemma key_in : forall (C : list (Z * nat)) k id, In (k, id) C -> In k (map fst C).
Proof. intros C k id H. apply in_map_iff. exists (k, id). auto. Qed.
Lemma in_key : forall (C : list (Z * nat)) k, In k (map fst C) -> exists id, In (k, id) C.
Proof. intros C k H. apply in_map_iff in H as ((k', id) & E & H). cbn [fst] in E. subst. eauto. Qed.

(** Every key is the offset of stored data. *)
Lemma key_stored : forall s X P U C k, good s X P U C -> In k (map fst C) -> In k (map fst (s_disk s)).
Proof.
  intros s X P U C k G H. apply in_key in H as (id & H). destruct (g_each _ _ _ _ _ G k id H) as [(m & HU)|(o & m & b & _ & _ & HP & _)].
  - destruct (g_susp _ _ _ _ _ G m id k HU) as ((o & b & _ & _ & _ & E & _) & _). eapply stored_key. exact E.
  - destruct (g_all _ _ _ _ _ G m k HP) as (b' & E). eapply stored_key. exact E.
Qed.

(** ** The phases of a write *)
Lemma not_stored : forall s X P U C i p q, good s X P U C -> ptr s i p -> ~ In q (map fst (s_disk s)) -> p <> q.
Proof. intros s X P U C i p q G H N ->. apply N. destruct (g_all _ _ _ _ _ G i q H) as (b & E). eapply stored_key. exact E. Qed.

Lemma suspend : forall s X P U C k id o m b q, good s X P U ((k, id) :: C) -> (forall m', ~ In (m', id, k) U) ->
  obj s id o -> o_offset o = Some k -> ptr s m k -> znth X m = Some b -> contents (s_disk s) o = Ok b ->
  0 <= q -> ~ In q (map fst (s_disk s)) ->
  good (set_disk ((q, b) :: s_disk s) s) X P ((m, id, q) :: U) ((q, id) :: C) /\ (forall m' q', ~ In (m', id, q') U).
Proof.
  intros s X P U C k id o m b q G NU HO OF PM XM CO HQ FR.
  set (s1 := set_disk ((q, b) :: s_disk s) s).
  assert (NU' : forall m' q', ~ In (m', id, q') U).
  { intros m' q' H. destruct (g_susp _ _ _ _ _ G _ _ _ H) as (_ & H'). assert (q' = k) by (eapply same_id; [exact (g_ids _ _ _ _ _ G)|exact H'|left; reflexivity]).
    subst. exact (NU _ H). }
  split; [|exact NU'].
  assert (ST : forall p, In p (map fst (s_disk s)) -> stored_at (s_disk s1) p = stored_at (s_disk s) p).
  { intros p H. change (s_disk s1) with ((q, b) :: s_disk s). rewrite stored_cons. destruct (Z.eqb_spec p q) as [->|]; [contradiction|reflexivity]. }
  assert (SP : forall i p, ptr s i p -> stored_at (s_disk s1) p = stored_at (s_disk s) p).
  { intros i p H. apply ST. destruct (g_all _ _ _ _ _ G i p H) as (b' & E). eapply stored_key. exact E. }
  assert (CT : forall o0 b0, contents (s_disk s) o0 = Ok b0 -> (forall p, o_offset o0 = Some p -> exists i, ptr s i p) -> contents (s_disk s1) o0 = Ok b0).
  { intros o0 b0 E H. rewrite <- E. apply contents_offset. intros p Hp. destruct (H p Hp) as (i & Hi). eapply SP. exact Hi. }
  pose proof (g_keys _ _ _ _ _ G) as NK. cbn [map fst] in NK. inversion NK as [|? ? NK1 NK2]; subst.
  pose proof (g_ids _ _ _ _ _ G) as NI. cbn [map snd] in NI. inversion NI as [|? ? NI1 NI2]; subst.
  assert (FK : forall id', ~ In (q, id') C).
  { intros id' H. apply FR. eapply key_stored; [exact G|]. cbn [map fst]. right. eapply key_in. exact H. }
  constructor.
  - exact (g_inj _ _ _ _ _ G).
  - exact (g_mut _ _ _ _ _ G).
  - exact (g_pos _ _ _ _ _ G).
  - cbn [map fst]. constructor; [|exact NK2]. intro H. apply in_key in H as (id' & H). exact (FK _ H).
  - cbn [map snd]. exact NI.
  - intros k' id' H. destruct H as [E|H].
    + injection E as <- <-. left. exists m. left. reflexivity.
    + destruct (g_each _ _ _ _ _ G k' id' (or_intror H)) as [(m' & HU)|(o' & m' & b' & A1 & A2 & A3 & A4 & A5 & A6 & A7)].
      * left. exists m'. right. exact HU.
      * right. exists o', m', b'. split; [exact A1|]. split; [exact A2|]. split; [exact A3|]. split; [exact A4|]. split; [|split; [|exact A7]].
        -- apply CT; [exact A5|]. intros p Hp. assert (p = k') by congruence. subst. exists m'. exact A3.
        -- intro Hd. rewrite (SP _ _ A3). auto.
  - intros m' id' q' H. destruct H as [E|H].
    + injection E as <- <- <-. split; [|left; reflexivity]. exists o, b. split; [exact HO|]. split; [exact XM|]. split.
      { apply CT; [exact CO|]. intros p Hp. assert (p = k) by congruence. subst. exists m. exact PM. }
      split. { change (s_disk s1) with ((q, b) :: s_disk s). rewrite stored_cons, Z.eqb_refl. reflexivity. }
      split; [exact HQ|]. split. { intros i Hi. exact (not_stored _ _ _ _ _ _ _ _ G Hi FR eq_refl). }
      rewrite OF. exact PM.
    + destruct (g_susp _ _ _ _ _ G _ _ _ H) as ((o' & b' & A1 & A2 & A3 & A4 & A5 & A6 & A7) & A8). split.
      * exists o', b'. split; [exact A1|]. split; [exact A2|]. split. { apply CT; [exact A3|]. intros p Hp. rewrite Hp in A7. exists m'. exact A7. }
        split. { rewrite ST; [exact A4|]. eapply stored_key. exact A4. } split; [exact A5|]. split; [exact A6|exact A7].
      * destruct A8 as [E|A8]; [|right; exact A8]. injection E as -> ->. exfalso. exact (NU' _ _ H).
  - assert (NM : forall id' q', ~ In (m, id', q') U). { intros id' q' H. exact (g_apart _ _ _ _ _ G m id' q' k id H PM (or_introl eq_refl)). }
    intros m' i1 q1 i2 q2 [E1|H1] [E2|H2].
    + congruence.
    + injection E1 as <- <- <-. destruct (NM _ _ H2).
    + injection E2 as <- <- <-. destruct (NM _ _ H1).
    + exact (g_once _ _ _ _ _ G _ _ _ _ _ H1 H2).
  - intros i k' H. destruct (g_rest _ _ _ _ _ G i k' H) as [A|[(id' & q' & A)|A]].
    + cbn [map fst] in A. destruct A as [->|A]; [|left; right; exact A]. right. left. exists id, q. left. f_equal. f_equal. exact (g_inj _ _ _ _ _ G _ _ _ PM H).
    + right. left. exists id', q'. right. exact A.
    + right. right. rewrite (SP _ _ H). exact A.
  - intros i k' H. rewrite (SP _ _ H). exact (g_all _ _ _ _ _ G i k' H).
  - intros m' id' q' k' id'' [E|H] HP Hin.
    + injection E as <- <- <-. assert (k' = k) by (exact (ptr_fun _ _ _ _ HP PM)). subst. destruct Hin as [E|Hin].
      * injection E as -> _. exact (not_stored _ _ _ _ _ _ _ _ G PM FR eq_refl).
      * apply NK1. eapply key_in. exact Hin.
    + destruct Hin as [E|Hin].
      * injection E as <- _. exact (not_stored _ _ _ _ _ _ _ _ G HP FR eq_refl).
      * exact (g_apart _ _ _ _ _ G _ _ _ _ _ H HP (or_intror Hin)).
  - intros id' o' Ho Hd. destruct (g_dirty _ _ _ _ _ G id' o' Ho Hd) as (k' & [E|H]).
    + injection E as _ <-. exists q. left. reflexivity.
    + exists k'. right. exact H.
Qed.

Definition settled_object (o : object) (q : Z) : object := mkObject (o_new o) (Some q) (if o_new o then o_mods o else []) false.
Definition settled (s : state) (id : nat) (o : object) (q : Z) (p : plist) : state :=
  let d := match o_offset o with Some k => del Z.eqb k (s_disk s) | None => s_disk s end in
  mkState d p (s_saved s) (s_next s) (list_set (s_heap s) id (settled_object o q)) (s_cache s).

Lemma obj_set : forall s id x id' o, (id < length (s_heap s))%nat ->
  nth_error (list_set (s_heap s) id x) id' = Some o <-> (id' = id /\ o = x) \/ (id' <> id /\ obj s id' o).
Proof.
  intros s id x id' o L. rewrite list_set_nth by exact L. unfold obj. destruct (Nat.eqb_spec id' id) as [->|N].
  - split; [intro E; injection E as <-; left; auto|intros [(_ & ->)|(N & _)]; [reflexivity|congruence]].
  - split; [intro E; right; auto|intros [(E & _)|(_ & E)]; [congruence|exact E]].
Qed.
Lemma ptr_set : forall pl m q p i x, 0 <= m -> m <= zlen (pl_ptrs pl) -> pl_set m q true pl = Ok p ->
  znth (pl_ptrs p) i = Some x <-> (i = m /\ x = q) \/ (i <> m /\ znth (pl_ptrs pl) i = Some x).
Proof.
  intros pl m q p i x Hm HL PS. destruct (pl_set_spec _ _ _ _ Hm PS) as (P1 & P2 & P3 & _). destruct (Z.eq_dec i m) as [->|N].
  - rewrite P1. split; [intro E; injection E as <-; left; auto|intros [(_ & ->)|(N & _)]; [reflexivity|congruence]].
  - split; [|intros [(E & _)|(_ & E)]; [congruence|apply P2; assumption]]. intro E. right. split; [exact N|].
    pose proof (znth_some _ _ _ E) as B. assert (BI : 0 <= i < zlen (pl_ptrs pl)) by lia.
    destruct (znth (pl_ptrs pl) i) as [y|] eqn:Y; [|apply znth_none in Y; lia]. rewrite (P2 i y N Y) in E. exact E.
Qed.

Section Finish.
Variables (s : state) (X : list (list bytes)) (P : list Z) (U : list (Z * nat * Z)) (C : list (Z * nat)) (m : Z) (id : nat) (q : Z) (o : object) (p : plist).
Hypothesis G : good s X P ((m, id, q) :: U) C.
Hypothesis NU : forall m' q', ~ In (m', id, q') U.
Hypothesis HO : obj s id o.
Hypothesis PS : pl_set m q true (s_ptrs s) = Ok p.
Let s2 := settled s id o q p.

Lemma finish_facts : exists b, In (q, id) C /\ znth X m = Some b /\ contents (s_disk s) o = Ok b /\ stored_at (s_disk s) q = Some b /\ 0 <= q /\ (forall i, ~ ptr s i q) /\
  match o_offset o with None => m = zlen (pl_ptrs (s_ptrs s)) /\ o_new o = true | Some p => ptr s m p end.
Proof.
  destruct (g_susp _ _ _ _ _ G m id q (or_introl eq_refl)) as ((o' & b & A1 & A2 & A3 & A4 & A5 & A6 & A7) & A8).
  pose proof (obj_fun _ _ _ _ A1 HO). subst o'. exists b. auto 10.
Qed.
Lemma finish_range : 0 <= m <= zlen (pl_ptrs (s_ptrs s)).
Proof using G HO.
  clear PS NU. destruct finish_facts as (b & _ & _ & _ & _ & _ & _ & H). destruct (o_offset o) as [k|].
  - pose proof (znth_some _ _ _ H). lia.
  - destruct H as (-> & _). pose proof (zlen_nonneg (pl_ptrs (s_ptrs s))). lia.
Qed.
Lemma finish_ptr : forall i x, ptr s2 i x <-> (i = m /\ x = q) \/ (i <> m /\ ptr s i x).
Proof using G HO PS. clear NU. intros i x. pose proof finish_range. apply ptr_set; [lia|lia|exact PS]. Qed.
Lemma finish_obj : forall id' x, obj s2 id' x <-> (id' = id /\ x = settled_object o q) \/ (id' <> id /\ obj s id' x).
Proof. intros id' x. apply obj_set. eapply obj_len. exact HO. Qed.
Lemma finish_disk : forall x, o_offset o <> Some x -> stored_at (s_disk s2) x = stored_at (s_disk s) x.
Proof.
  intros x H. unfold s2, settled. cbn [s_disk]. destruct (o_offset o) as [k|]; [|reflexivity]. rewrite stored_del. destruct (Z.eqb_spec x k) as [->|]; [congruence|reflexivity].
Qed.
Lemma finish_old : forall i k, i <> m -> ptr s i k -> o_offset o <> Some k.
Proof.
  intros i k N H E. destruct finish_facts as (b & _ & _ & _ & _ & _ & _ & F). rewrite E in F. exact (N (g_inj _ _ _ _ _ G _ _ _ H F)).
Qed.

Lemma finish : good s2 X P U C.
Proof.
  destruct finish_facts as (b & IC & XM & CO & SQ & HQ & NQ & OF).
  pose proof finish_range as RG. destruct (pl_set_spec _ _ _ _ (proj1 RG) PS) as (_ & _ & P3 & P4 & P5).
  assert (QO : o_offset o <> Some q). { intro E. rewrite E in OF. exact (NQ _ OF). }
  constructor.
  - intros i j x Hi Hj. apply finish_ptr in Hi as [(-> & ->)|(Ni & Hi)]; apply finish_ptr in Hj as [(-> & E)|(Nj & Hj)].
    + reflexivity.
    + destruct (NQ _ Hj).
    + subst x. destruct (NQ _ Hi).
    + exact (g_inj _ _ _ _ _ G _ _ _ Hi Hj).
  - exact P4.
  - exact (P5 (g_pos _ _ _ _ _ G)).
  - exact (g_keys _ _ _ _ _ G).
  - exact (g_ids _ _ _ _ _ G).
  - intros k' id' H. destruct (Nat.eq_dec id' id) as [->|NI].
    + assert (k' = q) by (eapply same_id; [exact (g_ids _ _ _ _ _ G)|exact H|exact IC]). subst k'. right. exists (settled_object o q), m, b.
      split; [apply finish_obj; auto|]. split; [reflexivity|]. split; [apply finish_ptr; auto|]. split; [exact XM|].
      assert (SQ2 : stored_at (s_disk s2) q = Some b) by (rewrite finish_disk; assumption). split; [|split; [auto|discriminate]].
      unfold contents, settled_object. cbn [o_new o_offset o_mods]. destruct (o_new o) eqn:N.
      * unfold contents in CO. rewrite N in CO. exact CO.
      * rewrite SQ2. reflexivity.
    + destruct (g_each _ _ _ _ _ G k' id' H) as [(m' & [E|HU])|(o' & m' & b' & A1 & A2 & A3 & A4 & A5 & A6 & A7)].
      * congruence.
      * left. eauto.
      * right. assert (NM : m' <> m). { intros ->. exact (g_apart _ _ _ _ _ G m id q k' id' (or_introl eq_refl) A3 H). }
        exists o', m', b'. split; [apply finish_obj; auto|]. split; [exact A2|]. split; [apply finish_ptr; auto|]. split; [exact A4|].
        pose proof (finish_old _ _ NM A3) as OK. split; [|split; [|exact A7]].
        -- rewrite <- A5. apply contents_offset. intros x Hx. assert (x = k') by congruence. subst. apply finish_disk. exact OK.
        -- intro Hd. rewrite finish_disk by exact OK. auto.
  - intros m' id' q' H. assert (NI : id' <> id). { intros ->. exact (NU _ _ H). }
    assert (NM : m' <> m). { intros ->. apply NI. exact (g_once _ _ _ _ _ G m id' q' id q (or_intror H) (or_introl eq_refl)). }
    destruct (g_susp _ _ _ _ _ G m' id' q' (or_intror H)) as ((o' & b' & A1 & A2 & A3 & A4 & A5 & A6 & A7) & A8). split; [|exact A8].
    exists o', b'. split; [apply finish_obj; auto|]. split; [exact A2|]. split.
    { rewrite <- A3. apply contents_offset. intros x Hx. apply finish_disk. rewrite Hx in A7. exact (finish_old _ _ NM A7). }
    split. { rewrite finish_disk; [exact A4|]. intro E. rewrite E in OF. exact (A6 _ OF). }
    split; [exact A5|]. split.
    { intros i Hi. apply finish_ptr in Hi as [(-> & E)|(_ & Hi)]; [|exact (A6 _ Hi)]. subst q'. apply NI. eapply same_key; [exact (g_keys _ _ _ _ _ G)|exact A8|exact IC]. }
    destruct (o_offset o') as [x|].
    + apply finish_ptr. auto.
    + destruct A7 as (A7 & A9). split; [|exact A9]. change (s_ptrs s2) with p. rewrite P3. destruct (o_offset o) as [k|].
      * pose proof (znth_some _ _ _ OF). lia.
      * destruct OF as (OF & _). congruence.
  - intros m' i1 q1 i2 q2 H1 H2. exact (g_once _ _ _ _ _ G _ _ _ _ _ (or_intror H1) (or_intror H2)).
  - intros i k' H. apply finish_ptr in H as [(-> & ->)|(NM & H)].
    + left. eapply key_in. exact IC.
    + destruct (g_rest _ _ _ _ _ G i k' H) as [A|[(id' & q' & [E|A])|A]].
      * auto.
      * congruence.
      * right. left. eauto.
      * right. right. rewrite finish_disk; [exact A|]. exact (finish_old _ _ NM H).
  - intros i k' H. apply finish_ptr in H as [(-> & ->)|(NM & H)].
    + exists b. rewrite finish_disk; assumption.
    + destruct (g_all _ _ _ _ _ G i k' H) as (b' & E). exists b'. rewrite finish_disk; [exact E|]. exact (finish_old _ _ NM H).
  - intros m' id' q' k' id'' H HP. apply finish_ptr in HP as [(-> & ->)|(NM & HP)].
    + exfalso. apply (NU m q'). assert (id' = id) by exact (g_once _ _ _ _ _ G m id' q' id q (or_intror H) (or_introl eq_refl)). subst. exact H.
    + exact (g_apart _ _ _ _ _ G _ _ _ _ _ (or_intror H) HP).
  - intros id' o' Ho Hd. apply finish_obj in Ho as [(-> & ->)|(NI & Ho)]; [discriminate Hd|]. exact (g_dirty _ _ _ _ _ G id' o' Ho Hd).
Qed.
End Finish.

(** ** Running a write *)
Section Policy.
Variable size : Z.
Variable place : list Z -> list bytes -> Z.
Hypothesis PL : place_ok place.
Hypothesis SZ : 0 < size.
Notation write := (write_cluster size place).

Lemma deref_ok : forall s id o, obj s id o -> deref id s = (Ok o, s).
Proof. intros s id o H. unfold deref. unfold obj in H. rewrite H. reflexivity. Qed.
Lemma del_absent : forall k (r : list (Z * nat)), ~ In k (map fst r) -> del Z.eqb k r = r.
Proof.
  intros k r H. unfold del. induction r as [|(a, b) r IH]; [reflexivity|]. cbn [filter fst map] in *. destruct (Z.eqb_spec k a) as [->|N].
  - exfalso. apply H. left. reflexivity.
  - cbn [negb]. rewrite IH; [reflexivity|]. intro Q. apply H. right. exact Q.
Qed.
Lemma list_set_twice : forall {A} (l : list A) i x y, list_set (list_set l i x) i y = list_set l i y.
Proof. induction l as [|a l IH]; intros [|i] x y; cbn; try reflexivity. rewrite IH. reflexivity. Qed.

Lemma forget_ok : forall s old q, old <> Some q ->
  forget size old q s = (Ok tt, set_cache (match old with Some k => del Z.eqb k (s_cache s) | None => s_cache s end) s).
Proof.
  intros s old q N. destruct s as [d p sv nx h r]. destruct old as [k|]; [|reflexivity]. unfold forget. destruct (Z.eqb_spec q k) as [->|]; [congruence|].
  unfold mbind, cache_call. cbn [lru_spec s_cache]. destruct (dget Z.eqb k r) eqn:E.
  - cbn [andb]. reflexivity.
  - rewrite del_absent by (apply (dget_none Z.eqb zspec); exact E). reflexivity.
Qed.
(** Pushing a new key. *)
Lemma push_room : forall s q id, ~ In q (map fst (s_cache s)) -> zlen (s_cache s) < size ->
  cache_call size (CPush q id true) s = (Ok None, set_cache ((q, id) :: s_cache s) s).
Proof.
  intros s q id N L. unfold cache_call. cbn [lru_spec]. assert (E : dmem Z.eqb q (s_cache s) = false) by (apply (dmem_false Z.eqb zspec); exact N). rewrite E. cbn [negb].
  replace (zlen (s_cache s) <? size) with true by lia. reflexivity.
Qed.
Lemma push_full : forall s q id r e, ~ In q (map fst (s_cache s)) -> size <= zlen (s_cache s) -> s_cache s = r ++ [e] ->
  cache_call size (CPush q id true) s = (Ok (Some e), set_cache ((q, id) :: r) s).
Proof.
  intros s q id r e N L E0. unfold cache_call. cbn [lru_spec]. assert (E : dmem Z.eqb q (s_cache s) = false) by (apply (dmem_false Z.eqb zspec); exact N). rewrite E. cbn [negb].
  replace (zlen (s_cache s) <? size) with false by lia. rewrite E0, rev_app_distr. cbn [rev app]. rewrite removelast_last. destruct e as [k v]. reflexivity.
Qed.

Definition write_tail (id : nat) (n q : Z) (old : option Z) : M state Z :=
  let* _ := settle id n q in let* _ := release old in ret n.
Lemma tail_ok : forall s id o n q p, obj s id o -> pl_set n q true (s_ptrs s) = Ok p -> write_tail id n q (o_offset o) s = (Ok n, settled s id o q p).
Proof.
  intros s id o n q p HO PS. unfold write_tail, settle, mbind. rewrite (deref_ok _ _ _ HO). unfold assign. cbn [s_heap set_heap]. change (s_ptrs (set_heap _ s)) with (s_ptrs s). rewrite PS.
  cbn [set_ptrs s_heap set_heap]. rewrite list_set_twice. unfold release, settled. destruct s as [d pp sv nx h r]. cbn [set_heap set_ptrs s_disk s_ptrs s_saved s_next s_heap s_cache].
  destruct (o_offset o) as [k|]; reflexivity.
Qed.
Lemma pl_set_total : forall pl n q, 0 <= n <= zlen (pl_ptrs pl) -> 0 <= q -> pl_mutable pl = true -> exists p, pl_set n q true pl = Ok p.
Proof.
  intros pl n q Hn Hq M. unfold pl_set. replace (q <? 0) with false by lia. rewrite andb_false_r, M. cbn [negb]. cbv zeta.
  destruct (Z.ltb_spec n (zlen (pl_ptrs pl))).
  - unfold py_index. replace ((0 <=? n) && (n <? zlen (pl_ptrs pl))) with true by lia. eauto.
  - replace (n =? zlen (pl_ptrs pl)) with true by lia. eauto.
Qed.
Lemma write_unfold : forall d num id s o b n s0, obj s id o -> contents (s_disk s) o = Ok b -> number_of num o s = (Ok n, s0) ->
  o_offset o <> Some (place (map fst (s_disk s0)) b) ->
  let q := place (map fst (s_disk s0)) b in
  let s1 := set_cache (match o_offset o with Some k => del Z.eqb k (s_cache s0) | None => s_cache s0 end) (set_disk ((q, b) :: s_disk s0) s0) in
  write (S d) num id s =
    match cache_call size (CPush q id true) s1 with
    | (Ok gone, s2) => match on_leave (write d) gone s2 with
                       | (Ok _, s3) => write_tail id n q (o_offset o) s3
                       | (Err e, s3) => (Err e, s3)
                       end
    | (Err e, s2) => (Err e, s2)
    end.
Proof.
  intros d num id s o b n s0 HO CO NU NQ q s1. cbn [write_cluster]. unfold mbind at 1. rewrite (deref_ok _ _ _ HO). unfold mbind at 1. unfold read_object. rewrite CO.
  unfold mbind at 1. rewrite NU. unfold mbind at 1. unfold store. fold q. unfold mbind at 1. rewrite forget_ok by exact NQ. fold s1.
  change (s_cache (set_disk ((q, b) :: s_disk s0) s0)) with (s_cache s0). fold s1. unfold mbind at 1. destruct (cache_call size (CPush q id true) s1) as [[gone|e] s2]; [|reflexivity].
  unfold mbind at 1. destruct (on_leave (write d) gone s2) as [[u|e] s3]; reflexivity.
Qed.

(** ** What happens to an element that leaves the cache *)
Definition clean (s : state) (id : nat) : Prop := forall o, obj s id o -> o_dirty o = false.

Lemma settled_frame : forall s X P U C m id q o p, good s X P ((m, id, q) :: U) C -> obj s id o -> o_dirty o = true \/ o_new o = true -> o_dirty o = true -> pl_set m q true (s_ptrs s) = Ok p -> o_offset o <> None ->
  frame s (settled s id o q p).
Proof.
  intros s X P U C m id q o p G HO _ HD PS NN. destruct (o_offset o) as [k|] eqn:OF; [clear NN|congruence].
  pose proof (finish_range s X P U C m id q o G HO) as RG. destruct (pl_set_spec _ _ _ _ (proj1 RG) PS) as (_ & _ & P3 & _).
  destruct (finish_facts s X P U C m id q o G HO) as (b & _ & _ & _ & _ & _ & _ & PM). rewrite OF in PM.
  constructor.
  - intros id' o' Ho Hd. apply (finish_obj s id q o p HO). right. split; [|exact Ho]. intros ->. rewrite (obj_fun _ _ _ _ Ho HO) in Hd. congruence.
  - intros id' o' Ho Hd. apply (finish_obj s id q o p HO) in Ho as [(-> & ->)|(_ & Ho)]; [discriminate Hd|exact Ho].
  - intros x b' H E. rewrite finish_disk; [exact E|]. intro Q. exact (H id o HO HD Q).
  - intros i x H E. apply (finish_ptr s X P U C m id q o p G HO PS). right. split; [|exact E]. intros ->. apply (H id o HO HD). rewrite OF. f_equal. exact (ptr_fun _ _ _ _ PM E).
  - unfold settled. cbn [s_ptrs]. rewrite P3. pose proof (znth_some _ _ _ PM). lia.
  - reflexivity.
  - reflexivity.
  - intros _. cbn [settled s_ptrs]. exact (proj1 (pl_set_tracks _ _ _ _ PS)).
  - cbn [settled s_ptrs]. rewrite (proj1 (pl_set_tracks _ _ _ _ PS)). discriminate.
Qed.

Lemma frame_cache : forall s r, frame s (set_cache r s).
Proof. intros s r. constructor; auto. Qed.
Lemma frame_store : forall s q b, ~ In q (map fst (s_disk s)) -> frame s (set_disk ((q, b) :: s_disk s) s).
Proof.
  intros s q b N. constructor; auto. intros p b' _ E. cbn [set_disk s_disk]. rewrite stored_cons. destruct (Z.eqb_spec p q) as [->|]; [|exact E].
  exfalso. apply N. eapply stored_key. exact E.
Qed.

Lemma perm_evict : forall {T} (q e : T) Z0 A R, Permutation (q :: Z0 ++ A ++ R ++ [e]) (e :: Z0 ++ q :: A ++ R).
Proof.
  intros. etransitivity; [|apply perm_skip; apply Permutation_middle]. etransitivity; [|apply perm_swap]. apply perm_skip. rewrite !app_assoc.
  apply Permutation_sym, Permutation_cons_append.
Qed.

Lemma leave_ok : forall d R s X P U Z0 A k id, (length R < d)%nat -> good s X P U ((k, id) :: Z0 ++ s_cache s) -> (forall m, ~ In (m, id, k) U) ->
  s_cache s = A ++ R -> zlen (s_cache s) <= size -> (forall e m, In e R -> ~ In (m, snd e, fst e) U) ->
  (~ clean s id -> zlen (s_cache s) < size \/ exists e, In e R /\ clean s (snd e)) ->
  exists s' B R', on_leave (write d) (Some (k, id)) s = (Ok tt, s') /\ good s' X P U (Z0 ++ s_cache s') /\ s_cache s' = B ++ A ++ R' /\ incl R' R /\
    zlen (s_cache s') <= size /\ zlen (s_cache s') <= zlen (s_cache s) + 1 /\ frame s s' /\ (forall e, In e B -> clean s' (snd e)) /\ clean s' id /\
    (forall m id' q, In (m, id', q) U -> nth_error (s_heap s') id' = nth_error (s_heap s) id') /\
    (~ clean s id -> pl_dirty (s_ptrs s') = true).
Proof.
  induction d as [|d IH]; intros R s X P U Z0 A k id HL G NU EC LS NR CL; [lia|].
  destruct (g_each _ _ _ _ _ G k id (or_introl eq_refl)) as [(m & HU)|(o & m & b & HO & OF & PM & XM & CO & SC & DP)]; [destruct (NU _ HU)|].
  unfold on_leave. unfold mbind at 1. rewrite (deref_ok _ _ _ HO). destruct (o_dirty o) eqn:HD.
  2: { assert (CI : clean s id) by (intros o' Ho; rewrite (obj_fun _ _ _ _ Ho HO); exact HD).
       exists s, [], R. split; [reflexivity|]. split.
       { destruct G. cbn [map fst snd] in g_keys0, g_ids0. inversion g_keys0 as [|? ? K1 K2]; subst. inversion g_ids0 as [|? ? I1 I2]; subst. constructor; auto.
         - intros k' id' H. apply g_each0. right. exact H.
         - intros m' id' q' H. destruct (g_susp0 m' id' q' H) as (A1 & [E|A2]); [|auto]. injection E as -> ->. destruct (NU _ H).
         - intros i k' H. destruct (g_rest0 i k' H) as [[E|A1]|A1]; [|auto|auto]. cbn [fst] in E. subst k'. right. right. rewrite (SC eq_refl).
           assert (i = m) by (exact (g_inj0 _ _ _ H PM)). subst. symmetry. exact XM.
         - intros m' id' q' k' id'' H1 H2 H3. exact (g_apart0 m' id' q' k' id'' H1 H2 (or_intror H3)).
         - intros id' o' Ho Hd. destruct (g_dirty0 id' o' Ho Hd) as (k' & [E|H]); [|eauto]. injection E as _ <-. rewrite (obj_fun _ _ _ _ Ho HO) in Hd. congruence. }
       split; [exact EC|]. split; [intros e He; exact He|]. split; [exact LS|]. split; [lia|]. split; [apply frame_refl|]. split; [intros e []|]. split; [exact CI|].
       split; [reflexivity|]. intro Q. destruct (Q CI). }
  assert (NCI : ~ clean s id). { intro Q. specialize (Q o HO). congruence. }
  unfold mbind at 1. unfold index_by_offset. rewrite (index_of_found _ 0 m k); [|pose proof (znth_some _ _ _ PM); lia|exact PM|].
  2: { intros j Hj Ej. assert (j = m) by exact (g_inj _ _ _ _ _ G _ _ _ Ej PM). lia. }
  change (0 + m) with m.
  assert (KD : In k (map fst (s_disk s))) by (eapply key_stored; [exact G|left; reflexivity]).
  destruct (PL (map fst (s_disk s)) b) as (Q0 & Q1). set (q := place (map fst (s_disk s)) b) in *.
  assert (KQ : q <> k) by (intro E; rewrite E in Q1; contradiction).
  assert (NB : number_of (Some m) o s = (Ok m, s)) by (unfold number_of; rewrite OF; reflexivity).
  pose proof (write_unfold d (Some m) id s o b m s HO CO NB) as WU. cbv zeta in WU. fold q in WU.
  assert (OQ : o_offset o <> Some q) by congruence. specialize (WU OQ). rewrite OF in WU.
  pose proof (g_keys _ _ _ _ _ G) as NK. cbn [map fst] in NK. inversion NK as [|? ? NK1 NK2]; subst. rewrite map_app, in_app_iff in NK1.
  rewrite del_absent in WU by tauto.
  destruct (suspend s X P U (Z0 ++ s_cache s) k id o m b q G NU HO OF PM XM CO Q0 Q1) as (GS & NU').
  set (s1 := set_cache (s_cache s) (set_disk ((q, b) :: s_disk s) s)) in *.
  assert (QC : ~ In q (map fst (s_cache s1))).
  { intro H. apply Q1. eapply key_stored; [exact G|]. cbn [map fst]. right. rewrite map_app, in_app_iff. right. exact H. }
  assert (SUB : exists s2 gone B R', cache_call size (CPush q id true) s1 = (Ok gone, s2) /\ exists s3, on_leave (write d) gone s2 = (Ok tt, s3) /\
    good s3 X P ((m, id, q) :: U) (Z0 ++ s_cache s3) /\ s_cache s3 = B ++ ((q, id) :: A) ++ R' /\ incl R' R /\ zlen (s_cache s3) <= size /\ zlen (s_cache s3) <= zlen (s_cache s) + 1 /\ frame s s3 /\
    (forall e, In e B -> clean s3 (snd e)) /\ obj s3 id o /\ (forall m id' q, In (m, id', q) U -> nth_error (s_heap s3) id' = nth_error (s_heap s) id')).
  { assert (F1 : frame s s1) by (eapply frame_trans; [apply (frame_store s q b Q1)|apply frame_cache]).
    destruct (Z.lt_ge_cases (zlen (s_cache s)) size) as [LT|GE].
    - exists (set_cache ((q, id) :: s_cache s1) s1), None, [], R. split; [apply push_room; assumption|]. eexists. split; [reflexivity|].
      change (s_cache (set_cache ((q, id) :: s_cache s1) s1)) with ((q, id) :: s_cache s). split.
      { apply good_cache. apply good_cache. eapply good_perm; [|exact GS]. apply Permutation_middle. }
      split; [rewrite EC; reflexivity|]. split; [intros e He; exact He|]. rewrite zlen_cons. split; [lia|]. split; [lia|].
      split; [eapply frame_trans; [exact F1|apply frame_cache]|]. split; [intros e []|]. split; [exact HO|]. reflexivity.
    - destruct (CL NCI) as [LT|(e0 & IE & CE)]; [lia|]. destruct (exists_last (l := R)) as (R0 & e & ->); [intros ->; destruct IE|].
      assert (EC1 : s_cache s1 = (A ++ R0) ++ [e]) by (rewrite <- app_assoc; exact EC).
      set (s2 := set_cache ((q, id) :: A ++ R0) s1). destruct e as [ke ide].
      assert (GP : good s2 X P ((m, id, q) :: U) ((ke, ide) :: Z0 ++ s_cache s2)).
      { apply good_cache. apply good_cache. eapply good_perm; [|exact GS]. rewrite EC. cbn [set_cache s_cache s2]. apply perm_evict. }
      assert (LEN : zlen (s_cache s2) = zlen (s_cache s)). { cbn [s2 set_cache s_cache]. rewrite zlen_cons. change (s_cache s1) with (s_cache s) in EC1. rewrite EC1, (zlen_app (A ++ R0)). change (zlen [(ke, ide)]) with 1. lia. }
      destruct (IH R0 s2 X P ((m, id, q) :: U) Z0 ((q, id) :: A) ke ide) as (s3 & B & R' & E3 & G3 & C3 & I3 & L3 & L3' & F3 & B3 & K3 & U3 & _).
      + rewrite app_length in HL. cbn [length] in HL. lia.
      + exact GP.
      + intros m' [E|H].
        * injection E as <- <- <-. apply QC. change (s_cache s1) with (s_cache s). rewrite EC. rewrite !map_app, !in_app_iff. right. right. left. reflexivity.
        * apply (NR (ke, ide) m'); [apply in_or_app; right; left; reflexivity|exact H].
      + reflexivity.
      + lia.
      + intros e m' He [E|H].
        * injection E as <- E1 E2. apply QC. change (s_cache s1) with (s_cache s). rewrite EC, E2. rewrite !map_app, !in_app_iff. right. left. apply in_map. exact He.
        * apply (NR e m'); [apply in_or_app; left; exact He|exact H].
      + intro NCE. right. exists e0. split; [|exact CE]. apply in_app_or in IE as [IE|[<-|[]]]; [exact IE|]. destruct (NCE CE).
      + exists s2, (Some (ke, ide)), B, R'. split; [apply push_full; [exact QC|change (s_cache s1) with (s_cache s); lia|exact EC1]|]. exists s3. split; [exact E3|]. split; [exact G3|]. split; [exact C3|].
        split; [intros e He; apply in_or_app; left; apply I3; exact He|]. split; [exact L3|]. split; [lia|]. split; [eapply frame_trans; [exact F1|]; eapply frame_trans; [apply frame_cache|exact F3]|].
        split; [exact B3|]. split; [unfold obj; rewrite (U3 m id q (or_introl eq_refl)); exact HO|]. intros m' id' q' H. exact (U3 m' id' q' (or_intror H)). }
  destruct SUB as (s2 & gone & B & R' & EP & s3 & EL & G3 & C3 & I3 & L3 & L3' & F3 & B3 & O3 & U3). rewrite EP, EL in WU.
  pose proof (finish_range s3 X P U _ m id q o G3 O3) as RG.
  destruct (pl_set_total (s_ptrs s3) m q RG Q0 (g_mut _ _ _ _ _ G3)) as (p & PS).
  pose proof (tail_ok s3 id o m q p O3 PS) as TO. rewrite OF in TO. rewrite TO in WU.
  pose proof (finish s3 X P U _ m id q o p G3 NU' O3 PS) as G4. set (s4 := settled s3 id o q p) in *.
  assert (C4 : s_cache s4 = s_cache s3) by reflexivity.
  pose proof (settled_frame s3 X P U _ m id q o p G3 O3 (or_introl HD) HD PS ltac:(congruence)) as F4. fold s4 in F4.
  assert (CI4 : clean s4 id). { intros o' Ho. apply (finish_obj s3 id q o p O3) in Ho as [(_ & ->)|(N & _)]; [reflexivity|congruence]. }
  exists s4, (B ++ [(q, id)]), R'. split; [unfold mbind; rewrite WU; reflexivity|]. rewrite C4. split; [exact G4|]. split; [rewrite C3, <- app_assoc; reflexivity|].
  split; [exact I3|]. split; [exact L3|]. split; [exact L3'|]. split; [eapply frame_trans; [exact F3|exact F4]|]. split; [|split; [exact CI4|split]].
  - intros e He. apply in_app_or in He as [He|[<-|[]]]; [|exact CI4]. intros o' Ho. apply (finish_obj s3 id q o p O3) in Ho as [(_ & ->)|(N & Ho)]; [reflexivity|].
    exact (B3 e He o' Ho).
  - intros m' id' q' H. assert (NI : id' <> id). { intros ->. exact (NU' _ _ H). }
    rewrite <- (U3 m' id' q' H). cbn [s4 settled s_heap]. rewrite list_set_nth by (eapply obj_len; exact O3). destruct (Nat.eqb_spec id' id); [congruence|reflexivity].
  - intros _. cbn [s4 settled s_ptrs]. exact (proj1 (pl_set_tracks _ _ _ _ PS)).
Qed.

(** ** Between the calls of a user *)
Variable depth : nat.
Hypothesis DS : size < Z.of_nat depth.
Record inv (s : state) (X : list (list bytes)) (P : list Z) : Prop := mkInv {
  i_good : good s X P [] (s_cache s);
  i_len : zlen (s_cache s) <= size;
  i_pend : zlen P <= size;
  i_nodup : NoDup P;
  i_next : s_next s = zlen X;
  i_count : zlen (pl_ptrs (s_ptrs s)) = zlen X;
  i_saved : pl_dirty (s_ptrs s) = false -> s_saved s = pl_ptrs (s_ptrs s) }.

Lemma inv_frame : forall s s' X P, inv s X P -> frame s s' -> good s' X P [] (s_cache s') -> zlen (s_cache s') <= size -> inv s' X P.
Proof.
  intros s s' X P [] F G L. constructor; auto.
  - rewrite (fr_next _ _ F). assumption.
  - rewrite (fr_count _ _ F). assumption.
  - intro D. pose proof (fr_kept _ _ F D) as E. rewrite (fr_saved _ _ F), E. apply i_saved0. rewrite <- E. exact D.
Qed.

(** Fewer pending clusters than cached ones: one of the cached ones is clean. *)
Lemma dirty_numbers : forall s X P Q (l : list (Z * nat)), NoDup (map fst l) -> (forall k id, In (k, id) l -> ordinary s X P k id) ->
  (forall k id o m, In (k, id) l -> obj s id o -> o_dirty o = true -> ptr s m k -> In m Q) ->
  (exists e, In e l /\ clean s (snd e)) \/
  exists ms, length ms = length l /\ NoDup ms /\ incl ms Q /\ forall m, In m ms -> exists k, In k (map fst l) /\ ptr s m k.
Proof.
  intros s X P Q l. induction l as [|(k, id) l IH]; intros NK OR DQ.
  { right. exists []. split; [reflexivity|]. split; [constructor|]. split; [intros m []|intros m []]. }
  inversion NK as [|? ? N1 N2]; subst. destruct IH as [(e & He & Hc)|(ms & L & ND & IQ & KS)].
  - exact N2.
  - intros k' id' H. apply OR. right. exact H.
  - intros k' id' o m H. apply DQ. right. exact H.
  - left. exists e. split; [right; exact He|exact Hc].
  - destruct (OR k id (or_introl eq_refl)) as (o & m & b & HO & OF & PM & _). destruct (o_dirty o) eqn:D.
    + right. exists (m :: ms). split; [cbn [length]; congruence|]. split; [|split].
      * constructor; [|exact ND]. intro H. destruct (KS m H) as (k' & Hk & Pk). rewrite (ptr_fun _ _ _ _ Pk PM) in Hk. exact (N1 Hk).
      * intros x [<-|Hx]; [|auto]. exact (DQ k id o m (or_introl eq_refl) HO D PM).
      * intros x [<-|Hx]; [exists k; split; [left; reflexivity|exact PM]|]. destruct (KS x Hx) as (k' & Hk & Pk). exists k'. split; [right; exact Hk|exact Pk].
    + left. exists (k, id). split; [left; reflexivity|]. intros o' Ho. rewrite (obj_fun _ _ _ _ Ho HO). exact D.
Qed.
Lemma has_clean : forall s X P Q C, good s X P [] C -> zlen Q < zlen C ->
  (forall k id o m, In (k, id) C -> obj s id o -> o_dirty o = true -> ptr s m k -> In m P -> In m Q) ->
  exists e, In e C /\ clean s (snd e).
Proof.
  intros s X P Q C G L H.
  assert (OR : forall k id, In (k, id) C -> ordinary s X P k id). { intros k id Hi. destruct (g_each _ _ _ _ _ G k id Hi) as [(m & [])|]; assumption. }
  destruct (dirty_numbers s X P Q C (g_keys _ _ _ _ _ G) OR) as [E|(ms & LM & ND & IQ & _)]; [|exact E|].
  - intros k id o m Hi Ho Hd Hp. apply (H k id o m Hi Ho Hd Hp). destruct (OR k id Hi) as (o' & m' & b & HO & OF & PM & XM & CO & SC & DP).
    rewrite (g_inj _ _ _ _ _ G _ _ _ Hp PM). apply DP. rewrite <- (obj_fun _ _ _ _ Ho HO). exact Hd.
  - pose proof (NoDup_incl_length ND IQ). unfold zlen in L. lia.
Qed.

Lemma filter_other_len : forall i P, In i P -> zlen (filter (fun k => negb (Z.eqb i k)) P) < zlen P.
Proof.
  intros i P. induction P as [|a P IH]; intros []; cbn [filter].
  - subst. rewrite Z.eqb_refl. cbn [negb]. rewrite zlen_cons. enough (forall l, zlen (filter (fun k => negb (i =? k)) l) <= zlen l) as Q by (specialize (Q P); lia).
    induction l as [|x l IHl]; [cbn; lia|]. cbn [filter]. destruct (negb (i =? x)); rewrite !zlen_cons; lia.
  - specialize (IH H). rewrite zlen_cons. destruct (negb (i =? a)); [rewrite zlen_cons|]; lia.
Qed.
Lemma filter_other_le : forall i P, zlen (filter (fun k => negb (Z.eqb i k)) P) <= zlen P.
Proof. intros i P. induction P as [|a P IH]; [cbn; lia|]. cbn [filter]. destruct (negb (i =? a)); rewrite !zlen_cons; lia. Qed.
Lemma room_other : forall i P, zlen P <= size -> In i P \/ zlen P < size -> zlen (filter (fun k => negb (Z.eqb i k)) P) < size.
Proof. intros i P L [H|H]; [pose proof (filter_other_len i P H)|pose proof (filter_other_le i P)]; lia. Qed.

Lemma perm_del : forall k id (r : list (Z * nat)), NoDup (map fst r) -> In (k, id) r -> Permutation r ((k, id) :: del Z.eqb k r).
Proof.
  intros k id r. induction r as [|(a, b) r IH]; intros ND []; inversion ND as [|? ? N1 N2]; subst.
  - injection H as -> ->. unfold del. cbn [filter fst]. rewrite Z.eqb_refl. cbn [negb]. fold (del Z.eqb k r). rewrite del_absent by exact N1. reflexivity.
  - unfold del. cbn [filter fst]. destruct (Z.eqb_spec k a) as [->|N].
    + exfalso. apply N1. exact (in_map fst _ _ H).
    + cbn [negb]. fold (del Z.eqb k r). etransitivity; [apply perm_skip; apply IH; assumption|]. apply perm_swap.
Qed.

Lemma get_index : forall s (X : list (list bytes)) i b, zlen (pl_ptrs (s_ptrs s)) = zlen X -> znth X i = Some b -> exists k, ptr s i k /\ get_by_index (pl_ptrs (s_ptrs s)) i = Ok k /\ (i <? 0) = false.
Proof.
  intros s X i b L H. pose proof (znth_some _ _ _ H) as R. destruct (znth (pl_ptrs (s_ptrs s)) i) as [k|] eqn:E.
  - exists k. split; [exact E|]. split; [|lia]. unfold get_by_index, py_index. replace ((0 <=? i) && (i <? zlen (pl_ptrs (s_ptrs s)))) with true by lia.
    unfold znth in E. destruct (Z.ltb_spec i 0); [lia|]. rewrite E. reflexivity.
  - exfalso. destruct (ClusterWrapperProofs.znth_in (pl_ptrs (s_ptrs s)) i) as (x & Ex); [lia|congruence].
Qed.

(** A new clean object for a cluster that isn't cached. *)
Lemma fetched : forall s X P C i k b, good s X P [] C -> ptr s i k -> znth X i = Some b -> ~ In k (map fst C) ->
  let o := mkObject false (Some k) [] false in
  good (set_heap (s_heap s ++ [o]) s) X P [] ((k, length (s_heap s)) :: C) /\ stored_at (s_disk s) k = Some b.
Proof.
  intros s X P C i k b G PK XI NK o. set (s2 := set_heap (s_heap s ++ [o]) s). set (id := length (s_heap s)).
  assert (SK : stored_at (s_disk s) k = Some b). { destruct (g_rest _ _ _ _ _ G i k PK) as [H|[(id' & q & [])|H]]; [contradiction|]. congruence. }
  assert (OB : forall id' o', obj s2 id' o' <-> (id' = id /\ o' = o) \/ obj s id' o').
  { intros id' o'. unfold obj. cbn [s2 set_heap s_heap]. destruct (Nat.lt_ge_cases id' (length (s_heap s))) as [L|L].
    - rewrite nth_error_app1 by exact L. split; [auto|]. intros [(-> & _)|H]; [unfold id in L; lia|exact H].
    - rewrite nth_error_app2 by exact L. split.
      + intro H. left. destruct (id' - length (s_heap s))%nat as [|n] eqn:E; [|destruct n; discriminate H]. injection H as <-. split; [unfold id; lia|reflexivity].
      + intros [(-> & ->)|H]; [unfold id; rewrite Nat.sub_diag; reflexivity|]. pose proof (obj_len _ _ _ H). lia. }
  assert (NI : ~ In id (map snd C)).
  { intro H. apply in_map_iff in H as ((k' & id') & E & H). cbn [snd] in E. subst id'. destruct (g_each _ _ _ _ _ G k' id H) as [(m & [])|(o' & m & b' & HO & _)].
    pose proof (obj_len _ _ _ HO). unfold id in *. lia. }
  split; [|exact SK]. destruct G. constructor; auto; try (intros; contradiction).
  - cbn [map fst]. constructor; assumption.
  - cbn [map snd]. constructor; assumption.
  - intros k' id' [E|H]; right.
    + injection E as <- <-. exists o, i, b. split; [apply OB; auto|]. split; [reflexivity|]. split; [exact PK|]. split; [exact XI|]. split; [|split; [auto|discriminate]].
      unfold contents. cbn [o o_new o_offset o_mods]. change (s_disk s2) with (s_disk s). rewrite SK. reflexivity.
    + destruct (g_each0 k' id' H) as [(m & [])|(o' & m & b' & HO & REST)]. exists o', m, b'. split; [apply OB; auto|exact REST].
  - intros i' k' H. destruct (g_rest0 i' k' H) as [H'|H']; [left; right; exact H'|right; exact H'].
  - intros id' o' Ho Hd. apply OB in Ho as [(-> & ->)|Ho]; [discriminate Hd|]. destruct (g_dirty0 id' o' Ho Hd) as (k' & H). exists k'. right. exact H.
Qed.

Lemma get_ok : forall s X P i b, inv s X P -> znth X i = Some b -> exists s' id k o,
  get_cluster_by_index size place depth i s = (Ok id, s') /\ inv s' X P /\ obj s' id o /\ o_offset o = Some k /\ ptr s' i k /\ contents (s_disk s') o = Ok b /\
  (In i P \/ zlen P < size -> In (k, id) (s_cache s')) /\ (pl_dirty (s_ptrs s) = true -> pl_dirty (s_ptrs s') = true).
Proof.
  intros s X P i b I XI. destruct (get_index s X i b (i_count _ _ _ I) XI) as (k & PK & GI & I0).
  unfold get_cluster_by_index. rewrite I0. unfold mbind at 1. rewrite GI. unfold mbind at 1. pose proof (i_good _ _ _ I) as G.
  destruct (dget Z.eqb k (s_cache s)) as [id|] eqn:DG.
  - pose proof DG as IN. apply (dget_in Z.eqb zspec) in IN.
    assert (PE : Permutation (s_cache s) ((k, id) :: del Z.eqb k (s_cache s))) by (apply perm_del; [exact (g_keys _ _ _ _ _ G)|exact IN]).
    destruct (g_each _ _ _ _ _ G k id IN) as [(m & [])|(o & m & b' & HO & OF & PM & XM & CO & _)].
    assert (m = i) by exact (g_inj _ _ _ _ _ G _ _ _ PM PK). subst m. assert (b' = b) by congruence. subst b'.
    set (s' := set_cache ((k, id) :: del Z.eqb k (s_cache s)) s). exists s', id, k, o. split.
    { unfold mbind, cache_call. cbn [lru_spec]. rewrite DG. reflexivity. }
    split.
    { apply (inv_frame s); [exact I|apply frame_cache| |]; cbn [s' set_cache s_cache].
      - apply good_cache. eapply good_perm; [exact PE|exact G].
      - unfold zlen. rewrite <- (Permutation_length PE). exact (i_len _ _ _ I). }
    split; [exact HO|]. split; [exact OF|]. split; [exact PK|]. split; [exact CO|]. split; [|auto]. intros _. left. reflexivity.
  - assert (NK : ~ In k (map fst (s_cache s))) by (apply (dget_none Z.eqb zspec); exact DG).
    destruct (fetched s X P (s_cache s) i k b G PK XI NK) as (GF & SK). set (o := mkObject false (Some k) [] false) in *. set (sF := set_heap (s_heap s ++ [o]) s) in *. set (id := length (s_heap s)) in *.
    assert (CB : contents (s_disk s) o = Ok b) by (unfold contents; cbn [o o_new o_offset o_mods]; rewrite SK; reflexivity).
    unfold mbind at 1. unfold read_object. rewrite CB. unfold mbind at 1. unfold alloc_object. fold sF id.
    assert (HO : obj sF id o). { unfold obj, sF, id. cbn [set_heap s_heap]. rewrite nth_error_app2 by lia. rewrite Nat.sub_diag. reflexivity. }
    assert (FF : frame s sF).
    { constructor; auto.
      - intros id' o' Ho _. unfold obj, sF in *. cbn [set_heap s_heap]. rewrite nth_error_app1; [exact Ho|]. eapply obj_len. exact Ho.
      - intros id' o' Ho Hd. unfold obj, sF in Ho. cbn [set_heap s_heap] in Ho. destruct (Nat.lt_ge_cases id' (length (s_heap s))) as [L|L].
        + rewrite nth_error_app1 in Ho by exact L. exact Ho.
        + rewrite nth_error_app2 in Ho by exact L. destruct (id' - length (s_heap s))%nat as [|n]; [injection Ho as <-; discriminate Hd|destruct n; discriminate Ho]. }
    destruct (Z.lt_ge_cases (zlen (s_cache s)) size) as [LT|GE].
    + unfold mbind at 1. rewrite (push_room sF k id NK LT). set (s' := set_cache ((k, id) :: s_cache sF) sF). exists s', id, k, o. split; [reflexivity|].
      assert (F2 : frame s s') by (eapply frame_trans; [exact FF|apply frame_cache]).
      split. { apply (inv_frame s); [exact I|exact F2| |]; cbn [s' set_cache s_cache]; [apply good_cache; exact GF|]. rewrite zlen_cons. change (s_cache sF) with (s_cache s). lia. }
      split; [exact HO|]. split; [reflexivity|]. split; [exact PK|]. split; [exact CB|]. split; [|exact (fr_noticed _ _ F2)]. intros _. left. reflexivity.
    + destruct (exists_last (l := s_cache s)) as (r & Y & ER). { intro E. rewrite E in GE. change (zlen (@nil (Z * nat))) with 0 in GE. lia. }
      unfold mbind at 1. rewrite (push_full sF k id r Y NK GE ER). set (s2 := set_cache ((k, id) :: r) sF). destruct Y as [ky idy].
      assert (G2 : good s2 X P [] ((ky, idy) :: [] ++ s_cache s2)).
      { apply good_cache. cbn [app s2 set_cache s_cache]. eapply good_perm; [|exact GF]. rewrite ER. exact (perm_evict (k, id) (ky, idy) [] [] r). }
      assert (L2 : zlen (s_cache s2) = zlen (s_cache s)). { cbn [s2 set_cache s_cache]. rewrite zlen_cons, ER, zlen_app. change (zlen [(ky, idy)]) with 1. lia. }
      assert (F2 : frame s s2) by (eapply frame_trans; [exact FF|apply frame_cache]). pose proof (i_len _ _ _ I) as LS. pose proof (i_pend _ _ _ I) as LP.
      assert (CI : clean s2 id). { intros o' Ho. rewrite (obj_fun _ _ _ _ Ho HO). reflexivity. }
      assert (CK : calm s2 k).
      { intros id' o' Ho Hd E. destruct (g_dirty _ _ _ _ _ G2 id' o' Ho Hd) as (k' & Hk). destruct (g_each _ _ _ _ _ G2 k' id' Hk) as [(m & [])|(o'' & m & b' & HO' & OF' & _)].
        rewrite (obj_fun _ _ _ _ HO' Ho) in OF'. assert (k' = k) by congruence. subst k'. assert (id' = id) by (eapply same_key; [exact (g_keys _ _ _ _ _ G2)|exact Hk|right; left; reflexivity]).
        subst id'. rewrite (CI o' Ho) in Hd. discriminate Hd. }
      assert (DONE : forall s', frame s2 s' -> obj s' id o /\ ptr s' i k /\ contents (s_disk s') o = Ok b).
      { intros s' F. split; [apply (fr_clean _ _ F); [exact HO|reflexivity]|]. split; [apply (fr_ptr _ _ F); [exact CK|exact PK]|].
        unfold contents. cbn [o o_new o_offset o_mods]. rewrite (fr_disk _ _ F k b CK SK). reflexivity. }
      assert (ML : (length r < depth)%nat). { unfold zlen in *. rewrite ER, app_length in LS. cbn [length] in LS. lia. }
      assert (RUN : exists s', on_leave (write depth) (Some (ky, idy)) s2 = (Ok tt, s') /\ good s' X P [] (s_cache s') /\ zlen (s_cache s') <= size /\ frame s2 s' /\ (In i P \/ zlen P < size -> In (k, id) (s_cache s'))).
      { destruct (Z.lt_ge_cases (zlen (filter (fun x => negb (Z.eqb i x)) P)) size) as [RM|NR].
        - destruct (leave_ok depth r s2 X P [] [] [(k, id)] ky idy) as (s' & B & R' & E & G' & C' & _ & L' & _ & F' & _).
          + exact ML.
          + exact G2.
          + intros m [].
          + reflexivity.
          + lia.
          + intros e m _ [].
          + intro ND. right. destruct (has_clean s X P (filter (fun x => negb (Z.eqb i x)) P) (s_cache s) G) as (e & He & Hc); [lia| |].
            * intros k' id' o' m Hi _ _ Hp Hm. apply filter_In. split; [exact Hm|]. apply negb_true_iff. apply Z.eqb_neq. intros ->. apply NK.
              rewrite (ptr_fun _ _ _ _ PK Hp). exact (in_map fst _ _ Hi).
            * assert (CE : forall id', clean s id' -> id' <> id -> clean s2 id').
              { intros id' Q Nid o' Ho. destruct (o_dirty o') eqn:D; [|reflexivity]. pose proof (fr_dirty _ _ F2 _ _ Ho D) as Hs. rewrite (Q _ Hs) in D. discriminate D. }
              assert (NE : snd e <> id).
              { destruct e as [ke ide]. cbn [snd]. destruct (g_each _ _ _ _ _ G ke ide He) as [(m & [])|(o' & m & b' & Ho' & _)]. pose proof (obj_len _ _ _ Ho'). unfold id. lia. }
              exists e. split; [|exact (CE _ Hc NE)]. rewrite ER in He. apply in_app_or in He as [He|[<-|[]]]; [exact He|]. destruct (ND (CE _ Hc NE)).
          + exists s'. split; [exact E|]. split; [exact G'|]. split; [exact L'|]. split; [exact F'|]. intros _. rewrite C'. apply in_or_app. right. left. reflexivity.
        - destruct (leave_ok depth ((k, id) :: r) s2 X P [] [] [] ky idy) as (s' & B & R' & E & G' & C' & _ & L' & _ & F' & _).
          + cbn [length]. unfold zlen in *. rewrite ER, app_length in LS. cbn [length] in LS. lia.
          + exact G2.
          + intros m [].
          + reflexivity.
          + lia.
          + intros e m _ [].
          + intros _. right. exists (k, id). split; [left; reflexivity|exact CI].
          + exists s'. split; [exact E|]. split; [exact G'|]. split; [exact L'|]. split; [exact F'|]. intro RM. pose proof (room_other i P LP RM). lia. }
      destruct RUN as (s' & E & G' & L' & F' & RM). exists s', id, k, o. split; [unfold mbind; rewrite E; reflexivity|].
      destruct (DONE s' F') as (D1 & D2 & D3). assert (F3 : frame s s') by (eapply frame_trans; eassumption).
      split; [apply (inv_frame s); assumption|]. split; [exact D1|]. split; [reflexivity|]. split; [exact D2|]. split; [exact D3|]. split; [exact RM|]. exact (fr_noticed _ _ F3).
Qed.

Lemma read_ok : forall s X P i j, inv s X P -> 0 <= i < zlen X -> exists s',
  read_content size place depth i j s = ((match znth (blobs_of X i) j with Some d => Ok d | None => Err BlobNotFound end), s') /\ inv s' X P /\
  (pl_dirty (s_ptrs s) = true -> pl_dirty (s_ptrs s') = true).
Proof.
  intros s X P i j I R. destruct (ClusterWrapperProofs.znth_in X i R) as (b & XI). destruct (get_ok s X P i b I XI) as (s' & id & k & o & E & I' & HO & _ & _ & CO & _ & N).
  exists s'. split; [|split; assumption]. unfold read_content. unfold mbind at 1. rewrite E. unfold read_blob. unfold mbind at 1. rewrite (deref_ok _ _ _ HO). unfold mbind, read_object. rewrite CO.
  unfold blobs_of. rewrite XI. destruct (znth b j); reflexivity.
Qed.

(** Changing a cached cluster. *)
Lemma apply_snoc : forall b mods j d, apply_mods b (mods ++ [(j, d)]) = replace_at j d (apply_mods b mods).
Proof. intros. unfold apply_mods. rewrite fold_left_app. reflexivity. Qed.
Lemma contents_set : forall d o b j x dirty, contents d o = Ok b -> contents d (mkObject (o_new o) (o_offset o) (o_mods o ++ [(j, x)]) dirty) = Ok (replace_at j x b).
Proof.
  intros d o b j x dirty H. unfold contents in *. cbn [o_new o_offset o_mods]. rewrite !apply_snoc. destruct (o_new o); [injection H as <-; reflexivity|].
  destruct (o_offset o) as [p|]; [|discriminate H]. destruct (stored_at d p); [|discriminate H]. injection H as <-. rewrite apply_snoc. reflexivity.
Qed.
Lemma set_ok : forall s X P P' i j d id k o b, inv s X P -> obj s id o -> o_offset o = Some k -> ptr s i k -> contents (s_disk s) o = Ok b -> znth X i = Some b -> In (k, id) (s_cache s) ->
  0 <= j <= zlen b -> In i P' -> incl P P' -> NoDup P' -> zlen P' <= size -> exists s' o',
  set_blob id j d s = (Ok tt, s') /\ inv s' (replace_at i (replace_at j d b) X) P' /\ obj s' id o' /\ o_offset o' = Some k /\ o_dirty o' = true /\ ptr s' i k /\ In (k, id) (s_cache s') /\
  contents (s_disk s') o' = Ok (replace_at j d b) /\ s_ptrs s' = s_ptrs s.
Proof.
  intros s X P P' i j d id k o b I HO OF PK CO XI IC HJ HI HP ND LP. set (o' := mkObject (o_new o) (o_offset o) (o_mods o ++ [(j, d)]) true). set (s' := set_heap (list_set (s_heap s) id o') s).
  exists s', o'. assert (XR : 0 <= i < zlen X) by (eapply znth_some; exact XI). assert (XR' : 0 <= i <= zlen X) by lia.
  split. { unfold set_blob. unfold mbind at 1. rewrite (deref_ok _ _ _ HO). unfold mbind, read_object. rewrite CO. replace (zlen b <? j) with false by lia. reflexivity. }
  pose proof (contents_set _ _ _ j d true CO) as CO'. fold o' in CO'.
  assert (OB : forall id' x, obj s' id' x <-> (id' = id /\ x = o') \/ (id' <> id /\ obj s id' x)) by (intros; apply obj_set; eapply obj_len; exact HO).
  assert (OID : obj s' id o') by (apply OB; auto).
  split; [|auto 10]. pose proof (i_good _ _ _ I) as G. destruct I as [_ L _ _ NX CN SV]. assert (LX : zlen (replace_at i (replace_at j d b) X) = zlen X).
  { rewrite replace_len by lia. destruct (Z.eqb_spec i (zlen X)); lia. }
  constructor; auto; [|rewrite LX; exact NX|rewrite LX; exact CN]. change (s_cache s') with (s_cache s).
  destruct G. constructor; auto; try (intros; contradiction).
  - intros k' id' H. right. destruct (g_each0 k' id' H) as [(m & [])|(o1 & m & b1 & A1 & A2 & A3 & A4 & A5 & A6 & A7)]. destruct (Nat.eq_dec id' id) as [->|NI].
    + assert (k' = k) by (eapply same_id; [exact g_ids0|exact H|exact IC]). subst k'. exists o', i, (replace_at j d b). split; [exact OID|]. split; [exact OF|]. split; [exact PK|].
      split; [rewrite replace_nth by lia; rewrite Z.eqb_refl; reflexivity|]. split; [exact CO'|]. split; [discriminate|]. intros _. exact HI.
    + assert (NM : m <> i). { intros ->. apply NI. assert (k' = k) by exact (ptr_fun _ _ _ _ A3 PK). subst. eapply same_key; [exact g_keys0|exact H|exact IC]. }
      exists o1, m, b1. split; [apply OB; auto|]. split; [exact A2|]. split; [exact A3|]. split; [rewrite replace_nth by lia; destruct (Z.eqb_spec m i); [congruence|exact A4]|].
      split; [exact A5|]. split; [exact A6|]. intro Hd. apply HP. exact (A7 Hd).
  - intros i' k' H. destruct (Z.eq_dec i' i) as [->|NI].
    + left. rewrite (ptr_fun _ _ _ _ H PK). eapply key_in. exact IC.
    + destruct (g_rest0 i' k' H) as [A|[(id' & q & [])|A]]; [left; exact A|]. right. right. rewrite replace_nth by lia. destruct (Z.eqb_spec i' i); [congruence|exact A].
  - intros id' x Hx Hd. apply OB in Hx as [(-> & ->)|(NI & Hx)]; [eauto|]. exact (g_dirty0 id' x Hx Hd).
Qed.

(** Pending clusters that are not dirty any more. *)
Lemma good_shrink : forall s X P P' C, good s X P [] C -> (forall k id o m, In (k, id) C -> obj s id o -> o_dirty o = true -> ptr s m k -> In m P -> In m P') -> good s X P' [] C.
Proof.
  intros s X P P' C [] H. constructor; auto. intros k id Hi. destruct (g_each0 k id Hi) as [(m & [])|(o & m & b & A1 & A2 & A3 & A4 & A5 & A6 & A7)]. right. exists o, m, b. repeat split; auto.
  intro Hd. exact (H k id o m Hi A1 Hd A3 (A7 Hd)).
Qed.

(** Writing a cached cluster by hand. *)
Lemma del_len_in : forall k id (r : list (Z * nat)), NoDup (map fst r) -> In (k, id) r -> zlen (del Z.eqb k r) + 1 = zlen r.
Proof. intros k id r ND H. pose proof (Permutation_length (perm_del k id r ND H)) as E. cbn [length] in E. unfold zlen. lia. Qed.
Lemma save_ok : forall s X P i id k o b, inv s X P -> obj s id o -> o_offset o = Some k -> ptr s i k -> contents (s_disk s) o = Ok b -> znth X i = Some b -> In (k, id) (s_cache s) -> o_dirty o = true ->
  exists s', flush_cluster size place depth id s = (Ok tt, s') /\ inv s' X (filter (fun x => negb (Z.eqb i x)) P) /\ pl_dirty (s_ptrs s') = true.
Proof.
  intros s X P i id k o b I HO OF PK CO XI IC HD. unfold flush_cluster. unfold mbind at 1. rewrite (deref_ok _ _ _ HO), HD. destruct depth as [|d] eqn:ED; [lia|].
  pose proof (i_good _ _ _ I) as G. assert (KD : In k (map fst (s_disk s))) by (eapply key_stored; [exact G|eapply key_in; exact IC]).
  destruct (PL (map fst (s_disk s)) b) as (Q0 & Q1). set (q := place (map fst (s_disk s)) b) in *.
  assert (NB : number_of None o s = (Ok i, s)).
  { unfold number_of. rewrite OF. unfold index_by_offset. rewrite (index_of_found _ 0 i k); [reflexivity|pose proof (znth_some _ _ _ PK); lia|exact PK|].
    intros j Hj Ej. assert (j = i) by exact (g_inj _ _ _ _ _ G _ _ _ Ej PK). lia. }
  pose proof (write_unfold d None id s o b i s HO CO NB) as WU. cbv zeta in WU. fold q in WU. rewrite OF in WU.
  assert (KQ : Some k <> Some q) by (intro E; injection E as ->; contradiction). specialize (WU KQ).
  set (s1 := set_cache (del Z.eqb k (s_cache s)) (set_disk ((q, b) :: s_disk s) s)) in *.
  pose proof (perm_del k id _ (g_keys _ _ _ _ _ G) IC) as PE. pose proof (good_perm _ _ _ _ _ _ PE G) as GP.
  destruct (suspend s X P [] _ k id o i b q GP (fun _ H => H) HO OF PK XI CO Q0 Q1) as (GS & NU).
  assert (QC : ~ In q (map fst (s_cache s1))).
  { intro H. apply Q1. eapply key_stored; [exact GP|]. right. exact H. }
  pose proof (del_len_in k id _ (g_keys _ _ _ _ _ G) IC) as DL. pose proof (i_len _ _ _ I) as LS.
  rewrite (push_room s1 q id QC) in WU by (cbn [s1 set_cache s_cache]; lia). cbn [on_leave ret] in WU.
  set (s3 := set_cache ((q, id) :: s_cache s1) s1) in *.
  assert (G3 : good s3 X P [(i, id, q)] ((q, id) :: del Z.eqb k (s_cache s))) by (apply good_cache; apply good_cache; exact GS).
  assert (O3 : obj s3 id o) by exact HO.
  pose proof (finish_range s3 X P [] _ i id q o G3 O3) as RG.
  destruct (pl_set_total (s_ptrs s3) i q RG Q0 (g_mut _ _ _ _ _ G3)) as (p & PS).
  pose proof (tail_ok s3 id o i q p O3 PS) as TO. rewrite OF in TO. unfold ret in WU. rewrite TO in WU.
  pose proof (finish s3 X P [] _ i id q o p G3 NU O3 PS) as G4. set (s4 := settled s3 id o q p) in *.
  pose proof (settled_frame s3 X P [] _ i id q o p G3 O3 (or_introl HD) HD PS ltac:(congruence)) as F4. fold s4 in F4.
  assert (F : frame s s4).
  { eapply frame_trans; [apply (frame_store s q b Q1)|]. eapply frame_trans; [apply frame_cache|]. eapply frame_trans; [apply frame_cache|exact F4]. }
  exists s4. split; [unfold mbind; rewrite WU; reflexivity|]. split; [|cbn [s4 settled s_ptrs]; exact (proj1 (pl_set_tracks _ _ _ _ PS))].
  assert (L4 : zlen (s_cache s4) <= size) by (cbn [s4 settled s_cache s3 s1 set_cache]; rewrite zlen_cons; lia).
  pose proof (inv_frame s s4 X P I F G4 L4) as I4. destruct I4. constructor; auto.
  - eapply good_shrink; [exact G4|]. intros k' id' o' m Hi Ho Hd Hp Hm. apply filter_In. split; [exact Hm|]. apply negb_true_iff, Z.eqb_neq. intros <-.
    apply (finish_obj s3 id q o p O3) in Ho as [(-> & ->)|(NI & Ho)]; [discriminate Hd|]. apply NI. eapply same_key; [exact (g_keys _ _ _ _ _ G4)|exact Hi|].
    apply (finish_ptr s3 X P [] _ i id q o p G3 O3 PS) in Hp as [(_ & ->)|(N & _)]; [left; reflexivity|congruence].
  - pose proof (filter_other_le i P). lia.
  - apply NoDup_filter. assumption.
Qed.

(** A new cluster. *)
Lemma list_set_same : forall {A} (l : list A) i x, nth_error l i = Some x -> list_set l i x = l.
Proof. induction l as [|a l IH]; intros [|i] x H; cbn in *; try discriminate; [congruence|]. rewrite IH by exact H. reflexivity. Qed.
Lemma append_ok : forall l s mods dirty id o, obj s id o -> o = mkObject true None mods dirty -> exists mods' dirty' , 
  append_all id l s = (Ok tt, set_heap (list_set (s_heap s) id (mkObject true None mods' dirty')) s) /\ apply_mods [] mods' = apply_mods [] mods ++ l.
Proof.
  induction l as [|d l IH]; intros s mods dirty id o HO EO.
  - exists mods, dirty. cbn [append_all]. rewrite app_nil_r. split; [|reflexivity]. unfold ret. f_equal. subst o. rewrite list_set_same by exact HO. destruct s; reflexivity.
  - cbn [append_all]. set (o1 := mkObject true None (mods ++ [(zlen (apply_mods [] mods), d)]) true). set (s1 := set_heap (list_set (s_heap s) id o1) s).
    assert (E : append_blob id d s = (Ok tt, s1)).
    { unfold append_blob. unfold mbind at 1. rewrite (deref_ok _ _ _ HO). unfold mbind at 1. unfold read_object at 1. subst o. unfold contents at 1. cbn [o_new o_mods].
      unfold set_blob. unfold mbind at 1. rewrite (deref_ok _ _ _ HO). unfold mbind, read_object, contents. cbn [o_new o_mods o_offset].
      replace (zlen (apply_mods [] mods) <? zlen (apply_mods [] mods)) with false by lia. reflexivity. }
    assert (H1 : obj s1 id o1). { apply (obj_set s id o1); [eapply obj_len; exact HO|]. auto. }
    destruct (IH s1 _ _ id o1 H1 eq_refl) as (mods' & dirty' & E' & AM). exists mods', dirty'. split.
    + unfold mbind. rewrite E. rewrite E'. unfold s1. cbn [set_heap s_heap s_disk s_ptrs s_saved s_next s_cache]. rewrite list_set_twice. reflexivity.
    + rewrite AM, apply_snoc, append_replace, <- app_assoc. reflexivity.
Qed.

Lemma suspend_new : forall s X P C o b q, good s X P [] C -> zlen (pl_ptrs (s_ptrs s)) = zlen X -> o_new o = true -> o_offset o = None -> contents (s_disk s) o = Ok b ->
  0 <= q -> ~ In q (map fst (s_disk s)) ->
  let s1 := set_disk ((q, b) :: s_disk s) (set_next (zlen X + 1) (set_heap (s_heap s ++ [o]) s)) in
  good s1 (X ++ [b]) P [(zlen X, length (s_heap s), q)] ((q, length (s_heap s)) :: C).
Proof.
  intros s X P C o b q G CN ON OF CO Q0 Q1 s1. set (id := length (s_heap s)).
  assert (OB : forall id' o', obj s1 id' o' <-> (id' = id /\ o' = o) \/ obj s id' o').
  { intros id' o'. unfold obj. cbn [s1 set_heap s_heap set_disk set_next]. destruct (Nat.lt_ge_cases id' (length (s_heap s))) as [L|L].
    - rewrite nth_error_app1 by exact L. split; [auto|]. intros [(-> & _)|H]; [unfold id in L; lia|exact H].
    - rewrite nth_error_app2 by exact L. split.
      + intro H. left. destruct (id' - length (s_heap s))%nat as [|n] eqn:E; [|destruct n; discriminate H]. injection H as <-. split; [unfold id; lia|reflexivity].
      + intros [(-> & ->)|H]; [unfold id; rewrite Nat.sub_diag; reflexivity|]. pose proof (obj_len _ _ _ H). lia. }
  assert (NI : ~ In id (map snd C)).
  { intro H. apply in_map_iff in H as ((k' & id') & E & H). cbn [snd] in E. subst id'. destruct (g_each _ _ _ _ _ G k' id H) as [(m & [])|(o' & m & b' & HO & _)].
    pose proof (obj_len _ _ _ HO). unfold id in *. lia. }
  assert (NQ : forall i, ~ ptr s i q). { intros i H. destruct (g_all _ _ _ _ _ G i q H) as (b' & E). apply Q1. eapply stored_key. exact E. }
  assert (ND : forall k, In k (map fst (s_disk s)) -> stored_at (s_disk s1) k = stored_at (s_disk s) k).
  { intros k H. cbn [s1 set_disk s_disk]. rewrite stored_cons. destruct (Z.eqb_spec k q) as [->|]; [contradiction|reflexivity]. }
  assert (PR : forall i k, ptr s i k -> 0 <= i < zlen X). { intros i k H. rewrite <- CN. eapply znth_some. exact H. }
  assert (XA : forall i, 0 <= i < zlen X -> znth (X ++ [b]) i = znth X i). { intros i H. rewrite znth_app. replace (i <? zlen X) with true by lia. reflexivity. }
  assert (KS : forall k, In k (map fst C) -> In k (map fst (s_disk s))) by (intros k H; eapply key_stored; eassumption).
  destruct G. constructor; auto.
  - cbn [map fst]. constructor; [|exact g_keys0]. intro H. apply Q1. exact (KS q H).
  - cbn [map snd]. constructor; assumption.
  - intros k' id' [E|H].
    + injection E as <- <-. left. exists (zlen X). left. reflexivity.
    + right. destruct (g_each0 k' id' H) as [(m & [])|(o' & m & b' & A1 & A2 & A3 & A4 & A5 & A6 & A7)]. exists o', m, b'. split; [apply OB; auto|]. split; [exact A2|]. split; [exact A3|].
      split; [rewrite XA by (eapply PR; exact A3); exact A4|]. assert (DK : stored_at (s_disk s1) k' = stored_at (s_disk s) k') by (apply ND; apply KS; eapply key_in; exact H).
      split; [|split; [intro Hd; rewrite DK; auto|exact A7]]. rewrite <- A5. apply contents_offset. intros x Hx. assert (x = k') by congruence. subst. exact DK.
  - intros m id' q' [E|[]]. injection E as <- <- <-. split; [|left; reflexivity]. exists o, b. split; [apply OB; auto|]. split; [rewrite znth_app; replace (zlen X <? zlen X) with false by lia; rewrite Z.sub_diag; reflexivity|].
    split. { unfold contents in *. rewrite ON in *. exact CO. }
    split; [cbn [s1 set_disk s_disk]; rewrite stored_cons, Z.eqb_refl; reflexivity|]. split; [exact Q0|]. split; [exact NQ|]. rewrite OF. split; [symmetry; exact CN|exact ON].
  - intros m id1 q1 id2 q2 [E|[]] [E'|[]]. congruence.
  - intros i k' H. destruct (g_rest0 i k' H) as [A|[(id' & q' & [])|A]]; [left; right; exact A|]. right. right. rewrite XA by (eapply PR; exact H). rewrite ND; [exact A|].
    destruct (g_all0 i k' H) as (b' & E). eapply stored_key. exact E.
  - intros i k' H. destruct (g_all0 i k' H) as (b' & E). exists b'. rewrite ND; [exact E|]. eapply stored_key. exact E.
  - intros m id' q' k' id'' [E|[]] HP. injection E as <- <- <-. pose proof (PR _ _ HP). lia.
  - intros id' o' Ho Hd. apply OB in Ho as [(-> & ->)|Ho]; [exists q; left; reflexivity|]. destruct (g_dirty0 id' o' Ho Hd) as (k' & H). exists k'. right. exact H.
Qed.

Lemma add_ok : forall s X P l, inv s X P -> zlen P < size -> exists s', add_cluster size place depth l s = (Ok (zlen X), s') /\ inv s' (X ++ [l]) P /\ pl_dirty (s_ptrs s') = true.
Proof.
  intros s X P l I RM. unfold add_cluster. unfold mbind at 1. unfold new_cluster, alloc_object. set (id := length (s_heap s)). set (o0 := mkObject true None [] false). set (s0 := set_heap (s_heap s ++ [o0]) s).
  assert (H0 : obj s0 id o0). { unfold obj, s0, id. cbn [set_heap s_heap]. rewrite nth_error_app2 by lia. rewrite Nat.sub_diag. reflexivity. }
  destruct (append_ok l s0 [] false id o0 H0 eq_refl) as (mods & dirty & EA & AM). unfold mbind at 1. rewrite EA. cbn [apply_mods fold_left app] in AM. change (apply_mods [] mods = l) in AM.
  set (o := mkObject true None mods dirty) in *.
  assert (LSN : list_set (s_heap s0) id o = s_heap s ++ [o]).
  { cbn [s0 set_heap s_heap]. unfold id. clear. induction (s_heap s) as [|x h IH]; [reflexivity|]. cbn [app length list_set]. rewrite IH. reflexivity. }
  rewrite LSN. set (sA := set_heap (s_heap s ++ [o]) s). change (set_heap (s_heap s ++ [o]) s0) with sA.
  assert (HO : obj sA id o). { unfold obj, sA, id. cbn [set_heap s_heap]. rewrite nth_error_app2 by lia. rewrite Nat.sub_diag. reflexivity. }
  assert (CO : contents (s_disk sA) o = Ok l) by (unfold contents; cbn [o o_new o_mods]; rewrite AM; reflexivity).
  destruct depth as [|d] eqn:ED; [lia|]. pose proof (i_next _ _ _ I) as NX.
  assert (NB : number_of None o sA = (Ok (zlen X), set_next (zlen X + 1) sA)) by (unfold number_of; cbn [o o_offset]; change (s_next sA) with (s_next s); rewrite NX; reflexivity).
  pose proof (write_unfold d None id sA o l (zlen X) _ HO CO NB) as WU. cbv zeta in WU. cbn [o o_offset] in WU.
  change (s_disk (set_next (zlen X + 1) sA)) with (s_disk s) in WU. change (s_cache (set_next (zlen X + 1) sA)) with (s_cache s) in WU.
  destruct (PL (map fst (s_disk s)) l) as (Q0 & Q1). set (q := place (map fst (s_disk s)) l) in *. specialize (WU ltac:(discriminate)).
  pose proof (i_good _ _ _ I) as G. pose proof (suspend_new s X P (s_cache s) o l q G (i_count _ _ _ I) eq_refl eq_refl CO Q0 Q1) as GS. cbv zeta in GS. fold sA id in GS.
  set (s1 := set_disk ((q, l) :: s_disk s) (set_next (zlen X + 1) sA)) in *. change (set_cache (s_cache s) s1) with s1 in WU.
  assert (QC : ~ In q (map fst (s_cache s1))). { intro H. apply Q1. eapply key_stored; [exact G|exact H]. }
  pose proof (i_len _ _ _ I) as LS.
  assert (SUB : exists s2 gone s3, cache_call size (CPush q id true) s1 = (Ok gone, s2) /\ on_leave (write d) gone s2 = (Ok tt, s3) /\
    good s3 (X ++ [l]) P [(zlen X, id, q)] (s_cache s3) /\ zlen (s_cache s3) <= size /\ frame s1 s3 /\ obj s3 id o).
  { assert (O1 : obj s1 id o) by exact HO. destruct (Z.lt_ge_cases (zlen (s_cache s)) size) as [LT|GE].
    - exists (set_cache ((q, id) :: s_cache s1) s1), None, (set_cache ((q, id) :: s_cache s1) s1). split; [apply push_room; assumption|]. split; [reflexivity|].
      cbn [set_cache s_cache]. split; [apply good_cache; exact GS|]. rewrite zlen_cons. split; [change (s_cache s1) with (s_cache s); lia|]. split; [apply frame_cache|exact O1].
    - destruct (exists_last (l := s_cache s)) as (r & [ky idy] & ER). { intro E. rewrite E in GE. change (zlen (@nil (Z * nat))) with 0 in GE. lia. }
      set (s2 := set_cache ((q, id) :: r) s1).
      assert (G2 : good s2 (X ++ [l]) P [(zlen X, id, q)] ((ky, idy) :: [] ++ s_cache s2)).
      { apply good_cache. cbn [app s2 set_cache s_cache]. eapply good_perm; [|exact GS]. rewrite ER. exact (perm_evict (q, id) (ky, idy) [] [] r). }
      assert (L2 : zlen (s_cache s2) = zlen (s_cache s)). { cbn [s2 set_cache s_cache]. rewrite zlen_cons, ER, zlen_app. change (zlen [(ky, idy)]) with 1. lia. }
      assert (NQE : forall e, In e (s_cache s) -> fst e <> q). { intros e He E. apply QC. rewrite <- E. apply in_map. exact He. }
      destruct (leave_ok d r s2 (X ++ [l]) P [(zlen X, id, q)] [] [(q, id)] ky idy) as (s' & B & R' & E & G' & C' & _ & L' & _ & F' & _ & _ & U' & _).
      + unfold zlen in *. rewrite ER, app_length in LS. cbn [length] in LS. lia.
      + exact G2.
      + intros m [E|[]]. injection E as _ _ E. apply (NQE (ky, idy)); [rewrite ER; apply in_or_app; right; left; reflexivity|symmetry; exact E].
      + reflexivity.
      + lia.
      + intros e m He [E|[]]. injection E as _ _ E. apply (NQE e); [rewrite ER; apply in_or_app; left; exact He|symmetry; exact E].
      + intro NDY. right. destruct (has_clean s X P P (s_cache s) G) as (e & He & Hc); [lia|auto|].
        assert (CE : forall id', clean s id' -> id' <> id -> clean s2 id').
        { intros id' Q Nid o' Ho. apply Q. unfold obj in *. cbn [s2 s1 sA set_cache set_disk set_next set_heap s_heap] in Ho. destruct (Nat.lt_ge_cases id' (length (s_heap s))) as [LL|LL].
          - rewrite nth_error_app1 in Ho by exact LL. exact Ho.
          - rewrite nth_error_app2 in Ho by exact LL. destruct (id' - length (s_heap s))%nat as [|n] eqn:EN; [unfold id in Nid; lia|destruct n; discriminate Ho]. }
        assert (NE : snd e <> id).
        { destruct e as [ke ide]. cbn [snd]. destruct (g_each _ _ _ _ _ G ke ide He) as [(m & [])|(o' & m & b' & Ho' & _)]. pose proof (obj_len _ _ _ Ho'). unfold id. lia. }
        exists e. split; [|exact (CE _ Hc NE)]. rewrite ER in He. apply in_app_or in He as [He|[<-|[]]]; [exact He|]. destruct (NDY (CE _ Hc NE)).
      + exists s2, (Some (ky, idy)), s'. split; [apply push_full; [exact QC|exact GE|exact ER]|]. split; [exact E|]. split; [exact G'|]. split; [exact L'|].
        split; [eapply frame_trans; [apply frame_cache|exact F']|]. unfold obj. rewrite (U' (zlen X) id q (or_introl eq_refl)). exact O1. }
  destruct SUB as (s2 & gone & s3 & EP & EL & G3 & L3 & F3 & O3). rewrite EP, EL in WU.
  pose proof (finish_range s3 _ P [] _ (zlen X) id q o G3 O3) as RG.
  destruct (pl_set_total (s_ptrs s3) (zlen X) q RG Q0 (g_mut _ _ _ _ _ G3)) as (p & PS).
  pose proof (tail_ok s3 id o (zlen X) q p O3 PS) as TO. cbn [o o_offset] in TO. rewrite TO in WU.
  pose proof (finish s3 _ P [] _ (zlen X) id q o p G3 (fun _ _ H => H) O3 PS) as G4. set (s4 := settled s3 id o q p) in *.
  pose proof (i_count _ _ _ I) as CN. destruct (pl_set_spec _ _ _ _ (proj1 RG) PS) as (_ & _ & P3 & _). pose proof (proj1 (pl_set_tracks _ _ _ _ PS)) as DT.
  exists s4. split; [exact WU|]. split; [|exact DT]. destruct I. constructor; auto.
  - rewrite zlen_app. change (zlen [l]) with 1. change (s_next s4) with (s_next s3). rewrite (fr_next _ _ F3). reflexivity.
  - rewrite zlen_app. change (zlen [l]) with 1. change (s_ptrs s4) with p. rewrite P3, (fr_count _ _ F3). change (s_ptrs s1) with (s_ptrs s). lia.
  - change (s_ptrs s4) with p. rewrite DT. discriminate.
Qed.

(** Flushing the archive. *)
Lemma leave_all_ok : forall l s X P, good s X P [] (l ++ s_cache s) -> zlen l + zlen (s_cache s) <= size -> (forall e, In e (s_cache s) -> clean s (snd e)) ->
  exists s', leave_all size place depth l s = (Ok tt, s') /\ good s' X P [] (s_cache s') /\ zlen (s_cache s') <= size /\ (forall e, In e (s_cache s') -> clean s' (snd e)) /\ frame s s'.
Proof.
  induction l as [|(k, id) l IH]; intros s X P G L CL.
  - exists s. split; [reflexivity|]. split; [exact G|]. split; [change (zlen (@nil (Z * nat))) with 0 in L; lia|]. split; [exact CL|apply frame_refl].
  - rewrite zlen_cons in L. pose proof (zlen_nonneg l). destruct (leave_ok depth (s_cache s) s X P [] l [] k id) as (s1 & B & R' & E & G1 & C1 & I1 & _ & L1 & F1 & B1 & _).
    + unfold zlen in *. lia.
    + exact G.
    + intros m [].
    + reflexivity.
    + lia.
    + intros e m _ [].
    + intros _. left. lia.
    + destruct (IH s1 X P G1) as (s' & E' & G' & L' & CL' & F').
      * lia.
      * intros e He. rewrite C1 in He. cbn [app] in He. apply in_app_or in He as [He|He]; [exact (B1 e He)|]. specialize (CL e (I1 e He)).
        intros o Ho. destruct (o_dirty o) eqn:D; [|reflexivity]. rewrite (CL o (fr_dirty _ _ F1 _ _ Ho D)) in D. discriminate D.
      * exists s'. split; [cbn [leave_all]; unfold mbind; rewrite E; exact E'|]. split; [exact G'|]. split; [exact L'|]. split; [exact CL'|]. eapply frame_trans; eassumption.
Qed.

(** Everything is in the file. *)
Definition complete (s : state) (X : list (list bytes)) : Prop :=
  s_saved s = pl_ptrs (s_ptrs s) /\ forall i p, ptr s i p -> stored_at (s_disk s) p = znth X i.
Lemma clean_complete : forall s X P, inv s X P -> s_saved s = pl_ptrs (s_ptrs s) -> (forall e, In e (s_cache s) -> clean s (snd e)) -> complete s X.
Proof.
  intros s X P I E CL. split; [exact E|]. intros i p H. pose proof (i_good _ _ _ I) as G. destruct (g_rest _ _ _ _ _ G i p H) as [A|[(id & q & [])|A]]; [|exact A].
  apply in_key in A as (id & A). destruct (g_each _ _ _ _ _ G p id A) as [(m & [])|(o & m & b & A1 & A2 & A3 & A4 & A5 & A6 & A7)].
  rewrite (A6 (CL _ A o A1)). rewrite (g_inj _ _ _ _ _ G _ _ _ H A3). symmetry. exact A4.
Qed.

Lemma flush_ok : forall s X P, inv s X P -> exists s', flush_archive size place depth s = (Ok tt, s') /\ inv s' X [] /\ complete s' X.
Proof.
  intros s X P I. unfold flush_archive. unfold mbind at 1. pose proof (i_good _ _ _ I) as G. set (s0 := set_cache [] s).
  destruct (leave_all_ok (s_cache s) s0 X P) as (s1 & E & G1 & L1 & C1 & F1).
  - apply good_cache. cbn [s0 set_cache s_cache]. rewrite app_nil_r. exact G.
  - cbn [s0 set_cache s_cache]. change (zlen (@nil (Z * nat))) with 0. pose proof (i_len _ _ _ I). lia.
  - intros e [].
  - unfold mbind. rewrite E. assert (F : frame s s1) by (eapply frame_trans; [apply frame_cache|exact F1]).
    pose proof (inv_frame s s1 X P I F G1 L1) as I1.
    assert (GZ : good s1 X [] [] (s_cache s1)).
    { eapply good_shrink; [exact G1|]. intros k id o m Hi Ho Hd. rewrite (C1 _ Hi o Ho) in Hd. discriminate Hd. }
    assert (IZ : inv s1 X []) by (destruct I1; constructor; auto; [change (zlen (@nil Z)) with 0; lia|constructor]).
    destruct (pl_dirty (s_ptrs s1)) eqn:D.
    + set (p := s_ptrs s1). set (s2 := set_saved (pl_ptrs p) (set_ptrs (mkPlist (pl_ptrs p) false (pl_mutable p) (pl_old_size p)) s1)). exists s2. split; [reflexivity|].
      assert (I2 : inv s2 X []). { destruct IZ. constructor; auto. destruct i_good0. constructor; auto. }
      split; [exact I2|]. apply (clean_complete s2 X [] I2); [reflexivity|]. exact C1.
    + exists s1. split; [reflexivity|]. split; [exact IZ|]. apply (clean_complete s1 X [] IZ); [exact (i_saved _ _ _ IZ D)|exact C1].
Qed.
Lemma close_ok : forall s X P, inv s X P -> pl_dirty (s_ptrs s) = true \/ P = [] -> exists s', close_archive size place depth s = (Ok tt, s') /\ complete s' X /\ exists P', inv s' X P'.
Proof.
  intros s X P I H. unfold close_archive. destruct (pl_dirty (s_ptrs s)) eqn:D.
  - destruct (flush_ok s X P I) as (s' & E & I' & C). eauto.
  - destruct H as [H|H]; [discriminate H|]. exists s. split; [reflexivity|]. split; [|eauto]. apply (clean_complete s X P I (i_saved _ _ _ I D)).
    intros [k id] He o Ho. cbn [snd] in Ho. destruct (o_dirty o) eqn:DO; [|reflexivity]. pose proof (i_good _ _ _ I) as G. destruct (g_each _ _ _ _ _ G k id He) as [(m & [])|(o' & m & b & A1 & _ & _ & _ & _ & _ & A7)].
    rewrite <- (obj_fun _ _ _ _ Ho A1), H in A7. destruct (A7 DO).
Qed.

(** Opening. *)
Lemma opened_inv : forall s X, just_opened s X -> inv s X [].
Proof.
  intros s X [SM CN AP PO ST]. rewrite <- SM.
  assert (G : good (opened s) X [] [] []).
  { apply mkGood.
    - unfold ptr. cbn [opened s_ptrs pl_ptrs]. intros i j p Hi Hj. pose proof (znth_some _ _ _ Hi). pose proof (znth_some _ _ _ Hj). unfold znth in *. destruct (Z.ltb_spec i 0); [lia|]. destruct (Z.ltb_spec j 0); [lia|].
      assert (Z.to_nat i = Z.to_nat j); [|lia]. apply (proj1 (NoDup_nth_error _) AP); [unfold zlen in *; lia|]. congruence.
    - reflexivity.
    - exact PO.
    - apply NoDup_nil.
    - apply NoDup_nil.
    - intros k id [].
    - intros m id q [].
    - intros m id q id' q' [].
    - intros i k H. right. right. exact (ST i k H).
    - intros i k H. pose proof (znth_some _ _ _ H) as R. cbn [opened s_ptrs pl_ptrs] in R. rewrite CN in R. destruct (ClusterWrapperProofs.znth_in X i R) as (b & E). exists b. change (s_disk (opened s)) with (s_disk s). rewrite (ST i k H). exact E.
    - intros m id q k id' [].
    - intros id o H. destruct id; discriminate H. }
  apply mkInv.
  - exact G.
  - change (0 <= size). lia.
  - change (0 <= size). lia.
  - apply NoDup_nil.
  - exact CN.
  - exact CN.
  - reflexivity.
Qed.
Lemma complete_opened : forall s X P, inv s X P -> complete s X -> just_opened (opened s) X.
Proof.
  intros s X P I (ES & ST). pose proof (i_good _ _ _ I) as G. pose proof (i_count _ _ _ I) as CN. apply mkJustOpened; change (s_saved (opened s)) with (s_saved s); [reflexivity| | | |]; rewrite ?ES; [exact CN| | |exact ST].
  - apply NoDup_nth_error. intros i j Hi E. apply nth_error_Some in Hi. destruct (nth_error (pl_ptrs (s_ptrs s)) i) as [p|] eqn:Ei; [|congruence].
    assert (Pi : forall n, nth_error (pl_ptrs (s_ptrs s)) n = Some p -> ptr s (Z.of_nat n) p). { intros n H. unfold ptr, znth. destruct (Z.ltb_spec (Z.of_nat n) 0); [lia|]. rewrite Nat2Z.id. exact H. }
    pose proof (g_inj _ _ _ _ _ G _ _ _ (Pi i Ei) (Pi j (eq_sym E))). lia.
  - exact (g_pos _ _ _ _ _ G).
Qed.
Lemma opened_shows : forall s X, just_opened (opened s) X -> shows size place depth s X.
Proof.
  intros s X J. pose proof (opened_inv _ _ J) as I. split; [exact (i_count _ _ _ I)|]. intros i j R _. destruct (read_ok _ _ _ i j I R) as (s' & E & _). rewrite E. reflexivity.
Qed.

(** ** Histories *)
Lemma uop_ok : forall s X P nb o, inv s X P -> (nb = true -> pl_dirty (s_ptrs s) = true) -> uvalid X o -> leaves_room size P o ->
  exists s', perform_uop size place depth o s = (Ok (uanswer X o), s') /\ inv s' (ustep X o) (pending_after P o) /\ (noticed_after nb o = true -> pl_dirty (s_ptrs s') = true).
Proof.
  intros s X P nb o I NB V R. destruct o as [i j d|i j d|i j|l|]; cbn [perform_uop uanswer ustep pending_after noticed_after uvalid leaves_room] in *.
  - destruct V as (V1 & V2). destruct (ClusterWrapperProofs.znth_in X i V1) as (b & XI). unfold blobs_of in *. rewrite XI in *.
    destruct (get_ok s X P i b I XI) as (s1 & id & k & o & E & I1 & HO & OF & PK & CO & RM & N1).
    set (P' := if existsb (Z.eqb i) P then P else i :: P).
    assert (PX : In i P' /\ incl P P' /\ NoDup P' /\ zlen P' <= size).
    { destruct I as [_ _ LP NP _ _ _]. unfold P'. destruct (existsb (Z.eqb i) P) eqn:EX.
      - apply existsb_exists in EX as (x & Hx & Ex). apply Z.eqb_eq in Ex. subst x. split; [exact Hx|]. split; [apply incl_refl|]. auto.
      - assert (NI : ~ In i P). { intro H. assert (existsb (Z.eqb i) P = true) by (apply existsb_exists; exists i; split; [exact H|apply Z.eqb_refl]). congruence. }
        destruct R as [R|R]; [contradiction|]. split; [left; reflexivity|]. split; [apply incl_tl, incl_refl|]. split; [constructor; assumption|]. rewrite zlen_cons. lia. }
    destruct PX as (P1 & P2 & P3 & P4). destruct (set_ok s1 X P P' i j d id k o b I1 HO OF PK CO XI (RM R) V2 P1 P2 P3 P4) as (s' & o' & E' & I' & _ & _ & _ & _ & _ & _ & EP).
    exists s'. split; [unfold set_content, mbind; rewrite E, E'; reflexivity|]. split; [exact I'|]. intro Hb. rewrite EP. auto.
  - destruct V as (V1 & V2). destruct (ClusterWrapperProofs.znth_in X i V1) as (b & XI). unfold blobs_of in *. rewrite XI in *.
    destruct (get_ok s X P i b I XI) as (s1 & id & k & o & E & I1 & HO & OF & PK & CO & RM & N1).
    set (P' := if existsb (Z.eqb i) P then P else i :: P).
    assert (PX : In i P' /\ incl P P' /\ NoDup P' /\ zlen P' <= size /\ filter (fun x => negb (i =? x)) P' = filter (fun x => negb (i =? x)) P).
    { destruct I as [_ _ LP NP _ _ _]. unfold P'. destruct (existsb (Z.eqb i) P) eqn:EX.
      - apply existsb_exists in EX as (x & Hx & Ex). apply Z.eqb_eq in Ex. subst x. split; [exact Hx|]. split; [apply incl_refl|]. auto.
      - assert (NI : ~ In i P). { intro H. assert (existsb (Z.eqb i) P = true) by (apply existsb_exists; exists i; split; [exact H|apply Z.eqb_refl]). congruence. }
        destruct R as [R|R]; [contradiction|]. split; [left; reflexivity|]. split; [apply incl_tl, incl_refl|]. split; [constructor; assumption|]. split; [rewrite zlen_cons; lia|].
        cbn [filter]. rewrite Z.eqb_refl. reflexivity. }
    destruct PX as (P1 & P2 & P3 & P4 & P5). destruct (set_ok s1 X P P' i j d id k o b I1 HO OF PK CO XI (RM R) V2 P1 P2 P3 P4) as (s2 & o' & E2 & I2 & HO2 & OF2 & D2 & PK2 & IC2 & CO2 & EP).
    assert (XR : 0 <= i <= zlen X) by lia.
    destruct (save_ok s2 _ P' i id k o' _ I2 HO2 OF2 PK2 CO2) as (s' & E' & I' & D').
    + rewrite replace_nth by exact XR. rewrite Z.eqb_refl. reflexivity.
    + exact IC2.
    + exact D2.
    + rewrite P5 in I'. exists s'. split; [unfold set_content_flush, mbind; rewrite E, E2, E'; reflexivity|]. split; [exact I'|]. intros _. exact D'.
  - destruct V as (V1 & V2). destruct (read_ok s X P i j I V1) as (s' & E & I' & N'). exists s'. destruct (ClusterWrapperProofs.znth_in _ j V2) as (x & Ex). rewrite Ex in *.
    split; [unfold mbind; rewrite E; reflexivity|]. split; [exact I'|]. auto.
  - destruct (add_ok s X P l I R) as (s' & E & I' & D'). exists s'. split; [unfold mbind; rewrite E; reflexivity|]. auto.
  - destruct (flush_ok s X P I) as (s' & E & I' & _). exists s'. split; [unfold mbind; rewrite E; reflexivity|]. split; [exact I'|]. discriminate.
Qed.

Lemma uops_ok : forall ops s X P nb, inv s X P -> (nb = true -> pl_dirty (s_ptrs s) = true) -> all_valid X ops -> all_roomy size P ops ->
  exists s', perform_all size place depth ops s = (map (fun a => Ok a) (uanswers X ops), s') /\ inv s' (usteps X ops) (fold_left pending_after ops P) /\
    (fold_left noticed_after ops nb = true -> pl_dirty (s_ptrs s') = true).
Proof.
  induction ops as [|o ops IH]; intros s X P nb I NB V R.
  - exists s. auto.
  - destruct V as (V1 & V2). destruct R as (R1 & R2). destruct (uop_ok s X P nb o I NB V1 R1) as (s1 & E1 & I1 & N1). destruct (IH s1 _ _ _ I1 N1 V2 R2) as (s' & E' & I' & N').
    exists s'. split; [cbn [perform_all uanswers map]; rewrite E1, E'; reflexivity|]. auto.
Qed.
End Policy.
