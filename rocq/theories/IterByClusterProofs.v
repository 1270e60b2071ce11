(** Proofs about [iter_by_cluster]. *)
From Coq Require Import List ZArith Bool Lia Sorting.Sorted Sorting.Permutation.
From Coq Require Import ZifyBool ZifyNat.
From Verif Require Import Base BaseProofs Utf8 Utf8Proofs Entry EntrySpec EntryProofs PointerList PointerListProofs Archive IterByCluster IterByClusterSpec.
Import ListNotations.
Open Scope Z_scope.

(** ** Sorting *)
Lemma insert_perm : forall A ltb (x : A) l, Permutation (insert ltb x l) (x :: l).
Proof.
  intros A ltb x. induction l as [|y l IH]; [constructor; constructor|]. cbn [insert]. destruct (ltb y x).
  - rewrite IH. apply perm_swap.
  - reflexivity.
Qed.
Lemma sorted_perm : forall A ltb (l : list A), Permutation (sorted ltb l) l.
Proof. intros A ltb. induction l as [|x l IH]; [constructor|]. cbn [sorted]. rewrite insert_perm. constructor. exact IH. Qed.

Lemma insert_sorted : forall A ltb (R : A -> A -> Prop), (forall x y, ltb x y = true -> R x y) -> (forall x y, ltb x y = false -> R y x) ->
  (forall x y z, R x y -> R y z -> R x z) -> forall x l, StronglySorted R l -> StronglySorted R (insert ltb x l).
Proof.
  intros A ltb R H1 H2 H3 x. induction l as [|y l IH]; intro S; [repeat constructor|]. cbn [insert]. inversion S as [|? ? S' F]; subst.
  destruct (ltb y x) eqn:E.
  - constructor; [auto|]. rewrite Forall_forall in *. intros z Hz. apply (Permutation_in _ (insert_perm _ _ _ _)) in Hz as [<-|Hz]; auto.
  - constructor; [exact S|]. rewrite Forall_forall in *. intros z [<-|Hz]; auto. apply (H3 _ y); auto.
Qed.
Lemma sorted_sorted : forall A ltb (R : A -> A -> Prop), (forall x y, ltb x y = true -> R x y) -> (forall x y, ltb x y = false -> R y x) ->
  (forall x y z, R x y -> R y z -> R x z) -> forall l, StronglySorted R (sorted ltb l).
Proof. intros A ltb R H1 H2 H3. induction l as [|x l IH]; [constructor|]. cbn [sorted]. apply insert_sorted; auto. Qed.

(** ** The dict of groups *)
Definition num (e : entry) : Z := match e_kind e with Content c _ => c | Redirect _ => -1 end.
Definition item (e : entry) : Z * ustr := (match e_kind e with Content _ b => b | Redirect _ => -1 end, full_url e).

Lemma lookup_append : forall k k' x d, lookup k' (append_to k x d) =
  if k =? k' then Some (match lookup k d with Some v => v ++ [x] | None => [x] end) else lookup k' d.
Proof.
  intros k k' x. induction d as [|[k0 v] d IH]; cbn [append_to lookup]; [reflexivity|].
  destruct (Z.eqb_spec k0 k) as [->|N]; cbn [lookup].
  - destruct (Z.eqb_spec k k'); reflexivity.
  - rewrite IH. destruct (Z.eqb_spec k k') as [->|]; [|reflexivity]. destruct (Z.eqb_spec k0 k'); [contradiction|reflexivity].
Qed.
Lemma keys_append : forall k x d k', In k' (map fst (append_to k x d)) <-> k' = k \/ In k' (map fst d).
Proof.
  intros k x. induction d as [|[k0 v] d IH]; intro k'; cbn [append_to map In fst]; [intuition auto|].
  destruct (Z.eqb_spec k0 k) as [->|N]; cbn [map In fst]; [intuition auto|]. rewrite IH. intuition auto.
Qed.
Lemma nodup_append : forall k x d, NoDup (map fst d) -> NoDup (map fst (append_to k x d)).
Proof.
  intros k x. induction d as [|[k0 v] d IH]; cbn [append_to map fst]; [repeat constructor; auto|]. intro N. inversion N as [|? ? N1 N2]; subst.
  destruct (Z.eqb_spec k0 k) as [->|E]; cbn [map fst]; [exact N|]. constructor; [|auto]. rewrite keys_append. intros [H|H]; auto.
Qed.

(** The dict after the entries [l]. *)
Record grouped (l : list entry) (d : groups) : Prop := mkGrouped {
  gr_nodup : NoDup (map fst d);
  gr_keys : forall k, In k (map fst d) <-> exists e, In e l /\ num e = k;
  gr_value : forall k v, lookup k d = Some v -> v = map item (filter (fun e => num e =? k) l);
  gr_none : forall k, lookup k d = None -> ~ In k (map fst d) }.

Lemma grouped_step : forall l d e, kind_consistent e -> grouped l d -> exists d', group_entry d e = Ok d' /\ grouped (l ++ [e]) d'.
Proof.
  intros l d e K [G1 G2 G3 G4].
  assert (exists d', group_entry d e = Ok d' /\ d' = append_to (num e) (item e) d) as (d' & E & ->).
  { unfold kind_consistent in K. unfold group_entry, is_redirect, num, item, MIMETYPE_ID_REDIRECT. destruct (e_kind e).
    - destruct (Z.eqb_spec (e_mimetype e) 65535); [contradiction|]. eexists; split; reflexivity.
    - rewrite K. eexists; split; reflexivity. }
  eexists; split; [exact E|]. constructor.
  - apply nodup_append. exact G1.
  - intro k. rewrite keys_append, G2. split.
    + intros [->|(e0 & H & N)]; [exists e|exists e0]; (split; [apply in_or_app; cbn; auto|auto]).
    + intros (e0 & H & N). apply in_app_or in H as [H|[<-|[]]]; [right; exists e0; auto|left; auto].
  - intros k v. rewrite lookup_append, filter_app, map_app. cbn [filter]. destruct (Z.eqb_spec (num e) k) as [Ek|N].
    + subst k. intro H. injection H as <-. cbn [map]. destruct (lookup (num e) d) as [v|] eqn:E'.
      * rewrite (G3 _ _ E'). reflexivity.
      * assert (F : filter (fun e0 => num e0 =? num e) l = []); [|rewrite F; reflexivity].
        destruct (filter (fun e0 => num e0 =? num e) l) as [|e0 r] eqn:F; [reflexivity|]. exfalso. apply (G4 _ E'), G2. exists e0.
        assert (H : In e0 (filter (fun e0 => num e0 =? num e) l)) by (rewrite F; left; reflexivity). apply filter_In in H as [H1 H2]. split; [exact H1|lia].
    + intro H. cbn [map]. rewrite app_nil_r. auto.
  - intros k. rewrite lookup_append, keys_append. destruct (Z.eqb_spec (num e) k); [discriminate|]. intros H [->|I]; [contradiction|]. exact (G4 k H I).
Qed.

Lemma grouped_all : forall l l0 d, Forall kind_consistent l -> grouped l0 d -> exists d', group_entries d l = Ok d' /\ grouped (l0 ++ l) d'.
Proof.
  induction l as [|e l IH]; intros l0 d F G; [exists d; rewrite app_nil_r; auto|]. inversion F; subst.
  destruct (grouped_step l0 d e) as (d1 & E1 & G1); auto. destruct (IH _ d1 ltac:(assumption) G1) as (d' & E' & G').
  exists d'. cbn [group_entries]. rewrite E1. cbn [bind]. rewrite <- app_assoc in G'. auto.
Qed.
Lemma grouped_nil : grouped [] [].
Proof. constructor; [constructor| |discriminate|auto]. intro k. split; [intros []|intros (e & [] & _)]. Qed.

(** ** What is yielded *)

Lemma yields : forall l d nums, grouped l d -> NoDup nums -> (forall c, In c nums -> In c (map fst d)) ->
  exists r, yield_clusters d nums = Ok r /\
    Forall2 (fun c v => v = map snd (sorted pair_ltb (map item (filter (fun e => num e =? c) l)))) (filter (fun c => negb (c =? -1)) nums) r.
Proof.
  intros l d nums G. induction nums as [|c nums IH]; intros N H; [exists []; split; [reflexivity|constructor]|].
  inversion N; subst. destruct IH as (r & E & F); auto; [intros; apply H; right; auto|].
  cbn [yield_clusters filter]. destruct (Z.eqb_spec c (-1)); cbn [negb]; [exists r; auto|].
  destruct (lookup c d) as [v|] eqn:L; [|exfalso; apply (gr_none _ _ G _ L), H; left; reflexivity].
  rewrite E. cbn [bind]. eexists; split; [reflexivity|]. constructor; [|exact F]. rewrite (gr_value _ _ G _ _ L). reflexivity.
Qed.

(** Sorting pairs amounts to sorting the entries they belong to. *)
Lemma map_perm_inv : forall A B (f : A -> B) l m, Permutation (map f l) m -> exists l', Permutation l l' /\ m = map f l'.
Proof. intros A B f l m P. apply Permutation_sym in P. apply Permutation_map_inv in P as (l' & -> & P). exists l'. auto. Qed.

Lemma pair_ltb_blob : forall x y, pair_ltb x y = true -> fst x <= fst y.
Proof. intros x y. unfold pair_ltb. intro H. apply orb_prop in H as [H|H]; [lia|]. apply andb_prop in H as [H _]. lia. Qed.
Lemma pair_nltb_blob : forall x y, pair_ltb x y = false -> fst y <= fst x.
Proof. intros x y. unfold pair_ltb. intro H. apply orb_false_elim in H as [H _]. lia. Qed.

Lemma sorted_map_inv : forall A B (f : A -> B) (R : B -> B -> Prop) l, StronglySorted R (map f l) -> StronglySorted (fun x y => R (f x) (f y)) l.
Proof.
  intros A B f R. induction l as [|x l IH]; intro S; [constructor|]. inversion S as [|? ? S' F]; subst. constructor; [auto|].
  rewrite Forall_forall in *. intros y Hy. apply F. apply in_map. exact Hy.
Qed.

Lemma group_sorted : forall l, exists es, Permutation es l /\ map snd (sorted pair_ltb (map item l)) = map full_url es /\
  StronglySorted (fun a b => blob_number a <= blob_number b) es.
Proof.
  intro l. destruct (map_perm_inv _ _ item l _ (Permutation_sym (sorted_perm _ pair_ltb (map item l)))) as (es & P & E).
  exists es. split; [symmetry; exact P|]. split; [rewrite E, map_map; reflexivity|].
  assert (S : StronglySorted (fun x y : Z * ustr => fst x <= fst y) (sorted pair_ltb (map item l))).
  { apply sorted_sorted; [exact pair_ltb_blob|exact pair_nltb_blob|intros; lia]. }
  rewrite E in S. apply sorted_map_inv in S. exact S.
Qed.

Lemma filter_sorted : forall A (R : A -> A -> Prop) f l, StronglySorted R l -> StronglySorted R (filter f l).
Proof.
  intros A R f. induction l as [|x l IH]; intro S; [constructor|]. inversion S as [|? ? S' F]; subst. cbn [filter].
  destruct (f x); [|auto]. constructor; [auto|]. rewrite Forall_forall in *. intros y Hy. apply filter_In in Hy as [Hy _]. auto.
Qed.

Lemma strict : forall l, StronglySorted Z.le l -> NoDup l -> StronglySorted Z.lt l.
Proof.
  induction l as [|x l IH]; intros S N; [constructor|]. inversion S as [|? ? S' F]; subst. inversion N; subst. constructor; [auto|].
  rewrite Forall_forall in *. intros y Hy. specialize (F y Hy). assert (x <> y) by (intros ->; contradiction). lia.
Qed.

(** ** Entries read from a file *)
Lemma construct_kind : forall mt ns rev url ttl ps k e, construct mt ns rev url ttl ps k = Ok e -> e_kind e = k /\ e_mimetype e = mt.
Proof.
  unfold construct. intros mt ns rev url ttl ps k e H.
  repeat match type of H with (if ?b then _ else _) = _ => destruct b; try discriminate | match ?x with _ => _ end = _ => destruct x; try discriminate end;
  injection H as <-; cbn [e_kind e_mimetype]; auto.
Qed.

Definition content_ok (e : entry) : Prop := kind_consistent e /\ match e_kind e with Content c b => 0 <= c /\ 0 <= b | Redirect _ => True end.

Lemma entry_at_kind : forall f p e, entry_at f p = Ok e -> content_ok e.
Proof.
  intros f p e. unfold entry_at. destruct (entry_from_file (zskip p f)) as [[e0 r]|x] eqn:E; [|discriminate]. cbn [bind fst]. intro H. injection H as ->.
  revert E. unfold entry_from_file. destruct (read_exact 2 (zskip p f)) as [[m f']|x]; [|discriminate]. cbn [bind].
  destruct (Z.eqb_spec (le_val m) MIMETYPE_ID_REDIRECT) as [Em|Em].
  - unfold redirect_from_file. intro E.
    repeat match type of E with bind ?x _ = _ => destruct x as [[? ?]|] eqn:?; [cbn [bind] in E|discriminate]
           | bind ?x _ = _ => destruct x as [?|] eqn:?; [cbn [bind] in E|discriminate] | (let (_, _) := ?x in _) = _ => destruct x end.
    injection E as <- <-. match goal with H : construct _ _ _ _ _ _ _ = Ok _ |- _ => apply construct_kind in H as [Hk Hm] end.
    unfold content_ok, kind_consistent. rewrite Hk. auto.
  - unfold content_from_file. intro E.
    repeat match type of E with bind ?x _ = _ => destruct x as [[? ?]|] eqn:?; [cbn [bind] in E|discriminate]
           | bind ?x _ = _ => destruct x as [?|] eqn:?; [cbn [bind] in E|discriminate] | (let (_, _) := ?x in _) = _ => destruct x end.
    injection E as <- <-. match goal with H : construct _ _ _ _ _ _ _ = Ok _ |- _ => apply construct_kind in H as [Hk Hm] end.
    unfold content_ok, kind_consistent. rewrite Hk, Hm. split; [exact Em|]. split; apply le_val_range.
Qed.
Lemma range_kind : forall s n i l, iter_range (fun i => do p <- get_by_index (pl_ptrs (z_upl s)) i ;; get_entry_at s p) i n = Ok l -> Forall content_ok l.
Proof.
  intros s. induction n as [|n IH]; intros i l; cbn [iter_range]; [intro H; injection H as <-; constructor|].
  destruct (get_by_index (pl_ptrs (z_upl s)) i) as [p|x]; [|discriminate]. cbn [bind].
  destruct (get_entry_at s p) as [e|x] eqn:E; [|discriminate]. cbn [bind].
  destruct (iter_range _ (i + 1) n) as [r|x] eqn:R; [|discriminate]. cbn [bind]. intro H. injection H as <-. constructor; [|eapply IH; exact R].
  unfold get_entry_at in E. destruct (p <? 0); [discriminate|]. eapply entry_at_kind. exact E.
Qed.
Lemma iter_kind : forall s L, iter_entries s None None = Ok L -> Forall content_ok L.
Proof.
  intros s L. unfold iter_entries, iter_bounds. destruct (0 <? 0); [discriminate|]. destruct (_ <? _); [discriminate|]. destruct (_ <? _); [discriminate|].
  apply range_kind.
Qed.

Lemma redirect_num : forall e, content_ok e -> (num e =? -1) = is_redirect e.
Proof.
  intros e [K H]. unfold num, is_redirect, kind_consistent, MIMETYPE_ID_REDIRECT in *. destruct (e_kind e); lia.
Qed.
Lemma in_cluster_num : forall c e, c <> -1 -> (num e =? c) = in_cluster c e.
Proof. intros c e H. unfold num, in_cluster. destruct (e_kind e); lia. Qed.

Theorem iter_ok : forall s L, iter_entries s None None = Ok L ->
  exists cs gs, clusters_used L cs /\ Forall2 (group_of L) cs gs /\
    iter_by_cluster s = if existsb is_redirect L then (gs ++ [map full_url (filter is_redirect L)], Ok tt) else (gs, Err KeyError).
Proof.
  intros s L E. pose proof (iter_kind s L E) as F. rewrite Forall_forall in F.
  destruct (grouped_all L [] []) as (d & G & D); [rewrite Forall_forall; intros e He; apply (F e He)|apply grouped_nil|]. rewrite app_nil_l in D.
  set (nums := sorted Z.ltb (map fst d)).
  assert (P : Permutation nums (map fst d)) by apply sorted_perm.
  assert (N : NoDup nums) by (eapply Permutation_NoDup; [symmetry; exact P|apply (gr_nodup _ _ D)]).
  destruct (yields L d nums D N) as (gs & Y & Y2); [intros c Hc; eapply Permutation_in; eauto|].
  assert (Hneg : forall c, c <> -1 -> filter (fun e => num e =? c) L = filter (in_cluster c) L).
  { intros c Hc. apply filter_ext. intro e. apply in_cluster_num. exact Hc. }
  exists (filter (fun c => negb (c =? -1)) nums), gs. split; [split|split].
  - apply filter_sorted, strict; [|exact N]. apply sorted_sorted; intros; lia.
  - intro c. rewrite filter_In. split.
    + intros [H1 H2]. apply (Permutation_in _ P) in H1. apply (gr_keys _ _ D) in H1 as (e & He & Hn). exists e. split; [exact He|].
      rewrite <- in_cluster_num by lia. lia.
    + intros (e & He & Hc). assert (Hn : num e = c) by (unfold in_cluster in Hc; unfold num; destruct (e_kind e); lia).
      assert (c <> -1). { destruct (F e He) as [_ H]. unfold in_cluster in Hc. destruct (e_kind e); lia. }
      split; [|lia]. apply (Permutation_in _ (Permutation_sym P)), (gr_keys _ _ D). exists e. auto.
  - assert (Hc : forall c, In c (filter (fun c => negb (c =? -1)) nums) -> c <> -1) by (intros c H; apply filter_In in H as [_ H]; lia).
    clear Y. revert Y2 Hc. generalize (filter (fun c => negb (c =? -1)) nums). intros cs Y2. induction Y2 as [|c g cs gs Hg Y2 IH]; intro Hc; constructor.
    + destruct (group_sorted (filter (fun e => num e =? c) L)) as (es & P1 & E1 & S1). exists es. rewrite <- (Hneg c) by (apply Hc; left; reflexivity).
      split; [exact P1|]. split; [exact S1|]. rewrite Hg. exact E1.
    + apply IH. intros c' H. apply Hc. right. exact H.
  - unfold iter_by_cluster. rewrite E. cbn [bind]. rewrite G. cbn [bind]. fold nums. rewrite Y. cbn [bind].
    assert (R : filter (fun e => num e =? -1) L = filter is_redirect L).
    { clear - F. induction L as [|e L IH]; [reflexivity|]. cbn [filter]. rewrite redirect_num by (apply F; left; reflexivity). rewrite IH; [reflexivity|intros; apply F; right; auto]. }
    destruct (lookup (-1) d) as [v|] eqn:Ev.
    + rewrite (gr_value _ _ D _ _ Ev), R, map_map. cbn [snd item].
      assert (X : existsb is_redirect L = true); [|rewrite X; reflexivity].
      assert (H : In (-1) (map fst d)). { clear - Ev. induction d as [|[k w] d IH]; [discriminate|]. cbn [lookup] in Ev. cbn [map In fst]. destruct (Z.eqb_spec k (-1)); auto. }
      apply (gr_keys _ _ D) in H as (e & He & Hn). apply existsb_exists. exists e. split; [exact He|]. rewrite <- redirect_num by auto. lia.
    + assert (X : existsb is_redirect L = false); [|rewrite X; reflexivity].
      destruct (existsb is_redirect L) eqn:X; [|reflexivity]. exfalso. apply existsb_exists in X as (e & He & Hr). rewrite <- redirect_num in Hr by auto.
      apply (gr_none _ _ D _ Ev), (gr_keys _ _ D). exists e. split; [exact He|lia].
Qed.

(** ** Each url once *)
Lemma partition_perm : forall (L : list entry) (f : entry -> bool), Permutation (filter f L ++ filter (fun e => negb (f e)) L) L.
Proof.
  intros L f. induction L as [|e L IH]; [constructor|]. cbn [filter]. destruct (f e); cbn [negb app].
  - constructor. exact IH.
  - symmetry. apply Permutation_cons_app. symmetry. exact IH.
Qed.
Lemma clusters_perm : forall cs L, StronglySorted Z.lt cs -> (forall e, In e L -> exists c, In c cs /\ in_cluster c e = true) ->
  Permutation (concat (map (fun c => filter (in_cluster c) L) cs)) L.
Proof.
  induction cs as [|c cs IH]; intros L S H.
  - destruct L as [|e L]; [constructor|]. destruct (H e (or_introl eq_refl)) as (? & [] & _).
  - inversion S as [|? ? S' F]; subst. cbn [map concat]. rewrite Forall_forall in F.
    rewrite <- (partition_perm L (in_cluster c)) at 2. apply Permutation_app_head.
    rewrite <- (IH (filter (fun e => negb (in_cluster c e)) L)) at 1; auto.
    + assert (Q : map (fun c0 => filter (in_cluster c0) L) cs = map (fun c0 => filter (in_cluster c0) (filter (fun e => negb (in_cluster c e)) L)) cs); [|rewrite Q; reflexivity].
      apply map_ext_in. intros c' Hc'. specialize (F c' Hc'). clear - F. induction L as [|e L IH]; [reflexivity|]. cbn [filter].
      destruct (in_cluster c' e) eqn:E1, (in_cluster c e) eqn:E2; cbn [negb filter]; rewrite ?E1, IH; try reflexivity.
      exfalso. unfold in_cluster in *. destruct (e_kind e); lia.
    + intros e He. apply filter_In in He as [He Hn]. destruct (H e He) as (c' & [<-|Hc'] & E); [rewrite E in Hn; discriminate|eauto].
Qed.

Theorem each_once : forall s L, iter_entries s None None = Ok L -> Permutation (concat (fst (iter_by_cluster s))) (map full_url L).
Proof.
  intros s L E. pose proof (iter_kind s L E) as F. rewrite Forall_forall in F. destruct (iter_ok s L E) as (cs & gs & [S U] & G & R).
  assert (P : Permutation (concat gs) (map full_url (filter (fun e => negb (is_redirect e)) L))).
  { rewrite <- (clusters_perm cs (filter (fun e => negb (is_redirect e)) L)); auto.
    - rewrite concat_map, map_map.
      assert (Q : map (fun c => map full_url (filter (in_cluster c) (filter (fun e => negb (is_redirect e)) L))) cs = map (fun c => map full_url (filter (in_cluster c) L)) cs).
      { apply map_ext. intro c. f_equal. clear - F. induction L as [|e L IH]; [reflexivity|]. cbn [filter].
        assert (X : in_cluster c e = true -> is_redirect e = false).
        { destruct (F e (or_introl eq_refl)) as [K _]. unfold in_cluster, is_redirect, kind_consistent, MIMETYPE_ID_REDIRECT in *. destruct (e_kind e); lia. }
        destruct (is_redirect e); cbn [negb filter]; [destruct (in_cluster c e); [discriminate (X eq_refl)|]|]; rewrite IH by (intros; apply F; right; auto); reflexivity. }
      rewrite Q. clear - G. induction G as [|c g cs gs (es & P & _ & ->) G IH]; [constructor|]. cbn [map concat]. apply Permutation_app; [|exact IH].
      apply Permutation_map. exact P.
    - intros e He. apply filter_In in He as [He Hr]. destruct (F e He) as [K H]. unfold kind_consistent, is_redirect, MIMETYPE_ID_REDIRECT in *.
      destruct (e_kind e) as [c b|] eqn:Ek; [|lia]. exists c. split; [apply U; exists e; split; [exact He|]|]; unfold in_cluster; rewrite Ek; lia. }
  rewrite R. destruct (existsb is_redirect L) eqn:X; cbn [fst].
  - rewrite concat_app. cbn [concat]. rewrite app_nil_r, P, Permutation_app_comm, <- map_app. apply Permutation_map, partition_perm.
  - rewrite P. apply Permutation_map. assert (Q : filter (fun e => negb (is_redirect e)) L = L); [|rewrite Q; reflexivity].
    clear - X. induction L as [|e L IH]; [reflexivity|]. cbn [existsb] in X. apply orb_false_elim in X as [X1 X2]. cbn [filter]. rewrite X1. cbn [negb]. rewrite IH by exact X2. reflexivity.
Qed.
