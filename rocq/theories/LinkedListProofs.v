(** The linked list refines a plain list. *)
From Coq Require Import List ZArith Bool Lia Permutation.
From Coq Require Import ZifyBool ZifyNat ZifyN.
From Verif Require Import Base BaseProofs LinkedList LinkedListSpec.
Import ListNotations.
Open Scope Z_scope.

Section Proofs.
Context {V : Type}.
Notation seq := (list (nat * V)).
Implicit Types (h : heap V) (l a b r : seq) (d : dll V).

Definition hdid (l : seq) (n : option nat) : option nat := match l with [] => n | (j, _) :: _ => Some j end.
Fixpoint lastid (l : seq) (p : option nat) : option nat := match l with [] => p | (i, _) :: r => lastid r (Some i) end.

(** [seg h p l n]: the cells of [l] are linked in this order, the first one
    preceded by [p] and the last one followed by [n]. *)
Fixpoint seg h (p : option nat) (l : seq) (n : option nat) : Prop :=
  match l with
  | [] => True
  | (i, v) :: r => h i = Some (mkCell v p (hdid r n) true) /\ seg h (Some i) r n
  end.

Definition ids (l : seq) : list nat := map fst l.

Record rep d l : Prop := {
  r_nodup : NoDup (ids l);
  r_seg : seg (d_heap d) None l None;
  r_head : d_head d = hdid l None;
  r_tail : d_tail d = lastid l None;
  r_len : d_len d = zlen l;
  r_fresh : forall i, In i (ids l) -> (i < d_fresh d)%nat }.

Lemma hdid_app : forall a b n, hdid (a ++ b) n = hdid a (hdid b n).
Proof. intros [|[i v] a] b n; reflexivity. Qed.
Lemma lastid_app : forall a b p, lastid (a ++ b) p = lastid b (lastid a p).
Proof. induction a as [|[i v] a IH]; intros b p; cbn; auto. Qed.

Lemma seg_cons : forall h p i v r n,
  seg h p ((i, v) :: r) n <-> h i = Some (mkCell v p (hdid r n) true) /\ seg h (Some i) r n.
Proof. intros. reflexivity. Qed.

Lemma seg_app : forall a h p b n, seg h p (a ++ b) n <-> seg h p a (hdid b n) /\ seg h (lastid a p) b n.
Proof.
  induction a as [|[i v] a IH]; intros h p b n; cbn [app seg lastid]; [tauto|].
  rewrite hdid_app, IH. tauto.
Qed.

Lemma seg_frame : forall l h h' p n, (forall i, In i (ids l) -> h' i = h i) -> seg h p l n -> seg h' p l n.
Proof.
  induction l as [|[i v] l IH]; intros h h' p n F H; cbn [seg] in *; [trivial|]. destruct H as [H1 H2].
  split; [rewrite F; [exact H1|left; reflexivity]|]. apply (IH h); [intros j Hj; apply F; right; exact Hj|exact H2].
Qed.

Lemma hupd_same : forall h i f c, h i = Some c -> hupd h i f i = Some (f c).
Proof. intros h i f c H. unfold hupd. rewrite Nat.eqb_refl, H. reflexivity. Qed.
Lemma hupd_other : forall h i f j, j <> i -> hupd h i f j = h j.
Proof. intros h i f j H. unfold hupd. destruct (Nat.eqb_spec j i); [contradiction|reflexivity]. Qed.

Definition upd_opt h (o : option nat) (f : cell V -> cell V) : heap V :=
  match o with Some x => hupd h x f | None => h end.

Lemma upd_opt_other : forall h o f j, o <> Some j -> upd_opt h o f j = h j.
Proof. intros h [x|] f j H; cbn; [|reflexivity]. apply hupd_other. congruence. Qed.

Lemma lastid_in : forall a p x, lastid a p = Some x -> In x (ids a) \/ (a = [] /\ p = Some x).
Proof.
  induction a as [|[i v] a IH]; intros p x H; cbn in *; [auto|].
  apply IH in H as [H|[-> H]]; [auto|]. injection H as ->. cbn. auto.
Qed.
Lemma lastid_none_in : forall a x, lastid a None = Some x -> In x (ids a).
Proof. intros a x H. apply lastid_in in H as [H|[_ H]]; [exact H|discriminate]. Qed.
Lemma hdid_in : forall a n x, hdid a n = Some x -> In x (ids a) \/ (a = [] /\ n = Some x).
Proof. intros [|[i v] a] n x H; cbn in *; [auto|]. injection H as ->. auto. Qed.
Lemma hdid_none_in : forall a x, hdid a None = Some x -> In x (ids a).
Proof. intros a x H. apply hdid_in in H as [H|[_ H]]; [exact H|discriminate]. Qed.

Lemma lastid_nonempty : forall a p q, a <> [] -> lastid a p = lastid a q.
Proof. intros [|[i v] a] p q H; [congruence|reflexivity]. Qed.

Lemma seg_relink_last : forall a h p n n', NoDup (ids a) -> seg h p a n ->
  seg (upd_opt h (lastid a None) (with_next n')) p a n'.
Proof.
  intros a. pattern a. apply rev_ind; [cbn; trivial|]. clear a.
  intros [x v] a _ h p n n' Hn H. rewrite lastid_app. cbn [lastid upd_opt].
  apply seg_app in H as [H1 H2]. cbn [seg hdid] in H2. destruct H2 as [H2 _]. cbn [hdid] in H1.
  unfold ids in Hn. rewrite map_app in Hn. cbn in Hn.
  assert (Hx : ~ In x (ids a)). { intro Hi. apply (NoDup_remove_2 (ids a) [] x Hn). rewrite app_nil_r. exact Hi. }
  apply seg_app. cbn [hdid seg]. split.
  - eapply seg_frame; [|exact H1]. intros j Hj. apply hupd_other. congruence.
  - split; [|trivial]. rewrite (hupd_same h x _ _ H2). reflexivity.
Qed.

Lemma seg_relink_first : forall b h p p' n, NoDup (ids b) -> seg h p b n ->
  seg (upd_opt h (hdid b None) (with_prev p')) p' b n.
Proof.
  intros [|[y v] b] h p p' n Hn H; cbn [seg] in *; [trivial|]. destruct H as [H1 H2]. cbn [hdid upd_opt].
  split; [rewrite (hupd_same h y _ _ H1); reflexivity|].
  eapply seg_frame; [|exact H2]. intros j Hj. apply hupd_other. intros ->. cbn in Hn. inversion Hn; subst. contradiction.
Qed.

Lemma seg_cell : forall a h p i v b n, seg h p (a ++ (i, v) :: b) n ->
  h i = Some (mkCell v (lastid a p) (hdid b n) true).
Proof. intros a h p i v b n H. apply seg_app in H as [_ H]. cbn [seg] in H. tauto. Qed.

Lemma in_ids_split : forall i l, In i (ids l) -> exists a v b, l = a ++ (i, v) :: b.
Proof.
  intros i l H. unfold ids in H. apply in_map_iff in H as ([j v] & E & H). cbn in E. subst j.
  apply in_split in H as (a & b & ->). eauto.
Qed.

Lemma nodup_mid : forall a i v b, NoDup (ids (a ++ (i, v) :: b)) ->
  NoDup (ids a) /\ NoDup (ids b) /\ ~ In i (ids a) /\ ~ In i (ids b) /\ NoDup (ids (a ++ b)) /\
  (forall j, In j (ids a) -> ~ In j (ids b)).
Proof.
  intros a i v b H. unfold ids in *. rewrite map_app in *. cbn in *.
  pose proof (NoDup_remove_1 _ _ _ H) as H1. pose proof (NoDup_remove_2 _ _ _ H) as H2.
  rewrite in_app_iff in H2. split.
  { clear -H1. induction (map fst a); [constructor|]. inversion H1; subst. constructor; [rewrite in_app_iff in *; tauto|auto]. }
  split. { clear -H1. induction (map fst a); [exact H1|]. inversion H1; subst. auto. }
  split; [tauto|]. split; [tauto|]. split; [exact H1|].
  clear -H1. induction (map fst a) as [|x m IH]; intros j Hj Hb; [destruct Hj|]. inversion H1; subst.
  destruct Hj as [->|Hj]; [apply H2; apply in_or_app; auto|]. exact (IH H3 j Hj Hb).
Qed.

Lemma drop_id_mid : forall a i v b, NoDup (ids (a ++ (i, v) :: b)) -> drop_id i (a ++ (i, v) :: b) = a ++ b.
Proof.
  intros a i v b H. apply nodup_mid in H as (_ & _ & Ha & Hb & _).
  assert (D : forall l, ~ In i (ids l) -> drop_id i l = l).
  { induction l as [|[j w] l IH]; intro Hn; [reflexivity|]. unfold drop_id in *. cbn in *.
    destruct (Nat.eqb_spec j i); [subst; tauto|]. cbn. rewrite IH by tauto. reflexivity. }
  unfold drop_id in *. rewrite filter_app. cbn [filter fst]. rewrite Nat.eqb_refl. cbn [negb]. rewrite D, D by assumption. reflexivity.
Qed.
Lemma pick_id_mid : forall a i v b, NoDup (ids (a ++ (i, v) :: b)) -> pick_id i (a ++ (i, v) :: b) = [(i, v)].
Proof.
  intros a i v b H. apply nodup_mid in H as (_ & _ & Ha & Hb & _).
  assert (D : forall l, ~ In i (ids l) -> pick_id i l = []).
  { induction l as [|[j w] l IH]; intro Hn; [reflexivity|]. unfold pick_id in *. cbn in *.
    destruct (Nat.eqb_spec j i); [subst; tauto|]. apply IH; tauto. }
  unfold pick_id in *. rewrite filter_app. cbn [filter fst]. rewrite Nat.eqb_refl. rewrite D, D by assumption. reflexivity.
Qed.

Lemma zlen_mid : forall {A} (a b : list A) x, zlen (a ++ x :: b) = zlen a + zlen b + 1.
Proof. intros. rewrite zlen_app, zlen_cons. lia. Qed.

(** remove_element *)
Lemma rep_remove : forall d a i v b, rep d (a ++ (i, v) :: b) ->
  exists d', dll_remove_element d i = Ok d' /\ rep d' (a ++ b) /\ d_fresh d' = d_fresh d /\
    d_heap d' i = Some (mkCell v (lastid a None) (hdid b None) false).
Proof.
  intros d a i v b [Hn Hs Hh Ht Hl Hf]. pose proof (seg_cell _ _ _ _ _ _ _ Hs) as Hc.
  unfold dll_remove_element. rewrite Hc. cbn [c_parent negb c_prev c_next].
  pose proof (nodup_mid _ _ _ _ Hn) as (Na & Nb & Ia & Ib & Nab & Dab).
  apply seg_app in Hs as [Sa Sb]. cbn [hdid seg] in Sa, Sb. destruct Sb as [_ Sb].
  set (pa := lastid a None) in *. set (nb := hdid b None) in *.
  assert (E : (match pa with
     | Some p => (hupd (d_heap d) p (with_next nb), d_head d)
     | None => (d_heap d, nb) end) = (upd_opt (d_heap d) pa (with_next nb), match pa with Some _ => d_head d | None => nb end))
    by (destruct pa; reflexivity).
  rewrite E. clear E.
  set (h1 := upd_opt (d_heap d) pa (with_next nb)).
  assert (E : (match nb with
     | Some n => (hupd h1 n (with_prev pa), d_tail d)
     | None => (h1, pa) end) = (upd_opt h1 nb (with_prev pa), match nb with Some _ => d_tail d | None => pa end))
    by (destruct nb; reflexivity).
  rewrite E. clear E. eexists. split; [reflexivity|].
  assert (Hpa : pa <> Some i) by (intro X; apply lastid_none_in in X; contradiction).
  assert (Hnb : nb <> Some i) by (intro X; apply hdid_none_in in X; contradiction).
  split; [|split; [reflexivity|]].
  - constructor; cbn [d_heap d_head d_tail d_len d_fresh].
    + exact Nab.
    + apply seg_app. split.
      * apply (seg_frame _ (upd_opt h1 nb (with_prev pa))); [intros j Hj; apply hupd_other; congruence|].
        apply (seg_frame _ h1).
        { intros j Hj. apply upd_opt_other. intro X. apply hdid_none_in in X. exact (Dab j Hj X). }
        unfold h1, pa. eapply seg_relink_last; [exact Na|exact Sa].
      * apply (seg_frame _ (upd_opt h1 nb (with_prev pa))); [intros j Hj; apply hupd_other; congruence|].
        unfold nb at 1. eapply seg_relink_first; [exact Nb|].
        apply (seg_frame _ (d_heap d)); [|exact Sb].
        intros j Hj. apply upd_opt_other. intro X. apply lastid_none_in in X. exact (Dab j X Hj).
    + rewrite Hh, !hdid_app. cbn [hdid]. destruct a as [|[x w] a]; [reflexivity|].
      cbn [hdid]. subst pa. rewrite (lastid_nonempty _ None (Some x)) by discriminate.
      destruct (lastid ((x, w) :: a) (Some x)) eqn:L; [reflexivity|].
      exfalso. clear -L. cbn in L. revert L. generalize x. induction a as [|[y u] a IH]; intros z; cbn; [discriminate|apply IH].
    + rewrite Ht, !lastid_app. cbn [lastid]. destruct b as [|[y w] b]; [reflexivity|]. reflexivity.
    + rewrite Hl, zlen_mid, zlen_app. lia.
    + intros j Hj. apply Hf. unfold ids in *. rewrite map_app in *. cbn. rewrite in_app_iff in *. cbn. tauto.
  - cbn [d_heap]. unfold hupd at 1. rewrite Nat.eqb_refl. rewrite upd_opt_other by assumption.
    unfold h1. rewrite upd_opt_other by assumption. rewrite Hc. reflexivity.
Qed.

(** linking a prepared, detached cell *)
Lemma rep_link_first : forall d l i v, rep d l -> ~ In i (ids l) -> (i < d_fresh d)%nat ->
  d_heap d i = Some (mkCell v None None true) -> rep (link_first d i) ((i, v) :: l).
Proof.
  intros d l i v [Hn Hs Hh Ht Hl Hf] Hi Hif Hc. unfold link_first. rewrite Hh. destruct l as [|[x w] l]; cbn [hdid].
  - constructor; cbn; auto.
    + constructor; [auto|constructor].
    + intros j [->|[]]; exact Hif.
  - assert (Hx : x <> i) by (intros ->; apply Hi; left; reflexivity).
    constructor; cbn [d_heap d_head d_tail d_len d_fresh].
    + cbn. constructor; assumption.
    + apply seg_cons. split.
      * erewrite hupd_same; [|rewrite hupd_other by congruence; exact Hc]. reflexivity.
      * apply (seg_frame _ (hupd (d_heap d) x (with_prev (Some i)))).
        { intros j Hj. apply hupd_other. intros ->. contradiction. }
        exact (seg_relink_first ((x, w) :: l) (d_heap d) None (Some i) None Hn Hs).
    + reflexivity.
    + rewrite Ht. reflexivity.
    + rewrite Hl, (zlen_cons (i, v)). lia.
    + intros j [<-|Hj]; [exact Hif|apply Hf; exact Hj].
Qed.

Lemma nodup_snoc : forall (m : list nat) i, NoDup m -> ~ In i m -> NoDup (m ++ [i]).
Proof.
  induction m as [|y m IH]; intros i N H; cbn; [constructor; [auto|constructor]|].
  inversion N; subst. constructor; [rewrite in_app_iff; cbn in *; intros [?|[?|[]]]; subst; tauto|apply IH; cbn in *; tauto].
Qed.

Lemma lastid_cons_some : forall l x p, exists y, lastid l (Some x) = Some y /\ lastid ((x, p) :: l) None = Some y.
Proof.
  intros l x p. cbn. revert x. induction l as [|[j w] l IH]; intro x; cbn; [eauto|]. apply (IH j).
Qed.

Lemma rep_link_last : forall d l i v, rep d l -> ~ In i (ids l) -> (i < d_fresh d)%nat ->
  d_heap d i = Some (mkCell v None None true) -> rep (link_last d i) (l ++ [(i, v)]).
Proof.
  intros d l i v [Hn Hs Hh Ht Hl Hf] Hi Hif Hc. unfold link_last. destruct l as [|[x w] l].
  - cbn [lastid] in Ht. rewrite Ht. constructor; cbn; auto.
    + constructor; [auto|constructor].
    + intros j [->|[]]; exact Hif.
  - destruct (lastid_cons_some l x w) as (t & Lt & Lt'). rewrite Ht, Lt'.
    assert (Hti : In t (ids ((x, w) :: l))) by (apply lastid_none_in; exact Lt').
    assert (Htn : t <> i) by (intros ->; contradiction).
    pose proof (seg_relink_last ((x, w) :: l) (d_heap d) None None (Some i) Hn Hs) as S. rewrite Lt' in S. cbn [upd_opt] in S.
    constructor; cbn [d_heap d_head d_tail d_len d_fresh].
    + unfold ids in *. rewrite map_app. apply nodup_snoc; assumption.
    + apply seg_app. split.
      * cbn [hdid]. eapply seg_frame; [|exact S]. intros j Hj. apply hupd_other. intros ->. contradiction.
      * rewrite Lt'. cbn [seg hdid]. split; [|trivial].
        erewrite hupd_same; [|rewrite hupd_other by congruence; exact Hc]. reflexivity.
    + rewrite Hh. reflexivity.
    + rewrite lastid_app. reflexivity.
    + rewrite Hl, zlen_app, (zlen_cons (i, v)), zlen_nil. lia.
    + intros j Hj. unfold ids in Hj. rewrite map_app in Hj. apply in_app_or in Hj as [Hj|[<-|[]]]; [apply Hf; exact Hj|exact Hif].
Qed.

(** a heap change outside the list *)
Lemma rep_outside : forall d l h f, rep d l -> (forall i, In i (ids l) -> h i = d_heap d i) -> (d_fresh d <= f)%nat ->
  rep (mkDll h f (d_head d) (d_tail d) (d_len d)) l.
Proof.
  intros d l h f [Hn Hs Hh Ht Hl Hf] H1 H2. constructor; cbn; auto.
  - eapply seg_frame; [|exact Hs]. exact H1.
  - intros i Hi. specialize (Hf i Hi). lia.
Qed.

Lemma fresh_not_in : forall d l, rep d l -> ~ In (d_fresh d) (ids l).
Proof. intros d l [_ _ _ _ _ Hf] H. specialize (Hf _ H). lia. Qed.

Lemma rep_new_elem : forall d l v, rep d l ->
  rep (snd (new_elem d v)) l /\ d_heap (snd (new_elem d v)) (d_fresh d) = Some (mkCell v None None true).
Proof.
  intros d l v R. unfold new_elem. cbn [snd d_heap]. split; [|rewrite Nat.eqb_refl; reflexivity].
  apply rep_outside; [exact R| |lia]. intros i Hi. destruct (Nat.eqb_spec i (d_fresh d)) as [->|]; [|reflexivity].
  exfalso. exact (fresh_not_in d l R Hi).
Qed.

Lemma rep_prepend : forall d l v, rep d l ->
  rep (snd (dll_prepend d v)) ((d_fresh d, v) :: l) /\ fst (dll_prepend d v) = d_fresh d /\
  d_fresh (snd (dll_prepend d v)) = S (d_fresh d).
Proof.
  intros d l v R. unfold dll_prepend. destruct (new_elem d v) as [i d1] eqn:E. cbn [fst snd].
  assert (i = d_fresh d /\ d_fresh d1 = S (d_fresh d)) as [-> F] by (injection E as <- <-; auto).
  destruct (rep_new_elem d l v R) as [R1 C1]. rewrite E in R1, C1. cbn [snd] in *.
  split; [apply rep_link_first; [exact R1|exact (fresh_not_in d l R)|lia|exact C1]|].
  split; [reflexivity|]. unfold link_first. destruct (d_head d1); exact F.
Qed.
Lemma rep_append : forall d l v, rep d l ->
  rep (snd (dll_append d v)) (l ++ [(d_fresh d, v)]) /\ fst (dll_append d v) = d_fresh d /\
  d_fresh (snd (dll_append d v)) = S (d_fresh d).
Proof.
  intros d l v R. unfold dll_append. destruct (new_elem d v) as [i d1] eqn:E. cbn [fst snd].
  assert (i = d_fresh d /\ d_fresh d1 = S (d_fresh d)) as [-> F] by (injection E as <- <-; auto).
  destruct (rep_new_elem d l v R) as [R1 C1]. rewrite E in R1, C1. cbn [snd] in *.
  split; [apply rep_link_last; [exact R1|exact (fresh_not_in d l R)|lia|exact C1]|].
  split; [reflexivity|]. unfold link_last. destruct (d_tail d1); exact F.
Qed.

Lemma rep_reset : forall d l i c, rep d l -> ~ In i (ids l) -> d_heap d i = Some c ->
  rep (reset_elem d i) l /\ d_heap (reset_elem d i) i = Some (mkCell (c_val c) None None true) /\
  d_fresh (reset_elem d i) = d_fresh d.
Proof.
  intros d l i c R Hi Hc. unfold reset_elem. split; [|split; [|reflexivity]].
  - apply rep_outside; [exact R| |lia]. intros j Hj. apply hupd_other. intros ->. contradiction.
  - cbn [d_heap]. rewrite (hupd_same _ _ _ _ Hc). reflexivity.
Qed.

Lemma rep_move_front : forall d a i v b, rep d (a ++ (i, v) :: b) ->
  exists d1, dll_remove_element d i = Ok d1 /\ rep (dll_prepend_elem d1 i) ((i, v) :: a ++ b) /\
    d_fresh (dll_prepend_elem d1 i) = d_fresh d.
Proof.
  intros d a i v b R. destruct (rep_remove d a i v b R) as (d1 & E & R1 & F & C). exists d1. split; [exact E|].
  pose proof (nodup_mid _ _ _ _ (r_nodup _ _ R)) as (_ & _ & Ia & Ib & _).
  assert (Hi : ~ In i (ids (a ++ b))) by (unfold ids in *; rewrite map_app, in_app_iff; tauto).
  destruct (rep_reset d1 (a ++ b) i _ R1 Hi C) as (R2 & C2 & F2).
  unfold dll_prepend_elem. split.
  - apply rep_link_first; [exact R2|exact Hi| |exact C2]. rewrite F2, F. apply (r_fresh _ _ R).
    unfold ids. rewrite map_app. apply in_elt.
  - unfold link_first. destruct (d_head _); rewrite ?F2; cbn; exact F.
Qed.
Lemma rep_move_back : forall d a i v b, rep d (a ++ (i, v) :: b) ->
  exists d1, dll_remove_element d i = Ok d1 /\ rep (dll_append_elem d1 i) ((a ++ b) ++ [(i, v)]) /\
    d_fresh (dll_append_elem d1 i) = d_fresh d.
Proof.
  intros d a i v b R. destruct (rep_remove d a i v b R) as (d1 & E & R1 & F & C). exists d1. split; [exact E|].
  pose proof (nodup_mid _ _ _ _ (r_nodup _ _ R)) as (_ & _ & Ia & Ib & _).
  assert (Hi : ~ In i (ids (a ++ b))) by (unfold ids in *; rewrite map_app, in_app_iff; tauto).
  destruct (rep_reset d1 (a ++ b) i _ R1 Hi C) as (R2 & C2 & F2).
  unfold dll_append_elem. split.
  - apply rep_link_last; [exact R2|exact Hi| |exact C2]. rewrite F2, F. apply (r_fresh _ _ R).
    unfold ids. rewrite map_app. apply in_elt.
  - unfold link_last. destruct (d_tail _); rewrite ?F2; cbn; exact F.
Qed.

Lemma rep_clear : forall d l, rep d l -> rep (dll_clear d) [].
Proof. intros d l R. constructor; cbn; auto; [constructor|intros i []]. Qed.

Lemma rep_remove_last : forall d a i v, rep d (a ++ [(i, v)]) ->
  exists d', dll_remove_last d = Ok d' /\ rep d' a /\ d_fresh d' = d_fresh d.
Proof.
  intros d a i v R. pose proof R as [Hn Hs Hh Ht Hl Hf]. unfold dll_remove_last.
  rewrite Ht, lastid_app. cbn [lastid]. rewrite (seg_cell _ _ _ _ _ _ _ Hs). cbn [c_prev].
  pose proof (nodup_mid _ _ _ _ Hn) as (Na & _ & Ia & _ & _ & _).
  apply seg_app in Hs as [Sa _]. cbn [hdid] in Sa.
  rewrite zlen_app, (zlen_cons (i, v)), zlen_nil in Hl.
  assert (Hf' : forall j, In j (ids a) -> (j < d_fresh d)%nat).
  { intros j Hj. apply Hf. unfold ids. rewrite map_app. apply in_or_app. auto. }
  pose proof (seg_relink_last a (d_heap d) None (Some i) None Na Sa) as S.
  rewrite hdid_app in Hh. cbn [hdid] in Hh.
  destruct (lastid a None) as [p|] eqn:L; eexists; (split; [reflexivity|]); (split; [|reflexivity]); constructor; cbn; auto; try lia.
  - rewrite Hh. destruct a as [|[x w] a]; [discriminate|reflexivity].
  - destruct a as [|[x w] a]; [reflexivity|]. destruct (lastid_cons_some a x w) as (y & _ & Ly). congruence.
Qed.

Lemma rep_remove_first : forall d i v b, rep d ((i, v) :: b) ->
  exists d', dll_remove_first d = Ok d' /\ rep d' b /\ d_fresh d' = d_fresh d.
Proof.
  intros d i v b R. pose proof R as [Hn Hs Hh Ht Hl Hf]. unfold dll_remove_first.
  rewrite Hh. cbn [hdid]. pose proof (seg_cell [] _ _ _ _ _ _ Hs) as Hc. rewrite Hc. cbn [c_next].
  cbn [seg] in Hs. destruct Hs as [_ Hs]. cbn in Hn. inversion Hn as [|? ? Hni Hnb]; subst.
  rewrite (zlen_cons (i, v)) in Hl.
  assert (Hf' : forall j, In j (ids b) -> (j < d_fresh d)%nat) by (intros j Hj; apply Hf; right; exact Hj).
  pose proof (seg_relink_first b (d_heap d) (Some i) None None Hnb Hs) as S.
  cbn [lastid] in Ht.
  destruct b as [|[y w] b]; cbn [hdid] in *; eexists; (split; [reflexivity|]); (split; [|reflexivity]); constructor; cbn [d_heap d_head d_tail d_len d_fresh hdid]; auto; try lia.
Qed.

Lemma rep_set_value : forall d a i v w b, rep d (a ++ (i, v) :: b) -> rep (dll_set_value d i w) (a ++ (i, w) :: b).
Proof.
  intros d a i v w b [Hn Hs Hh Ht Hl Hf]. pose proof (nodup_mid _ _ _ _ Hn) as (_ & _ & Ia & Ib & _ & _).
  assert (E : ids (a ++ (i, w) :: b) = ids (a ++ (i, v) :: b)) by (unfold ids; rewrite !map_app; reflexivity).
  unfold dll_set_value. constructor; cbn [d_heap d_head d_tail d_len d_fresh].
  - rewrite E. exact Hn.
  - apply seg_app in Hs as [Sa Sb]. cbn [seg] in Sb. destruct Sb as [Hc Sb]. apply seg_app. split.
    + cbn [hdid] in *. eapply seg_frame; [|exact Sa]. intros j Hj. apply hupd_other. intros ->. contradiction.
    + cbn [seg]. split; [rewrite (hupd_same _ _ _ _ Hc); reflexivity|].
      eapply seg_frame; [|exact Sb]. intros j Hj. apply hupd_other. intros ->. contradiction.
  - rewrite Hh, !hdid_app. reflexivity.
  - rewrite Ht, !lastid_app. reflexivity.
  - rewrite Hl, !zlen_mid. reflexivity.
  - rewrite E. exact Hf.
Qed.

Lemma rep_swap_head : forall d i v b, rep d ((i, v) :: b) -> dll_swap_forward d i = d.
Proof.
  intros d i v b R. pose proof (seg_cell [] _ _ _ _ _ _ (r_seg _ _ R)) as Hc. unfold dll_swap_forward. rewrite Hc. reflexivity.
Qed.

Lemma rep_swap : forall d a q u i v b, rep d (a ++ (q, u) :: (i, v) :: b) ->
  rep (dll_swap_forward d i) (a ++ (i, v) :: (q, u) :: b) /\ d_fresh (dll_swap_forward d i) = d_fresh d.
Proof.
  intros d a q u i v b [Hn Hs Hh Ht Hl Hf].
  pose proof (nodup_mid a q u ((i, v) :: b) Hn) as (Na & Nib & Qa & Qib & _ & Dab).
  cbn [ids map fst] in Nib, Qib, Dab. inversion Nib as [|? ? Ib Nb]; subst. fold (ids b) in *.
  assert (Hqi : q <> i) by (intros ->; apply Qib; left; reflexivity).
  assert (Qb : ~ In q (ids b)) by (intro X; apply Qib; right; exact X).
  assert (Ia : ~ In i (ids a)) by (intro X; apply (Dab i X); left; reflexivity).
  assert (Dab' : forall j, In j (ids a) -> ~ In j (ids b)) by (intros j Hj X; apply (Dab j Hj); right; exact X).
  pose proof (seg_cell a _ _ q u ((i, v) :: b) _ Hs) as Cq.
  pose proof Hs as Hs'. change (a ++ (q, u) :: (i, v) :: b) with (a ++ [(q, u)] ++ (i, v) :: b) in Hs'.
  rewrite app_assoc in Hs'. pose proof (seg_cell _ _ _ i v b _ Hs') as Ci. clear Hs'.
  rewrite lastid_app in Ci. cbn [lastid hdid] in Ci, Cq.
  apply seg_app in Hs as [Sa Sb]. cbn [seg hdid] in Sa, Sb. destruct Sb as (_ & _ & Sb).
  unfold dll_swap_forward. rewrite Ci. cbn [c_prev c_next]. rewrite Cq. cbn [c_prev c_next].
  set (pa := lastid a None) in *. set (nb := hdid b None) in *.
  assert (Hpa : forall j, pa = Some j -> In j (ids a)) by (intros j X; apply lastid_none_in; exact X).
  assert (Hnb : forall j, nb = Some j -> In j (ids b)) by (intros j X; apply hdid_none_in; exact X).
  set (h1 := hupd (d_heap d) i (with_prev pa)). set (h2 := hupd h1 q (with_next nb)).
  change (match nb with Some n => hupd h2 n (with_prev (Some q)) | None => h2 end) with (upd_opt h2 nb (with_prev (Some q))).
  set (h3 := upd_opt h2 nb (with_prev (Some q))). set (h4 := hupd h3 i (with_next (Some q))).
  change (match pa with Some p => hupd h4 p (with_next (Some i)) | None => h4 end) with (upd_opt h4 pa (with_next (Some i))).
  set (h5 := upd_opt h4 pa (with_next (Some i))). set (h6 := hupd h5 q (with_prev (Some i))).
  assert (Npi : pa <> Some i) by (intro X; apply Ia, Hpa; exact X).
  assert (Npq : pa <> Some q) by (intro X; apply Qa, Hpa; exact X).
  assert (Nni : nb <> Some i) by (intro X; apply Ib, Hnb; exact X).
  assert (Nnq : nb <> Some q) by (intro X; apply Qb, Hnb; exact X).
  split; [|reflexivity]. constructor; cbn [d_heap d_head d_tail d_len d_fresh].
  - unfold ids in *. rewrite map_app in *. cbn in *. clear -Hn.
    eapply Permutation_NoDup; [|exact Hn]. apply Permutation_app_head. constructor.
  - apply seg_app. cbn [seg hdid]. split; [|split; [|split]].
    + (* a, now followed by i *)
      apply (seg_frame _ h5). { intros j Hj. apply hupd_other. intros ->. contradiction. }
      unfold h5, pa. eapply seg_relink_last; [exact Na|].
      apply (seg_frame _ (d_heap d)); [|exact Sa]. intros j Hj.
      unfold h4. rewrite hupd_other by (intros ->; contradiction).
      unfold h3. rewrite upd_opt_other by (intro X; apply Hnb in X; exact (Dab' j Hj X)).
      unfold h2. rewrite hupd_other by (intros ->; contradiction).
      unfold h1. apply hupd_other. intros ->; contradiction.
    + fold pa. unfold h6. rewrite hupd_other by congruence. unfold h5. rewrite upd_opt_other by assumption.
      assert (h3 i = Some (mkCell v pa nb true)).
      { unfold h3. rewrite upd_opt_other by assumption. unfold h2. rewrite hupd_other by congruence.
        unfold h1. rewrite (hupd_same _ _ _ _ Ci). reflexivity. }
      unfold h4. rewrite (hupd_same _ _ _ _ H). reflexivity.
    + assert (h5 q = Some (mkCell u pa nb true)).
      { unfold h5. rewrite upd_opt_other by assumption. unfold h4. rewrite hupd_other by congruence.
        unfold h3. rewrite upd_opt_other by assumption. unfold h2.
        assert (h1 q = Some (mkCell u pa (Some i) true)) by (unfold h1; rewrite hupd_other by congruence; exact Cq).
        rewrite (hupd_same _ _ _ _ H). reflexivity. }
      unfold h6. rewrite (hupd_same _ _ _ _ H). reflexivity.
    + apply (seg_frame _ h3).
      { intros j Hj. unfold h6. rewrite hupd_other by (intros ->; contradiction).
        unfold h5. rewrite upd_opt_other by (intro X; apply Hpa in X; exact (Dab' j X Hj)).
        unfold h4. apply hupd_other. intros ->; contradiction. }
      unfold h3, nb. eapply seg_relink_first; [exact Nb|].
      apply (seg_frame _ (d_heap d)); [|exact Sb]. intros j Hj.
      unfold h2. rewrite hupd_other by (intros ->; contradiction). unfold h1. apply hupd_other. intros ->; contradiction.
  - rewrite Hh, !hdid_app. cbn [hdid]. unfold pa. destruct a as [|[x w] a]; [reflexivity|].
    destruct (lastid_cons_some a x w) as (y & _ & Ly). rewrite Ly. reflexivity.
  - rewrite Ht, !lastid_app. cbn [lastid]. unfold nb. destruct b as [|[y w] b]; reflexivity.
  - rewrite Hl, !zlen_app. reflexivity.
  - intros j Hj. apply Hf. unfold ids in *. rewrite map_app in *. cbn in *. rewrite in_app_iff in *. cbn in *. tauto.
Qed.

(** traversals *)
Lemma iter_from_seg : forall l h p fuel, seg h p l None -> (length l <= fuel)%nat ->
  iter_from fuel h (hdid l None) = Ok (map snd l).
Proof.
  induction l as [|[i v] l IH]; intros h p fuel S L.
  - destruct fuel; reflexivity.
  - cbn [length] in L. destruct fuel as [|fuel]; [lia|]. cbn [seg] in S. destruct S as [C S].
    cbn [hdid iter_from]. rewrite C. cbn [c_next c_val]. rewrite (IH h (Some i) fuel S) by lia. reflexivity.
Qed.
Lemma iter_back_seg : forall l h n fuel, seg h None l n -> (length l <= fuel)%nat ->
  iter_back fuel h (lastid l None) = Ok (rev (map snd l)).
Proof.
  intros l. pattern l. apply rev_ind; clear l.
  - intros h n [|fuel] _ _; reflexivity.
  - intros [i v] l IH h n fuel S L. rewrite app_length in L. cbn in L. destruct fuel as [|fuel]; [lia|].
    rewrite lastid_app. cbn [lastid iter_back]. rewrite (seg_cell _ _ _ _ _ _ _ S). cbn [c_prev c_val].
    apply seg_app in S as [S _]. rewrite (IH h _ fuel S) by lia. cbn [bind].
    rewrite map_app, rev_app_distr. reflexivity.
Qed.

Lemma ids_bounded : forall (m : list nat) f, NoDup m -> (forall i, In i m -> (i < f)%nat) -> (length m <= f)%nat.
Proof.
  intros m f N B. rewrite <- (seq_length f 0). apply NoDup_incl_length; [exact N|].
  intros i Hi. apply in_seq. specialize (B i Hi). lia.
Qed.
Lemma rep_len_fresh : forall d l, rep d l -> (length l <= d_fresh d)%nat.
Proof.
  intros d l R. rewrite <- (map_length fst l). apply ids_bounded; [exact (r_nodup _ _ R)|exact (r_fresh _ _ R)].
Qed.

Lemma rep_to_list : forall d l, rep d l -> dll_to_list d = Ok (map snd l) /\ dll_to_list_back d = Ok (rev (map snd l)) /\
  d_len d = zlen (map snd l).
Proof.
  intros d l R. pose proof (rep_len_fresh d l R) as L. destruct R as [Hn Hs Hh Ht Hl Hf].
  unfold dll_to_list, dll_to_list_back. rewrite Hh, Ht. split; [eapply iter_from_seg; eassumption|].
  split; [eapply iter_back_seg; eassumption|]. unfold zlen in *. rewrite map_length. exact Hl.
Qed.

Lemma map_set_mid : forall a i v w b, NoDup (ids (a ++ (i, v) :: b)) ->
  map (fun x => if Nat.eqb (fst x) i then (i, w) else x) (a ++ (i, v) :: b) = a ++ (i, w) :: b.
Proof.
  intros a i v w b H. apply nodup_mid in H as (_ & _ & Ha & Hb & _).
  assert (D : forall l, ~ In i (ids l) -> map (fun x : nat * V => if Nat.eqb (fst x) i then (i, w) else x) l = l).
  { induction l as [|[j z] l IH]; intro Hn; [reflexivity|]. cbn in *. destruct (Nat.eqb_spec j i); [subst; tauto|]. rewrite IH by tauto. reflexivity. }
  rewrite map_app. cbn [map fst]. rewrite Nat.eqb_refl, D, D by assumption. reflexivity.
Qed.

Lemma swap_id_cons2 : forall i x y r,
  swap_id i (x :: y :: r) = if Nat.eqb (fst y) i then y :: x :: r else x :: swap_id i (y :: r).
Proof. reflexivity. Qed.
Lemma swap_id_mid : forall a q u i v b, NoDup (ids (a ++ (q, u) :: (i, v) :: b)) ->
  swap_id i (a ++ (q, u) :: (i, v) :: b) = a ++ (i, v) :: (q, u) :: b.
Proof.
  induction a as [|[x w] a IH]; intros q u i v b H.
  - cbn. rewrite Nat.eqb_refl. reflexivity.
  - cbn [app]. cbn in H. inversion H as [|? ? Hx Hn]; subst. specialize (IH q u i v b Hn).
    destruct a as [|[y z] a].
    + cbn [app] in *. rewrite swap_id_cons2. cbn [fst]. destruct (Nat.eqb_spec q i) as [->|].
      { exfalso. cbn in Hn. inversion Hn; subst. apply H2. left; reflexivity. }
      rewrite IH. reflexivity.
    + cbn [app] in *. rewrite swap_id_cons2. cbn [fst]. destruct (Nat.eqb_spec y i) as [->|].
      { exfalso. cbn in Hn. inversion Hn; subst. apply H2. rewrite map_app, in_app_iff. cbn. auto. }
      rewrite IH. reflexivity.
Qed.
Lemma swap_id_head : forall i v b, NoDup (ids ((i, v) :: b)) -> swap_id i ((i, v) :: b) = (i, v) :: b.
Proof.
  intros i v b H. cbn in H. inversion H as [|? ? Hi Hn]; subst.
  assert (D : forall l, ~ In i (ids l) -> swap_id i l = l).
  { induction l as [|[j z] [|[k w] l] IH]; intro Hx; try reflexivity. rewrite swap_id_cons2. cbn [fst].
    cbn in Hx. destruct (Nat.eqb_spec k i); [subst; tauto|]. rewrite IH; [reflexivity|cbn; tauto]. }
  destruct b as [|[k w] b]; [reflexivity|]. rewrite swap_id_cons2. cbn [fst]. cbn in Hi.
  destruct (Nat.eqb_spec k i); [subst; tauto|]. rewrite D; [reflexivity|cbn; tauto].
Qed.

(** one step *)
Lemma dstep_refines : forall d l op, rep d l -> applicable l op ->
  exists d', dstep d op = Ok d' /\ rep d' (lstep (d_fresh d) l op).
Proof.
  intros d l op R A. destruct op as [v|v|i|i|i| | |i|i v|]; cbn [dstep lstep applicable] in *.
  - eexists. split; [reflexivity|]. apply rep_append. exact R.
  - eexists. split; [reflexivity|]. apply rep_prepend. exact R.
  - destruct (in_ids_split i l A) as (a & v & b & ->). destruct (rep_move_front d a i v b R) as (d1 & E & R1 & _).
    rewrite E. cbn [bind]. eexists. split; [reflexivity|].
    rewrite pick_id_mid, drop_id_mid by exact (r_nodup _ _ R). exact R1.
  - destruct (in_ids_split i l A) as (a & v & b & ->). destruct (rep_move_back d a i v b R) as (d1 & E & R1 & _).
    rewrite E. cbn [bind]. eexists. split; [reflexivity|].
    rewrite pick_id_mid, drop_id_mid by exact (r_nodup _ _ R). exact R1.
  - destruct (in_ids_split i l A) as (a & v & b & ->). destruct (rep_remove d a i v b R) as (d1 & E & R1 & _).
    exists d1. split; [exact E|]. rewrite drop_id_mid by exact (r_nodup _ _ R). exact R1.
  - destruct (exists_last A) as (a & [i v] & ->). destruct (rep_remove_last d a i v R) as (d1 & E & R1 & _).
    exists d1. split; [exact E|]. rewrite removelast_last. exact R1.
  - destruct l as [|[i v] b]; [congruence|]. destruct (rep_remove_first d i v b R) as (d1 & E & R1 & _).
    exists d1. split; [exact E|exact R1].
  - eexists. split; [reflexivity|]. destruct (in_ids_split i l A) as (a & v & b & ->).
    destruct a as [|x a].
    + rewrite (rep_swap_head d i v b R). cbn [app]. rewrite swap_id_head by exact (r_nodup _ _ R). exact R.
    + destruct (exists_last (l := x :: a)) as (a' & [q u] & E); [discriminate|]. rewrite E in *. rewrite <- app_assoc in *. cbn [app] in *.
      rewrite swap_id_mid by exact (r_nodup _ _ R). apply rep_swap. exact R.
  - eexists. split; [reflexivity|]. destruct (in_ids_split i l A) as (a & w & b & ->).
    rewrite map_set_mid by exact (r_nodup _ _ R). apply (rep_set_value d a i w). exact R.
  - eexists. split; [reflexivity|]. eapply rep_clear. exact R.
Qed.

Lemma dstep_fresh : forall d op d', dstep d op = Ok d' -> d_fresh d' = match op with DAppend _ | DPrepend _ => S (d_fresh d) | _ => d_fresh d end.
Proof.
  intros d op d' H. destruct op as [v|v|i|i|i| | |i|i v|]; cbn [dstep] in H.
  - injection H as <-. unfold dll_append, new_elem. cbn [snd]. unfold link_last. destruct (d_tail _); reflexivity.
  - injection H as <-. unfold dll_prepend, new_elem. cbn [snd]. unfold link_first. destruct (d_head _); reflexivity.
  - destruct (dll_remove_element d i) as [d1|] eqn:E; [|discriminate]. cbn [bind] in H. injection H as <-.
    assert (d_fresh d1 = d_fresh d).
    { unfold dll_remove_element in E. destruct (d_heap d i) as [c|]; [|discriminate]. destruct (negb _); [discriminate|].
      destruct (c_prev c); destruct (c_next c); injection E as <-; reflexivity. }
    unfold dll_prepend_elem, link_first. destruct (d_head _); exact H.
  - destruct (dll_remove_element d i) as [d1|] eqn:E; [|discriminate]. cbn [bind] in H. injection H as <-.
    assert (d_fresh d1 = d_fresh d).
    { unfold dll_remove_element in E. destruct (d_heap d i) as [c|]; [|discriminate]. destruct (negb _); [discriminate|].
      destruct (c_prev c); destruct (c_next c); injection E as <-; reflexivity. }
    unfold dll_append_elem, link_last. destruct (d_tail _); exact H.
  - unfold dll_remove_element in H. destruct (d_heap d i) as [c|]; [|discriminate]. destruct (negb _); [discriminate|].
    destruct (c_prev c); destruct (c_next c); injection H as <-; reflexivity.
  - unfold dll_remove_last in H. destruct (d_tail d); [|discriminate]. destruct (d_heap d n) as [c|]; [|discriminate].
    destruct (c_prev c); injection H as <-; reflexivity.
  - unfold dll_remove_first in H. destruct (d_head d); [|discriminate]. destruct (d_heap d n) as [c|]; [|discriminate].
    destruct (c_next c); injection H as <-; reflexivity.
  - injection H as <-. unfold dll_swap_forward. destruct (d_heap d i) as [c|]; [|reflexivity].
    destruct (c_prev c) as [q|]; [|reflexivity]. destruct (d_heap d q); reflexivity.
  - injection H as <-. reflexivity.
  - injection H as <-. reflexivity.
Qed.

Lemma drun_refines : forall ops d l, rep d l -> all_applicable (d_fresh d) l ops ->
  exists d' l', drun d ops = Ok d' /\ lrun (d_fresh d) l ops = l' /\ rep d' l'.
Proof.
  induction ops as [|op ops IH]; intros d l R A; cbn [drun lrun all_applicable] in *.
  - exists d, l. auto.
  - destruct A as [A1 A2]. destruct (dstep_refines d l op R A1) as (d1 & E & R1). rewrite E. cbn [bind].
    pose proof (dstep_fresh d op d1 E) as F. rewrite <- F in *. exact (IH d1 _ R1 A2).
Qed.

Lemma rep_new : rep dll_new [].
Proof. constructor; cbn; auto; [constructor|intros i []]. Qed.
End Proofs.
