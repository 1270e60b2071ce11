(** Proofs about the space allocator. *)
From Coq Require Import List ZArith Bool Sorted Lia.
From Coq Require Import ZifyBool ZifyNat ZifyN.
From Verif Require Import Base BaseProofs SpaceAllocator SpaceAllocatorSpec.
Import ListNotations.
Open Scope Z_scope.

(** *** list operations *)
Lemma list_set_split : forall {A} (l : list A) i x y, nth_error l i = Some y ->
  exists a b, l = a ++ y :: b /\ length a = i /\ list_set l i x = a ++ x :: b.
Proof.
  induction l as [|z l IH]; intros [|i] x y H; cbn in H; try discriminate.
  - injection H as ->. exists [], l. auto.
  - destruct (IH i x y H) as (a & b & -> & Hl & Hs). exists (z :: a), b.
    cbn. rewrite Hl, Hs. auto.
Qed.

Lemma list_pop_split : forall {A} (l : list A) i y, nth_error l i = Some y ->
  exists a b, l = a ++ y :: b /\ length a = i /\ list_pop l i = a ++ b.
Proof.
  induction l as [|z l IH]; intros [|i] y H; cbn in H; try discriminate.
  - injection H as ->. exists [], l. auto.
  - destruct (IH i y H) as (a & b & -> & Hl & Hs). exists (z :: a), b.
    cbn. rewrite Hl, Hs. auto.
Qed.


(** *** the best fit scan *)
Definition best_spec (size : Z) (all : list (Z * Z)) (r : option (nat * Z)) : Prop :=
  match r with
  | None => forall b, In b all -> snd b < size
  | Some (i, m) => exists st, nth_error all i = Some (st, m) /\ size <= m /\
      (forall j b, nth_error all j = Some b -> size <= snd b -> m <= snd b) /\
      (forall j b, (j < i)%nat -> nth_error all j = Some b -> size <= snd b -> m < snd b)
  end.

Lemma find_best_gen : forall size rest done best,
  best_spec size done best ->
  best_spec size (done ++ rest) (find_best rest (length done) size best).
Proof.
  intros size. induction rest as [|[st len] rest IH]; intros done best H.
  - rewrite app_nil_r. exact H.
  - cbn [find_best]. replace (done ++ (st, len) :: rest) with ((done ++ [(st, len)]) ++ rest)
      by (rewrite <- app_assoc; reflexivity).
    replace (S (length done)) with (length (done ++ [(st, len)])) by (rewrite app_length; cbn; lia).
    apply IH. clear IH rest.
    assert (Hin : forall j b, nth_error (done ++ [(st, len)]) j = Some b ->
              nth_error done j = Some b \/ (j = length done /\ b = (st, len))).
    { intros j b Hj. destruct (Nat.lt_ge_cases j (length done)) as [L|L].
      - rewrite nth_error_app1 in Hj by lia. auto.
      - rewrite nth_error_app2 in Hj by lia. destruct (j - length done)%nat as [|k] eqn:E.
        + cbn in Hj. injection Hj as <-. right. split; [lia|reflexivity].
        + destruct k; discriminate. }
    destruct (size <=? len) eqn:E1; cbn [andb].
    + destruct best as [[i m]|].
      * destruct H as (st0 & Hn & Hs & Hm & Hf).
        assert (Hi : (i < length done)%nat) by (apply nth_error_Some; congruence).
        destruct (len <? m) eqn:E2.
        -- exists st. split; [rewrite nth_error_app2, Nat.sub_diag by lia; reflexivity|].
           split; [lia|]. split.
           ++ intros j b Hj Hb. apply Hin in Hj as [Hj|[-> ->]]; [|cbn; lia].
              specialize (Hm _ _ Hj Hb). lia.
           ++ intros j b Hji Hj Hb. apply Hin in Hj as [Hj|[-> ->]]; [|lia].
              specialize (Hm _ _ Hj Hb). lia.
        -- exists st0. split; [rewrite nth_error_app1 by lia; exact Hn|]. split; [lia|]. split.
           ++ intros j b Hj Hb. apply Hin in Hj as [Hj|[-> ->]]; [|cbn; lia]. eauto.
           ++ intros j b Hji Hj Hb. apply Hin in Hj as [Hj|[-> ->]]; [|lia]. eauto.
      * cbn in H. exists st. split; [rewrite nth_error_app2, Nat.sub_diag by lia; reflexivity|].
        split; [lia|]. split.
        -- intros j b Hj Hb. apply Hin in Hj as [Hj|[-> ->]]; [|cbn; lia].
           apply nth_error_In, H in Hj. lia.
        -- intros j b Hji Hj Hb. apply Hin in Hj as [Hj|[-> ->]]; [|lia].
           apply nth_error_In, H in Hj. lia.
    + destruct best as [[i m]|].
      * destruct H as (st0 & Hn & Hs & Hm & Hf).
        assert (Hi : (i < length done)%nat) by (apply nth_error_Some; congruence).
        exists st0. split; [rewrite nth_error_app1 by lia; exact Hn|]. split; [lia|]. split.
        -- intros j b Hj Hb. apply Hin in Hj as [Hj|[-> ->]]; [|cbn in Hb; lia]. eauto.
        -- intros j b Hji Hj Hb. apply Hin in Hj as [Hj|[-> ->]]; [|lia]. eauto.
      * cbn in H |- *. intros b Hb. apply in_app_or in Hb as [Hb|[<-|[]]]; [auto|cbn; lia].
Qed.

Lemma find_best_correct : forall size blocks,
  best_spec size blocks (find_best blocks 0 size None).
Proof.
  intros. apply (find_best_gen size blocks [] None). cbn. tauto.
Qed.

(** *** sortedness helpers *)
Definition gap (a b : Z * Z) : Prop := fst a + snd a < fst b.

Lemma ssorted_app : forall {A} (R : A -> A -> Prop) l r,
  StronglySorted R (l ++ r) <->
  StronglySorted R l /\ StronglySorted R r /\ (forall x y, In x l -> In y r -> R x y).
Proof.
  intros A R. induction l as [|x l IH]; intros r; cbn.
  - split; [intro H; repeat split; auto; [constructor|tauto]|tauto].
  - split.
    + intro H. inversion H as [|? ? Hs Hf]; subst. apply IH in Hs as (H1 & H2 & H3).
      rewrite Forall_app in Hf. destruct Hf as [Hf1 Hf2]. rewrite Forall_forall in Hf2.
      repeat split; auto; [constructor; auto|]. intros y z [<-|Hy] Hz; auto.
    + intros (H1 & H2 & H3). inversion H1 as [|? ? Hs Hf]; subst. constructor.
      * apply IH. repeat split; auto.
      * apply Forall_app. split; auto. apply Forall_forall. auto.
Qed.

Lemma ssorted_cons : forall {A} (R : A -> A -> Prop) x l,
  StronglySorted R (x :: l) <-> StronglySorted R l /\ Forall (R x) l.
Proof.
  intros. split; [intro H; inversion H; auto|]. intros []. constructor; auto.
Qed.

(** *** allocate *)
Definition in_block (b : Z * Z) (x : Z) : Prop := fst b <= x < fst b + snd b.

Lemma listed_free_app : forall a b e x,
  listed_free (mkAlloc (a ++ b) e) x <-> listed_free (mkAlloc a e) x \/ listed_free (mkAlloc b e) x.
Proof.
  intros. unfold listed_free; cbn [free_blocks]. split.
  - intros (c & Hc & Hx). apply in_app_or in Hc as [Hc|Hc]; eauto.
  - intros [(c & Hc & Hx)|(c & Hc & Hx)]; exists c; split; auto; apply in_or_app; auto.
Qed.

Lemma listed_free_cons : forall b l e x,
  listed_free (mkAlloc (b :: l) e) x <-> in_block b x \/ listed_free (mkAlloc l e) x.
Proof.
  intros. unfold listed_free, in_block; cbn [free_blocks In]. split.
  - intros (c & [<-|Hc] & Hx); eauto.
  - intros [Hx|(c & Hc & Hx)]; eauto.
Qed.

Lemma listed_free_end : forall l e e' x, listed_free (mkAlloc l e) x <-> listed_free (mkAlloc l e') x.
Proof. intros. unfold listed_free; cbn. tauto. Qed.

(** Everything allocate does, in one statement. *)
Lemma allocate_spec : forall s n p s', canonical s -> allocate s n = Ok (p, s') ->
  canonical s' /\ 0 <= n /\
  (0 <= file_end s -> 0 <= p <= file_end s) /\
  file_end s' = Z.max (file_end s) (p + n) /\
  (forall x, p <= x < p + n -> listed_free s x \/ file_end s <= x) /\
  (forall x, listed_free s' x <-> listed_free s x /\ ~ (p <= x < p + n)).
Proof.
  intros [blocks e] n p s' [Hf Hs] H. cbn [free_blocks file_end] in *.
  unfold allocate in H. cbn [free_blocks file_end] in H.
  destruct (n <? 0) eqn:En; [discriminate|].
  destruct (n =? 0) eqn:En0.
  { injection H as <- <-. split; [split; assumption|]. cbn [file_end].
    split; [lia|]. split; [lia|]. split; [lia|]. split; [intros; lia|].
    intro x. split; [intro F; split; [exact F|lia]|tauto]. }
  pose proof (find_best_correct n blocks) as Hb.
  destruct (find_best blocks 0 n None) as [[i m]|].
  - destruct Hb as (st & Hn & Hm & Hmin & Hfirst). rewrite Hn in H.
    destruct (n <? m) eqn:Enm; injection H as <- <-.
    + destruct (list_set_split blocks i (st + n, m - n) _ Hn) as (a & b & -> & Hl & ->).
      apply Forall_app in Hf as [Hfa Hfb]. inversion Hfb as [|? ? Hfx Hfb']; subst. cbn in Hfx.
      apply ssorted_app in Hs as (Hsa & Hsb & Hab). apply ssorted_cons in Hsb as [Hsb Hxb].
      split.
      { split; cbn [free_blocks file_end].
        - apply Forall_app. split; [assumption|]. constructor; [cbn; lia|assumption].
        - apply ssorted_app. split; [assumption|]. split.
          + apply ssorted_cons. split; [assumption|]. eapply Forall_impl; [|exact Hxb].
            intros y Hy. cbn in *. lia.
          + intros x y Hx [<-|Hy]; [|apply Hab; cbn; auto].
            specialize (Hab x (st, m) Hx (or_introl eq_refl)). cbn in *. lia. }
      cbn [file_end]. split; [lia|]. split; [lia|]. split; [lia|]. split.
      * intros x Hx. left. exists (st, m). split; [apply in_elt|cbn; lia].
      * intro x. rewrite !listed_free_app, !listed_free_cons. unfold in_block; cbn [fst snd].
        assert (Na : listed_free (mkAlloc a e) x -> x < st).
        { intros (c & Hc & Hx). specialize (Hab c (st, m) Hc (or_introl eq_refl)). cbn in *. lia. }
        assert (Nb : listed_free (mkAlloc b e) x -> st + m < x).
        { intros (c & Hc & Hx). rewrite Forall_forall in Hxb. specialize (Hxb c Hc). cbn in *. lia. }
        split.
        -- intros [F|[F|F]]; [specialize (Na F)| |specialize (Nb F)]; (split; [tauto||lia|lia]).
        -- intros [[F|[F|F]] N]; [tauto| |tauto]. right. left. lia.
    + destruct (list_pop_split blocks i _ Hn) as (a & b & -> & Hl & ->).
      apply Forall_app in Hf as [Hfa Hfb]. inversion Hfb as [|? ? Hfx Hfb']; subst. cbn in Hfx.
      apply ssorted_app in Hs as (Hsa & Hsb & Hab). apply ssorted_cons in Hsb as [Hsb Hxb].
      split.
      { split; cbn [free_blocks file_end].
        - apply Forall_app. split; assumption.
        - apply ssorted_app. split; [assumption|]. split; [assumption|].
          intros x y Hx Hy. apply Hab; cbn; auto. }
      cbn [file_end]. split; [lia|]. split; [lia|]. split; [lia|]. split.
      * intros x Hx. left. exists (st, m). split; [apply in_elt|cbn; lia].
      * intro x. rewrite !listed_free_app, !listed_free_cons. unfold in_block; cbn [fst snd].
        assert (Na : listed_free (mkAlloc a e) x -> x < st).
        { intros (c & Hc & Hx). specialize (Hab c (st, m) Hc (or_introl eq_refl)). cbn in *. lia. }
        assert (Nb : listed_free (mkAlloc b e) x -> st + m < x).
        { intros (c & Hc & Hx). rewrite Forall_forall in Hxb. specialize (Hxb c Hc). cbn in *. lia. }
        split.
        -- intros [F|F]; [specialize (Na F)|specialize (Nb F)]; (split; [tauto|lia]).
        -- intros [[F|[F|F]] N]; [tauto|lia|tauto].
  - cbn in Hb.
    assert (Happend : forall x, listed_free (mkAlloc blocks e) x -> x < e).
    { intros x (c & Hc & Hx). cbn in Hc. rewrite Forall_forall in Hf. specialize (Hf c Hc). lia. }
    assert (Happ : p = e -> s' = mkAlloc blocks (e + n) ->
      canonical s' /\ 0 <= n /\
      (0 <= e -> 0 <= p <= e) /\
      file_end s' = Z.max e (p + n) /\
      (forall x, p <= x < p + n -> listed_free (mkAlloc blocks e) x \/ e <= x) /\
      (forall x, listed_free s' x <-> listed_free (mkAlloc blocks e) x /\ ~ (p <= x < p + n))).
    { intros -> ->. split.
      { split; cbn; [|assumption]. eapply Forall_impl; [|exact Hf]. intros y Hy. cbn in *. lia. }
      cbn [file_end]. split; [lia|]. split; [lia|]. split; [lia|]. split; [intros; right; lia|].
      intro x. rewrite (listed_free_end blocks (e + n) e). specialize (Happend x). split.
      - intros F. specialize (Happend F). split; [assumption|lia].
      - tauto. }
    destruct (rev blocks) as [|[st len] rr] eqn:Er.
    + injection H as <- <-. apply Happ; reflexivity.
    + destruct (st + len =? e) eqn:Ee.
      2: { injection H as <- <-. apply Happ; reflexivity. }
      clear Happ.
      assert (Hbl : blocks = rev rr ++ [(st, len)]).
      { rewrite <- (rev_involutive blocks), Er. reflexivity. }
      assert (Hlast : nth_error blocks (length blocks - 1) = Some (st, len)).
      { rewrite Hbl, app_length. cbn [length]. rewrite nth_error_app2 by lia.
        replace (length (rev rr) + 1 - 1 - length (rev rr))%nat with 0%nat by lia. reflexivity. }
      destruct (list_pop_split blocks _ _ Hlast) as (a & b & Hab & Hl & Hp).
      assert (b = []).
      { apply (f_equal (@length _)) in Hab. rewrite app_length in Hab. cbn in Hab.
        destruct b; [reflexivity|]. cbn in Hab.
        assert (length blocks <> 0)%nat by (rewrite Hab; lia). lia. }
      subst b. rewrite app_nil_r in Hp. rewrite Hp in H. injection H as <- <-.
      rewrite Hab in *. clear Hlast Hbl Hl Hp.
      assert (Hlen : len < n) by (apply (Hb (st, len)); apply in_elt).
      apply Forall_app in Hf as [Hfa Hfb]. inversion Hfb as [|? ? Hfx Hfb']; subst. cbn in Hfx.
      apply ssorted_app in Hs as (Hsa & Hsb & Hab').
      split.
      { split; cbn [free_blocks file_end]; [|assumption].
        eapply Forall_impl; [|exact Hfa]. intros y Hy. cbn in *. lia. }
      cbn [file_end]. split; [lia|]. split; [lia|]. split; [lia|]. split.
      * intros x Hx. destruct (Z.lt_ge_cases x e) as [L|L]; [left|right; lia].
        exists (st, len). split; [apply in_elt|cbn; lia].
      * intro x. rewrite listed_free_app, listed_free_cons. unfold in_block; cbn [fst snd].
        rewrite (listed_free_end a (e + Z.max (n - len) 0) e).
        assert (Na : listed_free (mkAlloc a e) x -> x < st).
        { intros (c & Hc & Hx). specialize (Hab' c (st, len) Hc (or_introl eq_refl)). cbn in *. lia. }
        assert (Nn : ~ listed_free (mkAlloc [] e) x) by (intros (c & [] & _)).
        split.
        -- intros F. specialize (Na F). split; [tauto|lia].
        -- intros [[F|[F|F]] N]; [tauto|lia|tauto].
Qed.


(** on a list sorted by start the insertion point splits it *)
Lemma find_insert_none : forall start rest i idx,
  Forall (fun b => start < fst b) rest -> find_insert rest i start idx = idx.
Proof.
  intros start. induction rest as [|[bs bl] rest IH]; intros i idx H; cbn; [reflexivity|].
  inversion H; subst. cbn in *. replace (bs <=? start) with false by lia. auto.
Qed.

Lemma find_insert_sorted : forall start blocks i idx,
  StronglySorted (fun a b => fst a < fst b) blocks ->
  exists a b, blocks = a ++ b /\ Forall (fun c => fst c <= start) a /\ Forall (fun c => start < fst c) b /\
    find_insert blocks i start idx = match a with [] => idx | _ => (i + length a)%nat end.
Proof.
  intros start. induction blocks as [|[bs bl] blocks IH]; intros i idx H.
  - exists [], []. repeat split; constructor.
  - apply ssorted_cons in H as [H1 H2]. cbn [find_insert]. destruct (bs <=? start) eqn:E.
    + destruct (IH (S i) (S i) H1) as (a & b & -> & Ha & Hb & ->).
      exists ((bs, bl) :: a), b. repeat split; auto.
      * constructor; [cbn; lia|assumption].
      * cbn [length]. destruct a; cbn; lia.
    + exists [], ((bs, bl) :: blocks). assert (Hall : Forall (fun c => start < fst c) ((bs, bl) :: blocks)).
      { constructor; [cbn; lia|]. eapply Forall_impl; [|exact H2]. intros y Hy; cbn in *; lia. }
      repeat split; auto. apply find_insert_none. inversion Hall; assumption.
Qed.

Lemma mark_insert : forall start len blocks,
  StronglySorted (fun a b => fst a < fst b) blocks ->
  exists a b, blocks = a ++ b /\ Forall (fun c => fst c <= start) a /\ Forall (fun c => start < fst c) b /\
    list_insert blocks (find_insert blocks 0 start 0) (start, len) = a ++ (start, len) :: b.
Proof.
  intros start len blocks H.
  destruct (find_insert_sorted start blocks 0 0 H) as (a & b & -> & Ha & Hb & E).
  exists a, b. repeat split; auto. rewrite E.
  replace (match a with [] => 0%nat | _ :: _ => (0 + length a)%nat end) with (length a) by (destruct a; reflexivity).
  clear. induction a as [|x a IH]; cbn; [destruct b; reflexivity|]. rewrite IH. reflexivity.
Qed.

(** merging: [rest] is sorted by start (weakly), all starts at least [fst prev] *)
Definition start_le (a b : Z * Z) : Prop := fst a <= fst b.

Lemma merge_blocks_spec : forall rest prev e,
  0 <= fst prev -> 0 < snd prev -> fst prev + snd prev <= e ->
  Forall (fun b => 0 <= fst b /\ 0 < snd b /\ fst b + snd b <= e) rest ->
  StronglySorted start_le (prev :: rest) ->
  canonical (mkAlloc (merge_blocks prev rest) e) /\
  Forall (fun b => fst prev <= fst b) (merge_blocks prev rest) /\
  (forall x, listed_free (mkAlloc (merge_blocks prev rest) e) x <-> in_block prev x \/ listed_free (mkAlloc rest e) x).
Proof.
  induction rest as [|[bs bl] rest IH]; intros prev e H0 Hp He Hf Hs; cbn [merge_blocks].
  - split; [|split].
    + split; cbn; [constructor; [lia|constructor]|repeat constructor].
    + constructor; [lia|constructor].
    + intro x. rewrite listed_free_cons. reflexivity.
  - inversion Hf as [|? ? Hb Hf']; subst. cbn [fst snd] in Hb.
    apply ssorted_cons in Hs as [Hs Hle]. inversion Hle as [|? ? Hle1 Hle2]; subst. unfold start_le in Hle1. cbn [fst] in Hle1.
    apply ssorted_cons in Hs as [Hs Hbs].
    destruct (bs <=? fst prev + snd prev) eqn:E.
    + destruct (IH (fst prev, Z.max (fst prev + snd prev) (bs + bl) - fst prev) e) as (C & S & F); cbn [fst snd]; try lia; auto.
      { apply ssorted_cons. split; auto. }
      split; [exact C|]. split; [exact S|]. intro x. rewrite F, listed_free_cons.
      unfold in_block. cbn [fst snd]. split.
      * intros [L|L]; [|tauto]. destruct (Z.lt_ge_cases x (fst prev + snd prev)); [left; lia|right; left; lia].
      * intros [L|[L|L]]; [left; lia|left; lia|tauto].
    + destruct (IH (bs, bl) e) as (C & S & F); cbn [fst snd]; try lia; auto.
      { apply ssorted_cons. split; auto. }
      destruct C as [C1 C2]. cbn [free_blocks file_end] in C1, C2.
      split; [|split].
      * split; cbn [free_blocks file_end].
        -- constructor; [lia|assumption].
        -- apply ssorted_cons. split; [assumption|]. eapply Forall_impl; [|exact S].
           intros y Hy. cbn in Hy. lia.
      * constructor; [lia|]. eapply Forall_impl; [|exact S]. intros y Hy. cbn in Hy. lia.
      * intro x. rewrite !listed_free_cons, F. reflexivity.
Qed.

Lemma canonical_start_lt : forall s, canonical s -> StronglySorted (fun a b => fst a < fst b) (free_blocks s).
Proof.
  intros [blocks e] [Hf Hs]. cbn [free_blocks file_end] in *.
  induction blocks as [|x l IH]; [constructor|]. inversion Hf; subst. apply ssorted_cons in Hs as [Hs Hx].
  constructor; [auto|]. eapply Forall_impl; [|exact Hx]. intros y Hy. cbn in *. lia.
Qed.

Lemma mark_free_spec : forall s start len s', canonical s -> start + len <= file_end s ->
  mark_free s start len = Ok s' ->
  canonical s' /\ 0 <= start /\ 0 <= len /\ file_end s' = file_end s /\
  (forall x, listed_free s' x <-> listed_free s x \/ start <= x < start + len).
Proof.
  intros s start len s' Hc Hin H. pose proof (canonical_start_lt s Hc) as Hlt.
  destruct s as [blocks e]. destruct Hc as [Hf Hs]. cbn [free_blocks file_end] in *.
  unfold mark_free in H. cbn [free_blocks file_end] in H.
  destruct ((start <? 0) || (len <? 0)) eqn:E; [discriminate|].
  destruct (len =? 0) eqn:E0.
  { injection H as <-. split; [split; assumption|]. repeat split; try lia.
    - intro F. tauto.
    - intros [F|F]; [assumption|lia]. }
  injection H as <-. cbn [file_end].
  destruct (mark_insert start len blocks Hlt) as (a & b & -> & Ha & Hb & ->).
  set (l := a ++ (start, len) :: b).
  assert (Hfl : Forall (fun c => 0 <= fst c /\ 0 < snd c /\ fst c + snd c <= e) l).
  { apply Forall_app in Hf as [Hfa Hfb]. unfold l. apply Forall_app. split; [assumption|].
    constructor; [cbn; lia|assumption]. }
  assert (Hsl : StronglySorted start_le l).
  { unfold l. apply ssorted_app in Hlt as (L1 & L2 & L3). apply ssorted_app.
    assert (W : forall m, StronglySorted (fun a b : Z * Z => fst a < fst b) m -> StronglySorted start_le m).
    { clear. induction m as [|x m IH]; intro H; [constructor|]. apply ssorted_cons in H as [H1 H2].
      constructor; [auto|]. eapply Forall_impl; [|exact H2]. intros y Hy. unfold start_le. cbn in *. lia. }
    split; [auto|]. split.
    - apply ssorted_cons. split; [auto|]. eapply Forall_impl; [|exact Hb]. intros y Hy. unfold start_le. cbn in *. lia.
    - rewrite Forall_forall in Ha. intros x y Hx [<-|Hy]; unfold start_le; cbn.
      + apply Ha; assumption.
      + specialize (L3 x y Hx Hy). cbn in L3. lia. }
  assert (Hx : forall x, listed_free (mkAlloc l e) x <-> listed_free (mkAlloc (a ++ b) e) x \/ start <= x < start + len).
  { intro x. unfold l. rewrite !listed_free_app, listed_free_cons. unfold in_block; cbn [fst snd]. tauto. }
  destruct l as [|h t] eqn:El; [destruct a; discriminate El|]. cbn [merge_all].
  inversion Hfl as [|? ? Hh Ht]; subst.
  destruct (merge_blocks_spec t h e) as (C & S & F); try lia; auto.
  split; [exact C|]. split; [lia|]. split; [lia|]. split; [reflexivity|].
  intro x. rewrite F, <- Hx, listed_free_cons. reflexivity.
Qed.



Definition tracks (s : allocator) (live : Z -> Prop) : Prop :=
  canonical s /\ 0 <= file_end s /\
  (forall x, live x <-> (0 <= x < file_end s /\ ~ listed_free s x)).

Lemma listed_free_dec : forall s x, listed_free s x \/ ~ listed_free s x.
Proof.
  intros [blocks e] x. induction blocks as [|b l IH].
  - right. intros (c & [] & _).
  - rewrite listed_free_cons. unfold in_block.
    destruct (Z.le_gt_cases (fst b) x), (Z.lt_ge_cases x (fst b + snd b)); try (left; left; lia);
      (destruct IH as [IH|IH]; [left; right; exact IH|right; intros [F|F]; [lia|tauto]]).
Qed.

Lemma listed_free_bound : forall s x, canonical s -> listed_free s x -> 0 <= x < file_end s.
Proof.
  intros s x [Hf _] (c & Hc & Hx). rewrite Forall_forall in Hf. specialize (Hf c Hc). lia.
Qed.

Lemma executes_tracks : forall s h s', executes s h s' ->
  forall live, tracks s live -> tracks s' (fold_left live_step h live).
Proof.
  intros s h s' H. induction H as [s|s n p s1 h s2 Ha Hx IH|s start len s1 h s2 Hin Hm Hx IH]; intros live T.
  - exact T.
  - cbn. apply IH. destruct T as (C & E & L).
    destruct (allocate_spec _ _ _ _ C Ha) as (C1 & Hn & Hp & He & Hreg & Hfree).
    split; [exact C1|]. split; [lia|]. intro x. cbn. rewrite L, Hfree. specialize (Hreg x).
    destruct (listed_free_dec s x) as [D|D].
    + pose proof (listed_free_bound _ _ C D). split.
      * intros [F|F]; [tauto|]. split; [lia|tauto].
      * intros [F G]. right. destruct (Z.le_gt_cases p x), (Z.lt_ge_cases x (p + n)); try lia; exfalso; apply G; split; auto; lia.
    + split.
      * intros [F|F]; (split; [lia|tauto]).
      * intros [F G]. destruct (Z.lt_ge_cases x (file_end s)); [left; split; [lia|assumption]|right; lia].
  - cbn. apply IH. destruct T as (C & E & L).
    destruct (mark_free_spec _ _ _ _ C Hin Hm) as (C1 & Hs & Hl & He & Hfree).
    split; [exact C1|]. split; [lia|]. intro x. cbn. rewrite L, Hfree, He. tauto.
Qed.

Lemma new_tracks : forall e0, 0 <= e0 -> tracks (new_allocator e0) (fun x => 0 <= x < e0).
Proof.
  intros e0 H. split; [|split].
  - split; cbn; constructor.
  - exact H.
  - intro x. cbn. split; [|tauto]. intro L. split; [exact L|]. intros (c & [] & _).
Qed.

(** *** statements used by the property file *)
Lemma no_overlap_lemma : forall e0 h s n p s', 0 <= e0 ->
  executes (new_allocator e0) h s -> allocate s n = Ok (p, s') ->
  forall x, p <= x < p + n -> ~ live_after e0 h x.
Proof.
  intros e0 h s n p s' He Hx Ha x Hin.
  destruct (executes_tracks _ _ _ Hx _ (new_tracks e0 He)) as (C & E & L).
  destruct (allocate_spec _ _ _ _ C Ha) as (C1 & Hn & Hp & He' & Hreg & Hfree).
  unfold live_after. rewrite L. intros [F G]. destruct (Hreg x Hin) as [R|R]; [tauto|lia].
Qed.

Lemma conserved_lemma : forall e0 h s, 0 <= e0 -> executes (new_allocator e0) h s ->
  forall x, listed_free s x <-> 0 <= x < file_end s /\ ~ live_after e0 h x.
Proof.
  intros e0 h s He Hx x.
  destruct (executes_tracks _ _ _ Hx _ (new_tracks e0 He)) as (C & E & L).
  unfold live_after. rewrite L. destruct (listed_free_dec s x) as [D|D].
  - pose proof (listed_free_bound _ _ C D). tauto.
  - tauto.
Qed.

Lemma canonical_lemma : forall e0 h s, 0 <= e0 -> executes (new_allocator e0) h s -> canonical s.
Proof.
  intros e0 h s He Hx. destruct (executes_tracks _ _ _ Hx _ (new_tracks e0 He)) as (C & _). exact C.
Qed.

Lemma best_fit_lemma : forall s n p s', canonical s -> 0 < n -> allocate s n = Ok (p, s') ->
  ((exists len, In (p, len) (free_blocks s) /\ n <= len /\ file_end s' = file_end s /\
      forall b, In b (free_blocks s) -> n <= snd b -> len <= snd b) \/
   ((forall b, In b (free_blocks s) -> snd b < n) /\ file_end s' = p + n /\
      ((p = file_end s /\ ~ listed_free s (file_end s - 1)) \/
       (exists len, In (p, len) (free_blocks s) /\ p + len = file_end s)))).
Proof.
  intros s n p s' Hc Hn H. pose proof Hc as [Hf Hs].
  destruct (allocate_spec _ _ _ _ Hc H) as (C1 & _ & Hp & He & Hreg & Hfree).
  destruct s as [blocks e]. cbn [free_blocks file_end] in *.
  unfold allocate in H. cbn [free_blocks file_end] in H.
  replace (n <? 0) with false in H by lia. replace (n =? 0) with false in H by lia.
  pose proof (find_best_correct n blocks) as Hb.
  destruct (find_best blocks 0 n None) as [[i m]|].
  - left. destruct Hb as (st & Hn' & Hm & Hmin & Hfirst). rewrite Hn' in H. exists m.
    assert (p = st /\ file_end s' = e) as [-> Hend].
    { destruct (n <? m); injection H as <- <-; auto. }
    split; [eapply nth_error_In; eauto|]. split; [lia|]. split; [exact Hend|].
    intros b Hb Hs'. apply In_nth_error in Hb as [j Hj]. eauto.
  - right. cbn in Hb. split; [exact Hb|].
    destruct (rev blocks) as [|[st len] rr] eqn:Er.
    + injection H as <- <-. cbn [file_end]. split; [lia|]. left. split; [reflexivity|].
      rewrite <- (rev_involutive blocks), Er. cbn. intros (c & [] & _).
    + assert (Hbl : blocks = rev rr ++ [(st, len)]).
      { rewrite <- (rev_involutive blocks), Er. reflexivity. }
      destruct (st + len =? e) eqn:Ee; injection H as <- <-; cbn [file_end] in *.
      * assert (len < n). { apply (Hb (st, len)). rewrite Hbl. apply in_elt. }
        split; [lia|]. right. exists len. split; [rewrite Hbl; apply in_elt|lia].
      * split; [lia|]. left. split; [reflexivity|]. intros F.
        rewrite Hbl in F, Hf, Hs. apply listed_free_app in F. rewrite listed_free_cons in F.
        apply Forall_app in Hf as [Hfa Hfb]. inversion Hfb as [|? ? Hfx _]; subst. cbn in Hfx.
        apply ssorted_app in Hs as (_ & _ & Hgap).
        destruct F as [(c & Hc1 & Hx)|[F|(c & [] & _)]].
        -- cbn in Hc1. specialize (Hgap c (st, len) Hc1 (or_introl eq_refl)). cbn in Hgap. lia.
        -- unfold in_block in F. cbn in F. lia.
Qed.

Lemma monotone_lemma : forall s h s', canonical s -> executes s h s' -> file_end s <= file_end s'.
Proof.
  intros s h s' C H. revert C. induction H as [s|s n p s1 h s2 Ha Hx IH|s start len s1 h s2 Hin Hm Hx IH]; intro C.
  - lia.
  - destruct (allocate_spec _ _ _ _ C Ha) as (C1 & _ & _ & He & _). specialize (IH C1). lia.
  - destruct (mark_free_spec _ _ _ _ C Hin Hm) as (C1 & _ & _ & He & _). specialize (IH C1). lia.
Qed.

Lemma allocate_total_lemma : forall e0 h s n, 0 <= e0 -> 0 <= n -> executes (new_allocator e0) h s ->
  exists p s', allocate s n = Ok (p, s').
Proof.
  intros e0 h s n He Hn _. unfold allocate. replace (n <? 0) with false by lia.
  destruct (n =? 0); [eauto|]. pose proof (find_best_correct n (free_blocks s)) as Hb.
  destruct (find_best (free_blocks s) 0 n None) as [[i m]|].
  - destruct Hb as (st & Hn' & _). rewrite Hn'. destruct (n <? m); eauto.
  - destruct (rev (free_blocks s)) as [|[st len] rr]; [eauto|]. destruct (st + len =? file_end s); eauto.
Qed.
