From Coq Require Import List ZArith Bool Lia.
From Coq Require Import ZifyBool ZifyNat ZifyN.
From Coq Require DecimalZ DecimalPos.
From Verif Require Import Base BaseProofs Utf8 Utf8Proofs Dict Counter CounterSpec.
Import ListNotations.
Open Scope Z_scope.

(** * Splitting and joining *)
Lemma split_ne : forall sep s, split_on sep s <> [].
Proof. intros sep [|c r]; cbn; [discriminate|]. destruct (c =? sep); [discriminate|]. destruct (split_on sep r); discriminate. Qed.

Lemma split_app : forall sep a b,
  split_on sep (a ++ sep :: b) = split_on sep a ++ split_on sep b.
Proof.
  intros sep a b. induction a as [|c a IH]; cbn [app split_on].
  - rewrite Z.eqb_refl. reflexivity.
  - rewrite IH. destruct (c =? sep) eqn:E; [reflexivity|].
    destruct (split_on sep a) eqn:E2; [exfalso; eapply split_ne; eauto|]. reflexivity.
Qed.

(** Pieces of one component: the first does not start with a space, the others do. *)
Lemma split_semis : forall s, semis_ok s ->
  exists p r, split_on c_semi s = p :: r /\ join c_semi (p :: r) = s /\
    forallb starts_space r = true /\ (forall c t, s = c :: t -> c <> c_semi -> exists t', p = c :: t') /\ (s = [] -> p = []).
Proof.
  induction s as [|c s IH]; intro H.
  - exists [], []. intuition. discriminate.
  - cbn [semis_ok] in H. destruct H as [H1 H2]. destruct (IH H2) as (p & r & E & J & F & P & _). cbn [split_on]. rewrite E.
    destruct (c =? c_semi) eqn:C.
    + apply Z.eqb_eq in C. subst c. destruct (H1 eq_refl) as (s' & ->). destruct (P 32 s' eq_refl ltac:(unfold c_semi; lia)) as (t' & ->).
      exists [], ((32 :: t') :: r). split; [reflexivity|]. split; [cbn [join]; cbn [join] in J; rewrite J; reflexivity|].
      split; [cbn; exact F|]. split; [|discriminate]. intros c t X. injection X as <- <-. congruence.
    + exists (c :: p), r. split; [reflexivity|].
      split. { destruct r; cbn [join] in J |- *; [subst s; reflexivity|rewrite <- J; reflexivity]. }
      split; [exact F|]. split; [|discriminate]. intros c0 t X _. injection X as <- <-. eauto.
Qed.

Lemma from_pieces_absorb : forall r cur rest acc,
  forallb starts_space r = true ->
  from_pieces cur (r ++ rest) acc = from_pieces (join c_semi (cur :: r)) rest acc.
Proof.
  induction r as [|p r IH]; intros cur rest acc H; [reflexivity|].
  cbn [forallb] in H. apply andb_prop in H. destruct H as [H1 H2].
  cbn [app from_pieces]. rewrite H1, IH by exact H2.
  f_equal. destruct r; cbn [join]; [reflexivity|]. rewrite <- app_assoc. reflexivity.
Qed.

(** The components are processed in turn. *)
Fixpoint add_all (l : list ustr) (acc : counts) : res counts :=
  match l with
  | [] => Ok acc
  | s :: r => do acc <- add_component s acc ;; add_all r acc
  end.

Lemma from_string_components : forall l s acc,
  Forall safe_mime (s :: l) ->
  match split_on c_semi (join c_semi (s :: l)) with
  | [] => Ok acc
  | p :: r => from_pieces p r acc
  end = add_all (s :: l) acc.
Proof.
  induction l as [|t l IH]; intros s acc H; inversion H as [|? ? [Hs1 Hs2] Hl]; subst.
  - cbn [join add_all]. destruct (split_semis s Hs1) as (p & r & E & J & F & _). rewrite E.
    rewrite <- (app_nil_r r), from_pieces_absorb by exact F. rewrite J. cbn [from_pieces].
    destruct (add_component s acc); reflexivity.
  - assert (JE : join c_semi (s :: t :: l) = s ++ c_semi :: join c_semi (t :: l)) by reflexivity.
    rewrite JE, split_app. destruct (split_semis s Hs1) as (p & r & E & J & F & _). rewrite E.
    cbn [app]. rewrite from_pieces_absorb by exact F. rewrite J.
    specialize (IH t). destruct (split_on c_semi (join c_semi (t :: l))) as [|q u] eqn:E2; [exfalso; eapply split_ne; eauto|].
    change (add_all (s :: t :: l) acc) with (do acc <- add_component s acc ;; add_all (t :: l) acc).
    cbn [from_pieces].
    assert (SQ : starts_space q = false).
    { inversion Hl as [|? ? [Ht1 Ht2] Hl']; subst. destruct (split_semis t Ht1) as (p' & r' & E' & J' & F' & P' & PN).
      assert (q = p').
      { destruct l as [|t2 l]; cbn [join] in E2; [rewrite E' in E2; congruence|].
        change (split_on c_semi (t ++ c_semi :: join c_semi (t2 :: l)) = q :: u) in E2.
        rewrite split_app, E' in E2. cbn in E2. congruence. }
      subst q. destruct t as [|c t]; [rewrite (PN eq_refl); reflexivity|].
      destruct (Z.eq_dec c c_semi) as [->|N].
      - cbn [split_on] in E'. rewrite Z.eqb_refl in E'. injection E' as <- _. reflexivity.
      - destruct (P' c t eq_refl N) as (t' & ->). cbn. destruct (Z.eqb_spec c c_space) as [->|]; [|reflexivity].
        exfalso. apply (Ht2 t). reflexivity. }
    rewrite SQ. destruct (add_component s acc) as [acc'|]; [|reflexivity]. cbn [bind]. apply IH. exact Hl.
Qed.

(** * Numbers *)
Lemma uint_str_digits : forall u c, In c (uint_str u) -> 48 <= c <= 57.
Proof. induction u; intros c H; cbn in H; try destruct H as [<-|H]; try lia; try contradiction; auto. Qed.

Lemma digits_cons : forall c r, c <> c_under -> (forall x, In x r -> 48 <= x <= 57) ->
  digits (c :: r) = match digits r with Some x => digit_cons c x | None => None end.
Proof.
  intros c r H K. cbn [digits]. destruct (Z.eqb_spec c c_under); [congruence|].
  destruct r as [|u [|v r]]; try reflexivity.
  destruct (Z.eqb_spec u c_under) as [->|]; [|reflexivity].
  exfalso. specialize (K c_under (or_introl eq_refl)). unfold c_under in K. lia.
Qed.

Lemma digits_uint_str : forall u, digits (uint_str u) = Some u.
Proof.
  induction u; [reflexivity|..]; cbn [uint_str];
    (rewrite digits_cons; [rewrite IHu; reflexivity|unfold c_under; lia|apply uint_str_digits]).
Qed.

Lemma lstrip_id : forall s, (forall c r, s = c :: r -> is_ws c = false) -> lstrip s = s.
Proof. intros [|c r] H; [reflexivity|]. cbn. rewrite (H c r eq_refl). reflexivity. Qed.
Lemma strip_id : forall s, (forall c, In c s -> is_ws c = false) -> strip s = s.
Proof.
  intros s H. unfold strip. rewrite (lstrip_id s).
  - rewrite lstrip_id; [apply rev_involutive|]. intros c r E. apply H, in_rev. rewrite E. left. reflexivity.
  - intros c r E. apply H. rewrite E. left. reflexivity.
Qed.

Lemma uint_str_nil : forall u, uint_str u = [] -> u = Decimal.Nil.
Proof. destruct u; cbn; intro H; [reflexivity|discriminate..]. Qed.

Lemma no_ws_digit : forall c, 48 <= c <= 57 -> is_ws c = false.
Proof. intros c H. unfold is_ws. lia. Qed.

Lemma to_uint_not_nil : forall p, Pos.to_uint p <> Decimal.Nil.
Proof. apply DecimalPos.Unsigned.to_uint_nonnil. Qed.

Lemma py_int_str : forall n, py_int (int_str n) = Ok n.
Proof.
  intro n. unfold int_str.
  assert (NN : match Z.to_int n with Decimal.Pos u => u | Decimal.Neg u => u end <> Decimal.Nil).
  { destruct n; cbn; try discriminate; apply to_uint_not_nil. }
  destruct (Z.to_int n) as [u|u] eqn:E; unfold py_int.
  - rewrite strip_id by (intros c Hc; apply no_ws_digit; eapply uint_str_digits; eauto).
    destruct (uint_str u) as [|c r] eqn:E2; [exfalso; apply NN, uint_str_nil; exact E2|].
    assert (Hc : 48 <= c <= 57). { apply (uint_str_digits u). rewrite E2. left. reflexivity. }
    destruct (Z.eqb_spec c c_minus) as [->|]; [unfold c_minus in Hc; lia|].
    destruct (Z.eqb_spec c c_plus) as [->|]; [unfold c_plus in Hc; lia|].
    assert (D : digits (c :: r) = Some u) by (rewrite <- E2; apply digits_uint_str).
    rewrite D, <- E, DecimalZ.of_to. reflexivity.
  - rewrite strip_id.
    2:{ intros c [<-|Hc]; [reflexivity|]. apply no_ws_digit; eapply uint_str_digits; eauto. }
    rewrite Z.eqb_refl. destruct (uint_str u) as [|c r] eqn:E2; [exfalso; apply NN, uint_str_nil; exact E2|].
    assert (D : digits (c :: r) = Some u) by (rewrite <- E2; apply digits_uint_str).
    rewrite D, <- E, DecimalZ.of_to. reflexivity.
Qed.

Lemma int_str_chars : forall n c, In c (int_str n) -> c = 45 \/ 48 <= c <= 57.
Proof.
  intros n c. unfold int_str. destruct (Z.to_int n); intro H; [right; eapply uint_str_digits; eauto|].
  destruct H as [<-|H]; [left; reflexivity|right; eapply uint_str_digits; eauto].
Qed.

Lemma rsplit_none : forall s, ~ In c_eq s -> rsplit_eq s = None.
Proof.
  induction s as [|c s IH]; intro H; [reflexivity|]. cbn. rewrite IH by (intro; apply H; right; assumption).
  destruct (Z.eqb_spec c c_eq) as [->|]; [exfalso; apply H; left; reflexivity|reflexivity].
Qed.
Lemma rsplit_app : forall a b, ~ In c_eq b -> rsplit_eq (a ++ c_eq :: b) = Some (a, b).
Proof.
  induction a as [|c a IH]; intros b H; cbn.
  - rewrite rsplit_none by exact H. reflexivity.
  - rewrite IH by exact H. reflexivity.
Qed.

Lemma add_component_str : forall mt n acc,
  add_component (mt ++ c_eq :: int_str n) acc = Ok (dset ueqb mt n acc).
Proof.
  intros mt n acc. unfold add_component. destruct (mt ++ c_eq :: int_str n) eqn:E; [destruct mt; discriminate|].
  rewrite <- E, rsplit_app. { rewrite py_int_str. reflexivity. }
  intro H. apply int_str_chars in H. unfold c_eq in H. lia.
Qed.

Lemma dset_fresh : forall (c : counts) k n, ~ In k (map fst c) -> dset ueqb k n c = c ++ [(k, n)].
Proof.
  induction c as [|[a b] c IH]; intros k n H; [reflexivity|]. cbn in *.
  destruct (ueqb k a) eqn:E; [apply ueqb_eq in E; subst; exfalso; auto|]. rewrite IH by auto. reflexivity.
Qed.

Definition component (x : ustr * Z) : ustr := fst x ++ c_eq :: int_str (snd x).

Lemma add_all_components : forall (l acc : counts),
  NoDup (map fst (acc ++ l)) -> add_all (map component l) acc = Ok (acc ++ l).
Proof.
  induction l as [|[m n] l IH]; intros acc H; cbn [map add_all]; [rewrite app_nil_r; reflexivity|].
  unfold component at 1. cbn [fst snd]. rewrite add_component_str. cbn [bind].
  rewrite dset_fresh.
  - rewrite IH; rewrite <- app_assoc; [reflexivity|exact H].
  - rewrite map_app in H. cbn in H. apply NoDup_remove_2 in H. rewrite in_app_iff in H. tauto.
Qed.

Lemma semis_app : forall a b, semis_ok a -> semis_ok b -> (forall c, last a 0 = c -> c <> 59) -> semis_ok (a ++ b).
Proof.
  induction a as [|c a IH]; intros b Ha Hb L; [exact Hb|]. cbn [app semis_ok] in *. destruct Ha as [H1 H2].
  split.
  - intro E. destruct (H1 E) as (r' & ->). cbn. eauto.
  - apply IH; auto. intros x Hx. destruct a as [|d a]; [cbn in Hx; lia|]. apply L. cbn [last] in *. destruct a; exact Hx.
Qed.

Lemma semis_last : forall a, semis_ok a -> last a 0 <> 59.
Proof.
  induction a as [|c a IH]; intro H; [cbn; lia|]. cbn [semis_ok] in H. destruct H as [H1 H2].
  destruct a as [|d a]; [|exact (IH H2)]. cbn. intro E. destruct (H1 E) as (r & X). discriminate.
Qed.

Lemma no_semi_ok : forall s, ~ In 59 s -> semis_ok s.
Proof.
  induction s as [|c s IH]; intro H; cbn; [exact I|]. split; [intros ->; exfalso; apply H; left; reflexivity|].
  apply IH. intro; apply H; right; assumption.
Qed.

Lemma component_safe : forall m n, safe_mime m -> safe_mime (component (m, n)).
Proof.
  intros m n [H1 H2]. unfold component. cbn [fst snd]. split.
  - apply semis_app; [exact H1| |intros c <-; apply semis_last; exact H1].
    apply no_semi_ok. intros [X|X]; [unfold c_eq in X; lia|]. apply int_str_chars in X. lia.
  - intros r. destruct m as [|c m]; cbn; [intro X; injection X as X _; unfold c_eq in X; lia|].
    intro X. injection X as -> _. eapply H2; reflexivity.
Qed.

Lemma nodup_filter_fst : forall f (c : counts), NoDup (map fst c) -> NoDup (map fst (filter f c)).
Proof.
  induction c as [|x c IH]; intro H; [exact H|]. cbn in *. inversion H; subst. destruct (f x); [|auto].
  cbn. constructor; [|auto]. intro X. apply H2. apply in_map_iff in X. destruct X as (y & E & Y).
  apply filter_In in Y. apply in_map_iff. exists y. tauto.
Qed.

Lemma counter_roundtrip : forall c, counter_wf c ->
  (forall m n, In (m, n) (nonzero c) -> safe_mime m) ->
  from_string (to_string c) = Ok (nonzero c).
Proof.
  intros c W H. change (to_string c) with (join c_semi (map component (nonzero c))). unfold from_string.
  destruct (nonzero c) as [|x l] eqn:E; [reflexivity|].
  cbn [map]. pose proof (from_string_components (map component l) (component x) []) as F.
  assert (SF : Forall safe_mime (component x :: map component l)).
  { change (Forall safe_mime (map component (x :: l))). apply Forall_forall. intros s Hs. apply in_map_iff in Hs.
    destruct Hs as ([m n] & <- & Hm). apply component_safe. eapply H; eauto. }
  specialize (F SF). destruct (split_on c_semi (join c_semi (component x :: map component l))) as [|p r] eqn:E2;
    [exfalso; eapply split_ne; eauto|].
  rewrite F. change (component x :: map component l) with (map component (x :: l)).
  rewrite add_all_components; [reflexivity|]. cbn [app]. rewrite <- E. apply nodup_filter_fst. exact W.
Qed.

(** The string keeps the counts even as bytes. *)
Lemma counter_roundtrip_bytes : forall c b, counter_wf c ->
  (forall m n, In (m, n) (nonzero c) -> safe_mime m) ->
  encode (to_string c) = Ok b -> from_bytes b = Ok (nonzero c).
Proof.
  intros c b W H E. unfold from_bytes, encode, decode in *. destruct (utf8_encode (to_string c)) eqn:U; [|discriminate].
  injection E as <-. rewrite (decode_encode _ _ U). cbn [bind]. apply counter_roundtrip; assumption.
Qed.

(** * Counting *)
Lemma get_dset : forall m k n c, get_count m (dset ueqb k n c) = if ueqb m k then n else get_count m c.
Proof. intros. unfold get_count. rewrite (dget_dset _ ueqb_eq). destruct (ueqb m k); reflexivity. Qed.

Lemma get_increment : forall m k c, get_count m (increment k c) = get_count m c + (if ueqb k m then 1 else 0).
Proof.
  intros m k c. unfold increment. destruct (dget ueqb k c) eqn:E; rewrite get_dset;
    (destruct (ueqb m k) eqn:M; [apply ueqb_eq in M; subst; rewrite ueqb_refl; unfold get_count; rewrite E; lia|
     apply ueqb_neq in M; destruct (ueqb k m) eqn:M2; [apply ueqb_eq in M2; congruence|lia]]).
Qed.
Lemma get_decrement : forall k c, get_count k c > 0 ->
  exists c', decrement k c = Ok c' /\ forall m, get_count m c' = get_count m c - (if ueqb k m then 1 else 0).
Proof.
  intros k c H. unfold decrement. unfold get_count in H at 1. destruct (dget ueqb k c) as [n|] eqn:E; [|lia].
  destruct (Z.leb_spec n 0); [lia|]. eexists. split; [reflexivity|]. intro m. rewrite get_dset.
  destruct (ueqb m k) eqn:M.
  - apply ueqb_eq in M; subst; rewrite ueqb_refl; unfold get_count; rewrite E; lia.
  - apply ueqb_neq in M; destruct (ueqb k m) eqn:M2; [apply ueqb_eq in M2; congruence|lia].
Qed.

Lemma number_app : forall m a b, number_of m (a ++ b) = number_of m a + number_of m b.
Proof. induction a as [|e a IH]; intro b; cbn [app number_of]; [lia|rewrite IH; lia]. Qed.
Lemma number_nonneg : forall m w, 0 <= number_of m w.
Proof. induction w as [|e w IH]; cbn [number_of]; [lia|destruct (content_of m e); lia]. Qed.
Lemma number_set : forall w i o e m, nth_error w i = Some o ->
  number_of m (set_nth i e w) = number_of m w - (if content_of m o then 1 else 0) + (if content_of m e then 1 else 0).
Proof.
  induction w as [|x w IH]; intros [|i] o e m H; cbn in H; try discriminate; cbn [set_nth number_of].
  - injection H as ->. lia.
  - rewrite (IH _ _ _ _ H). lia.
Qed.
Lemma number_del : forall w i o m, nth_error w i = Some o ->
  number_of m (del_nth i w) = number_of m w - (if content_of m o then 1 else 0).
Proof.
  induction w as [|x w IH]; intros [|i] o m H; cbn in H; try discriminate; cbn [del_nth number_of].
  - injection H as ->. lia.
  - rewrite (IH _ _ _ H). lia.
Qed.
Lemma number_pos : forall w i o, nth_error w i = Some o -> is_content o = true -> number_of (ce_mime o) w > 0.
Proof.
  induction w as [|x w IH]; intros [|i] o H K; cbn in H; try discriminate; cbn [number_of].
  - injection H as ->. unfold content_of. unfold is_content in K. rewrite K, ueqb_refl. cbn [andb]. pose proof (number_nonneg (ce_mime o) w). lia.
  - specialize (IH _ _ H K). destruct (content_of (ce_mime o) x); lia.
Qed.

Lemma content_of_split : forall m e, content_of m e = is_content e && ueqb (ce_mime e) m.
Proof. reflexivity. Qed.

Definition world_after (ev : cevent) (w : list centry) : list centry :=
  match ev with EvNew e => w ++ [e] | EvUpdate i e _ => set_nth i e w | EvRemove i => del_nth i w end.
Definition counts_exact (w : list centry) (c : counts) : Prop := forall m, get_count m c = number_of m w.

Lemma step_exact : forall ev w c w' c' r,
  counts_exact w c -> gentle ev w -> cev_step ev w c = Some (w', c', r) ->
  r = Ok tt /\ counts_exact w' c' /\ w' = world_after ev w.
Proof.
  intros ev w c w' c' r X G H. destruct ev as [e|i e cached|i]; cbn [cev_step] in H; cbn [world_after].
  - unfold after_write in H. change (should_count e) with (is_content e) in H.
    destruct (is_content e) eqn:C; injection H as <- <- <-; split; [reflexivity| |reflexivity|]; (split; [|reflexivity]); intro m;
      rewrite number_app; cbn [number_of]; rewrite content_of_split, C; [rewrite get_increment, X; cbn [andb]; lia|rewrite X; cbn; lia].
  - destruct (nth_error w i) as [o|] eqn:E; [|discriminate]. cbn [gentle] in G. destruct (G o E) as [G1 G2].
    unfold after_write in H. change (should_count e) with (is_content e) in H.
    destruct (is_content e) eqn:C.
    + set (old := if cached then e else o) in H.
      assert (OM : ce_mime old = ce_mime o). { unfold old. destruct cached; [apply G2; reflexivity|reflexivity]. }
      assert (P : get_count (ce_mime old) (increment (ce_mime e) c) > 0).
      { rewrite get_increment, X, OM. pose proof (number_pos w i o E ltac:(congruence)). destruct (ueqb _ _); lia. }
      destruct (get_decrement _ _ P) as (c2 & D & GC). rewrite D in H. injection H as <- <- <-.
      split; [reflexivity|]. split; [|reflexivity]. intro m. rewrite GC, get_increment, X, (number_set w i o e m E), OM.
      rewrite !content_of_split, <- G1, C. cbn [andb]. lia.
    + injection H as <- <- <-. split; [reflexivity|]. split; [|reflexivity]. intro m. rewrite X, (number_set w i o e m E).
      rewrite !content_of_split, <- G1, C. cbn [andb]. lia.
  - destruct (nth_error w i) as [o|] eqn:E; [|discriminate].
    unfold after_remove in H. change (should_count o) with (is_content o) in H.
    destruct (is_content o) eqn:C.
    + pose proof (number_pos w i o E C) as P. rewrite <- X in P.
      destruct (get_decrement _ _ P) as (c2 & D & GC). rewrite D in H. injection H as <- <- <-.
      split; [reflexivity|]. split; [|reflexivity]. intro m. rewrite GC, X, (number_del w i o m E), content_of_split, C. cbn [andb]. lia.
    + injection H as <- <- <-. split; [reflexivity|]. split; [|reflexivity]. intro m. rewrite X, (number_del w i o m E), content_of_split, C. cbn [andb]. lia.
Qed.

Lemma run_exact : forall evs w c w' c' r,
  counts_exact w c -> gentle_run evs w -> cev_run evs w c = Some (w', c', r) ->
  r = Ok tt /\ counts_exact w' c' /\ w' = fold_left (fun w ev => world_after ev w) evs w.
Proof.
  induction evs as [|ev evs IH]; intros w c w' c' r X G H; cbn [cev_run] in H.
  - injection H as <- <- <-. auto.
  - cbn [gentle_run] in G. destruct G as [G1 G2].
    destruct (cev_step ev w c) as [[[w1 c1] r1]|] eqn:E; [|discriminate].
    destruct (step_exact _ _ _ _ _ _ X G1 E) as (-> & X1 & W1). cbn [fold_left]. rewrite <- W1. eapply IH; eauto.
    rewrite W1. exact G2.
Qed.

Lemma exact_nil : counts_exact [] [].
Proof. intro m. reflexivity. Qed.

Lemma fold_count : forall entries c w, counts_exact w c ->
  counts_exact (w ++ entries) (fold_left (fun c e => if should_count e then increment (ce_mime e) c else c) entries c).
Proof.
  induction entries as [|e es IH]; intros c w X; cbn [fold_left]; [rewrite app_nil_r; exact X|].
  replace (w ++ e :: es) with ((w ++ [e]) ++ es) by (rewrite <- app_assoc; reflexivity).
  apply IH. intro m. rewrite number_app. cbn [number_of]. rewrite content_of_split. change (should_count e) with (is_content e).
  destruct (is_content e); cbn [andb]; [rewrite get_increment, X; lia|rewrite X; lia].
Qed.
Lemma reinit_exact : forall entries, counts_exact entries (reinit entries).
Proof. intro entries. apply (fold_count entries [] []), exact_nil. Qed.

(** ** Counts are never negative, whatever happens *)
Lemma decrement_nonneg : forall k c c', decrement k c = Ok c' -> (forall m, 0 <= get_count m c) -> forall m, 0 <= get_count m c'.
Proof.
  intros k c c' H N m. unfold decrement in H. destruct (dget ueqb k c) as [n|]; [|discriminate]. destruct (n <=? 0) eqn:E; [discriminate|]. injection H as <-.
  rewrite get_dset. specialize (N m). destruct (ueqb m k); lia.
Qed.
Lemma increment_nonneg : forall k c, (forall m, 0 <= get_count m c) -> forall m, 0 <= get_count m (increment k c).
Proof. intros k c N m. rewrite get_increment. specialize (N m). destruct (ueqb k m); lia. Qed.
Lemma step_nonneg : forall ev w c w' c' r, cev_step ev w c = Some (w', c', r) -> (forall m, 0 <= get_count m c) -> forall m, 0 <= get_count m c'.
Proof.
  intros ev w c w' c' r H N.
  assert (W : forall o e c1 x, after_write o e c = (c1, x) -> forall m, 0 <= get_count m c1).
  { intros o e c1 x E. unfold after_write in E. destruct (should_count e); [|injection E as <- _; exact N]. destruct o as [o|]; [|injection E as <- _; apply increment_nonneg; exact N].
    destruct (decrement _ _) as [c2|y] eqn:ED; injection E as <- _; [eapply decrement_nonneg; [exact ED|]|]; apply increment_nonneg; exact N. }
  assert (R : forall e c1 x, after_remove e c = (c1, x) -> forall m, 0 <= get_count m c1).
  { intros e c1 x E. unfold after_remove in E. destruct (should_count e); [|injection E as <- _; exact N].
    destruct (decrement _ _) as [c2|y] eqn:ED; injection E as <- _; [eapply decrement_nonneg; [exact ED|exact N]|exact N]. }
  destruct ev as [e|i e b|i]; cbn [cev_step] in H.
  - destruct (after_write None e c) as [c1 x] eqn:E. injection H as _ <- _. eapply W; exact E.
  - destruct (nth_error w i) as [o|]; [|discriminate]. destruct (after_write _ e c) as [c1 x] eqn:E. injection H as _ <- _. eapply W; exact E.
  - destruct (nth_error w i) as [o|]; [|discriminate]. destruct (after_remove o c) as [c1 x] eqn:E. injection H as _ <- _. eapply R; exact E.
Qed.
Lemma run_nonneg : forall evs w c w' c' r, cev_run evs w c = Some (w', c', r) -> (forall m, 0 <= get_count m c) -> forall m, 0 <= get_count m c'.
Proof.
  induction evs as [|ev evs IH]; intros w c w' c' r H N; cbn [cev_run] in H; [injection H as _ <- _; exact N|].
  destruct (cev_step ev w c) as [[[w1 c1] [[]|x]]|] eqn:E; [|injection H as _ <- _|discriminate].
  - eapply IH; [exact H|]. eapply step_nonneg; [exact E|exact N].
  - eapply step_nonneg; [exact E|exact N].
Qed.
Lemma decrement_exact : forall k c, (get_count k c > 0 /\ exists c', decrement k c = Ok c' /\ forall m, get_count m c' = get_count m c - (if ueqb k m then 1 else 0)) \/
  (get_count k c <= 0 /\ decrement k c = Err ValueError).
Proof.
  intros k c. destruct (Z_gt_le_dec (get_count k c) 0) as [G|G]; [left; split; [exact G|apply get_decrement; exact G]|right]. split; [exact G|].
  unfold decrement, get_count in *. destruct (dget ueqb k c) as [n|]; [|reflexivity]. destruct (Z.leb_spec n 0); [reflexivity|lia].
Qed.
