(** Proofs about assignments to entry objects. *)
From Coq Require Import List ZArith Bool Lia.
From Coq Require Import ZifyBool ZifyNat.
From Verif Require Import Base BaseProofs Utf8 Utf8Proofs Entry EntrySpec EntryProofs MimeTypeList MimeTypeListSpec MimeTypeListProofs
  Cluster CompressionStrategy Archive EntryObject EntryObjectSpec.
Import ListNotations.
Open Scope Z_scope.

Lemma both_text : forall v u b, both v = Ok (u, b) -> text v u /\ utf8_encode u = Some b.
Proof.
  intros [s|s] u b H; cbn in H.
  - unfold encode in H. destruct (utf8_encode s) as [x|] eqn:E; [|discriminate]. cbn in H. injection H as <- <-. split; [reflexivity|exact E].
  - unfold decode in H. destruct (utf8_decode s) as [x|] eqn:E; [|discriminate]. cbn in H. injection H as <- <-. split; [exact E|apply encode_decode; exact E].
Qed.
Lemma no_nul_storable : forall u b, utf8_encode u = Some b -> has_nul b = false -> storable u.
Proof.
  intros u b E N. split; [eauto|]. intro H. apply (utf8_nul _ _ E) in H. unfold has_nul in N.
  assert (existsb (fun x : byte => beqb [x] [x00]) b = true) by (apply existsb_exists; exists x00; split; [exact H|reflexivity]). congruence.
Qed.

(** ** The effect of an accepted assignment *)
Lemma change_ok : forall {St} (f : St -> res St) s s', change f s = (Ok tt, s') -> f s = Ok s'.
Proof. intros St f s s' H. unfold change in H. destruct (f s); [injection H as <-; reflexivity|discriminate]. Qed.
Lemma change_err : forall {St} (f : St -> res St) s x s', change f s = (Err x, s') -> s' = s.
Proof. intros St f s x s' H. unfold change in H. destruct (f s); [discriminate|injection H as _ <-; reflexivity]. Qed.
Lemma on_entry_inv : forall {A} (m : M eobj A) s r s', on_entry m s = (r, s') -> m (fst s) = (r, fst s') /\ snd s' = snd s.
Proof. intros A m s r s' H. unfold on_entry in H. destruct (m (fst s)) as [r1 o1]. injection H as <- <-. auto. Qed.
Lemma entry_eta : forall e, mkEntry (e_mimetype e) (e_ns e) (e_url e) (e_title e) (e_kind e) = e.
Proof. intros []. reflexivity. Qed.

Ltac mutable_case H o := unfold ensure_mutable in H; destruct (eo_mutable o) eqn:?; cbn [bind] in H; [|discriminate H].

Lemma put_namespace_ok : forall v o o', put_namespace v o = (Ok tt, o') -> exists u b, text v u /\ utf8_encode u = Some b /\ zlen b = 1 /\
  attrs o' = with_ns u (attrs o) /\ w_old_url (eo_went o') = w_old_url (eo_went o).
Proof.
  intros v o o' H. unfold put_namespace in H. apply change_ok in H. destruct (both v) as [[u b]|] eqn:E; cbn [bind] in H; [|discriminate]. destruct (both_text _ _ _ E) as [T B].
  destruct (Z.eqb_spec (zlen b) 1) as [L|]; cbn [negb] in H; [|discriminate]. mutable_case H o. exists u, b. repeat (split; [assumption|]).
  destruct (ueqb u (e_ns (attrs o))) eqn:Eq; injection H as <-.
  - apply ueqb_eq in Eq. subst u. split; [|reflexivity]. unfold with_ns. rewrite entry_eta. reflexivity.
  - destruct (ueqb u NS_C); split; reflexivity.
Qed.
Lemma put_url_ok : forall v o o', put_url v o = (Ok tt, o') -> exists u b, text v u /\ utf8_encode u = Some b /\ has_nul b = false /\
  attrs o' = with_url u (attrs o) /\ w_old_url (eo_went o') = w_old_url (eo_went o).
Proof.
  intros v o o' H. unfold put_url in H. apply change_ok in H. destruct (both v) as [[u b]|] eqn:E; cbn [bind] in H; [|discriminate]. destruct (both_text _ _ _ E) as [T B].
  destruct (has_nul b) eqn:N; [discriminate|]. mutable_case H o. exists u, b. repeat (split; [assumption|]).
  destruct (ueqb u (e_url (attrs o))) eqn:Eq; injection H as <-; [|split; reflexivity].
  apply ueqb_eq in Eq. subst u. split; [|reflexivity]. unfold with_url. rewrite entry_eta. reflexivity.
Qed.
Lemma put_title_ok : forall v o o', put_title v o = (Ok tt, o') -> exists u b, match v with None => u = [] | Some v => text v u end /\ utf8_encode u = Some b /\ has_nul b = false /\
  attrs o' = with_title u (attrs o) /\ w_old_url (eo_went o') = w_old_url (eo_went o).
Proof.
  intros v o o' H. unfold put_title in H. apply change_ok in H.
  assert (exists u b, match v with None => Ok ([], []) | Some v => both v end = Ok (u, b) /\ match v with None => u = [] | Some v => text v u end /\ utf8_encode u = Some b) as (u & b & E & T & B).
  { destruct v as [v|].
    - destruct (both v) as [[u b]|] eqn:E; cbn [bind] in H; [|discriminate]. exists u, b. split; [reflexivity|]. apply both_text. exact E.
    - exists [], []. repeat split. }
  rewrite E in H. cbn [bind] in H. destruct (has_nul b) eqn:N; [discriminate|]. mutable_case H o. exists u, b. repeat (split; [assumption|]).
  destruct (e_title (attrs o)) as [t|] eqn:Et.
  - destruct (ueqb u t) eqn:Eq; injection H as <-; [|split; reflexivity].
    apply ueqb_eq in Eq. subst u. split; [|reflexivity]. unfold with_title. rewrite <- Et, entry_eta. reflexivity.
  - injection H as <-. split; reflexivity.
Qed.
Lemma put_full_url_ok : forall v o o', put_full_url v o = (Ok tt, o') -> exists c u b d, text v (c :: u) /\ utf8_encode [c] = Some b /\ zlen b = 1 /\
  utf8_encode u = Some d /\ has_nul d = false /\ attrs o' = with_url u (with_ns [c] (attrs o)) /\ w_old_url (eo_went o') = w_old_url (eo_went o).
Proof.
  intros v o o' H. unfold put_full_url, mbind in H.
  assert (exists u, match v with PyStr u => Ok u | PyBytes b => decode b end = Ok u /\ text v u) as (t & E & T).
  { destruct v as [s|s]; [exists s; split; reflexivity|]. unfold decode in *. cbn [text]. destruct (utf8_decode s) as [x|]; [|discriminate]. exists x. split; reflexivity. }
  rewrite E in H. destruct t as [|c u]; [discriminate|]. destruct (put_namespace (PyStr [c]) o) as [[[]|x] o1] eqn:N; [|discriminate].
  destruct (put_namespace_ok _ _ _ N) as (u1 & b & T1 & B & L & A1 & O1). cbn in T1. subst u1.
  destruct (put_url_ok _ _ _ H) as (u2 & d & T2 & D & Nn & A2 & O2). cbn in T2. subst u2.
  exists c, u, b, d. repeat (split; [assumption|]). split; [rewrite A2, A1; reflexivity|congruence].
Qed.
Lemma put_mimetype_id_ok : forall m o o', put_mimetype_id m o = (Ok tt, o') -> 0 <= m /\ attrs o' = with_mimetype m (attrs o) /\ w_old_url (eo_went o') = w_old_url (eo_went o).
Proof.
  intros m o o' H. unfold put_mimetype_id in H. apply change_ok in H. destruct (Z.ltb_spec m 0); [discriminate|]. mutable_case H o. split; [assumption|].
  destruct (Z.eqb_spec m (e_mimetype (attrs o))) as [->|]; injection H as <-; [|split; reflexivity]. split; [|reflexivity]. unfold with_mimetype. rewrite entry_eta. reflexivity.
Qed.
Lemma put_is_article_ok : forall v o o', put_is_article v o = (Ok tt, o') -> attrs o' = attrs o /\ w_force (eo_went o') = Some v /\ w_old_url (eo_went o') = w_old_url (eo_went o) /\
  (v = true -> e_ns (attrs o) = NS_C).
Proof.
  intros v o o' H. unfold put_is_article in H. apply change_ok in H. mutable_case H o. destruct (v && negb (ueqb (e_ns (attrs o)) NS_C)) eqn:E; [discriminate|].
  assert (V : v = true -> e_ns (attrs o) = NS_C) by (intros ->; cbn in E; apply ueqb_eq; destruct (ueqb _ _); [reflexivity|discriminate]).
  destruct (w_force (eo_went o)) as [f|] eqn:Ef.
  - destruct (Bool.eqb v f) eqn:Eb; injection H as <-; [|auto]. apply Bool.eqb_prop in Eb. subst f. auto.
  - injection H as <-. auto.
Qed.
Lemma put_cluster_ok : forall v o o', put_cluster_number v o = (Ok tt, o') -> w_old_url (eo_went o') = w_old_url (eo_went o) /\
  attrs o' = match e_kind (attrs o) with Content _ b => with_kind (Content v b) (attrs o) | Redirect _ => attrs o end /\ (forall c b, e_kind (attrs o) = Content c b -> 0 <= v).
Proof.
  intros v o o' H. unfold put_cluster_number in H. apply change_ok in H. destruct (e_kind (attrs o)) as [c b|r] eqn:Ek; [|injection H as <-; split; [reflexivity|split; [reflexivity|discriminate]]].
  destruct (Z.ltb_spec v 0); [discriminate|]. mutable_case H o. destruct (Z.eqb_spec v c) as [->|]; injection H as <-; (split; [reflexivity|]); (split; [|auto]).
  - unfold with_kind. rewrite <- Ek, entry_eta. reflexivity.
  - reflexivity.
Qed.
Lemma put_blob_ok : forall v o o', put_blob_number v o = (Ok tt, o') -> w_old_url (eo_went o') = w_old_url (eo_went o) /\
  attrs o' = match e_kind (attrs o) with Content c _ => with_kind (Content c v) (attrs o) | Redirect _ => attrs o end /\ (forall c b, e_kind (attrs o) = Content c b -> 0 <= v).
Proof.
  intros v o o' H. unfold put_blob_number in H. apply change_ok in H. destruct (e_kind (attrs o)) as [c b|r] eqn:Ek; [|injection H as <-; split; [reflexivity|split; [reflexivity|discriminate]]].
  destruct (Z.ltb_spec v 0); [discriminate|]. mutable_case H o. destruct (Z.eqb_spec v b) as [->|]; injection H as <-; (split; [reflexivity|]); (split; [|auto]).
  - unfold with_kind. rewrite <- Ek, entry_eta. reflexivity.
  - reflexivity.
Qed.
Lemma put_redirect_ok : forall v o o', put_redirect_index v o = (Ok tt, o') -> w_old_url (eo_went o') = w_old_url (eo_went o) /\
  attrs o' = match e_kind (attrs o) with Redirect _ => with_kind (Redirect v) (attrs o) | Content _ _ => attrs o end /\ (forall r, e_kind (attrs o) = Redirect r -> 0 <= v).
Proof.
  intros v o o' H. unfold put_redirect_index in H. apply change_ok in H. destruct (e_kind (attrs o)) as [c b|r] eqn:Ek; [injection H as <-; split; [reflexivity|split; [reflexivity|discriminate]]|].
  destruct (Z.ltb_spec v 0); [discriminate|]. mutable_case H o. destruct (Z.eqb_spec v r) as [->|]; injection H as <-; (split; [reflexivity|]); (split; [|auto]).
  - unfold with_kind. rewrite <- Ek, entry_eta. reflexivity.
  - reflexivity.
Qed.


Lemma put_mimetype_ok : forall v s s', put_mimetype v s = (Ok tt, s') -> exists u b i, text v u /\ utf8_encode u = Some b /\ znth (ml_types (snd s')) i = Some b /\
  0 <= i < zlen (ml_types (snd s')) /\ zlen (ml_types (snd s')) <= zlen (ml_types (snd s)) + 1 /\
  attrs (fst s') = with_mimetype i (attrs (fst s)) /\ w_old_url (eo_went (fst s')) = w_old_url (eo_went (fst s)).
Proof.
  intros v [o l] s' H. unfold put_mimetype in H. unfold mbind at 1 in H. destruct (both v) as [[u b]|] eqn:E; [|discriminate]. destruct (both_text _ _ _ E) as [T B].
  destruct (zlen b =? 0); [discriminate|]. destruct (has_nul b); [discriminate|]. unfold mbind in H. cbn [fst snd] in H.
  destruct (mt_get_index (PyStr u) true l) as [[[i|] l1]|] eqn:G; [|discriminate|discriminate].
  apply on_entry_inv in H as [H E2]. cbn [fst snd] in H, E2. destruct (put_mimetype_id_ok _ _ _ H) as (Hi & A & O). rewrite E2. cbn [fst snd] in *.
  destruct (mt_get_index_spec _ _ _ _ _ G) as (m & Hm & D & I). destruct (I i eq_refl) as [I1 _]. cbn in Hm. unfold encode in Hm. rewrite B in Hm. injection Hm as <-.
  exists u, b, i. split; [exact T|]. split; [exact B|]. unfold mt_get in I1. destruct ((zlen (ml_types l1) <=? i) || (i <? 0)) eqn:Eb; [discriminate|].
  split; [unfold znth; replace (i <? 0) with false by lia; destruct (nth_error _ _); [congruence|discriminate]|]. split; [lia|]. split; [|auto].
  destruct D as [[-> _]|(_ & _ & _ & -> & _)]; [lia|]. rewrite zlen_app. change (zlen [b]) with 1. lia.
Qed.

Theorem accepted_intended : forall a o l o' l', assign a (o, l) = (Ok tt, (o', l')) -> intended a (attrs o) (ml_types l') (attrs o').
Proof.
  intros a o l o' l' H. destruct a; cbn [assign] in H; try (apply on_entry_inv in H as [H _]; cbn [fst snd] in H); cbn [intended].
  - destruct (put_namespace_ok _ _ _ H) as (u & b & T & _ & _ & A & _). eauto.
  - destruct (put_url_ok _ _ _ H) as (u & b & T & _ & _ & A & _). eauto.
  - destruct (put_title_ok _ _ _ H) as (u & b & T & _ & _ & A & _). destruct v as [v|]; [eauto|]. subst u. exact A.
  - destruct (put_full_url_ok _ _ _ H) as (c & u & b & d & T & _ & _ & _ & _ & A & _). eauto.
  - destruct (put_mimetype_id_ok _ _ _ H) as (_ & A & _). exact A.
  - destruct (put_mimetype_ok _ _ _ H) as (u & b & i & T & B & Z & _ & _ & A & _). cbn [fst snd] in *. exists u, b, i. auto.
  - destruct (put_is_article_ok _ _ _ H) as (A & _). exact A.
  - destruct (put_cluster_ok _ _ _ H) as (_ & A & _). rewrite A. destruct (e_kind (attrs o)); reflexivity.
  - destruct (put_blob_ok _ _ _ H) as (_ & A & _). rewrite A. destruct (e_kind (attrs o)); reflexivity.
  - destruct (put_redirect_ok _ _ _ H) as (_ & A & _). rewrite A. destruct (e_kind (attrs o)); reflexivity.
Qed.

Lemma one_byte : forall (b : bytes), zlen b = 1 -> exists x, b = [x].
Proof. intros [|x [|y r]] H; [discriminate H|eauto|]. rewrite !zlen_cons in H. pose proof (zlen_nonneg r). lia. Qed.

Theorem accepted_representable : forall a o l o' l', assign a (o, l) = (Ok tt, (o', l')) -> representable (attrs o) -> fits a (attrs o) (ml_types l) -> representable (attrs o').
Proof.
  intros a o l o' l' H [(S1 & S2 & S3 & S4 & S5) K] F. unfold representable, entry_storable, kind_consistent in *.
  destruct a; cbn [assign] in H; try (apply on_entry_inv in H as [H _]; cbn [fst snd] in H); cbn [fits] in F.
  - destruct (put_namespace_ok _ _ _ H) as (u & b & T & B & Hl & A & _). rewrite A. cbn. destruct (one_byte b Hl) as [x ->]. split; [|exact K]. eauto 8.
  - destruct (put_url_ok _ _ _ H) as (u & b & T & B & N & A & _). rewrite A. cbn. split; [|exact K]. pose proof (no_nul_storable _ _ B N). auto 8.
  - destruct (put_title_ok _ _ _ H) as (u & b & T & B & N & A & _). rewrite A. cbn. split; [|exact K]. pose proof (no_nul_storable _ _ B N). eauto 8.
  - destruct (put_full_url_ok _ _ _ H) as (c & u & b & d & T & B & Hl & D & N & A & _). rewrite A. cbn. split; [|exact K]. destruct (one_byte b Hl) as [x ->].
    pose proof (no_nul_storable _ _ D N). eauto 8.
  - destruct (put_mimetype_id_ok _ _ _ H) as (P & A & _). rewrite A. cbn. destruct F as (F & c & b & Ek). rewrite Ek in *. split; [|lia]. split; [lia|]. auto 8.
  - destruct (put_mimetype_ok _ _ _ H) as (u & b & i & T & B & Z & I1 & I2 & A & _). cbn [fst snd] in *. rewrite A. cbn. destruct F as (F & c & d & Ek). rewrite Ek in *. split; [|lia]. split; [lia|]. auto 8.
  - destruct (put_is_article_ok _ _ _ H) as (A & _). rewrite A. auto 8.
  - destruct (put_cluster_ok _ _ _ H) as (_ & A & P). rewrite A. destruct (e_kind (attrs o)) as [c b|r] eqn:Ek; cbn; [|rewrite Ek; auto 8]. specialize (P c b eq_refl). split; [|exact K]. split; [exact S1|]. split; [exact S2|]. split; [exact S3|]. split; [exact S4|]. lia.
  - destruct (put_blob_ok _ _ _ H) as (_ & A & P). rewrite A. destruct (e_kind (attrs o)) as [c b|r] eqn:Ek; cbn; [|rewrite Ek; auto 8]. specialize (P c b eq_refl). split; [|exact K]. split; [exact S1|]. split; [exact S2|]. split; [exact S3|]. split; [exact S4|]. lia.
  - destruct (put_redirect_ok _ _ _ H) as (_ & A & P). rewrite A. destruct (e_kind (attrs o)) as [c b|r] eqn:Ek; cbn; [rewrite Ek; auto 8|]. specialize (P r eq_refl). split; [|exact K]. split; [exact S1|]. split; [exact S2|]. split; [exact S3|]. split; [exact S4|]. lia.
Qed.

(** ** Rejected assignments *)
Theorem rejected : forall a o l x o' l', assign a (o, l) = (Err x, (o', l')) ->
  match a with
  | AFullUrl v => l' = l /\ (o' = o \/ exists c u, text v (c :: u) /\ put_namespace (PyStr [c]) o = (Ok tt, o'))
  | AMimetype _ => o' = o /\ (eo_mutable o = true -> l' = l)
  | _ => o' = o /\ l' = l
  end.
Proof.
  intros a o l x o' l' H. destruct a; cbn [assign] in H; try (apply on_entry_inv in H as [H E]; cbn [fst snd] in H, E).
  1: { unfold put_namespace in H. apply change_err in H. auto. }
  1: { unfold put_url in H. apply change_err in H. auto. }
  1: { unfold put_title in H. apply change_err in H. auto. }
  2: { unfold put_mimetype_id in H. apply change_err in H. auto. }
  3: { unfold put_is_article in H. apply change_err in H. auto. }
  3: { unfold put_cluster_number in H. apply change_err in H. auto. }
  3: { unfold put_blob_number in H. apply change_err in H. auto. }
  3: { unfold put_redirect_index in H. apply change_err in H. auto. }
  - split; [exact E|]. unfold put_full_url, mbind in H. destruct v as [s|s].
    + destruct s as [|c u]; [injection H as _ <-; auto|]. destruct (put_namespace (PyStr [c]) o) as [[[]|y] o1] eqn:N.
      * right. exists c, u. split; [reflexivity|]. unfold put_url in H. apply change_err in H. subst o1. exact N.
      * left. injection H as _ <-. unfold put_namespace in N. apply change_err in N. exact N.
    + unfold decode in H. cbn [text]. destruct (utf8_decode s) as [s1|]; [|injection H as _ <-; auto].
      destruct s1 as [|c u]; [injection H as _ <-; auto|]. destruct (put_namespace (PyStr [c]) o) as [[[]|y] o1] eqn:N.
      * right. exists c, u. split; [reflexivity|]. unfold put_url in H. apply change_err in H. subst o1. exact N.
      * left. injection H as _ <-. unfold put_namespace in N. apply change_err in N. exact N.
  - unfold put_mimetype in H. unfold mbind at 1 in H. destruct (both v) as [[u b]|] eqn:E; [|injection H as _ <- <-; auto].
    destruct (zlen b =? 0); [injection H as _ <- <-; auto|]. destruct (has_nul b); [injection H as _ <- <-; auto|]. unfold mbind in H. cbn [fst snd] in H.
    destruct (mt_get_index (PyStr u) true l) as [[[i|] l1]|] eqn:G.
    + destruct (mt_get_index_spec _ _ _ _ _ G) as (m & _ & _ & I). destruct (I i eq_refl) as [I1 _]. apply on_entry_inv in H as [H E2]. cbn [fst snd] in H, E2.
      pose proof H as H0. unfold put_mimetype_id in H. pose proof (change_err _ _ _ _ H) as HO. split; [exact HO|]. intro M. exfalso. unfold change in H.
      unfold mt_get in I1. destruct ((zlen (ml_types l1) <=? i) || (i <? 0)) eqn:Eb; [discriminate|].
      replace (i <? 0) with false in H by lia. unfold ensure_mutable in H. rewrite M in H. cbn [bind] in H. destruct (i =? e_mimetype (attrs o)); discriminate.
    + exfalso. destruct (mt_get_index_spec _ _ _ _ _ G) as (m & _ & [[_ X]|(_ & _ & _ & _ & _ & X)] & _); [destruct (X eq_refl); discriminate|congruence].
    + injection H as _ <- <-. auto.
Qed.

(** ** Dirty flag *)
(** Every assignment keeps the url under which the entry is stored and the
    [mutable] flag, and the object only if it does not become dirty. *)
Definition settles (o o' : eobj) : Prop :=
  w_old_url (eo_went o') = w_old_url (eo_went o) /\ eo_mutable o' = eo_mutable o /\ (o' = o \/ eo_dirty o' = true).
Lemma settles_refl : forall o, settles o o.
Proof. intro o. split; [reflexivity|]. split; [reflexivity|]. left. reflexivity. Qed.
Lemma settles_trans : forall a b c, settles a b -> settles b c -> settles a c.
Proof. intros a b c (A1 & A2 & A3) (B1 & B2 & B3). split; [congruence|]. split; [congruence|]. destruct B3 as [->|B3]; [exact A3|auto]. Qed.
Lemma settles_modified : forall w o, w_old_url w = w_old_url (eo_went o) -> settles o (modified w o).
Proof. intros w o H. split; [exact H|]. split; [reflexivity|]. right. reflexivity. Qed.
Lemma settles_change : forall f o r o', change f o = (r, o') -> (forall o1, f o = Ok o1 -> settles o o1) -> settles o o'.
Proof. intros f o r o' H F. unfold change in H. destruct (f o); injection H as _ <-; [apply F; reflexivity|apply settles_refl]. Qed.

Ltac settle := repeat (cbn [bind] in *; match goal with
  | |- settles ?a ?a => apply settles_refl
  | |- settles _ (modified _ _) => apply settles_modified; reflexivity
  | H : Err _ = Ok _ |- _ => discriminate H
  | H : Ok _ = Ok ?x |- _ => injection H as <-
  | H : context [if ?b then _ else _] |- _ => destruct b
  | H : context [match ?v with PyStr _ => _ | PyBytes _ => _ end] |- _ => destruct v
  | H : context [both ?v] |- _ => destruct (both v) as [[? ?]|]
  | H : context [ensure_mutable ?o] |- _ => destruct (ensure_mutable o)
  | H : context [match ?v with Some _ => _ | None => _ end] |- _ => destruct v
  | H : context [match ?v with Content _ _ => _ | Redirect _ => _ end] |- _ => destruct v
  end).
Lemma settles_namespace : forall v o r o', put_namespace v o = (r, o') -> settles o o'.
Proof.
  intros v o r o' H. unfold put_namespace in H. eapply settles_change; [exact H|]. clear. intros o1 H. destruct (both v) as [[u b]|]; cbn [bind] in H; [|discriminate].
  destruct (negb _); [discriminate|]. destruct (ensure_mutable o); cbn [bind] in H; [|discriminate]. destruct (ueqb u (e_ns (attrs o))); [injection H as <-; apply settles_refl|].
  injection H as <-. destruct (ueqb u NS_C); apply settles_modified; reflexivity.
Qed.
Lemma settles_url : forall v o r o', put_url v o = (r, o') -> settles o o'.
Proof. intros v o r o' H. unfold put_url in H. eapply settles_change; [exact H|]. clear. intros o1 H. settle. Qed.
Lemma settles_mimetype_id : forall v o r o', put_mimetype_id v o = (r, o') -> settles o o'.
Proof. intros v o r o' H. unfold put_mimetype_id in H. eapply settles_change; [exact H|]. clear. intros o1 H. settle. Qed.
Lemma settles_assign : forall a s r s', assign a s = (r, s') -> settles (fst s) (fst s').
Proof.
  intros a [o l] r [o' l'] H. cbn [fst]. destruct a; cbn [assign] in H; try (apply on_entry_inv in H as [H _]; cbn [fst snd] in H).
  - eapply settles_namespace; exact H.
  - eapply settles_url; exact H.
  - unfold put_title in H. eapply settles_change; [exact H|]. clear. intros o1 H. destruct (e_title (attrs o)); settle.
  - unfold put_full_url, mbind in H. destruct v as [s|s].
    + destruct s as [|c u]; [injection H as _ <-; apply settles_refl|]. destruct (put_namespace (PyStr [c]) o) as [[[]|y] o1] eqn:N.
      * eapply settles_trans; [eapply settles_namespace; exact N|eapply settles_url; exact H].
      * injection H as _ <-. eapply settles_namespace; exact N.
    + destruct (decode s) as [[|c u]|]; [injection H as _ <-; apply settles_refl| |injection H as _ <-; apply settles_refl].
      destruct (put_namespace (PyStr [c]) o) as [[[]|y] o1] eqn:N.
      * eapply settles_trans; [eapply settles_namespace; exact N|eapply settles_url; exact H].
      * injection H as _ <-. eapply settles_namespace; exact N.
  - eapply settles_mimetype_id; exact H.
  - unfold put_mimetype in H. unfold mbind at 1 in H. destruct (both v) as [[u b]|] eqn:E; [|injection H as _ <- _; apply settles_refl].
    destruct (zlen b =? 0); [injection H as _ <- _; apply settles_refl|]. destruct (has_nul b); [injection H as _ <- _; apply settles_refl|]. unfold mbind in H. cbn [fst snd] in H.
    destruct (mt_get_index (PyStr u) true l) as [[[i|] l1]|]; [|injection H as _ <- _; apply settles_refl|injection H as _ <- _; apply settles_refl].
    apply on_entry_inv in H as [H _]. cbn [fst] in H. eapply settles_mimetype_id; exact H.
  - unfold put_is_article in H. eapply settles_change; [exact H|]. clear. intros o1 H. destruct (w_force (eo_went o)); settle.
  - unfold put_cluster_number in H. eapply settles_change; [exact H|]. clear. intros o1 H. destruct (e_kind (attrs o)); settle.
  - unfold put_blob_number in H. eapply settles_change; [exact H|]. clear. intros o1 H. destruct (e_kind (attrs o)); settle.
  - unfold put_redirect_index in H. eapply settles_change; [exact H|]. clear. intros o1 H. destruct (e_kind (attrs o)); settle.
Qed.
Lemma settles_assigns : forall l s, settles (fst s) (fst (assigns l s)).
Proof.
  induction l as [|a l IH]; intro s; cbn [assigns]; [apply settles_refl|]. destruct (assign a s) as [r s1] eqn:E. cbn [snd].
  eapply settles_trans; [eapply settles_assign; exact E|apply IH].
Qed.
