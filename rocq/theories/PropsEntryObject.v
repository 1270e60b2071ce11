(** Properties of entry objects: C61 (assignments), C62 (saving edits),
    C63 (removal through an entry object), C64 (reading through an entry object). *)
From Coq Require Import List ZArith Bool Lia.
From Coq Require Import ZifyBool ZifyNat.
From Verif Require PointerListProofs.
From Verif Require Import Base BaseProofs Utf8 Utf8Proofs Entry EntrySpec EntryProofs MimeTypeList PointerList SpaceAllocator SpaceAllocatorSpec
  Reader Decompressors DecompressorsSpec DecompressorsProofs Cluster ClusterSpec CompressionStrategy Archive ArchiveSpec ArchiveProofs ArchiveFacts ArchiveLaws ArchiveEdit EntryObject EntryObjectSpec EntryObjectProofs
  PropsCluster PropsArchive.
Import ListNotations.
Open Scope Z_scope.

(** ** C61: assignments are all-or-nothing and keep entries storable *)
Definition C61_full_statement : Prop := forall a o l r o' l', representable (attrs o) -> assign a (o, l) = (r, (o', l')) ->
  match r with
  | Ok _ => representable (attrs o')
  | Err _ => o' = o /\ l' = l
  end.

(** What an accepted assignment does: the attribute has the new value, all others are as before. *)
Theorem C61_accepted : forall a o l o' l', assign a (o, l) = (Ok tt, (o', l')) -> intended a (attrs o) (ml_types l') (attrs o').
Proof. exact accepted_intended. Qed.
Print Assumptions C61_accepted.
(** [is_article] can be read back. *)
Theorem C61_is_article : forall v o l o' l' s, assign (AIsArticle v) (o, l) = (Ok tt, (o', l')) -> is_article s (eo_went o') = Ok v /\ (v = true -> e_ns (attrs o') = NS_C).
Proof.
  intros v o l o' l' s H. cbn [assign] in H. apply on_entry_inv in H as [H _]. cbn [fst] in H. destruct (put_is_article_ok _ _ _ H) as (A & F & _ & N).
  unfold is_article. rewrite F, A. auto.
Qed.
(** Values that fit the format keep the entry storable. *)
Theorem C61_storable_partial : forall a o l o' l', assign a (o, l) = (Ok tt, (o', l')) -> representable (attrs o) -> fits a (attrs o) (ml_types l) -> representable (attrs o').
Proof. exact accepted_representable. Qed.
Print Assumptions C61_storable_partial.
(** Rejected assignments change nothing, except that [full_url] may already have
    changed the namespace; assigning a new mimetype to an immutable entry registers it. *)
Theorem C61_rejected_partial : forall a o l x o' l', assign a (o, l) = (Err x, (o', l')) ->
  match a with
  | AFullUrl v => l' = l /\ (o' = o \/ exists c u, text v (c :: u) /\ put_namespace (PyStr [c]) o = (Ok tt, o'))
  | AMimetype _ => o' = o /\ (eo_mutable o = true -> l' = l)
  | _ => o' = o /\ l' = l
  end.
Proof. exact rejected. Qed.
Print Assumptions C61_rejected_partial.

Definition sample_entry : entry := mkEntry 0 [67] [97] (Some [84]) (Content 0 0).
Definition sample_link : entry := mkEntry 65535 [67] [98] (Some []) (Redirect 0).
Definition html : mlist := mlist_new [[x74; x2f; x68]].
Lemma sample_entry_ok : representable sample_entry.
Proof.
  split; [|discriminate]. split; [cbn; lia|]. split; [eexists; reflexivity|]. split; [split; [eexists; reflexivity|cbn; intuition discriminate]|].
  split; [eexists; split; [reflexivity|split; [eexists; reflexivity|cbn; intuition discriminate]]|cbn; lia].
Qed.
Lemma sample_link_ok : representable sample_link.
Proof.
  split; [|reflexivity]. split; [cbn; lia|]. split; [eexists; reflexivity|]. split; [split; [eexists; reflexivity|cbn; intuition discriminate]|].
  split; [eexists; split; [reflexivity|split; [eexists; reflexivity|cbn; intuition discriminate]]|cbn; lia].
Qed.
(** Refutation: [full_url = "Ba\0"] raises, yet the entry is now in namespace "B". *)
Theorem C61_refuted : ~ C61_full_statement.
Proof.
  intro H. specialize (H (AFullUrl (PyStr [66; 97; 0])) (eobj_read sample_entry) html _ _ _ sample_entry_ok eq_refl). cbn in H. destruct H as [H _]. discriminate H.
Qed.
(** Further defects: a mimetype number makes content parse as a redirect or
    fail to be written; so does a mimetype given to a redirect; large numbers
    fail to be written. *)
Example C61_mimetype_number : forall m, 65535 <= m ->
  fst (assign (AMimetypeId m) (eobj_read sample_entry, html)) = Ok tt /\ ~ representable (attrs (fst (snd (assign (AMimetypeId m) (eobj_read sample_entry, html))))).
Proof.
  intros m Hm. unfold assign, on_entry, put_mimetype_id, change. cbn [fst snd eobj_read attrs fresh w_entry eo_went eo_mutable ensure_mutable bind sample_entry e_mimetype].
  replace (m <? 0) with false by lia. replace (m =? 0) with false by lia. cbn. split; [reflexivity|]. intros [(H & _) K]. cbn in H, K. lia.
Qed.
Example C61_mimetype_of_redirect :
  fst (assign (AMimetype (PyStr [116; 47; 104])) (eobj_read sample_link, html)) = Ok tt /\
  ~ kind_consistent (attrs (fst (snd (assign (AMimetype (PyStr [116; 47; 104])) (eobj_read sample_link, html))))).
Proof. split; [vm_compute; reflexivity|]. intro K. vm_compute in K. discriminate K. Qed.
Example C61_cluster_number :
  fst (assign (AClusterNumber (2 ^ 32)) (eobj_read sample_entry, html)) = Ok tt /\
  entry_to_bytes (attrs (fst (snd (assign (AClusterNumber (2 ^ 32)) (eobj_read sample_entry, html))))) = Err StructError.
Proof. split; vm_compute; reflexivity. Qed.
Example C61_example : fst (assign (AFullUrl (PyStr [67; 8364])) (eobj_read sample_entry, html)) = Ok tt /\
  fst (assign (ATitle (Some (PyBytes [xc3; xa4]))) (eobj_read sample_entry, html)) = Ok tt /\
  fst (assign (ANamespace (PyStr [8364])) (eobj_read sample_entry, html)) = Err ValueError /\
  fst (assign (AMimetype (PyStr [120])) (eobj_read sample_entry, html)) = Ok tt /\ fits (AMimetype (PyStr [120])) sample_entry (ml_types html).
Proof. do 4 (split; [vm_compute; reflexivity|]). split; [reflexivity|]. exists 0, 0. reflexivity. Qed.

(** ** C62: saving edits *)
(** An entry object as obtained from the archive, after any assignments. *)
Definition edits (s : zim) (u : ustr) (o : eobj) : Prop :=
  exists e l m, get_entry_by_full_url s u = Ok e /\ o = fst (assigns l (eobj_read e, m)).

(** If the object is not dirty, nothing was changed and [flush] does nothing. *)
Theorem C62_clean_is_unchanged : forall l e m, eo_dirty (fst (assigns l (eobj_read e, m))) = false -> fst (assigns l (eobj_read e, m)) = eobj_read e.
Proof. intros l e m H. destruct (settles_assigns l (eobj_read e, m)) as (_ & _ & [E|E]); [exact E|congruence]. Qed.
Theorem C62_clean_flush : forall n o s, eo_mutable o = true -> eo_dirty o = false -> eobj_flush n o s = (Ok o, s).
Proof. intros n o s M D. unfold eobj_flush. rewrite M, D. reflexivity. Qed.
(** An assignment that leaves all attributes as they are leaves the object as it
    was; an object whose attributes never changed is not written by [flush]. *)
Lemma change_same : forall f (o o' : eobj) r, change f o = (r, o') -> (forall o1, f o = Ok o1 -> attrs o1 = attrs o -> w_force (eo_went o1) = w_force (eo_went o) -> o1 = o) ->
  attrs o' = attrs o -> w_force (eo_went o') = w_force (eo_went o) -> o' = o.
Proof. intros f o o' r H F H1 H2. unfold change in H. destruct (f o) as [o1|x]; injection H as _ <-; [apply F; auto|reflexivity]. Qed.
Ltac same_value := intros o1' HQ HA HF; unfold ensure_mutable in *;
  repeat match goal with
  | H : bind ?m _ = Ok _ |- _ => destruct m as [?x|?x] eqn:?; cbn [bind] in H; [|discriminate H]
  | H : (let (_, _) := ?p in _) = Ok _ |- _ => destruct p
  | H : (if ?b then _ else _) = Ok _ |- _ => destruct b eqn:?; try discriminate H
  | H : (match ?k with Content _ _ => _ | Redirect _ => _ end) = Ok _ |- _ => destruct k eqn:?
  end; match goal with H : Ok _ = Ok _ |- _ => injection H as <- end; [reflexivity|exfalso].
Theorem C62_same_value : forall a o m r o' m', assign a (o, m) = (r, (o', m')) -> attrs o' = attrs o -> w_force (eo_went o') = w_force (eo_went o) -> o' = o.
Proof.
  assert (NSP : forall v o r o', put_namespace v o = (r, o') -> e_ns (attrs o') = e_ns (attrs o) -> o' = o).
  { intros v o r o' H Q. unfold put_namespace, change in H. destruct (both v) as [[u b]|x]; cbn [bind] in H; [|injection H as _ <-; reflexivity]. destruct (negb _); [injection H as _ <-; reflexivity|].
    destruct (ensure_mutable o); cbn [bind] in H; [|injection H as _ <-; reflexivity]. destruct (ueqb u (e_ns (attrs o))) eqn:E; injection H as _ <-; [reflexivity|]. exfalso.
    assert (u = e_ns (attrs o)) by (destruct (ueqb u NS_C); exact Q). apply ueqb_eq in H. congruence. }
  assert (URL : forall v o r o', put_url v o = (r, o') -> e_ns (attrs o') = e_ns (attrs o) /\ (e_url (attrs o') = e_url (attrs o) -> o' = o)).
  { intros v o r o' H. unfold put_url, change in H. destruct (both v) as [[u b]|x]; cbn [bind] in H; [|injection H as _ <-; auto]. destruct (has_nul b); [injection H as _ <-; auto|].
    destruct (ensure_mutable o); cbn [bind] in H; [|injection H as _ <-; auto]. destruct (ueqb u (e_url (attrs o))) eqn:E; injection H as _ <-; [auto|]. split; [reflexivity|]. intro Q. exfalso. apply ueqb_neq in E. exact (E Q). }
  assert (MT : forall v o r o', put_mimetype_id v o = (r, o') -> attrs o' = attrs o -> w_force (eo_went o') = w_force (eo_went o) -> o' = o).
  { intros v o r o' H H1 H2. eapply change_same; [exact H| |exact H1|exact H2]. same_value. apply (f_equal e_mimetype) in HA. cbn in HA. unfold attrs in *. lia. }
  intros a o m r o' m' H H1 H2. destruct a; cbn [assign] in H;
    match type of H with on_entry ?f _ = _ => unfold on_entry in H; cbn [fst snd] in H; destruct (f o) as [r0 o0] eqn:E; injection H as <- <- <- | _ => idtac end.
  - eapply NSP; [exact E|]. rewrite H1. reflexivity.
  - eapply URL; [exact E|]. rewrite H1. reflexivity.
  - eapply change_same; [exact E| |exact H1|exact H2]. same_value. apply (f_equal e_title) in HA. cbn in HA. unfold attrs in *. match goal with Q : context [match e_title _ with _ => _ end] |- _ => rewrite <- HA, ueqb_refl in Q; discriminate Q end.
  - unfold put_full_url, mbind in E. destruct (match v with PyStr u => Ok u | PyBytes b => decode b end) as [[|c u]|x]; [injection E as _ <-; reflexivity| |injection E as _ <-; reflexivity].
    destruct (put_namespace (PyStr [c]) o) as [[[]|x] o1] eqn:E1.
    + destruct (URL _ _ _ _ E) as (U1 & U2). assert (o1 = o) by (eapply NSP; [exact E1|]; rewrite <- U1, H1; reflexivity). subst o1. apply U2. rewrite H1. reflexivity.
    + injection E as _ <-. eapply NSP; [exact E1|]. rewrite H1. reflexivity.
  - eapply MT; eassumption.
  - unfold put_mimetype, mbind in H. destruct (both v) as [[u b]|x]; [|injection H as _ <- _; reflexivity]. destruct (zlen b =? 0); [injection H as _ <- _; reflexivity|]. destruct (has_nul b); [injection H as _ <- _; reflexivity|].
    cbn [snd fst] in H. destruct (mt_get_index (PyStr u) true m) as [[[i|] l]|x]; [|injection H as _ <- _; reflexivity|injection H as _ <- _; reflexivity].
    unfold on_entry in H. cbn [fst snd] in H. destruct (put_mimetype_id i o) as [r0 o0] eqn:E. injection H as _ <- _. eapply MT; eassumption.
  - eapply change_same; [exact E| |exact H1|exact H2]. same_value. cbn in HF. match goal with Q : context [match w_force _ with _ => _ end] |- _ => rewrite <- HF, eqb_reflx in Q; discriminate Q end.
  - eapply change_same; [exact E| |exact H1|exact H2]. intros o1 Q Q1 Q2. cbv beta in Q. destruct (e_kind (attrs o)) eqn:EK; [|congruence]. revert o1 Q Q1 Q2. same_value. apply (f_equal e_kind) in HA. rewrite EK in HA. cbn in HA. injection HA. lia.
  - eapply change_same; [exact E| |exact H1|exact H2]. intros o1 Q Q1 Q2. cbv beta in Q. destruct (e_kind (attrs o)) eqn:EK; [|congruence]. revert o1 Q Q1 Q2. same_value. apply (f_equal e_kind) in HA. rewrite EK in HA. cbn in HA. injection HA. lia.
  - eapply change_same; [exact E| |exact H1|exact H2]. intros o1 Q Q1 Q2. cbv beta in Q. destruct (e_kind (attrs o)) eqn:EK; [congruence|]. revert o1 Q Q1 Q2. same_value. apply (f_equal e_kind) in HA. rewrite EK in HA. cbn in HA. injection HA. lia.
Qed.
Print Assumptions C62_same_value.
Theorem C62_unchanged_is_clean : forall l e m,
  (forall n, let o := fst (assigns (firstn n l) (eobj_read e, m)) in attrs o = e /\ w_force (eo_went o) = None) ->
  forall k s, eobj_flush k (fst (assigns l (eobj_read e, m))) s = (Ok (eobj_read e), s).
Proof.
  intros l e m U k s. assert (G : fst (assigns l (eobj_read e, m)) = eobj_read e); [|rewrite G; reflexivity].
  revert m U. induction l as [|a l IH]; intros m U; [reflexivity|]. cbn [assigns]. destruct (assign a (eobj_read e, m)) as [r [o' m']] eqn:E. cbn [snd].
  assert (o' = eobj_read e). { destruct (U 1%nat) as (U1 & U2). cbn [firstn assigns] in U1, U2. rewrite E in U1, U2. cbn [snd fst] in U1, U2. eapply C62_same_value; [exact E|exact U1|exact U2]. }
  subst o'. apply IH. intro n. specialize (U (S n)). cbn [firstn assigns] in U. rewrite E in U. exact U.
Qed.
Print Assumptions C62_unchanged_is_clean.
(** After a successful flush the object is clean, so that a second flush does nothing. *)
Theorem C62_flush_twice : forall n k o s o' s', eobj_flush n o s = (Ok o', s') -> attrs o' = attrs o /\ eobj_flush k o' s' = (Ok o', s').
Proof.
  intros n k o s o' s' H. unfold eobj_flush in H. destruct (eo_mutable o) eqn:M; [|discriminate]. cbn [negb] in H. destruct (eo_dirty o) eqn:D.
  - unfold mbind in H. destruct (write_entry n (eo_went o) s) as [[[]|x] s1]; [|discriminate]. injection H as <- <-. split; [reflexivity|].
    unfold eobj_flush. cbn. reflexivity.
  - injection H as <- <-. split; [reflexivity|]. apply C62_clean_flush; assumption.
Qed.
Print Assumptions C62_flush_twice.

(** The edited object can be stored under its url, which is free; the entry is
    content, no redirect leads to it, and it is not the main page. *)
Record saveable (s : zim) (u : ustr) (o : eobj) : Prop := mkSaveable {
  sv_representable : representable (attrs o);
  sv_content : exists c b, e_kind (attrs o) = Content c b;
  sv_free : full_url (attrs o) = u \/ get_entry_by_full_url s (full_url (attrs o)) = Err EntryNotFound;
  sv_unlinked : forall x, ~ points s x u;
  sv_main : main_url s <> Some u }.
Definition C62_full_statement : Prop := forall s L u o n, consistent s L -> roomy s L -> edits s u o -> saveable s u o ->
  exists o' s', eobj_flush (S (S n)) o s = (Ok o', s') /\ get_entry_by_full_url s' (full_url (attrs o)) = Ok (attrs o).

(** An entry object never claims to be an article outside of namespace C. *)
Definition honest (o : eobj) : Prop := w_force (eo_went o) = Some true -> e_ns (attrs o) = NS_C.
Lemma honest_namespace : forall v o o', put_namespace v o = (Ok tt, o') -> honest o -> honest o'.
Proof.
  intros v o o' H HO. unfold put_namespace in H. apply change_ok in H. destruct (both v) as [[u b]|]; cbn [bind] in H; [|discriminate].
  destruct (negb _); [discriminate|]. destruct (ensure_mutable o); cbn [bind] in H; [|discriminate]. destruct (ueqb u (e_ns (attrs o))); [injection H as <-; exact HO|].
  injection H as <-. unfold honest, attrs. destruct (ueqb u NS_C) eqn:E; cbn; [intros _; apply ueqb_eq; exact E|discriminate].
Qed.
Lemma honest_same : forall o o', e_ns (attrs o') = e_ns (attrs o) -> w_force (eo_went o') = w_force (eo_went o) -> honest o -> honest o'.
Proof. intros o o' A B H. unfold honest in *. rewrite A, B. exact H. Qed.
Ltac same_force := repeat (cbn [bind] in *; match goal with
  | |- w_force _ = w_force _ => reflexivity
  | H : Err _ = Ok _ |- _ => discriminate H
  | H : Ok _ = Ok ?x |- _ => injection H as <-
  | H : context [if ?b then _ else _] |- _ => destruct b
  | H : context [both ?v] |- _ => destruct (both v) as [[? ?]|]
  | H : context [ensure_mutable ?o] |- _ => destruct (ensure_mutable o)
  | H : context [match ?v with Some _ => _ | None => _ end] |- _ => destruct v
  | H : context [match ?v with Content _ _ => _ | Redirect _ => _ end] |- _ => destruct v
  end).
Lemma honest_url : forall v o o', put_url v o = (Ok tt, o') -> honest o -> honest o'.
Proof.
  intros v o o' H. apply honest_same.
  - destruct (put_url_ok _ _ _ H) as (u & b & _ & _ & _ & -> & _). reflexivity.
  - unfold put_url in H. apply change_ok in H. same_force.
Qed.
Lemma honest_mimetype_id : forall v o o', put_mimetype_id v o = (Ok tt, o') -> honest o -> honest o'.
Proof.
  intros v o o' H. apply honest_same.
  - destruct (put_mimetype_id_ok _ _ _ H) as (_ & -> & _). reflexivity.
  - unfold put_mimetype_id in H. apply change_ok in H. same_force.
Qed.
Lemma honest_assign : forall a s r s', assign a s = (r, s') -> honest (fst s) -> honest (fst s').
Proof.
  intros a [o l] [[]|x] [o' l'] H HO; cbn [fst] in *.
  - destruct a; cbn [assign] in H; try (apply on_entry_inv in H as [H _]; cbn [fst snd] in H).
    + eapply honest_namespace; eassumption.
    + eapply honest_url; eassumption.
    + eapply honest_same; [| |exact HO]; [destruct (put_title_ok _ _ _ H) as (u & b & _ & _ & _ & -> & _); reflexivity|].
      unfold put_title in H. apply change_ok in H. destruct (e_title (attrs o)); same_force.
    + unfold put_full_url, mbind in H. destruct (match v with PyStr u => Ok u | PyBytes b => decode b end) as [[|c u]|]; [discriminate| |discriminate].
      destruct (put_namespace (PyStr [c]) o) as [[[]|y] o1] eqn:N; [|discriminate]. eapply honest_url; [exact H|]. eapply honest_namespace; eassumption.
    + eapply honest_mimetype_id; eassumption.
    + unfold put_mimetype in H. unfold mbind at 1 in H. destruct (both v) as [[u b]|] eqn:E; [|discriminate].
      destruct (zlen b =? 0); [discriminate|]. destruct (has_nul b); [discriminate|]. unfold mbind in H. cbn [fst snd] in H.
      destruct (mt_get_index (PyStr u) true l) as [[[i|] l1]|]; [|discriminate|discriminate]. apply on_entry_inv in H as [H _]. cbn [fst] in H. eapply honest_mimetype_id; eassumption.
    + destruct (put_is_article_ok _ _ _ H) as (A & F & _ & N). intro T. rewrite A. rewrite F in T. injection T as ->. auto.
    + eapply honest_same; [| |exact HO]; [destruct (put_cluster_ok _ _ _ H) as (_ & -> & _); destruct (e_kind (attrs o)); reflexivity|].
      unfold put_cluster_number in H. apply change_ok in H. destruct (e_kind (attrs o)); same_force.
    + eapply honest_same; [| |exact HO]; [destruct (put_blob_ok _ _ _ H) as (_ & -> & _); destruct (e_kind (attrs o)); reflexivity|].
      unfold put_blob_number in H. apply change_ok in H. destruct (e_kind (attrs o)); same_force.
    + eapply honest_same; [| |exact HO]; [destruct (put_redirect_ok _ _ _ H) as (_ & -> & _); destruct (e_kind (attrs o)); reflexivity|].
      unfold put_redirect_index in H. apply change_ok in H. destruct (e_kind (attrs o)); same_force.
  - pose proof (rejected _ _ _ _ _ _ H) as R. destruct a; try (destruct R as [-> _]; exact HO).
    destruct R as [_ [->|(c & u & _ & N)]]; [exact HO|]. eapply honest_namespace; eassumption.
Qed.
Lemma honest_assigns : forall l s, honest (fst s) -> honest (fst (assigns l s)).
Proof.
  induction l as [|a l IH]; intros s H; cbn [assigns]; [exact H|]. apply IH. destruct (assign a s) as [r s1] eqn:E. exact (honest_assign _ _ _ _ E H).
Qed.

Lemma editable_edits : forall s L u o, consistent s L -> edits s u o -> saveable s u o ->
  (e_ns (attrs o) = NS_C -> in_C u = true \/ w_force (eo_went o) <> None) -> eo_mutable o = true /\ w_old_url (eo_went o) = u /\ editable s u (eo_went o).
Proof.
  intros s L u o C (e & l & m & G & ->) [] NC. set (o := fst (assigns l (eobj_read e, m))) in *.
  destruct (settles_assigns l (eobj_read e, m)) as (S1 & S2 & _). fold o in S1, S2. cbn in S1, S2.
  assert (U : full_url e = u) by (apply (lookup_iff _ _ _ _ C) in G as [_ G]; exact G). rewrite U in S1.
  split; [exact S2|]. split; [exact S1|]. destruct sv_representable0 as [R1 R2]. constructor; auto.
  - eauto.
  - apply honest_assigns. intro H. discriminate H.
  - intros F N. destruct (NC N) as [H|H]; [exact H|congruence].
Qed.

(** Partial: an entry moved into namespace C must have been told its article status. *)
Theorem C62_edits_are_saved_partial : forall s L u o n o' s', consistent s L -> edits s u o -> saveable s u o ->
  (e_ns (attrs o) = NS_C -> in_C u = true \/ w_force (eo_went o) <> None) ->
  eobj_flush (S (S n)) o s = (Ok o', s') ->
  get_entry_by_full_url s' (full_url (attrs o)) = Ok (attrs o) /\
  (u <> full_url (attrs o) -> get_entry_by_full_url s' u = Err EntryNotFound) /\
  (forall v d, v <> u -> get_entry_by_full_url s v = Ok d ->
    exists d', get_entry_by_full_url s' v = Ok d' /\ same_entry d d' /\ target_url s' d' = target_url s d) /\
  (forall a us, is_article s (eo_went o) = Ok a -> article_urls s = Some us ->
    exists us', article_urls s' = Some us' /\ forall x, In x us' <-> (x = full_url (attrs o) /\ a = true) \/ (x <> u /\ In x us)).
Proof.
  intros s L u o n o' s' C ED SV NC H. destruct (editable_edits s L u o C ED SV NC) as (M & OU & E).
  destruct (edit_setup s L u (eo_went o) C E) as (i & e0 & a0 & Hz & Hu & _ & _ & Ha & HaS).
  unfold eobj_flush in H. rewrite M in H. cbn [negb] in H. destruct (eo_dirty o) eqn:D.
  - unfold mbind in H. destruct (write_entry (S (S n)) (eo_went o) s) as [[[]|x] s1] eqn:W; [|discriminate]. injection H as _ <-.
    destruct (edit_law s L u (eo_went o) n s1 C E W) as [_ H1 H2 H3 _ H5]. split; [exact H1|]. split; [exact H2|]. split; [exact H3|].
    intros a us Hua Hus. rewrite Ha in Hua. injection Hua as <-. destruct (H5 us Hus) as (us' & E1 & _ & E2). exists us'. split; [exact E1|]. intro x. rewrite E2, HaS. reflexivity.
  - injection H as _ <-. destruct ED as (e & l & m & G & ->). pose proof (C62_clean_is_unchanged l e m D) as EQ. rewrite EQ in *. cbn [attrs eobj_read eo_went fresh w_entry] in *.
    assert (U : full_url e = u) by (apply (lookup_iff _ _ _ _ C) in G as [_ G]; exact G).
    split; [rewrite U; exact G|]. split; [congruence|]. split; [intros v d _ Hd; exists d; split; [exact Hd|]; split; [apply same_refl|reflexivity]|].
    intros a us Hua Hus. rewrite Ha in Hua. injection Hua as <-. exists us. split; [exact Hus|]. intro x. rewrite U.
    unfold stays_article in HaS. cbn in HaS. split.
    + intro Hx. destruct (list_eq_dec Z.eq_dec x u) as [->|Hne]; [left|right; auto]. split; [reflexivity|]. apply HaS.
      split; [|eauto]. apply (article_urls_in s L us C Hus) in Hx as (k & e1 & Hk & He1 & E1). pose proof C as [(cells & EC & Co) _ _ _ _]. rewrite <- EC in He1.
      pose proof (co_articles _ _ Co k e1 Hk He1) as N1. rewrite EC in He1.
      assert (e1 = e); [|congruence]. assert (G1 : get_entry_by_full_url s u = Ok e1) by (apply (lookup_iff _ _ _ _ C); split; [exact (PointerListProofs.znth_in _ _ _ He1)|exact E1]). congruence.
    + intros [[-> T]|[_ Hx]]; [|exact Hx]. apply HaS in T as [_ (us1 & F1 & F2)]. rewrite Hus in F1. injection F1 as <-. exact F2.
Qed.
Print Assumptions C62_edits_are_saved_partial.
Theorem C62_flush_succeeds_partial : forall s L u o n, consistent s L -> roomy s L -> edits s u o -> saveable s u o ->
  (e_ns (attrs o) = NS_C -> in_C u = true \/ w_force (eo_went o) <> None) -> exists o' s', eobj_flush (S (S n)) o s = (Ok o', s').
Proof.
  intros s L u o n C R ED SV NC. destruct (editable_edits s L u o C ED SV NC) as (M & OU & E). unfold eobj_flush. rewrite M. cbn [negb].
  destruct (eo_dirty o); [|eexists; eexists; reflexivity]. destruct (edit_succeeds s L u (eo_went o) n C E R) as (s' & W). unfold mbind. rewrite W. eexists. eexists. reflexivity.
Qed.
Print Assumptions C62_flush_succeeds_partial.

(** Refutation: an entry "Ma" moved to namespace C cannot be flushed (ValueError of line 1177). *)
Definition meta : zim := after (page 77 [97]) blank.
Lemma meta_consistent : consistent meta (entries meta).
Proof. apply (add_step blank (page 77 [97])); [exact blank_consistent|check_addable|vm_compute; reflexivity]. Qed.
Definition into_C : eobj := fst (assigns [ANamespace (PyStr [67])] (eobj_read (w_entry (page 77 [97])), html)).
Lemma points_none : forall s L u, consistent s L -> (forall d, In d L -> target_url s d <> Some u) -> forall x, ~ points s x u.
Proof. intros s L u C H x (e & G & T). apply (lookup_iff _ _ _ _ C) in G as [G _]. exact (H e G T). Qed.
Theorem C62_refuted : ~ C62_full_statement.
Proof.
  intro H. destruct (H meta (entries meta) [77; 97] into_C O meta_consistent) as (o' & s' & F & _).
  - intros p Hp. vm_compute in Hp. destruct Hp as [<-|[]]. vm_compute. reflexivity.
  - exists (w_entry (page 77 [97])), [ANamespace (PyStr [67])], html. split; [vm_compute; reflexivity|reflexivity].
  - constructor.
    + split; [|discriminate]. split; [cbn; lia|]. split; [eexists; reflexivity|]. split; [split; [eexists; reflexivity|cbn; intuition discriminate]|].
      split; [eexists; split; [reflexivity|split; [eexists; reflexivity|cbn; intuition discriminate]]|cbn; lia].
    + exists 0, 0. reflexivity.
    + right. vm_compute. reflexivity.
    + apply (points_none meta (entries meta)); [exact meta_consistent|]. intros d Hd. vm_compute in Hd. destruct Hd as [<-|[]]. vm_compute. discriminate.
    + vm_compute. discriminate.
  - assert (E : fst (eobj_flush 2 into_C meta) = Err ValueError) by (vm_compute; reflexivity). rewrite F in E. discriminate E.
Qed.
(** The partial theorem applies to giving the article "Ca" another title and url. *)
Definition retold : eobj := fst (assigns [ATitle (Some (PyStr [90; 90])); AUrl (PyStr [122])] (eobj_read (w_entry (article [97])), html)).
Definition one : zim := after (article [97]) blank.
Example C62_example : edits one Ca retold /\ saveable one Ca retold /\ in_C Ca = true /\ eo_dirty retold = true /\
  map full_url (entries (snd (eobj_flush 2 retold one))) = [[67; 122]] /\ article_urls (snd (eobj_flush 2 retold one)) = Some [[67; 122]].
Proof.
  split; [exists (w_entry (article [97])), [ATitle (Some (PyStr [90; 90])); AUrl (PyStr [122])], html; split; [vm_compute; reflexivity|reflexivity]|].
  split; [|split; [reflexivity|split; [vm_compute; reflexivity|split; vm_compute; reflexivity]]]. constructor.
  - split; [|discriminate]. split; [cbn; lia|]. split; [eexists; reflexivity|]. split; [split; [eexists; reflexivity|cbn; intuition discriminate]|].
    split; [eexists; split; [reflexivity|split; [eexists; reflexivity|cbn; intuition discriminate]]|cbn; lia].
  - exists 0, 0. reflexivity.
  - right. vm_compute. reflexivity.
  - apply (points_none one (entries one)); [exact one_consistent|]. intros d Hd. vm_compute in Hd. destruct Hd as [<-|[]]. vm_compute. discriminate.
  - vm_compute. discriminate.
Qed.

(** ** C63: [entry.remove()] removes the entry the object was obtained for *)
Definition C63_full_statement : Prop := forall s L u o n s', consistent s L -> edits s u o -> eobj_remove keep_blob (S (S n)) o s = (Ok tt, s') ->
  get_entry_by_full_url s' u = Err EntryNotFound.
Theorem C63_removal_partial : forall s L u o n s', consistent s L -> edits s u o -> deletable s u -> full_url (attrs o) = u ->
  eobj_remove keep_blob (S (S n)) o s = (Ok tt, s') ->
  get_entry_by_full_url s' u = Err EntryNotFound /\
  (forall v d, v <> u -> get_entry_by_full_url s v = Ok d ->
    exists d', get_entry_by_full_url s' v = Ok d' /\ same_entry d d' /\ target_url s' d' = target_url s d).
Proof.
  intros s L u o n s' C _ DE U H. unfold eobj_remove in H. destruct (eo_mutable o); [|discriminate]. cbn [negb] in H. rewrite U in H.
  destruct (delete_law s L u n s' C DE H). auto.
Qed.
Print Assumptions C63_removal_partial.
(** Refutation: the object of "Ca" is given the url of "Cr"; [remove] removes "Cr". *)
Definition disguised : eobj := fst (assigns [AUrl (PyStr [114])] (eobj_read (w_entry (article [97])), html)).
Theorem C63_refuted : ~ C63_full_statement.
Proof.
  intro H. assert (E : get_entry_by_full_url (snd (eobj_remove keep_blob 2 disguised three)) Ca = Err EntryNotFound).
  { apply (H three (entries three) Ca disguised O); [exact three_consistent| |vm_compute; reflexivity].
    exists (w_entry (article [97])), [AUrl (PyStr [114])], html. split; [vm_compute; reflexivity|reflexivity]. }
  vm_compute in E. discriminate E.
Qed.
Example C63_removes_another : map full_url (entries three) = [Ca; Cb; [67; 114]] /\ map full_url (entries (snd (eobj_remove keep_blob 2 disguised three))) = [Ca; Cb].
Proof. split; vm_compute; reflexivity. Qed.
Example C63_example : edits two Cb (eobj_read (w_entry (redirect 67 [98] 0))) /\ deletable two Cb.
Proof.
  split; [exists (w_entry (redirect 67 [98] 0)), [], html; split; [vm_compute; reflexivity|reflexivity]|]. constructor.
  - eexists. vm_compute. reflexivity.
  - intros x _. revert x. apply (points_none two (entries two)); [exact two_consistent|]. intros d Hd. vm_compute in Hd. destruct Hd as [<-|[<-|[]]]; vm_compute; discriminate.
  - intros us Hus. vm_compute in Hus. injection Hus as <-. right. intros x [<-|[]]. reflexivity.
Qed.

(** ** C64: reading through an entry object *)
Definition C64_full_statement : Prop :=
  forall D (dc : decomp D) new_decomp Rep f fuel off ct ext blobs C J tail kd e c b d s t,
    ClusterSpec.stored dc new_decomp Rep f off ct ext blobs C J tail -> stored_ends dc Rep J tail ->
    zlen (cluster_data ext blobs ++ tail) + 2 <= Z.of_nat fuel ->
    e_kind e = Content c b -> 0 <= b -> znth blobs b = Some d -> sensible_range s t ->
    fst (entry_read (read_blob dc new_decomp f fuel) e s t (cluster_new kd off)) = Ok (part s t d).
(** Everything except a start without an end. *)
Theorem C64_reads_are_slices_partial :
  forall D (dc : decomp D) new_decomp Rep f fuel off ct ext blobs C J tail kd e c b d s t,
    ClusterSpec.stored dc new_decomp Rep f off ct ext blobs C J tail -> stored_ends dc Rep J tail ->
    zlen (cluster_data ext blobs ++ tail) + 2 <= Z.of_nat fuel ->
    e_kind e = Content c b -> 0 <= b -> znth blobs b = Some d -> sensible_range s t ->
    (s = None \/ t <> None) ->
    fst (entry_read (read_blob dc new_decomp f fuel) e s t (cluster_new kd off)) = Ok (part s t d).
Proof.
  intros D dc nd Rep f fuel off ct ext blobs C J tail kd e c b d s t ST SE FU Ek Hb Hd (R1 & R2 & R3) ND. unfold entry_read. rewrite Ek.
  assert (CR : check_range s t = Ok tt).
  { unfold check_range. destruct s as [s|], t as [t|]; cbn in *.
    - replace (s <? 0) with false by lia. replace (t <? 0) with false by lia. replace (t <? s) with false by lia. reflexivity.
    - destruct ND; congruence.
    - replace (t <? 0) with false by lia. reflexivity.
    - reflexivity. }
  rewrite CR. pose proof (C26_read_blob_all_ranges D dc nd Rep f fuel off ct ext blobs C J tail kd b s t ST SE FU Hb (conj R1 (conj R2 R3))) as H. cbn [ask] in H. rewrite Hd in H.
  destruct (read_blob dc nd f fuel b s t (cluster_new kd off)) as [[x|x] c1]; cbn [fst] in *; [injection H as ->; reflexivity|discriminate H].
Qed.
Print Assumptions C64_reads_are_slices_partial.
(** Senseless ranges are rejected before anything is read. *)
Theorem C64_senseless : forall St (rb : Z -> option Z -> option Z -> M St bytes) e c b s t st, e_kind e = Content c b -> ~ sensible_range s t ->
  entry_read rb e s t st = (Err ValueError, st).
Proof.
  intros St rb e c b s t st Ek NS. unfold entry_read. rewrite Ek. replace (check_range s t) with (@Err unit ValueError); [reflexivity|]. unfold check_range, sensible_range in *.
  destruct s as [s|], t as [t|].
  - destruct (Z.ltb_spec s 0); [reflexivity|]. destruct (Z.ltb_spec t 0); [reflexivity|]. destruct (Z.ltb_spec t s); [reflexivity|]. exfalso. apply NS. lia.
  - destruct (Z.ltb_spec s 0); [reflexivity|]. exfalso. apply NS. lia.
  - destruct (Z.ltb_spec t 0); [reflexivity|]. exfalso. apply NS. lia.
  - exfalso. apply NS. auto.
Qed.
Print Assumptions C64_senseless.
(** Refutation: [entry.read(start=0)] raises TypeError for every entry. *)
Theorem C64_start_alone : forall St (rb : Z -> option Z -> option Z -> M St bytes) e c b s st, e_kind e = Content c b -> 0 <= s ->
  entry_read rb e (Some s) None st = (Err TypeError, st).
Proof. intros St rb e c b s st Ek Hs. unfold entry_read, check_range. rewrite Ek. replace (s <? 0) with false by lia. reflexivity. Qed.
Theorem C64_refuted : ~ C64_full_statement.
Proof.
  intro H. assert (E : fst (entry_read (read_blob (zlib_decomp toy_zlib) ending_new sample_ending 100) sample_entry (Some 0) None (cluster_new KRemembering 1)) = Ok [x61]).
  { refine (H _ _ _ _ _ 100%nat _ _ _ _ _ _ _ KRemembering sample_entry 0 0 [x61] (Some 0) None sample_ending_stored _ _ eq_refl _ eq_refl _).
    - split; [apply zlib_meets_contract_end, toy_zlib_contract|reflexivity].
    - vm_compute. discriminate.
    - lia.
    - unfold sensible_range. lia. }
  rewrite (C64_start_alone _ _ sample_entry 0 0 0 _ eq_refl) in E by lia. discriminate E.
Qed.
Example C64_example : fst (entry_read (read_blob (zlib_decomp toy_zlib) ending_new sample_ending 100) (mkEntry 0 [67] [97] (Some []) (Content 0 2)) None (Some 1) (cluster_new KRemembering 1)) = Ok [x62].
Proof. vm_compute. reflexivity. Qed.
