(** Assignments to an entry object do to its entry what [set_fields] does to its page. *)
From Coq Require Import List ZArith Bool Lia Permutation.
From Coq Require Import ZifyBool ZifyNat.
From Verif Require Import Base BaseProofs Utf8 Utf8Proofs MimeTypeList MimeTypeListSpec MimeTypeListProofs PointerList PointerListProofs
  Entry EntrySpec EntryProofs Cluster Archive ArchiveSpec ArchiveFacts ArchiveLaws ArchiveEdit
  CompressionStrategy CompressionStrategySpec CompressionStrategyProofs EntryObject EntryObjectSpec EntryObjectProofs
  Flush FlushSpec FlushProofs FlushHistoryProofs ViewSpec.
Import ListNotations.
Open Scope Z_scope.

Ltac same_force := repeat (cbn [bind] in *; match goal with
  | |- w_force _ = w_force _ => reflexivity
  | H : Err _ = Ok _ |- _ => discriminate H
  | H : Ok _ = Ok ?x |- _ => injection H as <-
  | H : context [if ?b then _ else _] |- _ => destruct b
  | H : context [both ?v] |- _ => destruct (both v) as [[? ?]|]
  | H : context [ensure_mutable ?o] |- _ => destruct (ensure_mutable o)
  | H : context [match ?v with Some _ => _ | None => _ end] |- _ => destruct v
  | H : context [match ?v with Content _ _ => _ | Redirect _ => _ end] |- _ => destruct v
  end).
Lemma force_namespace : forall c o o', put_namespace (PyStr [c]) o = (Ok tt, o') ->
  w_force (eo_went o') = if ueqb [c] (e_ns (attrs o)) || ueqb [c] NS_C then w_force (eo_went o) else Some false.
Proof.
  intros c o o' H. unfold put_namespace in H. apply change_ok in H. cbn [both] in H. destruct (encode [c]) as [b|]; cbn [bind] in H; [|discriminate H]. destruct (negb _); [discriminate H|].
  destruct (ensure_mutable o); cbn [bind] in H; [|discriminate H]. destruct (ueqb [c] (e_ns (attrs o))); [injection H as <-; reflexivity|]. cbn [orb].
  destruct (ueqb [c] NS_C); injection H as <-; reflexivity.
Qed.
Lemma force_url : forall v o o', put_url v o = (Ok tt, o') -> w_force (eo_went o') = w_force (eo_went o).
Proof. intros v o o' H. unfold put_url in H. apply change_ok in H. same_force. Qed.
Lemma force_title : forall v o o', put_title v o = (Ok tt, o') -> w_force (eo_went o') = w_force (eo_went o).
Proof. intros v o o' H. unfold put_title in H. apply change_ok in H. destruct (e_title (attrs o)); same_force. Qed.
Lemma force_mimetype_id : forall v o o', put_mimetype_id v o = (Ok tt, o') -> w_force (eo_went o') = w_force (eo_went o).
Proof. intros v o o' H. unfold put_mimetype_id in H. apply change_ok in H. same_force. Qed.
Lemma force_full_url : forall c r o o', put_full_url (PyStr (c :: r)) o = (Ok tt, o') ->
  w_force (eo_went o') = if ueqb [c] (e_ns (attrs o)) || ueqb [c] NS_C then w_force (eo_went o) else Some false.
Proof.
  intros c r o o' H. unfold put_full_url, mbind in H. destruct (put_namespace (PyStr [c]) o) as [[[]|y] o1] eqn:N; [|discriminate]. rewrite (force_url _ _ _ H). exact (force_namespace _ _ _ N).
Qed.

(** Registering a mimetype. *)
Lemma register_good : forall u b l i l1, utf8_encode u = Some b -> b <> [] -> has_nul b = false -> mt_get_index (PyStr u) true l = Ok (i, l1) -> mgood l l1 /\ mextends l l1.
Proof.
  intros u b l i l1 EB NE HN E. unfold mt_get_index in E. cbn [as_bytes] in E. unfold encode in E. rewrite EB in E. cbn [bind] in E.
  destruct (mt_scan b (ml_types l) 0); [injection E as _ <-; split; [apply mgood_refl|apply mextends_refl]|]. unfold mt_register in E. destruct (negb (ml_mutable l)); [discriminate E|].
  cbn [as_bytes bind] in E. destruct (mt_has b (ml_types l)); cbn [bind] in E; injection E as _ <-; [split; [apply mgood_refl|apply mextends_refl]|].
  split; [|exists [b]; reflexivity]. split; [split; [reflexivity|split; [reflexivity|intro Q; discriminate Q]]|]. cbn [ml_types]. intro F. apply Forall_app. split; [exact F|]. constructor; [|constructor].
  split; [exact NE|apply has_nul_in; exact HN].
Qed.
Lemma mgood_trans : forall a b c, mgood a b -> mgood b c -> mgood a c.
Proof. intros a b c (A1 & A2) (B1 & B2). split; [eapply mtracks_trans; eassumption|auto]. Qed.
Lemma put_mimetype_more : forall m o l o' l', put_mimetype (PyStr m) (o, l) = (Ok tt, (o', l')) -> exists i b, utf8_encode m = Some b /\ mt_get i (ml_types l') = Ok b /\
  attrs o' = with_mimetype i (attrs o) /\ w_force (eo_went o') = w_force (eo_went o) /\ mgood l l' /\ mextends l l' /\ zlen (ml_types l') <= zlen (ml_types l) + 1.
Proof.
  intros m o l o' l' H. pose proof H as H0. destruct (put_mimetype_ok _ _ _ H0) as (u0 & b0 & i0 & _ & _ & _ & _ & Z0 & _ & _). cbn [fst snd] in Z0. clear H0.
  unfold put_mimetype in H. unfold mbind at 1 in H. destruct (both (PyStr m)) as [[u b]|] eqn:E; [|discriminate]. destruct (both_text _ _ _ E) as [T B]. cbn [text] in T. subst u.
  destruct (Z.eqb_spec (zlen b) 0) as [|NZ]; [discriminate|]. destruct (has_nul b) eqn:HN; [discriminate|]. unfold mbind in H. cbn [fst snd] in H.
  destruct (mt_get_index (PyStr m) true l) as [[[i|] l1]|] eqn:G; [|discriminate|discriminate]. apply on_entry_inv in H as [H E2]. cbn [fst snd] in H, E2. subst l'.
  destruct (put_mimetype_id_ok _ _ _ H) as (Hi & A & O). exists i, b. split; [exact B|].
  destruct (mt_get_index_spec _ _ _ _ _ G) as (m1 & Hm & _ & I). destruct (I i eq_refl) as [I1 _]. cbn in Hm. unfold encode in Hm. rewrite B in Hm. injection Hm as <-.
  assert (NE : b <> []) by (intros ->; apply NZ; reflexivity).
  destruct (register_good m b l _ l1 B NE HN G) as (G1 & G2). split; [exact I1|]. split; [exact A|]. split; [exact (force_mimetype_id _ _ _ H)|]. auto.
Qed.

(** The object [o] and its page [q] at [v], after some assignments to the entry
    [e0] with page [p] at [u]; [n] of them. *)
Record pairs (e0 : entry) (u : ustr) (p : page) (d : bytes) (ml0 : mlist) (done : list field) (o : eobj) (ml : mlist) (v : ustr) (q : page) : Prop := mkPairs {
  pr_old : w_old_url (eo_went o) = u;
  pr_mutable : eo_mutable o = true;
  pr_url : full_url (attrs o) = v;
  pr_title : e_title (attrs o) = Some (pg_title q);
  pr_ok : representable (attrs o);
  pr_kind : e_kind (attrs o) = e_kind e0;
  pr_body : exists m, pg_body q = Data m d /\ mt_get (e_mimetype (attrs o)) (ml_types ml) = Ok m;
  pr_forced : forall b, w_force (eo_went o) = Some b -> pg_article q = b;
  pr_kept : w_force (eo_went o) = None -> pg_article q = pg_article p;
  pr_seen : forall b, In (SetArticle b) done -> w_force (eo_went o) <> None;
  pr_in_C : pg_article q = true -> in_C v = true;
  pr_types : mgood ml0 ml /\ mextends ml0 ml;
  pr_count : zlen (ml_types ml) <= zlen (ml_types ml0) + zlen done;
  pr_clean : o = eobj_read e0 \/ eo_dirty o = true }.

Lemma C_char : forall c, ueqb [c] NS_C = (c =? 67).
Proof. intro c. cbn. rewrite andb_true_r. reflexivity. Qed.

Lemma pairs_step : forall e0 u p d ml0 done o ml v q f o' ml', (exists c b, e_kind e0 = Content c b) -> pairs e0 u p d ml0 done o ml v q -> zlen (ml_types ml0) + zlen done < 65535 ->
  assign (assign_of f) (o, ml) = (Ok tt, (o', ml')) -> let (v', q') := set_field (v, q) f in pairs e0 u p d ml0 (done ++ [f]) o' ml' v' q'.
Proof.
  intros e0 u p d ml0 done o ml v q f o' ml' (c0 & b0 & K0) PR Z E. pose proof PR as [].
  assert (Z1 : zlen (done ++ [f]) = zlen done + 1) by (rewrite zlen_app; reflexivity).
  destruct (settles_assign _ _ _ _ E) as (S1 & S2 & S3). cbn [fst] in S1, S2, S3.
  assert (CL : o' = eobj_read e0 \/ eo_dirty o' = true) by (destruct S3 as [->|S3]; auto).
  assert (RP : representable (attrs o')).
  { eapply accepted_representable; [exact E|exact pr_ok0|]. destruct f; cbn [assign_of fits]; auto. split; [lia|]. exists c0, b0. congruence. }
  assert (SN : (w_force (eo_went o) <> None -> w_force (eo_went o') <> None) -> (forall b, f = SetArticle b -> w_force (eo_went o') <> None) ->
               forall b, In (SetArticle b) (done ++ [f]) -> w_force (eo_went o') <> None).
  { intros H1 H2 b Hb. apply in_app_or in Hb as [Hb|[Hb|[]]]; [apply H1; exact (pr_seen0 b Hb)|exact (H2 b Hb)]. }
  destruct pr_body0 as (m & BQ & M). destruct f as [t|w|m'|a]; cbn [assign_of assign set_field] in *.
  - apply on_entry_inv in E as [E EM]. cbn [fst snd] in E, EM. subst ml'. destruct (put_title_ok _ _ _ E) as (t' & b & T & _ & _ & A & _). cbn [text] in T. subst t'. pose proof (force_title _ _ _ E) as F.
    constructor; cbn [pg_title pg_article pg_body]; rewrite ?F, ?S2; try assumption; try congruence.
    + rewrite A. exact pr_url0.
    + rewrite A. reflexivity.
    + rewrite A. exact pr_kind0.
    + exists m. rewrite A. auto.
    + rewrite <- F. apply SN; [rewrite F; auto|]. intros b' Q. discriminate Q.
    + lia.
  - apply on_entry_inv in E as [E EM]. cbn [fst snd] in E, EM. subst ml'. destruct (put_full_url_ok _ _ _ E) as (c & r & b1 & b2 & T & _ & _ & _ & _ & A & _). cbn [text] in T. subst w.
    pose proof (force_full_url _ _ _ _ E) as F. rewrite C_char in F. assert (IC : in_C (c :: r) = (c =? 67)) by reflexivity. rewrite IC.
    assert (SAME : ueqb [c] (e_ns (attrs o)) = true -> (c =? 67) = in_C v).
    { intro Q. apply ueqb_eq in Q. rewrite <- pr_url0. unfold full_url. rewrite <- Q. reflexivity. }
    assert (FC : (ueqb [c] (e_ns (attrs o)) || (c =? 67) = true /\ w_force (eo_went o') = w_force (eo_went o) /\ pg_article q && (c =? 67) = pg_article q) \/
                 (w_force (eo_went o') = Some false /\ pg_article q && (c =? 67) = false)).
    { destruct (ueqb [c] (e_ns (attrs o))) eqn:Q1; cbn [orb] in F |- *; [|destruct (c =? 67) eqn:Q2].
      - left. split; [reflexivity|]. split; [exact F|]. rewrite (SAME eq_refl). destruct (pg_article q) eqn:QA; [rewrite (pr_in_C0 eq_refl)|]; reflexivity.
      - left. split; [reflexivity|]. split; [exact F|apply andb_true_r].
      - right. split; [exact F|apply andb_false_r]. }
    constructor; cbn [pg_title pg_article pg_body]; rewrite ?S2; try assumption; try congruence.
    + rewrite A. reflexivity.
    + rewrite A. exact pr_title0.
    + rewrite A. exact pr_kind0.
    + exists m. rewrite A. auto.
    + intros b Q. destruct FC as [(_ & FE & AE)|(FE & AE)]; rewrite AE; [apply pr_forced0|]; congruence.
    + intro Q. destruct FC as [(_ & FE & AE)|(FE & AE)]; rewrite ?AE; [apply pr_kept0|]; congruence.
    + apply SN; [|intros b Q; discriminate Q]. destruct FC as [(_ & FE & _)|(FE & _)]; congruence.
    + intro Q. apply andb_true_iff in Q. rewrite IC. tauto.
    + lia.
  - destruct (put_mimetype_more _ _ _ _ _ E) as (i & b & EB & MG & A & F & G1 & G2 & Z2). destruct pr_types0 as (P1 & P2).
    constructor; cbn [pg_title pg_article pg_body]; rewrite ?F, ?S2; try assumption; try congruence.
    + rewrite A. exact pr_url0.
    + rewrite A. exact pr_title0.
    + rewrite A. exact pr_kind0.
    + rewrite BQ. exists b. rewrite A. unfold encoded. rewrite EB. auto.
    + rewrite <- F. apply SN; [rewrite F; auto|]. intros b' Q. discriminate Q.
    + split; [eapply mgood_trans; eassumption|eapply mextends_trans; eassumption].
    + lia.
  - apply on_entry_inv in E as [E EM]. cbn [fst snd] in E, EM. subst ml'. destruct (put_is_article_ok _ _ _ E) as (A & F & _ & N).
    constructor; cbn [pg_title pg_article pg_body]; rewrite ?F, ?S2, ?A; try assumption; try congruence.
    + exists m. auto.
    + intros ->. rewrite <- pr_url0. apply ns_C_full_url. exact (N eq_refl).
    + lia.
Qed.

Lemma pairs_all : forall e0 u p d ml0 l done o ml v q o' ml', (exists c b, e_kind e0 = Content c b) -> pairs e0 u p d ml0 done o ml v q -> zlen (ml_types ml0) + zlen done + zlen l <= 65535 ->
  assign_all l (o, ml) = (Ok tt, (o', ml')) -> let (v', q') := fold_left set_field l (v, q) in pairs e0 u p d ml0 (done ++ l) o' ml' v' q'.
Proof.
  intros e0 u p d ml0. induction l as [|f l IH]; intros done o ml v q o' ml' KE PR Z E; cbn [assign_all fold_left] in *.
  - injection E as <- <-. rewrite app_nil_r. exact PR.
  - rewrite zlen_cons in Z. pose proof (zlen_nonneg l) as ZN. unfold mbind in E. destruct (assign (assign_of f) (o, ml)) as [[[]|x] [o1 ml1]] eqn:E1; [|discriminate E].
    pose proof (pairs_step e0 u p d ml0 done o ml v q f o1 ml1 KE PR ltac:(lia) E1) as P1. destruct (set_field (v, q) f) as [v1 q1].
    specialize (IH (done ++ [f]) o1 ml1 v1 q1 o' ml' KE P1). rewrite zlen_app in IH. change (zlen [f]) with 1 in IH. specialize (IH ltac:(lia) E).
    destruct (fold_left set_field l (v1, q1)) as [v2 q2]. rewrite <- app_assoc in IH. exact IH.
Qed.
