(** Property C97: processors are told where each cluster was written. *)
From Coq Require Import List ZArith Bool Lia Strings.Byte.
From Verif Require Import Base BaseProofs Infobyte Reader ReaderSpec PointerList PointerListProofs SpaceAllocator SpaceAllocatorSpec Blob BlobProofs Cluster ClusterSpec
  ClusterWrapper ClusterWrapperSpec ClusterWrapperProofs Entry Archive ArchiveSpec ArchiveProofs ArchiveCluster ArchiveClusterSpec ArchiveClusterProofs
  ClusterWatch ClusterWatchSpec PropsArchiveCluster.
Import ListNotations.
Open Scope Z_scope.

Lemma follow_app : forall l T m, follow T (l ++ m) = follow (follow T l) m.
Proof. intros. apply fold_left_app. Qed.
Lemma linked_app : forall l T m, linked T l -> linked (follow T l) m -> linked T (l ++ m).
Proof. induction l as [|e l IH]; intros T m H H'; [exact H'|]. destruct H as (H1 & H2). split; [exact H1|]. apply IH; [exact H2|exact H']. Qed.

Section Clusters.
Variable fuel : nat.
Context {D : Type}.
Variable dc : decomp D.
Variable new_decomp : ctype -> res D.
Context {K : Type}.
Variable new_comp : ctype -> res K.
Variable comp : K -> bytes -> res (bytes * K).
Variable flush : K -> res bytes.
Variable kd : ckind.
Notation perform := (perform_cop fuel dc new_decomp new_comp comp flush kd).
Notation perform_t := (perform_cop_t fuel dc new_decomp new_comp comp flush kd).
Notation happens := (happens fuel dc new_decomp new_comp comp flush kd).
Notation heard := (heard fuel dc new_decomp new_comp comp flush kd).
Notation shows_at := (shows_at fuel dc new_decomp kd).
Notation write_t := (write_cluster_t fuel new_comp comp flush).

(** ** Observers change nothing *)
Lemma write_t_same : forall I (ops : cops I) num a c, fst (write_t ops num a c) = write_cluster fuel new_comp comp flush ops num a c.
Proof.
  intros. unfold write_cluster_t, write_cluster.
  destruct (match num with Some n => n <? 0 | None => false end) eqn:E.
  - unfold write_begin. rewrite E. reflexivity.
  - destruct (write_begin _ _ _ _ _ _ _ _) as [[[[n off] ch]|x] [a1 c1]]; [|reflexivity].
    destruct (write_end _ _ _ _ _ _ _ _ _ _) as [[m|x] st]; reflexivity.
Qed.
Theorem C97_transparent : forall a o, fst (perform_t a o) = perform a o.
Proof.
  intros a o. destruct o as [h|i h told|i]; cbn [perform_cop_t perform_cop].
  - destruct (edited_new fuel h) as [[u|x] c]; [|reflexivity]. rewrite <- write_t_same. destruct (write_t new_ops None a c) as [[r [a1 c1]] l]. reflexivity.
  - destruct (edited _ _ _ _ _ _ _) as [c|x]; [|reflexivity]. rewrite <- write_t_same. destruct (write_t _ (told_number i told) a c) as [[r [a1 c1]] l]. reflexivity.
  - destruct (remove_cluster_by_index _ _ _ _ _ _) as [r a1]. reflexivity.
Qed.
(** Every history has exactly one list of notices. *)
Theorem C97_every_history : forall ok a X ops a' X', happens ok a X ops a' X' <-> exists l, heard ok a X ops a' X' l.
Proof.
  intros ok a X ops a' X'. split.
  - intro H. induction H as [a X|a X o n a1 ops a' X' AM OK UN E H (l & IH)]; [exists []; constructor|].
    pose proof (C97_transparent a o) as TR. rewrite E in TR. destruct (perform_t a o) as [p e] eqn:EP. cbn [fst] in TR. subst p.
    exists (e ++ l). eapply heard_cons; eassumption.
  - intros (l & H). induction H as [a X|a X o n a1 e ops a' X' l AM OK UN E H IH]; [constructor|].
    pose proof (C97_transparent a o) as TR. rewrite E in TR. cbn [fst] in TR. eapply happens_cons; [exact AM|exact OK|exact UN|symmetry; exact TR|exact IH].
Qed.

(** ** Which notices there are *)
(** An operation that fails has told nobody that a cluster was written. *)
Theorem C97_failures : forall a o x a1 l, perform_t a o = (Err x, a1, l) -> forall e, In e l -> e = BeforeWrite.
Proof.
  assert (W : forall I (ops : cops I) num a c x st l, write_t ops num a c = (Err x, st, l) -> forall e, In e l -> e = BeforeWrite).
  { intros I ops num a c x st l H. unfold write_cluster_t in H.
    assert (G : l = [] \/ l = [BeforeWrite]).
    { destruct (match num with Some n => n <? 0 | None => false end); [injection H as _ _ <-; auto|].
      destruct (write_begin _ _ _ _ _ _ _ _) as [[[[n off] ch]|y] [a1 c1]]; [|injection H as _ _ <-; auto].
      destruct (write_end _ _ _ _ _ _ _ _ _ _) as [[m|y] st']; [discriminate H|injection H as _ _ <-; auto]. }
    destruct G as [->| ->]; intros e []; [congruence|contradiction]. }
  intros a o x a1 l H. destruct o as [h|i h told|i]; cbn [perform_cop_t] in H.
  - destruct (edited_new fuel h) as [[u|y] c]; [|injection H as _ _ <-; intros e []].
    destruct (write_t new_ops None a c) as [[r [a2 c1]] m] eqn:E. injection H as -> _ <-. eapply W. exact E.
  - destruct (edited _ _ _ _ _ _ _) as [c|y]; [|injection H as _ _ <-; intros e []].
    destruct (write_t _ (told_number i told) a c) as [[r [a2 c1]] m] eqn:E. injection H as -> _ <-. eapply W. exact E.
  - destruct (remove_cluster_by_index _ _ _ _ _ _) as [r a2]. injection H as _ _ <-. intros e [].
Qed.
Lemma write_t_ok : forall I (ops : cops I) num a c n st l, write_t ops num a c = (Ok n, st, l) ->
  exists m off chunks a1 c1, write_begin fuel new_comp comp flush ops num a c = (Ok (m, off, chunks), (a1, c1)) /\
    write_end fuel new_comp comp flush ops m off chunks a1 c1 = (Ok n, st) /\ l = [BeforeWrite; AfterWrite (co_offset ops c1) off m].
Proof.
  intros I ops num a c n st l H. unfold write_cluster_t in H.
  destruct (match num with Some n => n <? 0 | None => false end); [discriminate H|].
  destruct (write_begin _ _ _ _ _ _ _ _) as [[[[m off] ch]|y] [a1 c1]]; [|discriminate H].
  destruct (write_end _ _ _ _ _ _ _ _ _ _) as [[m'|y] st'] eqn:E; [|discriminate H]. injection H as -> -> <-. eauto 8.
Qed.

(** ** What they say *)
Variable Stream : ctype -> bytes -> bytes -> Prop.
Hypothesis CD : codec_ok dc new_decomp new_comp comp flush Stream.
Hypothesis HF : (0 < fuel)%nat.

Lemma located_iff : forall a i p, 0 <= i -> located a i p <-> znth (pl_ptrs (ca_ptrs a)) i = Some p.
Proof. intros a i p H. unfold located. rewrite get_by_index_znth by exact H. destruct (znth _ i); split; intro E; try discriminate E; congruence. Qed.
Lemma at_located : forall a cells L i p c, archive_ok Stream a cells L -> at_number L i (p, c) -> located a i p.
Proof. intros a cells L i p c AO H. pose proof (znth_some _ _ _ H). apply located_iff; [lia|]. exact (ao_ptrs _ _ _ _ AO _ _ H). Qed.
Lemma show_located : forall a i p b, located a i p -> 0 <= i -> shows fuel dc new_decomp kd a i b -> shows_at a p b.
Proof.
  intros a i p b H Hi (S1 & S2). unfold blobs_in, read_blob_of, get_cluster_by_index in *. replace (i <? 0) with false in * by lia.
  unfold located in H. rewrite H in *. cbn [bind] in *. split; [exact S1|exact S2].
Qed.

(** One notice for a write, none for a removal.  It has the number that is
    returned, the place that the pointer list has now, and the place that it had
    before; at the new place nothing else was stored.  The other clusters stay
    where they are. *)
Theorem C97_notice_partial : forall a cells L o n a1 l, archive_ok Stream a cells L -> let X := blobs_of L in
  ample fuel a X -> cop_ok fuel X o -> unambiguous X o -> perform_t a o = (Ok n, a1, l) ->
  match o with
  | CRemove _ => l = []
  | CNew _ => exists new, n = zlen X /\ l = [BeforeWrite; AfterWrite None new n] /\ located a1 n new /\
      forall j b p, znth X j = Some (Some b) -> located a j p -> p <> new
  | CEdit i _ _ => exists old new, n = i /\ l = [BeforeWrite; AfterWrite (Some old) new i] /\ located a i old /\ located a1 i new /\
      forall j b p, znth X j = Some (Some b) -> located a j p -> p <> new
  end /\ forall j b p, j <> n -> znth X j = Some (Some b) -> located a j p -> located a1 j p.
Proof.
  intros a cells L o n a1 l AO X AM OK UN H. assert (ZX : zlen X = zlen L) by (unfold X, blobs_of, zlen; rewrite map_length; reflexivity).
  pose proof (zlen_nonneg L) as NN.
  assert (FR : forall new len, 0 < len -> (forall x, new <= x < new + len -> ~ in_use (ca_alloc a) x) ->
    forall j b p, znth X j = Some (Some b) -> located a j p -> p <> new).
  { intros new len HL F j b p E LO ->. destruct (blobs_numbered _ _ _ E) as (q & d & HN & _).
    pose proof (znth_some _ _ _ E). pose proof (at_located _ _ _ _ _ _ AO HN) as LQ. unfold located in *. rewrite LQ in LO. injection LO as ->.
    apply (F new); [lia|]. apply (ao_used _ _ _ _ AO j (new, d) new HN).
    destruct (cluster_len _ _ _ _ (ao_stored _ _ _ _ AO _ _ HN)) as (_ & L1 & _). cbn [fst snd] in L1. unfold covers. cbn [fst snd]. lia. }
  assert (HERE : forall v i, 0 <= i <= zlen L -> at_number (replace_at i (Some v) L) i v).
  { intros v i Hi. unfold at_number. rewrite replace_nth by exact Hi. rewrite Z.eqb_refl. reflexivity. }
  assert (KEEP : forall i v b2, 0 <= i <= zlen L -> archive_ok Stream b2 cells (replace_at i v L) ->
    forall j b p, j <> i -> znth X j = Some (Some b) -> located a j p -> located b2 j p).
  { intros i v b2 Hi AO' j b p NE E LO. destruct (blobs_numbered _ _ _ E) as (q & d & HN & _).
    pose proof (at_located _ _ _ _ _ _ AO HN) as LQ. unfold located in LQ, LO. rewrite LQ in LO. injection LO as ->.
    eapply at_located; [exact AO'|]. unfold at_number. rewrite replace_nth by exact Hi. replace (j =? i) with false by lia. exact HN. }
  destruct o as [h|i h told|i]; cbn [cop_ok perform_cop_t] in *.
  - destruct OK as (O1 & O2). destruct (edited_new_ok fuel h HF O1 O2) as (w & E & R & _). rewrite E in H.
    destruct (write_t new_ops None a (co_set w new_cluster)) as [[r [a2 c2]] l'] eqn:W. injection H as -> <- <-.
    destruct (write_t_ok _ _ _ _ _ _ _ _ W) as (m & off & chunks & b1 & c1 & EB & EE & ->).
    destruct (begin_ok fuel dc new_decomp new_comp comp flush Stream CD new_ops a (co_set w new_cluster) None (fun o => o = None) NONE false [] (edit_lists true [] h []) None
      (holds_empty (option Z) _) (rep_sane _ _ _ _ _ _ R) R (fun x Hx => Hx) m off chunks b1 c1 EB) as (s & a0 & b & C & _ & Ch & _ & _ & _ & _ & _ & _ & _ & CO2).
    destruct (written_at fuel dc new_decomp new_comp comp flush Stream CD new_ops a (co_set w new_cluster) None (fun o => o = None) NONE false [] (edit_lists true [] h []) None
      (holds_empty (option Z) _) (rep_sane _ _ _ _ _ _ R) R (fun x Hx => Hx) cells L (zlen L) AO (or_introl (conj eq_refl eq_refl)) m off chunks b1 c1 n a2 c2 EB EE) as (-> & AO' & _ & F & _).
    destruct (end_ok fuel new_comp comp flush _ _ _ _ _ _ _ _ _ _ EE) as (<- & _).
    split; [|eapply KEEP; [|exact AO']; lia].
    exists off. split; [symmetry; exact ZX|]. rewrite CO2. split; [reflexivity|]. split; [eapply at_located; [exact AO'|apply HERE; lia]|].
    apply (FR off (zlen (concat chunks))); [|exact F]. rewrite Ch. unfold zlen. cbn [length]. lia.
  - destruct OK as (b & EB0 & O1 & O2). destruct (blobs_numbered _ _ _ EB0) as (p & c & HN & <-). pose proof (ample_enough _ _ _ _ _ _ _ AM eq_refl HN) as EN.
    destruct (edited_ok fuel dc new_decomp new_comp comp flush kd Stream CD a cells L i p c h HF AO HN EN O1 O2) as (w & Inv & E & HO & R & OFF). rewrite E in H.
    destruct (write_t (stored_ops dc new_decomp fuel) (told_number i told) a _) as [[r [a2 c2]] l'] eqn:W. injection H as -> <- <-.
    destruct (write_t_ok _ _ _ _ _ _ _ _ W) as (m & off & chunks & b1 & c1 & EB & EE & ->).
    assert (PL : placed a L i (Some p) (cc_len c) (told_number i told)).
    { right. exists p, c. split; [exact HN|]. split; [reflexivity|]. split; [reflexivity|]. destruct told; [left; reflexivity|right]. split; [reflexivity|].
      eapply all_present; [exact AO|exact HN|exact UN]. }
    destruct (begin_ok fuel dc new_decomp new_comp comp flush Stream CD (stored_ops dc new_decomp fuel) a (mkCobj w (cc_len c)) (told_number i told) Inv (cc_ct c) (cc_ext c) (cc_blobs c) _ (Some p)
      HO (rep_sane _ _ _ _ _ _ R) R (fun x Hx => f_equal Some (OFF x Hx)) m off chunks b1 c1 EB) as (s & a0 & b & C & _ & Ch & _ & _ & _ & _ & _ & _ & _ & CO2).
    destruct (written_at fuel dc new_decomp new_comp comp flush Stream CD (stored_ops dc new_decomp fuel) a (mkCobj w (cc_len c)) (told_number i told) Inv (cc_ct c) (cc_ext c) (cc_blobs c) _ (Some p)
      HO (rep_sane _ _ _ _ _ _ R) R (fun x Hx => f_equal Some (OFF x Hx)) cells L i AO PL m off chunks b1 c1 n a2 c2 EB EE) as (-> & AO' & _ & F & _).
    destruct (end_ok fuel new_comp comp flush _ _ _ _ _ _ _ _ _ _ EE) as (<- & _). pose proof (znth_some _ _ _ HN).
    split; [|eapply KEEP; [|exact AO']; lia].
    exists p, off. split; [reflexivity|]. rewrite CO2. split; [reflexivity|]. split; [eapply at_located; [exact AO|exact HN]|].
    split; [eapply at_located; [exact AO'|apply HERE; lia]|].
    apply (FR off (zlen (concat chunks))); [|exact F]. rewrite Ch. unfold zlen. cbn [length]. lia.
  - destruct OK as (b & EB). destruct (blobs_numbered _ _ _ EB) as (p & c & HN & <-). pose proof (ample_enough _ _ _ _ _ _ _ AM eq_refl HN) as EN.
    destruct (removed fuel dc new_decomp new_comp comp flush kd Stream CD a cells L i p c AO HN EN) as (a2 & E & AO' & _). rewrite E in H. cbn [bind] in H.
    injection H as <- <- <-. pose proof (znth_some _ _ _ HN). split; [reflexivity|]. eapply KEEP; [|exact AO']. lia.
Qed.

Lemma cop_list_at : forall X o n, cop_ok fuel X o -> n = cop_number X o -> Z.le (zlen X) (zlen (cop_list X o)) /\
  forall j b, znth (cop_list X o) j = Some (Some b) -> j = n \/ znth X j = Some (Some b).
Proof.
  intros X o n OK ->. pose proof (zlen_nonneg X) as NN. destruct o as [h|i h told|i]; cbn [cop_list cop_number cop_ok] in *.
  - rewrite zlen_app. change (zlen [Some (edit_lists true [] h [])]) with 1. split; [lia|]. intros j b E. destruct (Z.eq_dec j (zlen X)); [auto|right].
    pose proof (znth_some _ _ _ E) as R. rewrite zlen_app in R. change (zlen [Some (edit_lists true [] h [])]) with 1 in R. rewrite znth_app_l in E by lia. exact E.
  - destruct OK as (b0 & E0 & _). pose proof (znth_some _ _ _ E0). split.
    { destruct (Z.le_gt_cases (zlen X) (zlen (replace_at i (Some (edit_lists false (blobs_at X i) h (blobs_at X i))) X))) as [Q|Q]; [exact Q|].
      exfalso. pose proof (replace_nth i (Some (edit_lists false (blobs_at X i) h (blobs_at X i))) X (zlen X - 1) ltac:(lia)) as G.
      destruct (zlen X - 1 =? i); [apply znth_some in G; lia|]. destruct (znth X (zlen X - 1)) eqn:E; [apply znth_some in G; lia|].
      apply PointerListProofs.znth_none in E; lia. }
    intros j b E. rewrite replace_nth in E by lia. destruct (Z.eqb_spec j i); auto.
  - destruct OK as (b0 & E0). pose proof (znth_some _ _ _ E0). split.
    { destruct (Z.le_gt_cases (zlen X) (zlen (replace_at i None X))) as [Q|Q]; [exact Q|].
      exfalso. pose proof (replace_nth i None X (zlen X - 1) ltac:(lia)) as G.
      destruct (zlen X - 1 =? i); [apply znth_some in G; lia|]. destruct (znth X (zlen X - 1)) eqn:E; [apply znth_some in G; lia|].
      apply PointerListProofs.znth_none in E; lia. }
    intros j b E. rewrite replace_nth in E by lia. destruct (Z.eqb_spec j i); auto.
Qed.
Lemma table_step : forall a cells L o n a1 l T, archive_ok Stream a cells L -> let X := blobs_of L in
  ample fuel a X -> cop_ok fuel X o -> unambiguous X o -> perform_t a o = (Ok n, a1, l) -> right_table T a X ->
  right_table (follow T l) a1 (cop_list X o) /\ linked T l.
Proof.
  intros a cells L o n a1 l T AO X AM OK UN H (RT & RN). destruct (C97_notice_partial a cells L o n a1 l AO AM OK UN H) as (NO & KE). fold X in NO, KE.
  assert (EN : n = cop_number X o).
  { pose proof (C97_transparent a o) as TR. rewrite H in TR. cbn [fst] in TR.
    exact (proj1 (step_ok fuel dc new_decomp new_comp comp flush kd Stream CD a cells L o n a1 HF AO AM OK UN (eq_sym TR))). }
  destruct (cop_list_at X o n OK EN) as (LE & AT).
  assert (UP : forall old new, l = [BeforeWrite; AfterWrite old new n] -> located a1 n new -> n < zlen (cop_list X o) -> right_table (follow T l) a1 (cop_list X o)).
  { intros old new -> LO RG. cbn [follow fold_left note]. split.
    - intros i b E. destruct (Z.eqb_spec i n) as [->|NE]; [eauto|]. destruct (AT i b E) as [|E']; [contradiction|].
      destruct (RT i b E') as (p & E1 & E2). exists p. split; [exact E1|]. eapply KE; eassumption.
    - intros i Hi. destruct (Z.eqb_spec i n); [lia|]. apply RN. lia. }
  destruct o as [h|i h told|i]; cbn [cop_number] in EN.
  - destruct NO as (new & _ & EL & LO & _). split.
    + apply (UP None new EL LO). cbn [cop_list]. rewrite zlen_app. change (zlen [Some (edit_lists true [] h [])]) with 1. lia.
    + rewrite EL. cbn [linked note]. split; [exact Logic.I|]. split; [|exact Logic.I]. symmetry. apply RN. lia.
  - destruct NO as (old & new & _ & EL & LA & LO & _). subst n. destruct OK as (b & EB & _). pose proof (znth_some _ _ _ EB). split.
    + apply (UP (Some old) new EL LO). lia.
    + rewrite EL. cbn [linked note]. split; [exact Logic.I|]. split; [|exact Logic.I]. destruct (RT i b EB) as (p & E1 & E2).
      unfold located in LA, E2. rewrite LA in E2. injection E2 as <-. symmetry. exact E1.
  - subst l. split; [|exact Logic.I]. cbn [follow fold_left]. subst n. split.
    + intros j b E. destruct (AT j b E) as [->|E'].
      { cbn [cop_list] in E. destruct OK as (b0 & E0). pose proof (znth_some _ _ _ E0). rewrite replace_nth, Z.eqb_refl in E by lia. discriminate E. }
      destruct (Z.eq_dec j i) as [->|NE].
      { cbn [cop_list] in E. destruct OK as (b0 & E0). pose proof (znth_some _ _ _ E0). rewrite replace_nth, Z.eqb_refl in E by lia. discriminate E. }
      destruct (RT j b E') as (p & E1 & E2). exists p. split; [exact E1|]. eapply KE; eassumption.
    + intros j Hj. apply RN. lia.
Qed.

(** ** The table stays right *)
(** Whoever keeps a table from the notices can find every cluster in use after
    any history: the table has the place that the pointer list has, and the
    cluster read there has the blobs that it should.  Every notice told where the
    table had the cluster before.  Partial: histories as in C45. *)
Theorem C97_table_partial : forall a cells L ops a' X' l T, archive_ok Stream a cells L ->
  heard unambiguous a (blobs_of L) ops a' X' l -> ample fuel a' X' -> right_table T a (blobs_of L) ->
  right_table (follow T l) a' X' /\ linked T l /\
  forall i b, znth X' i = Some (Some b) -> exists p, follow T l i = Some p /\ shows_at a' p b.
Proof.
  assert (G : forall a X ops a' X' l, heard unambiguous a X ops a' X' l -> forall cells L T, archive_ok Stream a cells L -> X = blobs_of L -> right_table T a X ->
    right_table (follow T l) a' X' /\ linked T l /\ exists L', archive_ok Stream a' cells L' /\ blobs_of L' = X').
  { intros a X ops a' X' l H. induction H as [a X|a X o n a1 e ops a' X' l AM OK UN E H IH]; intros cells L T AO -> RT.
    - split; [exact RT|]. split; [exact Logic.I|]. eauto.
    - destruct (table_step a cells L o n a1 e T AO AM OK UN E RT) as (RT1 & LI).
      pose proof (C97_transparent a o) as TR. rewrite E in TR. cbn [fst] in TR.
      destruct (step_ok fuel dc new_decomp new_comp comp flush kd Stream CD a cells L o n a1 HF AO AM OK UN (eq_sym TR)) as (_ & (L1 & A1 & E1) & _).
      destruct (IH cells L1 (follow T e) A1 (eq_sym E1) RT1) as (R2 & LI2 & L2). rewrite follow_app. split; [exact R2|]. split; [apply linked_app; assumption|exact L2]. }
  intros a cells L ops a' X' l T AO H AM RT. destruct (G _ _ _ _ _ _ H cells L T AO eq_refl RT) as (R & LI & L' & AO' & <-).
  split; [exact R|]. split; [exact LI|]. intros i b E. destruct (proj1 R i b E) as (p & E1 & E2). exists p. split; [exact E1|].
  pose proof (znth_some _ _ _ E). eapply show_located; [exact E2|lia|]. eapply shown_all; eassumption.
Qed.
End Clusters.

(** ** Refutation of C97 *)
Definition C97_full_statement : Prop := forall fuel D (dc : decomp D) new_decomp K new_comp comp flush kd Stream a cells L ops a' X' l T,
  codec_ok (K:=K) dc new_decomp new_comp comp flush Stream -> (0 < fuel)%nat -> archive_ok Stream a cells L ->
  heard fuel dc new_decomp new_comp comp flush kd (fun _ _ => True) a (blobs_of L) ops a' X' l -> ample fuel a' X' -> right_table T a (blobs_of L) ->
  forall i b, znth X' i = Some (Some b) -> exists p, follow T l i = Some p /\ shows_at fuel dc new_decomp kd a' p b.

Notation go_t := (perform_cop_t 60 passthrough plain_new plain_new_comp plain_comp plain_flush KRemembering).
(** Everything the processors are told. *)
Fixpoint told (a : carchive) (ops : list cop) : list cevent := match ops with [] => [] | o :: r => snd (go_t a o) ++ told (snd (go a o)) r end.
Lemma heard_told : forall ok ops a X a' X', happens 60 passthrough plain_new plain_new_comp plain_comp plain_flush KRemembering ok a X ops a' X' ->
  heard 60 passthrough plain_new plain_new_comp plain_comp plain_flush KRemembering ok a X ops a' X' (told a ops).
Proof.
  intros ok ops a X a' X' H. induction H as [a X|a X o n a1 ops a' X' AM OK UN E H IH]; [constructor|].
  cbn [told]. unfold go. pose proof (C97_transparent 60 passthrough plain_new plain_new_comp plain_comp plain_flush KRemembering a o) as TR. rewrite E in TR |- *.
  destruct (go_t a o) as [q e] eqn:EG. cbn [fst snd] in *. subst q. eapply heard_cons; eassumption.
Qed.
Definition empty_table : table := fun _ => None.
Lemma empty_right : right_table empty_table start [].
Proof. split; [intros i b E; apply znth_some in E; change (zlen (@nil (option (list bytes)))) with 0 in E; lia|reflexivity]. Qed.

(** Clusters "a", "b", "c"; the second is removed (nobody is told), the third
    moves. *)
Example C97_example : heard 60 passthrough plain_new plain_new_comp plain_comp plain_flush KRemembering unambiguous start [] history1 (goes start history1)
    [Some [[x61]]; None; Some [[x64]]; Some [[x65]]] (told start history1) /\
  told start history1 = [BeforeWrite; AfterWrite None 3 0; BeforeWrite; AfterWrite None 13 1; BeforeWrite; AfterWrite None 23 2; BeforeWrite; AfterWrite (Some 23) 13 2;
    BeforeWrite; AfterWrite None 23 3].
Proof. split; [apply heard_told; exact history1_happens|vm_compute; reflexivity]. Qed.

(** False: "c" is written in place of cluster 1 without telling the number.  The
    processors hear of cluster 0, and have cluster 1 where nothing is any more. *)
Example C97_wrong : told start history2 = [BeforeWrite; AfterWrite None 3 0; BeforeWrite; AfterWrite None 13 1; BeforeWrite; AfterWrite (Some 13) 3 0].
Proof. vm_compute. reflexivity. Qed.
Theorem C97_refuted : ~ C97_full_statement.
Proof.
  intro H. destruct start_ok as (cells & _ & AO).
  specialize (H 60%nat _ _ _ _ _ _ _ KRemembering _ _ _ _ _ _ _ _ empty_table plain_codec ltac:(lia) AO (heard_told _ _ _ _ _ _ history2_happens)).
  destruct (H ltac:(intros b Hb; vm_compute in Hb; repeat (destruct Hb as [Hb|Hb]; [try discriminate Hb; injection Hb as <-; vm_compute; discriminate|]); destruct Hb) empty_right 1 [[x63]] eq_refl) as (p & EP & _ & R).
  rewrite C97_wrong in EP. vm_compute in EP. injection EP as <-. specialize (R 0 ltac:(lia)). vm_compute in R. discriminate R.
Qed.

Print Assumptions C97_transparent.
Print Assumptions C97_every_history.
Print Assumptions C97_failures.
Print Assumptions C97_notice_partial.
Print Assumptions C97_table_partial.
Print Assumptions C97_refuted.
