(** C84: threads that look up entries and clusters of one archive. *)
From Coq Require Import List ZArith Bool Lia Arith Sorting.Sorted.
From Coq Require Import Strings.Byte.
From Coq Require Import ZifyBool ZifyNat.
From Verif Require Import Base BaseProofs Utf8 Entry PointerList PointerListSpec PointerListProofs EntryCache Threads ThreadsSpec ThreadsProofs ThreadsCache ThreadsCacheSpec ThreadsCacheProofs.
Import ListNotations.
Open Scope Z_scope.

(** What one would like: with every policy, each look-up of each thread is
    answered as if there were no other thread and no cache. *)
Definition C84_full_statement : Prop :=
  forall f base urls clusters ecl ccl es cs pos blink scripts,
    archive_is f base urls clusters es cs ->
    Forall (Forall (sensible es)) scripts ->
    positive_size ecl -> positive_size ccl ->
    answered f base urls clusters ecl ccl es cs pos blink scripts.

(** Proved: each of the two caches keeps nothing, or has room for everything
    the threads may put into it: all entries of the archive, and all the
    clusters that are asked for. *)
Theorem C84_lookups_partial :
  forall f base urls clusters ecl ccl es cs pos blink scripts,
    archive_is f base urls clusters es cs ->
    Forall (Forall (sensible es)) scripts ->
    room_for ecl (map fst es) -> room_for ccl (asked cs (concat scripts)) ->
    answered f base urls clusters ecl ccl es cs pos blink scripts.
Proof.
  intros f base urls clusters ecl ccl es cs pos blink scripts AI SQ RE RC sched.
  set (UC := map (Z.add base) (asked cs (concat scripts))).
  assert (RE' : room_for ecl (UE base es)) by (apply room_shift; exact RE).
  assert (RC' : room_for ccl UC) by (apply room_shift; exact RC).
  set (good := lgood f base ecl ccl es UC).
  set (Q := fun (i : nat) (h : bool) (s : looks) (w : bytes) (r : res (list seen)) =>
    h = false /\ forall qs, nth_error scripts i = Some qs -> exists l, r = Ok l /\ Forall2 (right base es cs) qs l).
  assert (A0 : all_safe _ good lgrows same quiet (lstart f base urls clusters ecl ccl pos blink scripts) Q).
  { assert (G0 : good (mkLooks pos blink (tcache_new ecl) (tcache_new ccl))) by (split; apply cgood_new).
    split; [exact G0|]. split; [intros _; exact Logic.I|]. split; [discriminate|].
    intros i p E. cbn [lstart cf_threads] in E. rewrite nth_error_map in E. destruct (nth_error scripts i) as [qs|] eqn:EC; [|discriminate]. injection E as <-.
    assert (IQ : In qs scripts) by (eapply nth_error_In; exact EC).
    destruct (among_looks f base urls clusters ecl ccl es cs UC AI RE' RC' qs) as (l & Y & R).
    - rewrite Forall_forall in SQ. apply SQ. exact IQ.
    - intros x H. apply in_map. unfold asked in *. apply in_flat_map in H. destruct H as (q & Hq & Hx). apply in_flat_map. exists q. split; [|exact Hx].
      apply in_concat. exists qs. auto.
    - specialize (Y _ G0). unfold run in Y. cbn [cf_lock lstart holds_lock cf_shared]. eapply safe_impl; [exact Y|]. intros h s w r Gs (-> & -> & ->).
      split; [reflexivity|]. intros qs' E'. assert (qs' = qs) by congruence. subst qs'. exists l. auto. }
  cbv zeta. assert (A : all_safe _ good lgrows same quiet (tsched sched (lstart f base urls clusters ecl ccl pos blink scripts)) Q).
  { apply sched_safe; [exact lgrows_refl|exact lgrows_trans|exact same_refl|exact same_trans| |exact A0]. intros a b _ _. exact Logic.I. }
  split; [|split].
  - intros i qs r EC ER. destruct A as (G & _ & _ & AS). specialize (AS i _ ER). cbn in AS. destruct (AS _ G) as (_ & X); [|apply X; exact EC].
    apply later_refl; [exact lgrows_refl|exact same_refl].
  - eapply safe_progress; [exact lgrows_refl|exact same_refl|exact A|]. intros i h s w r (X & _). exact X.
  - apply never_endless.
Qed.
Print Assumptions C84_lookups_partial.

(** With caches of any size, whatever the threads do: a look-up never answers
    with a wrong entry or cluster, and never says that a URL is there which is not.
    It may only miss: see [missed]. *)
Theorem C84_never_wrong :
  forall f base urls clusters ecl ccl es cs pos blink scripts,
    archive_is f base urls clusters es cs ->
    Forall (Forall (sensible es)) scripts ->
    positive_size ecl -> positive_size ccl ->
    answered_or_missed f base urls clusters ecl ccl es cs pos blink scripts.
Proof.
  intros f base urls clusters ecl ccl es cs pos blink scripts AI SQ PE PC sched.
  set (UC := map (Z.add base) (asked cs (concat scripts))).
  set (good := aok f base ecl ccl es UC).
  set (Q := fun (i : nat) (h : bool) (s : looks) (w : bytes) (r : res (list seen)) =>
    h = false /\ forall qs, nth_error scripts i = Some qs -> exists l, r = Ok l /\ Forall2 (fun q a => right base es cs q a \/ missed q a) qs l).
  assert (A0 : all_safe _ good anyhow same quiet (lstart f base urls clusters ecl ccl pos blink scripts) Q).
  { assert (G0 : good (mkLooks pos blink (tcache_new ecl) (tcache_new ccl))) by (split; apply cok_new; assumption).
    split; [exact G0|]. split; [intros _; exact Logic.I|]. split; [discriminate|].
    intros i p E. cbn [lstart cf_threads] in E. rewrite nth_error_map in E. destruct (nth_error scripts i) as [qs|] eqn:EC; [|discriminate]. injection E as <-.
    assert (IQ : In qs scripts) by (eapply nth_error_In; exact EC).
    assert (Y : run good anyhow (mkLooks pos blink (tcache_new ecl) (tcache_new ccl)) (p_looks f base urls clusters ecl ccl qs)
      (fun _ x => exists l, x = Ok l /\ Forall2 (fun q a => right base es cs q a \/ missed q a) qs l)).
    { apply mostly_looks; [exact AI| | |exact G0].
      - rewrite Forall_forall in SQ. apply SQ. exact IQ.
      - intros x H. apply in_map. unfold asked in *. apply in_flat_map in H. destruct H as (q & Hq & Hx). apply in_flat_map. exists q. split; [|exact Hx].
        apply in_concat. exists qs. auto. }
    unfold run in Y. cbn [cf_lock lstart holds_lock cf_shared]. eapply safe_impl; [exact Y|]. intros h s w r Gs (-> & _ & X).
    split; [reflexivity|]. intros qs' E'. assert (qs' = qs) by congruence. subst qs'. exact X. }
  cbv zeta. assert (A : all_safe _ good anyhow same quiet (tsched sched (lstart f base urls clusters ecl ccl pos blink scripts)) Q).
  { apply sched_safe; [exact anyhow_refl|unfold anyhow; auto|exact same_refl|exact same_trans| |exact A0]. intros a b _ _. exact Logic.I. }
  split; [|split].
  - intros i qs r EC ER. destruct A as (G & _ & _ & AS). specialize (AS i _ ER). cbn in AS. destruct (AS _ G) as (_ & X); [|apply X; exact EC].
    apply later_refl; [exact anyhow_refl|exact same_refl].
  - eapply safe_progress; [exact anyhow_refl|exact same_refl|exact A|]. intros i h s w r (X & _). exact X.
  - apply never_endless.
Qed.
Print Assumptions C84_never_wrong.

(** One thread, with caches of any class and any size: every look-up is right,
    as without a cache.  (Nobody else is there to replace a key.) *)
Theorem C84_one_thread :
  forall f base urls clusters ecl ccl es cs pos qs,
    archive_is f base urls clusters es cs ->
    Forall (sensible es) qs ->
    positive_size ecl -> positive_size ccl ->
    answered f base urls clusters ecl ccl es cs pos (fun _ => false) [qs].
Proof.
  intros f base urls clusters ecl ccl es cs pos qs AI SQ PE PC sched.
  set (UC := map (Z.add base) (asked cs qs)).
  assert (G0 : sok f base ecl ccl es UC (mkLooks pos (fun _ => false) (tcache_new ecl) (tcache_new ccl))).
  { split; [split; apply cok_new; assumption|reflexivity]. }
  destruct (surely_looks f base urls clusters ecl ccl es cs UC AI qs SQ) as (l & Y & R).
  { intros x H. apply in_map. exact H. }
  assert (A : alone (fun _ x => x = Ok l) (tsched sched (lstart f base urls clusters ecl ccl pos (fun _ => false) [qs]))).
  { apply solo_sched. eexists _, false, _. split; [reflexivity|]. eapply solo_impl; [apply (Y _ G0)|]. intros s x (_ & ->). reflexivity. }
  cbv zeta. destruct A as (p & h & s & -> & H). split; [|split].
  - intros i qs' r EC ER. destruct i as [|i]; [|destruct i; discriminate]. injection EC as <-. cbn in ER. injection ER as ->. destruct H as (_ & ->). eauto.
  - destruct (solo_step _ p h s _ H) as [(r & -> & _)|(p' & h' & s' & E & _)]; [left; constructor; [exists r; reflexivity|constructor]|right; eexists _, _; exact E].
  - apply never_endless.
Qed.
Print Assumptions C84_one_thread.

(** The default policy: entries are not cached, two clusters are (policy.py
    144-154). *)
Definition default_clusters : cache_class := LastAccessCache 2.

(** With the default policy, look-ups of entries are always right. *)
Theorem C84_entries_default :
  forall f base urls clusters es cs pos blink scripts,
    archive_is f base urls clusters es cs ->
    Forall (Forall (fun q => sensible es q /\ match q with ClusterAt _ | ClusterByIndex _ => False | _ => True end)) scripts ->
    answered f base urls clusters NoOpCache default_clusters es cs pos blink scripts.
Proof.
  intros f base urls clusters es cs pos blink scripts AI SQ. apply C84_lookups_partial; [exact AI| |exact Logic.I|].
  - eapply Forall_impl; [|exact SQ]. intros qs H. eapply Forall_impl; [|exact H]. intros q X. apply X.
  - assert (E : asked cs (concat scripts) = []).
    { unfold asked. induction SQ as [|qs l H _ IH]; [reflexivity|]. cbn [concat]. rewrite flat_map_app, IH, app_nil_r. clear IH.
      induction H as [|q qs (_ & X) _ IH]; [reflexivity|]. destruct q; try contradiction; exact IH. }
    rewrite E. cbn. lia.
Qed.
Print Assumptions C84_entries_default.

(** ** An archive with three entries at the end of three other bytes; the URL
    pointer list is read from the file, the list of four clusters is in memory *)
Definition article (u : Z) : entry := mkEntry 0 [67] [u] (Some [u]) (Content 0 0).
Definition stored_bytes {A} (r : res (list A)) : list A := match r with Ok b => b | Err _ => [] end.
Definition file3 : bytes :=
  [x51; x51; x51] ++ concat (map (fun u => stored_bytes (entry_to_bytes (article u))) [98; 97; 99]) ++ stored_bytes (ptrs_to_bytes 8 [20; 0; 40]).
Definition urls3 : ptrlist := OnDisk (mkOd file3 63 3 8).
Definition es3 : list (Z * entry) := [(20, article 97); (0, article 98); (40, article 99)].
Definition cs3 : list Z := [100; 200; 300; 200].
Lemma three_is : archive_is file3 3 urls3 (InMemory cs3) es3 cs3.
Proof.
  constructor.
  - lia.
  - split; [reflexivity|]. repeat split; try (vm_compute; congruence). exists (stored_bytes (ptrs_to_bytes 8 [20; 0; 40])). split; vm_compute; reflexivity.
  - repeat constructor; cbn; try lia; vm_compute; reflexivity.
  - exists [[x43; x61]; [x43; x62]; [x43; x63]]. split; [repeat constructor|]. repeat constructor.
  - reflexivity.
  - repeat constructor; lia.
Qed.
Definition results3 (ecl ccl : cache_class) (sched : list nat) (scripts : list (list look)) : list (res (list seen)) :=
  map (fun p => match p with Ret r => r | _ => Err Diverge end)
    (cf_threads (tsched sched (lstart file3 3 urls3 (InMemory cs3) ecl ccl 0 (fun _ => false) scripts))).

(** A thread of a schedule has ended with something that is not right. *)
Lemma not_answered : forall ecl ccl scripts sched i qs l, nth_error scripts i = Some qs ->
  nth_error (results3 ecl ccl sched scripts) i = Some (Ok l) -> ~ Forall2 (right 3 es3 cs3) qs l ->
  ~ answered file3 3 urls3 (InMemory cs3) ecl ccl es3 cs3 0 (fun _ => false) scripts.
Proof.
  intros ecl ccl scripts sched i qs l ES ER N A. destruct (A sched) as (X & _). unfold results3 in ER. rewrite nth_error_map in ER.
  destruct (nth_error _ i) as [p|] eqn:EP in ER; [|discriminate]. injection ER as ER. destruct p as [r| | | |]; try discriminate. subst r.
  destruct (X i qs (Ok l) ES EP) as (l' & E & F). injection E as <-. contradiction.
Qed.
(** First thread 0, then thread 1, then thread 0 again. *)
Definition interrupted (n : nat) : list nat := repeat 0%nat n ++ repeat 1%nat 100 ++ repeat 0%nat 200.

(** False in general, with the default policy: a thread asks the cache whether
    a cluster is there, another thread gets two other clusters, and [get] raises
    KeyError. *)
Definition two_readers : list (list look) := [[ClusterByIndex 0; ClusterByIndex 0]; [ClusterByIndex 1; ClusterByIndex 2]].
Theorem C84_refuted : ~ C84_full_statement.
Proof.
  intro F. assert (X : answered file3 3 urls3 (InMemory cs3) NoOpCache default_clusters es3 cs3 0 (fun _ => false) two_readers).
  { apply F; [exact three_is|repeat constructor|exact Logic.I|cbn; lia]. }
  revert X. apply (not_answered _ _ _ (interrupted 3) 0 [ClusterByIndex 0; ClusterByIndex 0] [SCluster 103; SRaise KeyError]); [reflexivity|vm_compute; reflexivity|].
  intro H. inversion H as [|? ? ? ? _ H2]; subst. inversion H2 as [|? ? ? ? H3 _]; subst. discriminate H3.
Qed.
Print Assumptions C84_refuted.
(** With a cache for entries, an entry that exists is reported as missing: the
    KeyError of the cache is taken for that of the search. *)
Theorem C84_missing_refuted : forall cl, In cl [LastAccessCache 1; TopAccessCache 1; HybridCache 1 1] ->
  exists scripts, Forall (Forall (sensible es3)) scripts /\
    ~ answered file3 3 urls3 (InMemory cs3) cl default_clusters es3 cs3 0 (fun _ => false) scripts /\
    exists sched, nth_error (map (fun r => match r with Ok l => nth_error l 1 | Err _ => None end) (results3 cl default_clusters sched scripts)) 0
                  = Some (Some (SRaise EntryNotFound)) /\ In (EntryByUrl [67; 98]) (nth 0 scripts []).
Proof.
  intros cl H.
  set (scripts := [[EntryByUrl [67; 98]; EntryByUrl [67; 98]]; repeat (EntryAt 40) 8]).
  assert (S : Forall (Forall (sensible es3)) scripts).
  { assert (A : sensible es3 (EntryAt 40)) by (right; right; left; reflexivity).
    assert (B : sensible es3 (EntryByUrl [67; 98])) by (exists [x43; x62]; reflexivity).
    apply Forall_cons; [|apply Forall_cons; [|apply Forall_nil]].
    - apply Forall_cons; [exact B|]. apply Forall_cons; [exact B|apply Forall_nil].
    - apply Forall_forall. intros q Q. apply repeat_spec in Q. subst q. exact A. }
  assert (W : forall n l, nth_error (results3 cl default_clusters (interrupted n) scripts) 0 = Some (Ok [SEntry l; SRaise EntryNotFound]) ->
    exists scripts, Forall (Forall (sensible es3)) scripts /\
    ~ answered file3 3 urls3 (InMemory cs3) cl default_clusters es3 cs3 0 (fun _ => false) scripts /\
    exists sched, nth_error (map (fun r => match r with Ok l => nth_error l 1 | Err _ => None end) (results3 cl default_clusters sched scripts)) 0
                  = Some (Some (SRaise EntryNotFound)) /\ In (EntryByUrl [67; 98]) (nth 0 scripts [])).
  { intros n l E. exists scripts. split; [exact S|]. split.
    - eapply (not_answered _ _ _ (interrupted n) 0); [reflexivity|exact E|]. intro F. inversion F as [|? ? ? ? _ F2]; subst. inversion F2 as [|? ? ? ? F3 _]; subst.
      destruct F3 as [(x & e & X & _)|(_ & X)]; [discriminate|]. apply (X 0 (article 98)); [right; left; reflexivity|reflexivity].
    - exists (interrupted n). split; [|left; reflexivity]. rewrite nth_error_map, E. reflexivity. }
  destruct H as [<-|[<-|[<-|[]]]].
  - apply (W 41%nat (article 98)). vm_compute. reflexivity.
  - apply (W 53%nat (article 98)). vm_compute. reflexivity.
  - apply (W 59%nat (article 98)). vm_compute. reflexivity.
Qed.
Print Assumptions C84_missing_refuted.

(** Three threads that meet the hypotheses of [C84_lookups_partial] with caches
    of all classes, and what they get when their steps are taken in turn. *)
Definition readers3 : list (list look) :=
  [ [EntryByUrl [67; 98]; HasUrl [67; 100]; ClusterByIndex 1; EntryByIndex 2];
    [ClusterByIndex 0; EntryAt 20; ClusterByIndex 3; ClusterByIndex 4; EntryByUrl [67; 97; 97]];
    [HasUrl [67; 99]; ClusterAt 100; EntryByIndex 3; EntryByIndex (-1); ClusterByIndex (-1)] ].
Example C84_example_hypotheses :
  Forall (Forall (sensible es3)) readers3 /\ room_for (HybridCache 3 1) (map fst es3) /\ room_for default_clusters (asked cs3 (concat readers3)).
Proof.
  split; [unfold readers3|split; vm_compute; discriminate].
  repeat match goal with
  | |- Forall _ (_ :: _) => apply Forall_cons
  | |- Forall _ [] => apply Forall_nil
  | |- sensible _ (EntryByUrl _) => eexists; vm_compute; reflexivity
  | |- sensible _ (HasUrl _) => eexists; vm_compute; reflexivity
  | |- sensible _ (EntryAt _) => cbn; auto
  | |- sensible _ (ClusterAt _) => cbn; lia
  | |- sensible _ _ => exact Logic.I
  end.
Qed.
Example C84_example_results : forall ecl, In ecl [NoOpCache; LastAccessCache 3; TopAccessCache 3; HybridCache 3 1] ->
  results3 ecl default_clusters (concat (repeat [0; 1; 2; 2]%nat 200)) readers3 =
  [ Ok [SEntry (article 98); SBool false; SCluster 203; SEntry (article 99)];
    Ok [SCluster 103; SEntry (article 97); SCluster 203; SRaise IndexError; SRaise EntryNotFound];
    Ok [SBool true; SCluster 103; SRaise EntryNotFound; SRaise EntryNotFound; SRaise AssertionError] ].
Proof. intros ecl [<-|[<-|[<-|[<-|[]]]]]; vm_compute; reflexivity. Qed.
(** Caches with room for one entry meet the hypotheses of [C84_never_wrong] and
    [C84_one_thread]; a thread alone gets the right answers while they are full. *)
Example C84_small_caches : forall cl, In cl [LastAccessCache 1; TopAccessCache 1; HybridCache 1 1] ->
  positive_size cl /\
  results3 cl cl (repeat 0%nat 400) [[EntryByUrl [67; 98]; EntryByUrl [67; 98]; EntryAt 40; EntryAt 40; EntryByIndex 0; ClusterByIndex 0; ClusterByIndex 1; ClusterByIndex 0]] =
  [ Ok [SEntry (article 98); SEntry (article 98); SEntry (article 99); SEntry (article 99); SEntry (article 97); SCluster 103; SCluster 203; SCluster 103] ].
Proof. intros cl [<-|[<-|[<-|[]]]]; (split; [cbn; lia|vm_compute; reflexivity]). Qed.
