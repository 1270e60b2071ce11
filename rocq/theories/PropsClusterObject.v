(** C74: a cluster object stays usable after it was written. *)
From Coq Require Import List ZArith Bool Lia Strings.Byte.
From Coq Require Import ZifyBool ZifyNat.
From Verif Require Import Base BaseProofs Infobyte Reader ReaderSpec ReaderProofs Entry EntrySpec PointerList PointerListProofs SpaceAllocator Blob BlobProofs Cluster ClusterSpec ClusterProofs ClusterWrapper ClusterWrapperSpec ClusterWrapperProofs
  Archive ArchiveSpec ArchiveProofs ArchiveCluster ArchiveClusterSpec ArchiveClusterProofs ClusterReuseProofs ClusterObjectSpec ClusterObjectProofs PropsArchiveCluster.
Import ListNotations.
Open Scope Z_scope.

Section Objects.
Variable fuel : nat.
Context {D : Type}.
Variable dc : decomp D.
Variable new_decomp : ctype -> res D.
Context {K : Type}.
Variable new_comp : ctype -> res K.
Variable comp : K -> bytes -> res (bytes * K).
Variable flush : K -> res bytes.
Variable kd : ckind.
Variable Stream : ctype -> bytes -> bytes -> Prop.
Hypothesis CD : codec_ok dc new_decomp new_comp comp flush Stream.
Hypothesis SD : steady new_comp comp flush.
Hypothesis HF : (0 < fuel)%nat.

(** What a history of the object of cluster [n] must lead to: the object shows
    what the list shows; the archive shows what was written last, and the same
    entries and other clusters as before; the next flush returns [n]. *)
Definition as_edited {I} (ops : cops I) (gaps : bool) cells L (n : Z) (a' : carchive) (c' : cobj I) (s : olist) : Prop :=
  object_shows fuel ops a' c' (ol_shown s) /\
  (forall b, ol_written s = Some b -> roomy fuel a' s -> shows fuel dc new_decomp kd a' n b) /\
  (exists L', archive_ok Stream a' cells L' /\ forall j, j <> n -> znth L' j = znth L j) /\
  (forall told m a2 c2, told = true \/ gaps = false -> write_cluster fuel new_comp comp flush ops (told_number n told) a' c' = (Ok m, (a2, c2)) -> m = n).

(** Partial: the edits are those for which C29 holds, and a number that is not
    told is not ambiguous (C45). *)
Theorem C74_object_of_stored_cluster_partial : forall a cells L n b c gaps h a' c', archive_ok Stream a cells L ->
  znth (blobs_of L) n = Some (Some b) -> get_cluster_by_index fuel dc new_decomp kd a n = Ok c -> (gaps = false -> ~ In None (blobs_of L)) ->
  let s := mkOlist (Some b) b [] in
  object_runs fuel new_comp comp flush (stored_ops dc new_decomp fuel) n false true gaps (roomy fuel) a c s h a' c' ->
  as_edited (stored_ops dc new_decomp fuel) gaps cells L n a' c' (osteps_list false s h).
Proof.
  intros a cells L n b c gaps h a' c' AO EB G GA s H.
  assert (RM : roomy fuel a s) by (inversion H; assumption).
  destruct (kept_opened fuel dc new_decomp new_comp comp flush kd Stream CD a cells L n b c AO EB G RM) as (off & cell & HN & KE).
  destruct (kept_runs fuel dc new_decomp new_comp comp flush kd Stream CD SD n gaps a c s h a' c' H cells L off cell HF AO HN KE GA) as (L' & off' & cell' & AO' & HN' & OT & KE' & RM').
  pose proof KE' as (Inv & HO & R & MV & OLD & IM & WR). split; [|split; [|split]].
  - eapply shows_of; [exact HO|exact R].
  - intros b' EW _. rewrite WR in EW. injection EW as <-. eapply shown; [exact CD|exact AO'|exact HN'|]. eapply roomy_enough; eassumption.
  - exists L'. auto.
  - intros told m a2 c2 TG W. eapply kept_number; [exact CD|exact AO'|exact HN'|exact KE'| |exact W].
    destruct TG as [->|TG]; [left; reflexivity|right]. eapply no_gaps; [exact (GA TG)|exact HN'|exact OT].
Qed.

(** The same for objects made by [new_cluster]. *)
Theorem C74_object_of_new_cluster_partial : forall a cells L gaps h a' c', archive_ok Stream a cells L -> (gaps = false -> ~ In None (blobs_of L)) ->
  let s := mkOlist None [] [] in
  object_runs fuel new_comp comp flush new_ops (zlen L) true true gaps (fun _ _ => True) a new_cluster s h a' c' ->
  as_edited new_ops gaps cells L (zlen L) a' c' (osteps_list true s h).
Proof.
  intros a cells L gaps h a' c' AO GA s H.
  destruct (kept_new_runs fuel dc new_decomp new_comp comp flush Stream CD SD (zlen L) gaps _ a new_cluster s h a' c' H cells L HF AO (kept_created fuel L) GA) as (L' & AO' & OT & KE').
  pose proof KE' as (oo & R & IM & PL). split; [|split; [|split]].
  - eapply shows_of; [apply holds_empty|exact R].
  - intros b' EW RM. destruct oo as [off|]; [|destruct PL as (_ & PL); rewrite PL in EW; discriminate EW].
    destruct PL as (cell & HN & _ & WR). pose proof (roomy_enough fuel a' _ _ RM WR) as EN. rewrite WR in EW. injection EW as <-. eapply shown; [exact CD|exact AO'|exact HN|exact EN].
  - exists L'. auto.
  - intros told m a2 c2 TG W. eapply (kept_new_flush fuel dc new_decomp new_comp comp flush Stream CD SD a' cells L'); [exact AO'|exact KE'| |exact W].
    destruct TG as [->|TG]; [left; reflexivity|right]. destruct oo as [off|].
    + destruct PL as (cell & HN & _). eapply no_gaps; [exact (GA TG)|exact HN|exact OT].
    + destruct PL as (EL & _). intro IN. apply (GA TG). apply In_nth_error in IN as (k & Hk).
      assert (E : znth (blobs_of L') (Z.of_nat k) = Some None) by (unfold znth; replace (Z.of_nat k <? 0) with false by lia; rewrite Nat2Z.id; exact Hk).
      pose proof (PointerListProofs.znth_some _ _ _ E) as RG. assert (ZL : zlen (blobs_of L') = zlen L') by (unfold blobs_of, zlen; rewrite map_length; reflexivity).
      eapply ClusterWrapperProofs.znth_In. unfold blobs_of in *. rewrite znth_map in *. rewrite <- (OT (Z.of_nat k)) by lia. exact E.
Qed.
End Objects.

(** ** The full statement, refuted *)
(** All sensible edits, and numbers told or not. *)
Definition C74_full_statement : Prop := forall fuel D (dc : decomp D) new_decomp K new_comp comp flush kd Stream,
  codec_ok (K:=K) dc new_decomp new_comp comp flush Stream -> steady new_comp comp flush -> (0 < fuel)%nat ->
  forall a cells L n b c h a' c', archive_ok Stream a cells L ->
  znth (blobs_of L) n = Some (Some b) -> get_cluster_by_index fuel dc new_decomp kd a n = Ok c ->
  let s := mkOlist (Some b) b [] in
  object_runs fuel new_comp comp flush (stored_ops dc new_decomp fuel) n false false false (roomy fuel) a c s h a' c' ->
  as_edited fuel dc new_decomp new_comp comp flush kd Stream (stored_ops dc new_decomp fuel) false cells L n a' c' (osteps_list false s h).

(** The compressor of uncompressed clusters is steady. *)
Theorem plain_steady : steady plain_new_comp plain_comp plain_flush.
Proof.
  intros c k xs ys a b NC E A B. destruct k. apply compresses_iff in A, B. rewrite plain_compress_all in A, B. injection A as <-. injection B as <-. rewrite !concat_app, E. reflexivity.
Qed.

(** An archive with one cluster "a", "b", "c". *)
Definition one : carchive := goes start [CNew [adds x61; adds x62; adds x63]].
Lemma one_ok : exists cells L, archive_ok plain_stream one cells L /\ blobs_of L = [Some [[x61]; [x62]; [x63]]].
Proof.
  destruct start_ok as (cells & _ & AO). exists cells. unfold one. cbn [goes].
  destruct (go start (CNew [adds x61; adds x62; adds x63])) as [r a1] eqn:E. cbn [snd].
  assert (E0 : r = Ok 0) by (apply (f_equal fst) in E; cbn [fst] in E; rewrite <- E; vm_compute; reflexivity). rewrite E0 in E. clear E0.
  destruct (step_ok 60 passthrough plain_new plain_new_comp plain_comp plain_flush KRemembering plain_stream plain_codec start cells [] (CNew [adds x61; adds x62; adds x63]) 0 a1) as (_ & (L & A & B) & _).
  - lia. - exact AO. - intros b []. - split; [repeat (split; [apply mem_delivers; reflexivity|]); exact Logic.I|repeat (split; [intros []|]); exact Logic.I]. - exact Logic.I. - exact E.
  - exists L. split; [exact A|exact B].
Qed.
Definition one_object : cobj (cluster bytes) :=
  match get_cluster_by_index 200 passthrough plain_new KRemembering one 0 with Ok c => c | Err _ => mkCobj (wrap (inner_cluster passthrough plain_new [] 200) (cluster_new KRemembering 0)) 0 end.
Lemma one_opened : get_cluster_by_index 200 passthrough plain_new KRemembering one 0 = Ok one_object.
Proof. unfold one_object. destruct (get_cluster_by_index 200 passthrough plain_new KRemembering one 0) eqn:E; [reflexivity|]. apply (f_equal (fun r => match r with Ok _ => true | Err _ => false end)) in E. vm_compute in E. discriminate E. Qed.

Definition ogo {I} (ops : cops I) n (st : carchive * cobj I) (o : ostep) : res Z * (carchive * cobj I) :=
  perform_ostep 200 plain_new_comp plain_comp plain_flush ops n o (fst st) (snd st).
Fixpoint ogoes {I} (ops : cops I) n (st : carchive * cobj I) (h : list ostep) : carchive * cobj I :=
  match h with [] => st | o :: r => ogoes ops n (snd (ogo ops n st o)) r end.
Definition is_ok {A} (r : res A) : bool := match r with Ok _ => true | Err _ => false end.
Lemma object_step : forall I (ops : cops I) n fresh safe gaps (big : carchive -> olist -> Prop) st s o h, big (fst st) s -> ostep_ok 200 safe gaps s o -> is_ok (fst (ogo ops n st o)) = true ->
  object_runs 200 plain_new_comp plain_comp plain_flush ops n fresh safe gaps big (fst (snd (ogo ops n st o))) (snd (snd (ogo ops n st o))) (ostep_list fresh s o) h
    (fst (ogoes ops n (snd (ogo ops n st o)) h)) (snd (ogoes ops n (snd (ogo ops n st o)) h)) ->
  object_runs 200 plain_new_comp plain_comp plain_flush ops n fresh safe gaps big (fst st) (snd st) s (o :: h) (fst (ogoes ops n st (o :: h))) (snd (ogoes ops n st (o :: h))).
Proof.
  intros I ops n fresh safe gaps big st s o h B OK E H. cbn [ogoes]. destruct (ogo ops n st o) as [[m|x] [a1 c1]] eqn:EO; [|discriminate E].
  eapply object_cons with (m := m); [exact B|exact OK|exact EO|exact H].
Qed.
Ltac roomy_now := (unfold roomy; vm_compute; discriminate) || exact Logic.I.
Ltac ostep_now := apply object_step;
  [ roomy_now
  | first [ left; reflexivity | right; reflexivity
          | split; [first [ split; [apply mem_delivers; reflexivity|vm_compute; split; discriminate] | apply mem_delivers; reflexivity | vm_compute; intuition discriminate ]
                   | let Q := fresh in intro Q; first [discriminate Q | clear Q; vm_compute; intuition discriminate | constructor]] ]
  | vm_compute; reflexivity
  | ].

(** Blob 0 of "a", "b", "c" is removed and blob 0 set to "d": the object should
    show "d", "c", but shows "d", "b" (C29). *)
Definition wrong_history : list ostep := [OEdit (ERemove 0); OEdit (changes x64)].
Theorem C74_refuted : ~ C74_full_statement.
Proof.
  intro H. destruct one_ok as (cells & L & AO & BL).
  specialize (H 200%nat _ _ _ _ _ _ _ KRemembering _ plain_codec plain_steady ltac:(lia) one cells L 0 [[x61]; [x62]; [x63]] one_object wrong_history
    (fst (ogoes (stored_ops passthrough plain_new 200) 0 (one, one_object) wrong_history)) (snd (ogoes (stored_ops passthrough plain_new 200) 0 (one, one_object) wrong_history)) AO).
  destruct H as (SH & _).
  - rewrite BL. reflexivity.
  - exact one_opened.
  - unfold wrong_history. change one with (fst (one, one_object)) at 1. change one_object with (snd (one, one_object)) at 1. ostep_now. ostep_now. cbn [ogoes]. apply object_nil. roomy_now.
  - specialize (SH (QRead 1 None None) false Logic.I eq_refl). vm_compute in SH. assert (X : CData [x62] = CData [x63]) by (apply SH; [repeat split; discriminate|exact Logic.I]). discriminate X.
Qed.

(** An object that is edited, written, edited, written without telling its number,
    edited and asked. *)
Definition history_one : list ostep :=
  [OEdit (changes x64); OFlush true; OEdit (ERemove 1); OFlush false; OEdit (adds x65); OEdit (EAsk QBlobCount); OFlush false; OEdit (ERemove 0)].
Example C74_example_stored : exists a' c', object_runs 200 plain_new_comp plain_comp plain_flush (stored_ops passthrough plain_new 200) 0 false true false (roomy 200)
    one one_object (mkOlist (Some [[x61]; [x62]; [x63]]) [[x61]; [x62]; [x63]] []) history_one a' c' /\
  osteps_list false (mkOlist (Some [[x61]; [x62]; [x63]]) [[x61]; [x62]; [x63]] []) history_one = mkOlist (Some [[x64]; [x63]; [x65]]) [[x63]; [x65]] [0] /\
  fst (wask (inner_cluster passthrough plain_new (ca_file a') 200) 200 (QRead 0 None None) (co_wrap c')) = CData [x63] /\ reads a' 0 = Ok [x64].
Proof.
  exists (fst (ogoes (stored_ops passthrough plain_new 200) 0 (one, one_object) history_one)), (snd (ogoes (stored_ops passthrough plain_new 200) 0 (one, one_object) history_one)).
  split; [|vm_compute; auto].
  unfold history_one. change one with (fst (one, one_object)) at 1. change one_object with (snd (one, one_object)) at 1.
  do 8 ostep_now. cbn [ogoes]. apply object_nil. roomy_now.
Qed.
Definition history_new : list ostep := [OEdit (adds x61); OEdit (adds x62); OFlush false; OEdit (changes x64); OFlush false; OEdit (adds x65); OFlush true].
Example C74_example_new : exists a' c', object_runs 200 plain_new_comp plain_comp plain_flush new_ops 1 true true false (fun _ _ => True)
    one new_cluster (mkOlist None [] []) history_new a' c' /\
  osteps_list true (mkOlist None [] []) history_new = mkOlist (Some [[x64]; [x62]; [x65]]) [[x64]; [x62]; [x65]] [] /\
  reads a' 0 = Ok [x61] /\ reads a' 1 = Ok [x64].
Proof.
  exists (fst (ogoes new_ops 1 (one, new_cluster) history_new)), (snd (ogoes new_ops 1 (one, new_cluster) history_new)).
  split; [|vm_compute; auto].
  unfold history_new. change one with (fst (one, new_cluster)) at 1. change new_cluster with (snd (one, new_cluster)) at 1.
  do 7 ostep_now. cbn [ogoes]. apply object_nil. exact Logic.I.
Qed.

Print Assumptions C74_object_of_stored_cluster_partial.
Print Assumptions C74_object_of_new_cluster_partial.
Print Assumptions C74_refuted.
Print Assumptions plain_steady.
