(** Property theorems C25-C29: clusters. *)
From Coq Require Import List ZArith Bool Lia.
From Coq Require Import ZifyBool ZifyNat.
From Verif Require Import Base BaseProofs Infobyte Reader ReaderSpec Decompressors DecompressorsSpec DecompressorsProofs Blob BlobProofs Cluster ClusterSpec ClusterProofs
  ClusterWrapper ClusterWrapperSpec ClusterWrapperProofs.
Import ListNotations.
Open Scope Z_scope.

(** C25.  A file that holds a cluster with these blobs ([stored]): whatever is
    asked of the cluster, in whatever order, whichever of the three cluster
    classes is used, the answers are those the list of blobs gives.  [answer]
    includes [read_blob], [get_blob_size] and BlobNotFound beyond the end. *)
Theorem C25_stored_blobs_read_back :
  forall D (dc : decomp D) new_decomp Rep f fuel off ct ext blobs C J tail kd ends qs,
    stored dc new_decomp Rep f off ct ext blobs C J tail ->
    (ends = true -> stored_ends dc Rep J tail) ->
    zlen (cluster_data ext blobs ++ tail) + 2 <= Z.of_nat fuel ->
    Forall (allowed_call ct blobs kd ends) qs ->
    Forall2 (answer ct ext blobs C) qs (asks dc new_decomp f fuel qs (cluster_new kd off)).
Proof.
  intros D dc new_decomp Rep f fuel off ct ext blobs C J tail kd ends qs ST EN FU AL.
  eapply asks_ok with (strict := false); try eassumption; [reflexivity|apply new_cinv].
Qed.
Print Assumptions C25_stored_blobs_read_back.

(** C25, from writing to reading: a compression is chosen and a list of blobs is
    appended to a new cluster, the cluster is written and put anywhere into a
    file.  Reading the file gives the blobs back. *)
Definition new_cluster (ct : ctype) (blobs : list bytes) : list edit :=
  EForceCompression (Some ct) :: map (fun d => EAppend (mem_source d) d) blobs.
Theorem C25_written_cluster_reads_back :
  forall D (dc : decomp D) new_decomp Rep K new_comp comp flush Stream ct k fuel (blobs : list bytes) pre post kd qs,
    compressor_ok (K:=K) new_comp comp flush Stream -> new_comp ct = Ok k -> ct <> UNKNOWN ->
    reads_back dc new_decomp Rep Stream post ->
    Forall (fun d : bytes => zlen d < Z.of_nat fuel) blobs ->
    fits (2 ^ 32 <=? zlen (cluster_data false blobs)) blobs -> blobs <> [] ->
    zlen (cluster_data true blobs) + zlen post + 2 <= Z.of_nat fuel ->
    Forall (allowed_call ct blobs kd false) qs ->
    exists l w w', perform_edits inner_empty fuel (new_cluster ct blobs) (wrap inner_empty tt) = (Ok tt, w) /\
      iter_write inner_empty fuel K new_comp comp flush w = (Ok l, w') /\
      exists ext C, Forall2 (answer ct ext blobs C) qs (asks dc new_decomp (pre ++ concat l ++ post) fuel qs (cluster_new kd (zlen pre))).
Proof.
  intros D dc new_decomp Rep K new_comp comp flush Stream ct k fuel blobs pre post kd qs CO NC NU RB FB FI NE FU AL.
  assert (HF : (0 < fuel)%nat) by (pose proof (zlen_nonneg (cluster_data true blobs)); pose proof (zlen_nonneg post); lia).
  destruct (appends_ok fuel blobs [] FB) as (A & B & E).
  destruct (history_rep inner_empty fuel (fun _ => True) NONE false [] (holds_empty unit _) [] (new_cluster ct blobs) tt HF Logic.I Logic.I) as (w & E1 & R & X & Y).
  { split; [exact Logic.I|exact A]. } { split; [exact Logic.I|exact B]. }
  cbn [map app] in E1. change (in_empty inner_empty) with true in R. cbn [fold_left] in R.
  change (edit_lists true [] (new_cluster ct blobs) []) with (edit_lists true [] (map (fun d => EAppend (mem_source d) d) blobs) []) in R. rewrite E in R. cbn [app] in R.
  assert (F1 : w_ext w = None). { rewrite X. clear. unfold forced_extension, new_cluster. cbn [fold_left]. induction blobs; [reflexivity|exact IHblobs]. }
  assert (F2 : w_comp w = Some ct). { rewrite Y. clear. unfold forced_compression, new_cluster. cbn [fold_left]. induction blobs; [reflexivity|exact IHblobs]. }
  assert (W : wwide false w blobs = (2 ^ 32 <=? zlen (cluster_data false blobs))).
  { unfold wwide, wide. rewrite F1. destruct (has_modifications w) eqn:M; [reflexivity|]. exfalso. apply NE.
    eapply unmodified; [exact R|exact M]. }
  assert (CW : compression_of NONE w = ct) by (unfold compression_of; rewrite F2; reflexivity).
  destruct (iter_write_ok inner_empty fuel (fun _ => True) NONE false [] (holds_empty unit _) K new_comp comp flush Stream CO w blobs k R) as (G & _).
  { rewrite CW. exact NC. } { rewrite CW. exact NU. }
  rewrite W in G. destruct (G FI) as (l & w' & b & C & EW & _ & _ & EL & PI & ST). rewrite CW in *.
  exists l, w, w'. split; [exact E1|]. split; [exact EW|]. set (ext := 2 ^ 32 <=? zlen (cluster_data false blobs)) in *.
  destruct (written_stored D dc new_decomp Rep Stream pre post b C ct ext blobs RB PI ST FI) as (C' & J & tail & STO & TL).
  exists ext, C'. rewrite EL. eapply asks_ok with (ends := false) (kd := kd) (strict := false); [exact STO|discriminate| |reflexivity|apply new_cinv|exact AL].
  rewrite zlen_app. assert (zlen tail <= zlen post) by (destruct TL as [ -> | -> ]; [apply zlen_nonneg|lia]).
  assert (LE : forall x, zlen (cluster_data x blobs) <= zlen (cluster_data true blobs)).
  { intro x. rewrite !cluster_data_len. unfold pointers_size. pose proof (zlen_nonneg blobs). destruct x; unfold pointer_bytes; change (Z.of_nat 8) with 8; change (Z.of_nat 4) with 4; lia. }
  specialize (LE ext). lia.
Qed.
Print Assumptions C25_written_cluster_reads_back.

(** Uncompressed clusters meet the hypotheses. *)
Theorem C25_uncompressed : forall fuel (blobs : list bytes) pre post kd qs,
    Forall (fun d : bytes => zlen d < Z.of_nat fuel) blobs ->
    fits (2 ^ 32 <=? zlen (cluster_data false blobs)) blobs -> blobs <> [] ->
    zlen (cluster_data true blobs) + zlen post + 2 <= Z.of_nat fuel ->
    Forall (allowed_call NONE blobs kd false) qs ->
    exists l w w', perform_edits inner_empty fuel (new_cluster NONE blobs) (wrap inner_empty tt) = (Ok tt, w) /\
      iter_write inner_empty fuel unit plain_new_comp plain_comp plain_flush w = (Ok l, w') /\
      exists ext C, Forall2 (answer NONE ext blobs C) qs (asks passthrough plain_new (pre ++ concat l ++ post) fuel qs (cluster_new kd (zlen pre))).
Proof.
  intros fuel blobs pre post kd qs. eapply C25_written_cluster_reads_back; [apply plain_compressor|reflexivity|discriminate|apply plain_reads_back].
Qed.
Print Assumptions C25_uncompressed.
(** A concrete file: something, then a cluster with the blobs "a", "" and "bc",
    then something else. *)
Definition sample : bytes :=
  [x50; x01; x10; x00; x00; x00; x11; x00; x00; x00; x11; x00; x00; x00; x13; x00; x00; x00; x61; x62; x63; x51].
Lemma sample_stored : stored passthrough plain_new pt_rep sample 1 NONE false [[x61]; []; [x62; x63]] (zskip 2 sample) [] [x51].
Proof.
  constructor.
  - lia.
  - exists x01. split; reflexivity.
  - symmetry. apply app_nil_r.
  - exists []. split; [reflexivity|]. split; reflexivity.
  - apply passthrough_contract.
  - reflexivity.
Qed.
Example C25_example : asks passthrough plain_new sample 100 [QBlobCount; QRead 2 None None; QBlobSize 1; QRead 3 None None; QIter 2 1 None None] (cluster_new KRemembering 1)
  = [CNum 3; CData [x62; x63]; CNum 0; CFail BlobNotFound; CParts [[x62]; [x63]]].
Proof. vm_compute. reflexivity. Qed.

(** C26, full statement: every sensible range of every blob. *)
Definition C26_full_statement : Prop :=
  forall D (dc : decomp D) new_decomp Rep f fuel off ct ext blobs C J tail kd q,
    stored dc new_decomp Rep f off ct ext blobs C J tail -> stored_ends dc Rep J tail ->
    zlen (cluster_data ext blobs ++ tail) + 2 <= Z.of_nat fuel -> sensible q ->
    answer ct ext blobs C q (fst (ask dc new_decomp f fuel q (cluster_new kd off))).
(** False: [iter_read_blob(0, start=2)] of the blob "a" yields bytes of other
    blobs (here with a small library that marks the end of its data by 255). *)
Definition ending_new (c : ctype) : res ((bool * bytes * bytes) * bytes) := Ok ((false, [], []), []).
Definition sample_ending : bytes :=
  [x50; x02; x10; x00; x00; x00; x11; x00; x00; x00; x11; x00; x00; x00; x13; x00; x00; x00; x61; x62; x63; xff; x51].
Lemma sample_ending_stored : stored (zlib_decomp toy_zlib) ending_new (zlib_rep toy_zlib [x51] toy_zlib_rep) sample_ending 1 ZLIB false [[x61]; []; [x62; x63]]
  (zsub 2 20 sample_ending) [x51] [].
Proof.
  constructor.
  - lia.
  - exists x02. split; reflexivity.
  - reflexivity.
  - exists ((false, [], []), []). split; [reflexivity|]. rewrite app_nil_r. split; [reflexivity|]. split; [exists [x51]; reflexivity|]. split; [reflexivity|].
    exists (zsub 2 20 sample_ending). cbn [zl_eof toy_zlib]. split; [|reflexivity]. vm_compute. split; [reflexivity|]. split; [|reflexivity]. repeat constructor; discriminate.
  - apply zlib_meets_contract, toy_zlib_contract.
  - reflexivity.
Qed.
Lemma C26_leak : fst (ask (zlib_decomp toy_zlib) ending_new sample_ending 100 (QIter 0 8 (Some 2) None) (cluster_new KRemembering 1)) = CParts [[x63]].
Proof. vm_compute. reflexivity. Qed.
Theorem C26_refuted : ~ C26_full_statement.
Proof.
  intro H. specialize (H _ _ _ _ _ 100%nat _ _ _ _ _ _ _ KRemembering (QIter 0 8 (Some 2) None) sample_ending_stored).
  destruct H as (l & E & CC & _).
  - split; [apply zlib_meets_contract_end, toy_zlib_contract|reflexivity].
  - vm_compute. discriminate.
  - unfold sensible, sensible_range. lia.
  - rewrite C26_leak in E. injection E as <-. vm_compute in CC. discriminate.
Qed.
Print Assumptions C26_refuted.

(** What holds: both ways of reading return the part asked for if it does not
    start beyond the end of the blob.  Missing: ranges starting beyond it, where
    [iter_read_blob] exposes other blobs; [read_blob] is right there if the
    compression knows its end. *)
Theorem C26_reads_are_slices_partial :
  forall D (dc : decomp D) new_decomp Rep f fuel off ct ext blobs C J tail kd i n s e b history,
    stored dc new_decomp Rep f off ct ext blobs C J tail ->
    zlen (cluster_data ext blobs ++ tail) + 2 <= Z.of_nat fuel ->
    Forall (allowed_call ct blobs kd false) history ->
    znth blobs i = Some b -> 1 <= n -> sensible_range s e -> (forall a, s = Some a -> a <= zlen b) ->
    exists chunks, skipn (length history) (asks dc new_decomp f fuel (history ++ [QRead i s e; QIter i n s e]) (cluster_new kd off))
      = [CData (part s e b); CParts chunks] /\ concat chunks = part s e b.
Proof.
  intros D dc new_decomp Rep f fuel off ct ext blobs C J tail kd i n s e b hs ST FU AL EB Hn SR SI.
  pose proof (znth_some _ _ _ EB) as Hi. assert (SIN : starts_inside blobs i s) by (unfold starts_inside; rewrite EB; destruct s; auto).
  pose proof (C25_stored_blobs_read_back D dc new_decomp Rep f fuel off ct ext blobs C J tail kd false (hs ++ [QRead i s e; QIter i n s e]) ST) as H.
  specialize (H ltac:(discriminate) FU). set (out := asks _ _ _ _ _ _) in *.
  assert (F : Forall2 (answer ct ext blobs C) (hs ++ [QRead i s e; QIter i n s e]) out).
  { apply H. apply Forall_app. split; [exact AL|]. constructor; [|constructor; [|constructor]]; (split; [cbn [sensible]; auto; split; [lia|auto]|split; [left; exact Logic.I|left; exact SIN]]). }
  apply Forall2_app_inv_l in F as (o1 & o2 & F1 & F2 & EO). rewrite EO. rewrite (Forall2_len _ _ _ _ _ F1), skipn_app, skipn_all, Nat.sub_diag. cbn [app skipn].
  inversion F2 as [|q1 a1 l1 l1' P1 F3]; subst. inversion F3 as [|q2 a2 l2 l2' P2 F4]; subst. inversion F4; subst.
  cbn [answer] in P1, P2. rewrite EB in P1, P2. destruct P2 as (chunks & -> & CC & _). subst a1. exists chunks. auto.
Qed.
Print Assumptions C26_reads_are_slices_partial.
(** In-memory clusters and compressions that know their end answer more. *)
Theorem C26_in_memory_all_ranges :
  forall D (dc : decomp D) new_decomp Rep f fuel off ct ext blobs C J tail qs,
    stored dc new_decomp Rep f off ct ext blobs C J tail ->
    zlen (cluster_data ext blobs ++ tail) + 2 <= Z.of_nat fuel ->
    Forall (fun q => sensible q /\ no_end_needed ct q) qs ->
    Forall2 (answer ct ext blobs C) qs (asks dc new_decomp f fuel qs (cluster_new KInMemory off)).
Proof.
  intros D dc new_decomp Rep f fuel off ct ext blobs C J tail qs ST FU AL. eapply C25_stored_blobs_read_back with (ends := false); [exact ST|discriminate|exact FU|].
  eapply Forall_impl; [|exact AL]. intros q (A & B). split; [exact A|]. split; [left; exact B|]. right. left. reflexivity.
Qed.
Print Assumptions C26_in_memory_all_ranges.
Theorem C26_read_blob_all_ranges :
  forall D (dc : decomp D) new_decomp Rep f fuel off ct ext blobs C J tail kd i s e,
    stored dc new_decomp Rep f off ct ext blobs C J tail -> stored_ends dc Rep J tail ->
    zlen (cluster_data ext blobs ++ tail) + 2 <= Z.of_nat fuel -> 0 <= i -> sensible_range s e ->
    fst (ask dc new_decomp f fuel (QRead i s e) (cluster_new kd off)) =
      match znth blobs i with Some b => CData (part s e b) | None => CFail BlobNotFound end.
Proof.
  intros D dc new_decomp Rep f fuel off ct ext blobs C J tail kd i s e ST EN FU Hi SR.
  pose proof (C25_stored_blobs_read_back D dc new_decomp Rep f fuel off ct ext blobs C J tail kd true [QRead i s e] ST (fun _ => EN) FU) as H.
  cbn [asks] in H. destruct (ask dc new_decomp f fuel (QRead i s e) (cluster_new kd off)) as [a c]. assert (F : Forall2 (answer ct ext blobs C) [QRead i s e] [a]).
  { apply H. constructor; [|constructor]. split; [cbn; auto|]. split; [left; exact Logic.I|]. right. right. split; [reflexivity|discriminate]. }
  inversion F; subst. assumption.
Qed.
Print Assumptions C26_read_blob_all_ranges.

(** ** Modified clusters.  [holds]: the wrapped cluster, either new or stored in
    a file (see [holds_empty] and [holds_cluster]). *)
Theorem wrapping_new_clusters : forall A P, holds (@inner_empty A) P NONE false [].
Proof. exact holds_empty. Qed.
Theorem wrapping_stored_clusters : forall D (dc : decomp D) new_decomp Rep f fuel off ct ext blobs C J tail kd,
  stored dc new_decomp Rep f off ct ext blobs C J tail -> zlen (cluster_data ext blobs ++ tail) + 2 <= Z.of_nat fuel ->
  exists Inv, holds (inner_cluster dc new_decomp f fuel) Inv ct ext blobs /\ Inv (cluster_new kd off).
Proof. intros D dc new_decomp Rep f fuel off ct ext blobs C J tail kd ST FU. eexists. split; [eapply holds_cluster with (strict := false); eassumption|apply new_cinv]. Qed.

Section Modified.
Context {I : Type}.
Variable ic : inner I.
Variable fuel : nat.
Variable Inv : I -> Prop.
Variables (ct : ctype) (ext : bool) (orig : list bytes).
Hypothesis HO : holds ic Inv ct ext orig.
Hypothesis HF : (0 < fuel)%nat.
Variable K : Type.
Variable new_comp : ctype -> res K.
Variable comp : K -> bytes -> res (bytes * K).
Variable flush : K -> res bytes.
Variable Stream : ctype -> bytes -> bytes -> Prop.
Hypothesis CO : compressor_ok new_comp comp flush Stream.
Hypothesis NU : forall k, new_comp UNKNOWN <> Ok k.
Notation write := (iter_write ic fuel K new_comp comp flush).
Notation disk_size := (wdisk_size ic fuel K new_comp comp flush).

(** C27.  After any edits at all (any indices, also edits that raised), unless
    more blobs were removed than there are: if the cluster can be written, the
    bytes written are an information byte and a stream of the pointers and
    blobs [L], and all sizes, numbers and offsets reported afterwards -- and
    before, if the cluster changed -- are those of what was written. *)
Theorem C27_sizes_agree_with_written :
  forall c h l w', Inv c -> Forall (any_edit fuel) h ->
    let w := run_edits ic fuel h (wrap ic c) in
    (exists m, fst (wnumber_of_blobs ic w) = Ok m /\ 0 <= m) ->
    write w = (Ok l, w') ->
    exists b C e L,
      concat l = b :: C /\ parse_infobyte b = Ok (compression_of ct w, e) /\ Stream (compression_of ct w) C (cluster_data e L) /\
      fst (disk_size w) = Ok (zlen (concat l)) /\ fst (disk_size w') = Ok (zlen (concat l)) /\
      (forall q, measure q -> wanswer e L q (fst (wask ic fuel q w'))) /\
      (L <> orig -> forall q, measure q -> wanswer e L q (fst (wask ic fuel q w))).
Proof.
  intros c h l w' IC F w (m & EM & HM) EW.
  assert (SA : sane fuel Inv w) by (eapply run_sane; [exact HO|exact HF|eapply wrap_sane; eassumption|exact F]).
  assert (HN : 0 <= zlen orig - zlen (w_removed w) + zlen (w_added w)).
  { destruct (count_any ic fuel Inv ct ext orig HO w SA) as (w1 & E1). rewrite E1 in EM. cbn in EM. injection EM as <-. exact HM. }
  destruct (written_view ic fuel Inv ct ext orig HO K new_comp comp flush w l w' SA HN NU EW) as (NK & L & k & V & NC).
  destruct (iter_write_ok ic fuel Inv ct ext orig HO K new_comp comp flush Stream CO w L k V NC NK) as (G1 & G2).
  assert (FI : fits (wwide ext w L) L).
  { unfold fits. destruct (Z.lt_ge_cases (pointers_size (wwide ext w L) L + zlen (concat L)) (256 ^ Z.of_nat (pointer_bytes (wwide ext w L)))) as [Q|Q]; [exact Q|].
    exfalso. assert (X : fst (write w) = Err StructError) by (apply G2; unfold fits; lia). rewrite EW in X. discriminate X. }
  destruct (G1 FI) as (l1 & w1 & b & C & EW1 & V1 & S1 & EC & PI & ST).
  assert (E1 : (Ok l, w') = (Ok l1, w1)) by congruence. injection E1 as <- <-.
  exists b, C, (wwide ext w L), L. split; [exact EC|]. split; [exact PI|]. split; [exact ST|].
  destruct (disk_size_ok ic fuel Inv ct ext orig HO K new_comp comp flush w L k l w' V NC NK EW) as (D1 & D2). split; [exact D1|]. split; [exact D2|]. split.
  - intros q MQ. rewrite <- (same_wide ic ct ext w w' L S1). eapply measure_ok; [exact HO|exact V1| |exact MQ].
    exact (written_known ic fuel Inv ct ext orig HO K new_comp comp flush w L k l w' V NC NK EW).
  - intros NE q MQ. eapply measure_ok; [exact HO|exact V| |exact MQ]. eapply edited_known; eassumption.
Qed.

(** C28.  The width of the pointers that are written is the right one, and all
    pointers fit: after any edits at all, unless writing raises.  ([width_ok]:
    wide exactly if the data with narrow pointers would reach 2^32 bytes, unless
    the width is forced or the cluster still holds its original blobs.) *)
Theorem C28_width_of_pointers :
  forall c h l w', Inv c -> Forall (any_edit fuel) h ->
    let w := run_edits ic fuel h (wrap ic c) in
    (exists m, fst (wnumber_of_blobs ic w) = Ok m /\ 0 <= m) ->
    write w = (Ok l, w') ->
    exists b C e L,
      concat l = b :: C /\ parse_infobyte b = Ok (compression_of ct w, e) /\ Stream (compression_of ct w) C (cluster_data e L) /\
      width_ok (forced_extension (in_empty ic) h) ext orig L e /\ fits e L.
Proof.
  intros c h l w' IC F w (m & EM & HM) EW.
  assert (SA : sane fuel Inv w) by (eapply run_sane; [exact HO|exact HF|eapply wrap_sane; eassumption|exact F]).
  assert (HN : 0 <= zlen orig - zlen (w_removed w) + zlen (w_added w)).
  { destruct (count_any ic fuel Inv ct ext orig HO w SA) as (w1 & E1). rewrite E1 in EM. cbn in EM. injection EM as <-. exact HM. }
  destruct (written_view ic fuel Inv ct ext orig HO K new_comp comp flush w l w' SA HN NU EW) as (NK & L & k & V & NC).
  destruct (iter_write_ok ic fuel Inv ct ext orig HO K new_comp comp flush Stream CO w L k V NC NK) as (G1 & G2).
  assert (FI : fits (wwide ext w L) L).
  { unfold fits. destruct (Z.lt_ge_cases (pointers_size (wwide ext w L) L + zlen (concat L)) (256 ^ Z.of_nat (pointer_bytes (wwide ext w L)))) as [Q|Q]; [exact Q|].
    exfalso. assert (X : fst (write w) = Err StructError) by (apply G2; unfold fits; lia). rewrite EW in X. discriminate X. }
  destruct (G1 FI) as (l1 & w1 & b & C & EW1 & V1 & S1 & EC & PI & ST).
  assert (E1 : (Ok l, w') = (Ok l1, w1)) by congruence. injection E1 as <- <-.
  exists b, C, (wwide ext w L), L. split; [exact EC|]. split; [exact PI|]. split; [exact ST|]. split; [|exact FI].
  destruct (run_forced ic fuel Inv ct ext orig HO h (wrap ic c) HF (wrap_sane ic fuel Inv ct ext orig HO c IC) F) as (FX & _).
  change (forced_extension (in_empty ic) h) with (fold_left (forced_ext1 (in_empty ic)) h (w_ext (wrap ic c))). rewrite <- FX.
  exact (wwide_ok fuel Inv ext orig w L V).
Qed.

(** C29, what holds.  Blobs are removed in any order, then follow edits
    [h]: appending, setting, emptying, resetting, removing below all indices
    removed before -- but never setting, emptying or appending at a removed
    index ([history_safe]).  All edits succeed and the wrapper answers like the
    list that the same edits of the list of blobs give.
    Missing: the histories that are not [history_safe]. *)
Theorem C29_edits_like_list_edits_partial :
  forall c rs h, Inv c -> in_range orig rs ->
    let start := fold_left (fun l i => remove_at i l) rs orig in
    history_ok fuel (in_empty ic) orig start h ->
    history_safe (in_empty ic) orig start (gone (zlen orig) rs) h ->
    let L := edit_lists (in_empty ic) orig h start in
    exists w, perform_edits ic fuel (map ERemove rs ++ h) (wrap ic c) = (Ok tt, w) /\
      exists e, width_ok (forced_extension (in_empty ic) h) ext orig L e /\
      forall q, wrapper_query q -> sensible q -> inside L q ->
        (width_free q = true \/ L <> orig -> wanswer e L q (fst (wask ic fuel q w))) /\
        wanswer e L q (fst (wask ic fuel q (snd (wask ic fuel QBlobCount w)))).
Proof.
  intros c rs h IC IR start OK SF L.
  destruct (history_rep ic fuel Inv ct ext orig HO rs h c HF IC IR OK SF) as (w & E & R & X & Y). exists w. split; [exact E|].
  exists (wwide ext w L). split; [rewrite <- X; exact (wwide_ok fuel Inv ext orig w L R)|]. intros q WQ SE INS. split.
  - intro WF. apply (wask_ok ic fuel Inv ct ext orig HO w L q R WQ SE INS). destruct WF as [WF|WF]; [left; exact WF|right; eapply edited_known; [exact R|exact WF]].
  - cbn [wask]. destruct (count_ok ic fuel Inv ct ext orig HO w L R) as (w1 & E1 & V1 & S1 & K1). rewrite E1. cbn [snd].
    rewrite <- (same_wide ic ct ext w w1 L S1). apply (wask_ok ic fuel Inv ct ext orig HO w1 L q); [exact (keep _ _ _ _ _ _ _ _ _ R V1 S1)|exact WQ|exact SE|exact INS|].
    right. apply knows_width. exact K1.
Qed.
End Modified.
Print Assumptions C27_sizes_agree_with_written.
Print Assumptions C28_width_of_pointers.
Print Assumptions C29_edits_like_list_edits_partial.

(** C29, full statement: after any edits that make sense for the list, blob by
    blob (and their number). *)
Definition C29_full_statement : Prop :=
  forall I (ic : inner I) fuel Inv ct ext orig c h,
    holds ic Inv ct ext orig -> (0 < fuel)%nat -> Inv c -> history_ok fuel (in_empty ic) orig orig h ->
    let L := edit_lists (in_empty ic) orig h orig in
    exists w, perform_edits ic fuel h (wrap ic c) = (Ok tt, w) /\
      wanswer false L QBlobCount (fst (wask ic fuel QBlobCount w)) /\
      forall i, 0 <= i -> wanswer false L (QRead i None None) (fst (wask ic fuel (QRead i None None) w)).
Notation sample_inner := (inner_cluster passthrough plain_new sample 100).
Notation sample_cluster := (cluster_new KRemembering 1).
Lemma sample_holds : holds sample_inner (cinv pt_rep 1 NONE false [[x61]; []; [x62; x63]] (zskip 2 sample) [] [x51] KRemembering false) NONE false [[x61]; []; [x62; x63]].
Proof. apply holds_cluster; [exact sample_stored|vm_compute; discriminate]. Qed.
(** False: remove blob 0 of "a", "", "bc", then set blob 0 to "d".  The blobs
    should be "d" and "bc", but blob 1 reads as "". *)
Definition d_source : edit := ESet 0 (mem_source [x64]) [x64].
Lemma C29_wrong_blob : let w := snd (perform_edits sample_inner 100 [ERemove 0; d_source] (wrap sample_inner sample_cluster)) in
  fst (wask sample_inner 100 (QRead 0 None None) w) = CData [x64] /\ fst (wask sample_inner 100 (QRead 1 None None) w) = CData [].
Proof. vm_compute. auto. Qed.
Theorem C29_refuted : ~ C29_full_statement.
Proof.
  intro H. destruct (H _ sample_inner 100%nat _ NONE false [[x61]; []; [x62; x63]] sample_cluster [ERemove 0; d_source] sample_holds) as (w & E & _ & R).
  - lia.
  - apply new_cinv.
  - split; [vm_compute; intuition discriminate|]. split; [|exact Logic.I]. split; [apply mem_delivers; reflexivity|vm_compute; intuition discriminate].
  - specialize (R 1 ltac:(lia)). replace w with (snd (perform_edits sample_inner 100 [ERemove 0; d_source] (wrap sample_inner sample_cluster))) in R by (rewrite E; reflexivity).
    vm_compute in R. discriminate.
Qed.
Print Assumptions C29_refuted.
(** Removing the last blob and then appending one: the number of blobs is wrong. *)
Lemma C29_wrong_count : let w := snd (perform_edits sample_inner 100 [ERemove 2; EAppend (mem_source [x64]) [x64]] (wrap sample_inner sample_cluster)) in
  fst (wask sample_inner 100 QBlobCount w) = CNum 4 /\ edit_lists false [[x61]; []; [x62; x63]] [ERemove 2; EAppend (mem_source [x64]) [x64]] [[x61]; []; [x62; x63]] = [[x61]; []; [x64]].
Proof. vm_compute. split; reflexivity. Qed.

(** The hypotheses of C27-C29 are met: a stored cluster, edited and written. *)
Example C27_nontrivial :
  let h := [EAppend (mem_source [x64]) [x64]; ERemove 0; EAsk QContentSize; ERemove 7; EForceExtension (Some true)] in
  let w := run_edits sample_inner 100 [EAppend (mem_source [x64]) [x64]; ERemove 0] (wrap sample_inner sample_cluster) in
  Forall (any_edit 100) h /\ fst (wnumber_of_blobs sample_inner w) = Ok 3 /\
  fst (iter_write sample_inner 100 unit plain_new_comp plain_comp plain_flush w) =
    Ok [[x01]; [x10; x00; x00; x00; x10; x00; x00; x00; x12; x00; x00; x00; x13; x00; x00; x00]; []; [x62; x63]; [x64]; []] /\
  fst (wdisk_size sample_inner 100 unit plain_new_comp plain_comp plain_flush w) = Ok 20.
Proof.
  cbv zeta. split; [|vm_compute; split; [reflexivity|split; reflexivity]].
  repeat (constructor; [cbn [any_edit]; try (apply mem_delivers; reflexivity); try (split; exact Logic.I); exact Logic.I|]). constructor.
Qed.
Example C29_nontrivial :
  let h := [ESet 0 (mem_source [x64]) [x64]; EAppend (mem_source [x65]) [x65]; EEmpty 0] in
  in_range [[x61]; []; [x62; x63]] [1] /\ history_ok 100 false [[x61]; []; [x62; x63]] [[x61]; [x62; x63]] h /\
  history_safe false [[x61]; []; [x62; x63]] [[x61]; [x62; x63]] (gone 3 [1]) h /\
  edit_lists false [[x61]; []; [x62; x63]] h [[x61]; [x62; x63]] = [[]; [x62; x63]; [x65]].
Proof.
  cbv zeta. split; [vm_compute; intuition discriminate|]. split.
  - cbn [history_ok edit_ok]. repeat split; try (apply mem_delivers; reflexivity); vm_compute; discriminate.
  - split; [|reflexivity]. vm_compute. intuition discriminate.
Qed.
