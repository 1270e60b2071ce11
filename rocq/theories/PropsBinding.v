(** C92: a cluster gives the data of the archive it is bound to. *)
From Coq Require Import List ZArith Bool Lia Strings.Byte.
From Coq Require Import ZifyBool ZifyNat.
From Verif Require Import Base BaseProofs Infobyte Reader ReaderSpec Decompressors DecompressorsSpec DecompressorsProofs Blob BlobProofs Cluster ClusterSpec ClusterProofs ClusterWrapper ClusterWrapperSpec ClusterWrapperProofs Binding BindingProofs PropsCluster.
Import ListNotations.
Open Scope Z_scope.

(** ** Specification *)
(** The archive a cluster is bound to after a history, if it was bound to [z]
    before: the first it was bound to since it was unbound last. *)
Fixpoint owner (z : option nat) (h : list bcall) : option nat :=
  match h with
  | [] => z
  | BUnbind :: r => owner None r
  | BBind a :: r => owner (match z with Some y => Some y | None => Some a end) r
  | BAsk _ :: r => owner z r
  end.
(** Every archive holds a cluster at the position [off]. *)
Record shelves {D} (dc : decomp D) new_decomp (Rep : D -> bytes -> bytes -> bytes -> Prop) (fuel : nat) (off : Z) (files : nat -> bytes) := mkShelves {
  sv_ct : nat -> ctype; sv_ext : nat -> bool; sv_blobs : nat -> list bytes; sv_data : nat -> bytes; sv_rest : nat -> bytes; sv_tail : nat -> bytes;
  sv_stored : forall a, ClusterSpec.stored dc new_decomp Rep (files a) off (sv_ct a) (sv_ext a) (sv_blobs a) (sv_data a) (sv_rest a) (sv_tail a);
  sv_fuel : forall a, zlen (cluster_data (sv_ext a) (sv_blobs a) ++ sv_tail a) + 2 <= Z.of_nat fuel }.
Arguments sv_ct {D dc new_decomp Rep fuel off files}. Arguments sv_ext {D dc new_decomp Rep fuel off files}. Arguments sv_blobs {D dc new_decomp Rep fuel off files}. Arguments sv_data {D dc new_decomp Rep fuel off files}.
Arguments sv_stored {D dc new_decomp Rep fuel off files}. Arguments sv_fuel {D dc new_decomp Rep fuel off files}.
Section Statement.
Context {D : Type} {dc : decomp D} {new_decomp : ctype -> res D} {Rep : D -> bytes -> bytes -> bytes -> Prop} {fuel : nat} {off : Z} {files : nat -> bytes}.
Variable S : shelves dc new_decomp Rep fuel off files.
Variable kd : ckind.
(** What may be asked of the cluster in the archive [a], and what is to be answered. *)
Definition askable (a : nat) (q : ccall) : Prop := allowed_call (sv_ct S a) (sv_blobs S a) kd false q.
Definition right_answer (a : nat) (q : ccall) (x : cans) : Prop := answer (sv_ct S a) (sv_ext S a) (sv_blobs S a) (sv_data S a) q x.
Definition askable_history (z : nat) (h : list bcall) : Prop := forall h1 q h2 a, h = h1 ++ BAsk q :: h2 -> owner (Some z) h1 = Some a -> askable a q.
(** Nothing was asked while the cluster was bound to another archive than [a]. *)
Definition only_asked_in (a z : nat) (h : list bcall) : Prop := forall h1 q h2 y, h = h1 ++ BAsk q :: h2 -> owner (Some z) h1 = Some y -> y = a.
End Statement.
(** A cluster that is bound to [z] and was used in the archive [used] since it was
    reset: it is reset before it is used in another archive. *)
Fixpoint tidy (z used : option nat) (h : list bcall) : Prop :=
  match h with
  | [] => True
  | BUnbind :: r => tidy None used r
  | BBind a :: r => tidy (match z with Some y => Some y | None => Some a end) used r
  | BAsk QReset :: r => tidy z None r
  | BAsk _ :: r => match z with None => tidy z used r | Some y => (used = None \/ used = Some y) /\ tidy z (Some y) r end
  end.
(** Nobody asks only for offsets with negative numbers. *)
Definition names_offsets (h : list bcall) : Prop := forall ns, In (BAsk (QOffsets (Some ns))) h -> ns = [] \/ exists x, In x ns /\ 0 <= x.
(** Whatever was called before, a cluster that is bound to [a] answers from [a]. *)
Definition C92_full_statement : Prop :=
  forall D (dc : decomp D) new_decomp Rep fuel off files (S : shelves dc new_decomp Rep fuel off files) kd z h a q,
  askable_history S kd z h -> owner (Some z) h = Some a -> askable S kd a q ->
  right_answer S a q (fst (bcall_run dc new_decomp fuel files (BAsk q) (bcalls dc new_decomp fuel files h (read_from kd z off)))).

(** ** Proofs *)
Section Proofs.
Context {D : Type}.
Variable dc : decomp D.
Variable new_decomp : ctype -> res D.
Variable fuel : nat.
Variable files : nat -> bytes.
Notation run := (bcall_run dc new_decomp fuel files).
Notation runs := (bcalls dc new_decomp fuel files).

Lemma run_owner : forall c b, bc_zim (snd (run c b)) = owner (bc_zim b) [c].
Proof.
  intros [a| |q] [z c]; cbn [bcall_run owner bc_zim bc_cluster].
  - unfold bind_to. destruct z as [z|]; [|reflexivity]. destruct (Nat.eqb_spec z a) as [->|]; reflexivity.
  - reflexivity.
  - destruct (match z with Some z => _ | None => _ end) as [x c']. reflexivity.
Qed.
Lemma owner_app : forall h1 h2 z, owner z (h1 ++ h2) = owner (owner z h1) h2.
Proof. induction h1 as [|[a| |q] h1 IH]; intros h2 z; cbn [app owner]; auto. Qed.
Lemma runs_app : forall h1 h2 b, runs (h1 ++ h2) b = runs h2 (runs h1 b).
Proof. intros h1 h2 b. unfold bcalls. apply fold_left_app. Qed.
Lemma runs_owner : forall h b, bc_zim (runs h b) = owner (bc_zim b) h.
Proof.
  intro h. induction h as [|c h IH]; intro b; [reflexivity|]. unfold bcalls in *. cbn [fold_left]. rewrite IH, run_owner. rewrite <- (owner_app [c] h). reflexivity.
Qed.

(** *** C92, binding: [bind] fails exactly if the cluster is bound to another
    archive, and then changes nothing. *)
Theorem C92_bind : forall kd off z h a, let b := runs h (read_from kd z off) in
  match owner (Some z) h with
  | Some y => if Nat.eqb y a then fst (run (BBind a) b) = CDone /\ snd (run (BBind a) b) = b else fst (run (BBind a) b) = CFail AlreadyBound /\ snd (run (BBind a) b) = b
  | None => fst (run (BBind a) b) = CDone /\ bc_zim (snd (run (BBind a) b)) = Some a /\ bc_cluster (snd (run (BBind a) b)) = bc_cluster b
  end.
Proof.
  intros kd off z h a. pose proof (runs_owner h (read_from kd z off)) as E. cbn zeta. change (bc_zim (read_from kd z off)) with (Some z) in E. rewrite <- E. destruct (runs h (read_from kd z off)) as [y c]. cbn [bcall_run bc_zim bc_cluster]. unfold bind_to.
  destruct y as [y|]; [|auto]. destruct (Nat.eqb_spec y a) as [->|]; auto.
Qed.
(** *** C92, unbound clusters give no data. *)
Theorem C92_unbound : forall kd off z h q, owner (Some z) h = None -> sensible q -> q <> QReset -> (forall ns, q <> QOffsets ns) ->
  let b := runs h (read_from kd z off) in run (BAsk q) b = (CFail UnboundErr, b).
Proof.
  intros kd off z h q O S N1 N2. pose proof (runs_owner h (read_from kd z off)) as E. cbn zeta. change (bc_zim (read_from kd z off)) with (Some z) in E. rewrite O in E. destruct (runs h (read_from kd z off)) as [y c]. cbn [bc_zim] in E. subst y. cbn [bcall_run bc_zim bc_cluster].
  assert (R : forall s e, sensible_range s e -> range_ok s e = true).
  { intros s e (A & B & C). unfold range_ok. destruct s, e; lia. }
  destruct q; cbn [ask_unbound sensible] in *; try reflexivity; try congruence.
  - destruct (Z.ltb_spec i 0); [lia|reflexivity].
  - destruct S as (S1 & S2). rewrite (R _ _ S2). destruct (Z.ltb_spec i 0); [lia|]. destruct (cl_kind c); reflexivity.
  - destruct S as (S1 & S2 & S3). rewrite (R _ _ S3). destruct (Z.ltb_spec i 0); [lia|]. destruct (Z.leb_spec buffersize 0); [lia|]. destruct (cl_kind c); reflexivity.
Qed.
End Proofs.

(** *** C92, one archive: if nothing was asked of the cluster while it was
    bound to another archive, its answers are those of the archive it is bound to.
    Missing: clusters that were used in two archives, see [C92_refuted]. *)
Theorem C92_one_archive_partial : forall D (dc : decomp D) new_decomp Rep fuel off files (S : shelves dc new_decomp Rep fuel off files) kd z h a q,
  askable_history S kd z h -> only_asked_in a z h -> owner (Some z) h = Some a -> askable S kd a q ->
  right_answer S a q (fst (bcall_run dc new_decomp fuel files (BAsk q) (bcalls dc new_decomp fuel files h (read_from kd z off)))).
Proof.
  intros D dc new_decomp Rep fuel off files S kd z h a q AH OA O AQ.
  assert (CI : cinv Rep off (sv_ct S a) (sv_ext S a) (sv_blobs S a) (sv_data S a) (sv_rest _ _ _ _ _ _ S a) (sv_tail _ _ _ _ _ _ S a) kd false (bc_cluster (bcalls dc new_decomp fuel files h (read_from kd z off)))).
  { clear O AQ q. induction h as [|c h IH] using rev_ind; [apply new_cinv|].
    assert (IHH := IH ltac:(intros h1 q h2 y E; eapply (AH h1 q (h2 ++ [c]) y); rewrite E, <- app_assoc; reflexivity) ltac:(intros h1 q h2 y E; eapply (OA h1 q (h2 ++ [c]) y); rewrite E, <- app_assoc; reflexivity)). clear IH.
    rewrite runs_app. pose proof (runs_owner dc new_decomp fuel files h (read_from kd z off)) as E. change (bc_zim (read_from kd z off)) with (Some z) in E.
    set (b := bcalls dc new_decomp fuel files h (read_from kd z off)) in *. clearbody b. unfold bcalls. cbn [fold_left]. destruct b as [y c0]. cbn [bc_zim bc_cluster] in *.
    destruct c as [x| |q]; cbn [bcall_run bc_zim bc_cluster].
    - destruct (bind_to x y). exact IHH.
    - exact IHH.
    - destruct y as [y|].
      + pose proof (OA h q [] y eq_refl (eq_sym E)) as ->. pose proof (AH h q [] a eq_refl (eq_sym E)) as AL.
        destruct (ask_ok _ _ _ _ _ _ _ _ _ _ _ _ false (sv_stored S a) ltac:(discriminate) (sv_fuel S a) kd false q c0 ltac:(intros ? _ NS; discriminate NS) IHH AL) as (_ & C2).
        destruct (ask dc new_decomp (files a) fuel q c0) as [x c1]. exact C2.
      + destruct (ask_unbound q c0) as [x c1] eqn:EU. cbn [snd bc_cluster]. destruct q; cbn [ask_unbound] in EU; injection EU as _ <-; try exact IHH. apply reset_inv. exact IHH. }
  pose proof (runs_owner dc new_decomp fuel files h (read_from kd z off)) as E. change (bc_zim (read_from kd z off)) with (Some z) in E. rewrite O in E.
  destruct (bcalls dc new_decomp fuel files h (read_from kd z off)) as [y c]. cbn [bc_zim bc_cluster] in *. subst y. cbn [bcall_run bc_zim bc_cluster].
  destruct (ask_ok _ _ _ _ _ _ _ _ _ _ _ _ false (sv_stored S a) ltac:(discriminate) (sv_fuel S a) kd false q c ltac:(intros ? _ NS; discriminate NS) CI AQ) as (R & _).
  unfold right_answer. destruct (ask dc new_decomp (files a) fuel q c) as [x c1]. exact R.
Qed.

(** *** C92, clusters that move: if a cluster is reset before it is used in
    another archive, its answers are those of the archive it is bound to, although
    [reset] keeps the reader of the other archive. *)
Section Tidy.
Context {D : Type} {dc : decomp D} {new_decomp : ctype -> res D} {Rep : D -> bytes -> bytes -> bytes -> Prop} {fuel : nat} {off : Z} {files : nat -> bytes}.
Variable S : shelves dc new_decomp Rep fuel off files.
Variable kd : ckind.
Notation cin a := (cinv Rep off (sv_ct S a) (sv_ext S a) (sv_blobs S a) (sv_data S a) (sv_rest _ _ _ _ _ _ S a) (sv_tail _ _ _ _ _ _ S a) kd true).
Notation tell a q c := (ask dc new_decomp (files a) fuel q c).
Definition blank (c : cluster D) : Prop := cl_kind c = kd /\ cl_offset c = off /\ cl_info c = None /\ idle c.
Definition used_in (a : nat) (c : cluster D) : Prop := cin a c \/ idle c /\ cin a (drop c).
Definition kept (used : option nat) (c : cluster D) : Prop := match used with None => blank c | Some a => used_in a c end.
Lemma blank_in : forall a c, blank c -> used_in a c.
Proof.
  intros a c (K & O & I & L). right. split; [exact L|]. destruct L as (A & B & _). unfold cinv, drop, set_reader. cbn [cl_kind cl_offset cl_info cl_reader cl_offsets cl_data].
  split; [exact K|]. split; [exact O|]. split; [left; exact I|]. split; [intros r E; discriminate E|]. split; left; assumption.
Qed.
Lemma reset_blank : forall used c, kept used c -> blank (reset c).
Proof.
  assert (G : forall c, cl_kind c = kd -> cl_offset c = off -> idle c -> blank (reset c)).
  { intros c K O L. pose proof (sim_reset c L) as (L' & _). split; [unfold reset; destruct (cl_kind c) eqn:Q; cbn; congruence|]. split; [unfold reset; destruct (cl_kind c); exact O|]. split; [unfold reset; destruct (cl_kind c); reflexivity|exact L']. }
  intros [a|] c H; [|apply G; apply H]. destruct H as [(K & O & I & R & F & Dt)|(L & (K & O & _))]; [|apply G; assumption].
  unfold reset. rewrite K. unfold blank, idle, set_info, set_offsets, set_data.
  assert (R' : forall r, cl_reader c = Some r -> 0 < r_out r) by (intros r E; destruct (R r E) as (p & (_ & -> & _) & PP); apply PP; reflexivity).
  destruct kd; cbn [cl_kind cl_offset cl_info cl_reader cl_offsets cl_data]; intuition congruence.
Qed.
Lemma used_ask : forall a q c, used_in a c -> (forall ns, q = QOffsets (Some ns) -> ns = [] \/ exists x, In x ns /\ 0 <= x) -> askable S kd a q ->
  right_answer S a q (fst (tell a q c)) /\ used_in a (snd (tell a q c)).
Proof.
  intros a q c H NO AQ. assert (RS : forall ns, q = QOffsets ns -> reads_some true ns) by (intros [ns|] E _; [exact (NO ns E)|exact I]).
  assert (G : forall c, cin a c -> right_answer S a q (fst (tell a q c)) /\ cin a (snd (tell a q c))).
  { intros c0 CI. exact (ask_ok _ _ _ _ _ _ _ _ _ _ _ _ false (sv_stored S a) ltac:(discriminate) (sv_fuel S a) kd true q c0 RS CI AQ). }
  destruct H as [H|(L & H)]; [destruct (G c H) as (A & B); split; [exact A|left; exact B]|]. destruct (G _ H) as (A & B).
  destruct (ask_idle dc new_decomp (files a) fuel q c L) as (E & Q). rewrite E in A. split; [exact A|]. destruct Q as [Q|(Q & L')]; rewrite Q in B; [left; exact B|right; auto].
Qed.
End Tidy.
Theorem C92_tidy_partial : forall D (dc : decomp D) new_decomp Rep fuel off files (S : shelves dc new_decomp Rep fuel off files) kd z h a q,
  askable_history S kd z h -> tidy (Some z) None (h ++ [BAsk q]) -> names_offsets (h ++ [BAsk q]) -> owner (Some z) h = Some a -> askable S kd a q ->
  right_answer S a q (fst (bcall_run dc new_decomp fuel files (BAsk q) (bcalls dc new_decomp fuel files h (read_from kd z off)))).
Proof.
  intros D dc new_decomp Rep fuel off files S kd z h a q AH TD NO O AQ.
  assert (GEN : forall h b used, kept S kd used (bc_cluster b) -> (forall h1 q' h2 y, h = h1 ++ BAsk q' :: h2 -> owner (bc_zim b) h1 = Some y -> askable S kd y q') -> tidy (bc_zim b) used (h ++ [BAsk q]) -> names_offsets (h ++ [BAsk q]) ->
    owner (bc_zim b) h = Some a -> right_answer S a q (fst (bcall_run dc new_decomp fuel files (BAsk q) (bcalls dc new_decomp fuel files h b)))).
  { clear h AH TD NO O. intro h. induction h as [|c h IH]; intros b used K AH TD NO O.
    - destruct b as [y c]. cbn [bc_zim bc_cluster owner app] in *. subst y. unfold bcalls. cbn [fold_left bcall_run bc_zim bc_cluster].
      assert (U : q = QReset \/ used_in S kd a c).
      { destruct q; [left; reflexivity|..]; right; destruct TD as ([-> | ->] & _); first [exact K|apply blank_in; exact K]. }
      destruct U as [-> |U]; [reflexivity|]. destruct (used_ask S kd a q c U ltac:(intros ns E; apply NO; left; rewrite E; reflexivity) AQ) as (R & _). destruct (ask dc new_decomp (files a) fuel q c) as [x c']. exact R.
    - assert (NO' : names_offsets (h ++ [BAsk q])) by (intros ns Q; apply NO; right; exact Q).
      unfold bcalls. cbn [fold_left]. fold (bcalls dc new_decomp fuel files h (snd (bcall_run dc new_decomp fuel files c b))). pose proof (run_owner dc new_decomp fuel files c b) as RO.
      assert (AH' : forall h1 q' h2 y, h = h1 ++ BAsk q' :: h2 -> owner (bc_zim (snd (bcall_run dc new_decomp fuel files c b))) h1 = Some y -> askable S kd y q').
      { intros h1 q' h2 y E OW. rewrite RO, <- (owner_app [c] h1) in OW. apply (AH (c :: h1) q' h2 y); [rewrite E; reflexivity|exact OW]. }
      assert (O' : owner (bc_zim (snd (bcall_run dc new_decomp fuel files c b))) h = Some a) by (rewrite RO, <- (owner_app [c] h); exact O).
      assert (STEP : exists used', kept S kd used' (bc_cluster (snd (bcall_run dc new_decomp fuel files c b))) /\ tidy (owner (bc_zim b) [c]) used' (h ++ [BAsk q])).
      { destruct b as [y c0]. cbn [bc_zim bc_cluster] in *. destruct c as [x| |p]; cbn [bcall_run bc_zim bc_cluster owner app tidy] in *.
        - destruct (bind_to x y). exists used. auto.
        - exists used. auto.
        - destruct y as [y|].
          + pose proof (AH [] p h y eq_refl eq_refl) as AP.
            assert (NP : forall ns, p = QOffsets (Some ns) -> ns = [] \/ exists x, In x ns /\ 0 <= x) by (intros ns E; apply NO; left; rewrite E; reflexivity).
            assert (Q : p = QReset \/ (used = None \/ used = Some y) /\ tidy (Some y) (Some y) (h ++ [BAsk q])) by (destruct p; [left; reflexivity|..]; right; exact TD).
            destruct Q as [-> |(UY & T)].
            * exists None. cbn [ask snd bc_cluster kept] in *. split; [apply (reset_blank S kd used); exact K|exact TD].
            * exists (Some y). split; [|exact T]. assert (U : used_in S kd y c0) by (destruct UY as [-> | ->]; [apply blank_in; exact K|exact K]).
              destruct (used_ask S kd y p c0 U NP AP) as (_ & R). destruct (ask dc new_decomp (files y) fuel p c0) as [x c1]. exact R.
          + destruct p; cbn [ask_unbound snd bc_cluster]; try (exists used; auto; fail). exists None. split; [apply (reset_blank S kd used); exact K|exact TD]. }
      destruct STEP as (used' & K' & T'). rewrite <- RO in T'. exact (IH _ used' K' AH' T' NO' O'). }
  apply (GEN h (read_from kd z off) None); try assumption.
  split; [reflexivity|]. split; [reflexivity|]. split; [reflexivity|]. split; [reflexivity|]. split; [reflexivity|]. intros r E. discriminate E.
Qed.

(** ** Two archives with different clusters at the same position *)
Definition other : bytes := [x51; x01; x08; x00; x00; x00; x0b; x00; x00; x00; x64; x65; x66].
Lemma other_stored : ClusterSpec.stored passthrough plain_new pt_rep other 1 NONE false [[x64; x65; x66]] (zskip 2 other) [] [].
Proof.
  constructor.
  - lia.
  - exists x01. split; reflexivity.
  - symmetry. apply app_nil_r.
  - exists []. split; [reflexivity|]. split; reflexivity.
  - apply passthrough_contract.
  - reflexivity.
Qed.
Definition two_files (a : nat) : bytes := match a with O => sample | _ => other end.
Definition two_shelves : shelves passthrough plain_new pt_rep 100 1 two_files.
Proof.
  refine (mkShelves _ passthrough plain_new pt_rep 100%nat 1 two_files (fun _ => NONE) (fun _ => false) (fun a => match a with O => [[x61]; []; [x62; x63]] | _ => [[x64; x65; x66]] end)
    (fun a => zskip 2 (two_files a)) (fun _ => []) (fun a => match a with O => [x51] | _ => [] end) _ _).
  - intros [|a]; [exact sample_stored|exact other_stored].
  - intros [|a]; vm_compute; discriminate.
Defined.
Definition first_blob : ccall := QRead 0 None None.
Lemma first_askable : forall kd a, askable two_shelves kd a first_blob.
Proof. intros kd a. split; [split; [lia|repeat split; exact I]|]. split; left; exact I. Qed.
Definition moved : list bcall := [BAsk first_blob; BUnbind; BBind 1].
Lemma first_only : forall kd z h, (forall q, In (BAsk q) h -> q = first_blob) -> askable_history two_shelves kd z h.
Proof. intros kd z h F h1 q h2 a E _. rewrite (F q); [apply first_askable|]. rewrite E. apply in_or_app. right. left. reflexivity. Qed.
(** The cluster was read in the first archive; bound to the second one it still
    gives the blob of the first. *)
Theorem C92_refuted : ~ C92_full_statement.
Proof.
  intro F. specialize (F _ passthrough plain_new pt_rep 100%nat 1 two_files two_shelves KInMemory 0%nat moved 1%nat first_blob).
  assert (X := F (first_only KInMemory 0 moved ltac:(intros q [Q|[Q|[Q|[]]]]; congruence)) eq_refl (first_askable KInMemory 1)). vm_compute in X. discriminate X.
Qed.
(** A cluster that is bound, unbound and bound again without being used in between. *)
Example C92_example : let h := [BUnbind; BBind 1; BAsk first_blob; BBind 0; BUnbind; BAsk first_blob; BBind 1] in
  askable_history two_shelves KPlain 0 h /\ only_asked_in 1 0 h /\ owner (Some 0%nat) h = Some 1%nat /\
  right_answer two_shelves 1 first_blob (fst (bcall_run passthrough plain_new 100 two_files (BAsk first_blob) (bcalls passthrough plain_new 100 two_files h (read_from KPlain 0 1)))) /\
  fst (bcall_run passthrough plain_new 100 two_files (BAsk first_blob) (bcalls passthrough plain_new 100 two_files h (read_from KPlain 0 1))) = CData [x64; x65; x66] /\
  fst (bcall_run passthrough plain_new 100 two_files (BBind 0) (bcalls passthrough plain_new 100 two_files h (read_from KPlain 0 1))) = CFail AlreadyBound.
Proof.
  cbn zeta. set (h := [BUnbind; BBind 1; BAsk first_blob; BBind 0; BUnbind; BAsk first_blob; BBind 1]).
  assert (AH : askable_history two_shelves KPlain 0 h) by (apply first_only; intros q [Q|[Q|[Q|[Q|[Q|[Q|[Q|[]]]]]]]]; congruence).
  assert (OA : only_asked_in 1 0 h).
  { intros h1 q h2 y E O. destruct h1 as [|c1 [|c2 [|c3 [|c4 [|c5 [|c6 [|c7 h1]]]]]]]; cbn [app] in E; unfold h in E; try discriminate E; injection E; intros; subst; cbn [owner] in O; try congruence.
    exfalso. match goal with Q : _ = h1 ++ _ |- _ => destruct h1; discriminate Q end. }
  split; [exact AH|]. split; [exact OA|]. split; [reflexivity|]. split; [|split; vm_compute; reflexivity].
  exact (C92_one_archive_partial _ passthrough plain_new pt_rep 100 1 two_files two_shelves KPlain 0 h 1 first_blob AH OA eq_refl (first_askable KPlain 1)).
Qed.

(** A cluster that was read in the first archive, is reset and read in the second. *)
Example C92_tidy_example : let h := [BAsk first_blob; BUnbind; BBind 1; BAsk QReset] in
  tidy (Some 0%nat) None (h ++ [BAsk first_blob]) /\ askable_history two_shelves KRemembering 0 h /\ names_offsets (h ++ [BAsk first_blob]) /\ owner (Some 0%nat) h = Some 1%nat /\
  cl_reader (bc_cluster (bcalls passthrough plain_new 100 two_files h (read_from KRemembering 0 1))) <> None /\
  right_answer two_shelves 1 first_blob (fst (bcall_run passthrough plain_new 100 two_files (BAsk first_blob) (bcalls passthrough plain_new 100 two_files h (read_from KRemembering 0 1)))).
Proof.
  cbn zeta. set (h := [BAsk first_blob; BUnbind; BBind 1; BAsk QReset]).
  assert (T : tidy (Some 0%nat) None (h ++ [BAsk first_blob])) by (split; [left; reflexivity|]; split; [left; reflexivity|exact I]).
  assert (AH : askable_history two_shelves KRemembering 0 h).
  { intros h1 q h2 a E _. assert (Q : In (BAsk q) h) by (rewrite E; apply in_or_app; right; left; reflexivity). destruct Q as [Q|[Q|[Q|[Q|[]]]]]; try discriminate Q; injection Q as <-; [apply first_askable|]. split; [exact I|]. split; left; exact I. }
  assert (NO : names_offsets (h ++ [BAsk first_blob])) by (intros ns Q; destruct Q as [Q|[Q|[Q|[Q|[Q|[]]]]]]; discriminate Q).
  split; [exact T|]. split; [exact AH|]. split; [exact NO|]. split; [reflexivity|]. split; [vm_compute; discriminate|].
  exact (C92_tidy_partial _ passthrough plain_new pt_rep 100 1 two_files two_shelves KRemembering 0 h 1 first_blob AH T NO eq_refl (first_askable _ 1)).
Qed.

(** ** Wrappers *)
(** *** C92, wrappers: as long as nobody binds or unbinds the cluster inside of
    a wrapper on its own, both are bound to the same archive. *)
Definition of_wrapper (c : wcall) : Prop := match c with WBind _ | WUnbind => True | _ => False end.
Fixpoint wowner (z : option nat) (h : list wcall) : option nat :=
  match h with
  | [] => z
  | WUnbind :: r => wowner None r
  | WBind a :: r => wowner (match z with Some y => Some y | None => Some a end) r
  | _ :: r => wowner z r
  end.
Theorem C92_wrapper : forall z h, Forall of_wrapper h -> bw_zim (wcalls h (bwrap z)) = wowner z h /\ bw_inner (wcalls h (bwrap z)) = wowner z h.
Proof.
  intros z h. unfold wcalls, bwrap. revert z. induction h as [|c h IH]; intros z F; [auto|]. inversion F; subst. cbn [fold_left]. destruct c as [a| |a|]; try contradiction; cbn [wcall_run wowner].
  - unfold wrapper_bind, bind_to. cbn [bw_zim bw_inner]. destruct z as [y|].
    + destruct (Nat.eqb_spec y a) as [->|]; cbn [bound snd]; apply IH; assumption.
    + cbn [bound snd]. apply IH. assumption.
  - unfold wrapper_unbind, unbind. cbn [snd]. apply IH. assumption.
Qed.
(** If somebody does, they need not be (cluster.py 1338-1340). *)
Example C92_wrapper_example : wcalls [WUnbind; IBind 0; WBind 1] (bwrap (Some 0%nat)) = mkBw (Some 1%nat) (Some 0%nat) /\ wcalls [WUnbind; WBind 1; WBind 0] (bwrap (Some 0%nat)) = mkBw (Some 1%nat) (Some 1%nat).
Proof. split; reflexivity. Qed.

Print Assumptions C92_bind.
Print Assumptions C92_unbound.
Print Assumptions C92_one_archive_partial.
Print Assumptions C92_tidy_partial.
Print Assumptions C92_refuted.
Print Assumptions C92_wrapper.
