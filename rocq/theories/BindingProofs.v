(** Lemmas about clusters that keep a reader from before they were reset. *)
From Coq Require Import List ZArith Bool Lia.
From Verif Require Import Base BaseProofs Infobyte Reader ReaderSpec ReaderProofs Cluster ClusterSpec ClusterProofs Binding.
Import ListNotations.
Open Scope Z_scope.

Section Blank.
Context {D : Type}.
Variable dc : decomp D.
Variable new_decomp : ctype -> res D.
Variable f : bytes.
Variable fuel : nat.
Notation cluster := (cluster D).

(** Nothing is remembered but a reader that was used. *)
Definition idle (c : cluster) : Prop := cl_offsets c = None /\ cl_data c = None /\ forall r, cl_reader c = Some r -> 0 < r_out r.
Definition drop (c : cluster) : cluster := set_reader None c.

(** [m] does the same without the reader that was kept. *)
Definition sim {A} (m : M cluster A) : Prop := forall c, idle c ->
  fst (m (drop c)) = fst (m c) /\ (snd (m (drop c)) = snd (m c) \/ snd (m (drop c)) = drop (snd (m c)) /\ idle (snd (m c))).
(** If [m] returns, the old reader is gone. *)
Definition sync {A} (m : M cluster A) : Prop := forall c, idle c ->
  fst (m (drop c)) = fst (m c) /\ (snd (m (drop c)) = snd (m c) \/ (exists e, fst (m c) = Err e) /\ snd (m (drop c)) = drop (snd (m c)) /\ idle (snd (m c))).
Lemma sync_sim : forall A (m : M cluster A), sync m -> sim m.
Proof. intros A m H c I. destruct (H c I) as (E & [S|(_ & S)]); auto. Qed.
Lemma sim_ret : forall A (x : A), sim (ret x).
Proof. intros A x c I. split; [reflexivity|right; auto]. Qed.
Lemma sync_raise : forall A x, sync (@raise cluster A x).
Proof. intros A x c I. split; [reflexivity|right]. split; [exists x; reflexivity|auto]. Qed.
Lemma sim_bind : forall A B (m : M cluster A) (k : A -> M cluster B), sim m -> (forall x, sim (k x)) -> sim (mbind m k).
Proof.
  intros A B m k H K c I. destruct (H c I) as (E & S). unfold mbind. destruct (m c) as [r s], (m (drop c)) as [r' s']. cbn [fst snd] in *. subst r'. destruct r as [x|e].
  - destruct S as [-> |(-> & I')]; [split; [reflexivity|left; reflexivity]|]. exact (K x s I').
  - cbn [fst snd]. auto.
Qed.
Lemma sync_bind : forall A B (m : M cluster A) (k : A -> M cluster B), sync m -> sync (mbind m k).
Proof.
  intros A B m k H c I. destruct (H c I) as (E & S). unfold mbind. destruct (m c) as [r s], (m (drop c)) as [r' s']. cbn [fst snd] in *. subst r'. destruct r as [x|e].
  - destruct S as [-> |((e & X) & _)]; [split; [reflexivity|left; reflexivity]|discriminate X].
  - cbn [fst snd]. split; [reflexivity|]. destruct S as [S|(_ & S)]; [left; exact S|right]. split; [exists e; reflexivity|exact S].
Qed.
Lemma sim_sync : forall A B (m : M cluster A) (k : A -> M cluster B), sim m -> (forall x, sync (k x)) -> sync (mbind m k).
Proof.
  intros A B m k H K c I. destruct (H c I) as (E & S). unfold mbind. destruct (m c) as [r s], (m (drop c)) as [r' s']. cbn [fst snd] in *. subst r'. destruct r as [x|e].
  - destruct S as [-> |(-> & I')]; [split; [reflexivity|left; reflexivity]|]. exact (K x s I').
  - cbn [fst snd]. split; [reflexivity|]. destruct S as [S|(S & I')]; [left; exact S|right]. split; [exists e; reflexivity|auto].
Qed.
Lemma sim_info : sim (info f).
Proof.
  intros [k o i r os d] I. unfold info, drop, set_reader. cbn [cl_info cl_offset cl_kind cl_offsets cl_data]. destruct i as [i|]; [split; [reflexivity|right; auto]|]. destruct (zsub o 1 f) as [|b l]; [split; [reflexivity|right; auto]|].
  destruct (parse_infobyte b) as [i|e]; split; try reflexivity; right; auto.
Qed.
Lemma sync_reader : forall A (k : reader D -> res A * reader D), sync (with_reader dc new_decomp f 0 k).
Proof.
  intros A k c I. destruct (sim_info c I) as (E & S). unfold with_reader. cbn [Z.ltb Z.compare]. destruct (info f c) as [r s], (info f (drop c)) as [r' s']. cbn [fst snd] in *. subst r'. destruct r as [[ct ext]|e].
  - destruct S as [-> |(-> & (I1 & I2 & I3))]; [split; [reflexivity|left; reflexivity]|]. cbn [drop set_reader cl_reader cl_offset].
    assert (I' : idle s) by (unfold idle; auto). destruct s as [k0 o0 i0 rd os dt]. unfold drop, set_reader. cbn [cl_kind cl_info cl_offsets cl_data cl_reader cl_offset] in *.
    destruct rd as [r|]; [destruct (Z.leb_spec (r_out r) 0) as [L|_]; [specialize (I3 r eq_refl); lia|]|];
      (destruct (new_decomp ct) as [d|e];
       [destruct (skip_to dc f 0 (reader_new d (o0 + 1))) as [[u|e] rr]; [destruct (k rr) as [x r']|]; split; try reflexivity; left; reflexivity
       |split; [reflexivity|right]; split; [exists e; reflexivity|]; cbn [snd]; split; [reflexivity|exact I']]).
  - cbn [fst snd]. split; [reflexivity|]. destruct S as [S|(S & I')]; [left; exact S|right]. split; [exists e; reflexivity|auto].
Qed.
Lemma offsets_sim : forall ns, sim (plain_offsets dc new_decomp f fuel ns).
Proof.
  intro ns. unfold plain_offsets. apply sim_bind; [exact sim_info|]. intro i. destruct ns as [[|n ns]|]; [apply sim_ret|apply sync_sim, sync_reader|apply sync_sim, sync_reader].
Qed.
Lemma offsets_sync : forall ns, ns <> Some [] -> sync (plain_offsets dc new_decomp f fuel ns).
Proof.
  intros ns N. unfold plain_offsets. apply sim_sync; [exact sim_info|]. intro i. destruct ns as [[|n ns]|]; [congruence|apply sync_reader|apply sync_reader].
Qed.
Lemma remembered_sync : sync (remembered dc new_decomp f fuel).
Proof.
  intros c I. pose proof I as (A & B & R). destruct (offsets_sync None ltac:(discriminate) c I) as (E & S). unfold remembered. cbn [drop set_reader cl_offsets]. rewrite A.
  change (mkCluster (cl_kind c) (cl_offset c) (cl_info c) None (cl_offsets c) (cl_data c)) with (drop c). 
  destruct (plain_offsets dc new_decomp f fuel None c) as [r s], (plain_offsets dc new_decomp f fuel None (drop c)) as [r' s']. cbn [fst snd] in *. subst r'. destruct r as [l|e].
  - destruct S as [-> |((e & X) & _)]; [split; [reflexivity|left; reflexivity]|discriminate X].
  - cbn [fst snd]. auto.
Qed.
Lemma blob_offsets_sim : forall ns, sim (blob_offsets dc new_decomp f fuel ns).
Proof.
  intros ns c I. unfold blob_offsets. change (cl_kind (drop c)) with (cl_kind c). destruct (cl_kind c); [exact (offsets_sim ns c I)| |]; exact (sync_sim _ _ (sync_bind _ _ _ (fun l => ret (select_offsets 0 ns l)) remembered_sync) c I).
Qed.
Lemma blob_offsets_sync : forall ns, ns <> Some [] -> sync (blob_offsets dc new_decomp f fuel ns).
Proof.
  intros ns N c I. unfold blob_offsets. change (cl_kind (drop c)) with (cl_kind c). destruct (cl_kind c); [exact (offsets_sync ns N c I)| |]; exact (sync_bind _ _ _ (fun l => ret (select_offsets 0 ns l)) remembered_sync c I).
Qed.
Lemma get_offset_sync : forall i, sync (get_offset dc new_decomp f fuel i).
Proof. intro i. unfold get_offset. destruct (i <? 0); [apply sync_raise|]. apply sync_bind, blob_offsets_sync. discriminate. Qed.
Lemma count_sync : sync (number_of_offsets dc new_decomp f fuel).
Proof. apply sync_bind, get_offset_sync. Qed.
Lemma total_sync : sync (total_decompressed_size dc new_decomp f fuel).
Proof. apply sync_bind, count_sync. Qed.
Lemma compressed_sim : sim (total_compressed dc new_decomp f fuel).
Proof.
  apply sim_bind; [exact sim_info|]. intros [ct ext]. cbn [fst]. destruct (ctype_eqb ct NONE); [apply sync_sim, sync_bind, total_sync|apply sync_sim, sync_reader].
Qed.
Lemma mem_sync : sync (mem_data dc new_decomp f fuel).
Proof.
  intros c I. pose proof I as (A & B & R). unfold mem_data. cbn [drop set_reader cl_data]. rewrite B. change (mkCluster (cl_kind c) (cl_offset c) (cl_info c) None (cl_offsets c) (cl_data c)) with (drop c).
  match goal with |- context [match ?m c with _ => _ end] => assert (H : sync m) end.
  { apply sim_sync; [exact sim_info|]. intro i. apply sync_bind. exact remembered_sync. }
  destruct (H c I) as (E & S). match goal with |- context [match ?m c with _ => _ end] => destruct (m c) as [r s], (m (drop c)) as [r' s'] end. cbn [fst snd] in *. subst r'. destruct r as [l|e].
  - destruct S as [-> |((e & X) & _)]; [split; [reflexivity|left; reflexivity]|discriminate X].
  - cbn [fst snd]. auto.
Qed.
Lemma read_sync : forall i s e, sync (read_blob dc new_decomp f fuel i s e).
Proof.
  intros i s e c I. unfold read_blob. change (cl_kind (drop c)) with (cl_kind c).
  assert (P : sync (plain_read_blob dc new_decomp f fuel i s e)) by (unfold plain_read_blob; destruct (_ || _); [apply sync_raise|apply sync_bind, blob_offsets_sync; discriminate]).
  assert (Q : sync (mem_read_blob dc new_decomp f fuel i s e)) by (unfold mem_read_blob; destruct (i <? 0); [apply sync_raise|apply sync_bind, mem_sync]).
  destruct (cl_kind c); [exact (P c I)|exact (P c I)|exact (Q c I)].
Qed.
Lemma iter_sync : forall i n s e, sync (iter_read_blob dc new_decomp f fuel i n s e).
Proof.
  intros i n s e c I. unfold iter_read_blob. change (cl_kind (drop c)) with (cl_kind c).
  assert (P : sync (plain_iter_read_blob dc new_decomp f fuel i n s e)) by (unfold plain_iter_read_blob; destruct (_ || _); [apply sync_raise|apply sync_bind, blob_offsets_sync; discriminate]).
  assert (Q : sync (mem_iter_read_blob dc new_decomp f fuel i n s e)) by (unfold mem_iter_read_blob; destruct (_ || _); [apply sync_raise|apply sync_bind, mem_sync]).
  destruct (cl_kind c); [exact (P c I)|exact (P c I)|exact (Q c I)].
Qed.
Lemma sim_reset : forall c, idle c -> idle (reset c) /\ reset (drop c) = drop (reset c).
Proof. intros c (A & B & R). unfold idle, reset, drop, set_info, set_offsets, set_data, set_reader. destruct (cl_kind c) eqn:K; cbn; rewrite ?K; auto. Qed.

(** A call does the same without the reader that was kept. *)
Lemma ask_idle : forall q c, idle c ->
  fst (ask dc new_decomp f fuel q (drop c)) = fst (ask dc new_decomp f fuel q c) /\
  (snd (ask dc new_decomp f fuel q (drop c)) = snd (ask dc new_decomp f fuel q c) \/
   snd (ask dc new_decomp f fuel q (drop c)) = drop (snd (ask dc new_decomp f fuel q c)) /\ idle (snd (ask dc new_decomp f fuel q c))).
Proof.
  intros q c I.
  assert (G : forall A (m : M cluster A) (g : res A -> cans), sim m ->
    fst (let '(r, s) := m (drop c) in (g r, s)) = fst (let '(r, s) := m c in (g r, s)) /\
    (snd (let '(r, s) := m (drop c) in (g r, s)) = snd (let '(r, s) := m c in (g r, s)) \/
     snd (let '(r, s) := m (drop c) in (g r, s)) = drop (snd (let '(r, s) := m c in (g r, s))) /\ idle (snd (let '(r, s) := m c in (g r, s))))).
  { intros A m g H. destruct (H c I) as (E & S). destruct (m c) as [r s], (m (drop c)) as [r' s']. cbn [fst snd] in *. subst r'. auto. }
  destruct q; cbn [ask].
  - cbn [fst snd]. destruct (sim_reset c I) as (S1 & S2). auto.
  - apply (G _ (blob_offsets dc new_decomp f fuel numbers) (fun r => match r with Ok l => CNums l | Err e => CFail e end)), blob_offsets_sim.
  - apply (G _ (get_offset dc new_decomp f fuel i) num), sync_sim, get_offset_sync.
  - apply (G _ (number_of_offsets dc new_decomp f fuel) num), sync_sim, count_sync.
  - apply (G _ (number_of_blobs dc new_decomp f fuel) num), sync_sim, sync_bind, count_sync.
  - apply (G _ (content_size dc new_decomp f fuel) num), sync_sim, sync_bind, get_offset_sync.
  - apply (G _ (total_decompressed_size dc new_decomp f fuel) num), sync_sim, total_sync.
  - apply (G _ (total_offset_size dc new_decomp f fuel) num), sync_sim, sync_bind, count_sync.
  - apply (G _ (total_compressed dc new_decomp f fuel) num), compressed_sim.
  - apply (G _ (blob_size dc new_decomp f fuel i) num). unfold blob_size. destruct (i <? 0); [apply sync_sim, sync_raise|]. apply sync_sim, sync_bind, blob_offsets_sync. discriminate.
  - apply (G _ (read_blob dc new_decomp f fuel i start stop) (fun r => match r with Ok b => CData b | Err e => CFail e end)), sync_sim, read_sync.
  - apply (G _ (iter_read_blob dc new_decomp f fuel i buffersize start stop) (fun r => match r with Ok l => CParts l | Err e => CFail e end)), sync_sim, iter_sync.
Qed.
End Blank.
