(** Reading [p ++ f] from position [zlen p + x] on is reading [f] from [x] on:
    for the readers of clusters, which keep positions, by a simulation. *)
From Coq Require Import List ZArith Bool Lia ZifyBool ZifyNat.
From Verif Require Import Base BaseProofs Utf8 Dict Infobyte Header MimeTypeList PointerList SpaceAllocator Entry Reader Cluster ClusterWrapper
  Archive ArchiveCluster ArchiveClusterSpec CompressionStrategy Flush Offset HeaderSpec HeaderProofs PointerListProofs.
Import ListNotations.
Open Scope Z_scope.

Lemma zskip_prefix : forall {A} (p f : list A) x, 0 <= x -> zskip (zlen p + x) (p ++ f) = zskip x f.
Proof. intros. rewrite zskip_app_r by lia. f_equal. lia. Qed.
Lemma zsub_prefix : forall {A} (p f : list A) x n, 0 <= x -> zsub (zlen p + x) n (p ++ f) = zsub x n f.
Proof. intros. unfold zsub. rewrite zskip_prefix by lia. reflexivity. Qed.

Section Sim.
Context {D : Type}.
Variable dc : decomp D.
Variable new_decomp : ctype -> res D.
Variable fuel : nat.
Variable p f : bytes.
Notation f' := (p ++ f).
Notation k := (zlen p).

(** ** Readers *)

Definition rmove (r : reader D) : reader D := mkReader (r_dec r) (r_buf r) (r_out r) (r_in r) (zlen p + r_pos r).
Definition rwf (r : reader D) : Prop := 0 <= r_in r /\ 0 <= r_pos r.
Definition rsim {A} (m m' : reader D -> res A * reader D) : Prop :=
  forall r x r1, rwf r -> m r = (x, r1) -> rwf r1 /\ (x <> Err Diverge -> m' (rmove r) = (x, rmove r1)).

Lemma read_loop_sim : forall n extra a b, (a <= b)%nat -> rsim (read_loop dc f a n extra) (read_loop dc f' b n extra).
Proof.
  induction a as [|a IH]; intros b Hb r x r1 [W1 W2] E.
  - cbn in E. injection E as E1 E2. subst. split; [split; assumption|congruence].
  - destruct b as [|b]; [lia|]. cbn [read_loop] in *. cbn [r_dec r_buf r_out r_in r_pos rmove] in *.
    rewrite zsub_prefix by exact W2.
    set (fu := if d_needs dc (r_dec r) then zsub (r_pos r) n f else []) in *.
    destruct (d_needs dc (r_dec r) && (zlen fu =? 0)) eqn:N.
    { injection E as E1 E2. subst. split; [split; assumption|reflexivity]. }
    pose proof (zlen_nonneg fu) as NN.
    destruct (d_dec dc (r_dec r) fu (n + extra)) as [[y d]|e] eqn:Ed.
    2:{ injection E as E1 E2. subst. split; [split; cbn [r_dec r_buf r_out r_in r_pos]; lia|]. intros _. unfold rmove. cbn [r_dec r_buf r_out r_in r_pos]. rewrite Z.add_assoc. reflexivity. }
    destruct ((zlen y =? 0) && d_needs dc d) eqn:Y.
    + assert (W : rwf (mkReader d (r_buf r) (r_out r) (r_in r + zlen fu) (r_pos r + zlen fu))) by (split; cbn [r_dec r_buf r_out r_in r_pos]; lia).
      destruct (IH b ltac:(lia) _ _ _ W E) as [V Q]. split; [exact V|]. intros ND. rewrite <- (Q ND). unfold rmove. cbn [r_dec r_buf r_out r_in r_pos]. rewrite Z.add_assoc. reflexivity.
    + injection E as E1 E2. subst. split; [split; cbn [r_dec r_buf r_out r_in r_pos]; lia|]. intros _. unfold rmove. cbn [r_dec r_buf r_out r_in r_pos]. rewrite Z.add_assoc. reflexivity.
Qed.
Lemma read_sim : forall n extra, rsim (read dc f n extra) (read dc f' n extra).
Proof.
  intros n extra r x r1 W E. unfold read in *. destruct (n <? 0). { injection E as E1 E2. subst. split; [exact W|reflexivity]. }
  change (r_buf (rmove r)) with (r_buf r). change (r_dec (rmove r)) with (r_dec r). destruct (r_buf r) as [|b0 bf] eqn:Bf.
  - destruct (d_eof dc (r_dec r)). { injection E as E1 E2. subst. split; [exact W|reflexivity]. }
    destruct (read_loop dc f (loop_fuel f) n extra r) as [y r2] eqn:L.
    assert (Hl : (loop_fuel f <= loop_fuel f')%nat) by (unfold loop_fuel; rewrite app_length; lia).
    destruct (read_loop_sim n extra _ _ Hl _ _ _ W L) as [W2 Q].
    destruct y as [y|e].
    + rewrite Q by discriminate.
      destruct (n <? zlen y); injection E as E1 E2; subst; (split; [exact W2|reflexivity]).
    + injection E as E1 E2. subst. split; [exact W2|]. intros ND. rewrite Q by congruence. reflexivity.
  - injection E as E1 E2. subst. split; [exact W|reflexivity].
Qed.

Lemma read_n_loop_sim : forall a n data, rsim (read_n_loop dc f a n data) (read_n_loop dc f' a n data).
Proof.
  induction a as [|a IH]; intros n data r x r1 W E; cbn [read_n_loop] in *.
  - injection E as E1 E2. subst. split; [exact W|congruence].
  - destruct (zlen data <? n); [|injection E as E1 E2; subst; split; [exact W|reflexivity]].
    destruct (read dc f (n - zlen data) 0 r) as [y r2] eqn:R. destruct (read_sim _ _ _ _ _ W R) as [W2 Q].
    destruct y as [[|b y]|e].
    + rewrite Q by discriminate. injection E as E1 E2. subst. split; [exact W2|reflexivity].
    + rewrite Q by discriminate. exact (IH _ _ _ _ _ W2 E).
    + injection E as E1 E2. subst. split; [exact W2|]. intros ND. rewrite (Q ND). reflexivity.
Qed.
Lemma read_n_sim : forall n, rsim (read_n dc f n) (read_n dc f' n).
Proof. intros n. apply read_n_loop_sim. Qed.
Lemma iter_read_loop_sim : forall a n bs nr, rsim (iter_read_loop dc f a n bs nr) (iter_read_loop dc f' a n bs nr).
Proof.
  induction a as [|a IH]; intros n bs nr r x r1 W E; cbn [iter_read_loop] in *.
  - injection E as E1 E2. subst. split; [exact W|congruence].
  - destruct ((0 <=? n) && (n <=? nr)); [injection E as E1 E2; subst; split; [exact W|reflexivity]|].
    destruct (read dc f (if 0 <=? n then Z.min bs (n - nr) else bs) 0 r) as [y r2] eqn:R. destruct (read_sim _ _ _ _ _ W R) as [W2 Q].
    destruct y as [[|b y]|e].
    + rewrite Q by discriminate. injection E as E1 E2. subst. split; [exact W2|reflexivity].
    + rewrite Q by discriminate. destruct (iter_read_loop dc f a n bs (nr + zlen (b :: y)) r2) as [z r3] eqn:L.
      destruct (IH _ _ _ _ _ _ W2 L) as [W3 Q3]. destruct z as [xs|e].
      * rewrite Q3 by discriminate. injection E as E1 E2. subst. split; [exact W3|reflexivity].
      * injection E as E1 E2. subst. split; [exact W3|]. intros ND. rewrite Q3 by congruence. reflexivity.
    + injection E as E1 E2. subst. split; [exact W2|]. intros ND. rewrite Q by congruence. reflexivity.
Qed.
Lemma iter_read_sim : forall n bs, rsim (iter_read dc f fuel n bs) (iter_read dc f' fuel n bs).
Proof.
  intros n bs r x r1 W E. unfold iter_read in *. destruct (0 <? bs); [exact (iter_read_loop_sim _ _ _ _ _ _ _ W E)|].
  injection E as E1 E2. subst. split; [exact W|reflexivity].
Qed.
Lemma skip_loop_sim : forall a n d, rsim (skip_loop dc f a n d) (skip_loop dc f' a n d).
Proof.
  induction a as [|a IH]; intros n d r x r1 W E; cbn [skip_loop] in *.
  - injection E as E1 E2. subst. split; [exact W|congruence].
  - destruct (d <? n); [|injection E as E1 E2; subst; split; [exact W|reflexivity]].
    destruct (read dc f (n - d) 0 r) as [y r2] eqn:R. destruct (read_sim _ _ _ _ _ W R) as [W2 Q].
    destruct y as [[|b y]|e].
    + rewrite Q by discriminate. injection E as E1 E2. subst. split; [exact W2|reflexivity].
    + rewrite Q by discriminate. exact (IH _ _ _ _ _ W2 E).
    + injection E as E1 E2. subst. split; [exact W2|]. intros ND. rewrite Q by congruence. reflexivity.
Qed.
Lemma skip_to_sim : forall o, rsim (skip_to dc f o) (skip_to dc f' o).
Proof.
  intros o r x r1 W E. unfold skip_to in *. cbn [r_out rmove].
  destruct (o <? 0); [injection E as E1 E2; subst; split; [exact W|reflexivity]|].
  destruct (o <? r_out r); [injection E as E1 E2; subst; split; [exact W|reflexivity]|].
  unfold skip in *. destruct (o - r_out r <? 0); [injection E as E1 E2; subst; split; [exact W|reflexivity]|].
  exact (skip_loop_sim _ _ _ _ _ _ W E).
Qed.

(** ** Clusters *)

Definition cmove (c : cluster D) : cluster D :=
  mkCluster (cl_kind c) (zlen p + cl_offset c) (cl_info c) (option_map rmove (cl_reader c)) (cl_offsets c) (cl_data c).
Definition cwf (c : cluster D) : Prop := 0 <= cl_offset c /\ match cl_reader c with Some r => rwf r | None => True end.
Definition csim {A} (m m' : M (cluster D) A) : Prop :=
  forall c x c1, cwf c -> m c = (x, c1) -> cwf c1 /\ (x <> Err Diverge -> m' (cmove c) = (x, cmove c1)).

Lemma sim_ret : forall {A} (a : A), csim (ret a) (ret a).
Proof. intros A a c x c1 W E. injection E as E1 E2. subst. split; [exact W|reflexivity]. Qed.
Lemma sim_raise : forall {A} e, csim (@raise _ A e) (raise e).
Proof. intros A e c x c1 W E. injection E as E1 E2. subst. split; [exact W|reflexivity]. Qed.
Lemma sim_pure : forall {A} (r : res A), csim (fun c => (r, c)) (fun c => (r, c)).
Proof. intros A r c x c1 W E. injection E as E1 E2. subst. split; [exact W|reflexivity]. Qed.
Lemma sim_bind : forall {A B} (m m' : M (cluster D) A) (h h' : A -> M (cluster D) B),
  csim m m' -> (forall a, csim (h a) (h' a)) -> csim (mbind m h) (mbind m' h').
Proof.
  intros A B m m' h h' Hm Hh c x c1 W E. unfold mbind in *. destruct (m c) as [y c2] eqn:Em.
  destruct (Hm _ _ _ W Em) as [W2 Q]. destruct y as [a|e].
  - rewrite Q by discriminate. exact (Hh a _ _ _ W2 E).
  - injection E as E1 E2. subst. split; [exact W2|]. intros ND. rewrite Q by congruence. reflexivity.
Qed.

Lemma reset_sim : forall c, reset (cmove c) = cmove (reset c).
Proof. intros c. unfold reset. cbn [cl_kind cmove]. destruct (cl_kind c); reflexivity. Qed.
Lemma info_sim : csim (info f) (info f').
Proof.
  intros c x c1 W E. unfold info in *. cbn [cl_info cmove cl_offset]. destruct (cl_info c).
  - injection E as E1 E2. subst. split; [exact W|reflexivity].
  - rewrite zsub_prefix by apply W. destruct (zsub (cl_offset c) 1 f).
    + injection E as E1 E2. subst. split; [exact W|reflexivity].
    + destruct (parse_infobyte _); injection E as E1 E2; subst; (split; [exact W|reflexivity]).
Qed.
Lemma with_reader_sim : forall {A} o (h h' : reader D -> res A * reader D), rsim h h' -> csim (with_reader dc new_decomp f o h) (with_reader dc new_decomp f' o h').
Proof.
  intros A o h h' Hh c x c1 W E. unfold with_reader in *. destruct (o <? 0).
  { injection E as E1 E2. subst. split; [exact W|reflexivity]. }
  destruct (info f c) as [i c2] eqn:I. destruct (info_sim _ _ _ W I) as [W2 Q]. destruct i as [[ct ext]|e].
  2:{ injection E as E1 E2. subst. split; [exact W2|]. intros ND. rewrite Q by congruence. reflexivity. }
  rewrite Q by discriminate. clear Q I W c ext. rename c2 into c.
  set (go := fun r => match skip_to dc f o r with
          | (Err e, r) => (Err e, set_reader (Some r) c)
          | (Ok _, r) => let '(x, r) := h r in (x, set_reader (Some r) c) end) in *.
  set (go' := fun r => match skip_to dc f' o r with
          | (Err e, r) => (Err e, set_reader (Some r) (cmove c))
          | (Ok _, r) => let '(x, r) := h' r in (x, set_reader (Some r) (cmove c)) end) in *.
  assert (Hgo : forall r x c1, rwf r -> go r = (x, c1) -> cwf c1 /\ (x <> Err Diverge -> go' (rmove r) = (x, cmove c1))).
  { intros r x0 c0 Wr Er. unfold go, go' in *. destruct (skip_to dc f o r) as [y r2] eqn:K. destruct (skip_to_sim _ _ _ _ Wr K) as [W3 Q].
    destruct y as [u|e].
    - rewrite Q by discriminate. destruct (h r2) as [z r3] eqn:Hk. destruct (Hh _ _ _ W3 Hk) as [W4 Q4].
      injection Er as E1 E2. subst. split; [split; [apply W2|exact W4]|]. intros ND. rewrite (Q4 ND). reflexivity.
    - injection Er as E1 E2. subst. split; [split; [apply W2|exact W3]|]. intros ND. rewrite Q by congruence. reflexivity. }
  assert (Hfresh : forall x c1, (match new_decomp ct with Err e => (Err e, c) | Ok d => go (reader_new d (cl_offset c + 1)) end) = (x, c1) ->
    cwf c1 /\ (x <> Err Diverge -> (match new_decomp ct with Err e => (Err e, cmove c) | Ok d => go' (reader_new d (cl_offset (cmove c) + 1)) end) = (x, cmove c1))).
  { intros x0 c0 E0. destruct (new_decomp ct) as [d|e].
    - assert (Wn : rwf (reader_new d (cl_offset c + 1))) by (destruct W2; split; cbn [r_in r_pos reader_new]; lia).
      destruct (Hgo _ _ _ Wn E0) as [V Q]. split; [exact V|]. intros ND. rewrite <- (Q ND). f_equal. unfold rmove, reader_new, cmove. cbn [r_dec r_buf r_out r_in r_pos cl_offset]. rewrite Z.add_assoc. reflexivity.
    - injection E0 as E1 E2. subst. split; [exact W2|reflexivity]. }
  cbn [cl_reader cmove option_map]. destruct (cl_reader c) as [r|] eqn:Rd; cbn [option_map].
  - cbn [r_out rmove]. destruct (r_out r <=? o).
    + pose proof W2 as [Wo Wr]. rewrite Rd in Wr.
      assert (Wn : rwf (reseek (cl_offset c + 1) r)) by (destruct Wr; split; cbn [reseek r_dec r_buf r_out r_in r_pos]; lia).
      destruct (Hgo _ _ _ Wn E) as [V Q]. split; [exact V|]. intros ND. rewrite <- (Q ND). f_equal. unfold rmove, reseek, cmove. cbn [r_dec r_buf r_out r_in r_pos cl_offset]. rewrite !Z.add_assoc. reflexivity.
    + exact (Hfresh _ _ E).
  - exact (Hfresh _ _ E).
Qed.

Lemma offsets_loop_sim : forall n psize numbers last first nr i,
  rsim (offsets_loop dc f n psize numbers last first nr i) (offsets_loop dc f' n psize numbers last first nr i).
Proof.
  induction n as [|n IH]; intros psize numbers last first nr i r x r1 W E; cbn [offsets_loop] in *.
  - injection E as E1 E2. subst. split; [exact W|congruence].
  - destruct ((match first with None => true | Some v => nr + 1 <=? v end) && (match last with None => true | Some v => i <=? v end)).
    2:{ injection E as E1 E2. subst. split; [exact W|reflexivity]. }
    destruct (read_n dc f psize r) as [y r2] eqn:R. destruct (read_n_sim _ _ _ _ W R) as [W2 Q]. destruct y as [raw|e].
    2:{ injection E as E1 E2. subst. split; [exact W2|]. intros ND. rewrite Q by congruence. reflexivity. }
    rewrite Q by discriminate. destruct (zlen raw =? psize); [|injection E as E1 E2; subst; split; [exact W2|reflexivity]].
    match goal with H : context [offsets_loop dc f n ?a ?b ?c ?d ?e ?g r2] |- _ => destruct (offsets_loop dc f n a b c d e g r2) as [z r3] eqn:L end.
    destruct (IH _ _ _ _ _ _ _ _ _ W2 L) as [W3 Q3]. destruct z as [l|e].
    + rewrite Q3 by discriminate. injection E as E1 E2. subst. split; [exact W3|reflexivity].
    + injection E as E1 E2. subst. split; [exact W3|]. intros ND. rewrite Q3 by congruence. reflexivity.
Qed.
Lemma plain_offsets_sim : forall ns, csim (plain_offsets dc new_decomp f fuel ns) (plain_offsets dc new_decomp f' fuel ns).
Proof.
  intros ns. unfold plain_offsets. apply sim_bind; [exact info_sim|]. intros i.
  destruct ns as [[|n0 ns]|]; [apply sim_ret| |]; apply with_reader_sim; apply offsets_loop_sim.
Qed.
Lemma remembered_sim : csim (remembered dc new_decomp f fuel) (remembered dc new_decomp f' fuel).
Proof.
  intros c x c1 W E. unfold remembered in *. cbn [cl_offsets cmove]. destruct (cl_offsets c).
  - injection E as E1 E2. subst. split; [exact W|reflexivity].
  - destruct (plain_offsets dc new_decomp f fuel None c) as [y c2] eqn:P. destruct (plain_offsets_sim _ _ _ _ W P) as [W2 Q]. destruct y as [l|e].
    + rewrite Q by discriminate. injection E as E1 E2. subst. split; [exact W2|reflexivity].
    + injection E as E1 E2. subst. split; [exact W2|]. intros ND. rewrite Q by congruence. reflexivity.
Qed.
Lemma blob_offsets_sim : forall ns, csim (blob_offsets dc new_decomp f fuel ns) (blob_offsets dc new_decomp f' fuel ns).
Proof.
  intros ns c x c1 W E. unfold blob_offsets in *. cbn [cl_kind cmove].
  assert (H : csim (let* l := remembered dc new_decomp f fuel in ret (select_offsets 0 ns l)) (let* l := remembered dc new_decomp f' fuel in ret (select_offsets 0 ns l))).
  { apply sim_bind; [exact remembered_sim|]. intros. apply sim_ret. }
  destruct (cl_kind c); [exact (plain_offsets_sim _ _ _ _ W E)| |]; exact (H _ _ _ W E).
Qed.
Lemma get_offset_sim : forall i, csim (get_offset dc new_decomp f fuel i) (get_offset dc new_decomp f' fuel i).
Proof.
  intros i. unfold get_offset. destruct (i <? 0); [apply sim_raise|]. apply sim_bind; [apply blob_offsets_sim|].
  intros [|o l]; [apply sim_raise|apply sim_ret].
Qed.
Lemma pointer_size_sim : csim pointer_size pointer_size.
Proof.
  intros c x c1 W E. unfold pointer_size in *. cbn [cl_info cmove].
  destruct (cl_info c) as [[ct ext]|]; injection E as E1 E2; subst; (split; [exact W|reflexivity]).
Qed.
Lemma number_of_offsets_sim : csim (number_of_offsets dc new_decomp f fuel) (number_of_offsets dc new_decomp f' fuel).
Proof.
  unfold number_of_offsets. apply sim_bind; [apply get_offset_sim|]. intros o. apply sim_bind; [exact pointer_size_sim|]. intros. apply sim_ret.
Qed.
Lemma number_of_blobs_sim : csim (number_of_blobs dc new_decomp f fuel) (number_of_blobs dc new_decomp f' fuel).
Proof. unfold number_of_blobs. apply sim_bind; [exact number_of_offsets_sim|]. intros. apply sim_ret. Qed.
Lemma content_size_sim : csim (content_size dc new_decomp f fuel) (content_size dc new_decomp f' fuel).
Proof.
  unfold content_size. apply sim_bind; [apply get_offset_sim|]. intros a. apply sim_bind; [exact number_of_offsets_sim|]. intros n.
  apply sim_bind; [apply get_offset_sim|]. intros. apply sim_ret.
Qed.
Lemma total_offset_size_sim : csim (total_offset_size dc new_decomp f fuel) (total_offset_size dc new_decomp f' fuel).
Proof.
  unfold total_offset_size. apply sim_bind; [exact number_of_offsets_sim|]. intros n. apply sim_bind; [exact pointer_size_sim|]. intros. apply sim_ret.
Qed.
Lemma total_compressed_sim : csim (total_compressed dc new_decomp f fuel) (total_compressed dc new_decomp f' fuel).
Proof.
  unfold total_compressed. apply sim_bind; [exact info_sim|]. intros i. destruct (ctype_eqb (fst i) NONE).
  - unfold total_decompressed_size. apply sim_bind; [|intros; apply sim_ret]. apply sim_bind; [exact number_of_offsets_sim|]. intros. apply get_offset_sim.
  - apply with_reader_sim. intros r x r1 W E. destruct (iter_read dc f fuel (-1) 4096 r) as [y r2] eqn:I.
    destruct (iter_read_sim _ _ _ _ _ W I) as [W2 Q]. destruct y as [l|e].
    + rewrite Q by discriminate. unfold total_compressed_size in *. cbn [rmove r_dec r_in]. destruct (d_eof dc (r_dec r2)); injection E as E1 E2; subst; (split; [exact W2|reflexivity]).
    + injection E as E1 E2. subst. split; [exact W2|]. intros ND. rewrite Q by congruence. reflexivity.
Qed.
Lemma plain_read_blob_sim : forall i a b, csim (plain_read_blob dc new_decomp f fuel i a b) (plain_read_blob dc new_decomp f' fuel i a b).
Proof.
  intros i a b. unfold plain_read_blob. destruct (_ || _); [apply sim_raise|]. apply sim_bind; [apply blob_offsets_sim|].
  intros [|x [|y [|z l]]]; try apply sim_raise. destruct (nothing_to_read a b y); [apply sim_ret|].
  destruct (abs_range a b x y). apply with_reader_sim. apply read_n_sim.
Qed.
Lemma mem_data_sim : csim (mem_data dc new_decomp f fuel) (mem_data dc new_decomp f' fuel).
Proof.
  intros c x c1 W E. unfold mem_data in *. cbn [cl_data cmove]. destruct (cl_data c).
  { injection E as E1 E2. subst. split; [exact W|reflexivity]. }
  match goal with H : (match ?m c with _ => _ end) = _ |- _ => assert (Hm : csim m (let* _ := info f' in let* _ := remembered dc new_decomp f' fuel in
       let* n := content_size dc new_decomp f' fuel in let* o := get_offset dc new_decomp f' fuel 0 in with_reader dc new_decomp f' o (read_n dc f' n))) end.
  { apply sim_bind; [exact info_sim|]. intros _. apply sim_bind; [exact remembered_sim|]. intros _. apply sim_bind; [exact content_size_sim|]. intros n.
    apply sim_bind; [apply get_offset_sim|]. intros o. apply with_reader_sim. apply read_n_sim. }
  match goal with H : (match ?m c with _ => _ end) = _ |- _ => destruct (m c) as [y c2] eqn:P end.
  destruct (Hm _ _ _ W P) as [W2 Q]. destruct y as [d|e].
  - rewrite Q by discriminate. injection E as E1 E2. subst. split; [exact W2|reflexivity].
  - injection E as E1 E2. subst. split; [exact W2|]. intros ND. rewrite Q by congruence. reflexivity.
Qed.
Lemma mem_read_blob_sim : forall i a b, csim (mem_read_blob dc new_decomp f fuel i a b) (mem_read_blob dc new_decomp f' fuel i a b).
Proof.
  intros i a b. unfold mem_read_blob. destruct (i <? 0); [apply sim_raise|]. apply sim_bind; [exact mem_data_sim|]. intros data.
  apply sim_bind; [apply blob_offsets_sim|]. intros [|x [|y [|z l]]]; try apply sim_raise. destruct (nothing_to_read a b y); [apply sim_ret|].
  destruct (abs_range a b x y). apply sim_bind; [exact total_offset_size_sim|]. intros. apply sim_ret.
Qed.
Lemma read_blob_sim : forall i a b, csim (read_blob dc new_decomp f fuel i a b) (read_blob dc new_decomp f' fuel i a b).
Proof.
  intros i a b c x c1 W E. unfold read_blob in *. cbn [cl_kind cmove].
  destruct (cl_kind c); [exact (plain_read_blob_sim _ _ _ _ _ _ W E)|exact (plain_read_blob_sim _ _ _ _ _ _ W E)|exact (mem_read_blob_sim _ _ _ _ _ _ W E)].
Qed.
End Sim.

(** ** Entries *)

(** The archive that was read from [p ++ f] when [A] was read from [f]. *)
Definition moved (p : bytes) (s : zim) : zim := set_file (p ++ z_file s) s.
Definition cmoved (p : bytes) (a : carchive) : carchive := mkCa (moved p (ca_zim a)) (ca_ptrs a) (ca_next a).
Definition fmoved (p : bytes) (A : farchive) : farchive := fa_set_file (p ++ fa_file A) A.

Lemma bsearch_loop_keys : forall k1 k2 (H : forall i, k1 i = k2 i) n e a b, bsearch_loop n k1 e a b = bsearch_loop n k2 e a b.
Proof.
  intros k1 k2 H. induction n as [|n IH]; intros e a b; cbn [bsearch_loop]; destruct (a <? b); try reflexivity.
  rewrite H. destruct (k2 ((a + b) / 2)) as [k|x]; cbn [bind]; [|reflexivity]. destruct (bltb k e); apply IH.
Qed.
Lemma get_keys : forall k1 k2 l key, (forall i, k1 i = k2 i) -> get k1 l key = get k2 l key.
Proof.
  intros k1 k2 l key H. unfold get, get_gen, get_index_gen, binarysearch. destruct (zlen l =? 0).
  - cbn [bind]. destruct (0 =? zlen l); [reflexivity|]. destruct (get_by_index l 0); cbn [bind]; [rewrite H|]; reflexivity.
  - rewrite (bsearch_loop_keys (fun i => do q <- get_by_index l i ;; k1 q) (fun i => do q <- get_by_index l i ;; k2 q))
      by (intros i; destruct (get_by_index l i); cbn [bind]; auto).
    destruct (bsearch_loop (Z.to_nat (zlen l)) (fun i => do q <- get_by_index l i ;; k2 q) key 0 (zlen l)) as [i|x]; cbn [bind]; [|reflexivity].
    destruct (i =? zlen l); [reflexivity|]. destruct (get_by_index l i); cbn [bind]; [rewrite H|]; reflexivity.
Qed.
Lemma iter_bounds_same : forall {A} n m (g g' : Z -> res A) a b, (forall i, g i = g' i) -> iter_bounds n m g a b = iter_bounds n m g' a b.
Proof.
  intros A n m g g' a b H. unfold iter_bounds. repeat (destruct (_ <? _); [reflexivity|]).
  generalize (Z.to_nat (match b with None => m | Some e => e end - match a with None => 0 | Some s => s end)) as c.
  generalize (match a with None => 0 | Some s => s end) as x. intros x c. revert x.
  induction c as [|c IH]; intros x; cbn [iter_range]; [reflexivity|]. rewrite H, IH. reflexivity.
Qed.

Section Moved.
Variable p : bytes.
Lemma entry_at_moved : forall s l, oget_entry_at (zlen p) (moved p s) l = get_entry_at s l.
Proof.
  intros s l. unfold oget_entry_at, get_entry_at. destruct (l <? 0) eqn:E; [reflexivity|].
  unfold entry_at. cbn [moved set_file z_file]. rewrite zskip_prefix by lia. reflexivity.
Qed.
Lemma by_index_moved : forall s i, oget_entry_by_url_index (zlen p) (moved p s) i = get_entry_by_url_index s i.
Proof.
  intros s i. unfold oget_entry_by_url_index, get_entry_by_url_index. destruct (i <? 0); [reflexivity|].
  cbn [moved set_file z_upl]. destruct (get_by_index (pl_ptrs (z_upl s)) i); [apply entry_at_moved|reflexivity].
Qed.
Lemma key_moved : forall s l, ourl_key (zlen p) (moved p s) l = url_key s l.
Proof. intros s l. unfold ourl_key, url_key. rewrite entry_at_moved. reflexivity. Qed.
Lemma by_url_moved : forall s u, oget_entry_by_full_url (zlen p) (moved p s) u = get_entry_by_full_url s u.
Proof.
  intros s u. unfold oget_entry_by_full_url, get_entry_by_full_url, url_pointer. destruct (encode u) as [k|e]; cbn [bind]; [|reflexivity].
  rewrite (get_keys _ (url_key s)) by (apply key_moved). cbn [moved set_file z_upl].
  destruct (get (url_key s) (pl_ptrs (z_upl s)) k); [apply entry_at_moved|reflexivity].
Qed.
Lemma has_moved : forall s u, ohas_entry_for_full_url (zlen p) (moved p s) u = has_entry_for_full_url s u.
Proof.
  intros s u. unfold ohas_entry_for_full_url, has_entry_for_full_url. destruct (encode u) as [k|e]; cbn [bind]; [|reflexivity].
  unfold has, has_gen. change (get_gen (ourl_key (zlen p) (moved p s)) (zlen (pl_ptrs (z_upl (moved p s)))) (get_by_index (pl_ptrs (z_upl (moved p s)))) k)
    with (get (ourl_key (zlen p) (moved p s)) (pl_ptrs (z_upl s)) k).
  rewrite (get_keys _ (url_key s)) by (apply key_moved). reflexivity.
Qed.
Lemma main_moved : forall s, oget_mainpage_entry (zlen p) (moved p s) = get_mainpage_entry s.
Proof.
  intros s. unfold oget_mainpage_entry, get_mainpage_entry. cbn [moved set_file z_main z_upl]. destruct (z_main s) as [i|]; [|reflexivity].
  destruct (get_by_index (pl_ptrs (z_upl s)) i); cbn [bind]; [apply entry_at_moved|reflexivity].
Qed.
Lemma entries_moved : forall s a b, oiter_entries (zlen p) (moved p s) a b = iter_entries s a b.
Proof.
  intros s a b. unfold oiter_entries, iter_entries. apply iter_bounds_same. intros i. cbn [moved set_file z_upl].
  destruct (get_by_index (pl_ptrs (z_upl s)) i); cbn [bind]; [apply entry_at_moved|reflexivity].
Qed.
Lemma articles_moved : forall s a b, oiter_articles (zlen p) (moved p s) a b = iter_articles s a b.
Proof.
  intros s a b. unfold oiter_articles, iter_articles. apply iter_bounds_same. intros i. cbn [moved set_file z_atpl].
  destruct (get_by_index (pl_ptrs (z_atpl s)) i); cbn [bind]; [apply by_index_moved|reflexivity].
Qed.
Lemma resolve_moved : forall n s e, oresolve (zlen p) n (moved p s) e = resolve n s e.
Proof.
  induction n as [|n IH]; intros s e; cbn [oresolve resolve]; [reflexivity|]. destruct (is_redirect e); [|reflexivity].
  assert (F : ofollow (zlen p) (moved p s) e = follow s e) by (unfold ofollow, follow; destruct (e_kind e); [reflexivity|apply by_index_moved] || (destruct (e_kind e); [apply by_index_moved|reflexivity])).
  rewrite F. destruct (follow s e); cbn [bind]; [apply IH|reflexivity].
Qed.

Section Clusters.
Variable fuel : nat.
Context {D : Type}.
Variable dc : decomp D.
Variable new_decomp : ctype -> res D.
Variable kd : ckind.

Lemma pointer_nonneg : forall l i q, Forall (fun x => 0 <= x) l -> get_by_index l i = Ok q -> 0 <= q.
Proof.
  intros l i q F E. unfold get_by_index in E. destruct (py_index (zlen l) i) as [n|]; [|discriminate].
  destruct (nth_error l n) as [x|] eqn:N; [|discriminate]. injection E as E. subst. rewrite Forall_forall in F. apply F. exact (nth_error_In _ _ N).
Qed.
Lemma cluster_moved : forall a q, 0 <= q -> get_cluster_at fuel dc new_decomp kd a q <> Err Diverge ->
  match get_cluster_at fuel dc new_decomp kd a q with
  | Err e => oget_cluster_at (zlen p) fuel dc new_decomp kd (cmoved p a) q = Err e
  | Ok o => exists c n, cwf c /\ o = mkCobj (mkWrapper c None None [] [] []) n /\
            oget_cluster_at (zlen p) fuel dc new_decomp kd (cmoved p a) q = Ok (mkCobj (mkWrapper (cmove p c) None None [] [] []) n)
  end.
Proof.
  intros a q Q0. unfold oget_cluster_at, get_cluster_at. change (ca_file (cmoved p a)) with (p ++ ca_file a). cbn zeta.
  change (w_in (wrap (inner_cluster dc new_decomp (ca_file a) fuel) (cluster_new kd q))) with (@reset D (cluster_new kd q)).
  change (w_in (wrap (inner_cluster dc new_decomp (p ++ ca_file a) fuel) (cluster_new kd (zlen p + q)))) with (reset (cmove p (@cluster_new D kd q))).
  rewrite reset_sim.
  assert (W : @cwf D (reset (cluster_new kd q))) by (unfold reset; cbn [cluster_new cl_kind]; destruct kd; split; cbn; auto).
  destruct (total_compressed dc new_decomp (ca_file a) fuel (reset (cluster_new kd q))) as [n c] eqn:T.
  destruct (total_compressed_sim dc new_decomp fuel p (ca_file a) _ _ _ W T) as [W2 Q]. intros ND. destruct n as [n|e].
  - exists c, n. split; [exact W2|]. split; [reflexivity|]. rewrite Q by discriminate. reflexivity.
  - rewrite Q by congruence. reflexivity.
Qed.
Lemma wrapped_read : forall F j (c : cluster D),
  fst (wread_blob (inner_cluster dc new_decomp F fuel) fuel j None None (mkWrapper c None None [] [] [])) = fst (read_blob dc new_decomp F fuel (adjust [] j) None None c).
Proof.
  intros. unfold wread_blob, lift. cbn [w_blobs dget w_in in_read inner_cluster w_removed].
  destruct (read_blob dc new_decomp F fuel (adjust [] j) None None c). reflexivity.
Qed.
Lemma blob_moved : forall a i j, Forall (fun x => 0 <= x) (pl_ptrs (ca_ptrs a)) -> read_blob_of fuel dc new_decomp kd a i j <> Err Diverge ->
  oread_blob_of (zlen p) fuel dc new_decomp kd (cmoved p a) i j = read_blob_of fuel dc new_decomp kd a i j.
Proof.
  intros a i j F ND. unfold oread_blob_of, read_blob_of, oget_cluster_by_index, get_cluster_by_index in *.
  destruct (i <? 0); [reflexivity|]. change (ca_ptrs (cmoved p a)) with (ca_ptrs a).
  destruct (get_by_index (pl_ptrs (ca_ptrs a)) i) as [q|e] eqn:G; cbn [bind] in *; [|reflexivity].
  pose proof (cluster_moved a q (pointer_nonneg _ _ _ F G)) as H.
  destruct (get_cluster_at fuel dc new_decomp kd a q) as [o|e]; cbn [bind] in *.
  - destruct (H ltac:(discriminate)) as (c & n & W & Eo & E). rewrite E. subst o. cbn [bind co_wrap] in *. rewrite !wrapped_read in *.
    change (ca_file (cmoved p a)) with (p ++ ca_file a).
    destruct (read_blob dc new_decomp (ca_file a) fuel (adjust [] j) None None c) as [x c2] eqn:R.
    destruct (read_blob_sim dc new_decomp fuel p (ca_file a) _ _ _ _ _ _ W R) as [_ Q2]. cbn [fst] in *. rewrite (Q2 ND). reflexivity.
  - rewrite H by congruence. reflexivity.
Qed.
Lemma listing_moved : forall a u, Forall (fun x => 0 <= x) (pl_ptrs (ca_ptrs a)) -> load_listing fuel dc new_decomp kd a u <> Err Diverge ->
  oload_listing (zlen p) fuel dc new_decomp kd (cmoved p a) u = load_listing fuel dc new_decomp kd a u.
Proof.
  intros a u F ND. unfold oload_listing, load_listing in *. cbn [cmoved ca_zim]. rewrite by_url_moved.
  destruct (get_entry_by_full_url (ca_zim a) u) as [e|x]; cbn [bind] in *; [|reflexivity]. rewrite resolve_moved.
  destruct (resolve fuel (ca_zim a) e) as [e'|x]; cbn [bind] in *; [|reflexivity]. destruct (e_kind e') as [c b|q]; [|reflexivity].
  change (mkCa (moved p (ca_zim a)) (ca_ptrs a) (ca_next a)) with (cmoved p a).
  rewrite blob_moved; [reflexivity|exact F|]. intros Z. rewrite Z in ND. apply ND. reflexivity.
Qed.

(** ** Opening *)

Lemma header_nonneg : forall f x h, header_from_file f x = Ok h -> header_fits h.
Proof.
  intros f x h E. unfold header_from_file in E. destruct (zlen (fread f x HEADER_LENGTH) =? 80) eqn:L.
  - destruct (header_from_bytes_surj (fread f x HEADER_LENGTH) ltac:(lia)) as (h' & E' & F & _). rewrite E in E'. injection E' as E'. subst. exact F.
  - unfold header_from_bytes in E. change HEADER_LENGTH with 80 in *. rewrite L in E. discriminate E.
Qed.
Lemma ptrs_nonneg : forall w f n x l, ptrs_from_file w f n x = Ok l -> Forall (fun q => 0 <= q) l.
Proof.
  intros w f n x l E. unfold ptrs_from_file in E. destruct (n <? 0); [discriminate|]. destruct (_ =? _); [|discriminate]. injection E as E. subst.
  eapply Forall_impl; [|apply unpack_range]. cbn. intros. lia.
Qed.
Lemma ptrs_moved : forall w f n x, 0 <= x -> ptrs_from_file w (p ++ f) n (zlen p + x) = ptrs_from_file w f n x.
Proof. intros w f n x H. unfold ptrs_from_file, fread. rewrite zsub_prefix by lia. reflexivity. Qed.

Context {K : Type}.
Variable new_comp : ctype -> res K.
Variable comp : K -> bytes -> res (bytes * K).
Variable flush : K -> res bytes.
Variable depth : nat.

Definition recent (h : header) : bool := (6 <? h_major h) || ((h_major h =? 6) && (3 <=? h_minor h)).
Lemma open_moved : forall f sc sp,
  open_zim fuel dc new_decomp new_comp comp flush depth kd f false sc sp <> Err Diverge ->
  (forall h, header_from_file f 0 = Ok h -> recent h = true) \/
  (exists A, open_zim fuel dc new_decomp new_comp comp flush depth kd f false sc sp = Ok A /\ has_entry_for_full_url (fa_zim A) URL_ENTRY_TITLE_INDEX = Ok true) ->
  oopen (zlen p) fuel dc new_decomp kd (p ++ f) sc sp =
  match open_zim fuel dc new_decomp new_comp comp flush depth kd f false sc sp with Ok A => Ok (fmoved p A) | Err e => Err e end.
Proof.
  intros f sc sp ND HT. unfold oopen, oload. unfold open_zim in *.
  assert (EH : header_from_file (p ++ f) (zlen p) = header_from_file f 0).
  { unfold header_from_file, fread. rewrite <- (Z.add_0_r (zlen p)) at 1. rewrite zsub_prefix by lia. reflexivity. }
  rewrite EH. destruct (header_from_file f 0) as [h|x] eqn:Eh; cbn [bind] in *; [|reflexivity].
  pose proof (header_nonneg _ _ _ Eh) as (_ & _ & _ & _ & _ & _ & B1 & B2 & B3 & B4 & _).
  rewrite zskip_prefix by lia. destruct (mt_from_file (zskip (h_mime_pos h) f)) as [m|x]; cbn [bind] in *; [|reflexivity].
  rewrite !ptrs_moved by lia.
  destruct (ptrs_from_file 8 f (h_entry_count h) (h_url_pos h)) as [ul|x]; cbn [bind] in *; [|reflexivity].
  destruct (ptrs_from_file 8 f (h_cluster_count h) (h_cluster_pos h)) as [cl|x] eqn:Ec; cbn [bind] in *; [|reflexivity].
  pose proof (ptrs_nonneg _ _ _ _ _ Ec) as F. cbn zeta in *.
  set (a0 := mkCa (mkZim f (set_mutable false (plist_new 8 ul)) None (set_mutable false (plist_new 4 [])) (main_page h) (new_allocator (h_checksum_pos h))) (set_mutable false (plist_new 8 cl)) (zlen cl)) in *.
  change (mkCa (mkZim (p ++ f) (set_mutable false (plist_new 8 ul)) None (set_mutable false (plist_new 4 [])) (main_page h) (new_allocator (h_checksum_pos h))) (set_mutable false (plist_new 8 cl)) (zlen cl))
    with (cmoved p a0).
  change (ca_zim (cmoved p a0)) with (moved p (ca_zim a0)). rewrite !has_moved.
  assert (Fa : Forall (fun x => 0 <= x) (pl_ptrs (ca_ptrs a0))) by exact F.
  change ((6 <? h_major h) || (h_major h =? 6) && (3 <=? h_minor h)) with (recent h) in *.
  assert (Hr : recent h = true \/ recent h = false /\ has_entry_for_full_url (ca_zim a0) URL_ENTRY_TITLE_INDEX = Ok true).
  { destruct (recent h) eqn:Er; [left; reflexivity|right]. split; [reflexivity|]. destruct HT as [HT|(A & EA & HA)]; [specialize (HT h eq_refl); congruence|].
    destruct (has_entry_for_full_url (ca_zim a0) URL_ENTRY_TITLE_INDEX) as [there|x] eqn:Et; cbn [bind] in EA; [|discriminate EA].
    destruct (if there then load_listing fuel dc new_decomp kd a0 URL_ENTRY_TITLE_INDEX else ptrs_from_file 4 f (h_entry_count h) (h_title_pos h)); cbn [bind] in EA; [|discriminate EA].
    destruct (has_entry_for_full_url (ca_zim a0) URL_ARTICLE_TITLE_INDEX) as [th|x] eqn:Ea; cbn [bind] in EA; [|discriminate EA].
    destruct (if th then load_listing fuel dc new_decomp kd a0 URL_ARTICLE_TITLE_INDEX else Ok []); cbn [bind] in EA; [|discriminate EA].
    rewrite orb_true_r in EA. injection EA as EA. subst A. exact HA || (rewrite <- Et; exact HA). }
  clear HT. destruct Hr as [Hr|[Hr Ht]]; rewrite Hr in *; cbn [bind] in *.
  - destruct (has_entry_for_full_url (ca_zim a0) URL_ARTICLE_TITLE_INDEX) as [th|x]; cbn [bind] in *; [|reflexivity].
    destruct th; cbn [bind orb negb] in *; [|reflexivity]. rewrite listing_moved; [|exact Fa|].
    + destruct (load_listing fuel dc new_decomp kd a0 URL_ARTICLE_TITLE_INDEX); reflexivity.
    + intros Z. rewrite Z in ND. apply ND. reflexivity.
  - rewrite Ht in *. cbn [bind] in *. rewrite listing_moved; [|exact Fa|].
    2:{ intros Z. rewrite Z in ND. apply ND. reflexivity. }
    destruct (load_listing fuel dc new_decomp kd a0 URL_ENTRY_TITLE_INDEX) as [el|x]; cbn [bind] in *; [|reflexivity].
    destruct (has_entry_for_full_url (ca_zim a0) URL_ARTICLE_TITLE_INDEX) as [th|x]; cbn [bind] in *; [|reflexivity].
    destruct th; cbn [bind orb negb] in *; [|reflexivity]. rewrite listing_moved; [|exact Fa|].
    + destruct (load_listing fuel dc new_decomp kd a0 URL_ARTICLE_TITLE_INDEX); reflexivity.
    + intros Z. rewrite Z in ND. apply ND. reflexivity.
Qed.
End Clusters.
End Moved.
