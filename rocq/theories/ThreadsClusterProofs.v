(** The programs of the clusters keep to the rules of ThreadsProofs.v and
    answer as C25 and C26 say. *)
From Coq Require Import List ZArith Bool Lia Arith.
From Coq Require Import ZifyBool ZifyNat.
From Verif Require Import Base BaseProofs Infobyte Reader ReaderSpec ReaderProofs Cluster ClusterSpec ClusterProofs Threads ThreadsSpec ThreadsProofs.
Import ListNotations.
Open Scope Z_scope.

Section Clusters.
Context {D : Type}.
Variable dc : decomp D.
Variable new_decomp : ctype -> res D.
Variable f : bytes.
Variable fuel : nat.
Variable Rep : nat -> D -> bytes -> bytes -> bytes -> Prop.
Variables (kind : nat -> ckind) (off : nat -> Z) (ct : nat -> ctype) (ext : nat -> bool) (blobs : nat -> list bytes) (C J tail : nat -> bytes).
Variable ends : nat -> bool.
Hypothesis ST : forall k, stored dc new_decomp (Rep k) f (off k) (ct k) (ext k) (blobs k) (C k) (J k) (tail k).
Hypothesis EN : forall k, ends k = true -> stored_ends dc (Rep k) (J k) (tail k).
Hypothesis FU : forall k, zlen (cluster_data (ext k) (blobs k) ++ tail k) + 2 <= Z.of_nat fuel.

Notation o k := (cluster_data (ext k) (blobs k) ++ tail k).
Notation base k := (off k + 1).
Notation ps k := (positions (ext k) (blobs k)).
Notation P k := (ptr_size (ext k)).
Notation rv k := (rinv (Rep k) (off k) (ext k) (blobs k) (C k) (J k) (tail k)).

(** The facts of ClusterProofs.v about cluster [k]. *)
Lemma Ppos : forall k, 0 < P k. Proof. intro k. destruct (ext k); reflexivity. Qed.
Definition CTk k := CT _ _ _ _ _ _ _ _ _ _ _ (ST k).
Definition CEk k := CE _ _ _ _ _ (EN k).
Lemma HBk : forall k, 0 <= base k. Proof. intro k. pose proof (st_off _ _ _ _ _ _ _ _ _ _ _ (ST k)). lia. Qed.
Definition HFk k := HF _ _ _ _ _ _ _ _ _ _ _ (ST k).
Definition skip_k k := skip_ok dc f (base k) (C k) (J k) (o k) (Rep k) (ends k) (CTk k) (CEk k) (HBk k) (HFk k).
Definition read_k k := read_ok dc f (base k) (C k) (J k) (o k) (Rep k) (ends k) (CTk k) (CEk k) (HBk k) (HFk k).
Definition read_n_k k := read_n_ok dc f (base k) (C k) (J k) (o k) (Rep k) (ends k) (CTk k) (CEk k) (HBk k) (HFk k).
Definition iter_k k := iter_loop_ok dc f (base k) (C k) (J k) (o k) (Rep k) (ends k) (CTk k) (CEk k) (HBk k) (HFk k).
Definition loop_k k := offsets_loop_ok dc new_decomp (Rep k) f fuel (off k) (ct k) (ext k) (blobs k) (C k) (J k) (tail k) (ends k) (ST k) (EN k) (FU k).
Definition inside_k k := blob_inside dc new_decomp (Rep k) f fuel (off k) (ct k) (ext k) (blobs k) (C k) (J k) (tail k) (ends k) (ST k) (EN k) (FU k).
Definition part_k k := abs_part dc new_decomp (Rep k) f fuel (off k) (ct k) (ext k) (blobs k) (C k) (J k) (tail k) (ends k) (ST k) (EN k) (FU k).
Definition two_k k := two_offsets dc (Rep k) fuel (ext k) (blobs k) (J k) (tail k) (ends k) (EN k).
Definition znth_k k := znth_ps dc (Rep k) fuel (ext k) (blobs k) (J k) (tail k) (ends k) (EN k).
Definition bytes_k k := blob_bytes dc (Rep k) fuel (ext k) (blobs k) (J k) (tail k) (ends k) (EN k).
Definition content_k k := content_bytes dc (Rep k) fuel (ext k) (blobs k) (J k) (tail k) (ends k) (EN k).
Definition o_len_k k := o_len dc (Rep k) fuel (ext k) (blobs k) (J k) (tail k) (ends k) (EN k).
Definition at_ge_k k := blob_at_ge dc (Rep k) fuel (ext k) (blobs k) (J k) (tail k) (ends k) (EN k).
Definition range_k k := range_ok_iff dc (Rep k) fuel (J k) (tail k) (ends k) (EN k).
Definition range_ge_k k := abs_range_ge dc (Rep k) fuel (J k) (tail k) (ends k) (EN k).
Definition nothing_k k := nothing_part dc (Rep k) fuel (J k) (tail k) (ends k) (EN k).

Definition known (k : nat) (s : shared D) : Prop := ce_comp (sh_cell s k) = Some (ct k) /\ ce_ext (sh_cell s k) = Some (ext k).
Definition good_cell (k : nat) (c : cell D) : Prop :=
  (ce_comp c = None \/ ce_comp c = Some (ct k)) /\ (ce_ext c = None \/ ce_ext c = Some (ext k)) /\
  (ce_offsets c = None \/ ce_offsets c = Some (ps k) /\ kind k <> KPlain /\ ce_comp c = Some (ct k) /\ ce_ext c = Some (ext k)) /\
  (ce_data c = None \/ ce_data c = Some (concat (blobs k)) /\ kind k = KInMemory).
Definition good (s : shared D) : Prop := forall k, good_cell k (sh_cell s k).
Definition more {X} (a b : option X) : Prop := a = None \/ a = b.
Definition grows (s s' : shared D) : Prop := forall k,
  more (ce_comp (sh_cell s k)) (ce_comp (sh_cell s' k)) /\ more (ce_ext (sh_cell s k)) (ce_ext (sh_cell s' k)) /\
  more (ce_offsets (sh_cell s k)) (ce_offsets (sh_cell s' k)) /\ more (ce_data (sh_cell s k)) (ce_data (sh_cell s' k)).
Definition same (s s' : shared D) : Prop := sh_pos s = sh_pos s' /\ forall k, ce_reader (sh_cell s k) = ce_reader (sh_cell s' k).
(** A reader that is kept can be used again. *)
Definition rested (k : nat) (s : shared D) : Prop := forall r, ce_reader (sh_cell s k) = Some r -> exists p, rv k (reseek (base k) r) p.
Definition quiet (s : shared D) : Prop := forall k, rested k s.

Lemma more_refl : forall X (a : option X), more a a. Proof. right. reflexivity. Qed.
Lemma more_trans : forall X (a b c : option X), more a b -> more b c -> more a c.
Proof. intros X a b c [ -> | -> ] H; [left; reflexivity|exact H]. Qed.
Lemma grows_refl : forall s, grows s s. Proof. intros s k. repeat split; apply more_refl. Qed.
Lemma grows_trans : forall a b c, grows a b -> grows b c -> grows a c.
Proof. intros a b c H1 H2 k. destruct (H1 k) as (A1 & A2 & A3 & A4), (H2 k) as (B1 & B2 & B3 & B4). repeat split; eapply more_trans; eauto. Qed.
Lemma same_refl : forall s, same s s. Proof. split; reflexivity. Qed.
Lemma same_trans : forall a b c, same a b -> same b c -> same a c.
Proof. intros a b c (A1 & A2) (B1 & B2). split; [congruence|]. intro k. rewrite A2. apply B2. Qed.
Lemma quiet_same : forall a b, quiet a -> same a b -> quiet b.
Proof. intros a b H (_ & E) k r R. apply (H k). rewrite E. exact R. Qed.

Notation later := (later _ grows same).
Notation safe := (safe _ good grows same quiet).
Ltac frame := try exact grows_refl; try exact grows_trans; try exact same_refl; try exact same_trans; try exact quiet_same.

Lemma known_later : forall k h s s', known k s -> later h s s' -> known k s'.
Proof.
  intros k h s s' (A & B) (L & _). destruct (L k) as ([X1|X1] & [X2|X2] & _); try congruence. split; congruence.
Qed.
Lemma known_grows : forall k s s', known k s -> grows s s' -> known k s'.
Proof. intros k s s' K G. eapply (known_later k false); [exact K|]. split; [exact G|discriminate]. Qed.
Lemma later_t : forall h a b c, later h a b -> later h b c -> later h a c.
Proof. intros h a b c. apply later_trans; frame. Qed.
Lemma later_r : forall h a, later h a a. Proof. intros h a. apply later_refl; frame. Qed.

Lemma safe_l : forall A Y st (p : prog (shared D) A) Q h u u' w, safe Y st h u w p Q -> later h u u' -> safe Y st h u' w p Q.
Proof. intros. eapply safe_later; eauto; frame. Qed.
Lemma safe_b : forall A B Y st (p : prog (shared D) A) (k : A -> prog (shared D) B) (Q : bool -> shared D -> bytes -> res B -> Prop) h u w, good u ->
  safe Y st h u w p (fun h s w r => match r with Ok a => safe Y st h s w (k a) Q | Err e => Q h s w (Err e) end) ->
  safe Y st h u w (pbind p k) Q.
Proof. intros. apply safe_bind; auto; frame. Qed.
Lemma safe_g : forall A B Y st (g : shared D -> A) (k : A -> prog (shared D) B) Q h u w, 
  (forall s, good s -> later h u s -> safe Y st h s w (k (g s)) Q) -> safe Y st h u w (pbind (get g) k) Q.
Proof. intros. apply safe_get; auto; frame. Qed.
Lemma safe_lk : forall A Y st (p : prog (shared D) A) (Q : bool -> shared D -> bytes -> res A -> Prop) u w,
  (forall s, good s -> later false u s -> quiet s ->
    safe Y false true s w p (fun h s w r => h = true /\ quiet s /\ forall s', good s' -> grows s s' -> Q false s' w r)) ->
  safe Y st false u w (locked p) Q.
Proof. intros. apply safe_locked; auto; frame. Qed.

Lemma L_act : forall A B Y st (v : shared D -> A) g (k : A -> prog (shared D) B) Q h u w,
  (forall s, good s -> later h u s -> good (g s) /\ grows s (g s) /\ (h = false -> same s (g s)) /\ safe Y st h (g s) w (k (v s)) Q) ->
  safe Y st h u w (pbind (Act (fun s => pret (v s)) g) k) Q.
Proof. intros A B Y st v g k Q h u w H. exact H. Qed.
Lemma L_put : forall Y st (g : shared D -> shared D) (Q : bool -> shared D -> bytes -> res unit -> Prop) h u w,
  (forall s, good s -> later h u s -> good (g s) /\ grows s (g s) /\ (h = false -> same s (g s)) /\
     forall s', good s' -> later h (g s) s' -> Q h s' w (Ok tt)) ->
  safe Y st h u w (put g) Q.
Proof. intros Y st g Q h u w H. cbn. exact H. Qed.

(** Changes of one cell. *)
Lemma seek_grows : forall p s, grows s (seek p s). Proof. intros p s. exact (grows_refl s). Qed.
Lemma upd_same : forall k g (s : shared D), sh_cell (upd_cell k g s) k = g (sh_cell s k).
Proof. intros. cbn. rewrite Nat.eqb_refl. reflexivity. Qed.
Lemma upd_other : forall k g (s : shared D) j, j <> k -> sh_cell (upd_cell k g s) j = sh_cell s j.
Proof. intros. cbn. rewrite (proj2 (Nat.eqb_neq j k)) by assumption. reflexivity. Qed.
Lemma upd_good : forall k g s, good s -> good_cell k (g (sh_cell s k)) -> good (upd_cell k g s).
Proof. intros k g s G H j. destruct (Nat.eq_dec j k) as [->|N]; [rewrite upd_same; exact H|rewrite upd_other by exact N; apply G]. Qed.
Lemma upd_grows : forall k g s,
  (let c := sh_cell s k in let c' := g c in more (ce_comp c) (ce_comp c') /\ more (ce_ext c) (ce_ext c') /\
    more (ce_offsets c) (ce_offsets c') /\ more (ce_data c) (ce_data c')) -> grows s (upd_cell k g s).
Proof. intros k g s H j. destruct (Nat.eq_dec j k) as [->|N]; [rewrite upd_same; exact H|rewrite upd_other by exact N; apply grows_refl]. Qed.
Lemma upd_keeps : forall k g s, ce_reader (g (sh_cell s k)) = ce_reader (sh_cell s k) -> same s (upd_cell k g s).
Proof.
  intros k g s H. split; [reflexivity|]. intro j. destruct (Nat.eq_dec j k) as [->|N]; [rewrite upd_same; congruence|rewrite upd_other by exact N; reflexivity].
Qed.

(** ** The information byte *)
Lemma L_known : forall k Y st h u w (Q : bool -> shared D -> bytes -> res bool -> Prop),
  (forall s, good s -> later h u s -> known k s -> Q h s w (Ok true)) ->
  (forall s, good s -> later h u s -> ~ known k u -> Q h s w (Ok false)) ->
  safe Y st h u w (p_known k) Q.
Proof.
  intros k Y st h u w Q H1 H2. unfold p_known. apply safe_g. intros s G L.
  destruct (G k) as (C1 & _). destruct (ce_comp (sh_cell s k)) as [c|] eqn:EC.
  - apply safe_g. intros s2 G2 L2. destruct (G2 k) as (_ & C2 & _). destruct (ce_ext (sh_cell s2 k)) as [e|] eqn:EE; intros s3 G3 L3.
    + apply H1; [exact G3|eapply later_t; [exact L|eapply later_t; eassumption]|]. eapply known_later; [|exact L3].
      split; [|rewrite EE; destruct C2; congruence]. destruct L2 as (L2 & _). destruct (L2 k) as ([X|X] & _); [congruence|]. rewrite <- X, EC. destruct C1; congruence.
    + apply H2; [exact G3|eapply later_t; [exact L|eapply later_t; eassumption]|]. intro K.
      apply (known_later k h u s2) in K; [|eapply later_t; eassumption]. destruct K as (_ & K). congruence.
  - intros s3 G3 L3. apply H2; [exact G3|eapply later_t; eassumption|]. intro K.
    apply (known_later k h u s) in K; [|assumption]. destruct K as (K & _). congruence.
Qed.

Lemma L_info_known : forall k Y st h u w (Q : bool -> shared D -> bytes -> res unit -> Prop), good u -> known k u ->
  (forall s, good s -> later h u s -> Q h s w (Ok tt)) -> safe Y st h u w (p_info f off k) Q.
Proof.
  intros k Y st h u w Q G K H. unfold p_info. apply safe_b; [exact G|]. apply L_known.
  - intros s Gs L _. intros s' G' L'. apply H; [exact G'|eapply later_t; eassumption].
  - intros s Gs L N. contradiction.
Qed.

Lemma L_infobyte : forall k Y st u w b (Q : bool -> shared D -> bytes -> res byte -> Prop), good u ->
  zsub (off k) 1 f = [b] ->
  (forall s, good s -> later false u s -> Q false s w (Ok b)) -> safe Y st false u w (p_infobyte f off k) Q.
Proof.
  intros k Y st u w b Q G EB H. unfold p_infobyte. apply safe_lk. intros s Gs L Qs.
  apply safe_put. intros s1 G1 L1. split; [exact G1|]. split; [apply seek_grows|]. split; [discriminate|].
  apply L_act. intros s2 G2 L2. assert (EP : sh_pos s2 = off k). { destruct L2 as (_ & L2). destruct (L2 eq_refl) as (E & _). cbn in E. symmetry. exact E. }
  split; [exact G2|]. split; [apply seek_grows|]. split; [discriminate|]. rewrite EP, EB.
  intros s3 G3 L3. split; [reflexivity|]. split.
  - intros j r R. apply (Qs j). destruct L1 as (_ & L1), L2 as (_ & L2), L3 as (_ & L3). 
    destruct (L1 eq_refl) as (_ & E1), (L2 eq_refl) as (_ & E2), (L3 eq_refl) as (_ & E3). cbn in E2, E3. rewrite E1, E2, E3. exact R.
  - intros s' G' GR. apply H; [exact G'|]. split; [|discriminate]. destruct L as (L & _), L1 as (L1 & _), L2 as (L2 & _), L3 as (L3 & _).
    eapply grows_trans; [exact L|]. eapply grows_trans; [exact L1|]. eapply grows_trans; [exact L2|]. eapply grows_trans; [exact L3|exact GR].
Qed.

Lemma L_info : forall k Y st u w (Q : bool -> shared D -> bytes -> res unit -> Prop), good u ->
  (forall s, good s -> later false u s -> known k s -> Q false s w (Ok tt)) -> safe Y st false u w (p_info f off k) Q.
Proof.
  intros k Y st u w Q G H. unfold p_info. apply safe_b; [exact G|]. apply L_known.
  - intros s Gs L K. intros s' G' L'. apply H; [exact G'|eapply later_t; eassumption|eapply known_later; eassumption].
  - intros s Gs L _. destruct (st_info _ _ _ _ _ _ _ _ _ _ _ (ST k)) as (b & EB & PB).
    apply safe_b; [exact Gs|]. apply L_infobyte with (b := b); [exact Gs|exact EB|]. intros s1 G1 L1. rewrite PB.
    apply safe_put. intros s2 G2 L2. pose proof (G2 k) as (A1 & A2 & A3 & A4).
    split; [apply upd_good; [exact G2|]; unfold good_cell, with_comp; cbn; intuition|].
    split; [apply upd_grows; unfold with_comp; cbn; repeat split; try apply more_refl; destruct A1 as [A1|A1]; [left|right]; exact A1|].
    split; [intros _; apply upd_keeps; reflexivity|].
    set (s2' := upd_cell k (with_comp (Some (ct k))) s2).
    assert (L2' : later false s2 s2'). { split; [|discriminate]. apply upd_grows; unfold with_comp; cbn; repeat split; try apply more_refl; destruct A1 as [A1|A1]; [left|right]; exact A1. }
    assert (KC : ce_comp (sh_cell s2' k) = Some (ct k)). { unfold s2'. rewrite upd_same. reflexivity. }
    apply L_put. intros s3 G3 L3. pose proof (G3 k) as (B1 & B2 & B3 & B4).
    assert (KC3 : ce_comp (sh_cell s3 k) = Some (ct k)). { destruct L3 as (L3 & _). destruct (L3 k) as ([X|X] & _); congruence. }
    split; [apply upd_good; [exact G3|]; unfold good_cell, with_ext; cbn; intuition|].
    assert (G3' : grows s3 (upd_cell k (with_ext (Some (ext k))) s3)).
    { apply upd_grows; unfold with_ext; cbn; repeat split; try apply more_refl; destruct B2 as [B2|B2]; [left|right]; exact B2. }
    split; [exact G3'|]. split; [intros _; apply upd_keeps; reflexivity|].
    intros s4 G4 L4. apply H; [exact G4| |].
    + eapply later_t; [exact L|]. eapply later_t; [exact L1|]. eapply later_t; [exact L2|]. eapply later_t; [exact L2'|]. eapply later_t; [exact L3|].
      eapply later_t; [|exact L4]. split; [exact G3'|discriminate].
    + eapply known_later; [|exact L4]. split; [rewrite upd_same; exact KC3|rewrite upd_same; reflexivity].
Qed.

Lemma L_psize : forall k Y st h u w (Q : bool -> shared D -> bytes -> res Z -> Prop), known k u ->
  (forall s, good s -> later h u s -> Q h s w (Ok (P k))) -> safe Y st h u w (p_psize k) Q.
Proof.
  intros k Y st h u w Q K H. unfold p_psize. apply safe_g. intros s G L. destruct (known_later _ _ _ _ K L) as (_ & E). rewrite E.
  intros s' G' L'. apply H; [exact G'|eapply later_t; eassumption].
Qed.

(** ** The reader *)
Definition ready (k : nat) (p : Z) (s : shared D) : Prop :=
  exists r, ce_reader (sh_cell s k) = Some r /\ rv k (moved_to (sh_pos s) r) p.
Definition others_rest (k : nat) (s : shared D) : Prop := forall j, j <> k -> rested j s.

Lemma ready_same : forall k p s s', ready k p s -> same s s' -> ready k p s'.
Proof. intros k p s s' (r & E & R) (A & B). exists r. rewrite <- B, <- A. auto. Qed.
Lemma others_same : forall k s s', others_rest k s -> same s s' -> others_rest k s'.
Proof. intros k s s' H (_ & B) j N r E. apply (H j N). rewrite B. exact E. Qed.
Lemma ready_quiet : forall k p s, ready k p s -> others_rest k s -> quiet s.
Proof.
  intros k p s (r & E & R) H j. destruct (Nat.eq_dec j k) as [->|N]; [|exact (H j N)]. intros r' E'. exists p.
  assert (r' = r) by congruence. subst r'. apply (reseek_inv (Rep k) (off k) (ext k) (blobs k) (C k) (J k) (tail k)) in R. exact R.
Qed.

Lemma L_on_reader : forall A k (m : reader D -> res A * reader D) Y st u w (Q : bool -> shared D -> bytes -> res A -> Prop) p,
  ready k p u -> others_rest k u ->
  (forall r, rv k r p -> exists x r' p', m r = (x, r') /\ rv k r' p' /\
     forall s, good s -> grows u s -> ready k p' s -> others_rest k s -> Q true s w x) ->
  safe Y st true u w (on_reader k m) Q.
Proof.
  intros A k m Y st u w Q p R OR H. cbn [on_reader ThreadsProofs.safe]. intros s G L. destruct L as (GL & L). specialize (L eq_refl).
  apply (ready_same _ _ _ _ R) in L as R'. apply (others_same _ _ _ OR) in L as OR'. destruct R' as (r & E & RV).
  destruct (H _ RV) as (x & r' & p' & EM & RV' & HQ). unfold reader_op. rewrite E, EM. cbn [fst snd].
  assert (GR : grows s (seek (r_pos r') (upd_cell k (with_rdr (Some r')) s))).
  { intro j. pose proof (upd_grows k (with_rdr (Some r')) s) as X. cbn in X. specialize (X ltac:(repeat split; apply more_refl) j). exact X. }
  split; [|split; [exact GR|split; [discriminate|]]].
  - intro j. pose proof (upd_good k (with_rdr (Some r')) s G) as X. apply X. destruct (G k) as (A1 & A2 & A3 & A4). unfold good_cell, with_rdr. cbn. auto.
  - intros s3 G3 L3. apply HQ; [exact G3| | |].
    + eapply grows_trans; [exact GL|]. eapply grows_trans; [exact GR|apply L3].
    + destruct L3 as (_ & L3). apply ready_same with (2 := L3 eq_refl). exists r'. cbn. rewrite Nat.eqb_refl. split; [reflexivity|]. destruct r'. exact RV'.
    + destruct L3 as (_ & L3). apply others_same with (2 := L3 eq_refl). intros j N r2 E2. cbn in E2. rewrite (proj2 (Nat.eqb_neq j k) N) in E2. exact (OR' j N r2 E2).
Qed.

Lemma L_reader : forall A k q (body : prog (shared D) A) Y st u w (Q : bool -> shared D -> bytes -> res A -> Prop), good u ->
  0 <= q -> (q <= zlen (o k) \/ ends k = true) ->
  (forall s, good s -> grows u s -> known k s -> ready k (Z.min q (zlen (o k))) s -> others_rest k s ->
    safe Y false true s w body (fun h s w r => h = true /\ quiet s /\ forall s', good s' -> grows s s' -> Q false s' w r)) ->
  safe Y st false u w (p_reader dc new_decomp f off k q body) Q.
Proof.
  intros A k q body Y st u w Q G Hq HE H. unfold p_reader. destruct (Z.ltb_spec q 0); [lia|].
  apply safe_b; [exact G|]. apply L_info; [exact G|]. intros s G1 L1 K1.
  apply safe_lk. intros s2 G2 L2 Q2. assert (K2 : known k s2) by (eapply known_later; eassumption).
  assert (GR2 : grows u s2) by (eapply grows_trans; [apply L1|apply L2]).
  (* once the reader is at p *)
  assert (GO : forall v p, good v -> grows u v -> known k v -> ready k p v -> others_rest k v -> p <= q ->
    safe Y false true v w (let! _ := on_reader k (skip_to dc f q) in body) (fun h s w r => h = true /\ quiet s /\ forall s', good s' -> grows s s' -> Q false s' w r)).
  { intros v p Gv GRv Kv Rv Ov Hp. apply safe_b; [exact Gv|]. apply L_on_reader with (p := p); [exact Rv|exact Ov|].
    intros r HI. pose proof HI as ((Hp0 & Hp1) & Hout & _).
    unfold skip_to. destruct (Z.ltb_spec q 0); [lia|]. rewrite Hout. destruct (Z.ltb_spec q p); [lia|].
    destruct (skip_k k (q - p) r p HI) as (r' & E & I'); [lia|destruct HE; [left; lia|right; assumption]|].
    unfold upto in I'. replace (p + (q - p)) with q in I' by lia.
    exists (Ok tt), r', (Z.min q (zlen (o k))). split; [exact E|]. split; [exact I'|].
    intros s3 G3 GR3 R3 O3. apply H; [exact G3|eapply grows_trans; eassumption|eapply known_grows; eassumption|exact R3|exact O3]. }
  assert (FRESH : forall v, good v -> grows u v -> known k v -> quiet v ->
    safe Y false true v w (let! _ := (let! _ := put (seek (off k + 1)) in let! d := p_decompressor new_decomp f off k in put (upd_cell k (with_rdr (Some (reader_new d (off k + 1)))))) in
                           let! _ := on_reader k (skip_to dc f q) in body)
      (fun h s w r => h = true /\ quiet s /\ forall s', good s' -> grows s s' -> Q false s' w r)).
  { intros v Gv GRv Kv Qv. apply safe_b; [exact Gv|]. apply safe_put. intros v1 V1 LV1. split; [exact V1|]. split; [apply seek_grows|]. split; [discriminate|].
    set (v2 := seek (off k + 1) v1). assert (Kv2 : known k v2) by (exact (known_later _ _ _ _ Kv LV1)).
    apply safe_b; [exact V1|]. unfold p_decompressor. apply safe_b; [exact V1|]. apply L_info_known; [exact V1|exact Kv2|]. intros v3 V3 LV3.
    apply safe_g. intros v4 V4 LV4. destruct (known_later _ _ _ _ (known_later _ _ _ _ Kv2 LV3) LV4) as (EC & _). rewrite EC.
    destruct (st_decomp _ _ _ _ _ _ _ _ _ _ _ (ST k)) as (d0 & ED & RD). rewrite ED. intros v5 V5 LV5. apply L_put. intros v6 V6 LV6.
    assert (LL : later true v2 v6). { eapply later_t; [exact LV3|]. eapply later_t; [exact LV4|]. eapply later_t; [exact LV5|exact LV6]. }
    assert (GR6 : grows v6 (upd_cell k (with_rdr (Some (reader_new d0 (off k + 1)))) v6)). { apply upd_grows. cbn. repeat split; apply more_refl. }
    split; [apply upd_good; [exact V6|]; destruct (V6 k) as (A1 & A2 & A3 & A4); unfold good_cell, with_rdr; cbn; auto|].
    split; [exact GR6|]. split; [discriminate|]. intros v7 V7 LV7.
    destruct LL as (LG & LS). specialize (LS eq_refl). destruct LV7 as (LG7 & LS7). specialize (LS7 eq_refl).
    assert (GRA : grows u v7). { eapply grows_trans; [exact GRv|]. eapply grows_trans; [apply LV1|]. eapply grows_trans; [|eapply grows_trans; [exact GR6|exact LG7]]. exact LG. }
    apply (GO v7 0); [exact V7|exact GRA| | | |lia].
    - eapply known_grows; [exact Kv2|]. eapply grows_trans; [exact LG|]. eapply grows_trans; [exact GR6|exact LG7].
    - apply ready_same with (2 := LS7). exists (reader_new d0 (off k + 1)). rewrite upd_same. split; [reflexivity|].
      assert (EP : sh_pos v6 = off k + 1). { destruct LS as (E & _). cbn in E. congruence. }
      cbn [sh_pos upd_cell]. rewrite EP. exact (new_inv dc (base k) (C k) (J k) (o k) (Rep k) (ends k) (CEk k) d0 RD).
    - apply others_same with (2 := LS7). intros j N r2 E2. rewrite upd_other in E2 by exact N. destruct LS as (_ & E). rewrite <- E in E2. cbn in E2.
      destruct LV1 as (_ & LV1). destruct (LV1 eq_refl) as (_ & E1). rewrite <- E1 in E2. exact (Qv j r2 E2). }
  apply safe_g. intros s3 G3 L3. assert (Q3 : quiet s3) by (eapply quiet_same; [exact Q2|]; apply L3; reflexivity).
  assert (K3 : known k s3) by (eapply known_later; eassumption). assert (GR3 : grows u s3) by (eapply grows_trans; [exact GR2|apply L3]).
  cbv zeta. destruct (ce_reader (sh_cell s3 k)) as [r|] eqn:ER; [|apply FRESH; assumption].
  destruct (Z.leb_spec (r_out r) q); [|apply FRESH; assumption].
  destruct (Q3 k r ER) as (p & RV). pose proof RV as (_ & Hout & _). cbn in Hout.
  apply safe_put. intros s4 G4 L4. split; [exact G4|]. split; [apply seek_grows|]. split; [discriminate|].
  destruct L4 as (LG4 & LS4). specialize (LS4 eq_refl). destruct LS4 as (EP4 & ER4).
  apply (GO _ p); [exact G4|eapply grows_trans; [exact GR3|exact LG4]|exact (known_grows _ _ _ K3 LG4)| | |lia].
  - exists r. split; [cbn; rewrite <- ER4; exact ER|]. exact RV.
  - intros j N r2 E2. cbn in E2. rewrite <- ER4 in E2. exact (Q3 j r2 E2).
Qed.

(** A single operation on the reader. *)
Lemma L_read_op : forall A k q (m : reader D -> res A * reader D) Y st u w (Q : bool -> shared D -> bytes -> res A -> Prop), good u ->
  0 <= q -> (q <= zlen (o k) \/ ends k = true) ->
  (forall r, rv k r (Z.min q (zlen (o k))) -> exists x r' p', m r = (x, r') /\ rv k r' p' /\
     forall s, good s -> grows u s -> known k s -> Q false s w x) ->
  safe Y st false u w (p_reader dc new_decomp f off k q (on_reader k m)) Q.
Proof.
  intros A k q m Y st u w Q G Hq HE H. apply L_reader; [exact G|exact Hq|exact HE|]. intros s Gs GR K R OR.
  apply L_on_reader with (p := Z.min q (zlen (o k))); [exact R|exact OR|]. intros r RV. destruct (H r RV) as (x & r' & p' & E & RV' & HQ).
  exists x, r', p'. split; [exact E|]. split; [exact RV'|]. intros s2 G2 GR2 R2 O2. split; [reflexivity|]. split; [eapply ready_quiet; eassumption|].
  intros s' G' GR'. apply HQ; [exact G'| |].
  - eapply grows_trans; [exact GR|]. eapply grows_trans; eassumption.
  - eapply known_grows; [exact K|]. eapply grows_trans; eassumption.
Qed.

(** ** Offsets *)
Lemma L_plain_offsets : forall k ns Y st u w (Q : bool -> shared D -> bytes -> res (list Z) -> Prop), good u ->
  (forall s, good s -> grows u s -> known k s -> Q false s w (Ok (select_offsets 0 ns (ps k)))) ->
  safe Y st false u w (p_plain_offsets dc new_decomp f fuel off k ns) Q.
Proof.
  intros k ns Y st u w Q G H. unfold p_plain_offsets. apply safe_b; [exact G|]. apply L_info; [exact G|]. intros s1 G1 L1 K1.
  apply safe_b; [exact G1|]. apply L_psize; [exact K1|]. intros s2 G2 L2.
  assert (K2 : known k s2) by (eapply known_later; eassumption). assert (GR2 : grows u s2) by (eapply grows_trans; [apply L1|apply L2]).
  assert (GEN : forall last, match ns with None => last = None | Some l => exists m, last = Some m /\ forall x, In x l -> x <= m end ->
    safe Y st false s2 w (p_reader dc new_decomp f off k 0 (on_reader k (fun r => offsets_loop dc f fuel (P k) ns last None 0 0 r))) Q).
  { intros last HL. apply L_read_op; [exact G2|lia|left; apply zlen_nonneg|]. intros r RV. rewrite Z.min_l in RV by apply zlen_nonneg.
    destruct (loop_k k fuel 0 ns last r) as (r' & p' & E & I' & _); [rewrite Z.mul_0_r; exact RV|lia| |exact HL|].
    - pose proof (FU k) as F. assert (PL : zlen (ps k) = zlen (blobs k) + 1) by apply positions_len. pose proof (o_len_k k) as OL. pose proof (Ppos k). pose proof (zlen_nonneg (concat (blobs k))). pose proof (zlen_nonneg (tail k)).
      pose proof (zlen_nonneg (blobs k)). unfold zlen at 1 in PL. nia.
    - cbn [Nat.eqb] in E. rewrite Z.mul_0_r in E. change (Z.of_nat 0) with 0 in E. cbn [skipn] in E. eexists _, r', p'. split; [exact E|]. split; [exact I'|].
      intros s Gs GR K. apply H; [exact Gs|eapply grows_trans; eassumption|exact K]. }
  destruct ns as [[|a l]|].
  - intros s3 G3 L3. pose proof (H s3 G3) as HH. assert (E : select_offsets 0 (Some []) (ps k) = []). { apply select_none_after. intros x []. }
    rewrite E in HH. apply HH; [eapply grows_trans; [exact GR2|apply L3]|eapply known_later; eassumption].
  - apply GEN. eexists. split; [reflexivity|]. intros x Hx. apply zmax_ge. exact Hx.
  - apply GEN. reflexivity.
Qed.

Lemma L_remember : forall k Y st u w (Q : bool -> shared D -> bytes -> res unit -> Prop), good u -> kind k <> KPlain ->
  (forall s, good s -> grows u s -> known k s -> ce_offsets (sh_cell s k) = Some (ps k) -> Q false s w (Ok tt)) ->
  safe Y st false u w (p_remember dc new_decomp f fuel off k) Q.
Proof.
  intros k Y st u w Q G K H. unfold p_remember. apply safe_g. intros s1 G1 L1.
  assert (ST1 : forall a s, ce_offsets (sh_cell a k) = Some (ps k) -> good s -> grows u a -> grows a s -> Q false s w (Ok tt)).
  { intros a s E Gs GA GR. assert (E2 : ce_offsets (sh_cell s k) = Some (ps k)). { destruct (GR k) as (_ & _ & [X|X] & _); congruence. }
    apply H; [exact Gs|eapply grows_trans; eassumption| |exact E2]. destruct (Gs k) as (_ & _ & [X|(_ & _ & X1 & X2)] & _); [congruence|]. split; assumption. }
  destruct (ce_offsets (sh_cell s1 k)) as [l|] eqn:EO.
  - intros s2 G2 L2. apply (ST1 s1); [|exact G2|apply L1|apply L2]. destruct (G1 k) as (_ & _ & [X|(X & _)] & _); congruence.
  - apply safe_b; [exact G1|]. apply L_plain_offsets; [exact G1|]. intros s2 G2 GR2 K2. apply L_put. intros s3 G3 L3.
    rewrite select_all. set (s4 := upd_cell k (with_offs (Some (ps k))) s3). destruct (known_later _ _ _ _ K2 L3) as (KC & KE). pose proof (G3 k) as (A1 & A2 & A3 & A4).
    assert (GR4 : grows s3 s4). { apply upd_grows. cbn. repeat split; try apply more_refl. destruct A3 as [A3|(A3 & _)]; [left|right]; exact A3. }
    split; [apply upd_good; [exact G3|]; unfold good_cell, with_offs; cbn; intuition|].
    split; [exact GR4|]. split; [intros _; apply upd_keeps; reflexivity|].
    intros s5 G5 L5. apply (ST1 s4); [unfold s4; rewrite upd_same; reflexivity|exact G5| |apply L5].
    eapply grows_trans; [apply L1|]. eapply grows_trans; [exact GR2|]. eapply grows_trans; [apply L3|exact GR4].
Qed.

Lemma L_offsets : forall k ns Y st u w (Q : bool -> shared D -> bytes -> res (list Z) -> Prop), good u ->
  (forall s, good s -> grows u s -> known k s -> Q false s w (Ok (select_offsets 0 ns (ps k)))) ->
  safe Y st false u w (p_offsets dc new_decomp f fuel kind off k ns) Q.
Proof.
  intros k ns Y st u w Q G H. unfold p_offsets.
  assert (R : kind k <> KPlain -> safe Y st false u w (let! _ := p_remember dc new_decomp f fuel off k in
      let! l := get (fun s => ce_offsets (sh_cell s k)) in
      match l with Some l => pret (select_offsets 0 ns l) | None => praise TypeError end) Q).
  { intro K. apply safe_b; [exact G|]. apply L_remember; [exact G|exact K|]. intros s1 G1 GR1 K1 E1. apply safe_g. intros s2 G2 L2.
    assert (E2 : ce_offsets (sh_cell s2 k) = Some (ps k)). { destruct L2 as (L2 & _). destruct (L2 k) as (_ & _ & [X|X] & _); congruence. }
    rewrite E2. intros s3 G3 L3. apply H; [exact G3| |eapply known_later; [eapply known_later; eassumption|exact L3]].
    eapply grows_trans; [exact GR1|]. eapply grows_trans; [apply L2|apply L3]. }
  destruct (kind k) eqn:K.
  - apply L_plain_offsets; assumption.
  - apply R. discriminate.
  - apply R. discriminate.
Qed.
Ltac gt := repeat (first [assumption | eapply grows_trans; [eassumption|]]).

Lemma L_offset : forall k i Y st u w (Q : bool -> shared D -> bytes -> res Z -> Prop), good u -> 0 <= i ->
  (forall s, good s -> grows u s -> known k s -> Q false s w (match znth (ps k) i with Some x => Ok x | None => Err IndexError end)) ->
  safe Y st false u w (p_offset dc new_decomp f fuel kind off k i) Q.
Proof.
  intros k i Y st u w Q G Hi H. unfold p_offset. destruct (Z.ltb_spec i 0); [lia|]. apply safe_b; [exact G|]. apply L_offsets; [exact G|].
  intros s1 G1 GR1 K1. rewrite select_one by lia. destruct (Z.ltb_spec i 0); [lia|]. rewrite Z.sub_0_r.
  destruct (znth (ps k) i) as [x|]; intros s2 G2 L2; apply H; auto; try (eapply grows_trans; [exact GR1|apply L2]); eapply known_later; eassumption.
Qed.

Lemma L_offset_count : forall k Y st u w (Q : bool -> shared D -> bytes -> res Z -> Prop), good u ->
  (forall s, good s -> grows u s -> known k s -> Q false s w (Ok (zlen (blobs k) + 1))) ->
  safe Y st false u w (p_offset_count dc new_decomp f fuel kind off k) Q.
Proof.
  intros k Y st u w Q G H. unfold p_offset_count. apply safe_b; [exact G|]. apply L_offset; [exact G|lia|]. intros s1 G1 GR1 K1.
  pose proof (zlen_nonneg (blobs k)). rewrite (znth_k k) by lia. apply safe_b; [exact G1|]. apply L_psize; [exact K1|]. intros s2 G2 L2.
  intros s3 G3 L3. assert (E : (P k * (zlen (blobs k) + 1) + zlen (concat (firstn (Z.to_nat 0) (blobs k)))) / P k = zlen (blobs k) + 1).
  { cbn. change (zlen (@nil byte)) with 0. rewrite Z.add_0_r, Z.mul_comm. apply Z.div_mul. pose proof (Ppos k). lia. }
  rewrite E. apply H; [exact G3| |eapply known_later; [eapply known_later; eassumption|exact L3]].
  eapply grows_trans; [exact GR1|]. eapply grows_trans; [apply L2|apply L3].
Qed.

(** The last offset. *)
Lemma L_last_offset : forall k Y st u w (Q : bool -> shared D -> bytes -> res Z -> Prop), good u ->
  (forall s, good s -> grows u s -> known k s -> Q false s w (Ok (zlen (cluster_data (ext k) (blobs k))))) ->
  safe Y st false u w (p_offset dc new_decomp f fuel kind off k (zlen (blobs k) + 1 - 1)) Q.
Proof.
  intros k Y st u w Q G H. pose proof (zlen_nonneg (blobs k)). apply L_offset; [exact G|lia|]. intros s1 G1 GR1 K1. rewrite (znth_k k) by lia.
  replace (zlen (blobs k) + 1 - 1) with (zlen (blobs k)) by lia.
  replace (firstn (Z.to_nat (zlen (blobs k))) (blobs k)) with (blobs k) by (unfold zlen; rewrite Nat2Z.id, firstn_all; reflexivity).
  rewrite <- data_len. apply H; assumption.
Qed.

Lemma L_blob_count : forall k Y st u w (Q : bool -> shared D -> bytes -> res Z -> Prop), good u ->
  (forall s, good s -> grows u s -> known k s -> Q false s w (Ok (zlen (blobs k)))) ->
  safe Y st false u w (p_blob_count dc new_decomp f fuel kind off k) Q.
Proof.
  intros k Y st u w Q G H. unfold p_blob_count. apply safe_b; [exact G|]. apply L_offset_count; [exact G|]. intros s1 G1 GR1 K1 s2 G2 L2.
  replace (zlen (blobs k) + 1 - 1) with (zlen (blobs k)) by lia. apply H; [exact G2|eapply grows_trans; [exact GR1|apply L2]|eapply known_later; eassumption].
Qed.
Lemma L_content_size : forall k Y st u w (Q : bool -> shared D -> bytes -> res Z -> Prop), good u ->
  (forall s, good s -> grows u s -> known k s -> Q false s w (Ok (zlen (concat (blobs k))))) ->
  safe Y st false u w (p_content_size dc new_decomp f fuel kind off k) Q.
Proof.
  intros k Y st u w Q G H. unfold p_content_size. pose proof (zlen_nonneg (blobs k)). apply safe_b; [exact G|]. apply L_offset; [exact G|lia|]. intros s1 G1 GR1 K1.
  rewrite (znth_k k) by lia. apply safe_b; [exact G1|]. apply L_offset_count; [exact G1|]. intros s2 G2 GR2 K2.
  apply safe_b; [exact G2|]. apply L_last_offset; [exact G2|]. intros s3 G3 GR3 K3 s4 G4 L4.
  assert (E : zlen (cluster_data (ext k) (blobs k)) - (P k * (zlen (blobs k) + 1) + zlen (concat (firstn (Z.to_nat 0) (blobs k)))) = zlen (concat (blobs k))).
  { rewrite data_len. cbn. change (zlen (@nil byte)) with 0. lia. }
  rewrite E. apply H; [exact G4| |eapply known_later; eassumption]. destruct L4. gt.
Qed.
Lemma L_decompressed_size : forall k Y st u w (Q : bool -> shared D -> bytes -> res Z -> Prop), good u ->
  (forall s, good s -> grows u s -> known k s -> Q false s w (Ok (zlen (cluster_data (ext k) (blobs k))))) ->
  safe Y st false u w (p_decompressed_size dc new_decomp f fuel kind off k) Q.
Proof.
  intros k Y st u w Q G H. unfold p_decompressed_size. apply safe_b; [exact G|]. apply L_offset_count; [exact G|]. intros s1 G1 GR1 K1.
  apply L_last_offset; [exact G1|]. intros s2 G2 GR2 K2. apply H; auto. gt.
Qed.
Lemma L_offsets_size : forall k Y st u w (Q : bool -> shared D -> bytes -> res Z -> Prop), good u ->
  (forall s, good s -> grows u s -> known k s -> Q false s w (Ok (P k * (zlen (blobs k) + 1)))) ->
  safe Y st false u w (p_offsets_size dc new_decomp f fuel kind off k) Q.
Proof.
  intros k Y st u w Q G H. unfold p_offsets_size. apply safe_b; [exact G|]. apply L_offset_count; [exact G|]. intros s1 G1 GR1 K1.
  apply safe_b; [exact G1|]. apply L_psize; [exact K1|]. intros s2 G2 L2 s3 G3 L3. rewrite (Z.mul_comm (zlen (blobs k) + 1)).
  apply H; [exact G3| |eapply known_later; [eapply known_later; eassumption|exact L3]]. destruct L2, L3. gt.
Qed.
Lemma L_compressed_size : forall k Y st u w (Q : bool -> shared D -> bytes -> res Z -> Prop), good u -> (ct k = NONE \/ ends k = true) ->
  (forall s, good s -> grows u s -> known k s -> Q false s w (Ok (1 + if ctype_eqb (ct k) NONE then zlen (cluster_data (ext k) (blobs k)) else zlen (C k)))) ->
  safe Y st false u w (p_compressed_size dc new_decomp f fuel kind off k) Q.
Proof.
  intros k Y st u w Q G HE H. unfold p_compressed_size. apply safe_b; [exact G|]. apply L_info; [exact G|]. intros s1 G1 L1 K1.
  apply safe_g. intros s2 G2 L2. destruct (known_later _ _ _ _ K1 L2) as (EC & EX). rewrite EC.
  assert (GR2 : grows u s2) by (eapply grows_trans; [apply L1|apply L2]).
  destruct (ctype_eqb (ct k) NONE) eqn:EQ.
  - apply safe_b; [exact G2|]. apply L_decompressed_size; [exact G2|]. intros s3 G3 GR3 K3 s4 G4 L4. rewrite Z.add_comm.
    apply H; [exact G4| |eapply known_later; eassumption]. destruct L4. gt.
  - destruct HE as [HE|HE]; [rewrite HE in EQ; discriminate|].
    apply L_read_op; [exact G2|lia|left; apply zlen_nonneg|]. intros r RV. rewrite Z.min_l in RV by apply zlen_nonneg.
    destruct (iter_k k fuel (-1) 4096 0 r 0 RV) as (l & r' & E & _ & _ & I' & EOF); [lia|lia|lia|right; exact HE|pose proof (FU k); lia|].
    unfold iter_read. change (0 <? 4096) with true. cbv iota. rewrite E. specialize (EOF ltac:(lia)).
    unfold total_compressed_size. rewrite EOF. pose proof I' as (_ & _ & _ & cc & v & o' & Ha & Hr & _).
    destruct (ce_eof _ _ _ (CEk k HE) _ _ _ _ Hr EOF) as (-> & -> & _).
    destruct Ha as (Cf & Jr & HC & _ & EQ1 & _). rewrite app_nil_r in HC. subst Cf.
    eexists _, r', _. split; [reflexivity|]. split; [exact I'|]. intros s3 G3 GR3 K3.
    replace (r_in r' - zlen v + 1) with (1 + zlen (C k)) by lia. apply H; auto. gt.
Qed.

(** ** Blobs *)
Lemma L_two : forall k i Y st u w (Q : bool -> shared D -> bytes -> res (list Z) -> Prop), good u -> 0 <= i ->
  (forall s, good s -> grows u s -> known k s -> Q false s w (Ok (match znth (blobs k) i with
     | Some b => [blob_at (ext k) (blobs k) i; blob_at (ext k) (blobs k) i + zlen b]
     | None => match znth (ps k) i with Some a => [a] | None => [] end end))) ->
  safe Y st false u w (p_offsets dc new_decomp f fuel kind off k (Some [i; i + 1])) Q.
Proof.
  intros k i Y st u w Q G Hi H. apply L_offsets; [exact G|]. intros s Gs GR K. rewrite (two_k k) by exact Hi. apply H; assumption.
Qed.

Lemma L_blob_size : forall k i Y st u w (Q : bool -> shared D -> bytes -> res Z -> Prop), good u -> 0 <= i ->
  (forall s, good s -> grows u s -> known k s -> Q false s w (match znth (blobs k) i with Some b => Ok (zlen b) | None => Err BlobNotFound end)) ->
  safe Y st false u w (p_blob_size dc new_decomp f fuel kind off k i) Q.
Proof.
  intros k i Y st u w Q G Hi H. unfold p_blob_size. destruct (Z.ltb_spec i 0); [lia|]. apply safe_b; [exact G|]. apply L_two; [exact G|exact Hi|]. intros s1 G1 GR1 K1.
  assert (FIN : forall s2, good s2 -> later false s1 s2 -> Q false s2 w (match znth (blobs k) i with Some b => Ok (zlen b) | None => Err BlobNotFound end)).
  { intros s2 G2 L2. apply H; [exact G2|eapply grows_trans; [exact GR1|apply L2]|eapply known_later; eassumption]. }
  destruct (znth (blobs k) i) as [b|].
  - intros s2 G2 L2. replace (blob_at (ext k) (blobs k) i + zlen b - blob_at (ext k) (blobs k) i) with (zlen b) by lia. apply FIN; assumption.
  - destruct (znth (ps k) i); intros s2 G2 L2; apply FIN; assumption.
Qed.

Lemma data_le : forall k, zlen (cluster_data (ext k) (blobs k)) <= zlen (o k).
Proof. intro k. rewrite zlen_app. pose proof (zlen_nonneg (tail k)). lia. Qed.

Lemma L_plain_read : forall k i s e Y st u w (Q : bool -> shared D -> bytes -> res bytes -> Prop), good u ->
  0 <= i -> sensible_range s e -> (starts_inside (blobs k) i s \/ ends k = true) ->
  (forall v, good v -> grows u v -> known k v -> Q false v w (match znth (blobs k) i with Some b => Ok (part s e b) | None => Err BlobNotFound end)) ->
  safe Y st false u w (p_plain_read dc new_decomp f fuel kind off k i s e) Q.
Proof.
  intros k i s e Y st u w Q G Hi R HE H. unfold p_plain_read. destruct (Z.ltb_spec i 0); [lia|]. rewrite (range_k k _ _ R). cbn [orb negb].
  apply safe_b; [exact G|]. apply L_two; [exact G|exact Hi|]. intros s1 G1 GR1 K1.
  assert (FIN : forall s2, good s2 -> later false s1 s2 -> Q false s2 w (match znth (blobs k) i with Some b => Ok (part s e b) | None => Err BlobNotFound end)).
  { intros s2 G2 L2. apply H; [exact G2|eapply grows_trans; [exact GR1|apply L2]|eapply known_later; eassumption]. }
  destruct (znth (blobs k) i) as [b|] eqn:HB1; [|destruct (znth (ps k) i); intros s2 G2 L2; apply FIN; assumption].
  destruct (inside_k k i b HB1) as (_ & Ha & Hb).
  destruct (nothing_to_read s e (blob_at (ext k) (blobs k) i + zlen b)) eqn:NT.
  - intros s2 G2 L2. specialize (FIN s2 G2 L2). rewrite (nothing_k k s e b (blob_at (ext k) (blobs k) i + zlen b) R) in FIN by (exact NT || lia). exact FIN.
  - destruct (abs_range s e (blob_at (ext k) (blobs k) i) (blob_at (ext k) (blobs k) i + zlen b)) as [x y] eqn:EA.
    destruct (part_k k i b s e HB1 R x y EA) as (Hx & Hy & HP & HI).
    assert (HI' : starts_inside (blobs k) i s -> x <= y) by (intro; apply HI; auto).
    pose proof (data_le k) as LO.
    apply L_read_op; [exact G1|lia| |].
    { destruct HE as [HE|HE]; [left; specialize (HI' HE); lia|right; exact HE]. }
    intros r HR. destruct (Z.le_gt_cases x (zlen (o k))) as [L|L].
    + rewrite Z.min_l in HR by exact L.
      destruct (read_n_k k (y - x) r _ HR) as (r' & ER & I'); [destruct (Z.le_gt_cases x y); [left; lia|]|].
      { destruct HE as [HE|HE]; [specialize (HI' HE); lia|right; exact HE]. }
      exists (Ok (zsub x (y - x) (o k))), r'. eexists. split; [exact ER|]. split; [exact I'|]. intros s2 G2 GR2 K2.
      replace (zsub x (y - x) (o k)) with (part s e b); [apply FIN; [exact G2|split; [exact GR2|discriminate]]|]. rewrite HP.
      replace x with (blob_at (ext k) (blobs k) i + (x - blob_at (ext k) (blobs k) i)) at 3 by lia. symmetry. apply (bytes_k k) with (1 := HB1); lia.
    + exists (Ok []), r. eexists. split; [|split; [exact HR|]].
      * unfold read_n. replace (Z.to_nat (y - x) + 2)%nat with 2%nat by lia. cbn [read_n_loop]. destruct (Z.ltb_spec (zlen (@nil byte)) (y - x)); [|reflexivity].
        change (zlen (@nil byte)) with 0 in *. lia.
      * intros s2 G2 GR2 K2. replace (@nil byte) with (part s e b); [apply FIN; [exact G2|split; [exact GR2|discriminate]]|]. rewrite HP. apply zsub_zero. lia.
Qed.

(** ** Data in memory *)
Lemma L_load : forall k Y st u w (Q : bool -> shared D -> bytes -> res unit -> Prop), good u -> kind k = KInMemory ->
  (forall s, good s -> grows u s -> ce_data (sh_cell s k) = Some (concat (blobs k)) -> Q false s w (Ok tt)) ->
  safe Y st false u w (p_load dc new_decomp f fuel kind off k) Q.
Proof.
  intros k Y st u w Q G K H. unfold p_load. apply safe_g. intros s1 G1 L1.
  assert (FIN : forall a s, ce_data (sh_cell a k) = Some (concat (blobs k)) -> good s -> grows u a -> grows a s -> Q false s w (Ok tt)).
  { intros a s E Gs GA GR. apply H; [exact Gs|eapply grows_trans; eassumption|]. destruct (GR k) as (_ & _ & _ & [X|X]); congruence. }
  destruct L1 as (GR1 & _). destruct (ce_data (sh_cell s1 k)) as [d|] eqn:ED.
  - intros s2 G2 L2. apply (FIN s1); [|exact G2|exact GR1|apply L2]. destruct (G1 k) as (_ & _ & _ & [X|(X & _)]); congruence.
  - apply safe_b; [exact G1|]. apply L_info; [exact G1|]. intros s2 G2 (GR2 & _) K2.
    apply safe_b; [exact G2|]. apply L_remember; [exact G2|congruence|]. intros s3 G3 GR3 K3 _.
    apply safe_b; [exact G3|]. apply L_content_size; [exact G3|]. intros s4 G4 GR4 K4.
    apply safe_b; [exact G4|]. apply L_offset; [exact G4|lia|]. intros s5 G5 GR5 K5.
    pose proof (zlen_nonneg (blobs k)). rewrite (znth_k k) by lia. cbn [firstn concat Z.to_nat]. change (zlen (@nil byte)) with 0. rewrite Z.add_0_r.
    pose proof (Ppos k). pose proof (data_len (ext k) (blobs k)) as DL. pose proof (zlen_nonneg (concat (blobs k))). pose proof (data_le k) as LO.
    apply L_reader; [exact G5|nia|left; lia|]. intros s6 G6 GR6 K6 R6 O6. rewrite Z.min_l in R6 by lia.
    apply safe_b; [exact G6|]. eapply L_on_reader; [exact R6|exact O6|]. intros r RV.
    destruct (read_n_k k (zlen (concat (blobs k))) r _ RV) as (r' & ER & I'); [left; lia|].
    eexists _, r', _. split; [exact ER|]. split; [exact I'|]. intros s7 G7 GR7 R7 O7.
    assert (E : zsub (P k * (zlen (blobs k) + 1)) (zlen (concat (blobs k))) (o k) = concat (blobs k)).
    { unfold cluster_data, zsub. rewrite <- app_assoc. rewrite zskip_app_exact; [apply ztake_app_exact; reflexivity|].
      rewrite enc_len, <- ptr_size_bytes. unfold positions. rewrite positions_len. reflexivity. }
    rewrite E. apply L_put. intros s8 G8 (GR8 & S8). specialize (S8 eq_refl). pose proof (G8 k) as (A1 & A2 & A3 & A4).
    set (s9 := upd_cell k (with_data (Some (concat (blobs k)))) s8).
    assert (GR9 : grows s8 s9). { apply upd_grows. cbn. repeat split; try apply more_refl. destruct A4 as [A4|(A4 & _)]; [left|right]; exact A4. }
    assert (S9 : same s8 s9) by (apply upd_keeps; reflexivity).
    split; [apply upd_good; [exact G8|]; unfold good_cell, with_data; cbn; intuition|].
    split; [exact GR9|]. split; [discriminate|]. intros s10 G10 (GR10 & S10). specialize (S10 eq_refl). split; [reflexivity|].
    assert (S : same s7 s10) by (eapply same_trans; [exact S8|eapply same_trans; [exact S9|exact S10]]).
    split; [eapply ready_quiet; [eapply ready_same; eassumption|eapply others_same; eassumption]|].
    intros s' G' GR'. apply (FIN s9); [unfold s9; rewrite upd_same; reflexivity|exact G'| |]; gt.
Qed.

Lemma L_slice : forall k a b Y st h u w (Q : bool -> shared D -> bytes -> res bytes -> Prop), ce_data (sh_cell u k) = Some (concat (blobs k)) ->
  (forall s, good s -> later h u s -> Q h s w (Ok (py_slice a b (concat (blobs k))))) -> safe Y st h u w (p_slice k a b) Q.
Proof.
  intros k a b Y st h u w Q E H. unfold p_slice. apply safe_g. intros s1 G1 L1.
  assert (E1 : ce_data (sh_cell s1 k) = Some (concat (blobs k))). { destruct L1 as (L1 & _). destruct (L1 k) as (_ & _ & _ & [X|X]); congruence. }
  rewrite E1. intros s2 G2 L2. apply H; [exact G2|eapply later_t; eassumption].
Qed.

Lemma data_grows : forall k a b, ce_data (sh_cell a k) = Some (concat (blobs k)) -> grows a b -> ce_data (sh_cell b k) = Some (concat (blobs k)).
Proof. intros k a b E GR. destruct (GR k) as (_ & _ & _ & [X|X]); congruence. Qed.

Lemma L_mem_read : forall k i s e Y st u w (Q : bool -> shared D -> bytes -> res bytes -> Prop), good u -> kind k = KInMemory ->
  0 <= i -> sensible_range s e ->
  (forall v, good v -> grows u v -> Q false v w (match znth (blobs k) i with Some b => Ok (part s e b) | None => Err BlobNotFound end)) ->
  safe Y st false u w (p_mem_read dc new_decomp f fuel kind off k i s e) Q.
Proof.
  intros k i s e Y st u w Q G K Hi R H. unfold p_mem_read. destruct (Z.ltb_spec i 0); [lia|].
  apply safe_b; [exact G|]. apply L_load; [exact G|exact K|]. intros s0 G0 GR0 D0.
  apply safe_b; [exact G0|]. apply L_two; [exact G0|exact Hi|]. intros s1 G1 GR1 K1.
  assert (FIN : forall s2, good s2 -> grows s1 s2 -> Q false s2 w (match znth (blobs k) i with Some b => Ok (part s e b) | None => Err BlobNotFound end)).
  { intros s2 G2 L2. apply H; [exact G2|]. gt. }
  destruct (znth (blobs k) i) as [b|] eqn:HB1; [|destruct (znth (ps k) i); intros s2 G2 (L2 & _); apply FIN; assumption].
  destruct (inside_k k i b HB1) as (_ & Ha & Hb).
  destruct (nothing_to_read s e (blob_at (ext k) (blobs k) i + zlen b)) eqn:NT.
  - intros s2 G2 (L2 & _). specialize (FIN s2 G2 L2). rewrite (nothing_k k s e b (blob_at (ext k) (blobs k) i + zlen b) R) in FIN by (exact NT || lia). exact FIN.
  - pose proof (range_ge_k k s e (blob_at (ext k) (blobs k) i) (blob_at (ext k) (blobs k) i + zlen b) R) as GE. pose proof (zlen_nonneg b).
    destruct (abs_range s e (blob_at (ext k) (blobs k) i) (blob_at (ext k) (blobs k) i + zlen b)) as [x y] eqn:EA.
    destruct (part_k k i b s e HB1 R x y EA) as (Hx & Hy & HP & HI). cbn [fst snd] in GE.
    apply safe_b; [exact G1|]. apply L_offsets_size; [exact G1|]. intros s2 G2 GR2 K2.
    apply L_slice; [eapply data_grows; [exact D0|gt]|]. intros s3 G3 (GR3 & _).
    pose proof (at_ge_k k i). rewrite py_slice_pos by lia.
    replace (zsub (x - P k * (zlen (blobs k) + 1)) (y - P k * (zlen (blobs k) + 1) - (x - P k * (zlen (blobs k) + 1))) (concat (blobs k))) with (part s e b); [apply FIN; [exact G3|gt]|].
    rewrite HP. replace (y - P k * (zlen (blobs k) + 1) - (x - P k * (zlen (blobs k) + 1))) with (y - x) by lia.
    replace (x - P k * (zlen (blobs k) + 1)) with (blob_at (ext k) (blobs k) i - P k * (zlen (blobs k) + 1) + (x - blob_at (ext k) (blobs k) i)) by lia.
    symmetry. apply (content_k k); [exact HB1|lia|lia].
Qed.
(** ** Generators *)
Definition chunks (mem : bool) (n : Z) (h : bool) (x w : bytes) : Prop := (mem = true -> h = false) /\ zlen x <= n /\ (x = [] -> w = []).

Lemma L_iter_loop : forall n k size bs rd u w (Q : bool -> shared D -> bytes -> res unit -> Prop) p, good u -> ready k p u -> others_rest k u ->
  1 <= bs -> 0 <= rd <= size -> p + (size - rd) <= zlen (o k) -> w = zsub p (size - rd) (o k) -> zlen (o k) - p + 2 <= Z.of_nat n ->
  (forall s, good s -> grows u s -> quiet s -> Q true s [] (Ok tt)) ->
  safe (chunks false bs) false true u w (p_iter_loop dc f n k size bs rd) Q.
Proof.
  induction n as [|n IH]; intros k size bs rd u w Q p G R O Hb Hr Hp Ew Hn H; pose proof R as (r0 & _ & ((Hp0 & Hp1) & _)); [lia|].
  cbn [p_iter_loop]. destruct (Z.leb_spec 0 size) as [_|]; [|lia]. cbn [andb]. destruct (Z.leb_spec size rd) as [L|L].
  - intros s Gs (GR & S). specialize (S eq_refl). rewrite Ew, zsub_zero by lia. apply H; [exact Gs|exact GR|].
    eapply quiet_same; [eapply ready_quiet; eassumption|exact S].
  - apply safe_b; [exact G|]. eapply L_on_reader; [exact R|exact O|]. intros r RV.
    destruct (read_k k (Z.min bs (size - rd)) 0 r p RV) as (m & r' & ER & I' & Hm & Hm2 & Hm3 & _); [lia|lia|left; lia|].
    exists (Ok (zsub p m (o k))), r', (p + m). split; [exact ER|]. split; [exact I'|]. intros s1 G1 GR1 R1 O1.
    assert (LK : zlen (zsub p m (o k)) = m) by (apply zsub_len; lia). assert (NM : m <> 0) by lia.
    destruct (zsub p m (o k)) as [|b x] eqn:EX; [rewrite zlen_nil in LK; lia|]. rewrite <- EX in *.
    assert (NE : zsub p m (o k) <> []) by (rewrite EX; discriminate).
    cbn [ThreadsProofs.safe]. split; [reflexivity|]. exists (zsub (p + m) (size - (rd + m)) (o k)).
    split; [rewrite Ew; replace (size - rd) with (m + (size - (rd + m))) by lia; rewrite zsub_add by lia; reflexivity|].
    split; [split; [discriminate|]; split; [lia|intro; contradiction]|].
    intros s2 G2 (GR2 & S2). specialize (S2 eq_refl). assert (R2 : ready k (p + m) s2) by (eapply ready_same; eassumption).
    assert (O2 : others_rest k s2) by (eapply others_same; eassumption). split; [intros _; eapply ready_quiet; eassumption|].
    rewrite LK. apply (IH k size bs (rd + m) s2 _ Q (p + m)); try assumption; try lia; [reflexivity|].
    intros s3 G3 GR3 Q3. apply H; [exact G3| |exact Q3]. gt.
Qed.

Notation ended_as k i := (fun (h : bool) (_ : shared D) (w : bytes) (r : res unit) => h = false /\ w = [] /\ r = match znth (blobs k) i with Some _ => Ok tt | None => Err BlobNotFound end).
Notation left k i s e := (match znth (blobs k) i with Some b => part s e b | None => [] end).
Notation handed k i mem n := (match znth (blobs k) i with Some _ => chunks mem n | None => fun _ _ _ => False end).

Lemma L_plain_iter : forall k i n s e u, good u -> 0 <= i -> 1 <= n -> sensible_range s e -> starts_inside (blobs k) i s ->
  safe (handed k i false n) true false u (left k i s e) (p_plain_iter dc new_decomp f fuel kind off k i n s e) (ended_as k i).
Proof.
  intros k i n s e u G Hi Hn R HE. unfold p_plain_iter. destruct (Z.leb_spec n 0); [lia|]. destruct (Z.ltb_spec i 0); [lia|]. rewrite (range_k k _ _ R). cbn [orb negb].
  apply safe_b; [exact G|]. apply L_two; [exact G|exact Hi|]. intros s1 G1 GR1 K1.
  destruct (znth (blobs k) i) as [b|] eqn:HB1; [|destruct (znth (ps k) i); intros s2 G2 L2; auto].
  destruct (inside_k k i b HB1) as (_ & Ha & Hb).
  destruct (nothing_to_read s e (blob_at (ext k) (blobs k) i + zlen b)) eqn:NT.
  - rewrite (nothing_k k s e b (blob_at (ext k) (blobs k) i + zlen b) R) by (exact NT || lia).
    cbn [ThreadsProofs.safe]. split; [reflexivity|]. exists []. split; [reflexivity|]. split; [split; [discriminate|]; split; [change (zlen (@nil byte)) with 0; lia|reflexivity]|].
    intros s2 G2 L2. split; [discriminate|]. intros s3 G3 L3. auto.
  - destruct (abs_range s e (blob_at (ext k) (blobs k) i) (blob_at (ext k) (blobs k) i + zlen b)) as [x y] eqn:EA.
    destruct (part_k k i b s e HB1 R x y EA) as (Hx & Hy & HP & HI). specialize (HI HE ltac:(auto)). pose proof (data_le k) as LO.
    apply L_reader; [exact G1|lia|left; lia|]. intros s2 G2 GR2 K2 R2 O2. rewrite Z.min_l in R2 by lia.
    eapply L_iter_loop; [exact G2|exact R2|exact O2|exact Hn|lia|lia| |pose proof (FU k); lia|].
    + rewrite HP, Z.sub_0_r. replace x with (blob_at (ext k) (blobs k) i + (x - blob_at (ext k) (blobs k) i)) at 3 by lia. symmetry. apply (bytes_k k) with (1 := HB1); lia.
    + intros s3 G3 GR3 Q3. auto.
Qed.

Lemma L_mem_loop : forall n k bs cur stop u w, good u -> ce_data (sh_cell u k) = Some (concat (blobs k)) ->
  1 <= bs -> 0 <= cur -> Z.max 0 (stop - cur) < Z.of_nat n -> stop <= zlen (concat (blobs k)) -> w = zsub cur (stop - cur) (concat (blobs k)) ->
  safe (chunks true bs) true false u w (p_mem_loop n k bs cur stop) (fun h _ w r => h = false /\ w = [] /\ r = Ok tt).
Proof.
  induction n as [|n IH]; intros k bs cur stop u w G DT Hb Hc Hn Hs Ew; [lia|]. cbn [p_mem_loop]. destruct (Z.ltb_spec cur stop).
  - apply safe_b; [exact G|]. apply L_slice; [exact DT|]. intros s1 G1 (GR1 & _). rewrite py_slice_pos by lia.
    cbn [ThreadsProofs.safe]. split; [reflexivity|]. exists (zsub (Z.min (cur + bs) stop) (stop - Z.min (cur + bs) stop) (concat (blobs k))).
    assert (LK : zlen (zsub cur (Z.min (cur + bs) stop - cur) (concat (blobs k))) = Z.min (cur + bs) stop - cur) by (apply zsub_len; lia).
    split; [|split].
    + rewrite Ew. replace (stop - cur) with ((Z.min (cur + bs) stop - cur) + (stop - Z.min (cur + bs) stop)) at 1 by lia.
      rewrite zsub_add by lia. f_equal. f_equal. lia.
    + split; [reflexivity|]. split; [lia|]. intro E. rewrite E, zlen_nil in LK. lia.
    + intros s2 G2 (GR2 & _). split; [discriminate|]. apply IH; try assumption; try lia; [|reflexivity]. eapply data_grows; [exact DT|gt].
  - intros s1 G1 L1. rewrite Ew, zsub_zero by lia. auto.
Qed.

Lemma L_mem_iter : forall k i n s e u, good u -> kind k = KInMemory -> 0 <= i -> 1 <= n -> sensible_range s e ->
  safe (handed k i true n) true false u (left k i s e) (p_mem_iter dc new_decomp f fuel kind off k i n s e) (ended_as k i).
Proof.
  intros k i n s e u G K Hi Hn R. unfold p_mem_iter. destruct (Z.ltb_spec i 0); [lia|]. destruct (Z.leb_spec n 0); [lia|]. cbn [orb].
  apply safe_b; [exact G|]. apply L_load; [exact G|exact K|]. intros s0 G0 GR0 D0.
  apply safe_b; [exact G0|]. apply L_two; [exact G0|exact Hi|]. intros s1 G1 GR1 K1.
  destruct (znth (blobs k) i) as [b|] eqn:HB1; [|destruct (znth (ps k) i); intros s2 G2 L2; auto].
  destruct (inside_k k i b HB1) as (_ & Ha & Hb).
  destruct (nothing_to_read s e (blob_at (ext k) (blobs k) i + zlen b)) eqn:NT.
  - rewrite (nothing_k k s e b (blob_at (ext k) (blobs k) i + zlen b) R) by (exact NT || lia). intros s2 G2 L2. auto.
  - pose proof (range_ge_k k s e (blob_at (ext k) (blobs k) i) (blob_at (ext k) (blobs k) i + zlen b) R) as GE. pose proof (zlen_nonneg b).
    destruct (abs_range s e (blob_at (ext k) (blobs k) i) (blob_at (ext k) (blobs k) i + zlen b)) as [x y] eqn:EA.
    destruct (part_k k i b s e HB1 R x y EA) as (Hx & Hy & HP & HI). cbn [fst snd] in GE.
    apply safe_b; [exact G1|]. apply L_offsets_size; [exact G1|]. intros s2 G2 GR2 K2.
    pose proof (at_ge_k k i). rewrite data_len in Hb. pose proof (o_len_k k) as OL. pose proof (zlen_nonneg (tail k)). pose proof (Ppos k). pose proof (zlen_nonneg (blobs k)). pose proof (FU k).
    apply L_mem_loop; [exact G2|eapply data_grows; [exact D0|gt]|exact Hn|lia|nia|lia|].
    rewrite HP. replace (x - P k * (zlen (blobs k) + 1)) with (blob_at (ext k) (blobs k) i - P k * (zlen (blobs k) + 1) + (x - blob_at (ext k) (blobs k) i)) at 1 by lia.
    replace (y - P k * (zlen (blobs k) + 1) - (x - P k * (zlen (blobs k) + 1))) with (y - x) by lia.
    symmetry. apply (content_k k); [exact HB1|lia|lia].
Qed.

Definition is_mem (k : nat) : bool := match kind k with KInMemory => true | _ => false end.
Lemma chunks_weaken : forall b n h x w, chunks b n h x w -> chunks false n h x w.
Proof. intros b n h x w (_ & A). split; [discriminate|exact A]. Qed.

Notation allowed k q := (allowed_call (ct k) (blobs k) (kind k) (ends k) q).
Lemma L_iter : forall k i n s e u, good u -> allowed k (QIter i n s e) ->
  safe (handed k i (is_mem k) n) true false u (left k i s e) (p_iter dc new_decomp f fuel kind off k i n s e) (ended_as k i).
Proof.
  intros k i n s e u G ((Hi & Hn & R) & _ & INS). cbn [inside] in INS. unfold p_iter, is_mem.
  destruct (kind k) eqn:KD.
  - apply L_plain_iter; auto. destruct INS as [?|[?|(_ & X)]]; [assumption|congruence|exfalso; eapply X; reflexivity].
  - apply L_plain_iter; auto. destruct INS as [?|[?|(_ & X)]]; [assumption|congruence|exfalso; eapply X; reflexivity].
  - apply L_mem_iter; auto.
Qed.

Lemma L_read : forall k i s e Y st u w (Q : bool -> shared D -> bytes -> res bytes -> Prop), good u -> allowed k (QRead i s e) ->
  (forall v, good v -> grows u v -> Q false v w (match znth (blobs k) i with Some b => Ok (part s e b) | None => Err BlobNotFound end)) ->
  safe Y st false u w (p_read dc new_decomp f fuel kind off k i s e) Q.
Proof.
  intros k i s e Y st u w Q G ((Hi & R) & _ & INS) H. cbn [inside] in INS. unfold p_read. destruct (kind k) eqn:KD.
  - apply L_plain_read; auto. intuition congruence.
  - apply L_plain_read; auto. intuition congruence.
  - apply L_mem_read; auto.
Qed.

(** ** Calls *)
Lemma safe_th : forall A B Y st (p : prog (shared D) A) (k : res A -> prog (shared D) B) Q h u w, good u ->
  safe Y st h u w p (fun h s w r => safe Y st h s w (k r) Q) -> safe Y st h u w (pthen p k) Q.
Proof. intros. apply safe_then; auto; frame. Qed.
Lemma safe_dr : forall Y Y' (p : prog (shared D) unit) (Q : bool -> shared D -> bytes -> res unit -> Prop) h u w, good u -> safe Y true h u w p Q ->
  safe Y' true h u [] (drain p) (fun h s w0 r => w0 = [] /\ exists l w', w = concat l ++ w' /\ Forall (fun x => exists b v, Y b x v) l /\
    match r with Ok l' => l' = l /\ Q h s w' (Ok tt) | Err e => Q h s w' (Err e) end).
Proof. intros. apply safe_drain; auto; frame. Qed.

Lemma L_ask : forall k q Y u, good u -> q <> QReset -> allowed k q ->
  safe Y true false u [] (p_ask dc new_decomp f fuel kind off k q)
    (fun h s w r => h = false /\ w = [] /\ exists x, r = Ok x /\ answer (ct k) (ext k) (blobs k) (C k) q x).
Proof.
  intros k q Y u G NR AL. pose proof AL as (SE & NE & INS). pose proof (zlen_nonneg (blobs k)).
  destruct q; cbn [p_ask sensible no_end_needed inside] in *; try contradiction; unfold answered; (apply safe_th; [exact G|]).
  - apply L_offsets; [exact G|]. intros s Gs GR K s' G' L'. split; [reflexivity|]. split; [reflexivity|]. eexists. split; [reflexivity|]. cbn. rewrite select_picked. reflexivity.
  - destruct (Z.ltb_spec i 0) as [L|L].
    + unfold p_offset. destruct (Z.ltb_spec i 0); [|lia]. intros s Gs L0 s' G' L'. split; [reflexivity|]. split; [reflexivity|]. eexists. split; [reflexivity|]. cbn. unfold znth. destruct (Z.ltb_spec i 0); [reflexivity|lia].
    + apply L_offset; [exact G|exact L|]. intros s Gs GR K s' G' L'. split; [reflexivity|]. split; [reflexivity|]. eexists. split; [reflexivity|]. cbn [answer]. destruct (znth (ps k) i); reflexivity.
  - apply L_offset_count; [exact G|]. intros s Gs GR K s' G' L'. split; [reflexivity|]. split; [reflexivity|]. eexists. split; [reflexivity|]. reflexivity.
  - apply L_blob_count; [exact G|]. intros s Gs GR K s' G' L'. split; [reflexivity|]. split; [reflexivity|]. eexists. split; [reflexivity|]. reflexivity.
  - apply L_content_size; [exact G|]. intros s Gs GR K s' G' L'. split; [reflexivity|]. split; [reflexivity|]. eexists. split; [reflexivity|]. reflexivity.
  - apply L_decompressed_size; [exact G|]. intros s Gs GR K s' G' L'. split; [reflexivity|]. split; [reflexivity|]. eexists. split; [reflexivity|]. reflexivity.
  - apply L_offsets_size; [exact G|]. intros s Gs GR K s' G' L'. split; [reflexivity|]. split; [reflexivity|]. eexists. split; [reflexivity|]. cbn [answer]. f_equal. rewrite data_len. lia.
  - apply L_compressed_size; [exact G|exact NE|]. intros s Gs GR K s' G' L'. split; [reflexivity|]. split; [reflexivity|]. eexists. split; [reflexivity|]. reflexivity.
  - apply L_blob_size; [exact G|exact SE|]. intros s Gs GR K s' G' L'. split; [reflexivity|]. split; [reflexivity|]. eexists. split; [reflexivity|]. cbn [answer]. destruct (znth (blobs k) i); reflexivity.
  - apply L_read; [exact G|exact AL|]. intros s Gs GR s' G' L'. split; [reflexivity|]. split; [reflexivity|]. eexists. split; [reflexivity|]. cbn [answer]. destruct (znth (blobs k) i); reflexivity.
  - pose proof (safe_dr _ Y _ _ _ _ _ G (L_iter k i buffersize start stop u G AL)) as X.
    eapply safe_impl; [exact X|]. clear X. cbv beta. intros h s w r Gs (-> & l & w' & Ew & FA & HR) s' G' L'. cbn [ThreadsProofs.safe].
    destruct (znth (blobs k) i) as [b|] eqn:HB1.
    + destruct r as [l'|ex]; [|destruct HR as (_ & _ & HR); discriminate]. destruct HR as (-> & -> & -> & _). split; [reflexivity|]. split; [reflexivity|].
      eexists. split; [reflexivity|]. cbn [answer]. rewrite HB1. exists l. split; [reflexivity|]. split; [rewrite Ew, app_nil_r; reflexivity|].
      eapply Forall_impl; [|exact FA]. cbv beta. intros a (b0 & v & _ & HA & _). exact HA.
    + destruct r as [l'|ex]; [destruct HR as (_ & _ & _ & HR); discriminate|]. destruct HR as (-> & -> & HR). injection HR as ->. split; [reflexivity|]. split; [reflexivity|].
      eexists. split; [reflexivity|]. cbn [answer]. rewrite HB1. reflexivity.
Qed.
Lemma safe_si : forall A Y st (p : prog (shared D) A) (Q : bool -> shared D -> bytes -> res A -> Prop) h u w,
  safe Y st h u w p Q -> safe Y st h u w p (fun h s w r => grows u s /\ Q h s w r).
Proof. intros. apply safe_since; auto; frame. apply grows_refl. Qed.
Lemma safe_rs : forall (A : Type) Y Yg u0 (p : prog (shared D) unit) (k : got -> bool * prog (shared D) unit -> prog (shared D) A) Qg Q h u w w0,
  good u -> grows u0 u -> safe Yg true h u w p Qg ->
  (forall h s r, good s -> grows u0 s -> Qg h s w r ->
    safe Y true h s w0 (k (match r with Ok _ => GStop | Err e => GRaise e end) (false, Ret (Ok tt))) Q) ->
  (forall h s x q w', good s -> grows u0 s -> w = x ++ w' -> Yg h x w -> (h = true -> quiet s) -> safe Yg true h s w' q Qg ->
    safe Y true h s w0 (k (GChunk x) (h, q)) Q) ->
  safe Y true h u w0 (resume p k) Q.
Proof. intros. eapply safe_resume; eauto; frame. Qed.

(** ** Scripts *)
Notation never := (fun _ _ _ => False).
Definition hands (mem : bool) (w : want) : bool -> bytes -> bytes -> Prop := match w with Rest _ n => chunks mem n | _ => never end.
Definition remains (w : want) : bytes := match w with Rest b _ => b | _ => [] end.
Definition ends_with (w : want) : res unit := match w with Missing => Err BlobNotFound | _ => Ok tt end.
Definition generator (mem held : bool) (u : shared D) (w : want) (p : prog (shared D) unit) : Prop :=
  safe (hands mem w) true held u (remains w) p (fun h _ w' r => h = false /\ w' = [] /\ r = ends_with w).

Lemma generator_later : forall mem held u u' w p, generator mem held u w p -> later held u u' -> generator mem held u' w p.
Proof. intros. eapply safe_l; eassumption. Qed.
Lemma generator_over : forall mem u, generator mem false u Over (Ret (Ok tt)).
Proof. intros mem u s G L. cbn. auto. Qed.
Lemma generator_new : forall k i n s e u, good u -> allowed k (QIter i n s e) ->
  generator (is_mem k) false u (wants blobs k i n s e) (p_iter dc new_decomp f fuel kind off k i n s e).
Proof.
  intros k i n s e u G AL. pose proof (L_iter k i n s e u G AL) as X. unfold generator, wants. destruct (znth (blobs k) i); exact X.
Qed.

Record thread_inv (m : gens) (mw : nat -> want) (cl : nat -> nat) (active : option nat) (held : bool) (u : shared D) : Prop := {
  ti_quiet : held = true -> quiet u;
  ti_held : held = true -> exists a, active = Some a /\ fst (m a) = true;
  ti_active : forall g, fst (m g) = true -> active = Some g /\ held = true;
  ti_gens : forall g, generator (is_mem (cl g)) (fst (m g)) u (mw g) (snd (m g)) }.

Lemma inv_later : forall m mw cl active held u u', thread_inv m mw cl active held u -> later held u u' -> thread_inv m mw cl active held u'.
Proof.
  intros m mw cl active held u u' [A B E F] (GR & S). split; auto.
  - intro H. eapply quiet_same; [apply A; exact H|apply S; exact H].
  - intro g. eapply generator_later; [apply F|]. split; [exact GR|]. intro H. apply S. apply (E g H).
Qed.

Lemma set_gen_same : forall g v (m : gens (D := D)), set_gen g v m g = v. Proof. intros. unfold set_gen. rewrite Nat.eqb_refl. reflexivity. Qed.
Lemma set_gen_other : forall g v (m : gens (D := D)) j, j <> g -> set_gen g v m j = m j.
Proof. intros. unfold set_gen. rewrite (proj2 (Nat.eqb_neq j g)) by assumption. reflexivity. Qed.
Lemma at_key_same : forall A g (v : A) m, at_key g v m g = v. Proof. intros. unfold at_key. rewrite Nat.eqb_refl. reflexivity. Qed.
Lemma at_key_other : forall A g (v : A) m j, j <> g -> at_key g v m j = m j.
Proof. intros. unfold at_key. rewrite (proj2 (Nat.eqb_neq j g)) by assumption. reflexivity. Qed.

Lemma inv_set : forall m mw cl active held u s g h q w act' k', thread_inv m mw cl active held u ->
  (held = true -> active = Some g) -> grows u s -> (h = true -> quiet s /\ act' = Some g) ->
  generator (is_mem k') h s w q ->
  thread_inv (set_gen g (h, q) m) (at_key g w mw) (at_key g k' cl) act' h s.
Proof.
  intros m mw cl active held u s g h q w act' k' [A B E F] HA GR HH GN.
  assert (NH : forall j, j <> g -> fst (m j) = false). { intros j N. destruct (fst (m j)) eqn:Ej; [|reflexivity]. destruct (E j Ej) as (E1 & E2). specialize (HA E2). congruence. }
  split.
  - intro H. apply HH; exact H.
  - intro H. exists g. rewrite set_gen_same. split; [apply HH; exact H|exact H].
  - intros j Hj. destruct (Nat.eq_dec j g) as [->|N].
    + rewrite set_gen_same in Hj. cbn in Hj. split; [apply HH; exact Hj|exact Hj].
    + rewrite set_gen_other in Hj by exact N. rewrite (NH j N) in Hj. discriminate.
  - intro j. destruct (Nat.eq_dec j g) as [->|N].
    + rewrite set_gen_same, !at_key_same. exact GN.
    + rewrite set_gen_other, !at_key_other by exact N. pose proof (F j) as Fj. rewrite (NH j N) in Fj. rewrite (NH j N). eapply generator_later; [exact Fj|]. split; [exact GR|discriminate].
Qed.
(** A generator that does not hold the lock is replaced or dropped. *)
Lemma inv_set_free : forall m mw cl active held u g q w k', thread_inv m mw cl active held u -> fst (m g) = false ->
  generator (is_mem k') false u w q ->
  thread_inv (set_gen g (false, q) m) (at_key g w mw) (at_key g k' cl) active held u.
Proof.
  intros m mw cl active held u g q w k' [A B E F] NH GN. split; [exact A| | |].
  - intro H. destruct (B H) as (a & B1 & B2). exists a. split; [exact B1|]. rewrite set_gen_other; [exact B2|]. intros ->. congruence.
  - intros j Hj. destruct (Nat.eq_dec j g) as [->|N]; [rewrite set_gen_same in Hj; discriminate|]. rewrite set_gen_other in Hj by exact N. apply E; exact Hj.
  - intro j. destruct (Nat.eq_dec j g) as [->|N].
    + rewrite set_gen_same, !at_key_same. exact GN.
    + rewrite set_gen_other, !at_key_other by exact N. apply F.
Qed.
Lemma at_key_id : forall m mw (cl : nat -> nat) active held u g, thread_inv m mw (at_key g (cl g) cl) active held u -> thread_inv m mw cl active held u.
Proof.
  intros m mw cl active held u g [A B E F]. split; auto. intro j. specialize (F j). unfold at_key in F. destruct (Nat.eqb_spec j g) as [X|X]; [rewrite X in *|]; exact F.
Qed.
Lemma quiet_seek : forall p s, quiet s -> quiet (seek p s).
Proof. intros p s H k r E. exact (H k r E). Qed.

Notation tidy := (tidy kind).
Notation usable := (usable ct blobs ends kind).
Notation results := (results ct ext blobs C).
Notation script := (script dc new_decomp f fuel kind off).

(** The rest of the script, after the result [a]. *)
Lemma L_rest : forall cs (m : gens) mw a h u (R : list got -> Prop), good u ->
  safe never true h u [] (script cs m) (fun h s w r => h = false /\ exists l, r = Ok l /\ results cs l mw) ->
  (forall l, results cs l mw -> R (a :: l)) ->
  safe never true h u [] (let! r := script cs m in pret (a :: r)) (fun h s w r => h = false /\ exists l, r = Ok l /\ R l).
Proof.
  intros cs m mw a h u R G H HR. apply safe_b; [exact G|]. eapply safe_impl; [exact H|]. cbv beta.
  intros h' s w r Gs (-> & l & -> & Hl) s' G' L'. split; [reflexivity|]. exists (a :: l). auto.
Qed.

Lemma L_script : forall cs m mw cl active held u, good u -> thread_inv m mw cl active held u -> tidy cs cl active -> Forall usable cs ->
  safe never true held u [] (script cs m) (fun h s w r => h = false /\ exists l, r = Ok l /\ results cs l mw).
Proof.
  induction cs as [|c cs IH]; intros m mw cl active held u G TI T U.
  - cbn in T. subst active. cbn [Threads.script]. assert (held = false) by (destruct held; [destruct (ti_held _ _ _ _ _ _ TI eq_refl) as (a & X & _); discriminate|reflexivity]).
    subst held. intros s Gs L. split; [reflexivity|]. exists []. split; [reflexivity|exact Logic.I].
  - inversion U as [|? ? Uc Ucs]; subst. destruct c as [k q|g k i n s e|g|g|p]; cbn [Threads.script ThreadsSpec.tidy ThreadsSpec.usable] in *.
    + destruct T as (-> & T). assert (held = false) by (destruct held; [destruct (ti_held _ _ _ _ _ _ TI eq_refl) as (a & X & _); discriminate|reflexivity]). subst held.
      destruct Uc as (NR & AL). apply safe_b; [exact G|].
      assert (X : safe never true false u [] (p_ask dc new_decomp f fuel kind off k q) (fun h s w r => grows u s /\ h = false /\ w = [] /\ exists x, r = Ok x /\ answer (ct k) (ext k) (blobs k) (C k) q x)).
      { apply safe_si. apply L_ask; assumption. }
      eapply safe_impl; [exact X|]. cbv beta. intros h s w r Gs (GR & -> & -> & x & -> & Ax).
      apply (L_rest cs m mw); [exact Gs| |].
      * apply (IH m mw cl None false); [exact Gs|eapply inv_later; [exact TI|split; [exact GR|discriminate]]|exact T|exact Ucs].
      * intros l Hl. cbn [ThreadsSpec.results]. split; [exists x; auto|exact Hl].
    + destruct T as (NA & T). assert (NH : fst (m g) = false) by (destruct (fst (m g)) eqn:E; [destruct (ti_active _ _ _ _ _ _ TI g E); contradiction|reflexivity]).
      apply (L_rest cs _ (at_key g (wants blobs k i n s e) mw)); [exact G| |].
      * apply (IH _ _ (at_key g k cl) active held); [exact G| |exact T|exact Ucs].
        apply inv_set_free; [exact TI|exact NH|]. apply generator_new; assumption.
      * intros l Hl. split; [reflexivity|exact Hl].
    + destruct T as (HA & T). pose proof (ti_gens _ _ _ _ _ _ TI g) as GN.
      assert (EH : held = fst (m g)).
      { destruct held; [destruct (ti_held _ _ _ _ _ _ TI eq_refl) as (a & X & Y); destruct HA as [HA|HA]; [congruence|]; assert (a = g) by congruence; congruence|].
        destruct (fst (m g)) eqn:E; [destruct (ti_active _ _ _ _ _ _ TI g E); discriminate|reflexivity]. }
      rewrite <- EH in GN.
      assert (HELD : held = true -> active = Some g) by (intro H; destruct (ti_active _ _ _ _ _ _ TI g ltac:(congruence)); assumption).
      unfold generator in GN. eapply safe_rs; [exact G|apply grows_refl|exact GN| |].
      * cbv beta. intros h s r Gs GR (-> & EW & ->).
        apply (L_rest cs _ (at_key g Over mw)); [exact Gs| |].
        -- apply (IH _ _ cl (match kind (cl g) with KInMemory => active | _ => Some g end) false); [exact Gs| |exact T|exact Ucs].
           apply (at_key_id _ _ cl _ _ _ g). eapply inv_set; [exact TI|exact HELD|exact GR|discriminate|apply generator_over].
        -- intros l Hl. exists Over. split; [|exact Hl]. unfold next_ok. destruct (mw g) as [|b n|]; cbn in EW |- *; auto.
      * cbv beta. intros h s x q w' Gs GR EW HY Qs SF.
        destruct (mw g) as [|b n|] eqn:EM; cbn [hands] in HY; try contradiction. destruct HY as (HM & HL & HN).
        apply (L_rest cs _ (at_key g (Rest w' n) mw)); [exact Gs| |].
        -- apply (IH _ _ cl (match kind (cl g) with KInMemory => active | _ => Some g end) h); [exact Gs| |exact T|exact Ucs].
           apply (at_key_id _ _ cl _ _ _ g). eapply inv_set; [exact TI|exact HELD|exact GR| |exact SF].
           intros ->. split; [apply Qs; reflexivity|]. unfold is_mem in HM. destruct (kind (cl g)); [reflexivity|reflexivity|]. specialize (HM eq_refl). discriminate.
        -- intros l Hl. exists (Rest w' n). split; [|exact Hl]. rewrite EM. right. exists x, w'. auto.
    + pose proof (ti_gens _ _ _ _ _ _ TI g) as GN. destruct (fst (m g)) eqn:EG.
      * destruct (ti_active _ _ _ _ _ _ TI g EG) as (-> & ->). rewrite Nat.eqb_refl in T. cbn [ThreadsProofs.safe]. split; [reflexivity|].
        intros s Gs L. pose proof (inv_later _ _ _ _ _ _ _ TI L) as TIs. split; [apply (ti_quiet _ _ _ _ _ _ TIs eq_refl)|].
        apply (L_rest cs _ (at_key g Over mw)); [exact Gs| |].
        -- apply (IH _ _ cl None false); [exact Gs| |exact T|exact Ucs]. apply (at_key_id _ _ cl _ _ _ g).
           eapply inv_set; [exact TIs|reflexivity|apply grows_refl|discriminate|apply generator_over].
        -- intros l Hl. split; [reflexivity|exact Hl].
      * apply (L_rest cs _ (at_key g Over mw)); [exact G| |].
        -- apply (IH _ _ cl (match active with Some a => if Nat.eqb a g then None else Some a | None => None end) held); [exact G| |exact T|exact Ucs].
           apply (at_key_id _ _ cl _ _ _ g). pose proof (inv_set_free _ _ _ _ _ _ g (Ret (Ok tt)) Over (cl g) TI EG (generator_over _ _)) as [A B E F].
           destruct active as [a|]; [|split; assumption]. destruct (Nat.eqb_spec a g) as [->|]; [|split; assumption].
           split; [exact A| | |exact F].
           ++ intro H. destruct (ti_held _ _ _ _ _ _ TI H) as (a & X & Y). assert (a = g) by congruence. congruence.
           ++ intros j Hj. destruct (E j Hj) as (X & Y). assert (j = g) by congruence. subst j. rewrite set_gen_same in Hj. discriminate.
        -- intros l Hl. split; [reflexivity|exact Hl].
    + destruct T as (-> & T). assert (held = false) by (destruct held; [destruct (ti_held _ _ _ _ _ _ TI eq_refl) as (a & X & _); discriminate|reflexivity]). subst held.
      apply safe_b; [exact G|]. apply safe_lk. intros s1 G1 L1 Q1. apply L_put. intros s2 G2 L2. split; [exact G2|]. split; [apply seek_grows|]. split; [discriminate|].
      intros s3 G3 (GR3 & S3). split; [reflexivity|]. split.
      { eapply quiet_same; [|apply S3; reflexivity]. apply quiet_seek. eapply quiet_same; [exact Q1|apply L2; reflexivity]. }
      intros s4 G4 GR4. apply (L_rest cs m mw); [exact G4| |].
      * apply (IH m mw cl None false); [exact G4| |exact T|exact Ucs]. eapply inv_later; [exact TI|]. split; [|discriminate].
        eapply grows_trans; [apply L1|]. eapply grows_trans; [apply L2|]. eapply grows_trans; [exact GR3|exact GR4].
      * intros l Hl. split; [reflexivity|exact Hl].
Qed.
End Clusters.
