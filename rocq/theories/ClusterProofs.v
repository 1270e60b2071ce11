From Coq Require Import List ZArith Bool Lia.
From Coq Require Import ZifyBool ZifyNat.
From Verif Require Import Base BaseProofs Infobyte Reader ReaderSpec ReaderProofs Cluster ClusterSpec.
Import ListNotations.
Open Scope Z_scope.

Lemma nth_error_nil : forall {A} i, nth_error (@nil A) i = None.
Proof. intros A [|i]; reflexivity. Qed.

Lemma zsub_add : forall {A} p a b (l : list A), 0 <= p -> 0 <= a -> 0 <= b -> zsub p (a + b) l = zsub p a l ++ zsub (p + a) b l.
Proof. intros A p a b l Hp Ha Hb. unfold zsub. rewrite ztake_add by assumption. rewrite zskip_zskip by lia. f_equal. f_equal. f_equal. lia. Qed.

(** ** Layout *)
Lemma py_slice_pos : forall {A} a b (l : list A), 0 <= a -> 0 <= b -> py_slice a b l = zsub a (b - a) l.
Proof. intros A a b l Ha Hb. unfold py_slice. destruct (Z.ltb_spec a 0); [lia|]. destruct (Z.ltb_spec b 0); [lia|]. reflexivity. Qed.
Lemma ptr_size_bytes : forall ext, ptr_size ext = Z.of_nat (pointer_bytes ext).
Proof. intros [|]; reflexivity. Qed.

Lemma positions_len : forall blobs s, zlen (positions_from s blobs) = zlen blobs + 1.
Proof. induction blobs as [|b r IH]; intros s; cbn [positions_from]; [reflexivity|]. rewrite !zlen_cons, IH. lia. Qed.

Lemma positions_nth : forall blobs s i, (i <= length blobs)%nat ->
  nth_error (positions_from s blobs) i = Some (s + zlen (concat (firstn i blobs))).
Proof.
  induction blobs as [|b r IH]; intros s [|i] H; cbn [length] in H.
  - cbn. f_equal. change (zlen (@nil byte)) with 0. lia.
  - lia.
  - cbn. f_equal. change (zlen (@nil byte)) with 0. lia.
  - cbn [positions_from nth_error firstn concat]. rewrite IH by lia. f_equal. rewrite zlen_app. lia.
Qed.
Lemma positions_nth_none : forall blobs s i, (length blobs < i)%nat -> nth_error (positions_from s blobs) i = None.
Proof.
  intros. apply nth_error_None. pose proof (positions_len blobs s) as L. unfold zlen in L. lia.
Qed.

Lemma enc_len : forall n l, zlen (concat (map (le_bytes n) l)) = Z.of_nat n * zlen l.
Proof.
  induction l as [|x l IH]; [cbn; change (zlen (@nil byte)) with 0; change (zlen (@nil Z)) with 0; lia|].
  cbn [map concat]. rewrite zlen_app, zlen_cons, IH, zlen_le_bytes. lia.
Qed.

Lemma enc_nth : forall n l i v rest, nth_error l i = Some v ->
  zsub (Z.of_nat n * Z.of_nat i) (Z.of_nat n) (concat (map (le_bytes n) l) ++ rest) = le_bytes n v.
Proof.
  intros n l. induction l as [|x l IH]; intros [|i] v rest H; cbn [nth_error] in H; try discriminate.
  - injection H as <-. rewrite Z.mul_0_r. unfold zsub. rewrite zskip_0. cbn [map concat]. rewrite <- app_assoc.
    apply ztake_app_exact, zlen_le_bytes.
  - cbn [map concat]. rewrite <- app_assoc. unfold zsub.
    rewrite zskip_app_r by (rewrite zlen_le_bytes; lia). rewrite zlen_le_bytes.
    replace (Z.of_nat n * Z.of_nat (S i) - Z.of_nat n) with (Z.of_nat n * Z.of_nat i) by lia.
    apply (IH i v rest H).
Qed.

Lemma cluster_data_len : forall ext blobs, zlen (cluster_data ext blobs) = pointers_size ext blobs + zlen (concat blobs).
Proof. intros. unfold cluster_data. rewrite zlen_app, enc_len. unfold positions, pointers_size. rewrite positions_len. reflexivity. Qed.

Lemma concat_firstn_le : forall (blobs : list bytes) i, 0 <= zlen (concat (firstn i blobs)) <= zlen (concat blobs).
Proof.
  intros. split; [apply zlen_nonneg|]. rewrite <- (firstn_skipn i blobs) at 2. rewrite concat_app, zlen_app.
  pose proof (zlen_nonneg (concat (skipn i blobs))). lia.
Qed.

Lemma concat_nth : forall (blobs : list bytes) i b, nth_error blobs i = Some b ->
  concat blobs = concat (firstn i blobs) ++ b ++ concat (skipn (S i) blobs).
Proof.
  induction blobs as [|x r IH]; intros [|i] b H; cbn [nth_error] in H; try discriminate.
  - injection H as <-. reflexivity.
  - cbn [firstn concat]. rewrite <- app_assoc. f_equal. exact (IH i b H).
Qed.
Lemma firstn_S_concat : forall (blobs : list bytes) i b, nth_error blobs i = Some b ->
  zlen (concat (firstn (S i) blobs)) = zlen (concat (firstn i blobs)) + zlen b.
Proof.
  induction blobs as [|x r IH]; intros [|i] b H; cbn [nth_error] in H; try discriminate.
  - injection H as <-. cbn. rewrite app_nil_r. change (zlen (@nil byte)) with 0. lia.
  - specialize (IH i b H). change (firstn (S (S i)) (x :: r)) with (x :: firstn (S i) r).
    change (firstn (S i) (x :: r)) with (x :: firstn i r). cbn [concat]. rewrite !zlen_app. lia.
Qed.

(** ** Selecting offsets *)
Definition want (numbers : option (list Z)) (i : Z) : bool :=
  match numbers with None => true | Some ns => zmem i ns end.

Lemma zmem_In : forall x l, zmem x l = true <-> In x l.
Proof.
  intros x l. unfold zmem. rewrite existsb_exists. split.
  - intros (y & H & E). apply Z.eqb_eq in E. subst. exact H.
  - intros H. exists x. split; [exact H|apply Z.eqb_refl].
Qed.
Lemma zmax_ge : forall l x, In x l -> x <= zmax_list l.
Proof.
  intros l. unfold zmax_list. generalize (hd 0 l). induction l as [|y l IH]; intros d x H; [inversion H|].
  cbn [fold_right]. destruct H as [->|H]; [lia|]. specialize (IH d x H). lia.
Qed.

Lemma select_none_after : forall l i ns, (forall x, In x ns -> x < i) -> select_offsets i (Some ns) l = [].
Proof.
  induction l as [|o l IH]; intros i ns H; [reflexivity|]. cbn [select_offsets].
  destruct (zmem i ns) eqn:E; [apply zmem_In, H in E; lia|]. apply IH. intros x Hx. apply H in Hx. lia.
Qed.
Lemma select_all : forall l i, select_offsets i None l = l.
Proof. induction l as [|o l IH]; intros i; [reflexivity|]. cbn [select_offsets]. rewrite IH. reflexivity. Qed.

Lemma select_picked_gen : forall l k ns,
  select_offsets (Z.of_nat k) (Some ns) l =
  map snd (filter (fun p => existsb (Z.eqb (fst p)) ns) (combine (map Z.of_nat (seq k (length l))) l)).
Proof.
  induction l as [|o l IH]; intros k ns; [reflexivity|]. cbn [select_offsets length seq map combine filter fst].
  replace (Z.of_nat k + 1) with (Z.of_nat (S k)) by lia. rewrite IH. unfold zmem.
  destruct (existsb _ ns); reflexivity.
Qed.
Lemma select_picked : forall l ns, select_offsets 0 ns l = picked ns l.
Proof. intros l [ns|]; [apply (select_picked_gen l 0 ns)|apply select_all]. Qed.

Lemma select_one : forall l i k, 0 <= k -> select_offsets k (Some [i]) l = if i <? k then [] else match znth l (i - k) with Some o => [o] | None => [] end.
Proof.
  induction l as [|o l IH]; intros i k Hk; cbn [select_offsets].
  - destruct (i <? k); [reflexivity|]. unfold znth. destruct (i - k <? 0); [reflexivity|]. rewrite nth_error_nil. reflexivity.
  - rewrite IH by lia. unfold zmem. cbn [existsb]. rewrite orb_false_r. destruct (Z.eqb_spec k i) as [->|N].
    + destruct (Z.ltb_spec i (i + 1)); [|lia]. destruct (Z.ltb_spec i i); [lia|]. rewrite Z.sub_diag. reflexivity.
    + destruct (Z.ltb_spec i k) as [L|L].
      * destruct (Z.ltb_spec i (k + 1)); [reflexivity|lia].
      * destruct (Z.ltb_spec i (k + 1)); [lia|]. unfold znth. destruct (Z.ltb_spec (i - (k + 1)) 0); [lia|].
        destruct (Z.ltb_spec (i - k) 0); [lia|]. replace (Z.to_nat (i - k)) with (S (Z.to_nat (i - (k + 1)))) by lia. reflexivity.
Qed.
Lemma select_past : forall l k x ns, x < k -> select_offsets k (Some (x :: ns)) l = select_offsets k (Some ns) l.
Proof.
  induction l as [|o l IH]; intros k x ns H; [reflexivity|]. cbn [select_offsets]. rewrite IH by lia.
  unfold zmem. cbn [existsb]. destruct (Z.eqb_spec k x); [lia|]. reflexivity.
Qed.
Lemma select_two : forall l i k, 0 <= k -> k <= i -> select_offsets k (Some [i; i + 1]) l =
  match znth l (i - k) with
  | None => []
  | Some a => match znth l (i + 1 - k) with Some b => [a; b] | None => [a] end
  end.
Proof.
  induction l as [|o l IH]; intros i k Hk Hi; cbn [select_offsets].
  - unfold znth. destruct (i - k <? 0); [reflexivity|]. rewrite nth_error_nil. reflexivity.
  - unfold zmem. cbn [existsb]. rewrite orb_false_r. destruct (Z.eqb_spec k i) as [->|N].
    + cbn [orb]. rewrite select_past by lia. rewrite select_one by lia. destruct (Z.ltb_spec (i + 1) (i + 1)); [lia|].
      rewrite !Z.sub_diag. replace (i + 1 - i) with 1 by lia. unfold znth. change (Z.to_nat 1) with 1%nat. destruct l; reflexivity.
    + destruct (Z.eqb_spec k (i + 1)); [lia|]. cbn [orb]. rewrite IH by lia. unfold znth.
      destruct (Z.ltb_spec (i - (k + 1)) 0); [lia|]. destruct (Z.ltb_spec (i + 1 - (k + 1)) 0); [lia|].
      destruct (Z.ltb_spec (i - k) 0); [lia|]. destruct (Z.ltb_spec (i + 1 - k) 0); [lia|].
      replace (Z.to_nat (i - k)) with (S (Z.to_nat (i - (k + 1)))) by lia.
      replace (Z.to_nat (i + 1 - k)) with (S (Z.to_nat (i + 1 - (k + 1)))) by lia. reflexivity.
Qed.

(** ** A stored cluster *)
Section Stored.
Context {D : Type}.
Variable dc : decomp D.
Variable new_decomp : ctype -> res D.
Variable Rep : D -> bytes -> bytes -> bytes -> Prop.
Variable f : bytes.
Variable fuel : nat.
Variables (off : Z) (ct : ctype) (ext : bool) (blobs : list bytes) (C J tail : bytes).
Variable ends : bool.
Hypothesis ST : stored dc new_decomp Rep f off ct ext blobs C J tail.
Hypothesis EN : ends = true -> stored_ends dc Rep J tail.
Hypothesis FU : zlen (cluster_data ext blobs ++ tail) + 2 <= Z.of_nat fuel.
Variable kd : ckind.
(** Whether readers are kept only if something was read with them. *)
Variable strict : bool.

Notation o := (cluster_data ext blobs ++ tail).
Notation base := (off + 1).
Notation ps := (positions ext blobs).
Notation P := (ptr_size ext).

Lemma CT : contract dc J Rep. Proof. exact (st_contract _ _ _ _ _ _ _ _ _ _ _ ST). Qed.
Lemma CE : ends = true -> contract_end dc J Rep. Proof. intro H. exact (proj1 (EN H)). Qed.
Lemma HB : 0 <= base. Proof. pose proof (st_off _ _ _ _ _ _ _ _ _ _ _ ST). lia. Qed.
Lemma HF : zskip base f = C ++ J. Proof. exact (st_stream _ _ _ _ _ _ _ _ _ _ _ ST). Qed.

Definition rinv := inv base C J o Rep.

Definition cinv (c : cluster D) : Prop :=
  cl_kind c = kd /\ cl_offset c = off /\ (cl_info c = None \/ cl_info c = Some (ct, ext)) /\ (forall r, cl_reader c = Some r -> exists p, rinv r p /\ (strict = true -> 0 < p)) /\ 
  (cl_offsets c = None \/ cl_offsets c = Some ps /\ kd <> KPlain /\ cl_info c = Some (ct, ext)) /\
  (cl_data c = None \/ cl_data c = Some (concat blobs) /\ kd = KInMemory).
Definition informed (c : cluster D) : Prop := cl_info c = Some (ct, ext).

Lemma info_ok : forall c, cinv c -> exists c', info f c = (Ok (ct, ext), c') /\ cinv c' /\ informed c'.
Proof.
  intros c (K & O & I & R & F & Dt). unfold info. destruct I as [I|I]; rewrite I.
  - destruct (st_info _ _ _ _ _ _ _ _ _ _ _ ST) as (b & E & Pb). rewrite O, E, Pb.
    eexists. split; [reflexivity|]. split; [|reflexivity]. unfold cinv, set_info. cbn. intuition auto.
  - exists c. split; [reflexivity|]. split; [unfold cinv; auto 10|exact I].
Qed.

Lemma reseek_inv : forall r p, rinv r p -> rinv (reseek base r) p.
Proof. intros r p (A & B & _ & X). split; [exact A|]. split; [exact B|]. split; [reflexivity|exact X]. Qed.

Lemma set_reader_inv : forall c r p, cinv c -> rinv r p -> (strict = true -> 0 < p) -> cinv (set_reader (Some r) c).
Proof.
  intros c r p (K & O & I & R & F & Dt) H PP. unfold cinv, set_reader. cbn. split; [exact K|]. split; [exact O|]. split; [exact I|].
  split; [|auto]. intros r' E. injection E as <-. exists p. auto.
Qed.

Lemma with_reader_ok : forall A q (k : reader D -> res A * reader D) (Post : res A -> Prop) c,
  cinv c -> 0 <= q -> (q <= zlen o \/ ends = true) ->
  (forall r, rinv r (Z.min q (zlen o)) -> exists x r' p', k r = (x, r') /\ rinv r' p' /\ (strict = true -> 0 < p') /\ Post x) ->
  exists x c', with_reader dc new_decomp f q k c = (x, c') /\ cinv c' /\ informed c' /\ Post x.
Proof.
  intros A q k Post c CI Hq HE HK. unfold with_reader. destruct (Z.ltb_spec q 0); [lia|].
  destruct (info_ok c CI) as (c1 & E1 & CI1 & IN1). rewrite E1.
  assert (GO : forall r p, rinv r p -> p <= q ->
    exists x c', match skip_to dc f q r with
                 | (Err e, r) => (Err e, set_reader (Some r) c1)
                 | (Ok _, r) => let '(x, r) := k r in (x, set_reader (Some r) c1)
                 end = (x, c') /\ cinv c' /\ informed c' /\ Post x).
  { intros r p HI Hp. pose proof HI as ((Hp0 & Hp1) & Hout & _).
    unfold skip_to. destruct (Z.ltb_spec q 0); [lia|]. rewrite Hout. destruct (Z.ltb_spec q p); [lia|].
    destruct (skip_ok dc f base C J o Rep ends CT CE HB HF (q - p) r p HI) as (r' & E & I'); [lia|destruct HE; [left; lia|right; assumption]|].
    rewrite E. unfold upto in I'. replace (p + (q - p)) with q in I' by lia.
    destruct (HK r' I') as (x & r2 & p' & EK & IK & SK & PX). rewrite EK. exists x. eexists. split; [reflexivity|].
    split; [eapply set_reader_inv; eauto|]. split; [exact IN1|exact PX]. }
  assert (FRESH : exists x c', match new_decomp ct with
          | Err e => (Err e, c1)
          | Ok d => match skip_to dc f q (reader_new d (cl_offset c1 + 1)) with
                 | (Err e, r) => (Err e, set_reader (Some r) c1)
                 | (Ok _, r) => let '(x, r) := k r in (x, set_reader (Some r) c1)
                 end
          end = (x, c') /\ cinv c' /\ informed c' /\ Post x).
  { destruct (st_decomp _ _ _ _ _ _ _ _ _ _ _ ST) as (d0 & E & R). rewrite E.
    pose proof CI1 as (_ & O & _). rewrite O. apply (GO _ 0); [|lia]. exact (new_inv dc base C J o Rep ends CE d0 R). }
  cbv zeta. destruct (cl_reader c1) as [r|] eqn:ER; [|exact FRESH].
  pose proof CI1 as (_ & O & _ & RR & _). destruct (RR r ER) as (p & HI & _). rewrite O in *.
  pose proof HI as (_ & Hout & _). destruct (Z.leb_spec (r_out r) q); [|exact FRESH].
  apply (GO _ p); [apply reseek_inv; exact HI|lia].
Qed.

Lemma P_pos : 0 < P. Proof. destruct ext; reflexivity. Qed.
Lemma ps_len : zlen ps = zlen blobs + 1. Proof. apply positions_len. Qed.
Lemma o_len : zlen o = P * (zlen blobs + 1) + zlen (concat blobs) + zlen tail.
Proof. rewrite zlen_app, cluster_data_len. unfold pointers_size. rewrite ptr_size_bytes. lia. Qed.
Lemma o_pos : P <= zlen o.
Proof. rewrite o_len. pose proof (zlen_nonneg (concat blobs)). pose proof (zlen_nonneg tail). pose proof (zlen_nonneg blobs). pose proof P_pos. nia. Qed.
Lemma ps_nth : forall i, (i <= length blobs)%nat -> nth_error ps i = Some (P * (zlen blobs + 1) + zlen (concat (firstn i blobs))).
Proof. intros i H. unfold positions. rewrite positions_nth by exact H. unfold pointers_size. rewrite ptr_size_bytes. reflexivity. Qed.
Lemma ps_range : forall i v, nth_error ps i = Some v -> 0 <= v < 256 ^ P.
Proof.
  intros i v H. destruct (Nat.le_gt_cases i (length blobs)) as [L|L].
  - rewrite ps_nth in H by exact L. injection H as <-. pose proof (concat_firstn_le blobs i).
    pose proof (st_fits _ _ _ _ _ _ _ _ _ _ _ ST) as F. unfold fits, pointers_size in F. rewrite <- !ptr_size_bytes in F.
    pose proof P_pos. pose proof (zlen_nonneg blobs). nia.
  - unfold positions in H. rewrite positions_nth_none in H by exact L. discriminate.
Qed.
Lemma read_ptr : forall i v, nth_error ps i = Some v -> zsub (P * Z.of_nat i) P o = le_bytes (pointer_bytes ext) v.
Proof.
  intros i v H. rewrite !ptr_size_bytes. unfold cluster_data. rewrite <- app_assoc. apply enc_nth. exact H.
Qed.

Lemma offsets_loop_ok : forall n k numbers last r, rinv r (P * Z.of_nat k) -> (k <= length ps)%nat ->
  (length ps - k < n)%nat ->
  (match numbers with
   | None => last = None
   | Some ns => exists m, last = Some m /\ forall x, In x ns -> x <= m
   end) ->
  exists r' p', offsets_loop dc f n P numbers last (if (k =? 0)%nat then None else Some (P * (zlen blobs + 1))) (P * Z.of_nat k) (Z.of_nat k) r
    = (Ok (select_offsets (Z.of_nat k) numbers (skipn k ps)), r') /\ rinv r' p' /\ P * Z.of_nat k <= p' /\
    (match last with Some m => Z.of_nat k <= m | None => True end -> (k < length ps)%nat -> P * Z.of_nat (S k) <= p').
Proof.
  induction n as [|n IH]; intros k numbers last r HI Hk Hn HL; [lia|]. cbn [offsets_loop].
  pose proof P_pos as PP. pose proof ps_len as PL.
  destruct (Nat.eq_dec k (length ps)) as [->|NE].
  - rewrite skipn_all. assert (NB : (length ps =? 0)%nat = false). { unfold zlen in PL. lia. } rewrite NB.
    assert (C1 : (P * Z.of_nat (length ps) + 1 <=? P * (zlen blobs + 1)) = false). { rewrite <- PL. unfold zlen. lia. }
    rewrite C1. cbn [andb select_offsets]. exists r. eexists. split; [reflexivity|]. split; [exact HI|]. split; [lia|]. intros _ X. exfalso. clear -X. lia.
  - assert (C1 : (match (if (k =? 0)%nat then None else Some (P * (zlen blobs + 1))) with None => true | Some v => P * Z.of_nat k + 1 <=? v end) = true).
    { destruct (k =? 0)%nat; [reflexivity|]. rewrite <- PL. unfold zlen. nia. }
    rewrite C1. cbn [andb].
    destruct (nth_error ps k) as [v|] eqn:EV; [|apply nth_error_None in EV; lia].
    assert (SK : skipn k ps = v :: skipn (S k) ps).
    { clear -EV. revert k EV. generalize ps as l. induction l as [|x l IHl]; intros [|k] E; cbn in E; try discriminate.
      - injection E as <-. reflexivity.
      - cbn [skipn]. rewrite (IHl k E). reflexivity. }
    destruct (match last with None => true | Some m => Z.of_nat k <=? m end) eqn:EL.
    + assert (KB : (k <= length blobs)%nat) by (unfold zlen in PL; lia).
      assert (IN : P * Z.of_nat k + P <= zlen o).
      { rewrite o_len. pose proof (zlen_nonneg (concat blobs)). pose proof (zlen_nonneg tail). unfold zlen at 1. nia. }
      destruct (read_n_ok dc f base C J o Rep ends CT CE HB HF P r _ HI) as (r' & ER & I'); [left; exact IN|].
      rewrite ER, (read_ptr k v EV). rewrite zlen_le_bytes, <- ptr_size_bytes, Z.eqb_refl.
      rewrite le_val_bytes by (rewrite <- ptr_size_bytes; apply (ps_range k); exact EV).
      assert (PU : Z.max (P * Z.of_nat k) (upto o (P * Z.of_nat k) P) = P * Z.of_nat (S k)). { unfold upto. lia. }
      rewrite PU in I'.
      assert (FI : (match (if (k =? 0)%nat then None else Some (P * (zlen blobs + 1))) with None => v | Some w => w end) = P * (zlen blobs + 1)).
      { destruct k as [|k]; [|reflexivity]. rewrite ps_nth in EV by lia. injection EV as <-. cbn. change (zlen (@nil byte)) with 0. lia. }
      rewrite FI. destruct (IH (S k) numbers last r' I') as (r2 & p2 & E2 & I2 & G2 & _); [lia|lia|exact HL|].
      cbn [Nat.eqb] in E2.
      replace (P * Z.of_nat k + P) with (P * Z.of_nat (S k)) by lia. replace (Z.of_nat k + 1) with (Z.of_nat (S k)) by lia.
      rewrite E2. exists r2, p2. split; [|split; [exact I2|split; [clear -G2 PP; nia|intros _ _; exact G2]]]. rewrite SK. cbn [select_offsets]. replace (Z.of_nat k + 1) with (Z.of_nat (S k)) by lia. reflexivity.
    + exists r. eexists. split; [|split; [exact HI|split; [lia|intros X _; destruct last; [lia|discriminate EL]]]]. f_equal. f_equal. symmetry. destruct numbers as [ns|].
      * destruct HL as (m & -> & Hm). apply select_none_after. intros x Hx. apply Hm in Hx. lia.
      * subst last. discriminate.
Qed.

(** Some offset is read. *)
Definition reads_some (ns : option (list Z)) : Prop := strict = true -> match ns with Some l => l = [] \/ exists x, In x l /\ 0 <= x | None => True end.
Lemma plain_offsets_ok : forall ns c, cinv c -> reads_some ns -> exists c', plain_offsets dc new_decomp f fuel ns c = (Ok (select_offsets 0 ns ps), c') /\ cinv c' /\ informed c'.
Proof.
  intros ns c CI RS. unfold plain_offsets, mbind. destruct (info_ok c CI) as (c1 & E1 & CI1 & IN1). rewrite E1. cbn [snd].
  assert (GEN : forall last, (strict = true -> match last with Some m => 0 <= m | None => True end) -> match ns with None => last = None | Some l => exists m, last = Some m /\ forall x, In x l -> x <= m end ->
    exists c', with_reader dc new_decomp f 0 (fun r => offsets_loop dc f fuel P ns last None 0 0 r) c1 = (Ok (select_offsets 0 ns ps), c') /\ cinv c' /\ informed c').
  { intros last LN HL. destruct (with_reader_ok _ 0 (fun r => offsets_loop dc f fuel P ns last None 0 0 r) (fun x => x = Ok (select_offsets 0 ns ps)) c1 CI1) as (x & c' & E & CI' & IN' & ->); [lia|left; apply zlen_nonneg| |exists c'; split; [exact E|auto]].
    intros r HI. rewrite Z.min_l in HI by apply zlen_nonneg.
    destruct (offsets_loop_ok fuel 0 ns last r) as (r' & p' & E & I' & _ & G); [rewrite Z.mul_0_r; exact HI|lia| |exact HL|].
    - pose proof ps_len as PL. pose proof o_len as OL. pose proof P_pos. pose proof (zlen_nonneg (concat blobs)). pose proof (zlen_nonneg tail).
      pose proof (zlen_nonneg blobs). unfold zlen at 1 in PL. nia.
    - cbn [Nat.eqb] in E. rewrite Z.mul_0_r in E. change (Z.of_nat 0) with 0 in E. rewrite E. cbn [skipn]. exists (Ok (select_offsets 0 ns ps)), r', p'. split; [reflexivity|]. split; [exact I'|]. split; [|reflexivity].
      intro HS. pose proof P_pos. pose proof ps_len as PL. pose proof (zlen_nonneg blobs). assert (Q : P * Z.of_nat 1 <= p'); [|lia]. apply G; [exact (LN HS)|unfold zlen in *; lia]. }
  destruct ns as [[|a l]|].
  - exists c1. split; [|auto]. unfold ret. f_equal. f_equal. symmetry. apply select_none_after. intros x [].
  - apply GEN; [|eexists; split; [reflexivity|apply zmax_ge]]. intro HS. destruct (RS HS) as [E|(x & Hx & X0)]; [discriminate E|]. pose proof (zmax_ge _ _ Hx). lia.
  - apply GEN; reflexivity.
Qed.

Lemma set_offsets_inv : forall c, cinv c -> informed c -> kd <> KPlain -> cinv (set_offsets (Some ps) c).
Proof. intros c (K & O & I & R & F & Dt) IN N. unfold cinv, set_offsets. cbn. auto 10. Qed.
Lemma set_data_inv : forall c, cinv c -> kd = KInMemory -> cinv (set_data (Some (concat blobs)) c).
Proof. intros c (K & O & I & R & F & Dt) N. unfold cinv, set_data. cbn. auto 10. Qed.

Lemma remembered_ok : forall c, cinv c -> kd <> KPlain -> exists c', remembered dc new_decomp f fuel c = (Ok ps, c') /\ cinv c' /\ informed c'.
Proof.
  intros c CI N. unfold remembered. pose proof CI as (_ & _ & _ & _ & F & _). destruct F as [F|(F & _ & IN)]; rewrite F.
  - destruct (plain_offsets_ok None c CI (fun _ => Logic.I)) as (c1 & E & CI1 & IN1). rewrite E, select_all. eexists. split; [reflexivity|].
    split; [apply set_offsets_inv; assumption|exact IN1].
  - exists c. auto.
Qed.

Lemma kind_of : forall c, cinv c -> cl_kind c = kd. Proof. intros c H. apply H. Qed.

Lemma blob_offsets_ok : forall ns c, cinv c -> reads_some ns -> exists c', blob_offsets dc new_decomp f fuel ns c = (Ok (select_offsets 0 ns ps), c') /\ cinv c' /\ informed c'.
Proof.
  intros ns c CI RS. unfold blob_offsets. rewrite (kind_of c CI). destruct kd eqn:K.
  - apply plain_offsets_ok; assumption.
  - unfold mbind, ret. destruct (remembered_ok c CI) as (c' & E & H); [congruence|]. rewrite E. eauto.
  - unfold mbind, ret. destruct (remembered_ok c CI) as (c' & E & H); [congruence|]. rewrite E. eauto.
Qed.

Lemma znth_ps : forall i, 0 <= i <= zlen blobs ->
  znth ps i = Some (P * (zlen blobs + 1) + zlen (concat (firstn (Z.to_nat i) blobs))).
Proof. intros i H. unfold znth. destruct (Z.ltb_spec i 0); [lia|]. apply ps_nth. unfold zlen in H. lia. Qed.
Lemma znth_ps_none : forall i, zlen blobs < i -> znth ps i = None.
Proof. intros i H. unfold znth. destruct (Z.ltb_spec i 0); [reflexivity|]. apply positions_nth_none. unfold zlen in H. lia. Qed.

Lemma get_offset_ok : forall i c, cinv c -> 0 <= i -> exists c',
  get_offset dc new_decomp f fuel i c = (match znth ps i with Some x => Ok x | None => Err IndexError end, c') /\ cinv c' /\ informed c'.
Proof.
  intros i c CI Hi. unfold get_offset. destruct (Z.ltb_spec i 0); [lia|]. unfold mbind.
  destruct (blob_offsets_ok (Some [i]) c CI ltac:(intros _; right; exists i; split; [left; reflexivity|lia])) as (c' & E & H'). rewrite E, select_one by lia.
  destruct (Z.ltb_spec i 0); [lia|]. rewrite Z.sub_0_r. exists c'. destruct (znth ps i); cbn; auto.
Qed.

Lemma pointer_size_ok : forall c, informed c -> pointer_size c = (Ok P, c).
Proof. intros c H. unfold pointer_size. rewrite H. reflexivity. Qed.

Lemma number_of_offsets_ok : forall c, cinv c -> exists c', number_of_offsets dc new_decomp f fuel c = (Ok (zlen blobs + 1), c') /\ cinv c' /\ informed c'.
Proof.
  intros c CI. unfold number_of_offsets, mbind. destruct (get_offset_ok 0 c CI) as (c' & E & CI' & IN'); [lia|].
  rewrite E, znth_ps by (pose proof (zlen_nonneg blobs); lia). rewrite pointer_size_ok by exact IN'.
  exists c'. split; [|auto]. unfold ret. f_equal. f_equal. cbn. change (zlen (@nil byte)) with 0.
  rewrite Z.add_0_r, Z.mul_comm. apply Z.div_mul. pose proof P_pos. lia.
Qed.
Lemma number_of_blobs_ok : forall c, cinv c -> exists c', number_of_blobs dc new_decomp f fuel c = (Ok (zlen blobs), c') /\ cinv c' /\ informed c'.
Proof.
  intros c CI. unfold number_of_blobs, mbind. destruct (number_of_offsets_ok c CI) as (c' & E & H). rewrite E.
  exists c'. split; [|exact H]. unfold ret. f_equal. f_equal. lia.
Qed.
Lemma firstn_all_blobs : firstn (Z.to_nat (zlen blobs)) blobs = blobs.
Proof. apply firstn_all2. unfold zlen. lia. Qed.
Lemma content_size_ok : forall c, cinv c -> exists c', content_size dc new_decomp f fuel c = (Ok (zlen (concat blobs)), c') /\ cinv c' /\ informed c'.
Proof.
  intros c CI. pose proof (zlen_nonneg blobs). unfold content_size, mbind.
  destruct (get_offset_ok 0 c CI) as (c1 & E1 & CI1 & _); [lia|]. rewrite E1, znth_ps by lia.
  destruct (number_of_offsets_ok c1 CI1) as (c2 & E2 & CI2 & _). rewrite E2.
  destruct (get_offset_ok (zlen blobs + 1 - 1) c2 CI2) as (c3 & E3 & H3); [lia|]. rewrite E3, znth_ps by lia.
  exists c3. split; [|exact H3]. unfold ret. f_equal. f_equal. replace (zlen blobs + 1 - 1) with (zlen blobs) by lia.
  rewrite firstn_all_blobs. cbn. change (zlen (@nil byte)) with 0. lia.
Qed.
Lemma data_len : zlen (cluster_data ext blobs) = P * (zlen blobs + 1) + zlen (concat blobs).
Proof. rewrite cluster_data_len. unfold pointers_size. rewrite ptr_size_bytes. reflexivity. Qed.
Lemma total_decompressed_ok : forall c, cinv c -> exists c', total_decompressed_size dc new_decomp f fuel c = (Ok (zlen (cluster_data ext blobs)), c') /\ cinv c' /\ informed c'.
Proof.
  intros c CI. pose proof (zlen_nonneg blobs). unfold total_decompressed_size, mbind.
  destruct (number_of_offsets_ok c CI) as (c2 & E2 & CI2 & _). rewrite E2.
  destruct (get_offset_ok (zlen blobs + 1 - 1) c2 CI2) as (c3 & E3 & H3); [lia|]. rewrite E3, znth_ps by lia.
  exists c3. split; [|exact H3]. f_equal. f_equal. replace (zlen blobs + 1 - 1) with (zlen blobs) by lia.
  rewrite firstn_all_blobs, data_len. reflexivity.
Qed.
Lemma total_offset_size_ok : forall c, cinv c -> exists c', total_offset_size dc new_decomp f fuel c = (Ok (P * (zlen blobs + 1)), c') /\ cinv c' /\ informed c'.
Proof.
  intros c CI. unfold total_offset_size, mbind.
  destruct (number_of_offsets_ok c CI) as (c2 & E2 & CI2 & IN2). rewrite E2, pointer_size_ok by exact IN2.
  exists c2. split; [|auto]. unfold ret. f_equal. f_equal. lia.
Qed.

Lemma total_compressed_ok : forall c, cinv c -> (ct = NONE \/ ends = true) -> exists c',
  total_compressed dc new_decomp f fuel c = (Ok (1 + if ctype_eqb ct NONE then zlen (cluster_data ext blobs) else zlen C), c') /\ cinv c' /\ informed c'.
Proof.
  intros c CI HE. unfold total_compressed, mbind. destruct (info_ok c CI) as (c1 & E1 & CI1 & IN1). rewrite E1. cbn [fst].
  destruct (ctype_eqb ct NONE) eqn:EQ.
  - destruct (total_decompressed_ok c1 CI1) as (c2 & E2 & H2). rewrite E2. exists c2. split; [|exact H2]. unfold ret. f_equal. f_equal. lia.
  - destruct HE as [HE|HE]; [rewrite HE in EQ; discriminate|].
    match goal with |- exists c', with_reader _ _ _ _ ?k _ = _ /\ _ => 
      destruct (with_reader_ok _ 0 k (fun x => x = Ok (1 + zlen C)) c1 CI1) as (x & c2 & E2 & CI2 & IN2 & ->); [lia|left; apply zlen_nonneg| |exists c2; auto] end.
    intros r HI. rewrite Z.min_l in HI by apply zlen_nonneg.
    destruct (iter_loop_ok dc f base C J o Rep ends CT CE HB HF fuel (-1) 4096 0 r 0 HI) as (l & r' & E & _ & _ & I' & EOF); [lia|lia|lia|right; exact HE|lia|].
    unfold iter_read. change (0 <? 4096) with true. cbv iota. rewrite E. specialize (EOF ltac:(lia)).
    unfold total_compressed_size. rewrite EOF. pose proof I' as (_ & _ & _ & cc & u & o' & Ha & Hr & _).
    destruct (ce_eof _ _ _ (CE HE) _ _ _ _ Hr EOF) as (-> & -> & _).
    destruct Ha as (Cf & Jr & HC & _ & EQ1 & _). rewrite app_nil_r in HC. subst Cf.
    eexists _, r', _. split; [reflexivity|]. split; [exact I'|]. split; [intros _; pose proof o_pos; pose proof P_pos; cbn [Z.ltb] in *; unfold upto in *; cbn; lia|]. f_equal. lia.
Qed.

(** The offsets of blob [i]. *)
Definition blob_at (i : Z) : Z := P * (zlen blobs + 1) + zlen (concat (firstn (Z.to_nat i) blobs)).
Lemma blob_at_ge : forall i, P * (zlen blobs + 1) <= blob_at i.
Proof. intros i. unfold blob_at. pose proof (zlen_nonneg (concat (firstn (Z.to_nat i) blobs))). lia. Qed.
Lemma blob_at_pos : forall i, 0 < blob_at i.
Proof. intro i. pose proof (blob_at_ge i). pose proof P_pos. pose proof (zlen_nonneg blobs). nia. Qed.
Lemma two_offsets : forall i, 0 <= i -> select_offsets 0 (Some [i; i + 1]) ps =
  match znth blobs i with
  | Some b => [blob_at i; blob_at i + zlen b]
  | None => match znth ps i with Some a => [a] | None => [] end
  end.
Proof.
  intros i Hi. rewrite select_two by lia. rewrite !Z.sub_0_r.
  destruct (Z.lt_ge_cases i (zlen blobs)) as [L|L].
  - rewrite !znth_ps by lia. unfold znth. destruct (Z.ltb_spec i 0); [lia|].
    destruct (nth_error blobs (Z.to_nat i)) as [b|] eqn:E; [|apply nth_error_None in E; unfold zlen in L; lia].
    f_equal. f_equal. unfold blob_at. replace (Z.to_nat (i + 1)) with (S (Z.to_nat i)) by lia. rewrite (firstn_S_concat _ _ _ E). lia.
  - rewrite (znth_ps_none (i + 1)) by lia.
    assert (N : znth blobs i = None).
    { unfold znth. destruct (Z.ltb_spec i 0); [lia|]. apply nth_error_None. unfold zlen in L. lia. }
    rewrite N. reflexivity.
Qed.

Lemma blob_size_ok : forall i c, cinv c -> 0 <= i -> exists c',
  blob_size dc new_decomp f fuel i c = (match znth blobs i with Some b => Ok (zlen b) | None => Err BlobNotFound end, c') /\ cinv c' /\ informed c'.
Proof.
  intros i c CI Hi. unfold blob_size. destruct (Z.ltb_spec i 0); [lia|]. unfold mbind.
  destruct (blob_offsets_ok (Some [i; i + 1]) c CI ltac:(intros _; right; exists i; split; [left; reflexivity|lia])) as (c' & E & H'). rewrite E, two_offsets by exact Hi.
  exists c'. split; [|exact H']. destruct (znth blobs i); [unfold ret; f_equal; f_equal; lia|]. destruct (znth ps i); reflexivity.
Qed.

(** Bytes of blob [i] in the stream. *)
Lemma blob_bytes : forall i b s n, znth blobs i = Some b -> 0 <= s -> n <= zlen b - s -> zsub (blob_at i + s) n o = zsub s n b.
Proof.
  intros i b s n H Hs Hn. unfold znth in H. destruct (Z.ltb_spec i 0); [discriminate|].
  destruct (Z.le_gt_cases n 0) as [N|N]; [unfold zsub; rewrite !ztake_neg by exact N; reflexivity|].
  unfold cluster_data, blob_at. rewrite (concat_nth _ _ _ H). unfold zsub. rewrite <- !app_assoc.
  rewrite zskip_app_r by (rewrite enc_len, ps_len, <- ptr_size_bytes; pose proof (zlen_nonneg (concat (firstn (Z.to_nat i) blobs))); lia).
  rewrite enc_len, ps_len, <- ptr_size_bytes.
  rewrite zskip_app_r by lia. match goal with |- ztake _ (zskip ?x _) = _ => replace x with s by lia end.
  rewrite zskip_app_l by lia. rewrite ztake_app_l; [reflexivity|]. rewrite zskip_len by lia. lia.
Qed.
Lemma blob_inside : forall i b, znth blobs i = Some b -> 0 <= i /\ 0 <= blob_at i /\ blob_at i + zlen b <= zlen (cluster_data ext blobs).
Proof.
  intros i b H. unfold znth in H. destruct (Z.ltb_spec i 0); [discriminate|]. split; [assumption|].
  rewrite data_len. unfold blob_at. pose proof P_pos. pose proof (zlen_nonneg blobs).
  pose proof (concat_firstn_le blobs (Z.to_nat i)). split; [nia|].
  pose proof (firstn_S_concat _ _ _ H). pose proof (concat_firstn_le blobs (S (Z.to_nat i))). lia.
Qed.

Lemma range_ok_iff : forall s e, sensible_range s e -> range_ok s e = true.
Proof. intros [s|] [e|]; unfold sensible_range, range_ok; intros (A & B & X); lia. Qed.
Lemma nothing_part : forall s e b m, sensible_range s e -> zlen b <= m -> nothing_to_read s e m = true -> part s e b = [].
Proof.
  intros [s|] [e|] b m (A & B & X) Hm H; cbn in H; try discriminate. unfold part. apply orb_prop in H. destruct H as [H|H].
  - unfold zsub. rewrite zskip_all by lia. unfold ztake. apply firstn_nil.
  - apply zsub_zero. lia.
Qed.

(** The absolute range denotes the part asked for. *)
Lemma abs_part : forall i b s e, znth blobs i = Some b -> sensible_range s e ->
  forall x y, abs_range s e (blob_at i) (blob_at i + zlen b) = (x, y) ->
  blob_at i <= x /\ y <= blob_at i + zlen b /\
  part s e b = zsub (x - blob_at i) (y - x) b /\
  (starts_inside blobs i s -> (s = None \/ e = None \/ nothing_to_read s e (blob_at i + zlen b) = false) -> x <= y).
Proof.
  intros i b s e H R x y E. destruct (blob_inside i b H) as (Hi & Ha & Hb). pose proof (zlen_nonneg b).
  unfold abs_range in E. injection E as <- <-. destruct R as (R1 & R2 & R3). unfold part, starts_inside. rewrite H.
  destruct s as [s|], e as [e|]; cbn [nothing_to_read].
  - split; [lia|]. split; [lia|]. split; [|intros; lia].
    replace (blob_at i + s - blob_at i) with s by lia.
    destruct (Z.le_gt_cases e (zlen b)).
    + f_equal. lia.
    + destruct (Z.le_gt_cases s (zlen b)).
      * unfold zsub. rewrite !ztake_all; [reflexivity| |]; rewrite zskip_len by lia; lia.
      * unfold zsub. rewrite zskip_all by lia. unfold ztake. rewrite !firstn_nil. reflexivity.
  - split; [lia|]. split; [lia|]. split; [|lia]. f_equal; lia.
  - split; [lia|]. split; [lia|]. split; [|lia].
    replace (blob_at i - blob_at i) with 0 by lia. rewrite Z.sub_0_r. destruct (Z.le_gt_cases e (zlen b)); [f_equal; lia|].
    unfold zsub. rewrite zskip_0, !ztake_all by lia. reflexivity.
  - split; [lia|]. split; [lia|]. split; [|lia]. f_equal; lia.
Qed.

Lemma plain_read_ok : forall i s e c, cinv c -> 0 <= i -> sensible_range s e -> (starts_inside blobs i s \/ ends = true) ->
  exists c', plain_read_blob dc new_decomp f fuel i s e c =
    (match znth blobs i with Some b => Ok (part s e b) | None => Err BlobNotFound end, c') /\ cinv c' /\ informed c'.
Proof.
  intros i s e c CI Hi R HE. unfold plain_read_blob. destruct (Z.ltb_spec i 0); [lia|]. rewrite (range_ok_iff _ _ R). cbn [orb negb].
  unfold mbind. destruct (blob_offsets_ok (Some [i; i + 1]) c CI ltac:(intros _; right; exists i; split; [left; reflexivity|lia])) as (c1 & E1 & CI1 & IN1). rewrite E1, two_offsets by exact Hi.
  destruct (znth blobs i) as [b|] eqn:HB1; [|exists c1; destruct (znth ps i); cbn; auto].
  destruct (blob_inside i b HB1) as (_ & Ha & Hb).
  destruct (nothing_to_read s e (blob_at i + zlen b)) eqn:NT.
  - exists c1. split; [|auto]. unfold ret. rewrite (nothing_part s e b (blob_at i + zlen b) R) by (exact NT || lia). reflexivity.
  - destruct (abs_range s e (blob_at i) (blob_at i + zlen b)) as [x y] eqn:EA.
    destruct (abs_part i b s e HB1 R x y EA) as (Hx & Hy & HP & HI).
    assert (HI' : starts_inside blobs i s -> x <= y) by (intro; apply HI; auto).
    assert (LO : zlen (cluster_data ext blobs) <= zlen o) by (rewrite zlen_app; pose proof (zlen_nonneg tail); lia).
    destruct (with_reader_ok _ x (read_n dc f (y - x)) (fun r => r = Ok (part s e b)) c1 CI1) as (z & c2 & E2 & CI2 & IN2 & ->); [lia| | |exists c2; auto].
    { destruct HE as [HE|HE]; [left; specialize (HI' HE); lia|right; exact HE]. }
    intros r HR.
    destruct (Z.le_gt_cases x (zlen o)) as [L|L].
    + rewrite Z.min_l in HR by exact L.
      destruct (read_n_ok dc f base C J o Rep ends CT CE HB HF (y - x) r _ HR) as (r' & ER & I'); [destruct (Z.le_gt_cases x y); [left; lia|]|].
      { destruct HE as [HE|HE]; [specialize (HI' HE); lia|right; exact HE]. }
      exists (Ok (zsub x (y - x) o)), r'. eexists. split; [exact ER|]. split; [exact I'|]. split; [intros _; pose proof (blob_at_pos i); lia|]. f_equal. rewrite HP.
      replace x with (blob_at i + (x - blob_at i)) at 1 by lia. apply blob_bytes with (1 := HB1); lia.
    + exists (Ok []), r. eexists. split; [|split; [exact HR|split; [intros _; pose proof o_pos; pose proof P_pos; lia|]]].
      * unfold read_n. replace (Z.to_nat (y - x) + 2)%nat with 2%nat by lia. cbn [read_n_loop]. destruct (Z.ltb_spec (zlen (@nil byte)) (y - x)); [|reflexivity].
        change (zlen (@nil byte)) with 0 in *. lia.
      * f_equal. rewrite HP. symmetry. apply zsub_zero. lia.
Qed.

Lemma plain_iter_ok : forall i n s e c, cinv c -> 0 <= i -> 1 <= n -> sensible_range s e -> starts_inside blobs i s ->
  exists x c', plain_iter_read_blob dc new_decomp f fuel i n s e c = (x, c') /\ cinv c' /\ informed c' /\
    match znth blobs i with
    | Some b => exists l, x = Ok l /\ concat l = part s e b /\ Forall (fun y => zlen y <= n) l
    | None => x = Err BlobNotFound end.
Proof.
  intros i n s e c CI Hi Hn R HE. unfold plain_iter_read_blob. destruct (Z.leb_spec n 0); [lia|].
  destruct (Z.ltb_spec i 0); [lia|]. rewrite (range_ok_iff _ _ R). cbn [orb negb].
  unfold mbind. destruct (blob_offsets_ok (Some [i; i + 1]) c CI ltac:(intros _; right; exists i; split; [left; reflexivity|lia])) as (c1 & E1 & CI1 & IN1). rewrite E1, two_offsets by exact Hi.
  destruct (znth blobs i) as [b|] eqn:HB1; [|exists (Err BlobNotFound), c1; destruct (znth ps i); cbn; auto].
  destruct (blob_inside i b HB1) as (_ & Ha & Hb).
  destruct (nothing_to_read s e (blob_at i + zlen b)) eqn:NT.
  - exists (Ok [[]]), c1. split; [reflexivity|]. split; [exact CI1|]. split; [exact IN1|]. exists [[]]. split; [reflexivity|].
    rewrite (nothing_part s e b (blob_at i + zlen b) R) by (exact NT || lia). split; [reflexivity|]. repeat constructor. change (zlen (@nil byte)) with 0. lia.
  - destruct (abs_range s e (blob_at i) (blob_at i + zlen b)) as [x y] eqn:EA.
    destruct (abs_part i b s e HB1 R x y EA) as (Hx & Hy & HP & HI). specialize (HI HE ltac:(auto)).
    assert (LO : zlen (cluster_data ext blobs) <= zlen o) by (rewrite zlen_app; pose proof (zlen_nonneg tail); lia).
    destruct (with_reader_ok _ x (iter_read dc f fuel (y - x) n) (fun r => exists l, r = Ok l /\ concat l = part s e b /\ Forall (fun z => zlen z <= n) l) c1 CI1)
      as (z & c2 & E2 & CI2 & IN2 & PZ); [lia|left; lia| |exists z, c2; auto].
    intros r HR. rewrite Z.min_l in HR by lia.
    destruct (iter_loop_ok dc f base C J o Rep ends CT CE HB HF fuel (y - x) n 0 r x HR Hn) as (l & r' & E & CC & FF & I' & _); [lia|lia|left; lia|lia|].
    unfold iter_read. destruct (Z.ltb_spec 0 n); [|lia]. exists (Ok l), r'. eexists. split; [exact E|]. split; [exact I'|]. split; [intros _; pose proof (blob_at_pos i); destruct (Z.ltb_spec (y - x) 0); unfold upto; lia|].
    exists l. split; [reflexivity|]. split; [|eapply Forall_impl; [|exact FF]; intros; cbn in *; lia].
    rewrite CC, HP. destruct (Z.ltb_spec (y - x) 0); [lia|]. unfold upto. rewrite Z.sub_0_r. rewrite Z.min_l by lia.
    replace (x + (y - x) - x) with (y - x) by lia. replace x with (blob_at i + (x - blob_at i)) at 1 by lia. apply blob_bytes with (1 := HB1); lia.
Qed.

Lemma mem_data_ok : forall c, cinv c -> kd = KInMemory -> exists c', mem_data dc new_decomp f fuel c = (Ok (concat blobs), c') /\ cinv c'.
Proof.
  intros c CI K. unfold mem_data. pose proof CI as (_ & _ & _ & _ & _ & Dt). destruct Dt as [Dt|(Dt & _)]; rewrite Dt; [|exists c; auto].
  unfold mbind. destruct (info_ok c CI) as (c1 & E1 & CI1 & _). rewrite E1.
  destruct (remembered_ok c1 CI1) as (c2 & E2 & CI2 & _); [congruence|]. rewrite E2.
  destruct (content_size_ok c2 CI2) as (c3 & E3 & CI3 & _). rewrite E3.
  destruct (get_offset_ok 0 c3 CI3) as (c4 & E4 & CI4 & _); [lia|]. rewrite E4.
  pose proof (zlen_nonneg blobs). rewrite znth_ps by lia. cbn [firstn concat Z.to_nat]. change (zlen (@nil byte)) with 0. rewrite Z.add_0_r.
  pose proof P_pos. pose proof data_len as DL. pose proof (zlen_nonneg (concat blobs)).
  assert (LO : zlen (cluster_data ext blobs) <= zlen o) by (rewrite zlen_app; pose proof (zlen_nonneg tail); lia).
  destruct (with_reader_ok _ (P * (zlen blobs + 1)) (read_n dc f (zlen (concat blobs))) (fun r => r = Ok (concat blobs)) c4 CI4) as (z & c5 & E5 & CI5 & _ & ->); [nia|left; lia| |].
  - intros r HR. rewrite Z.min_l in HR by lia.
    destruct (read_n_ok dc f base C J o Rep ends CT CE HB HF (zlen (concat blobs)) r _ HR) as (r' & ER & I'); [left; lia|].
    eexists _, r', _. split; [exact ER|]. split; [exact I'|]. split; [intros _; nia|]. f_equal. unfold cluster_data, zsub. rewrite <- app_assoc.
    rewrite zskip_app_exact by (rewrite enc_len, ps_len, <- ptr_size_bytes; reflexivity). apply ztake_app_exact. reflexivity.
  - rewrite E5. eexists. split; [reflexivity|]. apply set_data_inv; assumption.
Qed.


(** Part of the content, relative to the start of the content. *)
Lemma content_bytes : forall i b s n, znth blobs i = Some b -> 0 <= s -> n <= zlen b - s ->
  zsub (blob_at i - P * (zlen blobs + 1) + s) n (concat blobs) = zsub s n b.
Proof.
  intros i b s n H Hs Hn. unfold znth in H. destruct (Z.ltb_spec i 0); [discriminate|].
  destruct (Z.le_gt_cases n 0) as [N|N]; [unfold zsub; rewrite !ztake_neg by exact N; reflexivity|].
  unfold blob_at. rewrite (concat_nth _ _ _ H). unfold zsub.
  rewrite zskip_app_r by lia. match goal with |- ztake _ (zskip ?x _) = _ => replace x with s by lia end.
  rewrite zskip_app_l by lia. rewrite ztake_app_l; [reflexivity|]. rewrite zskip_len by lia. lia.
Qed.

Lemma abs_range_ge : forall s e a b, sensible_range s e -> a <= b -> a <= fst (abs_range s e a b) /\ a <= snd (abs_range s e a b).
Proof. intros [s|] [e|] a b (A & B & X) H; cbn [abs_range fst snd]; lia. Qed.

Lemma mem_read_ok : forall i s e c, cinv c -> kd = KInMemory -> 0 <= i -> sensible_range s e ->
  exists c', mem_read_blob dc new_decomp f fuel i s e c =
    (match znth blobs i with Some b => Ok (part s e b) | None => Err BlobNotFound end, c') /\ cinv c' /\ informed c'.
Proof.
  intros i s e c CI K Hi R. unfold mem_read_blob. destruct (Z.ltb_spec i 0); [lia|]. unfold mbind.
  destruct (mem_data_ok c CI K) as (c0 & E0 & CI0). rewrite E0.
  destruct (blob_offsets_ok (Some [i; i + 1]) c0 CI0 ltac:(intros _; right; exists i; split; [left; reflexivity|lia])) as (c1 & E1 & CI1 & IN1). rewrite E1, two_offsets by exact Hi.
  destruct (znth blobs i) as [b|] eqn:HB1; [|exists c1; destruct (znth ps i); cbn; auto].
  destruct (blob_inside i b HB1) as (_ & Ha & Hb).
  destruct (nothing_to_read s e (blob_at i + zlen b)) eqn:NT.
  - exists c1. split; [|auto]. unfold ret. rewrite (nothing_part s e b (blob_at i + zlen b) R) by (exact NT || lia). reflexivity.
  - pose proof (abs_range_ge s e (blob_at i) (blob_at i + zlen b) R) as G. pose proof (zlen_nonneg b).
    destruct (abs_range s e (blob_at i) (blob_at i + zlen b)) as [x y] eqn:EA.
    destruct (abs_part i b s e HB1 R x y EA) as (Hx & Hy & HP & HI). cbn [fst snd] in G.
    destruct (total_offset_size_ok c1 CI1) as (c2 & E2 & CI2 & IN2). rewrite E2. exists c2. split; [|auto]. unfold ret. f_equal. f_equal.
    pose proof (blob_at_ge i). rewrite py_slice_pos by lia. rewrite HP.
    replace (x - P * (zlen blobs + 1)) with (blob_at i - P * (zlen blobs + 1) + (x - blob_at i)) at 1 by lia.
    replace (y - P * (zlen blobs + 1) - (x - P * (zlen blobs + 1))) with (y - x) by lia.
    apply content_bytes; [exact HB1|lia|lia].
Qed.

Lemma mem_chunks_ok : forall n bs cur stop data, 1 <= bs -> 0 <= cur -> Z.max 0 (stop - cur) < Z.of_nat n -> stop <= zlen data ->
  exists l, mem_chunks n bs cur stop data = Ok l /\ concat l = zsub cur (stop - cur) data /\ Forall (fun x => zlen x <= bs) l.
Proof.
  induction n as [|n IH]; intros bs cur stop data Hb Hc Hn Hs; cbn [mem_chunks]; [lia|].
  destruct (Z.ltb_spec cur stop).
  - destruct (IH bs (Z.min (cur + bs) stop) stop data) as (l & E & CC & FF); [lia|lia|lia|lia|]. rewrite E. cbn [bind].
    eexists. split; [reflexivity|]. rewrite py_slice_pos by lia. cbn [concat]. rewrite CC. split.
    + replace (stop - cur) with ((Z.min (cur + bs) stop - cur) + (stop - Z.min (cur + bs) stop)) by lia.
      rewrite zsub_add by lia. f_equal. f_equal. lia.
    + constructor; [|exact FF]. rewrite zsub_len by lia. lia.
  - exists []. split; [reflexivity|]. split; [|constructor]. symmetry. apply zsub_zero. lia.
Qed.

Lemma mem_iter_ok : forall i n s e c, cinv c -> kd = KInMemory -> 0 <= i -> 1 <= n -> sensible_range s e ->
  exists x c', mem_iter_read_blob dc new_decomp f fuel i n s e c = (x, c') /\ cinv c' /\ informed c' /\
    match znth blobs i with
    | Some b => exists l, x = Ok l /\ concat l = part s e b /\ Forall (fun y => zlen y <= n) l
    | None => x = Err BlobNotFound end.
Proof.
  intros i n s e c CI K Hi Hn R. unfold mem_iter_read_blob. destruct (Z.ltb_spec i 0); [lia|]. destruct (Z.leb_spec n 0); [lia|]. cbn [orb]. unfold mbind.
  destruct (mem_data_ok c CI K) as (c0 & E0 & CI0). rewrite E0.
  destruct (blob_offsets_ok (Some [i; i + 1]) c0 CI0 ltac:(intros _; right; exists i; split; [left; reflexivity|lia])) as (c1 & E1 & CI1 & IN1). rewrite E1, two_offsets by exact Hi.
  destruct (znth blobs i) as [b|] eqn:HB1; [|exists (Err BlobNotFound), c1; destruct (znth ps i); cbn; auto].
  destruct (blob_inside i b HB1) as (_ & Ha & Hb).
  destruct (nothing_to_read s e (blob_at i + zlen b)) eqn:NT.
  - exists (Ok []), c1. split; [reflexivity|]. split; [exact CI1|]. split; [exact IN1|]. exists []. split; [reflexivity|].
    rewrite (nothing_part s e b (blob_at i + zlen b) R) by (exact NT || lia). split; [reflexivity|constructor].
  - pose proof (abs_range_ge s e (blob_at i) (blob_at i + zlen b) R) as G. pose proof (zlen_nonneg b).
    destruct (abs_range s e (blob_at i) (blob_at i + zlen b)) as [x y] eqn:EA.
    destruct (abs_part i b s e HB1 R x y EA) as (Hx & Hy & HP & HI). cbn [fst snd] in G.
    destruct (total_offset_size_ok c1 CI1) as (c2 & E2 & CI2 & IN2). rewrite E2.
    pose proof (blob_at_ge i). rewrite data_len in Hb. pose proof o_len as OL. pose proof (zlen_nonneg tail). pose proof P_pos. pose proof (zlen_nonneg blobs).
    destruct (mem_chunks_ok fuel n (x - P * (zlen blobs + 1)) (y - P * (zlen blobs + 1)) (concat blobs) Hn) as (l & EL & CC & FF); [lia|nia|lia|].
    rewrite EL. exists (Ok l), c2. split; [reflexivity|]. split; [exact CI2|]. split; [exact IN2|]. exists l. split; [reflexivity|]. split; [|exact FF].
    rewrite CC, HP. replace (x - P * (zlen blobs + 1)) with (blob_at i - P * (zlen blobs + 1) + (x - blob_at i)) at 1 by lia.
    replace (y - P * (zlen blobs + 1) - (x - P * (zlen blobs + 1))) with (y - x) by lia.
    apply content_bytes; [exact HB1|lia|lia].
Qed.

Lemma reset_inv : forall c, cinv c -> cinv (reset c).
Proof.
  intros c CI. pose proof CI as (K & O & I & R & F & Dt). unfold reset. rewrite K.
  destruct kd eqn:KD; unfold cinv, set_info, set_offsets, set_data; cbn; rewrite KD in *; intuition congruence.
Qed.

Notation allowed := (allowed_call ct blobs kd ends).

Lemma ask_ok : forall q c, (forall ns, q = QOffsets ns -> reads_some ns) -> cinv c -> allowed q ->
  answer ct ext blobs C q (fst (ask dc new_decomp f fuel q c)) /\ cinv (snd (ask dc new_decomp f fuel q c)).
Proof.
  intros q c NS CI (SE & NE & INS). destruct q; cbn [ask answer sensible no_end_needed inside] in *.
  - cbn [fst snd]. split; [reflexivity|apply reset_inv; exact CI].
  - destruct (blob_offsets_ok numbers c CI (NS _ eq_refl)) as (c' & E & CI' & _). rewrite E. cbn [fst snd]. rewrite select_picked. auto.
  - destruct (Z.ltb_spec i 0) as [L|L].
    + unfold get_offset, znth. destruct (Z.ltb_spec i 0); [|lia]. cbn. auto.
    + destruct (get_offset_ok i c CI L) as (c' & E & CI' & _). rewrite E. cbn [fst snd]. split; [destruct (znth ps i); reflexivity|exact CI'].
  - destruct (number_of_offsets_ok c CI) as (c' & E & CI' & _). rewrite E. cbn. auto.
  - destruct (number_of_blobs_ok c CI) as (c' & E & CI' & _). rewrite E. cbn. auto.
  - destruct (content_size_ok c CI) as (c' & E & CI' & _). rewrite E. cbn. auto.
  - destruct (total_decompressed_ok c CI) as (c' & E & CI' & _). rewrite E. cbn. auto.
  - destruct (total_offset_size_ok c CI) as (c' & E & CI' & _). rewrite E. cbn [fst snd num]. split; [|exact CI']. f_equal. rewrite data_len. lia.
  - destruct (total_compressed_ok c CI NE) as (c' & E & CI' & _). rewrite E. cbn [fst snd num]. auto.
  - destruct (blob_size_ok i c CI SE) as (c' & E & CI' & _). rewrite E. cbn [fst snd]. split; [destruct (znth blobs i); reflexivity|exact CI'].
  - destruct SE as (Hi & R). unfold read_blob. rewrite (kind_of c CI).
    assert (G : exists c', (match kd with KInMemory => mem_read_blob dc new_decomp f fuel i start stop c | _ => plain_read_blob dc new_decomp f fuel i start stop c end) =
      (match znth blobs i with Some b => Ok (part start stop b) | None => Err BlobNotFound end, c') /\ cinv c' /\ informed c').
    { destruct kd eqn:KD.
      - apply plain_read_ok; auto. intuition congruence.
      - apply plain_read_ok; auto. intuition congruence.
      - apply mem_read_ok; auto. }
    destruct G as (c' & E & CI' & _). rewrite E. cbn [fst snd]. split; [destruct (znth blobs i); reflexivity|exact CI'].
  - destruct SE as (Hi & Hn & R). unfold iter_read_blob. rewrite (kind_of c CI).
    assert (G : exists x c', (match kd with KInMemory => mem_iter_read_blob dc new_decomp f fuel i buffersize start stop c | _ => plain_iter_read_blob dc new_decomp f fuel i buffersize start stop c end) = (x, c') /\ cinv c' /\ informed c' /\
      match znth blobs i with
      | Some b => exists l, x = Ok l /\ concat l = part start stop b /\ Forall (fun y => zlen y <= buffersize) l
      | None => x = Err BlobNotFound end).
    { destruct kd eqn:KD.
      - apply plain_iter_ok; auto. destruct INS as [?|[?|(_ & X)]]; [assumption|congruence|exfalso; eapply X; reflexivity].
      - apply plain_iter_ok; auto. destruct INS as [?|[?|(_ & X)]]; [assumption|congruence|exfalso; eapply X; reflexivity].
      - apply mem_iter_ok; auto. }
    destruct G as (x & c' & E & CI' & _ & PX). rewrite E. cbn [fst snd]. split; [|exact CI'].
    destruct (znth blobs i); [destruct PX as (l & -> & A & B); exists l; auto|rewrite PX; reflexivity].
Qed.

Lemma asks_ok : forall qs c, strict = false -> cinv c -> Forall allowed qs -> Forall2 (answer ct ext blobs C) qs (asks dc new_decomp f fuel qs c).
Proof.
  induction qs as [|q qs IH]; intros c NS CI A; cbn [asks]; [constructor|]. inversion A; subst.
  destruct (ask_ok q c ltac:(intros ns _ E; congruence) CI) as (HA & CI'); [assumption|]. destruct (ask dc new_decomp f fuel q c) as [a c']. constructor; [exact HA|apply IH; assumption].
Qed.
Lemma new_cinv : cinv (cluster_new kd off).
Proof. unfold cinv, cluster_new. cbn. split; [reflexivity|]. split; [reflexivity|]. split; [auto|]. split; [intros r H; discriminate|auto]. Qed.
End Stored.
