From Coq Require Import List ZArith Bool Lia.
From Coq Require Import ZifyBool ZifyNat.
From Verif Require Import Base BaseProofs Reader ReaderSpec.
Import ListNotations.
Open Scope Z_scope.

Lemma zlen_zero_iff : forall {A} (l : list A), (zlen l =? 0) = true <-> l = [].
Proof. intros A l. rewrite Z.eqb_eq. split; [apply zlen_0|intros ->; reflexivity]. Qed.
Lemma zlen_pos : forall {A} (l : list A), l <> [] -> 1 <= zlen l.
Proof. intros A [|x l] H; [congruence|]. rewrite zlen_cons. pose proof (zlen_nonneg l). lia. Qed.

Section Proofs.
Context {D : Type}.
Variable dc : decomp D.
Variable f : bytes.
Variable base : Z.
Variables C J o : bytes.
Variable Rep : D -> bytes -> bytes -> bytes -> Prop.
Variable ends : bool.
Hypothesis CT : contract dc J Rep.
Hypothesis CE : ends = true -> contract_end dc J Rep.
Hypothesis Hbase : 0 <= base.
Hypothesis Hfile : zskip base f = C ++ J.

Definition at_in (k : Z) (c u : bytes) : Prop :=
  exists Cf Jr, C = Cf ++ c /\ J = u ++ Jr /\ k = zlen Cf + zlen u /\ (c <> [] -> u = []).

Lemma at_file : forall k c u, at_in k c u -> zskip (base + k) f = c ++ zskip (zlen u) J.
Proof.
  intros k c u (Cf & Jr & HC & HJ & Hk & Hu).
  assert (Z : zskip (base + k) f = zskip k (C ++ J)).
  { rewrite <- Hfile, zskip_zskip; [f_equal; lia| |exact Hbase]. subst k. pose proof (zlen_nonneg Cf). pose proof (zlen_nonneg u). lia. }
  rewrite Z. subst k. destruct c as [|b c].
  - rewrite app_nil_r in HC. subst Cf. rewrite zskip_app_r by (pose proof (zlen_nonneg u); lia).
    cbn [app]. f_equal. lia.
  - rewrite (Hu ltac:(discriminate)) in *. rewrite zlen_nil, Z.add_0_r, zskip_0, HC, <- app_assoc.
    apply zskip_app_exact. reflexivity.
Qed.

Lemma at_feed : forall k c u x r, at_in k c u -> x ++ r = c ++ zskip (zlen u) J ->
  at_in (k + zlen x) (zskip (zlen x) c) (u ++ zskip (zlen c) x).
Proof.
  intros k c u x r (Cf & Jr & HC & HJ & Hk & Hu) E.
  assert (ZJ : zskip (zlen u) J = Jr) by (rewrite HJ; apply zskip_app_exact; reflexivity). rewrite ZJ in E.
  destruct (Z.le_gt_cases (zlen x) (zlen c)) as [L|L].
  - assert (Ec : c = x ++ zskip (zlen x) c).
    { rewrite <- (ztake_zskip (zlen x) c) at 1. f_equal.
      rewrite <- (ztake_app_l (zlen x) c Jr L), <- E. apply ztake_app_exact. reflexivity. }
    rewrite (zskip_all (zlen c) x) by exact L. rewrite app_nil_r.
    exists (Cf ++ x), Jr. split; [rewrite <- app_assoc, <- Ec; exact HC|]. split; [exact HJ|].
    split; [rewrite zlen_app; lia|]. intro NE. apply Hu. intro Z. apply NE. rewrite Z. apply zskip_all. pose proof (zlen_nonneg x). rewrite zlen_nil. lia.
  - assert (Ex : x = c ++ zskip (zlen c) x).
    { rewrite <- (ztake_zskip (zlen c) x) at 1. f_equal.
      rewrite <- (ztake_app_l (zlen c) x r) by lia. rewrite E. apply ztake_app_exact. reflexivity. }
    rewrite (zskip_all (zlen x) c) by lia.
    exists C, r. rewrite app_nil_r. split; [reflexivity|]. split.
    + rewrite HJ, <- app_assoc. f_equal. rewrite Ex, <- app_assoc in E. apply app_inv_head in E. symmetry. exact E.
    + split; [|congruence]. assert (LX : zlen x = zlen c + zlen (zskip (zlen c) x)) by (rewrite Ex at 1; rewrite zlen_app; reflexivity).
      rewrite HC, !zlen_app. lia.
Qed.

(** State of the reader with [p] bytes delivered. *)
Definition inv (r : reader D) (p : Z) : Prop :=
  0 <= p <= zlen o /\ r_out r = p /\ r_pos r = base + r_in r /\
  exists c u o', at_in (r_in r) c u /\ Rep (r_dec r) c o' u /\ zskip p o = r_buf r ++ o'.

Lemma c_len : forall k c u, at_in k c u -> (length c <= length f)%nat.
Proof.
  intros k c u (Cf & Jr & HC & _ & _ & _).
  assert (H : zlen (zskip base f) = zlen (C ++ J)) by (rewrite Hfile; reflexivity).
  rewrite zskip_len, HC, !zlen_app in H by exact Hbase. unfold zlen in H. lia.
Qed.

Lemma loop_ok : forall fuel n extra r c u o',
  1 <= n -> 0 <= extra ->
  r_pos r = base + r_in r -> at_in (r_in r) c u -> Rep (r_dec r) c o' u ->
  d_eof dc (r_dec r) = false -> (o' <> [] \/ ends = true) ->
  (2 * length c + (if d_needs dc (r_dec r) then 0 else 1) < fuel)%nat ->
  exists y o'' r' c' u', read_loop dc f fuel n extra r = (Ok y, r') /\ o' = y ++ o'' /\ (o' <> [] -> y <> []) /\
    r_pos r' = base + r_in r' /\ at_in (r_in r') c' u' /\ Rep (r_dec r') c' o'' u' /\
    r_buf r' = r_buf r /\ r_out r' = r_out r /\ (o' = [] -> d_eof dc (r_dec r') = true).
Proof.
  induction fuel as [|fuel IH]; intros n extra r c u o' Hn He Hp Ha Hr Heof Ho Hf; [lia|].
  cbn [read_loop].
  set (needs := d_needs dc (r_dec r)) in *.
  set (x := if needs then zsub (r_pos r) n f else []).
  pose proof (at_file _ _ _ Ha) as HF.
  assert (Cne : needs = true -> c <> []).
  { intro N. destruct o' as [|b o1] eqn:Eo.
    - destruct Ho as [Ho|Ho]; [congruence|]. eapply (ce_needs _ _ _ (CE Ho)); eauto.
    - eapply (ct_needs _ _ _ CT); eauto. discriminate. }
  assert (Hx : (needs = true <-> x <> []) /\ exists rr, x ++ rr = c ++ zskip (zlen u) J).
  { unfold x. destruct needs.
    - split.
      + split; [|reflexivity]. intros _. unfold zsub. rewrite Hp, HF. specialize (Cne eq_refl). destruct c as [|b c]; [congruence|].
        cbn [app]. unfold ztake. destruct (Z.to_nat n) eqn:E; [lia|discriminate].
      + unfold zsub. rewrite Hp, HF. eexists. apply ztake_zskip.
    - split; [split; congruence|]. eexists. reflexivity. }
  destruct Hx as [Hx1 Hx2].
  assert (G : needs && (zlen x =? 0) = false).
  { destruct needs; [|reflexivity]. cbn [andb]. apply not_true_is_false. rewrite zlen_zero_iff. apply Hx1. reflexivity. }
  rewrite G. cbn [r_dec r_buf r_out r_in r_pos].
  destruct (ct_step _ _ _ CT (r_dec r) c o' u x (n + extra) Hr Heof ltac:(lia) Hx1 Hx2) as (y & o'' & d' & Ed & Eo & Hr' & Hy).
  rewrite Ed. destruct Hx2 as (rr & Hx2). pose proof (at_feed _ _ _ _ _ Ha Hx2) as Ha'.
  destruct ((zlen y =? 0) && d_needs dc d') eqn:B.
  - apply andb_prop in B. destruct B as [B1 B2]. apply zlen_zero_iff in B1. subst y. cbn [app] in Eo. subst o''.
    destruct (IH n extra (mkReader d' (r_buf r) (r_out r) (r_in r + zlen x) (r_pos r + zlen x))
                (zskip (zlen x) c) (u ++ zskip (zlen c) x) o' Hn He) as (y2 & o2 & r2 & c2 & u2 & R);
      cbn [r_dec r_buf r_out r_in r_pos]; try assumption; [lia| | |].
    + destruct o' as [|b o1] eqn:Eo2.
      * destruct Ho as [Ho|Ho]; [congruence|]. destruct (d_eof dc d') eqn:E; [|reflexivity].
        destruct (ce_eof _ _ _ (CE Ho) _ _ _ _ Hr' E) as (_ & _ & N). congruence.
      * eapply (ct_not_eof _ _ _ CT); eauto. discriminate.
    + rewrite B2. destruct needs eqn:N.
      * assert (1 <= zlen x) by (apply zlen_pos, Hx1; reflexivity). specialize (Cne eq_refl).
        assert (1 <= zlen c) by (apply zlen_pos; exact Cne).
        assert (LL : zlen (zskip (zlen x) c) < zlen c) by (rewrite zskip_len by lia; lia).
        unfold zlen in LL at 1 3. lia.
      * unfold x. rewrite zlen_nil, zskip_0. lia.
    + exists y2, o2, r2, c2, u2. exact R.
  - exists y, o'', (mkReader d' (r_buf r) (r_out r) (r_in r + zlen x) (r_pos r + zlen x)), (zskip (zlen x) c), (u ++ zskip (zlen c) x).
    cbn [r_dec r_buf r_out r_in r_pos]. split; [reflexivity|]. split; [exact Eo|]. split.
    + intros NE Y. subst y. rewrite (Hy eq_refl NE) in B. cbn in B. discriminate.
    + split; [lia|]. split; [exact Ha'|]. split; [exact Hr'|]. split; [reflexivity|]. split; [reflexivity|].
      intros ->. destruct Ho as [Ho|Ho]; [congruence|]. symmetry in Eo. apply app_eq_nil in Eo. destruct Eo as [-> ->].
      rewrite zlen_nil in B. cbn [Z.eqb andb] in B.
      exact (ce_done _ _ _ (CE Ho) (r_dec r) c x (n + extra) [] d' u Hr Heof ltac:(lia) Hx1 (ex_intro _ rr Hx2) Ed eq_refl B).
Qed.

Lemma zsub_split : forall {A} p a b (l : list A), 0 <= p -> 0 <= a -> 0 <= b -> zsub p (a + b) l = zsub p a l ++ zsub (p + a) b l.
Proof. intros A p a b l Hp Ha Hb. unfold zsub. rewrite ztake_add by assumption. rewrite zskip_zskip by lia. f_equal. f_equal. f_equal. lia. Qed.

Lemma zsub_prefix : forall p y (l r : bytes), 0 <= p -> zskip p l = y ++ r -> zsub p (zlen y) l = y.
Proof. intros p y l r Hp E. unfold zsub. rewrite E. apply ztake_app_exact. reflexivity. Qed.

Lemma skip_more : forall p y (l r : bytes), 0 <= p -> zskip p l = y ++ r -> zskip (p + zlen y) l = r.
Proof.
  intros p y l r Hp E. rewrite <- (zskip_app_exact (zlen y) y r eq_refl), <- E, zskip_zskip; [f_equal; lia|apply zlen_nonneg|exact Hp].
Qed.

(** One [read]. *)
Lemma read_ok : forall n extra r p, inv r p -> 1 <= n -> 0 <= extra -> (p < zlen o \/ ends = true) ->
  exists k r', read dc f n extra r = (Ok (zsub p k o), r') /\ inv r' (p + k) /\ 0 <= k <= n /\ p + k <= zlen o /\ (p < zlen o -> 1 <= k) /\
    (p = zlen o -> d_eof dc (r_dec r') = true).
Proof.
  intros n extra r p I Hn He Hend. destruct I as ((Hp0 & Hp1) & Ho & Hpos & c & u & o' & Ha & Hr & Hz).
  unfold read. destruct (Z.ltb_spec n 0); [lia|].
  assert (OL : zlen o - p = zlen (r_buf r) + zlen o').
  { rewrite <- zlen_app, <- Hz, zskip_len by lia. lia. }
  destruct (r_buf r) as [|b buf] eqn:EB.
  - cbn [app] in Hz. rewrite zlen_nil in OL.
    destruct (d_eof dc (r_dec r)) eqn:EF.
    + assert (ON : o' = []). { destruct o' as [|z o1]; [reflexivity|]. rewrite (ct_not_eof _ _ _ CT _ _ _ _ Hr) in EF; discriminate. }
      rewrite ON in OL, Hr, Hz. change (zlen (@nil byte)) with 0 in OL. exists 0, r. split; [reflexivity|]. rewrite Z.add_0_r.
      split; [|split; [lia|split; [lia|split; [lia|auto]]]].
      split; [lia|]. split; [exact Ho|]. split; [exact Hpos|]. exists c, u, []. rewrite EB. auto.
    + assert (P2 : o' <> [] \/ ends = true).
      { destruct Hend as [X|X]; [left; intro ON; rewrite ON in OL; change (zlen (@nil byte)) with 0 in OL; lia|right; exact X]. }
      destruct (loop_ok (loop_fuel f) n extra r c u o' Hn He Hpos Ha Hr EF P2) as (y & o'' & r' & c' & u' & EL & Ey & Hy & Hpos' & Ha' & Hr' & Hb & Hout & Hfin).
      { pose proof (c_len _ _ _ Ha). unfold loop_fuel. destruct (d_needs dc (r_dec r)); lia. }
      rewrite EL. rewrite Ey in OL, Hz, Hfin, Hy.
      assert (FIN : p = zlen o -> d_eof dc (r_dec r') = true).
      { intro X. apply Hfin. apply zlen_0. rewrite X in OL. lia. }
      assert (Hy' : p < zlen o -> 1 <= zlen y).
      { intro L. apply zlen_pos, Hy. intro N. rewrite N in OL; change (zlen (@nil byte)) with 0 in OL. lia. }
      rewrite zlen_app in OL. pose proof (zlen_nonneg o''). pose proof (zlen_nonneg y).
      destruct (Z.ltb_spec n (zlen y)) as [L|L].
      * assert (SP : y = ztake n y ++ zskip n y) by (symmetry; apply ztake_zskip).
        assert (LT : zlen (ztake n y) = n) by (rewrite ztake_len by lia; lia).
        rewrite SP, <- app_assoc in Hz.
        exists n. eexists. split.
        { f_equal. f_equal. rewrite <- LT at 2. symmetry. eapply zsub_prefix; [lia|exact Hz]. }
        cbn [r_dec r_buf r_out r_in r_pos]. split; [|split; [lia|split; [lia|split; [lia|exact FIN]]]].
        split; [lia|]. cbn [r_dec r_buf r_out r_in r_pos]. split; [rewrite LT; lia|]. split; [exact Hpos'|].
        exists c', u', o''. split; [exact Ha'|]. split; [exact Hr'|]. rewrite Hb, EB. cbn [app].
        rewrite <- LT at 1. eapply skip_more; [lia|exact Hz].
      * exists (zlen y). eexists. split.
        { f_equal. f_equal. symmetry. eapply zsub_prefix; [lia|exact Hz]. }
        cbn [r_dec r_buf r_out r_in r_pos]. split; [|split; [lia|split; [lia|split; [lia|exact FIN]]]].
        split; [lia|]. cbn [r_dec r_buf r_out r_in r_pos]. split; [lia|]. split; [exact Hpos'|].
        exists c', u', o''. split; [exact Ha'|]. split; [exact Hr'|]. rewrite Hb, EB. cbn [app].
        eapply skip_more; [lia|exact Hz].
  - rewrite <- EB in *. assert (BL : 1 <= zlen (r_buf r)) by (rewrite EB, zlen_cons; pose proof (zlen_nonneg buf); lia).
    pose proof (zlen_nonneg o') as OO.
    set (k := Z.min n (zlen (r_buf r))).
    assert (SP : r_buf r = ztake k (r_buf r) ++ zskip k (r_buf r)) by (symmetry; apply ztake_zskip).
    assert (LT : zlen (ztake k (r_buf r)) = k) by (rewrite ztake_len by lia; lia).
    rewrite SP, <- app_assoc in Hz.
    exists k. eexists. split.
    { f_equal. f_equal. rewrite <- LT at 2. symmetry. eapply zsub_prefix; [lia|exact Hz]. }
    split; [|split; [lia|split; [lia|split; [lia|]]]].
    + split; [lia|]. cbn [r_dec r_buf r_out r_in r_pos]. split; [lia|]. split; [exact Hpos|].
      exists c, u, o'. split; [exact Ha|]. split; [exact Hr|]. rewrite <- LT at 1. eapply skip_more; [lia|exact Hz].
    + intro X. exfalso. lia.
Qed.

Lemma zsub_zero : forall p k (l : bytes), k <= 0 -> zsub p k l = [].
Proof. intros p k l H. unfold zsub. apply ztake_neg. exact H. Qed.
Lemma zsub_clip : forall p k (l : bytes), 0 <= p <= zlen l -> zsub p k l = zsub p (Z.min (p + k) (zlen l) - p) l.
Proof.
  intros p k l Hp. destruct (Z.le_gt_cases (p + k) (zlen l)) as [L|L].
  - f_equal. lia.
  - unfold zsub. rewrite !ztake_all; [reflexivity| |]; rewrite zskip_len by lia; lia.
Qed.

Lemma read_n_loop_ok : forall fuel n data r p, inv r p ->
  (p + (n - zlen data) <= zlen o \/ ends = true) ->
  (Z.to_nat (n - zlen data) + 1 <= fuel)%nat ->
  exists r', read_n_loop dc f fuel n data r = (Ok (data ++ zsub p (n - zlen data) o), r') /\
    inv r' (Z.max p (upto o p (n - zlen data))).
Proof.
  induction fuel as [|fuel IH]; intros n data r p I HE HF; [lia|]. cbn [read_n_loop].
  pose proof I as ((Hp0 & Hp1) & _).
  destruct (Z.ltb_spec (zlen data) n) as [L|L].
  - destruct (read_ok (n - zlen data) 0 r p I) as (k & r' & ER & I' & Hk & Hk2 & Hk3 & _); [lia|lia| |].
    { destruct HE as [HE|HE]; [left; lia|right; exact HE]. }
    rewrite ER. assert (LK : zlen (zsub p k o) = k) by (apply zsub_len; lia).
    destruct (Z.eq_dec k 0) as [->|NK].
    + rewrite zsub_zero by lia. assert (p = zlen o) by lia. subst p.
      exists r'. split.
      * f_equal. f_equal. rewrite zsub_clip by lia. rewrite zsub_zero by lia. rewrite app_nil_r. reflexivity.
      * unfold upto. rewrite Z.add_0_r in I'. replace (Z.max _ _) with (zlen o) by lia. exact I'.
    + destruct (zsub p k o) as [|b x] eqn:EX; [rewrite zlen_nil in LK; lia|]. rewrite <- EX in *.
      destruct (IH n (data ++ zsub p k o) r' (p + k) I') as (r2 & E2 & I2).
      { rewrite zlen_app, LK. destruct HE as [HE|HE]; [left; lia|right; exact HE]. }
      { rewrite zlen_app, LK. lia. }
      exists r2. rewrite E2, zlen_app, LK. split.
      * f_equal. f_equal. rewrite <- app_assoc. f_equal.
        replace (n - zlen data) with (k + (n - (zlen data + k))) by lia. rewrite zsub_split by lia. reflexivity.
      * unfold upto in *. rewrite zlen_app, LK in I2. replace (Z.max p _) with (Z.max (p + k) (Z.min (p + k + (n - (zlen data + k))) (zlen o))) by lia. exact I2.
  - exists r. split.
    + rewrite zsub_zero by lia. rewrite app_nil_r. reflexivity.
    + unfold upto. replace (Z.max _ _) with p by lia. exact I.
Qed.

Lemma read_n_ok : forall n r p, inv r p -> (p + n <= zlen o \/ ends = true) ->
  exists r', read_n dc f n r = (Ok (zsub p n o), r') /\ inv r' (Z.max p (upto o p n)).
Proof.
  intros n r p I HE. unfold read_n.
  destruct (read_n_loop_ok (Z.to_nat n + 2) n [] r p I) as (r' & E & I').
  - rewrite zlen_nil, Z.sub_0_r. exact HE.
  - rewrite zlen_nil. lia.
  - rewrite zlen_nil, Z.sub_0_r in E. rewrite zlen_nil, Z.sub_0_r in I'. exists r'. split; [exact E|exact I'].
Qed.

Lemma skip_loop_ok : forall fuel n sk r p, inv r p -> sk <= n ->
  (p + (n - sk) <= zlen o \/ ends = true) ->
  (Z.to_nat (n - sk) + 1 <= fuel)%nat ->
  exists r', skip_loop dc f fuel n sk r = (Ok tt, r') /\ inv r' (upto o p (n - sk)).
Proof.
  induction fuel as [|fuel IH]; intros n sk r p I HS HE HF; [lia|]. cbn [skip_loop].
  pose proof I as ((Hp0 & Hp1) & _).
  destruct (Z.ltb_spec sk n) as [L|L].
  - destruct (read_ok (n - sk) 0 r p I) as (k & r' & ER & I' & Hk & Hk2 & Hk3 & _); [lia|lia| |].
    { destruct HE as [HE|HE]; [left; lia|right; exact HE]. }
    rewrite ER. assert (LK : zlen (zsub p k o) = k) by (apply zsub_len; lia).
    destruct (Z.eq_dec k 0) as [->|NK].
    + rewrite zsub_zero by lia. exists r'. split; [reflexivity|]. unfold upto. replace (Z.min _ _) with (p + 0) by lia. exact I'.
    + destruct (zsub p k o) as [|b x] eqn:EX; [rewrite zlen_nil in LK; lia|]. rewrite <- EX in *.
      rewrite LK. destruct (IH n (sk + k) r' (p + k) I') as (r2 & E2 & I2); [lia| |lia|].
      { destruct HE as [HE|HE]; [left; lia|right; exact HE]. }
      exists r2. split; [exact E2|]. unfold upto in *. replace (p + (n - sk)) with (p + k + (n - (sk + k))) by lia. exact I2.
  - exists r. split; [reflexivity|]. unfold upto. replace (Z.min _ _) with p by lia. exact I.
Qed.

Lemma skip_ok : forall n r p, inv r p -> 0 <= n -> (p + n <= zlen o \/ ends = true) ->
  exists r', skip dc f n r = (Ok tt, r') /\ inv r' (upto o p n).
Proof.
  intros n r p I Hn HE. unfold skip. destruct (Z.ltb_spec n 0); [lia|].
  destruct (skip_loop_ok (Z.to_nat n + 2) n 0 r p I Hn) as (r' & E & I').
  - rewrite Z.sub_0_r. exact HE.
  - lia.
  - rewrite Z.sub_0_r in I'. exists r'. split; [exact E|exact I'].
Qed.

Lemma iter_loop_ok : forall fuel n bs rd r p, inv r p -> 1 <= bs -> 0 <= rd -> (0 <= n -> rd <= n) ->
  ((0 <= n /\ p + (n - rd) <= zlen o) \/ ends = true) ->
  zlen o - p + 2 <= Z.of_nat fuel ->
  let e := if n <? 0 then zlen o else upto o p (n - rd) in
  exists l r', iter_read_loop dc f fuel n bs rd r = (Ok l, r') /\ concat l = zsub p (e - p) o /\
    Forall (fun x => 1 <= zlen x <= bs) l /\ inv r' e /\ (n < 0 -> d_eof dc (r_dec r') = true).
Proof.
  induction fuel as [|fuel IH]; intros n bs rd r p I Hb Hrd Hn HE HF e; pose proof I as ((Hp0 & Hp1) & _); [lia|].
  cbn [iter_read_loop].
  destruct ((0 <=? n) && (n <=? rd)) eqn:G.
  - assert (e = p). { unfold e, upto. destruct (Z.ltb_spec n 0); lia. }
    exists [], r. rewrite H. split; [reflexivity|]. split; [rewrite zsub_zero by lia; reflexivity|]. split; [constructor|]. split; [exact I|lia].
  - set (m := if 0 <=? n then Z.min bs (n - rd) else bs).
    assert (Hm : 1 <= m <= bs). { unfold m. destruct (Z.leb_spec 0 n); lia. }
    destruct (read_ok m 0 r p I) as (k & r' & ER & I' & Hk & Hk2 & Hk3 & Hfin); [lia|lia| |].
    { destruct HE as [HE|HE]; [left; lia|right; exact HE]. }
    rewrite ER. assert (LK : zlen (zsub p k o) = k) by (apply zsub_len; lia).
    destruct (Z.eq_dec k 0) as [->|NK].
    + rewrite zsub_zero by lia. assert (p = zlen o) by lia.
      assert (e = p). { unfold e, upto. destruct (Z.ltb_spec n 0); lia. }
      rewrite Z.add_0_r in I'. exists [], r'. rewrite H0. split; [reflexivity|]. split; [rewrite zsub_zero by lia; reflexivity|]. split; [constructor|]. split; [exact I'|auto].
    + destruct (zsub p k o) as [|b x] eqn:EX; [rewrite zlen_nil in LK; lia|]. rewrite <- EX in *. rewrite LK.
      assert (KN : 0 <= n -> rd + k <= n). { intro N. unfold m in Hk. destruct (Z.leb_spec 0 n); lia. }
      destruct (IH n bs (rd + k) r' (p + k) I' Hb) as (l & r2 & E2 & C2 & F2 & I2 & X2); [lia|exact KN| |lia|].
      { destruct HE as [HE|HE]; [left; lia|right; exact HE]. }
      assert (EE : (if n <? 0 then zlen o else upto o (p + k) (n - (rd + k))) = e).
      { unfold e, upto. destruct (n <? 0); [reflexivity|]. f_equal. lia. }
      rewrite EE in C2, I2. rewrite E2. exists (zsub p k o :: l), r2. split; [reflexivity|].
      assert (LE : p + k <= e). { unfold e, upto. destruct (Z.ltb_spec n 0); lia. }
      split; [|split; [constructor; [rewrite LK; lia|exact F2]|split; [exact I2|exact X2]]].
      cbn [concat]. rewrite C2. replace (e - p) with (k + (e - (p + k))) by lia. rewrite zsub_split by lia. reflexivity.
Qed.

Lemma perform_ok : forall c r p, inv r p -> proper o c -> (ends = true \/ within o p c) ->
  exists p', expected o p c (fst (perform dc f base c r)) p' /\ inv (snd (perform dc f base c r)) p'.
Proof.
  intros c r p I P W. pose proof I as ((Hp0 & Hp1) & Hout & _).
  destruct c as [n extra|n|fuel n bs|n|off|q]; cbn [perform proper within expected] in *.
  - destruct (read_ok n extra r p I) as (k & r' & E & I' & Hk & Hk2 & Hk3 & _); [lia|lia|tauto|].
    rewrite E. cbn [fst snd]. exists (p + k). split; [|exact I']. exists k. split; [reflexivity|]. auto.
  - destruct (read_n_ok n r p I) as (r' & E & I'); [tauto|]. rewrite E. cbn [fst snd]. eexists. split; [split; reflexivity|exact I'].
  - destruct P as [P1 P2].
    destruct (iter_loop_ok fuel n bs 0 r p I P1) as (l & r' & E & Cc & Ff & I' & _); [lia|lia|rewrite Z.sub_0_r; tauto|lia|].
    unfold iter_read. destruct (Z.ltb_spec 0 bs); [|lia]. rewrite E. cbn [fst snd].
    rewrite Z.sub_0_r in *. eexists. split; [|exact I']. exists l. auto.
  - destruct (skip_ok n r p I P) as (r' & E & I'); [tauto|]. rewrite E. cbn [fst snd]. eexists. split; [split; reflexivity|exact I'].
  - unfold skip_to. destruct (Z.ltb_spec off 0); [lia|]. rewrite Hout. destruct (Z.ltb_spec off p).
    + cbn [fst snd]. exists p. auto.
    + destruct (skip_ok (off - p) r p I) as (r' & E & I'); [lia|destruct W as [W|W]; [right; exact W|left; lia]|].
      rewrite E. cbn [fst snd]. eexists. split; [split; reflexivity|exact I'].
  - cbn [fst snd]. exists p. split; [auto|]. destruct I as (A & B & _ & X). split; [exact A|]. split; [exact B|]. split; [reflexivity|exact X].
Qed.

Lemma all_ok : forall calls r p, inv r p -> all_expected dc f base ends o p r calls.
Proof.
  induction calls as [|c cs IH]; intros r p I; [exact Logic.I|]. cbn [all_expected]. intros P W.
  destruct (perform_ok c r p I P W) as (p' & E & I'). exists p'. split; [exact E|apply IH; exact I'].
Qed.

Lemma new_inv : forall d0, Rep d0 C o [] -> inv (reader_new d0 base) 0.
Proof.
  intros d0 R. split; [pose proof (zlen_nonneg o); lia|]. split; [reflexivity|]. split; [cbn; lia|].
  exists C, [], o. split; [|split; [exact R|reflexivity]]. exists [], J. auto.
Qed.

Lemma reader_spec : forall d0, Rep d0 C o [] -> forall calls, all_expected dc f base ends o 0 (reader_new d0 base) calls.
Proof. intros d0 R calls. apply all_ok, new_inv, R. Qed.

(** After reading to the end the compressed size is known. *)
Lemma total_size_ok : forall d0 fuel bs, ends = true -> Rep d0 C o [] -> 1 <= bs -> zlen o + 2 <= Z.of_nat fuel ->
  exists l r', iter_read dc f fuel (-1) bs (reader_new d0 base) = (Ok l, r') /\ concat l = o /\ total_compressed_size dc r' = Ok (zlen C).
Proof.
  intros d0 fuel bs HE R Hb HF. pose proof (new_inv d0 R) as I.
  destruct (iter_loop_ok fuel (-1) bs 0 _ 0 I Hb) as (l & r' & E & Cc & _ & I' & EOF); [lia|lia|right; exact HE|lia|]. specialize (EOF ltac:(lia)).
  unfold iter_read. destruct (Z.ltb_spec 0 bs); [|lia]. exists l, r'. split; [exact E|].
  cbn [Z.ltb] in Cc, I'. change (-1 <? 0) with true in Cc, I'. cbv iota in Cc, I'.
  split. { rewrite Cc. unfold zsub. rewrite zskip_0, Z.sub_0_r. apply ztake_all. lia. }
  unfold total_compressed_size. rewrite EOF. destruct I' as (_ & _ & _ & c & u & o' & Ha & Hr & _).
  destruct (ce_eof _ _ _ (CE HE) _ _ _ _ Hr EOF) as (-> & -> & _).
  destruct Ha as (Cf & Jr & HC & _ & -> & _). rewrite app_nil_r in HC. subst Cf. f_equal. lia.
Qed.
End Proofs.
