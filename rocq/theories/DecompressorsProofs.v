From Coq Require Import List ZArith Bool Lia.
From Coq Require Import ZifyBool ZifyNat.
From Verif Require Import Base BaseProofs Reader ReaderSpec ReaderProofs Decompressors DecompressorsSpec.
Import ListNotations.
Open Scope Z_scope.

(** Splitting the fed bytes at the end of the compressed data. *)
Lemma feed_cases : forall (x r c j : bytes), x ++ r = c ++ j ->
  (c = x ++ zskip (zlen x) c /\ zskip (zlen c) x = []) \/
  (x = c ++ zskip (zlen c) x /\ zskip (zlen x) c = []).
Proof.
  intros x r c j E. destruct (Z.le_gt_cases (zlen x) (zlen c)) as [L|L].
  - left. split; [|apply zskip_all; exact L]. rewrite <- (ztake_zskip (zlen x) c) at 1. f_equal.
    rewrite <- (ztake_app_l (zlen x) c j L), <- E. apply ztake_app_exact. reflexivity.
  - right. split; [|apply zskip_all; lia]. rewrite <- (ztake_zskip (zlen c) x) at 1. f_equal.
    rewrite <- (ztake_app_l (zlen c) x r) by lia. rewrite E. apply ztake_app_exact. reflexivity.
Qed.

(** * Passthrough: the stream is the rest of the file. *)
Definition pt_rep (buf c o u : bytes) : Prop := o = buf ++ c /\ u = [].

Lemma passthrough_contract : contract passthrough [] pt_rep.
Proof.
  constructor; unfold pt_rep; cbn [d_eof d_needs d_dec passthrough].
  - auto.
  - intros d c o u [-> ->] NE N. apply zlen_zero_iff in N. subst d. exact NE.
  - intros d c o u x m [-> ->] _ Hm HN (r & E). cbn [app] in E. rewrite zskip_all in E by (rewrite zlen_nil; lia).
    rewrite app_nil_r in E. subst c. unfold pt_dec. destruct (Z.ltb_spec m 0); [lia|].
    set (k := Z.min m (zlen (d ++ x))).
    exists (ztake k (d ++ x)), (zskip k (d ++ x) ++ r), (zskip k (d ++ x)). split; [reflexivity|].
    split; [rewrite !app_assoc, ztake_zskip; reflexivity|]. split.
    + split; [rewrite (zskip_app_exact (zlen x) x r eq_refl); reflexivity|].
      rewrite zskip_all by (rewrite zlen_app; pose proof (zlen_nonneg r); lia). reflexivity.
    + intros Y NE. exfalso. assert (L : zlen (ztake k (d ++ x)) = 0) by (rewrite Y; reflexivity).
      rewrite ztake_len in L by (pose proof (zlen_nonneg (d ++ x)); lia).
      assert (Z : zlen (d ++ x) = 0) by lia. apply zlen_0, app_eq_nil in Z. destruct Z as [-> ->].
      apply (proj1 HN); reflexivity.
Qed.

(** * zlib *)
Section Zlib.
Context {St : Type} (zo : zlibobj St) (J : bytes) (IRep : St -> bytes -> bytes -> bytes -> Prop).
Hypothesis ZC : zlib_contract zo J IRep.

Definition zlib_rep (s : zlib_state) (c o u : bytes) : Prop :=
  let '(d, buf) := s in
  buf = [] /\ (exists j, J = u ++ j) /\ (c <> [] -> u = []) /\ exists ci,
    if zl_eof zo d then ci = [] /\ c = [] /\ IRep d ci o u else IRep d ci o [] /\ zl_tail zo d ++ c = ci ++ u.

Lemma zlib_inner : forall d buf c o u, zlib_rep (d, buf) c o u -> zl_eof zo d = false ->
  exists ci, ci <> [] /\ IRep d ci o [] /\ zl_tail zo d ++ c = ci ++ u.
Proof.
  intros d buf c o u (_ & _ & _ & ci & H) E. rewrite E in H. destruct H as [H1 H2]. exists ci.
  split; [|auto]. intro N. apply (zc_eof _ _ _ ZC _ _ _ _ H1) in N. congruence.
Qed.

Lemma zlib_end : forall d buf c o u, zlib_rep (d, buf) c o u -> o <> [] -> zl_eof zo d = false.
Proof.
  intros d buf c o u (_ & _ & _ & ci & H) NE. destruct (zl_eof zo d) eqn:E; [|reflexivity].
  destruct H as (-> & _ & H). destruct (zc_end _ _ _ ZC _ _ _ _ H eq_refl) as (X & _). contradiction.
Qed.

Lemma zlib_needs_input : forall d buf c o u, zlib_rep (d, buf) c o u -> zlib_needs zo (d, buf) = true -> c <> [].
Proof.
  intros d buf c o u R N. pose proof R as (-> & _). cbn in N. destruct (zl_eof zo d) eqn:E; [discriminate|].
  destruct (zlib_inner _ _ _ _ _ R E) as (ci & NE & _ & T). destruct (zl_tail zo d); [|discriminate].
  cbn in T. intros ->. symmetry in T. apply app_eq_nil in T. tauto.
Qed.

Lemma zlib_step : forall d buf c o u x m, zlib_rep (d, buf) c o u -> zl_eof zo d = false -> 1 <= m ->
  (zlib_needs zo (d, buf) = true <-> x <> []) -> (exists r, x ++ r = c ++ zskip (zlen u) J) ->
  exists y o' d', zlib_dec zo (d, buf) x m = Ok (y, (d', [])) /\ o = y ++ o' /\
    zlib_rep (d', []) (zskip (zlen x) c) o' (u ++ zskip (zlen c) x) /\
    (y = [] -> zl_tail zo d' = [] \/ zl_eof zo d' = true).
Proof.
  intros d buf c o u x m R E Hm HN (r & HX). destruct (zlib_inner _ _ _ _ _ R E) as (ci & NE & IR & T).
  destruct R as (-> & (j & HJ) & Hu & _).
  rewrite HJ, (zskip_app_exact (zlen u) u j eq_refl) in HX.
  assert (HZ : (zl_tail zo d ++ x) ++ r = ci ++ J).
  { rewrite <- app_assoc, HX, app_assoc, T, HJ, <- app_assoc. reflexivity. }
  assert (ZN : zl_tail zo d ++ x <> []).
  { intro N. apply app_eq_nil in N. destruct N as [N1 N2]. cbn in HN. rewrite E, N1 in HN. apply (proj1 HN); auto. }
  destruct (zc_step _ _ _ ZC d ci o [] (zl_tail zo d ++ x) m IR NE Hm (ex_intro _ r HZ) ZN)
    as (y & o' & k & t & d' & ED & EO & LY & EK & IR' & LK & TL & YN).
  exists y, o', d'. split.
  { unfold zlib_dec. destruct (Z.ltb_spec m 0); [lia|]. change (zlen (@nil byte)) with 0. rewrite Z.sub_0_r.
    replace (Z.max 0 m) with m by lia. rewrite ED. cbn [bind app].
    replace (Z.min m (zlen y)) with (zlen y) by lia. rewrite ztake_all, zskip_all by lia. reflexivity. }
  split; [exact EO|].
  assert (CI : ci = k ++ zskip (zlen k) ci).
  { rewrite EK, <- app_assoc in HZ. destruct (feed_cases _ _ _ _ HZ) as [[A _]|[A B]]; [exact A|].
    assert (k = ci). { assert (Q : zlen (zskip (zlen ci) k) = 0) by (rewrite zskip_len by apply zlen_nonneg; lia).
      apply zlen_0 in Q. rewrite Q, app_nil_r in A. exact A. }
    subst k. rewrite zskip_all by lia. rewrite app_nil_r. reflexivity. }
  set (ci' := zskip (zlen k) ci) in *.
  assert (EQ : t ++ zskip (zlen x) c = ci' ++ u ++ zskip (zlen c) x).
  { destruct (feed_cases _ _ _ _ HX) as [[A B]|[A B]].
    - rewrite B, app_nil_r. apply (app_inv_head k). transitivity (zl_tail zo d ++ c).
      + rewrite (app_assoc k), <- EK, <- app_assoc, <- A. reflexivity.
      + rewrite (app_assoc k), <- CI. exact T.
    - rewrite B, app_nil_r. apply (app_inv_head k). transitivity (zl_tail zo d ++ c ++ zskip (zlen c) x).
      + rewrite <- EK, <- A. reflexivity.
      + rewrite (app_assoc k), <- CI, (app_assoc (zl_tail zo d)), T, <- app_assoc. reflexivity. }
  assert (J' : exists j', J = (u ++ zskip (zlen c) x) ++ j').
  { destruct (feed_cases _ _ _ _ HX) as [[A B]|[A B]]; [rewrite B, app_nil_r; eauto|].
    rewrite A, <- app_assoc in HX. apply app_inv_head in HX. exists r. rewrite HJ, <- app_assoc, HX. reflexivity. }
  assert (U' : zskip (zlen x) c <> [] -> u ++ zskip (zlen c) x = []).
  { intro N. destruct (feed_cases _ _ _ _ HX) as [[A B]|[A B]]; [|contradiction]. rewrite B, app_nil_r.
    apply Hu. intros ->. apply N. apply zskip_all. rewrite zlen_nil. apply zlen_nonneg. }
  split.
  - split; [reflexivity|]. split; [exact J'|]. split; [exact U'|]. exists ci'.
    destruct (zl_eof zo d') eqn:E'.
    + assert (Cn : ci' = []) by (apply (zc_eof _ _ _ ZC _ _ _ _ IR'); exact E'). split; [exact Cn|].
      rewrite Cn in EQ. cbn [app] in EQ.
      assert (C0 : zskip (zlen x) c = []).
      { destruct (zskip (zlen x) c) as [|b l]; [reflexivity|]. rewrite (U' ltac:(discriminate)) in EQ. destruct t; discriminate. }
      split; [exact C0|]. rewrite C0, app_nil_r in EQ. rewrite <- EQ. exact IR'.
    + split; [exact IR'|]. rewrite (TL eq_refl). exact EQ.
  - intro Y. destruct (YN Y) as [N|N]; [|right; exact N]. destruct (zl_eof zo d') eqn:E'; [right; reflexivity|].
    left. rewrite (TL eq_refl). exact N.
Qed.

Lemma zlib_meets_contract : contract (zlib_decomp zo) J zlib_rep.
Proof.
  constructor.
  - intros [d buf] c o u R NE. cbn. eapply zlib_end; eauto.
  - intros [d buf] c o u R NE N. eapply zlib_needs_input; eauto.
  - intros [d buf] c o u x m R E Hm HN HX. cbn [d_eof d_needs d_dec zlib_decomp] in *.
    destruct (zlib_step d buf c o u x m R E Hm HN HX) as (y & o' & d' & ED & EO & R' & Y).
    exists y, o', (d', []). split; [exact ED|]. split; [exact EO|]. split; [exact R'|].
    intros -> NE. cbn in EO. subst o'. pose proof (zlib_end _ _ _ _ _ R' NE) as E'. cbn. rewrite E'.
    destruct (Y eq_refl) as [T|T]; [rewrite T; reflexivity|congruence].
Qed.

Lemma zlib_meets_contract_end : contract_end (zlib_decomp zo) J zlib_rep.
Proof.
  constructor.
  - intros [d buf] c u R _ N. eapply zlib_needs_input; eauto.
  - intros [d buf] c o u (-> & _ & _ & ci & H) E. cbn in E |- *. unfold zlib_eof in E. cbn in E. rewrite E in *.
    destruct H as (-> & -> & H). destruct (zc_end _ _ _ ZC _ _ _ _ H eq_refl) as (_ & _ & U). auto.
  - intros [d buf] c x m y [d' buf'] u R E Hm HN HX ED Y N. cbn [d_eof d_needs d_dec zlib_decomp] in *.
    destruct (zlib_step d buf c [] u x m R E Hm HN HX) as (y2 & o' & d2 & ED2 & EO & R' & Y2).
    rewrite ED in ED2. injection ED2 as <- <- ->. unfold zlib_eof. cbn in *. destruct (zl_eof zo d'); [reflexivity|].
    destruct (Y2 Y) as [T|T]; [rewrite T in N; discriminate|discriminate].
Qed.
End Zlib.

(** * zstandard *)
Section Zstd.
Context {St : Type} (zo : zstdobj St) (J : bytes) (IRep : St -> bytes -> bytes -> bytes -> Prop).
Hypothesis SC : zstd_contract zo J IRep.

Definition zstd_rep (s : zstd_state) (c o u : bytes) : Prop :=
  exists oi, IRep (fst s) c oi u /\ o = snd s ++ oi.

Lemma zstd_meets_contract : contract (zstd_decomp zo) J zstd_rep.
Proof.
  constructor.
  - intros [d buf] c o u (oi & R & ->) NE. cbn in *. unfold zstd_eof. cbn. destruct (zs_eof zo d) eqn:E; [|reflexivity].
    apply (sc_eof _ _ _ SC _ _ _ _ R) in E. destruct (sc_end _ _ _ SC _ _ _ _ R E) as (-> & _). rewrite app_nil_r in NE.
    cbn. apply not_true_is_false. rewrite zlen_zero_iff. exact NE.
  - intros [d buf] c o u (oi & R & ->) NE N. cbn in *. unfold zstd_needs in N. cbn in N. apply zlen_zero_iff in N. subst buf.
    intros ->. destruct (sc_end _ _ _ SC _ _ _ _ R eq_refl) as (-> & _). apply NE. reflexivity.
  - intros [d buf] c o u x m (oi & R & ->) E Hm HN HX. cbn [fst snd d_eof d_needs d_dec zstd_decomp] in *.
    unfold zstd_eof, zstd_needs in *. cbn [fst snd] in *.
    destruct buf as [|b buf].
    + rewrite zlen_nil, andb_true_r in E. assert (XN : x <> []) by (apply HN; reflexivity).
      assert (CN : c <> []). { intro N. apply (sc_eof _ _ _ SC _ _ _ _ R) in N. congruence. }
      destruct (sc_step _ _ _ SC d c oi u x R CN XN HX) as (y & o' & d' & ED & -> & R').
      cbn [zstd_dec]. rewrite ED. cbn [bind]. destruct (Z.ltb_spec m (zlen y)) as [L|L].
      * exists (ztake m y), (zskip m y ++ o'), (d', zskip m y). split; [reflexivity|].
        split; [cbn [app]; rewrite app_assoc, ztake_zskip; reflexivity|]. split; [exists o'; cbn; auto|].
        intro Y. exfalso. assert (Q : zlen (ztake m y) = 0) by (rewrite Y; reflexivity). rewrite ztake_len in Q by lia. lia.
      * exists y, o', (d', []). split; [reflexivity|]. split; [reflexivity|]. split; [exists o'; cbn; auto|]. reflexivity.
    + assert (XN : x = []).
      { destruct x as [|z x]; [reflexivity|]. exfalso. assert (Q : (zlen (b :: buf) =? 0) = true) by (apply HN; discriminate).
        apply zlen_zero_iff in Q. discriminate. }
      subst x. rewrite zlen_nil, zskip_0. assert (ZU : u ++ zskip (zlen c) [] = u) by (rewrite zskip_all by (rewrite zlen_nil; apply zlen_nonneg); apply app_nil_r).
      rewrite ZU. cbn [zstd_dec]. set (B := b :: buf) in *. destruct (Z.ltb_spec (zlen B) m) as [L|L].
      * exists B, oi, (d, []). split; [reflexivity|]. split; [reflexivity|]. split; [exists oi; cbn; auto|]. discriminate.
      * exists (ztake m B), (zskip m B ++ oi), (d, zskip m B). split; [reflexivity|].
        split; [rewrite app_assoc, ztake_zskip; reflexivity|]. split; [exists oi; cbn; auto|].
        intro Y. exfalso. assert (Q : zlen (ztake m B) = 0) by (rewrite Y; reflexivity). rewrite ztake_len in Q by lia. lia.
Qed.
End Zstd.

(** * The example library objects meet the contracts. *)
Definition toy_end : byte := xff.
Definition plain (o : bytes) : Prop := Forall (fun b => b <> toy_end) o.

Lemma Zb_ff : forall b, (Zb b =? 255) = true <-> b = toy_end.
Proof. intro b. rewrite Z.eqb_eq. split; [|intros ->; reflexivity]. intro H. apply Zb_inj. rewrite H. reflexivity. Qed.

Lemma toy_decode_plain : forall o r, plain o -> toy_decode (o ++ toy_end :: r) = (o, Some r).
Proof.
  induction o as [|b o IH]; intros r P; [reflexivity|]. inversion P; subst. cbn [app toy_decode].
  rewrite (IH r) by assumption. destruct (Zb b =? 255) eqn:E; [apply Zb_ff in E; contradiction|reflexivity].
Qed.
Lemma toy_decode_open : forall o, plain o -> toy_decode o = (o, None).
Proof.
  induction o as [|b o IH]; intros P; [reflexivity|]. inversion P; subst. cbn [toy_decode].
  rewrite IH by assumption. destruct (Zb b =? 255) eqn:E; [apply Zb_ff in E; contradiction|reflexivity].
Qed.
Lemma plain_app : forall a b, plain (a ++ b) <-> plain a /\ plain b.
Proof. intros. apply Forall_app. Qed.

(** Feeding a part of [o ++ [end] ++ j]. *)
Lemma toy_feed : forall o x r j, plain o -> x ++ r = (o ++ [toy_end]) ++ j ->
  (exists o', o = x ++ o' /\ zskip (zlen x) (o ++ [toy_end]) = o' ++ [toy_end] /\ zskip (zlen (o ++ [toy_end])) x = []) \/
  (x = o ++ toy_end :: zskip (zlen (o ++ [toy_end])) x /\ zskip (zlen x) (o ++ [toy_end]) = []).
Proof.
  intros o x r j P E. destruct (feed_cases _ _ _ _ E) as [[A B]|[A B]].
  - destruct (zskip (zlen x) (o ++ [toy_end])) as [|b w] eqn:W.
    + right. split; [|reflexivity]. rewrite app_nil_r in A. rewrite B, <- A. reflexivity.
    + left. destruct (@exists_last _ (b :: w) ltac:(discriminate)) as (w' & e & W'). rewrite W' in *.
      rewrite app_assoc in A. apply app_inj_tail in A. destruct A as [A <-]. exists w'. auto.
  - right. split; [rewrite A at 1; rewrite <- app_assoc; reflexivity|exact B].
Qed.

Definition toy_zstd_rep (d : bool * bytes) (c o u : bytes) : Prop :=
  if fst d then c = [] /\ o = [] /\ snd d = u else c = o ++ [toy_end] /\ plain o /\ u = [].

Lemma toy_zstd_contract : forall J, zstd_contract toy_zstd J toy_zstd_rep.
Proof.
  intro J. constructor; unfold toy_zstd_rep.
  - intros [[|] w] c o u H; cbn in *; [tauto|]. destruct H as (-> & _). split; [discriminate|intro X; destruct o; discriminate].
  - intros [[|] w] c o u H Cn; cbn in *; [tauto|]. destruct H as (-> & _). destruct o; discriminate.
  - intros [[|] w] c o u x H Cn Xn (r & E); cbn [fst snd] in *; [destruct H; congruence|].
    destruct H as (-> & P & ->). rewrite zlen_nil, zskip_0 in E. cbn [zs_dec toy_zstd].
    destruct (toy_feed o x r J P E) as [(o' & -> & A & B)|[A B]].
    + apply plain_app in P. destruct P as [P1 P2]. rewrite (toy_decode_open x P1).
      exists x, o', (false, []). split; [reflexivity|]. split; [reflexivity|]. cbn. rewrite B. auto.
    + assert (TD : toy_decode x = (o, Some (zskip (zlen (o ++ [toy_end])) x))) by (rewrite A at 1; apply toy_decode_plain; exact P). rewrite TD.
      eexists o, [], (true, _). split; [reflexivity|]. rewrite app_nil_r. split; [reflexivity|]. cbn. rewrite B. auto.
Qed.

Definition toy_zlib_rep (d : bool * bytes * bytes) (c o u : bytes) : Prop :=
  if fst (fst d) then c = [] /\ o = [] /\ snd d = u /\ snd (fst d) = [] else c = o ++ [toy_end] /\ plain o /\ u = [].

Lemma toy_zlib_contract : forall J, zlib_contract toy_zlib J toy_zlib_rep.
Proof.
  intro J. constructor; unfold toy_zlib_rep.
  - intros [[[|] t] w] c o u H; cbn in *; [tauto|]. destruct H as (-> & _). split; [discriminate|intro X; destruct o; discriminate].
  - intros [[[|] t] w] c o u H Cn; cbn in *; [tauto|]. destruct H as (-> & _). destruct o; discriminate.
  - intros [[[|] t] w] c o u z m H Cn Hm (r & E) Zn; cbn [fst snd] in *; [destruct H; congruence|].
    destruct H as (-> & P & ->). cbn [zl_dec toy_zlib].
    assert (TD : exists e, toy_decode z = (ztake (zlen z) o, e) /\
              ((e = None /\ zlen z <= zlen o) \/ (e = Some (zskip (zlen (o ++ [toy_end])) z) /\ z = o ++ toy_end :: zskip (zlen (o ++ [toy_end])) z))).
    { destruct (toy_feed o z r J P E) as [(o' & -> & A & B)|[A B]].
      - apply plain_app in P. destruct P as [P1 P2]. exists None. rewrite (toy_decode_open z P1).
        split; [rewrite (ztake_app_exact (zlen z) z o' eq_refl); reflexivity|]. left. split; [reflexivity|]. rewrite zlen_app. pose proof (zlen_nonneg o'). lia.
      - eexists. split; [|right; split; [reflexivity|exact A]]. rewrite A at 1. rewrite toy_decode_plain by exact P.
        rewrite ztake_all; [reflexivity|]. rewrite A, zlen_app. pose proof (zlen_nonneg (toy_end :: zskip (zlen (o ++ [toy_end])) z)). lia. }
    destruct TD as (e & TD & CS). rewrite TD.
    assert (PO : forall n, ztake n o ++ zskip n o = o) by (intro; apply ztake_zskip).
    assert (PP : forall n, plain (zskip n o)) by (intro n; rewrite <- (PO n) in P; apply plain_app in P; tauto).
    destruct ((0 <? m) && (m <? zlen (ztake (zlen z) o))) eqn:G.
    + apply andb_prop in G. destruct G as [_ G]. rewrite ztake_len in G by apply zlen_nonneg.
      assert (L1 : zlen (ztake m o) = m) by (rewrite ztake_len by lia; lia).
      exists (ztake m o), (zskip m o), (ztake m o), (zskip m z), (false, zskip m z, []).
      split. { f_equal. f_equal. rewrite ztake_ztake. f_equal. lia. }
      split; [symmetry; apply PO|]. split; [lia|]. split.
      { rewrite <- (ztake_zskip m z) at 1. f_equal. rewrite <- (ztake_app_l m z r) by lia. rewrite E.
        rewrite !ztake_app_l; [reflexivity|lia|rewrite zlen_app; pose proof (zlen_nonneg [toy_end]); lia]. }
      cbn. rewrite L1. split; [split; [rewrite zskip_app_l by lia; reflexivity|auto]|].
      split; [rewrite zlen_app; pose proof (zlen_nonneg [toy_end]); lia|]. split; [reflexivity|].
      intro Y. exfalso. rewrite Y, zlen_nil in L1. lia.
    + assert (G2 : zlen (ztake (zlen z) o) <= m) by lia.
      destruct CS as [[-> L]|[-> A]].
      * assert (L1 : zlen (ztake (zlen z) o) = zlen z) by (rewrite ztake_len by apply zlen_nonneg; lia).
        assert (ZE : z = ztake (zlen z) o).
        { assert (Q : ztake (zlen z) (z ++ r) = ztake (zlen z) ((o ++ [toy_end]) ++ J)) by (rewrite E; reflexivity).
          rewrite (ztake_app_exact (zlen z) z r eq_refl) in Q. rewrite Q at 1.
          rewrite !ztake_app_l; [reflexivity|lia|rewrite zlen_app; pose proof (zlen_nonneg [toy_end]); lia]. }
        exists (ztake (zlen z) o), (zskip (zlen z) o), z, [], (false, [], []).
        split; [reflexivity|]. split; [symmetry; apply PO|]. split; [exact G2|]. split; [rewrite app_nil_r; reflexivity|].
        cbn. split; [split; [rewrite zskip_app_l by lia; reflexivity|auto]|].
        split; [rewrite zlen_app; pose proof (zlen_nonneg [toy_end]); lia|]. auto.
      * assert (O1 : ztake (zlen z) o = o).
        { apply ztake_all. rewrite A, zlen_app. pose proof (zlen_nonneg (toy_end :: zskip (zlen (o ++ [toy_end])) z)). lia. }
        rewrite O1 in *.
        exists o, [], (o ++ [toy_end]), (zskip (zlen (o ++ [toy_end])) z), (true, [], zskip (zlen (o ++ [toy_end])) z).
        split; [reflexivity|]. split; [rewrite app_nil_r; reflexivity|]. split; [exact G2|].
        split; [rewrite <- app_assoc; exact A|]. cbn. rewrite zskip_all by lia.
        split; [auto|]. split; [lia|]. split; [discriminate|auto].
Qed.
