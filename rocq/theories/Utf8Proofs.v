(** UTF-8 is a bijection on its range that preserves order and prefixes. *)
From Coq Require Import List ZArith Bool Lia.
From Coq Require Import ZifyBool ZifyNat ZifyN.
From Verif Require Import Base BaseProofs Utf8.
Import ListNotations.
Open Scope Z_scope.

Ltac Zify.zify_post_hook ::= Z.to_euclidean_division_equations.

Lemma enc1_cases : forall c b, enc1 c = Some b ->
  (0 <= c < 128 /\ b = [bZ c]) \/
  (128 <= c < 2048 /\ b = [bZ (192 + c / 64); bZ (128 + c mod 64)]) \/
  (2048 <= c < 65536 /\ ~ (55296 <= c < 57344) /\
     b = [bZ (224 + c / 4096); bZ (128 + (c / 64) mod 64); bZ (128 + c mod 64)]) \/
  (65536 <= c < 1114112 /\
     b = [bZ (240 + c / 262144); bZ (128 + (c / 4096) mod 64); bZ (128 + (c / 64) mod 64); bZ (128 + c mod 64)]).
Proof.
  intros c b H. unfold enc1 in H.
  destruct (c <? 0) eqn:E0; [discriminate|].
  destruct (c <? 128) eqn:E1; [left; split; [lia|congruence]|].
  destruct (c <? 2048) eqn:E2; [right; left; split; [lia|congruence]|].
  destruct (c <? 65536) eqn:E3.
  - destruct ((55296 <=? c) && (c <? 57344)) eqn:E4; [discriminate|].
    right; right; left. split; [lia|]. split; [lia|congruence].
  - destruct (c <? 1114112) eqn:E4; [|discriminate].
    right; right; right. split; [lia|congruence].
Qed.

Lemma enc1_some : forall c, 0 <= c < 1114112 -> ~ (55296 <= c < 57344) -> exists b, enc1 c = Some b.
Proof.
  intros c H1 H2. unfold enc1. replace (c <? 0) with false by lia.
  destruct (c <? 128); [eauto|]. destruct (c <? 2048); [eauto|]. destruct (c <? 65536).
  - replace ((55296 <=? c) && (c <? 57344)) with false by lia. eauto.
  - replace (c <? 1114112) with true by lia. eauto.
Qed.

Lemma enc1_nonempty : forall c b, enc1 c = Some b -> b <> [].
Proof. intros c b H. apply enc1_cases in H as [[_ ->]|[[_ ->]|[[_ [_ ->]]|[_ ->]]]]; discriminate. Qed.

(** decoding one encoded code point *)
Lemma decode_enc1 : forall c b r, enc1 c = Some b ->
  utf8_decode (b ++ r) = option_map (cons c) (utf8_decode r).
Proof.
  intros c b r H. apply enc1_cases in H as [[R ->]|[[R ->]|[[R [S ->]]|[R ->]]]]; cbn [app utf8_decode].
  - rewrite Zb_bZ_small by lia. replace (c <? 128) with true by lia. reflexivity.
  - unfold cont, cval. rewrite !Zb_bZ_small by lia.
    replace (192 + c / 64 <? 128) with false by lia.
    replace (192 + c / 64 <? 194) with false by lia.
    replace (192 + c / 64 <? 224) with true by lia.
    replace ((128 <=? 128 + c mod 64) && (128 + c mod 64 <? 192)) with true by lia.
    replace ((192 + c / 64 - 192) * 64 + (128 + c mod 64 - 128)) with c by lia. reflexivity.
  - unfold cont, cval. rewrite !Zb_bZ_small by lia.
    replace (224 + c / 4096 <? 128) with false by lia.
    replace (224 + c / 4096 <? 194) with false by lia.
    replace (224 + c / 4096 <? 224) with false by lia.
    replace (224 + c / 4096 <? 240) with true by lia.
    cbv zeta.
    replace ((224 + c / 4096 - 224) * 4096 + (128 + (c / 64) mod 64 - 128) * 64 + (128 + c mod 64 - 128)) with c by lia.
    replace ((128 <=? 128 + (c / 64) mod 64) && (128 + (c / 64) mod 64 <? 192)) with true by lia.
    replace ((128 <=? 128 + c mod 64) && (128 + c mod 64 <? 192)) with true by lia.
    replace (2048 <=? c) with true by lia.
    replace ((55296 <=? c) && (c <? 57344)) with false by lia. reflexivity.
  - unfold cont, cval. rewrite !Zb_bZ_small by lia.
    replace (240 + c / 262144 <? 128) with false by lia.
    replace (240 + c / 262144 <? 194) with false by lia.
    replace (240 + c / 262144 <? 224) with false by lia.
    replace (240 + c / 262144 <? 240) with false by lia.
    replace (240 + c / 262144 <? 245) with true by lia.
    cbv zeta.
    replace ((240 + c / 262144 - 240) * 262144 + (128 + (c / 4096) mod 64 - 128) * 4096 +
             (128 + (c / 64) mod 64 - 128) * 64 + (128 + c mod 64 - 128)) with c by lia.
    replace ((128 <=? 128 + (c / 4096) mod 64) && (128 + (c / 4096) mod 64 <? 192)) with true by lia.
    replace ((128 <=? 128 + (c / 64) mod 64) && (128 + (c / 64) mod 64 <? 192)) with true by lia.
    replace ((128 <=? 128 + c mod 64) && (128 + c mod 64 <? 192)) with true by lia.
    replace (65536 <=? c) with true by lia. replace (c <? 1114112) with true by lia. reflexivity.
Qed.

Lemma decode_encode : forall s b, utf8_encode s = Some b -> utf8_decode b = Some s.
Proof.
  induction s as [|c s IH]; intros b H; cbn in H.
  - injection H as <-. reflexivity.
  - destruct (enc1 c) as [a|] eqn:E; [|discriminate]. destruct (utf8_encode s) as [r|] eqn:F; [|discriminate].
    injection H as <-. rewrite (decode_enc1 c a r E), (IH r eq_refl). reflexivity.
Qed.

(** the decoder accepts only canonical encodings *)
Lemma bZ_eq : forall b z, 0 <= z < 256 -> Zb b = z -> bZ z = b.
Proof. intros b z H E. subst. apply bZ_Zb. Qed.

Lemma encode_decode_len : forall n b s, (length b <= n)%nat -> utf8_decode b = Some s -> utf8_encode s = Some b.
Proof.
  induction n as [|n IH]; intros b s Hn H.
  - destruct b; [|cbn in Hn; lia]. cbn in H. injection H as <-. reflexivity.
  - destruct b as [|x r]; [cbn in H; injection H as <-; reflexivity|].
    cbn [utf8_decode] in H. cbn [length] in Hn. pose proof (Zb_range x) as Rx.
    destruct (Zb x <? 128) eqn:E1.
    { destruct (utf8_decode r) as [t|] eqn:D; [|discriminate]. cbn in H. injection H as <-.
      cbn [utf8_encode]. unfold enc1. replace (Zb x <? 0) with false by lia. rewrite E1.
      rewrite (IH r t) by (auto; lia). cbn. rewrite bZ_Zb. reflexivity. }
    destruct (Zb x <? 194) eqn:E2; [discriminate|].
    destruct (Zb x <? 224) eqn:E3.
    { destruct r as [|y r]; [discriminate|]. destruct (cont y) eqn:Cy; [|discriminate].
      destruct (utf8_decode r) as [t|] eqn:D; [|discriminate]. cbn [option_map] in H. injection H as <-.
      unfold cont, cval in *. cbn [length] in Hn. set (c := (Zb x - 192) * 64 + (Zb y - 128)).
      cbn [utf8_encode]. rewrite (IH r t) by (auto; lia).
      replace (enc1 c) with (Some [x; y]); [reflexivity|].
      unfold enc1. replace (c <? 0) with false by lia. replace (c <? 128) with false by lia.
      replace (c <? 2048) with true by lia. f_equal. f_equal; [|f_equal].
      - symmetry. apply bZ_eq; lia.
      - symmetry. apply bZ_eq; lia. }
    destruct (Zb x <? 240) eqn:E4.
    { destruct r as [|y [|z r]]; try discriminate. cbv zeta in H.
      set (c := (Zb x - 224) * 4096 + cval y * 64 + cval z) in *.
      destruct (cont y && cont z && (2048 <=? c) && negb ((55296 <=? c) && (c <? 57344))) eqn:C; [|discriminate].
      destruct (utf8_decode r) as [t|] eqn:D; [|discriminate]. cbn [option_map] in H. injection H as <-.
      cbn [length] in Hn. cbn [utf8_encode]. rewrite (IH r t) by (auto; lia).
      unfold cont, cval in *.
      assert (Cy : 128 <= Zb y < 192) by lia. assert (Cz : 128 <= Zb z < 192) by lia.
      assert (Cc : 2048 <= c) by lia. assert (Cs : ~ (55296 <= c < 57344)) by lia. clear C.
      replace (enc1 c) with (Some [x; y; z]); [reflexivity|].
      unfold enc1. replace (c <? 0) with false by lia. replace (c <? 128) with false by lia.
      replace (c <? 2048) with false by lia. replace (c <? 65536) with true by lia.
      replace ((55296 <=? c) && (c <? 57344)) with false by lia.
      f_equal. f_equal; [|f_equal; [|f_equal]]; symmetry; apply bZ_eq; lia. }
    destruct (Zb x <? 245) eqn:E5; [|discriminate].
    destruct r as [|y [|z [|w r]]]; try discriminate. cbv zeta in H.
    set (c := (Zb x - 240) * 262144 + cval y * 4096 + cval z * 64 + cval w) in *.
    destruct (cont y && cont z && cont w && (65536 <=? c) && (c <? 1114112)) eqn:C; [|discriminate].
    destruct (utf8_decode r) as [t|] eqn:D; [|discriminate]. cbn [option_map] in H. injection H as <-.
    cbn [length] in Hn. cbn [utf8_encode]. rewrite (IH r t) by (auto; lia).
    unfold cont, cval in *.
    assert (Cy : 128 <= Zb y < 192) by lia. assert (Cz : 128 <= Zb z < 192) by lia.
    assert (Cw : 128 <= Zb w < 192) by lia.
    assert (Cc : 65536 <= c < 1114112) by lia. clear C.
    replace (enc1 c) with (Some [x; y; z; w]); [reflexivity|].
    unfold enc1. replace (c <? 0) with false by lia. replace (c <? 128) with false by lia.
    replace (c <? 2048) with false by lia. replace (c <? 65536) with false by lia.
    replace (c <? 1114112) with true by lia.
    f_equal. f_equal; [|f_equal; [|f_equal; [|f_equal]]]; symmetry; apply bZ_eq; lia.
Qed.

Lemma encode_decode : forall b s, utf8_decode b = Some s -> utf8_encode s = Some b.
Proof. intros b s H. apply (encode_decode_len (length b)); auto. Qed.

(** *** order *)
Lemma enc1_lt : forall c d a b x y, enc1 c = Some a -> enc1 d = Some b -> c < d ->
  bltb (a ++ x) (b ++ y) = true /\ bltb (b ++ y) (a ++ x) = false /\
  bprefix a (b ++ y) = false /\ bprefix b (a ++ x) = false.
Proof.
  intros c d a b x y Ha Hb Hlt.
  assert (bltb (a ++ x) (b ++ y) = true /\ bprefix a (b ++ y) = false /\ bprefix b (a ++ x) = false) as (G1 & G2 & G3).
  { apply enc1_cases in Ha as [[R1 ->]|[[R1 ->]|[[R1 [S1 ->]]|[R1 ->]]]];
    apply enc1_cases in Hb as [[R2 ->]|[[R2 ->]|[[R2 [S2 ->]]|[R2 ->]]]]; try lia;
    cbn [app bltb bprefix]; rewrite ?byte_eqb_Zb; rewrite ?Zb_bZ_small by lia;
    clear -R1 R2 Hlt; lia. }
  split; [exact G1|]. split; [apply bltb_asym; exact G1|]. auto.
Qed.

Lemma bltb_app_same : forall p a b, bltb (p ++ a) (p ++ b) = bltb a b.
Proof.
  induction p as [|x p IH]; intros a b; cbn; [reflexivity|].
  rewrite IH, Z.ltb_irrefl, Z.eqb_refl. reflexivity.
Qed.

Lemma bprefix_app_same : forall p a b, bprefix (p ++ a) (p ++ b) = bprefix a b.
Proof.
  induction p as [|x p IH]; intros a b; cbn; [reflexivity|].
  rewrite IH. replace (Byte.eqb x x) with true; [reflexivity|].
  symmetry. apply Byte.byte_dec_lb. reflexivity.
Qed.

Lemma bprefix_app_false : forall p q r, bprefix p r = false -> bprefix (p ++ q) r = false.
Proof.
  intros p q r H. destruct (bprefix (p ++ q) r) eqn:E; [|reflexivity].
  apply bprefix_iff in E as [t ->]. rewrite <- app_assoc in H.
  assert (bprefix p (p ++ q ++ t) = true) by (apply bprefix_iff; eauto). congruence.
Qed.

Lemma utf8_order : forall s t a b, utf8_encode s = Some a -> utf8_encode t = Some b -> bltb a b = ultb s t.
Proof.
  induction s as [|c s IH]; intros [|d t] a b Ha Hb; cbn in Ha, Hb.
  - injection Ha as <-. injection Hb as <-. reflexivity.
  - injection Ha as <-. destruct (enc1 d) as [y|] eqn:E; [|discriminate].
    destruct (utf8_encode t); [|discriminate]. injection Hb as <-.
    apply enc1_nonempty in E. destruct y; [congruence|]. reflexivity.
  - injection Hb as <-. destruct (enc1 c) as [y|] eqn:E; [|discriminate].
    destruct (utf8_encode s); [|discriminate]. injection Ha as <-.
    apply enc1_nonempty in E. destruct y; [congruence|]. reflexivity.
  - destruct (enc1 c) as [x|] eqn:E; [|discriminate]. destruct (utf8_encode s) as [a'|] eqn:Es; [|discriminate].
    destruct (enc1 d) as [y|] eqn:F; [|discriminate]. destruct (utf8_encode t) as [b'|] eqn:Et; [|discriminate].
    injection Ha as <-. injection Hb as <-. cbn [ultb].
    destruct (Z.lt_trichotomy c d) as [L|[->|L]].
    + destruct (enc1_lt c d x y a' b' E F L) as (-> & _). replace (c <? d) with true by lia. reflexivity.
    + rewrite E in F. injection F as <-. rewrite bltb_app_same, Z.ltb_irrefl, Z.eqb_refl. apply IH; auto.
    + destruct (enc1_lt d c y x b' a' F E L) as (_ & -> & _). lia.
Qed.

Lemma utf8_prefix : forall s t a b, utf8_encode s = Some a -> utf8_encode t = Some b -> bprefix a b = uprefix s t.
Proof.
  induction s as [|c s IH]; intros [|d t] a b Ha Hb; cbn in Ha, Hb.
  - injection Ha as <-. reflexivity.
  - injection Ha as <-. reflexivity.
  - injection Hb as <-. destruct (enc1 c) as [y|] eqn:E; [|discriminate].
    destruct (utf8_encode s); [|discriminate]. injection Ha as <-.
    apply enc1_nonempty in E. destruct y; [congruence|]. reflexivity.
  - destruct (enc1 c) as [x|] eqn:E; [|discriminate]. destruct (utf8_encode s) as [a'|] eqn:Es; [|discriminate].
    destruct (enc1 d) as [y|] eqn:F; [|discriminate]. destruct (utf8_encode t) as [b'|] eqn:Et; [|discriminate].
    injection Ha as <-. injection Hb as <-. cbn [uprefix].
    destruct (Z.lt_trichotomy c d) as [L|[->|L]].
    + destruct (enc1_lt c d x y a' b' E F L) as (_ & _ & G & _). replace (c =? d) with false by lia.
      apply bprefix_app_false; exact G.
    + rewrite E in F. injection F as <-. rewrite bprefix_app_same, Z.eqb_refl. apply IH; auto.
    + destruct (enc1_lt d c y x b' a' F E L) as (_ & _ & _ & G). replace (c =? d) with false by lia.
      apply bprefix_app_false; exact G.
Qed.

(** *** other facts *)
Lemma utf8_encode_app : forall s t a b, utf8_encode s = Some a -> utf8_encode t = Some b ->
  utf8_encode (s ++ t) = Some (a ++ b).
Proof.
  induction s as [|c s IH]; intros t a b Ha Hb; cbn in Ha |- *.
  - injection Ha as <-. exact Hb.
  - destruct (enc1 c) as [x|]; [|discriminate]. destruct (utf8_encode s) as [y|]; [|discriminate].
    injection Ha as <-. rewrite (IH t y b eq_refl Hb), app_assoc. reflexivity.
Qed.

Lemma utf8_encode_inj : forall s t b, utf8_encode s = Some b -> utf8_encode t = Some b -> s = t.
Proof. intros s t b Hs Ht. apply decode_encode in Hs, Ht. congruence. Qed.

Lemma ueqb_eq : forall a b, ueqb a b = true <-> a = b.
Proof.
  induction a as [|x a IH]; intros [|y b]; cbn; try (split; congruence).
  rewrite andb_true_iff, IH, Z.eqb_eq. split; [intros [-> ->]; reflexivity|]. intro H. injection H as -> ->. auto.
Qed.

Lemma ueqb_refl : forall a, ueqb a a = true.
Proof. intro a. apply ueqb_eq. reflexivity. Qed.

Lemma ueqb_neq : forall a b, ueqb a b = false <-> a <> b.
Proof.
  intros a b. destruct (ueqb a b) eqn:E.
  - apply ueqb_eq in E. split; congruence.
  - split; [|reflexivity]. intros _ H. apply ueqb_eq in H. congruence.
Qed.

(** A NUL byte occurs in the encoding iff the NUL character occurs. *)
Lemma enc1_nul : forall c b, enc1 c = Some b -> (In x00 b <-> c = 0).
Proof.
  intros c b H.
  assert (Z0 : forall z, 0 < z < 256 -> bZ z <> x00).
  { intros z Hz E. apply (f_equal Zb) in E. rewrite Zb_bZ_small in E by lia. cbn in E. lia. }
  apply enc1_cases in H as [[R ->]|[[R ->]|[[R [S ->]]|[R ->]]]]; cbn [In]; split.
  - intros [E|[]]. apply (f_equal Zb) in E. rewrite Zb_bZ_small in E by lia. exact E.
  - intros ->. left. reflexivity.
  - intros [E|[E|[]]]; exfalso; revert E; apply Z0; lia.
  - lia.
  - intros [E|[E|[E|[]]]]; exfalso; revert E; apply Z0; lia.
  - lia.
  - intros [E|[E|[E|[E|[]]]]]; exfalso; revert E; apply Z0; lia.
  - lia.
Qed.

Lemma utf8_nul : forall s b, utf8_encode s = Some b -> (In x00 b <-> In 0 s).
Proof.
  induction s as [|c s IH]; intros b H; cbn in H.
  - injection H as <-. tauto.
  - destruct (enc1 c) as [x|] eqn:E; [|discriminate]. destruct (utf8_encode s) as [y|]; [|discriminate].
    injection H as <-. rewrite in_app_iff, (enc1_nul c x E), (IH y eq_refl). cbn. split; intros [->|]; auto.
Qed.

Lemma ultb_irrefl : forall a, ultb a a = false.
Proof. induction a as [|x a IH]; cbn; [reflexivity|]. rewrite IH. lia. Qed.
