(** Property C102: the dictionary of a header contains the whole header. *)
From Coq Require Import List ZArith Bool Lia Strings.Byte.
From Coq Require Import ZifyBool ZifyNat.
From Coq Require String.
From Verif Require Import Base BaseProofs Utf8 Header HeaderSpec HeaderProofs HeaderDict.
Import ListNotations.
Open Scope Z_scope.

(** ** Specification *)
(** [data[key]] *)
Fixpoint item (d : list (String.string * dval)) (key : String.string) : option dval :=
  match d with [] => None | (k, v) :: r => if String.eqb k key then Some v else item r key end.
(** The digits of a byte, as they are written. *)
Definition digits : ustr := [48; 49; 50; 51; 52; 53; 54; 55; 56; 57; 97; 98; 99; 100; 101; 102].
Definition written (b : byte) (s : ustr) : Prop :=
  exists hi lo, 0 <= hi < 16 /\ 0 <= lo < 16 /\ Zb b = 16 * hi + lo /\ s = [nth (Z.to_nat hi) digits 0; nth (Z.to_nat lo) digits 0].
(** The text of some bytes: for each of them its two digits. *)
Inductive hex_text : bytes -> ustr -> Prop :=
| hex_nil : hex_text [] []
| hex_cons : forall b u s t, written b s -> hex_text u t -> hex_text (b :: u) (s ++ t).
(** The number that some bytes are, the first one being the highest. *)
Definition number (u : bytes) : Z := fold_left (fun acc b => acc * 256 + Zb b) u 0.

(** ** Proofs *)
Lemma digit_ok : forall d, 0 <= d < 16 -> hex_digit d = nth (Z.to_nat d) digits 0.
Proof.
  intros d H. assert (C : In d [0;1;2;3;4;5;6;7;8;9;10;11;12;13;14;15]) by (cbn [In]; lia).
  cbn [In] in C. repeat destruct C as [<-|C]; try reflexivity. destruct C.
Qed.
Definition pair_of (b : byte) : ustr := [hex_digit (Zb b / 16); hex_digit (Zb b mod 16)].
Lemma pair_written : forall b, written b (pair_of b).
Proof.
  intro b. pose proof (Zb_range b) as R. exists (Zb b / 16), (Zb b mod 16). unfold pair_of.
  assert (H1 : 0 <= Zb b / 16 < 16) by (split; [apply Z.div_pos; lia|apply Z.div_lt_upper_bound; lia]).
  assert (H2 : 0 <= Zb b mod 16 < 16) by (apply Z.mod_pos_bound; lia).
  split; [exact H1|]. split; [exact H2|]. split; [apply Z.div_mod; lia|]. rewrite !digit_ok by assumption. reflexivity.
Qed.
Lemma low_pairs : forall l, hex_low (2 * length l) (le_val l) = flat_map (fun b => rev (pair_of b)) l.
Proof.
  induction l as [|b l IH]; [reflexivity|]. cbn [length flat_map le_val]. replace (2 * S (length l))%nat with (S (S (2 * length l))) by lia.
  cbn [hex_low pair_of rev app]. pose proof (Zb_range b) as R.
  replace ((Zb b + 256 * le_val l) mod 16) with (Zb b mod 16) by (replace (Zb b + 256 * le_val l) with (Zb b + (16 * le_val l) * 16) by lia; rewrite Z.mod_add by lia; reflexivity).
  replace ((Zb b + 256 * le_val l) / 16) with (Zb b / 16 + 16 * le_val l) by (replace (Zb b + 256 * le_val l) with (Zb b + (16 * le_val l) * 16) by lia; rewrite Z.div_add by lia; reflexivity).
  assert (H1 : 0 <= Zb b / 16 < 16) by (split; [apply Z.div_pos; lia|apply Z.div_lt_upper_bound; lia]).
  replace ((Zb b / 16 + 16 * le_val l) mod 16) with (Zb b / 16) by (replace (16 * le_val l) with (le_val l * 16) by lia; rewrite Z.mod_add by lia; symmetry; apply Z.mod_small; lia).
  replace ((Zb b / 16 + 16 * le_val l) / 16) with (le_val l) by (replace (16 * le_val l) with (le_val l * 16) by lia; rewrite Z.div_add by lia; rewrite Z.div_small by lia; lia).
  rewrite IH. reflexivity.
Qed.
Lemma flat_rev : forall l, rev (flat_map (fun b => rev (pair_of b)) (rev l)) = flat_map pair_of l.
Proof.
  induction l as [|b l IH]; [reflexivity|]. cbn [rev]. rewrite flat_map_app, rev_app_distr, IH. cbn [flat_map]. rewrite app_nil_r, rev_involutive. reflexivity.
Qed.
Lemma hex_ok : forall u, zlen u = 16 -> hex_text u (uuid_hex u).
Proof.
  intros u L. unfold uuid_hex, uuid_int. replace 32%nat with (2 * length (rev u))%nat by (rewrite rev_length; unfold zlen in L; lia).
  rewrite low_pairs, flat_rev. clear L. induction u as [|b u IH]; cbn [flat_map]; [constructor|]. constructor; [apply pair_written|exact IH].
Qed.
Lemma number_from : forall u acc, fold_left (fun acc b => acc * 256 + Zb b) u acc = acc * 256 ^ zlen u + number u.
Proof.
  unfold number. induction u as [|b u IH]; intro acc; cbn [fold_left]; [unfold zlen; cbn [length]; lia|]. rewrite IH, (IH (0 * 256 + Zb b)). unfold zlen. cbn [length].
  rewrite Nat2Z.inj_succ, Z.pow_succ_r by lia. lia.
Qed.
Lemma le_val_app : forall a b, le_val (a ++ b) = le_val a + 256 ^ zlen a * le_val b.
Proof.
  induction a as [|x a IH]; intro b; [unfold zlen; cbn [length app le_val]; lia|]. cbn [app le_val]. rewrite IH. unfold zlen. cbn [length]. rewrite Nat2Z.inj_succ, Z.pow_succ_r by lia. lia.
Qed.
Lemma int_number : forall u, uuid_int u = number u.
Proof.
  unfold uuid_int. induction u as [|b u IH]; [reflexivity|]. cbn [rev]. rewrite le_val_app, IH. unfold number at 2. cbn [fold_left]. rewrite number_from. cbn [le_val].
  unfold zlen. rewrite rev_length. lia.
Qed.
Lemma int_inj : forall u v, length u = length v -> uuid_int u = uuid_int v -> u = v.
Proof.
  intros u v L E. unfold uuid_int in E. rewrite <- (rev_involutive u), <- (rev_involutive v). f_equal.
  rewrite <- (le_bytes_val (rev u)), <- (le_bytes_val (rev v)), E, !rev_length, L. reflexivity.
Qed.

Section Claims.
Import String.
Open Scope string_scope.
(** ** C102 *)
(** Two headers with the same dictionary are the same. *)
Theorem C102_complete : forall h h', zlen (h_uuid h) = 16%Z -> zlen (h_uuid h') = 16%Z -> (forall key, item (to_dict h) key = item (to_dict h') key) -> h = h'.
Proof.
  intros h h' L L' E.
  assert (G : forall key v v', item (to_dict h) key = Some v -> item (to_dict h') key = Some v' -> v = v') by (intros key v v' Q Q'; rewrite E in Q; congruence).
  pose proof (G "magic_number:" _ _ eq_refl eq_refl) as E1. pose proof (G "version_major" _ _ eq_refl eq_refl) as E2. pose proof (G "version_minor" _ _ eq_refl eq_refl) as E3.
  pose proof (G "uuid_int" _ _ eq_refl eq_refl) as E4. pose proof (G "count_entries" _ _ eq_refl eq_refl) as E5. pose proof (G "count_clusters" _ _ eq_refl eq_refl) as E6.
  pose proof (G "pointer_url" _ _ eq_refl eq_refl) as E7. pose proof (G "pointer_title" _ _ eq_refl eq_refl) as E8. pose proof (G "pointer_cluster" _ _ eq_refl eq_refl) as E9.
  pose proof (G "pointer_mimetype" _ _ eq_refl eq_refl) as E10. pose proof (G "index_main_page" _ _ eq_refl eq_refl) as E11. pose proof (G "index_layout_page" _ _ eq_refl eq_refl) as E12.
  pose proof (G "pointer_checksum" _ _ eq_refl eq_refl) as E13. clear G E.
  destruct h as [a b c u d e f g i j k l m], h' as [a' b' c' u' d' e' f' g' i' j' k' l' m']. unfold main_page, layout_page in E11, E12. cbn -[Z.eqb uuid_int] in *.
  injection E1 as ->. injection E2 as ->. injection E3 as ->. injection E4 as E4. apply int_inj in E4; [|unfold zlen in *; lia]. injection E5 as ->. injection E6 as ->. injection E7 as ->. injection E8 as ->. injection E9 as ->. injection E10 as ->. injection E13 as ->.
  assert (k = k') as -> by (destruct (Z.eqb k NO_PAGE) eqn:Q, (Z.eqb k' NO_PAGE) eqn:Q'; cbn in E11; try discriminate E11; [lia|injection E11 as ->; reflexivity]).
  assert (l = l') as -> by (destruct (Z.eqb l NO_PAGE) eqn:Q, (Z.eqb l' NO_PAGE) eqn:Q'; cbn in E12; try discriminate E12; [lia|injection E12 as ->; reflexivity]).
  subst u'. reflexivity.
Qed.
(** The uuid is there as a text and as a number, and both are that of its bytes. *)
Theorem C102_uuid : forall h, zlen (h_uuid h) = 16%Z ->
  item (to_dict h) "uuid_int" = Some (DInt (number (h_uuid h))) /\ exists s, item (to_dict h) "uuid" = Some (DText s) /\ hex_text (h_uuid h) s /\ zlen s = 32%Z.
Proof.
  intros h L. split; [change (Some (DInt (uuid_int (h_uuid h))) = Some (DInt (number (h_uuid h)))); rewrite int_number; reflexivity|].
  exists (uuid_hex (h_uuid h)). split; [reflexivity|]. split; [apply hex_ok; exact L|]. unfold uuid_hex, zlen. rewrite rev_length. reflexivity.
Qed.
(** A page is there exactly if the dictionary says so; its number is the one in the header. *)
Theorem C102_pages : forall h,
  (h_main_page h = NO_PAGE -> item (to_dict h) "has_main_page" = Some (DBool false) /\ item (to_dict h) "index_main_page" = Some DNone) /\
  (h_main_page h <> NO_PAGE -> item (to_dict h) "has_main_page" = Some (DBool true) /\ item (to_dict h) "index_main_page" = Some (DInt (h_main_page h))) /\
  (h_layout_page h = NO_PAGE -> item (to_dict h) "has_layout_page" = Some (DBool false) /\ item (to_dict h) "index_layout_page" = Some DNone) /\
  (h_layout_page h <> NO_PAGE -> item (to_dict h) "has_layout_page" = Some (DBool true) /\ item (to_dict h) "index_layout_page" = Some (DInt (h_layout_page h))).
Proof.
  intro h. cbn -[Z.eqb NO_PAGE]. unfold main_page, layout_page.
  destruct (Z.eqb (h_main_page h) NO_PAGE) eqn:Q, (Z.eqb (h_layout_page h) NO_PAGE) eqn:R; (split; [|split; [|split]]); intro H; try lia; auto.
Qed.
(** The other values are those of the header, and there are no other keys. *)
Theorem C102_values_partial : forall h,
  item (to_dict h) "version_major" = Some (DInt (h_major h)) /\ item (to_dict h) "version_minor" = Some (DInt (h_minor h)) /\
  item (to_dict h) "count_entries" = Some (DInt (h_entry_count h)) /\ item (to_dict h) "count_clusters" = Some (DInt (h_cluster_count h)) /\
  item (to_dict h) "pointer_url" = Some (DInt (h_url_pos h)) /\ item (to_dict h) "pointer_title" = Some (DInt (h_title_pos h)) /\
  item (to_dict h) "pointer_cluster" = Some (DInt (h_cluster_pos h)) /\ item (to_dict h) "pointer_mimetype" = Some (DInt (h_mime_pos h)) /\
  item (to_dict h) "pointer_checksum" = Some (DInt (h_checksum_pos h)) /\ item (to_dict h) "magic_number:" = Some (DInt (h_magic h)) /\
  NoDup (map fst (to_dict h)) /\ List.length (to_dict h) = 16%nat.
Proof.
  intro h. repeat (split; [reflexivity|]). split; [|reflexivity]. cbn [map fst to_dict].
  repeat (apply NoDup_cons; [cbn [In]; intro Q; repeat destruct Q as [Q|Q]; try discriminate Q; exact Q|]). apply NoDup_nil.
Qed.
(** The keys are names, like those of the other keys.  This is false of the first
    one: the magic number is not found under its name, but under "magic_number:". *)
Definition C102_full_statement : Prop := forall h, item (to_dict h) "magic_number" = Some (DInt (h_magic h)).
Theorem C102_refuted : ~ C102_full_statement.
Proof.
  intro F. specialize (F (mkHeader 1 6 1 (repeat x00 16) 0 0 0 0 0 0 0 0 0)). vm_compute in F. discriminate F.
Qed.
Example C102_example : forall h, h = mkHeader MAGIC_NUMBER 6 1 [x01; x23; x45; x67; x89; xab; xcd; xef; x00; x11; x22; x33; x44; x55; x66; xff] 12 3 80 200 300 90 NO_PAGE 5 400 ->
  zlen (h_uuid h) = 16%Z /\ item (to_dict h) "uuid" = Some (DText [48;49;50;51;52;53;54;55;56;57;97;98;99;100;101;102;48;48;49;49;50;50;51;51;52;52;53;53;54;54;102;102]%Z) /\
  item (to_dict h) "index_layout_page" = Some (DInt 5) /\ item (to_dict h) "index_main_page" = Some DNone /\
  h <> mkHeader MAGIC_NUMBER 6 1 [x01; x23; x45; x67; x89; xab; xcd; xef; x00; x11; x22; x33; x44; x55; x66; xff] 12 3 80 200 300 90 NO_PAGE NO_PAGE 400.
Proof. intros h ->. repeat split; try (vm_compute; reflexivity). discriminate. Qed.
End Claims.

Print Assumptions C102_complete.
Print Assumptions C102_uuid.
Print Assumptions C102_pages.
Print Assumptions C102_values_partial.
Print Assumptions C102_refuted.
Print Assumptions C102_example.
