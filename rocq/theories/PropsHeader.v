(** Properties C05-C08 and C22: headers and string encoding. *)
From Coq Require Import List ZArith Bool Lia.
From Coq Require Import ZifyBool.
From Verif Require Import Base BaseProofs Header HeaderSpec HeaderProofs Utf8 Utf8Proofs.
Import ListNotations.
Open Scope Z_scope.

(** C05 *)
Theorem C05_header_roundtrip : forall h, header_fits h ->
  exists b, header_to_bytes h = Ok b /\ zlen b = 80 /\ header_from_bytes b = Ok h.
Proof. exact header_roundtrip. Qed.
Print Assumptions C05_header_roundtrip.

Theorem C05_header_bytes_roundtrip : forall s, zlen s = 80 ->
  exists h, header_from_bytes s = Ok h /\ header_fits h /\ header_to_bytes h = Ok s.
Proof. exact header_from_bytes_surj. Qed.
Print Assumptions C05_header_bytes_roundtrip.

(** A concrete header, with its serialised form starting with "ZIM\x04". *)
Example example_header : header_fits
  (mkHeader 72173914 6 3 (repeat x07 16) 12 3 1000 18446744073709551615 2000 80 5 4294967295 3000).
Proof. unfold header_fits. cbn. repeat split; lia. Qed.
Example example_header_bytes :
  match header_to_bytes (mkHeader 72173914 6 3 (repeat x07 16) 12 3 1000 18446744073709551615 2000 80 5 4294967295 3000) with
  | Ok b => ztake 8 b = [x5a; x49; x4d; x04; x06; x00; x03; x00] /\ zsub 24 4 b = [x0c; x00; x00; x00]
  | Err _ => False
  end.
Proof. vm_compute. auto. Qed.

(** C06 *)
Theorem C06_header_rejects_wrong_length : forall s, zlen s <> 80 -> header_from_bytes s = Err ValueError.
Proof. exact header_from_bytes_reject. Qed.
Print Assumptions C06_header_rejects_wrong_length.

Theorem C06_header_rejects_oversized_fields : forall h, zlen (h_uuid h) = 16 -> ~ header_fits h ->
  header_to_bytes h = Err StructError.
Proof. exact header_to_bytes_err. Qed.
Print Assumptions C06_header_rejects_oversized_fields.

Example oversized_header : ~ header_fits
  (mkHeader 72173914 6 3 (repeat x07 16) 4294967296 3 1000 0 2000 80 5 4294967295 3000).
Proof. unfold header_fits. cbn. lia. Qed.

(** C07: whatever is assigned (valid or not) and whenever the header is
    flushed, a header that is not dirty equals what was last persisted. *)
Theorem C07_clean_header_is_persisted : forall h ops,
  let st := fold_left hstep ops (hobj_new h, h) in
  ho_dirty (fst st) = false -> ho_hdr (fst st) = snd st.
Proof. exact (fun h ops => clean_is_saved ops (hobj_new h, h) (fun _ => eq_refl)). Qed.
Print Assumptions C07_clean_header_is_persisted.

Theorem C07_assignment : forall f v o o', hassign f v o = Ok o' ->
  exists c, hconvert f v = Ok c /\ ho_mutable o = true /\
    hget f (ho_hdr o') = c /\ (forall g, g <> f -> hget g (ho_hdr o') = hget g (ho_hdr o)) /\
    (hget f (ho_hdr o) = c -> o' = o) /\ (hget f (ho_hdr o) <> c -> ho_dirty o' = true).
Proof. exact hassign_spec. Qed.
Print Assumptions C07_assignment.

Theorem C07_assignment_of_integer : forall f z o, f <> FUuid -> ho_mutable o = true -> (0 <= z \/ f = FMagic) ->
  exists o', hassign f (PInt z) o = Ok o' /\ hget f (ho_hdr o') = inl z.
Proof. exact hassign_int. Qed.
Print Assumptions C07_assignment_of_integer.

(** A header that was read or created accepts assignments after any history
    that does not make it immutable. *)
Theorem C07_new_header_accepts : forall ops h f z, f <> FUuid -> (0 <= z \/ f = FMagic) ->
  Forall (fun op => op <> HSetMutable false) ops ->
  exists o', hassign f (PInt z) (fst (fold_left hstep ops (hobj_new h, h))) = Ok o' /\ hget f (ho_hdr o') = inl z.
Proof.
  intros ops h f z F Z A. apply hassign_int; [exact F| |exact Z].
  assert (G : forall st, ho_mutable (fst st) = true -> ho_mutable (fst (fold_left hstep ops st)) = true); [|apply G; reflexivity].
  induction A as [|op ops N A IH]; intros [o sv] M; [exact M|]. cbn [fold_left]. apply IH. cbn [fst] in M. destruct op as [g v| |m]; cbn [hstep].
  - destruct (hassign g v o) as [o'|e] eqn:E; [|exact M]. unfold hassign in E. destruct (hconvert g v); cbn [bind] in E; [|discriminate E]. rewrite M in E. cbn [negb] in E.
    destruct (hval_eqb _ _); injection E as <-; first [exact M|reflexivity].
  - unfold hflush. destruct (header_to_bytes (ho_hdr o)); cbn [bind fst]; exact M.
  - destruct m; [reflexivity|congruence].
Qed.
Print Assumptions C07_new_header_accepts.

Theorem C07_negative_values_rejected : forall f z o, f <> FUuid -> f <> FMagic -> z < 0 ->
  hassign f (PInt z) o = Err ValueError.
Proof. exact hassign_negative. Qed.
Print Assumptions C07_negative_values_rejected.

Theorem C07_immutable_header_never_changes : forall ops o saved, ho_mutable o = false ->
  Forall (fun op => match op with HSetMutable _ => False | _ => True end) ops ->
  ho_hdr (fst (fold_left hstep ops (o, saved))) = ho_hdr o.
Proof. exact immutable_unchanged. Qed.
Print Assumptions C07_immutable_header_never_changes.

(** The main page reads back as assigned; None is stored as 0xffffffff, which
    therefore also reads back as None. *)
Theorem C07_main_page_reads_back : forall v o o', hassign FMainPage v o = Ok o' ->
  main_page (ho_hdr o') = match v with PInt z => if z =? 4294967295 then None else Some z | _ => None end.
Proof. exact main_page_assign. Qed.
Print Assumptions C07_main_page_reads_back.

(** The same for the layout page. *)
Theorem C07_layout_page_reads_back : forall v o o', hassign FLayoutPage v o = Ok o' ->
  layout_page (ho_hdr o') = match v with PInt z => if z =? 4294967295 then None else Some z | _ => None end.
Proof. exact layout_page_assign. Qed.
Print Assumptions C07_layout_page_reads_back.

(** A header whose values never changed is not dirty: not after it was read, and
    not by assigning the values it has. *)
Theorem C07_unchanged_is_clean : forall ops h, (forall n, ho_hdr (fst (fold_left hstep (firstn n ops) (hobj_new h, h))) = h) ->
  ho_dirty (fst (fold_left hstep ops (hobj_new h, h))) = false.
Proof.
  intros ops h U. assert (G : forall ops o, ho_dirty o = false -> (forall n, ho_hdr (fst (fold_left hstep (firstn n ops) (o, h))) = h) -> ho_dirty (fst (fold_left hstep ops (o, h))) = false).
  { clear. induction ops as [|op ops IH]; intros o D U; [exact D|]. pose proof (U 0%nat) as U0. pose proof (U 1%nat) as U1. cbn [firstn fold_left fst] in U0, U1. cbn [fold_left].
    assert (E : exists o', hstep (o, h) op = (o', h) /\ ho_dirty o' = false).
    { destruct op as [f v| |m]; cbn [hstep] in *.
      - destruct (hassign f v o) as [o'|x] eqn:E; [|exists o; auto]. exists o'. split; [reflexivity|]. cbn [fst] in U1. destruct (hassign_spec _ _ _ _ E) as (c & _ & _ & H1 & _ & H2 & _). rewrite H2; [exact D|congruence].
      - destruct (hflush o) as [[b o']|x] eqn:E; [|exists o; auto]. exists o'. cbn [fst] in U1. split; [congruence|]. unfold hflush in E. destruct (header_to_bytes (ho_hdr o)); cbn [bind] in E; [|discriminate E]. injection E as _ <-. reflexivity.
      - eexists. split; [reflexivity|]. exact D. }
    destruct E as (o' & E & D'). rewrite E. apply IH; [exact D'|]. intro n. specialize (U (S n)). cbn [firstn fold_left] in U. rewrite E in U. exact U. }
  apply G; [reflexivity|exact U].
Qed.
Print Assumptions C07_unchanged_is_clean.
(** Uuids: numbers of 128 bits (read back as such), 16 bytes (which are the ones
    that are stored), or uuid objects. *)
Theorem C07_uuid : forall o, ho_mutable o = true ->
  (forall z, 0 <= z < 2 ^ 128 -> exists o', hassign FUuid (PInt z) o = Ok o' /\ zlen (h_uuid (ho_hdr o')) = 16 /\ le_val (rev (h_uuid (ho_hdr o'))) = z) /\
  (forall z, ~ 0 <= z < 2 ^ 128 -> hassign FUuid (PInt z) o = Err ValueError) /\
  (forall b, zlen b = 16 -> exists o', hassign FUuid (PBytes b) o = Ok o' /\ forall s, header_to_bytes (ho_hdr o') = Ok s -> zsub 8 16 s = b) /\
  (forall b, zlen b <> 16 -> hassign FUuid (PBytes b) o = Err ValueError) /\
  (forall b, zlen b = 16 -> exists o', hassign FUuid (PUuid b) o = Ok o' /\ h_uuid (ho_hdr o') = b).
Proof.
  intros o M. change (2 ^ 128) with (256 ^ 16).
  assert (A : forall v c, hconvert FUuid v = Ok (inr c) -> exists o', hassign FUuid v o = Ok o' /\ h_uuid (ho_hdr o') = c).
  { intros v c E. destruct (hassign FUuid v o) as [o'|x] eqn:EA.
    - exists o'. split; [reflexivity|]. apply hassign_spec in EA as (c' & Hc & _ & Hg & _). rewrite E in Hc. injection Hc as <-. cbn in Hg. congruence.
    - exfalso. unfold hassign in EA. rewrite E, M in EA. cbn [bind negb] in EA. destruct (hval_eqb _ _); discriminate EA. }
  split; [|split; [|split; [|split]]].
  - intros z Hz. destruct (A (PInt z) (rev (le_bytes 16 z))) as (o' & E & U). { cbn [hconvert]. replace ((0 <=? z) && (z <? 256 ^ 16)) with true by lia. reflexivity. }
    exists o'. split; [exact E|]. rewrite U, rev_involutive. split; [|apply le_val_bytes; exact Hz]. unfold zlen. rewrite rev_length. fold (zlen (le_bytes 16 z)). rewrite zlen_le_bytes. reflexivity.
  - intros z Hz. unfold hassign. cbn [hconvert]. replace ((0 <=? z) && (z <? 256 ^ 16)) with false by lia. reflexivity.
  - intros b Hb. destruct (A (PBytes b) (uuid_swap b)) as (o' & E & U). { cbn [hconvert]. rewrite Hb. reflexivity. }
    exists o'. split; [exact E|]. intros s Hs. unfold header_to_bytes in Hs. rewrite U, uuid_swap_invol in Hs by exact Hb.
    repeat match type of Hs with bind (pack_le ?n ?v) _ = _ => let F := fresh "F" in destruct (pack_le n v) eqn:F; cbn [bind] in Hs; [|discriminate Hs] end. injection Hs as <-.
    assert (PL : forall n v b0, pack_le n v = Ok b0 -> zlen b0 = Z.of_nat n). { intros n v b0 Q. unfold pack_le in Q. destruct (_ && _) in Q; [|discriminate Q]. injection Q as <-. apply zlen_le_bytes. }
    unfold zsub. rewrite !app_assoc. rewrite <- !(app_assoc (_ ++ b)). rewrite <- (app_assoc _ b).
    rewrite zskip_app_exact by (rewrite !zlen_app, (PL _ _ _ F), (PL _ _ _ F0), (PL _ _ _ F1); reflexivity). apply ztake_app_exact. exact Hb.
  - intros b Hb. unfold hassign. cbn [hconvert]. replace (zlen b =? 16) with false by lia. reflexivity.
  - intros b Hb. exact (A (PUuid b) b eq_refl).
Qed.
Print Assumptions C07_uuid.

Example header_history :
  let h := mkHeader 72173914 6 3 (repeat x07 16) 12 3 1000 0 2000 80 5 4294967295 3000 in
  let st := fold_left hstep [HAssign FMainPage (PInt 7); HAssign FMajor (PInt (-1)); HAssign FMainPage PNone;
                             HFlush; HAssign FEntryCount (PInt 12)] (hobj_new h, h) in
  ho_dirty (fst st) = false /\ main_page (snd st) = None /\ main_page h = Some 5.
Proof. vm_compute. auto. Qed.

(** C08 *)
Theorem C08_check_compatible_exact : forall h,
  check_compatible h = Ok tt <-> (h_magic h = 72173914 /\ h_major h = 6 /\ 1 <= h_minor h).
Proof. exact check_compatible_iff. Qed.
Print Assumptions C08_check_compatible_exact.

Example compatible_header :
  check_compatible (mkHeader 72173914 6 1 (repeat x07 16) 0 0 0 0 0 0 0 0 0) = Ok tt /\
  check_compatible (mkHeader 72173914 6 0 (repeat x07 16) 0 0 0 0 0 0 0 0 0) = Err IncompatibleZim /\
  check_compatible (mkHeader 72173913 6 1 (repeat x07 16) 0 0 0 0 0 0 0 0 0) = Err NotAZim.
Proof. vm_compute. auto. Qed.

(** C22 *)
Theorem C22_utf8_decode_encode : forall s b, utf8_encode s = Some b -> utf8_decode b = Some s.
Proof. exact decode_encode. Qed.
Print Assumptions C22_utf8_decode_encode.

Theorem C22_utf8_encode_decode : forall b s, utf8_decode b = Some s -> utf8_encode s = Some b.
Proof. exact encode_decode. Qed.
Print Assumptions C22_utf8_encode_decode.

Theorem C22_utf8_order : forall s t a b, utf8_encode s = Some a -> utf8_encode t = Some b -> bltb a b = ultb s t.
Proof. exact utf8_order. Qed.
Print Assumptions C22_utf8_order.

Theorem C22_utf8_prefix : forall s t a b, utf8_encode s = Some a -> utf8_encode t = Some b -> bprefix a b = uprefix s t.
Proof. exact utf8_prefix. Qed.
Print Assumptions C22_utf8_prefix.

(** every code point except surrogates can be encoded *)
Theorem C22_utf8_total : forall c, 0 <= c < 1114112 -> ~ (55296 <= c < 57344) -> exists b, enc1 c = Some b.
Proof. exact enc1_some. Qed.
Print Assumptions C22_utf8_total.

Example utf8_euro : utf8_encode [8364; 65] = Some [xe2; x82; xac; x41].
Proof. vm_compute. reflexivity. Qed.
