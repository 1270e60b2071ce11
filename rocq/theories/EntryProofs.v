(** Proofs about entry serialisation. *)
From Coq Require Import List ZArith Bool Lia.
From Coq Require Import ZifyBool ZifyNat ZifyN.
From Verif Require Import Base BaseProofs Utf8 Utf8Proofs Entry EntrySpec.
Import ListNotations.
Open Scope Z_scope.

(** *** read_until_zero *)
Lemma eqb_x00 : forall c, Byte.eqb c x00 = true <-> c = x00.
Proof.
  intro c. split; [apply Byte.byte_dec_bl|]. intros ->. reflexivity.
Qed.

Lemma ruz_loop_zero : forall a r s fuel, ~ In x00 a -> (length a < fuel)%nat ->
  ruz_loop fuel (a ++ x00 :: r) s = Ok (s ++ a, r).
Proof.
  induction a as [|c a IH]; intros r s fuel H L; destruct fuel as [|fuel]; try lia; cbn [app ruz_loop].
  - cbn. rewrite app_nil_r. reflexivity.
  - cbn in H, L. destruct (Byte.eqb c x00) eqn:E; [apply eqb_x00 in E; subst; tauto|].
    rewrite IH by (try lia; tauto). rewrite <- app_assoc. reflexivity.
Qed.

Lemma ruz_loop_eof : forall fuel f s, ~ In x00 f -> ruz_loop fuel f s = Err Diverge.
Proof.
  induction fuel as [|fuel IH]; intros f s H; [reflexivity|]. cbn [ruz_loop].
  destruct f as [|c f]; [apply IH; auto|]. destruct (Byte.eqb c x00) eqn:E.
  - apply eqb_x00 in E. subst. cbn in H. tauto.
  - apply IH. cbn in H. tauto.
Qed.

(** every file either has a next zero byte or not *)
Lemma split_zero : forall f : bytes, (exists a r, f = a ++ x00 :: r /\ ~ In x00 a) \/ ~ In x00 f.
Proof.
  induction f as [|c f IH]; [right; cbn; tauto|]. destruct (Byte.eqb c x00) eqn:E.
  - apply eqb_x00 in E. subst. left. exists [], f. cbn. auto.
  - assert (c <> x00) by (intro; subst; discriminate E).
    destruct IH as [(a & r & -> & H')|H'].
    + left. exists (c :: a), r. cbn. split; [reflexivity|]. intros [?|?]; auto.
    + right. cbn. intros [?|?]; auto.
Qed.

(** the fuel used by [read_until_zero] is enough: more fuel changes nothing *)
Lemma ruz_loop_fuel : forall f fuel, (length f < fuel)%nat -> ruz_loop fuel f [] = read_until_zero f.
Proof.
  intros f fuel H. unfold read_until_zero. destruct (split_zero f) as [(a & r & -> & Hn)|Hn].
  - rewrite app_length in *. cbn [length] in *. rewrite !ruz_loop_zero by (auto; lia). reflexivity.
  - rewrite !ruz_loop_eof by assumption. reflexivity.
Qed.

Lemma read_until_zero_app : forall a r, ~ In x00 a -> read_until_zero (a ++ x00 :: r) = Ok (a, r).
Proof.
  intros a r H. unfold read_until_zero. rewrite ruz_loop_zero; auto. rewrite app_length. cbn. lia.
Qed.

Lemma read_until_zero_inv : forall f s r, read_until_zero f = Ok (s, r) -> f = s ++ x00 :: r /\ ~ In x00 s.
Proof.
  intros f s r H. destruct (split_zero f) as [(a & r' & -> & Hn)|Hn].
  - rewrite read_until_zero_app in H by assumption. injection H as <- <-. auto.
  - unfold read_until_zero in H. rewrite ruz_loop_eof in H by assumption. discriminate.
Qed.

Lemma read_string_app : forall u b r, utf8_encode u = Some b -> ~ In 0 u ->
  read_string (b ++ x00 :: r) = Ok (u, r).
Proof.
  intros u b r H Hn. unfold read_string. rewrite read_until_zero_app.
  - cbn [bind]. unfold decode. rewrite (decode_encode u b H). reflexivity.
  - rewrite (utf8_nul u b H). exact Hn.
Qed.

(** *** slices of a concatenation *)
Lemma read_exact_app : forall n a r, zlen a = n -> read_exact n (a ++ r) = Ok (a, r).
Proof.
  intros n a r H. unfold read_exact. rewrite zlen_app. pose proof (zlen_nonneg r).
  replace (zlen a + zlen r <? n) with false by lia.
  rewrite ztake_app_exact, zskip_app_exact by assumption. reflexivity.
Qed.

Lemma storable_encode : forall s, storable s -> exists b, utf8_encode s = Some b /\ encode s = Ok b /\ ~ In 0 s.
Proof. intros s [[b H] Hn]. exists b. unfold encode. rewrite H. auto. Qed.

(** the serialised form, explicitly *)
Definition entry_bytes (e : entry) (ns : byte) (url ttl : bytes) : bytes :=
  le_bytes 2 (e_mimetype e) ++
  ((x00 :: [ns]) ++ le_bytes 4 0 ++
   match e_kind e with Content c b => le_bytes 4 c ++ le_bytes 4 b | Redirect i => le_bytes 4 i end) ++
  url ++ x00 :: ttl ++ [x00].

Lemma entry_to_bytes_ok : forall e, entry_storable e ->
  exists ns url ttl t, utf8_encode (e_ns e) = Some [ns] /\ utf8_encode (e_url e) = Some url /\ ~ In 0 (e_url e) /\
    e_title e = Some t /\ utf8_encode t = Some ttl /\ ~ In 0 t /\
    entry_to_bytes e = Ok (entry_bytes e ns url ttl).
Proof.
  intros e (Hm & [ns Hns] & Hu & (t & Ht & Hts) & Hk).
  apply storable_encode in Hu as (url & Hu & Hu' & Hun). apply storable_encode in Hts as (ttl & Hts & Hts' & Htn).
  exists ns, url, ttl, t. repeat (split; [assumption|]).
  unfold entry_to_bytes, entry_bytes. unfold encode at 1. rewrite Hns. cbn [bind].
  rewrite pack_le_ok by (cbn; lia). cbn [bind pack_char]. rewrite Hu', Ht, Hts'.
  destruct (e_kind e) as [c b|i]; rewrite !pack_le_ok by (cbn in *; lia); cbn [bind];
    f_equal; rewrite <- !app_assoc; cbn [app]; rewrite <- ?app_assoc; reflexivity.
Qed.

Lemma entry_roundtrip : forall e rest, entry_storable e -> kind_consistent e ->
  exists b, entry_to_bytes e = Ok b /\ entry_from_file (b ++ rest) = Ok (e, rest).
Proof.
  intros e rest Hs Hc. destruct (entry_to_bytes_ok e Hs) as (ns & url & ttl & t & Hns & Hu & Hun & Ht & Hts & Htn & ->).
  eexists. split; [reflexivity|]. destruct Hs as (Hm & _ & _ & _ & Hk).
  unfold entry_bytes. rewrite <- !app_assoc. unfold entry_from_file.
  rewrite read_exact_app by apply zlen_le_bytes. cbn [bind]. rewrite le_val_bytes by (cbn; lia).
  unfold kind_consistent in Hc. destruct e as [mt ns' url' t' k]. cbn [e_mimetype e_ns e_url e_title e_kind] in *. subst t'.
  assert (Hstr : forall r, read_string (url ++ (x00 :: ttl ++ [x00]) ++ r) = Ok (url', ttl ++ x00 :: r)).
  { intro r. rewrite <- app_comm_cons, <- app_assoc. apply read_string_app; assumption. }
  destruct k as [c b|i].
  - replace (mt =? MIMETYPE_ID_REDIRECT) with false by (unfold MIMETYPE_ID_REDIRECT; lia).
    unfold content_from_file.
    match goal with |- context [read_exact 14 ?x] =>
      change x with (([x00; ns; x00; x00; x00; x00] ++ le_bytes 4 c ++ le_bytes 4 b) ++ url ++ (x00 :: ttl ++ [x00]) ++ rest) end.
    rewrite read_exact_app by reflexivity. cbn [bind].
    change (zsub 0 1 _) with [x00]. change (zsub 1 1 _) with [ns]. change (zsub 2 4 _) with [x00; x00; x00; x00].
    change (zsub 6 4 _) with (le_bytes 4 c). change (zsub 10 4 _) with (le_bytes 4 b).
    rewrite !le_val_bytes by (cbn in *; lia). cbn [le_val]. change (Zb x00) with 0. cbn [Z.mul Z.add Z.to_nat].
    unfold decode. rewrite (decode_encode _ _ Hns). cbn [bind].
    rewrite Hstr. cbn [bind]. rewrite read_string_app with (u := t) by assumption. cbn [bind read_strings].
    reflexivity.
  - replace (mt =? MIMETYPE_ID_REDIRECT) with true by (unfold MIMETYPE_ID_REDIRECT; lia).
    unfold redirect_from_file.
    match goal with |- context [read_exact 10 ?x] =>
      change x with (([x00; ns; x00; x00; x00; x00] ++ le_bytes 4 i) ++ url ++ (x00 :: ttl ++ [x00]) ++ rest) end.
    rewrite read_exact_app by reflexivity. cbn [bind].
    change (zsub 0 1 _) with [x00]. change (zsub 1 1 _) with [ns]. change (zsub 2 4 _) with [x00; x00; x00; x00].
    change (zsub 6 4 _) with (le_bytes 4 i).
    rewrite !le_val_bytes by (cbn in *; lia). cbn [le_val]. change (Zb x00) with 0. cbn [Z.mul Z.add Z.to_nat].
    unfold decode. rewrite (decode_encode _ _ Hns). cbn [bind].
    rewrite Hstr. cbn [bind]. rewrite read_string_app with (u := t) by assumption. cbn [bind read_strings].
    unfold construct. cbn [negb Z.eqb]. subst mt. reflexivity.
Qed.

Lemma utf8_encode_nil_inv : forall s, utf8_encode s = Some [] -> s = [].
Proof. intros s H. apply decode_encode in H. cbn in H. congruence. Qed.

(** [get_disk_size] is the length of what [to_bytes] writes, whenever the
    latter succeeds. *)
Lemma entry_size_exact : forall e b, entry_to_bytes e = Ok b -> entry_disk_size e = Ok (zlen b).
Proof.
  intros e b H. unfold entry_to_bytes in H. unfold entry_disk_size.
  destruct (encode (e_ns e)) as [nsb|]; [|discriminate]. cbn [bind] in H.
  destruct (pack_le 2 (e_mimetype e)) as [mt|] eqn:E1; [|discriminate]. cbn [bind] in H.
  destruct (pack_char nsb) as [ns|] eqn:E2; [|discriminate]. cbn [bind] in H.
  assert (zlen ns = 1) by (destruct nsb as [|x [|y l]]; cbn in E2; try discriminate; injection E2 as <-; reflexivity).
  apply pack_le_inv in E1 as [_ ->].
  match type of H with bind ?m _ = _ => destruct m as [tl|] eqn:E3 end; [|discriminate]. cbn [bind] in H.
  assert (zlen tl = match e_kind e with Content _ _ => 8 | Redirect _ => 4 end).
  { destruct (e_kind e) as [c d|i].
    - destruct (pack_le 4 c) eqn:P1; [|discriminate]. destruct (pack_le 4 d) eqn:P2; [|discriminate].
      apply pack_le_inv in P1 as [_ ->]. apply pack_le_inv in P2 as [_ ->]. cbn [bind] in E3. injection E3 as <-. reflexivity.
    - apply pack_le_inv in E3 as [_ ->]. reflexivity. }
  destruct (encode (e_url e)) as [url|]; [|discriminate]. cbn [bind] in *.
  destruct (e_title e) as [[|c t]|]; [| |discriminate].
  - cbn [bind encode utf8_encode] in H. unfold encode in H. cbn in H. injection H as <-. cbn [bind].
    f_equal. repeat (rewrite ?zlen_app, ?zlen_cons, ?zlen_nil, ?zlen_le_bytes).
    destruct (e_kind e); lia.
  - destruct (encode (c :: t)) as [tb|]; [|discriminate]. cbn [bind] in *. injection H as <-. f_equal.
    repeat (rewrite ?zlen_app, ?zlen_cons, ?zlen_nil, ?zlen_le_bytes).
    destruct (e_kind e); lia.
Qed.

(** Reading at an offset where the bytes of an entry are stored. *)
Lemma entry_at_stored : forall e b file off, entry_storable e -> kind_consistent e ->
  entry_to_bytes e = Ok b -> 0 <= off -> fread file off (zlen b) = b -> entry_at file off = Ok e.
Proof.
  intros e b file off Hs Hc Hb Hoff Hr. unfold entry_at.
  assert (zskip off file = b ++ zskip (zlen b) (zskip off file)) as ->.
  { rewrite <- Hr at 1. unfold fread, zsub. rewrite ztake_zskip. reflexivity. }
  destruct (entry_roundtrip e (zskip (zlen b) (zskip off file)) Hs Hc) as (b' & Hb' & Hf).
  rewrite Hb in Hb'. injection Hb' as <-. rewrite Hf. reflexivity.
Qed.

Lemma entry_size_storable : forall e, entry_storable e -> exists b, entry_to_bytes e = Ok b /\ entry_disk_size e = Ok (zlen b).
Proof.
  intros e H. destruct (entry_to_bytes_ok e H) as (ns & url & ttl & t & _ & _ & _ & _ & _ & _ & E).
  eexists. split; [exact E|]. apply entry_size_exact; exact E.
Qed.

(** What is parsed as a redirect was written with the reserved mimetype. *)
Lemma entry_kind_preserved : forall e rest b e' r', entry_storable e -> kind_consistent e ->
  entry_to_bytes e = Ok b -> entry_from_file (b ++ rest) = Ok (e', r') -> is_redirect e' = is_redirect e.
Proof.
  intros e rest b e' r' Hs Hc Hb Hf. destruct (entry_roundtrip e rest Hs Hc) as (b' & Hb' & Hf').
  congruence.
Qed.

(** truncated strings make the parser hang *)
Lemma read_until_zero_diverges : forall f, ~ In x00 f -> forall fuel, ruz_loop fuel f [] = Err Diverge.
Proof. intros f H fuel. apply ruz_loop_eof; exact H. Qed.

Lemma read_until_zero_terminates_iff : forall f,
  (exists fuel s r, ruz_loop fuel f [] = Ok (s, r)) <-> In x00 f.
Proof.
  intro f. destruct (split_zero f) as [(a & r & -> & Hn)|Hn].
  - split; [intros _; apply in_elt|]. intros _. exists (S (length a)), a, r.
    rewrite ruz_loop_zero by (auto; lia). reflexivity.
  - split; [|tauto]. intros (fuel & s & r & H). rewrite ruz_loop_eof in H by assumption. discriminate.
Qed.

(** Serialisation succeeds only for storable entries (NUL characters aside). *)
Lemma encode_inv : forall s b, encode s = Ok b -> utf8_encode s = Some b.
Proof. intros s b. unfold encode. destruct (utf8_encode s); [|discriminate]. intro H. injection H as ->. reflexivity. Qed.

Lemma entry_to_bytes_inv : forall e b, entry_to_bytes e = Ok b ->
  ~ In 0 (e_url e) -> (forall t, e_title e = Some t -> ~ In 0 t) -> entry_storable e.
Proof.
  intros e b H Hu Ht. unfold entry_to_bytes in H. unfold entry_storable.
  destruct (encode (e_ns e)) as [nsb|] eqn:E0; [|discriminate]. cbn [bind] in H.
  destruct (pack_le 2 (e_mimetype e)) as [mt|] eqn:E1; [|discriminate]. cbn [bind] in H.
  destruct (pack_char nsb) as [ns|] eqn:E2; [|discriminate]. cbn [bind] in H.
  match type of H with bind ?m _ = _ => destruct m as [tl|] eqn:E3 end; [|discriminate]. cbn [bind] in H.
  destruct (encode (e_url e)) as [url|] eqn:E4; [|discriminate]. cbn [bind] in H.
  apply encode_inv in E0. apply encode_inv in E4. apply pack_le_inv in E1 as [E1 _].
  split; [cbn in E1; lia|]. split.
  { destruct nsb as [|x [|y l]]; cbn in E2; try discriminate. exists x. exact E0. }
  split; [split; [eauto|exact Hu]|]. split.
  { destruct (e_title e) as [t|]; [|discriminate]. exists t. split; [reflexivity|].
    destruct (encode t) as [tb|] eqn:E5; [|discriminate]. apply encode_inv in E5. split; eauto. }
  destruct (e_kind e) as [c d|i].
  - destruct (pack_le 4 c) eqn:P1; [|discriminate]. destruct (pack_le 4 d) eqn:P2; [|discriminate].
    apply pack_le_inv in P1 as [P1 _]. apply pack_le_inv in P2 as [P2 _]. cbn in P1, P2. lia.
  - apply pack_le_inv in E3 as [E3 _]. cbn in E3. lia.
Qed.

Lemma entry_roundtrip_any : forall e b rest, entry_to_bytes e = Ok b ->
  ~ In 0 (e_url e) -> (forall t, e_title e = Some t -> ~ In 0 t) -> kind_consistent e ->
  entry_from_file (b ++ rest) = Ok (e, rest).
Proof.
  intros e b rest Hb Hu Ht Hk. pose proof (entry_to_bytes_inv e b Hb Hu Ht) as Hs.
  destruct (entry_roundtrip e rest Hs Hk) as (b' & Hb' & Hf). congruence.
Qed.

(** The parser reads nothing beyond what it consumes. *)
Lemma read_exact_inv : forall n f a r, 0 <= n -> read_exact n f = Ok (a, r) -> f = a ++ r /\ zlen a = n.
Proof.
  intros n f a r Hn. unfold read_exact. destruct (zlen f <? n) eqn:E; [discriminate|].
  intro H. injection H as <- <-. split; [symmetry; apply ztake_zskip|]. rewrite ztake_len; lia.
Qed.
Lemma read_exact_local : forall n f a r x, 0 <= n -> read_exact n f = Ok (a, r) -> read_exact n (f ++ x) = Ok (a, r ++ x).
Proof.
  intros n f a r x Hn H. apply read_exact_inv in H as [-> H]; [|assumption].
  rewrite <- app_assoc. apply read_exact_app. exact H.
Qed.
Lemma read_string_inv : forall f u r, read_string f = Ok (u, r) ->
  exists b, f = b ++ x00 :: r /\ ~ In x00 b /\ utf8_decode b = Some u.
Proof.
  intros f u r H. unfold read_string in H. destruct (read_until_zero f) as [[s f']|] eqn:E; [|discriminate].
  cbn [bind] in H. unfold decode in H. destruct (utf8_decode s) eqn:D; [|discriminate]. cbn [bind] in H.
  injection H as <- <-. apply read_until_zero_inv in E as [-> Hn]. eauto.
Qed.
Lemma read_string_local : forall f u r x, read_string f = Ok (u, r) -> read_string (f ++ x) = Ok (u, r ++ x).
Proof.
  intros f u r x H. apply read_string_inv in H as (b & -> & Hn & Hd).
  unfold read_string. rewrite <- app_assoc. cbn [app]. rewrite read_until_zero_app by assumption. cbn [bind].
  unfold decode. rewrite Hd. reflexivity.
Qed.
Lemma read_strings_local : forall n f u r x, read_strings n f = Ok (u, r) -> read_strings n (f ++ x) = Ok (u, r ++ x).
Proof.
  induction n as [|n IH]; intros f u r x H; cbn [read_strings] in *.
  - injection H as <- <-. reflexivity.
  - destruct (read_string f) as [[u1 f1]|] eqn:E; [|discriminate]. cbn [bind] in H.
    rewrite (read_string_local _ _ _ x E). cbn [bind].
    destruct (read_strings n f1) as [[us f2]|] eqn:E2; [|discriminate]. cbn [bind] in H. injection H as <- <-.
    rewrite (IH _ _ _ x E2). reflexivity.
Qed.

Lemma entry_from_file_local : forall f e r x, entry_from_file f = Ok (e, r) -> entry_from_file (f ++ x) = Ok (e, r ++ x).
Proof.
  intros f e r x H. unfold entry_from_file in *.
  destruct (read_exact 2 f) as [[m f1]|] eqn:E; [|discriminate]. cbn [bind] in H.
  rewrite (read_exact_local 2 _ _ _ x ltac:(lia) E). cbn [bind].
  destruct (le_val m =? MIMETYPE_ID_REDIRECT).
  - unfold redirect_from_file in *.
    destruct (read_exact 10 f1) as [[d f2]|] eqn:E2; [|discriminate]. cbn [bind] in H.
    rewrite (read_exact_local 10 _ _ _ x ltac:(lia) E2). cbn [bind].
    destruct (decode (zsub 1 1 d)) as [ns|]; [|discriminate]. cbn [bind] in *.
    destruct (read_string f2) as [[u f3]|] eqn:E3; [|discriminate]. cbn [bind] in H.
    rewrite (read_string_local _ _ _ x E3). cbn [bind].
    destruct (read_string f3) as [[t f4]|] eqn:E4; [|discriminate]. cbn [bind] in H.
    rewrite (read_string_local _ _ _ x E4). cbn [bind].
    destruct (read_strings _ f4) as [[ps f5]|] eqn:E5; [|discriminate]. cbn [bind] in H.
    rewrite (read_strings_local _ _ _ _ x E5). cbn [bind].
    destruct (construct _ _ _ _ _ _ _); [|discriminate]. cbn [bind] in *. injection H as <- <-. reflexivity.
  - unfold content_from_file in *.
    destruct (read_exact 14 f1) as [[d f2]|] eqn:E2; [|discriminate]. cbn [bind] in H.
    rewrite (read_exact_local 14 _ _ _ x ltac:(lia) E2). cbn [bind].
    destruct (decode (zsub 1 1 d)) as [ns|]; [|discriminate]. cbn [bind] in *.
    destruct (read_string f2) as [[u f3]|] eqn:E3; [|discriminate]. cbn [bind] in H.
    rewrite (read_string_local _ _ _ x E3). cbn [bind].
    destruct (read_string f3) as [[t f4]|] eqn:E4; [|discriminate]. cbn [bind] in H.
    rewrite (read_string_local _ _ _ x E4). cbn [bind].
    destruct (read_strings _ f4) as [[ps f5]|] eqn:E5; [|discriminate]. cbn [bind] in H.
    rewrite (read_strings_local _ _ _ _ x E5). cbn [bind].
    destruct (construct _ _ _ _ _ _ _); [|discriminate]. cbn [bind] in *. injection H as <- <-. reflexivity.
Qed.

(** What the parser accepts is always consistent: a redirect kind comes with
    the reserved mimetype and conversely. *)
Lemma entry_from_file_consistent : forall f e r, entry_from_file f = Ok (e, r) -> kind_consistent e.
Proof.
  intros f e r H. unfold entry_from_file in H.
  destruct (read_exact 2 f) as [[m f1]|]; [|discriminate]. cbn [bind] in H.
  destruct (le_val m =? MIMETYPE_ID_REDIRECT) eqn:M.
  - unfold redirect_from_file in H.
    destruct (read_exact 10 f1) as [[d f2]|]; [|discriminate]. cbn [bind] in H.
    destruct (decode (zsub 1 1 d)) as [ns|]; [|discriminate]. cbn [bind] in *.
    destruct (read_string f2) as [[u f3]|]; [|discriminate]. cbn [bind] in H.
    destruct (read_string f3) as [[t f4]|]; [|discriminate]. cbn [bind] in H.
    destruct (read_strings _ f4) as [[ps f5]|]; [|discriminate]. cbn [bind] in H.
    unfold construct in H. destruct (negb _); [discriminate|]. destruct ps; [|discriminate]. cbn [bind] in H. injection H as <- <-.
    reflexivity.
  - unfold content_from_file in H.
    destruct (read_exact 14 f1) as [[d f2]|]; [|discriminate]. cbn [bind] in H.
    destruct (decode (zsub 1 1 d)) as [ns|]; [|discriminate]. cbn [bind] in *.
    destruct (read_string f2) as [[u f3]|]; [|discriminate]. cbn [bind] in H.
    destruct (read_string f3) as [[t f4]|]; [|discriminate]. cbn [bind] in H.
    destruct (read_strings _ f4) as [[ps f5]|]; [|discriminate]. cbn [bind] in H.
    unfold construct in H. destruct (negb _); [discriminate|]. destruct ps; [|discriminate]. cbn [bind] in H. injection H as <- <-.
    unfold kind_consistent. cbn. unfold MIMETYPE_ID_REDIRECT in M. lia.
Qed.
